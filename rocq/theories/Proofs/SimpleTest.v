(** The simple bundled program. *)
From Coq Require Import ZArith Bool Ascii String Lia Permutation Reals Lra List.
From Flocq Require Import Core BinarySingleNaN.
From Verif Require Import Model.Base Model.Decimal Model.Float Model.DatasetM Model.ModelStringM Model.PolicyModelsM Model.ConfigM Model.RuntimeM Model.TestM Model.SimpleTestM
  Spec.ModelStringSpec Spec.DatasetSpec Spec.DatasetClient Spec.TreeSpec Spec.ForestSpec Spec.PolicyNetSpec Spec.RuntimeSpec
  Proofs.TreeFacts Proofs.ModelStringFacts Proofs.RuntimeFacts Proofs.RuntimeOps Proofs.RuntimeSettled Proofs.RuntimeAccount Proofs.RuntimeRange Proofs.RuntimeCreate Proofs.RuntimeNew Proofs.RuntimeStatic
  Proofs.FloatConv Proofs.KokkosDoubles Spec.SafeClient Proofs.SafeModels Proofs.SafeSteps Proofs.SafeRuns Proofs.SafeExamples Proofs.TestProgram Proofs.TestVerdict.
Import ListNotations.
Open Scope Z_scope.

Section Simple.
Context (P : platform) (c : config) (files : list (bytes * bytes)) (started ended : nat -> Z * Z) (D : nat -> draws) (init : nat -> nat -> f64).
Hypothesis HS : sorter_ok (p_sort P).
Hypothesis HP : picker_ok (p_pick P).
Hypothesis PL : plain c.
Hypothesis MS : model_string_ok (cf_policy_model c).
Hypothesis DO : forall j, draws_ok (D j).
Hypothesis DS : forall j l, l <> [] -> exists i, d_discrete (D j) l = Ok i.

Lemma one_usable : is_nan (f32_of_Z 1) = false /\ ~ unprintable (f32_of_Z 1) /\ encodable (f32_of_Z 1).
Proof.
  destruct (small_number 1) as [N U]; [unfold small_feature; auto|]. split; [exact N|]. split; [exact U|]. split; [reflexivity|].
  destruct (FloatConv.f32_of_Z_spec 1) as [_ E]; [lia|]. rewrite E. split; [lra|apply IZR_lt; lia].
Qed.

Lemma use_one v : nth_error (v_regions v) 0 = Some (1, cf_policy_model c) -> usable c v 0 [f32_of_Z 1].
Proof.
  intros E. destruct one_usable as (N & U & C). exists 1, (cf_policy_model c). split; [exact E|]. split; [reflexivity|].
  split; [apply Forall_cons; [exact N|constructor]|]. split; intros _; apply Forall_cons; assumption || constructor.
Qed.
Lemma sample_one v j : sampling_ok v 0 (D j).
Proof. split; [apply DO|]. intros nf s _ _. apply DS. Qed.

Lemma simple_iteration n : forall j, flat_map (simple_execution started ended D) (seq j n) = test_iteration started ended D j (repeat 1 n).
Proof. induction n as [|n IH]; intros j; [reflexivity|]. cbn [seq flat_map repeat test_iteration]. rewrite IH. reflexivity. Qed.

Lemma ones_script n : forall j v, nth_error (v_regions v) 0 = Some (1, cf_policy_model c) -> script c v (test_iteration started ended D j (repeat 1 n)).
Proof.
  induction n as [|n IH]; intros j v E; [exact I|].
  cbn [repeat test_iteration test_execution app script].
  split; [cbn [allowed]; apply nth_error_Some; rewrite E; discriminate|]. intros x1 H1. cbn [shape] in H1. subst x1.
  set (v1 := view_step c v _).
  assert (E1 : nth_error (v_regions v1) 0 = Some (1, cf_policy_model c)) by exact E.
  assert (O1 : open_on v1 0 None []) by (eexists; split; [reflexivity|]; split; reflexivity).
  assert (M1 : meant v1 0 None = Some (0%nat, Sync)) by reflexivity.
  assert (P1 : v_open v1 (0%nat, Sync) = Some []) by reflexivity.
  clearbody v1. split; [exists []; exact O1|]. intros x2 _.
  set (v2 := view_step c v1 _).
  assert (E2 : v2 = with_open (0%nat, Sync) (Some [f32_of_Z 1]) v1) by (unfold v2; cbn [view_step]; rewrite M1, P1; reflexivity).
  clearbody v2. assert (R2 : nth_error (v_regions v2) 0 = Some (1, cf_policy_model c)) by (subst v2; exact E1).
  assert (O2 : open_on v2 0 None [f32_of_Z 1]) by (exists (0%nat, Sync); subst v2; split; [exact M1|]; split; reflexivity).
  clear E2. split; [exists [f32_of_Z 1]; split; [exact O2|]; split; [apply use_one; assumption|apply sample_one]|]. intros x3 _.
  cbn [view_step]. split; [exists [f32_of_Z 1]; split; [exact O2|apply use_one; assumption]|]. intros x4 _.
  apply IH. cbn [view_step]. unfold close. cbn [with_current v_regions]. destruct (meant v2 0 None); exact R2.
Qed.

Lemma simple_script : script c fresh_view (simple_main started ended D init).
Proof.
  unfold simple_main, simple_region. cbn [script]. split.
  - cbn [allowed]. split; [lia|]. split; [lia|]. split; [reflexivity|exact MS].
  - intros x _. rewrite simple_iteration. apply ones_script. reflexivity.
Qed.

Lemma parses name ps : parse_policy_model (cf_policy_model c) = Ok (name, ps) ->
  name <> $"Optimal" /\ name <> $"DatasetMap" /\ param_find ($"load") ps = None /\ param_find ($"load-dataset") ps = None.
Proof.
  destruct MS as (mn & items & EI & MO). destruct (name_facts mn (mo_name _ _ MO)) as (FN & NS & NO & ND).
  destruct (parse_gives_items mn items FN (mo_items _ _ MO) (mo_documented _ _ MO)) as (ps' & EP & FV). rewrite EI, EP. intros E. inversion E; subst.
  split; [apply bytes_eqb_neq; exact NO|]. split; [apply bytes_eqb_neq; exact ND|].
  split; apply FV; [exact (mo_load _ _ MO)|exact (mo_load_dataset _ _ MO)].
Qed.

Lemma same_answers r l : forall j ys, answers (test_iteration started ended D j l) ys r = answers (named_iteration started ended D j l) ys r.
Proof.
  induction l as [|x l IH]; intros j ys; [reflexivity|].
  cbn [test_iteration named_iteration test_execution named_execution app]. destruct ys as [|y1 [|y2 [|y3 [|y4 ys]]]]; try reflexivity. cbn [answers]. rewrite IH. reflexivity.
Qed.

Lemma simple_runs : exists w xs, run P (start_world c files) (simple_main started ended D init) = Ok (w, xs) /\
  List.length (answers (simple_main started ended D init) xs 0) = 10%nat /\ Forall (fun k => 0 <= k < 2) (answers (simple_main started ended D init) xs 0) /\
  forall waits, exists w', step P w (OpShutdown waits) = Ok (w', Done).
Proof.
  destruct (safe_runs P c HS HP PL files (simple_main started ended D init)) as (w & xs & RUN & SH).
  - reflexivity.
  - apply script_behaved. exact simple_script.
  - exists w, xs. split; [exact RUN|]. unfold simple_main in *. rewrite simple_iteration in *. set (os := test_iteration started ended D 0 (repeat 1 10)) in *.
    assert (RUN' := RUN). cbn [run] in RUN'. apply bind_inv in RUN' as ([w0 x0] & E0 & RUN'). apply bind_inv in RUN' as ([w3 ys] & H & X). inversion X; subst w3 xs. clear X.
    destruct (iteration_run P started ended D _ _ _ _ _ H) as (N1 & LA & _). destruct (named_kinds started ended D DO (repeat 1 10) 0) as (K1 & K2 & K3 & K4 & K5 & K6 & K7).
    assert (X0 : x0 = GotRegion 0).
    { cbn [step simple_region] in E0. apply bind_inv in E0 as ([w1 r] & E0 & X). inversion X; subst. clear X. f_equal.
      destruct (new_region_empty P _ _ _ _ _ _ _ _ _ _ E0) as (mn0 & ps0 & mn & ps & info' & m0 & m1 & m & R & EP & ER & EC & EL & EM & -> & EW & EX); [|exact EW].
      split; [apply PL|]. intros name ps EP. destruct (parses _ _ EP) as (A & B & C & E). auto. }
    subst x0. cbn [answers simple_region app]. split; [exact LA|].
    assert (NRUN : run P (start_world c files) (simple_region init :: named_iteration started ended D 0 (repeat 1 10)) = Ok (w, GotRegion 0 :: ys)).
    { cbn [run]. rewrite E0. cbn [bind]. rewrite N1. reflexivity. }
    split.
    + assert (SAME : answers os ys 0 = answers (named_iteration started ended D 0 (repeat 1 10)) ys 0).
      { apply same_answers. }
      apply Forall_forall. intros k IN. rewrite SAME in IN. destruct (answers_in _ _ _ _ IN) as (p & d & IN').
      destruct (policies_in_range P c files _ _ _ NRUN) with (nf := 1) (nm := $"test-region") (np := 2) (mt := 0) (info := @nil ascii) (yaml := @nil ascii) (init := init) (r := 0%nat) as [PR _].
      * apply PL.
      * constructor; [exact I|exact K3].
      * constructor; [exact I|exact K4].
      * intros os1 o os2 w1 xs1 E H1. destruct os1 as [|o1 os1].
        -- cbn in E. inversion E; subst. cbn in H1. inversion H1; subst. split; [reflexivity|]. split; [left; apply PL|]. intros name ps EP. exact (parses _ _ EP).
        -- assert (EB := f_equal (@tl op) E). cbn [tl app] in EB. rewrite EB in K1. apply Forall_app in K1 as [_ K1]. inversion K1; subst. destruct o; try exact I. contradiction.
      * left. reflexivity.
      * lia.
      * apply (PR p d k). right. exact IN'.
    + apply SH. intros r. unfold pending_of. destruct (nth_error (w_regions w) r) as [R|] eqn:ER; [|reflexivity].
      assert (ID : KokkosTrain.idle w). { eapply sync_pending; [exact NRUN|exact K2|]. constructor; [exact I|exact K7]. }
      exact (ID _ _ ER).
Qed.
End Simple.

(** The settings of an empty environment. *)
Lemma defaults_string : model_string_ok (cf_policy_model defaults).
Proof.
  assert (E : cf_policy_model defaults = $"Static,policy=0").
  { apply bytes_eqb_eq. vm_compute. reflexivity. }
  rewrite E. exists ($"Static"), [($"policy", Some ($"0"))]. split; [reflexivity|]. constructor.
  - cbn. auto.
  - repeat (apply Forall_cons; [split; [free|split; [free|cbn [snd]; free]]|]). constructor.
  - intros i Ii. cbn in Ii. destruct Ii as [<-|[]]; constructor.
  - apply value_in_first. reflexivity.
  - apply value_in_first. reflexivity.
  - values. cbn [int_value]. exists 0. split; [reflexivity|lia].
  - values. exact I.
  - values. exact I.
  - intros e H. apply value_in_first in H. vm_compute in H. discriminate H.
  - intros k v Ik H. apply value_in_first in H. cbn in Ik. destruct Ik as [<-|[<-|[<-|[<-|[<-|[]]]]]]; vm_compute in H; subst; exact I.
Qed.

Lemma defaults_text : cf_policy_model defaults = $"Static,policy=" ++ print_Z 0.
Proof. apply bytes_eqb_eq. vm_compute. reflexivity. Qed.

Lemma simple_static P c files started ended D init p w xs : 0 <= p <= 2147483647 -> cf_policy_model c = $"Static,policy=" ++ print_Z p ->
  run P (start_world c files) (simple_main started ended D init) = Ok (w, xs) ->
  Forall (eq (if p <? 2 then p else 0)) (answers (simple_main started ended D init) xs 0).
Proof.
  intros B PM H. assert (X : exists ys, xs = GotRegion 0 :: ys).
  { assert (H' := H). cbn [run simple_main] in H'. apply bind_inv in H' as ([w0 x0] & E0 & H'). apply bind_inv in H' as ([w3 ys] & _ & X). inversion X; subst w3 xs. clear X.
    cbn [step simple_region] in E0. apply bind_inv in E0 as ([w1 r] & E0 & X). inversion X; subst. exists ys. f_equal. f_equal.
    destruct (RuntimeNew.new_region_spec P _ _ _ _ _ _ _ _ _ _ E0) as (-> & _). reflexivity. }
  destruct X as (ys & ->). apply Forall_forall. intros k IN. destruct (answers_in _ _ _ _ IN) as (q & d & IN'). symmetry.
  eapply RuntimeStatic.static_run; [exact B|exact PM|exact H| |left; reflexivity|exact IN'].
  unfold simple_main. constructor; [reflexivity|]. apply Forall_flat_map. apply Forall_forall. intros j _. repeat (constructor; [exact I|]). constructor.
Qed.
