(** What the bundled test program reports. *)
From Coq Require Import ZArith Bool Ascii String Lia Permutation List.
From Flocq Require Import BinarySingleNaN.
From Verif Require Import Model.Base Model.Decimal Model.Float Model.DatasetM Model.ModelStringM Model.PolicyModelsM Model.ConfigM Model.RuntimeM Model.TestM
  Spec.ModelStringSpec Spec.DatasetSpec Spec.DatasetClient Spec.TreeSpec Spec.ForestSpec Spec.RuntimeSpec
  Proofs.TreeFacts Proofs.ModelStringFacts Proofs.RuntimeFacts Proofs.RuntimePending Proofs.RuntimeOps Proofs.RuntimeSettled Proofs.RuntimeAccount Proofs.RuntimeRecords Proofs.RuntimeRegistry Proofs.RuntimeCreate Proofs.RuntimeTraining Proofs.RuntimeWatch
  Proofs.RuntimeLearn Proofs.RuntimeRange Proofs.RuntimeTraceDefects Proofs.KokkosTrain Proofs.KokkosMeasured Spec.SafeClient Proofs.SafeModels Proofs.SafeSteps Proofs.SafeExamples Proofs.TestProgram.
Import ListNotations.
Open Scope Z_scope.

Definition test_text : bytes := $"DecisionTree,max_depth=3".

Lemma test_string : model_string_ok test_text.
Proof.
  exists ($"DecisionTree"), [($"max_depth", Some ($"3"))]. split; [reflexivity|]. constructor.
  - cbn. auto.
  - repeat (apply Forall_cons; [split; [free|split; [free|cbn [snd]; free]]|]). constructor.
  - intros i Ii. cbn in Ii. destruct Ii as [<-|[]]; apply doc_tree; cbn; auto.
  - apply value_in_first. reflexivity.
  - apply value_in_first. reflexivity.
  - values. exact I.
  - values. cbn [int_value]. exists 3. split; [reflexivity|lia].
  - values. exact I.
  - intros e H. apply value_in_first in H. vm_compute in H. discriminate H.
  - intros k v Ik H. apply value_in_first in H. cbn in Ik. destruct Ik as [<-|[<-|[<-|[<-|[<-|[]]]]]]; vm_compute in H; subst; exact I.
Qed.

Definition small_feature (z : Z) : Prop := z = 0 \/ z = 1 \/ z = 2 \/ z = 3.
Lemma test_features_small : Forall small_feature test_features.
Proof. let l := eval vm_compute in test_features in change test_features with l. repeat (apply Forall_cons; [unfold small_feature; lia|]). constructor. Qed.
Lemma small_number z : small_feature z -> is_nan (f32_of_Z z) = false /\ ~ unprintable (f32_of_Z z).
Proof. intros [->|[->|[->| ->]]]; (split; [reflexivity|intros U; apply unprintable_undefined in U; vm_compute in U; discriminate U]). Qed.

Section Script.
Variable c : config.
Variable started ended : nat -> Z * Z.
Variable D : nat -> draws.
Hypothesis DO : forall j, draws_ok (D j).

Lemma use_test v z : small_feature z -> nth_error (v_regions v) 0 = Some (1, test_text) -> usable c v 0 [f32_of_Z z].
Proof.
  intros S E. destruct (small_number z S) as [N U]. exists 1, test_text. split; [exact E|]. split; [reflexivity|]. split; [constructor; [exact N|constructor]|].
  split; [intros _; constructor; [exact U|constructor]|]. intros X. exfalso. exact (quiet_string _ (eq_refl : mentions_b test_text = false) X).
Qed.
Lemma sample_test v j : nth_error (v_regions v) 0 = Some (1, test_text) -> sampling_ok v 0 (D j).
Proof.
  intros E. split; [apply DO|]. intros nf s E' X. rewrite E in E'. inversion E'; subst. exfalso. exact (quiet_string _ (eq_refl : mentions_b test_text = false) X).
Qed.

Lemma iteration_script xs rest : Forall small_feature xs -> forall j v, nth_error (v_regions v) 0 = Some (1, test_text) ->
  (forall v', nth_error (v_regions v') 0 = Some (1, test_text) -> script c v' rest) -> script c v (test_iteration started ended D j xs ++ rest).
Proof.
  induction 1 as [|x xs S _ IH]; intros j v E K; [apply K; exact E|].
  cbn [test_iteration test_execution app script].
  split; [cbn [allowed]; apply nth_error_Some; rewrite E; discriminate|]. intros x1 H1. cbn [shape] in H1. subst x1.
  set (v1 := view_step c v _).
  assert (E1 : nth_error (v_regions v1) 0 = Some (1, test_text)) by exact E.
  assert (O1 : open_on v1 0 None []) by (eexists; split; [reflexivity|]; split; reflexivity).
  assert (M1 : meant v1 0 None = Some (0%nat, Sync)) by reflexivity.
  assert (P1 : v_open v1 (0%nat, Sync) = Some []) by reflexivity.
  clearbody v1. split; [exists []; exact O1|]. intros x2 _.
  set (v2 := view_step c v1 _).
  assert (E2 : v2 = with_open (0%nat, Sync) (Some [f32_of_Z x]) v1) by (unfold v2; cbn [view_step]; rewrite M1, P1; reflexivity).
  clearbody v2. assert (R2 : nth_error (v_regions v2) 0 = Some (1, test_text)) by (subst v2; exact E1).
  assert (O2 : open_on v2 0 None [f32_of_Z x]) by (exists (0%nat, Sync); subst v2; split; [exact M1|]; split; reflexivity).
  clear E2. split; [exists [f32_of_Z x]; split; [exact O2|]; split; [apply use_test; assumption|apply sample_test; assumption]|]. intros x3 _.
  cbn [view_step]. split; [exists [f32_of_Z x]; split; [exact O2|apply use_test; assumption]|]. intros x4 _.
  apply IH; [|exact K]. cbn [view_step]. unfold close. cbn [with_current v_regions]. destruct (meant v2 0 None); exact R2.
Qed.

Variable init : nat -> nat -> f64.
Lemma test_script : script c fresh_view (test_explore started ended D init ++ test_exploit started ended D).
Proof.
  unfold test_explore, test_exploit, test_region. rewrite <- app_comm_cons, <- app_assoc. cbn [script]. split.
  - cbn [allowed]. split; [lia|]. split; [cbn; lia|]. split; [reflexivity|exact test_string].
  - intros x _. apply iteration_script; [exact test_features_small|reflexivity|]. intros v E. cbn [app script]. split; [exact I|]. intros y _.
    rewrite <- (app_nil_r (test_iteration _ _ _ _ _)). apply iteration_script; [exact test_features_small|exact E|]. intros v' _. exact I.
Qed.
End Script.

(** ** The tree *)

Definition tree_at (i : nat) (m : model) (_ : dataset) : Prop := i = 0%nat -> exists n b t e, m = MTree n b t e.

Section Verdict.
Variable P : platform.
Variable c : config.
Variable files : list (bytes * bytes).
Variable started ended : nat -> Z * Z.
Variable D : nat -> draws.
Variable init : nat -> nat -> f64.
Hypothesis HS : sorter_ok (p_sort P).
Hypothesis HP : picker_ok (p_pick P).
Hypothesis PL : plain c.
Hypothesis DO : forall j, draws_ok (D j).

Lemma tree_closed single persistent : closed P tree_at single persistent true.
Proof.
  constructor.
  - intros i m0 d0 m d m' _ G _ E X. destruct (G X) as (n & b & t & e & ->). cbn [m_train] in E. destruct (ds_find_min d [] []) as [[fs rs] best]. apply bind_inv in E. destruct E as (t' & _ & E). inversion E; subst. eauto.
  - intros i m d d2 m' _ G E X. destruct (G X) as (n & b & t & e & ->). cbn [m_train] in E. destruct (ds_find_min d2 [] []) as [[fs rs] best]. apply bind_inv in E. destruct E as (t' & _ & E). inversion E; subst. eauto.
  - intros i m d f p x d' _ G _. exact G.
Qed.

Definition no_region (o : op) : Prop := match o with OpRegion _ _ _ _ _ _ _ => False | _ => True end.

Lemma tree_step w o w' x : no_region o -> watched tree_at 0 0 w -> step P w o = Ok (w', x) ->
  watched tree_at 0 0 w' /\ List.length (w_regions w') = List.length (w_regions w).
Proof.
  intros N W E. assert (A : (exists r p d, o = OpGetPolicy r p d) \/ match o with OpRegion _ _ _ _ _ _ _ | OpGetPolicy _ _ _ => False | OpTrain _ _ _ force => force = true -> true = true | _ => True end).
  { destruct o; cbn in N; auto. left. eauto. }
  destruct A as [(r & p & d & ->)|A].
  - split.
    + eapply watched_get_policy; [exact W|exact E|]. intros R y k m _ EM G X. destruct (G X) as (n & b & t & e & EQ). rewrite EQ in EM. cbn [m_get_index] in EM.
      destruct b; cbn [negb] in EM.
      * destruct e as [e|]; [|discriminate EM]. apply bind_inv in EM. destruct EM as ([k' e'] & _ & EM). inversion EM; subst. eauto.
      * apply bind_inv in EM. destruct EM as (k' & _ & EM). inversion EM; subst. eauto.
    + cbn [step] in E. apply bind_inv in E. destruct E as (q & _ & E). apply bind_inv in E. destruct E as ([w1 k] & E & X). inversion X; subst.
      destruct (get_policy_exact P _ _ _ _ _ _ E) as (R & cx & m & _ & _ & _ & _ & L & _). exact L.
  - exact (watched_step P tree_at 0 0 true (tree_closed 0 0) _ _ _ _ W E A).
Qed.

Lemma tree_run os : forall w w' xs, Forall no_region os -> watched tree_at 0 0 w -> run P w os = Ok (w', xs) ->
  watched tree_at 0 0 w' /\ List.length (w_regions w') = List.length (w_regions w).
Proof.
  induction os as [|o os IH]; intros w w' xs F W H; cbn [run] in H; [inversion H; subst; auto|].
  apply bind_inv in H. destruct H as ([w1 x] & E1 & H). apply bind_inv in H. destruct H as ([w2 ys] & E2 & H). inversion H; subst. inversion F; subst.
  destruct (tree_step _ _ _ _ H2 W E1) as [W1 L1]. destruct (IH _ _ _ H3 W1 E2) as [W2 L2]. split; [exact W2|congruence].
Qed.

Lemma parsed_test : parse_policy_model test_text = Ok ($"DecisionTree", [($"max_depth", $"3")]).
Proof. vm_compute. reflexivity. Qed.

Lemma test_starts_empty : starts_empty c test_text.
Proof.
  split; [apply PL|]. intros name ps E. change (match test_text with [] => cf_policy_model c | _ => test_text end) with test_text in E. rewrite parsed_test in E.
  inversion E; subst. split; [discriminate|reflexivity].
Qed.

Lemma created w x : step P (start_world c files) (test_region init) = Ok (w, x) -> x = GotRegion 0 /\ watched tree_at 0 0 w /\ List.length (w_regions w) = 1%nat.
Proof.
  intros H. cbn [step test_region] in H. apply bind_inv in H. destruct H as ([w1 r] & H & E). inversion E; subst. clear E.
  destruct (new_region_empty P _ _ _ _ _ _ _ _ _ _ H test_starts_empty) as (mn0 & ps0 & mn & ps & info' & m0 & m1 & m & R & EP & ER & EC & EL & EM & -> & -> & ->).
  split; [reflexivity|].
  change (parse_policy_model test_text = Ok (mn0, ps0)) in EP. rewrite parsed_test in EP. inversion EP; subst. clear EP.
  assert (EQ : mn = $"DecisionTree" /\ ps = [($"max_depth", $"3")]).
  { unfold resolve_static_region in ER. change (bytes_eqb ($"DecisionTree") ($"StaticRegion")) with false in ER. cbv iota in ER. inversion ER; subst. auto. }
  destruct EQ as [-> ->]. assert (T : exists n b t e, m0 = MTree n b t e) by (vm_compute in EC; inversion EC; subst; eauto). clear EC.
  unfold load_models in EL. cbn [bind] in EL. change (param_find ($"load") [($"max_depth", $"3")]) with (@None bytes) in EL. cbv iota in EL. inversion EL; subst m1. clear EL.
  assert (m = m0) by (apply EM; discriminate). subst m0. split; [|reflexivity].
  split; [|cbn; split; apply PL]. cbn [w_regions start_world app]. intros [|[|i]] R' E'; inversion E'; subst. intros _. exact T.
Qed.

(** ** The calls *)

Lemma named_kinds xs : forall j, Forall no_region (named_iteration started ended D j xs) /\ forallb explicit (named_iteration started ended D j xs) = true /\
  Forall own_context (named_iteration started ended D j xs) /\ Forall fair (named_iteration started ended D j xs) /\ Forall unforced (named_iteration started ended D j xs) /\
  created_names (named_iteration started ended D j xs) = [] /\
  Forall (fun o => match o with OpEnd r p _ _ | OpEndMetric r p _ => p = Some (r, Sync) | _ => True end) (named_iteration started ended D j xs).
Proof.
  induction xs as [|x xs IH]; intros j; [cbn; repeat split; constructor|].
  destruct (IH (S j)) as (A1 & A2 & A3 & A4 & A5 & A6 & A7). cbn [named_iteration named_execution app].
  split; [repeat (constructor; [exact I|]); exact A1|]. split; [exact A2|]. split; [constructor; [exact I|]; repeat (constructor; [reflexivity|]); exact A3|].
  split; [constructor; [exact I|]; constructor; [exact I|]; constructor; [apply DO|]; constructor; [exact I|exact A4]|].
  split; [repeat (constructor; [exact I|]); exact A5|]. split; [exact A6|]. repeat (constructor; [exact I|]). constructor; [reflexivity|exact A7].
Qed.

Lemma sync_pending os w xs : run P (start_world c files) os = Ok (w, xs) -> forallb explicit os = true ->
  Forall (fun o => match o with OpEnd r p _ _ | OpEndMetric r p _ => p = Some (r, Sync) | _ => True end) os -> idle w.
Proof.
  intros H EX KO r R ER. destruct (inv_run P (start_world c files) eq_refl eq_refl eq_refl _ _ _ EX H) as (log & I).
  assert (C := i_count _ _ _ _ _ I r). assert (HH := i_heap _ _ _ _ _ I r). unfold pending in *. rewrite ER in *.
  destruct (r_pending R) as [|p ps]; [reflexivity|exfalso]. specialize (HH p (or_introl eq_refl)).
  assert (IN : In p (ended_on (combine os xs) r)) by (eapply Permutation_in; [apply Permutation_sym; exact C|]; apply in_or_app; right; left; reflexivity).
  unfold ended_on, RuntimeSpec.ended in IN. apply in_map_iff in IN. destruct IN as ([r' q] & E & IN). cbn in E. subst q. apply filter_In in IN. destruct IN as [IN _].
  apply in_concat in IN. destruct IN as (l & IL & IP). apply in_map_iff in IL. destruct IL as ([o y] & <- & IE). apply in_combine_l in IE.
  rewrite Forall_forall in KO. specialize (KO _ IE). unfold end_call in IP. cbn [fst] in IP. destruct o; cbn in KO; try (subst; cbn in IP); try contradiction;
    destruct IP as [IP|[]]; inversion IP; subst; apply HH; reflexivity.
Qed.

Definition named_explore : list op := test_region init :: named_iteration started ended D 0 test_features.

Lemma no_loads os : Forall no_region os -> forall os1 o os2 w1 xs1, test_region init :: os = os1 ++ o :: os2 -> run P (start_world c files) os1 = Ok (w1, xs1) -> no_load w1 o.
Proof.
  intros F os1 o os2 w1 xs1 E H. destruct os1 as [|o1 os1].
  - cbn in E. inversion E; subst. cbn in H. inversion H; subst. split; [reflexivity|]. split; [left; apply PL|]. intros name ps EP. change (parse_policy_model test_text = Ok (name, ps)) in EP.
    rewrite parsed_test in EP. inversion EP; subst. split; [discriminate|]. split; [discriminate|]. split; reflexivity.
  - cbn in E. inversion E; subst. apply Forall_app in F. destruct F as [_ F]. inversion F; subst. destruct o; try exact I. contradiction.
Qed.

Lemma insert_all_nonempty ms : forall d d', insert_all d ms = Ok d' -> ms <> [] -> 0 < ds_size d'.
Proof.
  destruct ms as [|[[f p] x] ms _] using rev_ind; intros d d' H N; [contradiction|]. rewrite DatasetFileProps.insert_all_app in H. apply bind_inv in H. destruct H as (d1 & _ & H).
  cbn [insert_all] in H. apply bind_inv in H. destruct H as (d2 & H & E). inversion E; subst. eapply insert_nonempty; exact H.
Qed.

(** After the training the tree no longer explores. *)
Lemma explored w xs : run P (start_world c files) (test_explore started ended D init) = Ok (w, xs) ->
  run P (start_world c files) (named_explore ++ [OpTrainAll 0 true]) = Ok (w, xs) /\ (exists ys, xs = GotRegion 0 :: ys) /\
  exists R n t e, nth_error (w_regions w) 0 = Some R /\ r_model R = MTree n false t e.
Proof.
  intros H. unfold test_explore in H. cbn [run] in H. apply bind_inv in H. destruct H as ([w0 x0] & E0 & H). apply bind_inv in H. destruct H as ([w3 ys] & H & X). inversion X; subst w3 xs. clear X.
  destruct (created _ _ E0) as (-> & W0 & L0). apply run_app in H. destruct H as (w1 & y1 & y2 & H1 & H2 & ->).
  destruct (iteration_run P started ended D _ _ _ _ _ H1) as (N1 & LA & FO). destruct (named_kinds test_features 0) as (K1 & K2 & K3 & K4 & K5 & K6 & K7).
  assert (RUN : run P (start_world c files) named_explore = Ok (w1, GotRegion 0 :: y1)).
  { unfold named_explore. cbn [run]. rewrite E0. cbn [bind]. rewrite N1. reflexivity. }
  assert (EX : forallb explicit named_explore = true) by exact K2.
  split; [exact (run_join P _ _ _ _ _ _ _ RUN H2)|]. split; [eauto|].
  destruct (tree_run _ _ _ _ K1 W0 N1) as (W1 & L1).
  assert (ID : idle w1) by (eapply sync_pending; [exact RUN|exact EX|constructor; [exact I|exact K7]]).
  destruct (nth_error (w_regions w1) 0) as [R1|] eqn:ER; [|apply nth_error_None in ER; lia].
  destruct (proj1 W1 _ _ ER eq_refl) as (n & b & t & e & EM).
  assert (DATA : b = true -> 0 < ds_size (r_dataset R1)).
  { intros ->. destruct (client_dataset P c files named_explore w1 (GotRegion 0 :: y1) 0 R1 Idle (iteration_data started ended 0 test_features (answers (test_iteration started ended D 0 test_features) y1 0)) RUN EX) as (log & k & _ & _ & _ & INS & _ & KK).
    - unfold followed, named_explore. cbn [combine fold_left]. exact (FO []).
    - exact ER.
    - intros nf nm np mt info yaml init0 IN. unfold named_explore in IN. cbn [combine] in IN. destruct IN as [IN|IN].
      + inversion IN; subst. exact test_starts_empty.
      + exfalso. apply in_combine_l in IN. rewrite Forall_forall in K1. exact (K1 _ IN).
    - specialize (KK ltac:(unfold keeps; rewrite EM; apply orb_true_r)). rewrite KK, firstn_all in INS. eapply insert_all_nonempty; [exact INS|].
      intros X. apply (f_equal (@List.length _)) in X. rewrite iteration_data_length in X by exact LA. discriminate X. }
  cbn [run] in H2. apply bind_inv in H2. destruct H2 as ([w2 x2] & E2 & H2). cbn [bind] in H2. inversion H2; subst w2 y2. clear H2.
  destruct (inv_run P (start_world c files) eq_refl eq_refl eq_refl _ _ _ EX RUN) as (log & J). assert (C := i_config _ _ _ _ _ J). cbn [w_config start_world] in C.
  destruct (i_reg _ _ _ _ _ J) as [SO RG]. assert (ND := proj1 (registry_nodup _ (i_reg _ _ _ _ _ J))).
  assert (NAMES : region_names w1 = [$"test-region"]).
  { rewrite (i_names _ _ _ _ _ J). unfold named_explore. cbn [combine map fst]. 
    assert (LY : List.length y1 = List.length (named_iteration started ended D 0 test_features)) by (eapply run_length; exact N1). 
    assert (MF : forall (l : list op) (l' : list result), List.length l' = List.length l -> map fst (combine l l') = l).
    { induction l as [|o l IH]; intros [|y l'] LL; cbn in *; try discriminate; [reflexivity|]. rewrite IH by lia. reflexivity. }
    rewrite MF by exact LY. cbn [region_names w_regions start_world map app]. change (created_names (test_region init :: ?l)) with ([$"test-region"] ++ created_names l).
    rewrite K6. reflexivity. }
  assert (IN0 : In 0%nat (map snd (w_registry w1))).
  { apply in_map_iff. exists ($"test-region", 0%nat). split; [reflexivity|]. apply RG. rewrite NAMES. split; [reflexivity|]. intros j LJ. lia. }
  cbn [step] in E2. apply bind_inv in E2. destruct E2 as (w2 & E2 & X). inversion X; subst w2 x2. clear X. unfold apollo_train, train_all_by, train_regions_by in E2.
  destruct (truthy (cf_collective _)); [discriminate E2|]. rewrite (same_config_field cf_single_model _ _ (fun _ => eq_refl) C), (pl_single _ PL) in E2. cbn [truthy Z.eqb negb] in E2.
  rewrite each_idle in E2 by exact ID.
  destruct (each_region_exact P _ _ (fun w r w' E => ex_intro _ 0 E) ND _ _ E2) as (_ & _ & X). destruct (X _ _ ER) as (m & E' & Q).
  apply mem_in in IN0. rewrite IN0, andb_true_l, EM in Q. cbn [m_trainable] in Q. destruct b.
  - destruct Q as [Q _]. specialize (Q (DATA eq_refl)). cbn [m_train] in Q. destruct (ds_find_min (r_dataset R1) [] []) as [[fs rs] best]. apply bind_inv in Q. destruct Q as (t' & _ & Q). inversion Q; subst m.
    exists (with_model R1 (MTree n false t' e)), n, t', e. split; [exact E'|reflexivity].
  - subst m. exists (with_model R1 (MTree n false t e)), n, t, e. split; [exact E'|reflexivity].
Qed.

(** ** The verdict *)

Lemma matched_const k : 0 <= k < 4 -> forall l, Forall (eq k) l -> List.length l = List.length test_features -> matched test_features l = 16.
Proof.
  intros K l F L. assert (l = repeat k (List.length test_features)) as ->.
  { rewrite <- L. clear L. induction F as [|y l <- F IH]; cbn; [reflexivity|]. f_equal. exact IH. }
  clear F L. assert (k = 0 \/ k = 1 \/ k = 2 \/ k = 3) as [->|[->|[->| ->]]] by lia; vm_compute; reflexivity.
Qed.

Lemma answers_in os : forall xs r k, In k (answers os xs r) -> exists p d, In (OpGetPolicy r p d, GotPolicy k) (combine os xs).
Proof.
  induction os as [|o os IH]; intros [|x xs] r k IN; cbn [answers combine] in *; try contradiction.
  apply in_app_or in IN. destruct IN as [IN|IN].
  - destruct o as [| | | |i p d| | | | | | | |]; try contradiction. destruct x; try contradiction. destruct (Nat.eqb_spec i r) as [->|]; [|contradiction].
    destruct IN as [<-|[]]. exists p, d. left. reflexivity.
  - destruct (IH _ _ _ IN) as (p & d & IN'). exists p, d. right. exact IN'.
Qed.

Lemma combine_app_same {A B} (a1 a2 : list A) (b1 b2 : list B) : List.length a1 = List.length b1 -> combine (a1 ++ a2) (b1 ++ b2) = combine a1 b1 ++ combine a2 b2.
Proof. revert b1. induction a1 as [|a a1 IH]; intros [|b b1] L; cbn in *; try discriminate; [reflexivity|]. f_equal. apply IH. lia. Qed.

Lemma test_fails : exists w xs w' ys,
  run P (start_world c files) (test_explore started ended D init) = Ok (w, xs) /\ run P w (test_exploit started ended D) = Ok (w', ys) /\
  List.length (answers (test_exploit started ended D) ys 0) = 64%nat /\ matched test_features (answers (test_exploit started ended D) ys 0) = 16.
Proof.
  destruct (safe_runs P c HS HP PL files (test_explore started ended D init ++ test_exploit started ended D)) as (w' & zs & RUN & _).
  - assert (LI : forall xs j, List.length (test_iteration started ended D j xs) = (4 * List.length xs)%nat).
    { induction xs as [|x xs IH]; intros j; [reflexivity|]. cbn [test_iteration test_execution app List.length]. rewrite IH. lia. }
    unfold test_explore, test_exploit. rewrite app_length. cbn [List.length]. rewrite app_length, !LI. change (List.length test_features) with 64%nat. cbn [List.length]. lia.
  - apply script_behaved. apply test_script. exact DO.
  - apply run_app in RUN. destruct RUN as (w & xs & ys & H1 & H2 & ->). exists w, xs, w', ys. split; [exact H1|]. split; [exact H2|].
    destruct (explored _ _ H1) as (N1 & (zs & EZ) & R & n & t & e & ER & EM). unfold test_exploit in *. destruct (iteration_run P started ended D _ _ _ _ _ H2) as (N2 & LA & _).
    split; [exact LA|]. destruct (named_kinds test_features 0) as (K1 & _ & K3 & K4 & _). destruct (named_kinds test_features (List.length test_features)) as (J1 & _ & J3 & J4 & J5 & _).
    set (second := named_iteration started ended D (List.length test_features) test_features) in *.
    assert (SAME : answers (test_iteration started ended D (List.length test_features) test_features) ys 0 = answers second ys 0).
    { unfold second. clear. generalize (List.length test_features) as j. generalize test_features as l. intros l. revert ys. induction l as [|x l IH]; intros ys j; [reflexivity|].
      cbn [test_iteration named_iteration test_execution named_execution app]. destruct ys as [|y1 [|y2 [|y3 [|y4 ys]]]]; try reflexivity. cbn [answers]. rewrite IH. reflexivity. }
    assert (NL : forall os1 o os2 w1 xs1, named_explore ++ [OpTrainAll 0 true] = os1 ++ o :: os2 -> run P (start_world c files) os1 = Ok (w1, xs1) -> no_load w1 o).
    { apply no_loads. apply Forall_app. split; [exact K1|repeat constructor]. }
    destruct (one_answer P c files _ w xs 0 R n t e second w' ys HS N1 NL ER EM N2 (pl_single _ PL) J5) as (k & KA).
    rewrite SAME in *. assert (IN : In k (answers second ys 0)).
    { destruct (answers second ys 0) as [|k' l]; [discriminate LA|]. inversion KA; subst. left. reflexivity. }
    assert (KR : 0 <= k < 4).
    { destruct (policies_in_range P c files ((named_explore ++ [OpTrainAll 0 true]) ++ second) w' (xs ++ ys)) with (nf := 1) (nm := $"test-region") (np := 4) (mt := 0) (info := test_text) (yaml := @nil ascii) (init := init) (r := 0%nat) as [PR _].
      - eapply run_join; [exact N1|exact N2].
      - apply PL.
      - apply Forall_app. split; [|exact J3]. unfold named_explore. cbn [app]. constructor; [exact I|]. apply Forall_app. split; [exact K3|repeat constructor].
      - apply Forall_app. split; [|exact J4]. unfold named_explore. cbn [app]. constructor; [exact I|]. apply Forall_app. split; [exact K4|repeat constructor].
      - apply no_loads. apply Forall_app. split; [|exact J1]. apply Forall_app. split; [exact K1|repeat constructor].
      - rewrite EZ. left. reflexivity.
      - lia.
      - destruct (answers_in _ _ _ _ IN) as (p & d & IN'). apply (PR p d k). rewrite combine_app_same by (symmetry; eapply run_length; exact N1). apply in_or_app. right. exact IN'. }
    exact (matched_const k KR _ KA LA).
Qed.

Lemma test_reports : exists w xs w' ys,
  run P (start_world c files) (test_explore started ended D init) = Ok (w, xs) /\ run P w (test_exploit started ended D) = Ok (w', ys) /\
  List.length (answers (test_exploit started ended D) ys 0) = 64%nat /\ matched test_features (answers (test_exploit started ended D) ys 0) = 16 /\
  test_passes (answers (test_exploit started ended D) ys 0) = false.
Proof.
  destruct test_fails as (w & xs & w' & ys & A & B & C & E). exists w, xs, w', ys. do 4 (split; [assumption|]). unfold test_passes. rewrite E. reflexivity.
Qed.
End Verdict.

(** ** The settings of an empty environment *)

Definition plain_b (c : config) : bool :=
  (cf_collective c =? 0) && (cf_single_model c =? 0) && negb (cf_region_model c =? 0) && (cf_retrain c =? 0) && (cf_persistent c =? 0).
Lemma plain_b_true c : plain_b c = true -> plain c.
Proof.
  unfold plain_b. rewrite !andb_true_iff, negb_true_iff, !Z.eqb_eq, Z.eqb_neq. intros ((((A & B) & C) & E) & F). constructor; assumption.
Qed.
Lemma defaults_plain mpi mkdir open_trace c : apollo_instance mpi (fun _ => None) mkdir open_trace = Ok c -> plain c.
Proof.
  intros H. apply plain_b_true. assert (K : match read_config (fun _ => None) with Ok c => plain_b c | _ => false end = true) by (vm_compute; reflexivity).
  unfold apollo_instance, apollo_ctor in H. destruct (read_config (fun _ => None)) as [c0| | | |]; try discriminate K. cbn [bind] in H.
  destruct (check_config mpi c0); cbn [bind] in H; try discriminate H.
  destruct (create_dir mkdir _); cbn [bind] in H; try discriminate H.
  destruct (if truthy (cf_persistent c0) then _ else _); cbn [bind] in H; try discriminate H.
  destruct (if truthy (cf_trace_csv c0) then create_dir _ _ else _); cbn [bind] in H; try discriminate H.
  destruct (if truthy (cf_store_models c0) then _ else _); cbn [bind] in H; try discriminate H.
  destruct (truthy (cf_trace_csv c0) && negb open_trace); [discriminate H|]. injection H as <-. exact K.
Qed.
Definition defaults : config := match apollo_instance false (fun _ => None) (fun _ => true) true with Ok c => c | _ => mkConfig [] 0 0 0 0 0 0 0 0 0 0 0 0 (B754_nan : f32) (B754_nan : f32) 0 0 0 [] [] [] [] end.
Lemma defaults_ok : apollo_instance false (fun _ => None) (fun _ => true) true = Ok defaults.
Proof.
  unfold defaults. assert (K : match apollo_instance false (fun _ => None) (fun _ => true) true with Ok _ => true | _ => false end = true) by (vm_compute; reflexivity).
  destruct (apollo_instance false (fun _ => None) (fun _ => true) true); try discriminate K. reflexivity.
Qed.
