(** The bundled program for jobs, test/apollo-test-mpi.cpp, never prints PASSED. *)
From Coq Require Import ZArith Bool Ascii String Lia Permutation List.
From Verif Require Import Model.Base Model.Decimal Model.Float Model.DatasetM Model.ModelStringM Model.PolicyModelsM Model.ConfigM Model.RuntimeM Model.TestM Model.MpiM Model.JobM
  Spec.ModelStringSpec Spec.DatasetSpec Spec.TreeSpec Spec.RuntimeSpec Spec.MpiSpec Spec.JobSpec
  Proofs.TreeFacts Proofs.ModelStringFacts Proofs.RuntimeFacts Proofs.RuntimePending Proofs.RuntimeOps Proofs.RuntimeAccount Proofs.RuntimeRegistry Proofs.RuntimeCreate Proofs.RuntimeTraining
  Proofs.RuntimePreserve Proofs.RuntimeWatch Proofs.RuntimeLearn Proofs.KokkosTrain Proofs.MpiGather Proofs.MpiJobs Proofs.JobCalls Proofs.TestProgram Proofs.TestVerdict Proofs.MpiLearn Proofs.SimpleTest.
Import ListNotations.
Open Scope Z_scope.

(** ** The calls of one rank among the events of a job *)

Definition trains_all (o : op) : Prop := match o with OpTrainAll _ _ => True | _ => False end.

Lemma rank_kept M P i os : forall ws ws' w, job_run M P ws os = Ok ws' -> nth_error ws i = Some w -> calls_of i os = [] -> nth_error ws' i = Some w.
Proof.
  induction os as [|o os IH]; intros ws ws' w H E C; cbn [job_run] in H; [injection H as <-; exact E|]. apply bind_inv in H as (ws1 & E1 & H).
  destruct o as [k o|st c]; [|discriminate C]. cbn in C. destruct (Nat.eqb_spec k i) as [->|NE]; [discriminate C|]. cbn [job_step] in E1.
  destruct (nth_error ws k) as [v|]; [|discriminate E1]. apply bind_inv in E1 as ([v' x] & EV & E1). injection E1 as <-. eapply IH; [exact H| |exact C]. rewrite set_nth_other by exact NE. exact E.
Qed.

Lemma rank_run M P i st c os : forall a ws ws' w, job_run M P ws os = Ok ws' -> nth_error ws i = Some w -> calls_of i os = a ++ [OpTrainAll st c] -> Forall (fun o => ~ trains_all o) a ->
  exists w1 xs w2, run P w a = Ok (w1, xs) /\ nth_error ws' i = Some w2 /\
    exists v, only_data w1 v /\ train_regions_by P (fun w r => region_train P w r st c false) v = Ok w2.
Proof.
  induction os as [|o os IH]; intros a ws ws' w H E C F; cbn [job_run] in H; [destruct a; discriminate C|]. apply bind_inv in H as (ws1 & E1 & H).
  destruct o as [k o|st' c'].
  - cbn in C. cbn [job_step] in E1. destruct (nth_error ws k) as [v|] eqn:EK; [|discriminate E1]. apply bind_inv in E1 as ([v' x] & EV & E1). injection E1 as <-.
    destruct (Nat.eqb_spec k i) as [->|NE].
    + rewrite E in EK. injection EK as <-. assert (ES : nth_error (set_nth ws i v') i = Some v') by (eapply set_nth_same; exact E). destruct a as [|o1 a].
      * cbn in C. injection C as -> C. exists w, [], v'. split; [reflexivity|]. split; [eapply rank_kept; [exact H|exact ES|exact C]|]. exists w. split; [apply only_data_refl|].
        cbn [step] in EV. apply bind_inv in EV as (v2 & EV & X). injection X as -> _. unfold apollo_train, train_all_by in EV. destruct (truthy (cf_collective _)); [discriminate EV|exact EV].
      * cbn in C. injection C as -> C. inversion F; subst. destruct (IH _ _ _ _ H ES C H3) as (w1 & xs & w2 & R1 & E2 & X). exists w1, (x :: xs), w2.
        split; [cbn [run]; rewrite EV; cbn [bind]; rewrite R1; reflexivity|]. auto.
    + eapply IH; [exact H|rewrite set_nth_other by exact NE; exact E|exact C|exact F].
  - cbn in C. destruct a as [|o1 a].
    + cbn in C. injection C as -> -> C. cbn [job_step] in E1. destruct (collective_rank _ _ _ _ _ _ _ _ E1 E) as (v & w2 & OD & T & E2). exists w, [], w2.
      split; [reflexivity|]. split; [eapply rank_kept; [exact H|exact E2|exact C]|]. eauto.
    + cbn in C. injection C as <- _. inversion F; subst. exfalso. apply H2. exact I.
Qed.

(** ** The tree has data to learn from, or has learned *)

Definition taught (i : nat) (m : model) (d : dataset) : Prop := i = 0%nat -> exists n b t e, m = MTree n b t e /\ (b = true -> 0 < ds_size d).

Section Verdict.
Variable P : platform.
Variable c : config.
Variable files : list (bytes * bytes).
Variable rank : Z.
Variable started ended : nat -> Z * Z.
Variable D : nat -> draws.
Variable init : nat -> nat -> f64.
Hypothesis SG : cf_single_model c = 0.
Hypothesis PE : cf_persistent c = 0.

Let w_start := mkWorld c rank [] [] 0 files.

Lemma taught_closed single persistent : closed P taught single persistent true.
Proof.
  constructor.
  - intros i m0 d0 m d m' _ G _ E X. destruct (G X) as (n & b & t & e & -> & _). cbn [m_train] in E. destruct (ds_find_min d [] []) as [[fs rs] best]. apply bind_inv in E as (t' & _ & E). inversion E; subst.
    do 4 eexists. split; [reflexivity|discriminate].
  - intros i m d d2 m' _ G E X. destruct (G X) as (n & b & t & e & -> & _). cbn [m_train] in E. destruct (ds_find_min d2 [] []) as [[fs rs] best]. apply bind_inv in E as (t' & _ & E). inversion E; subst.
    do 4 eexists. split; [reflexivity|discriminate].
  - intros i m d f p x d' _ G E X. destruct (G X) as (n & b & t & e & -> & _). do 4 eexists. split; [reflexivity|]. intros _. eapply insert_nonempty; exact E.
Qed.

Lemma taught_step w o w' x : no_region o -> watched taught 0 0 w -> step P w o = Ok (w', x) ->
  watched taught 0 0 w' /\ List.length (w_regions w') = List.length (w_regions w).
Proof.
  intros N W E. assert (A : (exists r p d, o = OpGetPolicy r p d) \/ match o with OpRegion _ _ _ _ _ _ _ | OpGetPolicy _ _ _ => False | OpTrain _ _ _ force => force = true -> true = true | _ => True end).
  { destruct o; cbn in N; auto. left. eauto. }
  destruct A as [(r & p & d & ->)|A].
  - split.
    + eapply watched_get_policy; [exact W|exact E|]. intros R y k m _ EM G X. destruct (G X) as (n & b & t & e & EQ & LT). rewrite EQ in EM. cbn [m_get_index] in EM.
      destruct b; cbn [negb] in EM.
      * destruct e as [e|]; [|discriminate EM]. apply bind_inv in EM. destruct EM as ([k' e'] & _ & EM). inversion EM; subst. eauto 6.
      * apply bind_inv in EM. destruct EM as (k' & _ & EM). inversion EM; subst. do 4 eexists. split; [reflexivity|discriminate].
    + cbn [step] in E. apply bind_inv in E. destruct E as (q & _ & E). apply bind_inv in E. destruct E as ([w1 k] & E & X). inversion X; subst.
      destruct (get_policy_exact P _ _ _ _ _ _ E) as (R & cx & m & _ & _ & _ & _ & L & _). exact L.
  - exact (watched_step P taught 0 0 true (taught_closed 0 0) _ _ _ _ W E A).
Qed.
Lemma taught_run os : forall w w' xs, Forall no_region os -> watched taught 0 0 w -> run P w os = Ok (w', xs) ->
  watched taught 0 0 w' /\ List.length (w_regions w') = List.length (w_regions w).
Proof.
  induction os as [|o os IH]; intros w w' xs F W H; cbn [run] in H; [inversion H; subst; auto|].
  apply bind_inv in H. destruct H as ([w1 x] & E1 & H). apply bind_inv in H. destruct H as ([w2 ys] & E2 & H). inversion H; subst. inversion F; subst.
  destruct (taught_step _ _ _ _ H2 W E1) as [W1 L1]. destruct (IH _ _ _ H3 W1 E2) as [W2 L2]. split; [exact W2|congruence].
Qed.

(** The end of an execution of the only region. *)
Lemma end_teaches w now w' x : watched tree_at 0 0 w -> List.length (w_regions w) = 1%nat -> step P w (OpEnd 0 (Some (0%nat, Sync)) now None) = Ok (w', x) -> watched taught 0 0 w'.
Proof.
  intros (T & S0 & P0) L H. cbn [step] in H. apply bind_inv in H as (R0 & ER0 & H). cbn [resolve bind] in H. apply bind_inv in H as (v & H & X). injection X as -> _.
  unfold end_context in H. apply bind_inv in H as (cx & EC & H). cbn [is_sync_of] in H. rewrite Nat.eqb_refl in H. apply bind_inv in H as (d & ED & H). destruct d as [m|]; [|discriminate H].
  rewrite collect_split in H. apply bind_inv in H as (w1 & H1 & H). apply bind_inv in H as (w2 & H2 & H).
  assert (W1 : watched taught 0 0 w1).
  { unfold record_context in H1. apply bind_inv in H1 as (R & ER & H1). apply bind_inv in H1 as (c1 & _ & H1). apply bind_inv in H1 as (R' & HR & H1). injection H1 as <-.
    apply get_region_ok in ER0 as [ER0 _]. apply get_region_ok in ER as [ER _]. unfold set_context in *. cbn [fst snd] in *. rewrite ER0 in *. cbn [set_region w_regions] in ER.
    rewrite (set_nth_same _ _ _ _ ER0) in ER. injection ER as <-. destruct (T _ _ ER0 eq_refl) as (n & b & t & e & EM).
    assert (Q : exists n b t e, r_model R' = MTree n b t e /\ (b = true -> 0 < ds_size (r_dataset R'))).
    { cbn [set_region w_config] in HR. rewrite P0 in HR. cbn [truthy Z.eqb negb orb] in HR.
      exists n, b, t, e. destruct (truthy (cf_trace_csv _)); cbn in HR; rewrite EM in HR; cbn [m_trainable] in HR; destruct b; cbn in HR;
        try (apply bind_inv in HR as (d & HD & HR); injection HR as <-; cbn; split; [exact EM|intros _; eapply insert_nonempty; exact HD]);
        injection HR as <-; cbn; (split; [exact EM|discriminate]). }
    split; [|cbn; auto]. intros i Ri Ei ->. cbn [count_execution set_region w_regions] in Ei. rewrite (set_nth_same _ _ _ _ (set_nth_same _ _ _ _ ER0)) in Ei. injection Ei as <-. exact Q. }
  apply watched_holds in W1. assert (W2 := holds_auto_train P _ _ _ _ _ _ (J_preserved P taught 0 0 true (taught_closed 0 0) _) _ _ _ W1 H2). apply holds_watched in W2 as [W2 _].
  unfold release_context in H. cbn [is_sync_of] in H. rewrite Nat.eqb_refl in H. cbn [bind] in H. apply bind_inv in H as (R2 & ER2 & H). injection H as <-. apply get_region_ok in ER2 as [ER2 _].
  destruct W2 as (A & B & C). split; [|cbn; auto]. intros i Ri Ei ->. cbn [set_region w_regions] in Ei. rewrite (set_nth_same _ _ _ _ ER2) in Ei. injection Ei as <-. exact (A _ _ ER2 eq_refl).
Qed.

Lemma rank_created w x : step P w_start (test_region init) = Ok (w, x) -> x = GotRegion 0 /\ watched tree_at 0 0 w /\ List.length (w_regions w) = 1%nat.
Proof.
  intros H. cbn [step test_region] in H. apply bind_inv in H. destruct H as ([w1 r] & H & E). inversion E; subst. clear E.
  assert (SE : starts_empty (w_config w_start) test_text).
  { split; [exact PE|]. intros name ps E. change (match test_text with [] => cf_policy_model (w_config w_start) | _ => test_text end) with test_text in E. rewrite parsed_test in E.
    inversion E; subst. split; [discriminate|reflexivity]. }
  destruct (new_region_empty P _ _ _ _ _ _ _ _ _ _ H SE) as (mn0 & ps0 & mn & ps & info' & m0 & m1 & m & R & EP & ER & EC & EL & EM & -> & -> & ->).
  split; [reflexivity|].
  change (parse_policy_model test_text = Ok (mn0, ps0)) in EP. rewrite parsed_test in EP. inversion EP; subst. clear EP.
  assert (EQ : mn = $"DecisionTree" /\ ps = [($"max_depth", $"3")]).
  { unfold resolve_static_region in ER. change (bytes_eqb ($"DecisionTree") ($"StaticRegion")) with false in ER. cbv iota in ER. inversion ER; subst. auto. }
  destruct EQ as [-> ->]. assert (T : exists n b t e, m0 = MTree n b t e) by (vm_compute in EC; inversion EC; subst; eauto). clear EC.
  unfold load_models in EL. cbn [bind] in EL. change (param_find ($"load") [($"max_depth", $"3")]) with (@None bytes) in EL. cbv iota in EL. inversion EL; subst m1. clear EL.
  assert (m = m0) by (apply EM; discriminate). subst m0. split; [|reflexivity].
  split; [|cbn; auto]. cbn [w_regions w_start app]. intros [|[|i]] R' E'; inversion E'; subst. intros _. exact T.
Qed.

Lemma iteration_kinds xs : forall j, Forall no_region (named_iteration started ended D j xs) /\ forallb explicit (named_iteration started ended D j xs) = true /\
  Forall unforced (named_iteration started ended D j xs) /\ created_names (named_iteration started ended D j xs) = [] /\
  Forall (fun o => match o with OpEnd r p _ _ | OpEndMetric r p _ => p = Some (r, Sync) | _ => True end) (named_iteration started ended D j xs) /\
  Forall (fun o => ~ trains_all o) (test_iteration started ended D j xs).
Proof.
  induction xs as [|x xs IH]; intros j; [cbn; repeat split; constructor|].
  destruct (IH (S j)) as (A1 & A2 & A5 & A6 & A7 & A8). cbn [named_iteration named_execution test_iteration test_execution app].
  split; [repeat (constructor; [exact I|]); exact A1|]. split; [exact A2|].
  split; [repeat (constructor; [exact I|]); exact A5|]. split; [exact A6|]. split; [repeat (constructor; [exact I|]); constructor; [reflexivity|exact A7]|].
  repeat (constructor; [intros []|]). exact A8.
Qed.

Lemma rank_idle os w xs : run P w_start os = Ok (w, xs) -> forallb explicit os = true ->
  Forall (fun o => match o with OpEnd r p _ _ | OpEndMetric r p _ => p = Some (r, Sync) | _ => True end) os -> idle w.
Proof.
  intros H EX KO r R ER. destruct (inv_run P w_start eq_refl eq_refl eq_refl _ _ _ EX H) as (log & I).
  assert (C := i_count _ _ _ _ _ I r). assert (HH := i_heap _ _ _ _ _ I r). unfold pending in *. rewrite ER in *.
  destruct (r_pending R) as [|p ps]; [reflexivity|exfalso]. specialize (HH p (or_introl eq_refl)).
  assert (IN : In p (ended_on (combine os xs) r)) by (eapply Permutation_in; [apply Permutation_sym; exact C|]; apply in_or_app; right; left; reflexivity).
  unfold ended_on, RuntimeSpec.ended in IN. apply in_map_iff in IN. destruct IN as ([r' q] & E & IN). cbn in E. subst q. apply filter_In in IN. destruct IN as [IN _].
  apply in_concat in IN. destruct IN as (l & IL & IP). apply in_map_iff in IL. destruct IL as ([o y] & <- & IE). apply in_combine_l in IE.
  rewrite Forall_forall in KO. specialize (KO _ IE). unfold end_call in IP. cbn [fst] in IP. destruct o; cbn in KO; try (subst; cbn in IP); try contradiction;
    destruct IP as [IP|[]]; inversion IP; subst; apply HH; reflexivity.
Qed.

(** After the first outer iteration. *)
Lemma rank_explored w xs : run P w_start (test_region init :: test_iteration started ended D 0 test_features) = Ok (w, xs) ->
  watched taught 0 0 w /\ List.length (w_regions w) = 1%nat /\ idle w /\ NoDup (map snd (w_registry w)) /\ In 0%nat (map snd (w_registry w)) /\
  all_grown P 0 0 w.
Proof.
  intros H. assert (H' := H). cbn [run] in H'. apply bind_inv in H' as ([w0 x0] & E0 & H'). apply bind_inv in H' as ([w3 ys] & H' & X). inversion X; subst w3 xs. clear X.
  destruct (rank_created _ _ E0) as (-> & W0 & L0). destruct (iteration_run P started ended D _ _ _ _ _ H') as (N1 & LA & FO). clear H' H LA FO.
  destruct (iteration_kinds test_features 0) as (K1 & K2 & K5 & K6 & K7 & _).
  set (os := named_iteration started ended D 0 test_features) in *.
  assert (RUN : run P w_start (test_region init :: os) = Ok (w, GotRegion 0 :: ys)) by (cbn [run]; rewrite E0; cbn [bind]; rewrite N1; reflexivity).
  assert (EX : forallb explicit (test_region init :: os) = true) by exact K2.
  assert (TG : watched taught 0 0 w /\ List.length (w_regions w) = 1%nat).
  { assert (SPLIT : exists x l, test_features = x :: l) by (vm_compute; eauto). destruct SPLIT as (x & l & SP). unfold os in N1, K1. rewrite SP in N1, K1. cbn [named_iteration] in N1, K1.
    apply run_app in N1 as (w1 & y1 & y2 & A & B & ->). apply Forall_app in K1 as [KA KB].
    assert (W1 : watched taught 0 0 w1 /\ List.length (w_regions w1) = 1%nat).
    { unfold named_execution in A, KA. change [?a; ?b; ?c; ?d] with ([a; b; c] ++ [d]) in A, KA. apply run_app in A as (w2 & z1 & z2 & A1 & A2 & _). apply Forall_app in KA as [KA1 _].
      destruct (tree_run P _ _ _ _ KA1 W0 A1) as [W2 L2]. cbn [run] in A2. apply bind_inv in A2 as ([w4 x4] & A2 & X). cbn [bind] in X. injection X as -> _.
      split; [eapply end_teaches; [exact W2|congruence|exact A2]|]. destruct (tree_step P _ (OpEnd 0 (Some (0%nat, Sync)) (ended 0%nat) None) _ _ I W2 A2) as [_ L4]. congruence. }
    destruct W1 as [W1 L1]. destruct (taught_run _ _ _ _ KB W1 B) as [W2 L2]. split; [exact W2|congruence]. }
  split; [apply TG|]. split; [apply TG|]. split; [eapply rank_idle; [exact RUN|exact EX|constructor; [exact I|exact K7]]|].
  destruct (inv_run P w_start eq_refl eq_refl eq_refl _ _ _ EX RUN) as (log & J0). destruct (i_reg _ _ _ _ _ J0) as [SO RG]. assert (ND := proj1 (registry_nodup _ (i_reg _ _ _ _ _ J0))).
  split; [exact ND|]. split.
  - assert (NAMES : region_names w = [$"test-region"]).
    { rewrite (i_names _ _ _ _ _ J0). cbn [combine map fst].
      assert (LY : List.length ys = List.length os) by (eapply run_length; exact N1).
      assert (MF : forall (l : list op) (l' : list result), List.length l' = List.length l -> map fst (combine l l') = l).
      { induction l as [|o l IH]; intros [|y l'] LL; cbn in *; try discriminate; [reflexivity|]. rewrite IH by lia. reflexivity. }
      rewrite MF by exact LY. change (region_names w_start) with (@nil bytes). change (created_names (test_region init :: ?l)) with ([$"test-region"] ++ created_names l).
      rewrite K6. reflexivity. }
    apply in_map_iff. exists ($"test-region", 0%nat). split; [reflexivity|]. apply RG. rewrite NAMES. split; [reflexivity|]. intros j LJ. lia.
  - destruct (settings_run P _ _ _ _ RUN) as [S1 T1]. split; [|cbn in S1, T1; split; congruence].
    eapply grown_run; [|exact RUN|]. { intros [|i] R E; discriminate E. }
    intros os1 o os2 w1 xs1 E R1. destruct os1 as [|o1 os1].
    + cbn [app] in E. assert (EB := f_equal (@hd_error op) E). cbn [hd_error] in EB. injection EB as <-. cbn in R1. injection R1 as <- _. split; [reflexivity|]. split; [left; exact PE|].
      intros name ps EP. change (parse_policy_model test_text = Ok (name, ps)) in EP. rewrite parsed_test in EP. inversion EP; subst. split; [discriminate|]. split; [discriminate|]. split; reflexivity.
    + assert (EB := f_equal (@tl op) E). cbn [tl app] in EB. rewrite EB in K1. apply Forall_app in K1 as [_ K1]. inversion K1; subst. destruct o; try exact I. contradiction.
Qed.

(** After the training. *)
Lemma rank_trained w v w2 st : watched taught 0 0 w -> List.length (w_regions w) = 1%nat -> idle w -> NoDup (map snd (w_registry w)) -> In 0%nat (map snd (w_registry w)) ->
  only_data w v -> train_regions_by P (fun w r => region_train P w r st true false) v = Ok w2 ->
  exists R n t e, nth_error (w_regions w2) 0 = Some R /\ r_model R = MTree n false t e.
Proof.
  intros (T & S & _) L ID ND IN (CV & GV & LV & XV) H. destruct (nth_error (w_regions w) 0) as [R0|] eqn:ER; [|apply nth_error_None in ER; lia].
  destruct (T _ _ ER eq_refl) as (n & b & t & e & EM & LT). destruct (XV _ _ ER) as (d & EV & LD).
  assert (IDV : idle v). { intros i Ri Ei. destruct (nth_error (w_regions w) i) as [R|] eqn:E; [|apply nth_error_None in E; assert (Y : nth_error (w_regions v) i <> None) by congruence; apply nth_error_Some in Y; lia].
    destruct (XV _ _ E) as (d' & E' & _). rewrite Ei in E'. injection E' as ->. exact (ID _ _ E). }
  unfold train_regions_by in H. rewrite CV, S in H. cbn [truthy Z.eqb negb] in H. rewrite GV in H. rewrite each_idle in H by exact IDV.
  destruct (each_region_exact P _ _ (fun w r w' E => ex_intro _ st E) ND _ _ H) as (_ & _ & X). destruct (X _ _ EV) as (m & E' & Q). cbn [with_dataset r_model r_dataset] in Q.
  apply mem_in in IN. rewrite IN, andb_true_l, EM in Q. cbn [m_trainable] in Q. destruct b.
  - destruct Q as [Q _]. specialize (Q (LD (LT eq_refl))). cbn [m_train] in Q. destruct (ds_find_min d [] []) as [[fs rs] best]. apply bind_inv in Q as (t' & _ & Q). inversion Q; subst m.
    do 4 eexists. split; [exact E'|reflexivity].
  - subst m. do 4 eexists. split; [exact E'|reflexivity].
Qed.
End Verdict.

Lemma matched_at_most k : forall l, Forall (eq k) l -> List.length l = List.length test_features -> matched test_features l <= 16.
Proof.
  intros l F L. destruct (Z_le_gt_dec 0 k) as [A|A]; [destruct (Z_lt_le_dec k 4) as [B|B]|].
  - rewrite (matched_const k) by (auto; lia). lia.
  - assert (Z0 : forall fs, Forall (fun x => x < 4) fs -> forall l, Forall (eq k) l -> matched fs l = 0).
    { clear - B. intros fs FF. induction FF as [|x fs X FF IH]; intros l F; [reflexivity|]. destruct F as [|y l <- F]; [reflexivity|]. cbn [matched]. rewrite IH by exact F. destruct (Z.eqb_spec k x); lia. }
    rewrite Z0; [lia| |exact F]. vm_compute. repeat (constructor; [reflexivity|]). constructor.
  - assert (Z0 : forall fs, Forall (fun x => 0 <= x) fs -> forall l, Forall (eq k) l -> matched fs l = 0).
    { clear - A. intros fs FF. induction FF as [|x fs X FF IH]; intros l F; [reflexivity|]. destruct F as [|y l <- F]; [reflexivity|]. cbn [matched]. rewrite IH by exact F. destruct (Z.eqb_spec k x); lia. }
    rewrite Z0; [lia| |exact F]. vm_compute. repeat (constructor; [discriminate|]). constructor.
Qed.

Lemma mpi_test_fails M P cs os ws i c files started ended D init w w' ys : sorter_ok (p_sort P) ->
  job_run M P (start_job cs) os = Ok ws -> nth_error cs i = Some (c, files) -> cf_single_model c = 0 -> cf_persistent c = 0 ->
  calls_of i os = test_explore started ended D init -> nth_error ws i = Some w -> run P w (test_exploit started ended D) = Ok (w', ys) ->
  List.length (answers (test_exploit started ended D) ys 0) = 64%nat /\ matched test_features (answers (test_exploit started ended D) ys 0) <= 16 /\
  test_passes (answers (test_exploit started ended D) ys 0) = false.
Proof.
  intros HS H EC SG PE CO EW H2. unfold test_explore in CO. rewrite app_comm_cons in CO.
  destruct (rank_run M P i 0 true os _ _ _ _ H (start_rank _ _ _ _ EC) CO) as (w1 & xs & w2 & R1 & E2 & v & OD & T).
  { constructor; [intros []|]. apply (iteration_kinds started ended D test_features 0). }
  rewrite EW in E2. injection E2 as <-.
  destruct (rank_explored P c files (Z.of_nat i) started ended D init SG PE _ _ R1) as (TG & L & ID & ND & IN & G).
  destruct (rank_trained P _ _ _ _ TG L ID ND IN OD T) as (R & n & t & e & ER & EM).
  assert (G2 : all_grown P 0 0 w) by (eapply watched_trains; [apply grown_closed|eapply grown_data; [exact OD|exact G]|exact T]).
  unfold test_exploit in *. destruct (iteration_run P started ended D _ _ _ _ _ H2) as (N2 & LA & _). rewrite same_answers in *.
  destruct (iteration_kinds started ended D test_features (List.length test_features)) as (_ & _ & J5 & _).
  destruct (one_answer_world P _ _ _ _ _ _ _ _ _ _ _ HS G2 ER EM N2 eq_refl J5) as (k & KA).
  assert (LE := matched_at_most k _ KA LA). split; [exact LA|]. split; [exact LE|].
  unfold test_passes. apply Z.eqb_neq. change (Z.of_nat (test_reps * test_policies * test_policies)) with 64. lia.
Qed.
