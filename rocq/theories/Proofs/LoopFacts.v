(** The loop of the documentation never leaves policy 0. *)
From Coq Require Import ZArith Bool Ascii String Lia Permutation List.
From Flocq Require Import BinarySingleNaN.
From Verif Require Import Model.Base Model.Decimal Model.Float Model.DatasetM Model.TreeM Model.ForestM Model.ModelStringM Model.PolicyModelsM Model.ConfigM Model.RuntimeM Model.TestM Model.LoopM
  Spec.ModelStringSpec Spec.DatasetSpec Spec.DatasetClient Spec.TreeSpec Spec.ForestSpec Spec.RuntimeSpec Spec.LearnedSpec
  Proofs.TreeFacts Proofs.ModelStringFacts Proofs.RuntimeFacts Proofs.RuntimePending Proofs.RuntimeOps Proofs.RuntimeSettled Proofs.RuntimeAccount Proofs.RuntimeRecords Proofs.RuntimeRegistry Proofs.RuntimeCreate Proofs.RuntimeTraining Proofs.RuntimeWatch
  Proofs.RuntimeLearn Proofs.RuntimeRange Proofs.RuntimeTraceDefects Proofs.KokkosTrain Proofs.KokkosMeasured Proofs.Measured Spec.SafeClient Proofs.SafeModels Proofs.SafeSteps Proofs.SafeExamples Proofs.ModelDocsFacts Proofs.TestProgram Proofs.TestVerdict Spec.LoopSpec.
Import ListNotations.
Open Scope Z_scope.

Section Loop.
Variable P : platform.
Variable c : config.
Variable files : list (bytes * bytes).
Variable started ended : Z -> Z * Z.
Variable D : Z -> draws.
Variable init : nat -> nat -> f64.
Variable name : bytes.
Variable np : Z.
Hypothesis HS : sorter_ok (p_sort P).
Hypothesis HP : picker_ok (p_pick P).
Hypothesis PL : plain c.
Hypothesis LS : learning_string (cf_policy_model c).
Hypothesis NP : 1 <= np <= 1024.
Hypothesis DO : forall j, draws_ok (D j).

Notation text := (cf_policy_model c).
Notation execution := (loop_execution started ended D).
Notation looping := (loop_from started ended D).
Notation region := (OpRegion 1 name np 0 [] [] init).

(** ** The calls are allowed *)

Lemma text_ok : model_string_ok text.
Proof. destruct LS as (n & items & E & M & _). exists n, items. auto. Qed.

Lemma text_quiet : ~ mentions_net text.
Proof. destruct LS as (n & items & _ & _ & _ & _ & Q). exact Q. Qed.

Lemma use_loop v x : loop_feature c x -> nth_error (v_regions v) 0 = Some (1, text) -> usable c v 0 [x].
Proof.
  intros [N U] E. exists 1, text. split; [exact E|]. split; [reflexivity|]. split; [constructor; [exact N|constructor]|].
  split; [intros T; constructor; [exact (U T)|constructor]|]. intros X. exfalso. exact (text_quiet X).
Qed.
Lemma sample_loop v j : nth_error (v_regions v) 0 = Some (1, text) -> sampling_ok v 0 (D j).
Proof.
  intros E. split; [apply DO|]. intros nf s E' X. rewrite E in E'. inversion E'; subst. exfalso. exact (text_quiet X).
Qed.

Lemma loop_script xs : Forall (loop_feature c) xs -> forall i v, nth_error (v_regions v) 0 = Some (1, text) -> script c v (looping i xs).
Proof.
  induction 1 as [|x xs S _ IH]; intros i v E; [exact I|].
  cbn [loop_from loop_execution app script].
  split; [cbn [allowed]; apply nth_error_Some; rewrite E; discriminate|]. intros x1 H1. cbn [shape] in H1. subst x1.
  set (v1 := view_step c v _).
  assert (E1 : nth_error (v_regions v1) 0 = Some (1, text)) by exact E.
  assert (O1 : open_on v1 0 None []) by (eexists; split; [reflexivity|]; split; reflexivity).
  assert (M1 : meant v1 0 None = Some (0%nat, Sync)) by reflexivity.
  assert (P1 : v_open v1 (0%nat, Sync) = Some []) by reflexivity.
  clearbody v1. split; [exists []; exact O1|]. intros x2 _.
  set (v2 := view_step c v1 _).
  assert (E2 : v2 = with_open (0%nat, Sync) (Some [x]) v1) by (unfold v2; cbn [view_step]; rewrite M1, P1; reflexivity).
  clearbody v2. assert (R2 : nth_error (v_regions v2) 0 = Some (1, text)) by (subst v2; exact E1).
  assert (O2 : open_on v2 0 None [x]) by (exists (0%nat, Sync); subst v2; split; [exact M1|]; split; reflexivity).
  clear E2. split; [exists [x]; split; [exact O2|]; split; [apply use_loop; assumption|apply sample_loop; assumption]|]. intros x3 _.
  cbn [view_step]. split; [exists [x]; split; [exact O2|apply use_loop; assumption]|]. intros x4 _.
  cbn [view_step]. set (v3 := close 0 None v2).
  assert (E3 : nth_error (v_regions v3) 0 = Some (1, text)) by (unfold v3, close; cbn [with_current v_regions]; destruct (meant v2 0 None); exact R2).
  clearbody v3. unfold loop_training. destruct (Z.rem i 100 =? 0); cbn [app]; [apply IH; exact E3|].
  cbn [script]. split; [exact I|]. intros x5 _. apply IH. exact E3.
Qed.

Lemma documented_script xs : Forall (loop_feature c) xs -> script c fresh_view (documented_loop started ended D init name np xs).
Proof.
  intros F. unfold documented_loop. cbn [script]. split.
  - cbn [allowed]. split; [lia|]. split; [exact NP|]. split; [reflexivity|exact text_ok].
  - intros x _. apply loop_script; [exact F|reflexivity].
Qed.

(** ** The first iteration *)

Lemma loop_empty : starts_empty c [].
Proof.
  split; [apply PL|]. intros n ps E. destruct LS as (mn & items & ET & MO & _). rewrite ET in E.
  destruct (name_facts mn (mo_name _ _ MO)) as (FN & _ & _ & ND).
  destruct (parse_gives_items mn items FN (mo_items _ _ MO) (mo_documented _ _ MO)) as (ps' & EP & FV). rewrite EP in E. inversion E; subst.
  split; [intros ->; discriminate ND|]. apply FV. exact (mo_load_dataset _ _ MO).
Qed.

Definition learner_at (i : nat) (m : model) (_ : dataset) : Prop := learner m.

Lemma loop_created w x : step P (start_world c files) region = Ok (w, x) ->
  x = GotRegion 0 /\ List.length (w_regions w) = 1%nat /\ w_registry w = [(region_name name, 0%nat)] /\ w_config w = c /\
  exists R, nth_error (w_regions w) 0 = Some R /\ exploring (r_model R) (MRoundRobin np (-1)) /\ r_alive R = true.
Proof.
  intros H. cbn [step] in H. apply bind_inv in H. destruct H as ([w1 r] & H & E). inversion E; subst. clear E.
  destruct (new_region_empty P _ _ _ _ _ _ _ _ _ _ H loop_empty) as (mn0 & ps0 & mn & ps & info' & m0 & m1 & m & R & EP & ER & EC & EL & EM & -> & -> & ->).
  split; [reflexivity|]. split; [reflexivity|]. split; [reflexivity|]. split; [reflexivity|].
  destruct LS as (n & items & ET & MO & NM & EX & _). cbn [w_config start_world] in EP, ER. rewrite ET in EP, ER.
  destruct (name_facts n (mo_name _ _ MO)) as (FN & NS & NO & ND).
  destruct (parse_gives_items n items FN (mo_items _ _ MO) (mo_documented _ _ MO)) as (ps' & EP' & FV). rewrite EP' in EP. inversion EP; subst mn0 ps0. clear EP.
  unfold resolve_static_region in ER. rewrite NS in ER. inversion ER; subst mn ps info'. clear ER.
  unfold load_models in EL. cbn [bind] in EL. rewrite (proj1 (FV _ _) (mo_load _ _ MO)) in EL. inversion EL; subst m1. clear EL.
  assert (m = m0). { apply EM. intros ->. discriminate NO. } subst m0.
  destruct (created_exploring P n 1 np ps' init m NM EC) as (e & XE & CE).
  eexists. split; [reflexivity|]. split; [|reflexivity]. cbn [r_model].
  assert (CR : create_model P ($"RoundRobin") 1 np [] init = Ok e) by (destruct EX as [EX|EX]; apply FV in EX; rewrite EX in CE; exact CE).
  assert (e = MRoundRobin np (-1)) as <- by (vm_compute in CR; inversion CR; reflexivity). exact XE.
Qed.

Lemma begin_keeps w b w' x R : step P w (OpBegin 0 false b) = Ok (w', x) -> nth_error (w_regions w) 0 = Some R ->
  exists R', nth_error (w_regions w') 0 = Some R' /\ r_model R' = r_model R.
Proof.
  cbn [step]. intros H ER. apply bind_inv in H. destruct H as ([w1 p] & H & E). inversion E; subst w1 x. clear E. unfold begin_context in H.
  apply bind_inv in H. destruct H as (R0 & G & H). destruct (r_idx _ =? idx_max); [discriminate H|]. apply bind_inv in H. destruct H as (cx & EC & H). inversion H; subst.
  apply get_region_ok in G. destruct G as [G A]. rewrite ER in G. inversion G; subst R0. clear G.
  assert (L : (0 < List.length (w_regions w))%nat) by (apply nth_error_Some; congruence).
  match goal with |- exists R', nth_error (w_regions (set_context ?v ?p ?c)) 0 = _ /\ _ => destruct (set_context_regions v p c 0 (with_idx (RuntimeM.with_current (with_sync R (mkContext [] (c_policy (r_sync R)) (c_idx (r_sync R)) (c_timer (r_sync R)))) (Some (0%nat, Sync))) (r_idx R + 1))) as (R' & E' & _ & _ & _ & _ & M & _) end.
  - cbn [set_region w_regions]. rewrite nth_set_same by exact L. reflexivity.
  - intros X. assert (Y := eq_trans (eq_sym EC) X). discriminate Y.
  - exists R'. split; [exact E'|exact M].
Qed.

Lemma feature_keeps w p y w' x R : step P w (OpSetFeature 0 p y) = Ok (w', x) -> nth_error (w_regions w) 0 = Some R ->
  exists R', nth_error (w_regions w') 0 = Some R' /\ r_model R' = r_model R.
Proof.
  intros H ER. cbn [step] in H. apply bind_inv in H. destruct H as (? & _ & H). apply bind_inv in H. destruct H as (q & _ & H). apply bind_inv in H. destruct H as (w1 & H & E). inversion E; subst w1 x. clear E.
  unfold set_feature in H. apply bind_inv in H. destruct H as (cx & EC & H). inversion H; subst.
  destruct (set_context_regions w q (mkContext (c_features cx ++ [y]) (c_policy cx) (c_idx cx) (c_timer cx)) 0 R ER) as (R' & E' & _ & _ & _ & _ & M & _); [rewrite EC; discriminate|].
  eauto.
Qed.

(** A tree or forest that explores with RoundRobin answers 0 first. *)
Lemma first_answer w i x w' ys k R : run P w (execution i x) = Ok (w', ys) -> ys = [GotContext (0%nat, Sync); Done; GotPolicy k; Done] ->
  nth_error (w_regions w) 0 = Some R -> exploring (r_model R) (MRoundRobin np (-1)) -> k = 0.
Proof.
  intros H EY ER XE. revert EY. cbn [loop_execution run] in H.
  apply bind_inv in H. destruct H as ([w1 x1] & E1 & H). apply bind_inv in H. destruct H as ([w5 y5] & H & X). inversion X; subst w5 ys. clear X.
  apply bind_inv in H. destruct H as ([w2 x2] & E2 & H). apply bind_inv in H. destruct H as ([w5 z5] & H & X). inversion X; subst w5 y5. clear X.
  apply bind_inv in H. destruct H as ([w3 x3] & E3 & H). apply bind_inv in H. destruct H as ([w5 v5] & H & X). inversion X; subst w5 z5. clear X H. intros EY.
  destruct (begin_keeps _ _ _ _ _ E1 ER) as (R1 & ER1 & M1). destruct (feature_keeps _ _ _ _ _ _ E2 ER1) as (R2 & ER2 & M2).
  destruct (ask_step P _ _ _ _ _ _ _ E3 ER2) as (k' & m & R3 & EK & EM & _). subst x3. inversion EY; subst k'. rewrite M2, M1 in EM.
  destruct XE as [(n & t & XE)|(n & f & XE)]; rewrite XE in EM; cbn [m_get_index negb] in EM; apply bind_inv in EM; destruct EM as ([c0 e] & EM & EQ); inversion EQ; subst;
    (destruct (np =? 0); [discriminate EM|]); inversion EM; apply Z.rem_0_l; lia.
Qed.

Lemma learner_closed single persistent : closed P learner_at single persistent true.
Proof.
  constructor.
  - intros i m0 d0 m d m' _ G _ E. eapply learner_train; eauto.
  - intros i m d d2 m' _ G E. eapply learner_train; eauto.
  - intros i m d f p x d' _ G _. exact G.
Qed.

Lemma learner_step w o w' x : no_region o -> watched learner_at 0 0 w -> step P w o = Ok (w', x) ->
  watched learner_at 0 0 w' /\ List.length (w_regions w') = List.length (w_regions w).
Proof.
  intros N W E. assert (A : (exists r p d, o = OpGetPolicy r p d) \/ match o with OpRegion _ _ _ _ _ _ _ | OpGetPolicy _ _ _ => False | OpTrain _ _ _ force => force = true -> true = true | _ => True end).
  { destruct o; cbn in N; auto. left. eauto. }
  destruct A as [(r & p & d & ->)|A].
  - split.
    + eapply watched_get_policy; [exact W|exact E|]. intros R y k m _ EM G. unfold learner_at in *. destruct (r_model R) as [| | | | |n b t e|n b t e|]; try contradiction; cbn [m_get_index] in EM;
        (destruct b; cbn [negb] in EM; [destruct e as [e|]; [|discriminate EM]; apply bind_inv in EM; destruct EM as ([k' e'] & _ & EM)|apply bind_inv in EM; destruct EM as (k' & _ & EM)]; inversion EM; subst; exact I).
    + cbn [step] in E. apply bind_inv in E. destruct E as (q & _ & E). apply bind_inv in E. destruct E as ([w1 k] & E & X). inversion X; subst.
      destruct (get_policy_exact P _ _ _ _ _ _ E) as (R & cx & m & _ & _ & _ & _ & L & _). exact L.
  - exact (watched_step P learner_at 0 0 true (learner_closed 0 0) _ _ _ _ W E A).
Qed.

Lemma learner_run os : forall w w' xs, Forall no_region os -> watched learner_at 0 0 w -> run P w os = Ok (w', xs) ->
  watched learner_at 0 0 w' /\ List.length (w_regions w') = List.length (w_regions w).
Proof.
  induction os as [|o os IH]; intros w w' xs F W H; cbn [run] in H; [inversion H; subst; auto|].
  apply bind_inv in H. destruct H as ([w1 x] & E1 & H). apply bind_inv in H. destruct H as ([w2 ys] & E2 & H). inversion H; subst. inversion F; subst.
  destruct (learner_step _ _ _ _ H2 W E1) as [W1 L1]. destruct (IH _ _ _ H3 W1 E2) as [W2 L2]. split; [exact W2|congruence].
Qed.

Definition named (b : Z * Z) (x : f32) (d : draws) (e : Z * Z) : list op :=
  [OpBegin 0 false b; OpSetFeature 0 (Some (0%nat, Sync)) x; OpGetPolicy 0 (Some (0%nat, Sync)) d; OpEnd 0 (Some (0%nat, Sync)) e None].

(** After the first training the model no longer explores and only policy 0 has been measured. *)
Lemma first_iteration i x w ys : run P (start_world c files) (region :: execution i x ++ [OpTrainAll 0 true]) = Ok (w, ys) ->
  ys = [GotRegion 0; GotContext (0%nat, Sync); Done; GotPolicy 0; Done; Done] /\ cf_single_model (w_config w) = 0 /\
  exists R, nth_error (w_regions w) 0 = Some R /\ done (r_model R) (r_dataset R) /\ (forall k, LearnedSpec.measured (r_dataset R) k -> k = 0).
Proof.
  intros H. cbn [app] in H. change (region :: ?l) with ([region] ++ l) in H. apply run_app in H. destruct H as (w0 & y0 & y & H0 & H & ->).
  cbn [run] in H0. apply bind_inv in H0. destruct H0 as ([w0' x0] & E0 & H0). cbn [bind] in H0. inversion H0; subst w0' y0. clear H0.
  destruct (loop_created _ _ E0) as (-> & L0 & RG0 & C0 & R0 & ER0 & XE0 & _).
  apply (run_app P (execution i x)) in H. destruct H as (w1 & y1 & y2 & H1 & H2 & ->). destruct (execution_run32 P _ _ _ _ _ _ _ H1) as (N1 & k & EY1).
  assert (k = 0) by (eapply first_answer; [exact H1|exact EY1|exact ER0|exact XE0]). subst k.
  assert (W0 : watched learner_at 0 0 w0).
  { split; [|rewrite C0; split; apply PL]. intros [|[|j]] R E; [|exfalso; apply nth_error_Some in L0 || (assert (X : nth_error (w_regions w0) 1 <> None) by congruence; apply nth_error_Some in X; lia)|exfalso; assert (X : nth_error (w_regions w0) (S (S j)) <> None) by congruence; apply nth_error_Some in X; lia].
    rewrite ER0 in E. inversion E; subst R. destruct XE0 as [(n & t & ->)|(n & f & ->)]; exact I. }
  destruct (learner_run (execution i x) _ _ _ ltac:(repeat constructor) W0 H1) as (W1 & L1).
  assert (RUN : run P (start_world c files) (region :: named (started i) x (D i) (ended i)) = Ok (w1, GotRegion 0 :: y1)).
  { cbn [run]. rewrite E0. cbn [bind]. fold (run P). unfold named. cbn [run] in N1 |- *. rewrite N1. reflexivity. }
  assert (EX : forallb explicit (region :: named (started i) x (D i) (ended i)) = true) by reflexivity.
  assert (ID : idle w1) by (eapply sync_pending; [exact RUN|exact EX|repeat constructor]).
  destruct (nth_error (w_regions w1) 0) as [R1|] eqn:ER; [|apply nth_error_None in ER; lia].
  assert (LE := proj1 W1 _ _ ER). unfold learner_at in LE.
  destruct (client_dataset P c files _ w1 (GotRegion 0 :: y1) 0 R1 Idle [([x], 0, sub64 (clock_seconds (ended i)) (clock_seconds (started i)))] RUN EX) as (log & k & _ & _ & _ & INS & LK & KK).
  - subst y1. reflexivity.
  - exact ER.
  - intros nf nm np' mt info yaml init0 IN. subst y1. cbn [combine named In] in IN. destruct IN as [IN|[IN|[IN|[IN|[IN|IN]]]]]; [inversion IN; exact loop_empty|discriminate IN|discriminate IN|discriminate IN|discriminate IN|contradiction IN].
  - assert (ZERO : forall v, LearnedSpec.measured (r_dataset R1) v -> v = 0).
    { intros v M. apply (proj1 (measured_key _ _)) in M. destruct M as (f & z & IN). destruct k as [|k]; cbn [firstn insert_all] in INS; [inversion INS as [X]; rewrite <- X in IN; contradiction|].
      rewrite firstn_nil in INS. apply bind_inv in INS. destruct INS as (d & EI & INS). cbn [insert_all] in INS. inversion INS as [X]. rewrite <- X in IN.
      unfold ds_insert in EI. destruct (negb _); [discriminate EI|]. cbn in EI. inversion EI as [Y]. rewrite <- Y in IN. cbn in IN. destruct IN as [IN|[]]. inversion IN. reflexivity. }
    assert (DATA : m_trainable (r_model R1) = true -> 0 < ds_size (r_dataset R1)).
    { intros T. specialize (KK ltac:(unfold keeps; rewrite T; apply orb_true_r)). rewrite KK, firstn_all in INS. eapply insert_all_nonempty; [exact INS|discriminate]. }
    cbn [run] in H2. apply bind_inv in H2. destruct H2 as ([w2 x2] & E2 & H2). cbn [bind] in H2. inversion H2; subst w2 y2. clear H2.
    destruct (inv_run P (start_world c files) eq_refl eq_refl eq_refl _ _ _ EX RUN) as (log' & J). assert (C := i_config _ _ _ _ _ J). cbn [w_config start_world] in C.
    assert (ND := proj1 (registry_nodup _ (i_reg _ _ _ _ _ J))). destruct (i_reg _ _ _ _ _ J) as [SO RG].
    assert (IN0 : In 0%nat (map snd (w_registry w1))).
    { apply in_map_iff. exists (region_name name, 0%nat). split; [reflexivity|]. apply RG. rewrite (i_names _ _ _ _ _ J). subst y1. split; [reflexivity|]. intros j LJ. lia. }
    cbn [step] in E2. apply bind_inv in E2. destruct E2 as (w2 & E2 & X). inversion X; subst w2 x2. clear X. unfold apollo_train, train_all_by, train_regions_by in E2.
    destruct (truthy (cf_collective _)); [discriminate E2|]. assert (SI := same_config_field cf_single_model _ _ (fun _ => eq_refl) C). rewrite SI, (pl_single _ PL) in E2. cbn [truthy Z.eqb negb] in E2.
    rewrite each_idle in E2 by exact ID.
    destruct (each_region_exact P _ _ (fun w r w' E => ex_intro _ 0 E) ND _ _ E2) as ((GC & _) & _ & X). destruct (X _ _ ER) as (m & E' & Q).
    split; [subst y1; reflexivity|]. split; [rewrite GC, SI; apply PL|].
    apply mem_in in IN0. rewrite IN0, andb_true_l in Q. exists (with_model R1 m). split; [exact E'|]. split; [|exact ZERO]. cbn [with_model r_model].
    destruct (m_trainable (r_model R1)) eqn:T.
    + destruct Q as [Q _]. specialize (Q (DATA eq_refl)). exact (learner_train _ _ _ _ LE Q).
    + subst m. split; assumption.
Qed.

(** ** The rest *)

Lemma loop_kinds xs : forall i, Forall no_region (looping i xs) /\ Forall unforced (looping i xs).
Proof.
  induction xs as [|x xs IH]; intros i; [split; constructor|]. cbn [loop_from loop_execution]. destruct (IH (i + 1)) as [A B]. unfold loop_training.
  split; (apply Forall_app; split; [repeat constructor|apply Forall_app; split; [destruct (Z.rem i 100 =? 0); repeat constructor|assumption]]).
Qed.

Lemma loop_answers xs : forall i w w' ys, run P w (looping i xs) = Ok (w', ys) -> List.length (answers (looping i xs) ys 0) = List.length xs.
Proof.
  induction xs as [|x xs IH]; intros i w w' ys H; [cbn in H; inversion H; reflexivity|]. cbn [loop_from] in *.
  apply run_app in H. destruct H as (w1 & y1 & y2 & H1 & H2 & ->). apply run_app in H2. destruct H2 as (w2 & y3 & y4 & H2 & H3 & ->).
  destruct (execution_run32 P _ _ _ _ _ _ _ H1) as (_ & k & ->). cbn [loop_execution app answers Nat.eqb List.length]. f_equal.
  unfold loop_training in *. destruct (Z.rem i 100 =? 0).
  - cbn in H2. inversion H2; subst. exact (IH _ _ _ _ H3).
  - assert (LY := run_length _ _ _ _ _ H2). destruct y3 as [|y [|]]; try discriminate LY. cbn [app answers]. exact (IH _ _ _ _ H3).
Qed.

Lemma no_loop_loads os : Forall no_region os -> forall os1 o os2 w1 xs1, region :: os = os1 ++ o :: os2 -> run P (start_world c files) os1 = Ok (w1, xs1) -> no_load w1 o.
Proof.
  intros F os1 o os2 w1 xs1 E H. destruct os1 as [|o1 os1].
  - cbn in E. inversion E; subst. cbn in H. inversion H; subst. split; [reflexivity|]. split; [left; apply PL|]. intros n ps EP. cbn [w_config start_world] in EP.
    destruct LS as (mn & items & ET & MO & _). rewrite ET in EP. destruct (name_facts mn (mo_name _ _ MO)) as (FN & _ & NO & ND).
    destruct (parse_gives_items mn items FN (mo_items _ _ MO) (mo_documented _ _ MO)) as (ps' & EP' & FV). rewrite EP' in EP. inversion EP; subst.
    split; [intros ->; discriminate NO|]. split; [intros ->; discriminate ND|]. split; apply FV; [exact (mo_load _ _ MO)|exact (mo_load_dataset _ _ MO)].
  - cbn in E. inversion E; subst. apply Forall_app in F. destruct F as [_ F]. inversion F; subst. destruct o; try exact I. contradiction.
Qed.

Lemma loop_length xs : forall i, (List.length (looping i xs) <= 5 * List.length xs)%nat.
Proof.
  induction xs as [|x xs IH]; intros i; [cbn; lia|]. cbn [loop_from]. rewrite !app_length. specialize (IH (i + 1)). unfold loop_training. cbn [loop_execution List.length].
  destruct (Z.rem i 100 =? 0); cbn [List.length]; lia.
Qed.

Lemma loop_never_tunes xs : Forall (loop_feature c) xs -> Z.of_nat (List.length xs) < 2 ^ 21 ->
  exists w ys, run P (start_world c files) (documented_loop started ended D init name np xs) = Ok (w, ys) /\
    answers (documented_loop started ended D init name np xs) ys 0 = repeat 0 (List.length xs).
Proof.
  intros F LX. destruct (safe_runs P c HS HP PL files (documented_loop started ended D init name np xs)) as (w & ys & RUN & _).
  - unfold documented_loop. cbn [List.length]. assert (LL := loop_length xs 1). lia.
  - apply script_behaved. apply documented_script. exact F.
  - exists w, ys. split; [exact RUN|]. destruct xs as [|x xs].
    { cbn [documented_loop loop_from] in *. assert (LY := run_length _ _ _ _ _ RUN). destruct ys as [|y [|]]; try discriminate LY. reflexivity. }
    unfold documented_loop in *. cbn [loop_from] in *. change (loop_training 1) with [OpTrainAll 0 true] in *.
    rewrite app_comm_cons, app_assoc in RUN |- *. change ((region :: execution 1 x) ++ [OpTrainAll 0 true]) with (region :: execution 1 x ++ [OpTrainAll 0 true]) in *.
    apply run_app in RUN. destruct RUN as (w1 & y1 & y2 & H1 & H2 & ->). destruct (first_iteration _ _ _ _ H1) as (EY & SI & R & ER & [LE TR] & ZERO).
    rewrite EY. cbn [app loop_execution answers Nat.eqb List.length repeat]. f_equal. change (1 + 1) with 2 in *.
    assert (LA := loop_answers _ _ _ _ _ H2). rewrite <- LA.
    assert (INF : watched informed 0 (cf_persistent c) w1).
    { apply (informed_run P (region :: execution 1 x ++ [OpTrainAll 0 true]) (start_world c files) w1 y1); [split; [intros [|j] Q E; discriminate E|split; [apply PL|reflexivity]]|exact H1|]. apply no_loop_loads. repeat constructor. }
    assert (G := proj1 INF _ _ ER). destruct (loop_kinds xs 2) as [_ UF].
    assert (PR : exists predict, predicts (r_model R) predict /\ forall v k, predict v = Ok k -> k = 0).
    { destruct (r_model R) as [| | | | |n b t e|n b f e|]; try contradiction; cbn in TR; subst b.
      - exists (dt_predict t). split; [left; eauto|]. intros v k E. apply ZERO. eapply evaluate_all; [exact (proj2 G)|exact E].
      - exists (f_predict f). split; [right; eauto|]. intros v k E. destruct (f_trees f) eqn:FT; [eapply no_votes; eauto|]. apply ZERO. eapply f_predict_all; [exact G|rewrite FT; discriminate|exact E]. }
    destruct PR as (predict & PR & PZ). destruct (exploits P _ _ _ _ _ _ _ H2 ER PR SI UF) as [A _]. clear - A PZ.
    revert A. generalize (asked P w1 (looping 2 xs) 0). generalize (answers (looping 2 xs) y2 0). intros l. induction l as [|a l IH]; intros q A; [reflexivity|].
    destruct q as [|[d f] q]; [discriminate A|]. cbn in A. injection A as A1 A2. cbn [List.length repeat]. f_equal; [eapply PZ; eauto|exact (IH _ A2)].
Qed.
End Loop.
