(** Lemmas on the runtime: when training happens and what it changes. *)
From Coq Require Import ZArith Bool Ascii String Lia List Permutation Sorted.
From Verif Require Import Model.Base Model.Float Model.DatasetM Model.ParserM Model.DatasetIO Model.ModelStringM Model.PolicyModelsM Model.ConfigM Model.RuntimeM
  Spec.DatasetSpec Spec.DatasetClient Spec.RuntimeSpec
  Proofs.TreeFacts Proofs.DatasetFacts Proofs.RuntimeFacts Proofs.RuntimeCollect Proofs.RuntimeMoves Proofs.RuntimePending Proofs.RuntimeOps
  Proofs.RuntimeSettled Proofs.RuntimeNew Proofs.RuntimeRegistry Proofs.RuntimeAccount Proofs.RuntimeRecords Proofs.RuntimeClient
  Proofs.RuntimeCurrent Proofs.RuntimeCreate.
Import ListNotations.
Open Scope Z_scope.

Section Platform.
Variable P : platform.

(** ** Destroyed regions *)

Lemma run_cons w o os w1 x w2 xs : step P w o = Ok (w1, x) -> run P w1 os = Ok (w2, xs) -> run P w (o :: os) = Ok (w2, x :: xs).
Proof. intros A B. cbn. rewrite A. cbn. rewrite B. reflexivity. Qed.

Lemma each_region_run st collect : forall rs w w', each_region (fun w r => region_train P w r st collect false) w rs = Ok w' ->
  exists xs, run P w (map (fun r => OpTrain r st collect false) rs) = Ok (w', xs).
Proof.
  induction rs as [|r rs IH]; cbn [each_region map]; intros w w' H; [inversion H; subst; exists []; reflexivity|].
  apply bind_inv in H. destruct H as (w1 & E1 & H). destruct (IH _ _ H) as (xs & R). exists (Done :: xs). eapply run_cons; eauto. cbn. rewrite E1. reflexivity.
Qed.

Lemma run_each_region st collect : forall rs w w' xs, run P w (map (fun r => OpTrain r st collect false) rs) = Ok (w', xs) ->
  each_region (fun w r => region_train P w r st collect false) w rs = Ok w'.
Proof.
  induction rs as [|r rs IH]; cbn [each_region map]; intros w w' xs H; [inversion H; subst; reflexivity|].
  cbn in H. apply bind_inv in H. destruct H as ([w1 x] & E1 & H). apply bind_inv in H. destruct H as ([w2 ys] & E2 & H). inversion H; subst.
  apply bind_inv in E1. destruct E1 as (w3 & E3 & E1). inversion E1; subst. rewrite E3. cbn. eapply IH; eauto.
Qed.

Lemma each_region_app f rs rs' : forall w, each_region f w (rs ++ rs') = bind (each_region f w rs) (fun w => each_region f w rs').
Proof. induction rs as [|r rs IH]; cbn; intros w; auto. destruct (f w r); cbn; auto. Qed.

Lemma destroy_all_app rs rs' waits : forall w, destroy_all P w (rs ++ rs') waits = bind (destroy_all P w rs waits) (fun w => destroy_all P w rs' waits).
Proof. induction rs as [|r rs IH]; cbn; intros w; auto. destruct (destroy_region P w r (waits r)); cbn; auto. Qed.

Lemma run_destroy_all waits : forall rs w w' xs, run P w (map (fun r => OpDestroy r (waits r)) rs) = Ok (w', xs) -> destroy_all P w rs waits = Ok w'.
Proof.
  induction rs as [|r rs IH]; cbn [destroy_all map]; intros w w' xs H; [inversion H; subst; reflexivity|].
  cbn in H. apply bind_inv in H. destruct H as ([w1 x] & E1 & H). apply bind_inv in H. destruct H as ([w2 ys] & E2 & H). inversion H; subst.
  apply bind_inv in E1. destruct E1 as (w3 & E3 & E1). inversion E1; subst. rewrite E3. cbn. eapply IH; eauto.
Qed.

(** A destroyed region stays destroyed. *)
Lemma dead_after c files os w xs r ws x os' w' xs' :
  run P (start_world c files) os = Ok (w, xs) -> forallb explicit os = true -> In (OpDestroy r ws, x) (combine os xs) ->
  run P w os' = Ok (w', xs') -> forallb explicit os' = true -> get_region w' r = UB.
Proof.
  intros H EX IN H' EX'.
  assert (HH : run P (start_world c files) (os ++ os') = Ok (w', xs ++ xs')).
  { clear - H H'. revert H. generalize (start_world c files). revert xs. induction os as [|o os IH]; cbn; intros xs v H.
    - inversion H; subst. exact H'.
    - apply bind_inv in H. destruct H as ([w1 x] & E1 & H). apply bind_inv in H. destruct H as ([w2 ys] & E2 & H). inversion H; subst.
      rewrite E1. cbn. rewrite (IH _ _ E2). reflexivity. }
  assert (EXX : forallb explicit (os ++ os') = true) by (rewrite forallb_app, EX, EX'; reflexivity).
  destruct (inv_run P (start_world c files) eq_refl eq_refl eq_refl _ _ _ EXX HH) as (log & I).
  rewrite combine_app in I by (symmetry; exact (run_length P _ _ _ _ H)).
  destruct (i_dead _ _ _ _ _ I r ws x) as (_ & R & ER & AR); [apply in_or_app; auto|]. unfold get_region. rewrite ER, AR. reflexivity.
Qed.

Lemma explicit_trains st collect rs : forallb explicit (map (fun r => OpTrain r st collect false) rs) = true.
Proof. induction rs; cbn; auto. Qed.
Lemma explicit_destroys (waits : nat -> list (list (ctxptr * f32))) rs : forallb explicit (map (fun r => OpDestroy r (waits r)) rs) = true.
Proof. induction rs; cbn; auto. Qed.

Lemma merge_dead w rs : forall d r, In r rs -> get_region w r = UB -> forall d', merge_datasets w rs d <> Ok d'.
Proof.
  induction rs as [|a rs IH]; cbn; intros d r IN G d' H; [contradiction|].
  apply bind_inv in H. destruct H as (R & ER & H). apply bind_inv in H. destruct H as (d1 & _ & H).
  destruct IN as [->|IN]; [congruence|]. eapply IH; eauto.
Qed.

Lemma registry_split w n r : In (n, r) (w_registry w) -> exists pre post, map snd (w_registry w) = pre ++ r :: post.
Proof. intros IN. apply in_split in IN. destruct IN as (a & b & ->). rewrite map_app. cbn. eauto. Qed.

Lemma exec_info_dead w r : forall rs, In r rs -> get_region w r = UB -> exec_info_lines w rs = UB.
Proof.
  induction rs as [|a rs IH]; cbn; intros IN G; [contradiction|]. destruct IN as [->|IN]; [rewrite G; reflexivity|].
  destruct (get_region w a) as [R| | | |] eqn:E.
  - cbn. rewrite IH; auto.
  - unfold get_region in E. destruct (nth_error _ _) as [R|]; [destruct (r_alive R)|]; discriminate.
  - unfold get_region in E. destruct (nth_error _ _) as [R|]; [destruct (r_alive R)|]; discriminate.
  - reflexivity.
  - unfold get_region in E. destruct (nth_error _ _) as [R|]; [destruct (r_alive R)|]; discriminate.
Qed.

Lemma period_off c files os w xs r ws x :
  run P (start_world c files) os = Ok (w, xs) -> forallb explicit os = true -> In (OpDestroy r ws, x) (combine os xs) ->
  cf_global_period (w_config w) = 0.
Proof.
  intros H EX IN. destruct (inv_run P (start_world c files) eq_refl eq_refl eq_refl _ _ _ EX H) as (log & I).
  exact (i_period _ _ _ _ _ I _ _ _ IN).
Qed.

Lemma dangling c files os w xs r ws x n :
  run P (start_world c files) os = Ok (w, xs) -> forallb explicit os = true -> In (OpDestroy r ws, x) (combine os xs) ->
  first_named (created_names os) n r ->
  In (n, r) (w_registry w) /\
  (forall st collect w' y, step P w (OpTrainAll st collect) <> Ok (w', y)) /\
  (forall waits w' y, step P w (OpShutdown waits) <> Ok (w', y)).
Proof.
  intros H EX IN FN. assert (NM : region_names w = created_names os /\ registry_ok w).
  { destruct (inv_run P (start_world c files) eq_refl eq_refl eq_refl _ _ _ EX H) as (log & I). split; [|apply (i_reg _ _ _ _ _ I)].
    rewrite (i_names _ _ _ _ _ I). f_equal. assert (L := run_length P _ _ _ _ H). clear - L. revert xs L.
    induction os; intros [|]; cbn; intros L; try discriminate; auto. f_equal. auto. }
  destruct NM as [NM [_ RG]]. assert (RR : In (n, r) (w_registry w)) by (apply RG; rewrite NM; exact FN).
  split; auto. destruct (registry_split _ _ _ RR) as (pre & post & ES).
  assert (G : get_region w r = UB) by exact (dead_after _ _ _ _ _ _ _ _ [] w [] H EX IN eq_refl eq_refl).
  split.
  - intros st collect w' y HT. cbn in HT. apply bind_inv in HT. destruct HT as (w1 & HT & _). unfold apollo_train, train_all_by, train_regions_by in HT.
    destruct (truthy _); [discriminate|]. rewrite ES in HT. destruct (truthy _).
    + apply bind_inv in HT. destruct HT as (d & HM & _). revert HM. eapply merge_dead; eauto. apply in_or_app. right. left. reflexivity.
    + rewrite each_region_app in HT. apply bind_inv in HT. destruct HT as (w2 & E2 & HT). cbn in HT. apply bind_inv in HT. destruct HT as (w3 & E3 & _).
      destruct (each_region_run _ _ _ _ _ E2) as (ys & RU). unfold region_train in E3.
      rewrite (dead_after _ _ _ _ _ _ _ _ _ _ _ H EX IN RU (explicit_trains _ _ _)) in E3. discriminate.
  - intros waits w' y HS. cbn in HS. apply bind_inv in HS. destruct HS as (w1 & HS & _). unfold shutdown in HS. rewrite ES in HS.
    apply bind_inv in HS. destruct HS as (w2 & E2 & HS).
    destruct (truthy _).
    + rewrite (exec_info_dead w r) in E2; auto; [discriminate|]. apply in_or_app. right. left. reflexivity.
    + inversion E2; subst w2. rewrite destroy_all_app in HS. apply bind_inv in HS. destruct HS as (w2 & E3 & HS). cbn in HS.
      apply destroy_all_run in E3. apply bind_inv in HS. destruct HS as (w3 & HS & _). unfold destroy_region in HS.
      assert (D := dead_after _ _ _ _ _ _ _ _ _ _ _ H EX IN E3 (explicit_destroys _ _)).
      apply bind_inv in HS. destruct HS as (w4 & HD & _).
      assert (D' : get_region (disable_global_period w2) r = UB) by exact D.
      destruct (waits r); cbn [drain] in HD; rewrite D' in HD; discriminate.
Qed.

Lemma dangling_use c files os w xs r ws x pre post n :
  run P (start_world c files) os = Ok (w, xs) -> forallb explicit os = true -> In (OpDestroy r ws, x) (combine os xs) ->
  w_registry w = pre ++ (n, r) :: post ->
  (forall st collect w' ys, cf_collective c = 0 -> cf_single_model c = 0 ->
     run P w (map (fun r => OpTrain r st collect false) (map snd pre)) = Ok (w', ys) -> step P w (OpTrainAll st collect) = UB) /\
  (forall waits w' ys, cf_exec_info c = 0 ->
     run P w (map (fun r => OpDestroy r (waits r)) (map snd pre)) = Ok (w', ys) -> step P w (OpShutdown waits) = UB) /\
  (forall waits, cf_exec_info c <> 0 -> step P w (OpShutdown waits) = UB).
Proof.
  intros H EX IN ES. assert (C : same_persistent c (w_config w)).
  { destruct (inv_run P (start_world c files) eq_refl eq_refl eq_refl _ _ _ EX H) as (log & I). apply (i_config _ _ _ _ _ I). }
  assert (EM : map snd (w_registry w) = map snd pre ++ r :: map snd post) by (rewrite ES, map_app; reflexivity).
  split; [|split].
  - intros st collect w' ys C1 C2 RU. cbn. unfold apollo_train, train_all_by, train_regions_by.
    rewrite (same_config_field cf_collective _ _ (fun _ => eq_refl) C), (same_config_field cf_single_model _ _ (fun _ => eq_refl) C), C1, C2. cbn.
    rewrite EM, each_region_app, (run_each_region _ _ _ _ _ _ RU). cbn. unfold region_train at 1.
    rewrite (dead_after _ _ _ _ _ _ _ _ _ _ _ H EX IN RU (explicit_trains _ _ _)). reflexivity.
  - intros waits w' ys C1 RU. cbn. unfold shutdown. rewrite (same_config_field cf_exec_info _ _ (fun _ => eq_refl) C), C1. cbn.
    rewrite EM, destroy_all_app, (run_destroy_all _ _ _ _ _ RU). cbn. unfold destroy_region.
    assert (D := dead_after _ _ _ _ _ _ _ _ _ _ _ H EX IN RU (explicit_destroys _ _)).
    assert (D' : get_region (disable_global_period w') r = UB) by exact D.
    destruct (waits r); cbn [drain]; rewrite D'; reflexivity.
  - intros waits C1. cbn. unfold shutdown. rewrite (same_config_field cf_exec_info _ _ (fun _ => eq_refl) C).
    unfold truthy. apply Z.eqb_neq in C1. rewrite C1. cbn. rewrite (exec_info_dead w r); auto.
    + rewrite EM. apply in_or_app. right. left. reflexivity.
    + exact (dead_after _ _ _ _ _ _ _ _ [] w [] H EX IN eq_refl eq_refl).
Qed.

(** ** What training changes *)

(** Only models may differ, as [Q] says. *)
Definition models_by (Q : nat -> region -> model -> Prop) (w w' : world) : Prop :=
  same_globals w w' /\ List.length (w_regions w') = List.length (w_regions w) /\
  forall i R, nth_error (w_regions w) i = Some R -> exists m, nth_error (w_regions w') i = Some (with_model R m) /\ Q i R m.

Lemma models_by_same (Q : nat -> region -> model -> Prop) w w' : same_globals w w' -> w_regions w' = w_regions w -> (forall i R, Q i R (r_model R)) -> models_by Q w w'.
Proof. intros G E H. split; auto. rewrite E. split; auto. intros i R ER. exists (r_model R). rewrite with_model_same. auto. Qed.

Lemma store_model_same w m path w' : store_model w m path = Ok w' -> same_globals w w' /\ w_regions w' = w_regions w.
Proof.
  unfold store_model. intros H. apply bind_inv in H. destruct H as (s & _ & H). destruct s; inversion H; subst; split; auto; repeat split.
Qed.

Lemma train_body_exact w r st w' : train_body P w r st = Ok w' ->
  models_by (fun i R m => if Nat.eqb i r then trained_with P (r_model R) (r_dataset R) m else m = r_model R) w w'.
Proof.
  unfold train_body. intros H. apply bind_inv in H. destruct H as (R & ER & H).
  destruct (Z.leb_spec (ds_size (r_dataset R)) 0) as [L|L].
  - inversion H; subst w'. split; [apply same_globals_refl|]. split; auto. intros i Ri Ei. exists (r_model Ri). rewrite with_model_same. split; auto.
    destruct (Nat.eqb_spec i r) as [->|]; auto. apply get_region_ok in ER. destruct ER as [ER _]. rewrite ER in Ei. inversion Ei; subst. split; auto. lia.
  - destruct (negb _); [discriminate|]. apply bind_inv in H. destruct H as (w1 & E1 & H).
    destruct (trace_best_training P (fun _ _ _ => True) _ _ _ _ E1) as [[G1 _] S1].
    apply bind_inv in H. destruct H as (m & Em & H). destruct (truthy _); [discriminate|].
    assert (S3 : same_globals (set_region w1 r (with_model R m)) w' /\ w_regions w' = w_regions (set_region w1 r (with_model R m))).
    { destruct (truthy _); [|inversion H; subst; split; [apply same_globals_refl|auto]]. apply bind_inv in H. destruct H as (w2 & E2 & H).
      apply store_model_same in E2, H. destruct E2 as [A1 A2], H as [B1 B2]. split; [eapply same_globals_trans; eauto|congruence]. }
    destruct S3 as [G3 S3]. split; [eapply same_globals_trans; [exact G1|]; eapply same_globals_trans; [|exact G3]; repeat split|].
    rewrite S3. cbn. rewrite set_nth_length, S1. split; auto. intros i Ri Ei. apply get_region_ok in ER. destruct ER as [ER _].
    rewrite nth_set_nth. destruct (Nat.eqb_spec i r) as [->|].
    + rewrite ER in *. inversion Ei; subst Ri. exists m. split; auto. split; auto. lia.
    + exists (r_model Ri). rewrite with_model_same. auto.
Qed.

Lemma train_quietly_exact w r st w' : train_quietly P w r st = Ok w' ->
  models_by (fun i R m => if Nat.eqb i r && m_trainable (r_model R) then trained_with P (r_model R) (r_dataset R) m else m = r_model R) w w'.
Proof.
  unfold train_quietly. intros H. apply bind_inv in H. destruct H as (R & ER & H). apply get_region_ok in ER. destruct ER as [ER _].
  destruct (m_trainable (r_model R)) eqn:T; cbn [negb] in H.
  - destruct (train_body_exact _ _ _ _ H) as (G & L & E). split; auto. split; auto. intros i Ri Ei. destruct (E _ _ Ei) as (m & Em & Q).
    exists m. split; auto. revert Q. destruct (Nat.eqb_spec i r) as [->|]; cbn [andb]; auto. rewrite ER in Ei. inversion Ei; subst. rewrite T. auto.
  - inversion H; subst w'. split; [apply same_globals_refl|]. split; auto. intros i Ri Ei. exists (r_model Ri). rewrite with_model_same. split; auto.
    destruct (Nat.eqb_spec i r) as [->|]; cbn [andb]; auto. rewrite ER in Ei. inversion Ei; subst. rewrite T. reflexivity.
Qed.

Definition mem (r : nat) (rs : list nat) : bool := existsb (Nat.eqb r) rs.

Lemma mem_in r rs : mem r rs = true <-> In r rs.
Proof. unfold mem. rewrite existsb_exists. split; [intros (x & A & B); apply Nat.eqb_eq in B; subst; auto|intros A; exists r; split; auto; apply Nat.eqb_refl]. Qed.

Lemma with_model_with_model R m m' : with_model (with_model R m) m' = with_model R m'.
Proof. reflexivity. Qed.

Lemma each_region_exact f rs : (forall w r w', f w r = Ok w' -> exists st, train_quietly P w r st = Ok w') -> NoDup rs ->
  forall w w', each_region f w rs = Ok w' ->
  models_by (fun i R m => if mem i rs && m_trainable (r_model R) then trained_with P (r_model R) (r_dataset R) m else m = r_model R) w w'.
Proof.
  intros HF ND. induction ND as [|r rs NI ND IH]; cbn [each_region]; intros w w' H.
  - inversion H; subst. apply models_by_same; [apply same_globals_refl|auto|intros; reflexivity].
  - apply bind_inv in H. destruct H as (w1 & E1 & H). destruct (HF _ _ _ E1) as (st & E1'). destruct (train_quietly_exact _ _ _ _ E1') as (G1 & L1 & X1).
    destruct (IH _ _ H) as (G2 & L2 & X2). split; [eapply same_globals_trans; eauto|]. split; [congruence|]. intros i R Ei.
    destruct (X1 _ _ Ei) as (m1 & Em1 & Q1). destruct (X2 _ _ Em1) as (m2 & Em2 & Q2). exists m2. rewrite with_model_with_model in Em2. split; auto.
    cbn [r_model with_model r_dataset] in Q2. cbn [mem existsb]. revert Q1. destruct (Nat.eqb_spec i r) as [->|]; intros Q1.
    + assert (MM : mem r rs = false) by (destruct (mem r rs) eqn:E; auto; apply mem_in in E; contradiction). rewrite MM in Q2. cbn in Q1, Q2. cbn. subst m2. exact Q1.
    + cbn in Q1. subst m1. fold (mem i rs). exact Q2.
Qed.

Lemma train_each_on_exact rs d : NoDup rs -> forall w w', train_each_on P w rs d = Ok w' ->
  models_by (fun i R m => if mem i rs then m_train P (r_model R) d = Ok m else m = r_model R) w w'.
Proof.
  intros ND. induction ND as [|r rs NI ND IH]; cbn [train_each_on]; intros w w' H.
  - inversion H; subst. apply models_by_same; [apply same_globals_refl|auto|intros; reflexivity].
  - apply bind_inv in H. destruct H as (R & ER & H). apply bind_inv in H. destruct H as (m & Em & H). apply get_region_ok in ER. destruct ER as [ER _].
    destruct (IH _ _ H) as (G2 & L2 & X2). cbn in L2. rewrite set_nth_length in L2. split; [exact G2|]. split; auto. intros i Ri Ei.
    cbn [mem existsb]. destruct (Nat.eqb_spec i r) as [->|N].
    + assert (MM : mem r rs = false) by (destruct (mem r rs) eqn:E; auto; apply mem_in in E; contradiction).
      rewrite ER in Ei. inversion Ei; subst Ri. destruct (X2 r (with_model R m)) as (m2 & Em2 & Q2).
      { cbn. rewrite nth_set_nth, Nat.eqb_refl, ER. reflexivity. }
      rewrite MM in Q2. cbn in Q2. subst m2. exists m. split; auto.
    + apply X2. cbn. rewrite nth_set_nth_neq by auto. exact Ei.
Qed.

Lemma merge_all w : forall rs d d', merge_datasets w rs d = Ok d' ->
  exists Rs, Forall2 (fun r R => nth_error (w_regions w) r = Some R) rs Rs /\ insert_all d (List.concat (map (fun R => ds_to_vector (r_dataset R)) Rs)) = Ok d'.
Proof.
  induction rs as [|r rs IH]; cbn; intros d d' H.
  - inversion H; subst. exists []. split; [constructor|reflexivity].
  - apply bind_inv in H. destruct H as (R & ER & H). apply bind_inv in H. destruct H as (d1 & E1 & H). destruct (IH _ _ H) as (Rs & F & I).
    apply get_region_ok in ER. destruct ER as [ER _]. exists (R :: Rs). split; [constructor; auto|]. cbn. rewrite merge_insert_all in E1.
    rewrite (insert_all_app _ _ _ _ E1). exact I.
Qed.

(** ** When training happens *)

Lemma global_due_b c n : truthy (cf_global_period c) && (n mod (cf_global_period c mod 2 ^ 64) =? 0) = true <-> global_due c n.
Proof.
  unfold global_due, truthy. rewrite andb_true_iff, negb_true_iff, Z.eqb_neq, Z.eqb_eq. split; intros [A B]; split; auto.
  - destruct (Z.eq_dec (cf_global_period c mod 2 ^ 64) 0) as [E|N]; [|apply Z.mod_divide; auto]. rewrite E in *. rewrite Zmod_0_r in B. subst n. apply Z.divide_refl.
  - destruct (Z.eq_dec (cf_global_period c mod 2 ^ 64) 0) as [E|N]; [|apply Z.mod_divide; auto]. rewrite E in *. apply Z.divide_0_l in B. subst n. reflexivity.
Qed.

Lemma region_due_b c n : truthy (cf_region_period c) && (Z.rem n (cf_region_period c) =? 0) = true <-> region_due c n.
Proof.
  unfold region_due, truthy. rewrite andb_true_iff, negb_true_iff, Z.eqb_neq, Z.eqb_eq. split; intros [A B]; split; auto; apply Z.rem_divide; auto.
Qed.

Lemma enough_b R : (0 <? r_min_training R) && (r_min_training R <=? ds_size (r_dataset R)) = true <-> enough R.
Proof. unfold enough. rewrite andb_true_iff, Z.ltb_lt, Z.leb_le. tauto. Qed.

(** What one automatic training does to each model. *)
Definition auto_change (w : world) (r : nat) (R : region) (i : nat) (Ri : region) (m : model) : Prop :=
  let c := w_config w in
  let global := global_due c (w_executions w) in
  let one := region_due c (r_idx R) \/ enough R in
  (m_trainable (r_model R) = false -> m = r_model Ri) /\
  (m_trainable (r_model R) = true -> global -> cf_single_model c = 0 ->
     (In i (map snd (w_registry w)) /\ m_trainable (r_model Ri) = true -> trained_with P (r_model Ri) (r_dataset Ri) m) /\
     (~ (In i (map snd (w_registry w)) /\ m_trainable (r_model Ri) = true) -> m = r_model Ri)) /\
  (m_trainable (r_model R) = true -> global -> cf_single_model c <> 0 ->
     (In i (map snd (w_registry w)) -> exists d, all_data w d /\ m_train P (r_model Ri) d = Ok m) /\
     (~ In i (map snd (w_registry w)) -> m = r_model Ri)) /\
  (m_trainable (r_model R) = true -> ~ global -> one ->
     (i = r -> trained_with P (r_model Ri) (r_dataset Ri) m) /\ (i <> r -> m = r_model Ri)) /\
  (~ global -> ~ one -> m = r_model Ri).

Lemma auto_train_exact w r R w' : auto_train P w r = Ok w' -> get_region w r = Ok R -> NoDup (map snd (w_registry w)) ->
  models_by (auto_change w r R) w w'.
Proof.
  unfold auto_train. intros H ER ND. rewrite ER in H. cbn [bind] in H.
  assert (ER' := ER). apply get_region_ok in ER'. destruct ER' as [ER' _].
  destruct (m_trainable (r_model R)) eqn:T; cbn [negb] in H.
  2:{ inversion H; subst w'. apply models_by_same; auto. apply same_globals_refl. intros i Ri. repeat split; auto; try congruence. }
  destruct (truthy (cf_global_period (w_config w)) && _) eqn:EG.
  - assert (GD := proj1 (global_due_b _ _) EG). clear EG.
    unfold train_all_by, train_regions_by in H. destruct (truthy (cf_collective (w_config w))); [discriminate|].
    destruct (truthy (cf_single_model (w_config w))) eqn:ES; unfold truthy in ES.
    + apply negb_true_iff in ES. apply Z.eqb_neq in ES. apply bind_inv in H. destruct H as (d & EM & H).
      destruct (train_each_on_exact _ _ ND _ _ H) as (G & L & X). split; auto. split; auto. intros i Ri Ei. destruct (X _ _ Ei) as (m & Em & Q).
      exists m. split; auto. apply merge_all in EM. unfold auto_change. split; [congruence|]. split; [congruence|]. split; [|split; [intros; contradiction|intros; contradiction]].
      intros _ _ _. destruct (mem i (map snd (w_registry w))) eqn:MI.
      * apply mem_in in MI. split; [|intros; contradiction]. intros _. exists d. split; auto.
      * split; auto. intros IN. apply mem_in in IN. congruence.
    + apply negb_false_iff in ES. apply Z.eqb_eq in ES.
      assert (X := each_region_exact (fun w r => train_quietly P w r (to_int (w_executions w))) (map snd (w_registry w)) (fun w r w1 E => ex_intro _ _ E) ND _ _ H).
      destruct X as (G & L & X). split; auto. split; auto. intros i Ri Ei. destruct (X _ _ Ei) as (m & Em & Q).
      exists m. split; auto. unfold auto_change. split; [congruence|]. split; [|split; [congruence|split; [intros; contradiction|intros; contradiction]]].
      intros _ _ _. destruct (mem i (map snd (w_registry w))) eqn:MI; [apply mem_in in MI|]; cbn in Q.
      * destruct (m_trainable (r_model Ri)); split; auto; [intros N; exfalso; apply N; auto|intros [_ N]; discriminate].
      * split; auto. intros [IN _]. apply mem_in in IN. congruence.
  - assert (NG : ~ global_due (w_config w) (w_executions w)) by (intros GD; apply global_due_b in GD; congruence). clear EG.
    assert (ONE : forall st w', train_quietly P w r st = Ok w' -> region_due (w_config w) (r_idx R) \/ enough R -> models_by (auto_change w r R) w w').
    { intros st v HT ON. destruct (train_quietly_exact _ _ _ _ HT) as (G & L & X). split; auto. split; auto. intros i Ri Ei. destruct (X _ _ Ei) as (m & Em & Q).
      exists m. split; auto. unfold auto_change. split; [congruence|]. split; [intros; contradiction|]. split; [intros; contradiction|]. split; [|intros; contradiction].
      intros _ _ _. revert Q. destruct (Nat.eqb_spec i r) as [->|]; cbn [andb]; intros Q.
      - rewrite ER' in Ei. inversion Ei; subst Ri. rewrite T in Q. split; [auto|congruence].
      - split; [congruence|auto]. }
    destruct (truthy (cf_region_period (w_config w)) && _) eqn:EP; [apply region_due_b in EP; eauto|].
    destruct ((0 <? r_min_training R) && _) eqn:EM; [apply enough_b in EM; eauto|].
    inversion H; subst w'. apply models_by_same; [apply same_globals_refl|auto|]. intros i Ri. unfold auto_change.
    assert (NO : ~ (region_due (w_config w) (r_idx R) \/ enough R)).
    { intros [A|A]; [apply region_due_b in A|apply enough_b in A]; congruence. }
    split; [auto|]. split; [intros; contradiction|]. split; [intros; contradiction|]. split; [intros; contradiction|auto].
Qed.

Lemma insert_nonempty d f p x d' : ds_insert d f p x = Ok d' -> 0 < ds_size d'.
Proof.
  unfold ds_insert, ds_size. destruct (negb _); [discriminate|]. destruct d as [|[k v] d].
  - cbn. intros H. inversion H. cbn. lia.
  - cbn. destruct (key_lt _ _) eqn:A; [destruct (map_find _ _ _)|destruct (key_lt k (f, p)); [destruct (map_find _ _ _)|]];
      intros H; inversion H; cbn; repeat match goal with |- context [if ?b then _ else _] => destruct b end; cbn; lia.
Qed.

(** Everything but contexts and the current one. *)
Definition same_content (R R' : region) : Prop :=
  r_model R' = r_model R /\ r_dataset R' = r_dataset R /\ r_pending R' = r_pending R /\ r_min_training R' = r_min_training R /\
  r_idx R' = r_idx R.

Lemma collect_auto w r p x w' : collect_context P w r p x = Ok w' -> NoDup (map snd (w_registry w)) ->
  exists R R', nth_error (w_regions w) r = Some R /\ nth_error (w_regions w') r = Some R' /\
    w_registry w' = w_registry w /\ w_config w' = w_config w /\ List.length (w_regions w') = List.length (w_regions w) /\
    forall i Ri, nth_error (w_regions w) i = Some Ri -> exists Ri', nth_error (w_regions w') i = Some Ri' /\ r_pending Ri' = r_pending Ri /\
      auto_trained P ((w_executions w + 1) mod 2 ^ 64) (r_idx R) w w' r R R' i Ri Ri'.
Proof.
  unfold collect_context. intros H ND.
  apply bind_inv in H. destruct H as (R & ER & H). apply bind_inv in H. destruct H as (c & EC & H).
  apply bind_inv in H. destruct H as (R1 & ER1 & H). apply bind_inv in H. destruct H as (w1 & E1 & H).
  apply bind_inv in H. destruct H as (w2 & E2 & H). apply bind_inv in H. destruct H as (R2 & ER2 & H). inversion H; subst w'. clear H.
  set (w0 := count_execution (set_region w r R1)) in *.
  assert (HR1 : r_model R1 = r_model R /\ r_pending R1 = r_pending R /\ r_min_training R1 = r_min_training R /\ r_idx R1 = r_idx R /\ r_alive R1 = r_alive R /\
    (m_trainable (r_model R) = true -> 0 < ds_size (r_dataset R1))).
  { destruct (truthy (cf_trace_csv _)); cbn [r_model with_trace r_dataset] in ER1;
      (destruct (m_trainable (r_model R)); [rewrite orb_true_r in ER1|]); 
      try (destruct (truthy (cf_persistent _)); cbn [orb] in ER1);
      try (apply bind_inv in ER1; destruct ER1 as (d & ED & ER1)); inversion ER1; subst R1; cbn; unfold moved_features; try (destruct (is_sync_of r p)); cbn; repeat split; auto; try discriminate;
      intros _; eapply insert_nonempty; eauto. }
  destruct HR1 as (M1 & M2 & M3 & M4 & M5 & M6).
  apply get_region_ok in ER. destruct ER as [ER AR].
  assert (G0 : get_region w0 r = Ok R1).
  { apply get_region_ok. cbn. rewrite nth_set_nth, Nat.eqb_refl, ER. split; congruence. }
  destruct (auto_train_exact w0 r R1 w1 E1 G0 ND) as ((K1 & K2 & K3 & K4) & L1 & X1).
  assert (D2 : w_registry w2 = w_registry w1 /\ w_config w2 = w_config w1 /\ List.length (w_regions w2) = List.length (w_regions w1) /\
    forall i Ri, nth_error (w_regions w1) i = Some Ri -> exists Ri', nth_error (w_regions w2) i = Some Ri' /\ same_content Ri Ri').
  { destruct (is_sync_of r p).
    - inversion E2; subst w2. split; auto. split; auto. split; auto. intros i Ri Ei. exists Ri. split; auto. repeat split.
    - apply delete_context_inv in E2. destruct E2 as (o & k & Ro & c' & -> & EO & EK & ->). cbn. rewrite set_nth_length. split; auto. split; auto. split; auto.
      intros i Ri Ei. rewrite nth_set_nth. destruct (Nat.eqb_spec i o) as [->|].
      + rewrite EO in *. inversion Ei; subst Ri. eexists. split; [reflexivity|]. repeat split.
      + exists Ri. split; auto. repeat split. }
  destruct D2 as (D2 & D2' & L2 & X2). apply get_region_ok in ER2. destruct ER2 as [ER2 _].
  assert (D3 : forall i Ri, nth_error (w_regions w1) i = Some Ri -> exists Ri', nth_error (set_nth (w_regions w2) r (with_current R2 None)) i = Some Ri' /\ same_content Ri Ri').
  { intros i Ri Ei. destruct (X2 _ _ Ei) as (Ri' & Ei' & SC). rewrite nth_set_nth. destruct (Nat.eqb_spec i r) as [->|].
    - rewrite ER2 in *. inversion Ei'; subst Ri'. eexists. split; [reflexivity|]. exact SC.
    - eauto. }
  assert (EA : forall i Ri, nth_error (w_regions w) i = Some Ri -> exists R0, nth_error (w_regions w0) i = Some R0 /\ r_model R0 = r_model Ri /\ r_pending R0 = r_pending Ri).
  { intros i Ri Ei. cbn. rewrite nth_set_nth. destruct (Nat.eqb_spec i r) as [->|]; [|eauto]. rewrite ER in *. inversion Ei; subst Ri. exists R1. auto. }
  destruct (EA _ _ ER) as (R1' & ER1' & _). assert (R1' = R1) by (apply get_region_ok in G0; destruct G0; congruence). subst R1'.
  destruct (X1 _ _ ER1') as (mr & Emr & _). destruct (D3 _ _ Emr) as (R' & ER' & SCr). destruct SCr as (S1 & S2 & S3 & S4 & S5). cbn in S1, S2, S3, S4, S5.
  exists R, R'. split; auto. split; [exact ER'|]. cbn [w_registry w_config set_region w_regions].
  split; [rewrite D2, K3; reflexivity|]. split; [rewrite D2', K1; reflexivity|]. split; [rewrite set_nth_length, L2, L1; cbn; apply set_nth_length|].
  intros i Ri Ei. destruct (EA _ _ Ei) as (Ri0 & Ei0 & EM & EP). destruct (X1 _ _ Ei0) as (m & Em & Q). destruct (D3 _ _ Em) as (Ri' & Ei' & T1 & T2 & T3 & _).
  cbn in T1, T2, T3. exists Ri'. split; auto. split; [congruence|].
  assert (EE : enough R1 <-> enough R') by (unfold enough; rewrite S2, S4; tauto).
  destruct Q as (Q1 & Q2 & Q3 & Q4 & Q5). cbn [w_config w0 count_execution set_region w_executions w_registry] in Q1, Q2, Q3, Q4, Q5.
  rewrite M1 in *. rewrite M4 in *. rewrite EM in *. unfold auto_trained. rewrite T1, T2.
  split; [exact Q1|]. split; [exact Q2|]. split; [|split].
  - intros A B C. destruct (Q3 A B C) as [Q3a Q3b]. split; auto. intros IN. destruct (Q3a IN) as (d & (Rs & F & ID) & TR). exists d. split; auto.
    assert (G : exists Rs', Forall2 (fun r0 R0 => nth_error (set_nth (w_regions w2) r (with_current R2 None)) r0 = Some R0) (map snd (w_registry w)) Rs' /\
      map (fun R => ds_to_vector (r_dataset R)) Rs' = map (fun R => ds_to_vector (r_dataset R)) Rs).
    { cbn [w_registry w0 count_execution set_region] in F. clear - F X1 D3. induction F as [|k Rk ks Rks Ek F IH].
      - exists []. split; [constructor|reflexivity].
      - destruct IH as (Rs' & F' & ED). destruct (X1 _ _ Ek) as (mk & Emk & _). destruct (D3 _ _ Emk) as (Rk' & Ek' & _ & DK & _).
        exists (Rk' :: Rs'). split; [constructor; auto|]. cbn. rewrite DK, ED. reflexivity. }
    destruct G as (Rs' & F' & ED). exists Rs'. cbn [w_registry set_region w_regions]. rewrite D2, K3. split; [exact F'|]. rewrite ED. exact ID.
  - intros A B C. destruct (Q4 A B) as [Q4a Q4b]; [destruct C as [C|C]; [left; auto|right; apply EE; auto]|]. split; auto. intros ->.
    destruct (Q4a eq_refl) as [TW _]. rewrite ER1' in Ei0. inversion Ei0; subst Ri0. apply TW. apply M6. exact A.
  - intros A B. apply Q5; auto. intros [C|C]; apply B; [left; auto|right; apply EE; auto].
Qed.

Lemma collected_trains c files os w xs r p x w' :
  run P (start_world c files) os = Ok (w, xs) -> forallb explicit os = true -> collect_context P w r p x = Ok w' ->
  exists R R', nth_error (w_regions w) r = Some R /\ nth_error (w_regions w') r = Some R' /\ List.length (w_regions w') = List.length (w_regions w) /\
    forall i Ri, nth_error (w_regions w) i = Some Ri -> exists Ri', nth_error (w_regions w') i = Some Ri' /\ r_pending Ri' = r_pending Ri /\
      auto_trained P ((w_executions w + 1) mod 2 ^ 64) (count_begins (combine os xs) r) w w' r R R' i Ri Ri'.
Proof.
  intros H EX HC. destruct (inv_run P (start_world c files) eq_refl eq_refl eq_refl _ _ _ EX H) as (log & I).
  destruct (registry_nodup _ (i_reg _ _ _ _ _ I)) as [ND _].
  destruct (collect_auto _ _ _ _ _ HC ND) as (R & R' & ER & ER' & E1 & E2 & L & X). exists R, R'. split; auto. split; auto. split; auto.
  rewrite <- (i_idx _ _ _ _ _ I _ _ ER). exact X.
Qed.

Lemma end_trains c files os w xs r now early w' y :
  run P (start_world c files) os = Ok (w, xs) -> forallb explicit os = true -> step P w (OpEnd r (Some (r, Sync)) now early) = Ok (w', y) ->
  exists R R', nth_error (w_regions w) r = Some R /\ nth_error (w_regions w') r = Some R' /\ List.length (w_regions w') = List.length (w_regions w) /\
    forall i Ri, nth_error (w_regions w) i = Some Ri -> exists Ri', nth_error (w_regions w') i = Some Ri' /\ r_pending Ri' = r_pending Ri /\
      auto_trained P ((w_executions w + 1) mod 2 ^ 64) (count_begins (combine os xs) r) w w' r R R' i Ri Ri'.
Proof.
  intros H EX ST. destruct (inv_run P (start_world c files) eq_refl eq_refl eq_refl _ _ _ EX H) as (log & I).
  cbn in ST. apply bind_inv in ST. destruct ST as (R0 & ER0 & ST). apply bind_inv in ST. destruct ST as (v & HE & E). inversion E; subst v. clear E.
  unfold end_context in HE. apply bind_inv in HE. destruct HE as (cx & EC & HE). cbn [is_sync_of] in HE. rewrite Nat.eqb_refl in HE.
  apply bind_inv in HE. destruct HE as (d & ED & HE). destruct d as [x|]; [|discriminate].
  apply get_region_ok in ER0. destruct ER0 as [ER0 A0].
  unfold set_context in HE. cbn [fst snd] in HE. rewrite ER0 in HE.
  match type of HE with collect_context P (set_region w r ?v) r _ _ = _ => set (R1 := v) in * end.
  destruct (registry_nodup _ (i_reg _ _ _ _ _ I)) as [ND _].
  destruct (collect_auto _ _ _ _ _ HE ND) as (R & R' & ER & ER' & E1 & E2 & L & X). cbn in ER. rewrite nth_set_nth, Nat.eqb_refl, ER0 in ER. inversion ER; subst R. clear ER.
  cbn in L. rewrite set_nth_length in L. exists R0, R'. split; auto. split; auto. split; auto.
  intros i Ri Ei. rewrite <- (i_idx _ _ _ _ _ I _ _ ER0).
  assert (Y : exists Ri1, nth_error (w_regions (set_region w r R1)) i = Some Ri1 /\ r_model Ri1 = r_model Ri /\ r_pending Ri1 = r_pending Ri).
  { cbn. rewrite nth_set_nth. destruct (Nat.eqb_spec i r) as [->|]; [|eauto]. rewrite ER0 in *. inversion Ei; subst Ri. exists R1. auto. }
  destruct Y as (Ri1 & Ei1 & EM & EP). destruct (X _ _ Ei1) as (Ri' & Ei' & PE & AT). exists Ri'. split; auto. split; [congruence|].
  unfold auto_trained in *. rewrite EM in AT. exact AT.
Qed.
End Platform.
