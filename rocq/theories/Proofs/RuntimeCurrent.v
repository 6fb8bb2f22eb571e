(** Lemmas on the runtime: calls without a context, creation of regions, traces. *)
From Coq Require Import ZArith Bool Ascii String Lia List Permutation.
From Verif Require Import Model.Base Model.Float Model.Decimal Model.DatasetM Model.ParserM Model.DatasetIO
  Model.NetM Model.PolicyNetM Model.ModelStringM Model.PolicyModelsM Model.ConfigM Model.RuntimeM
  Spec.DatasetSpec Spec.DatasetClient Spec.RuntimeSpec
  Proofs.TreeFacts Proofs.RuntimeFacts Proofs.RuntimeCollect Proofs.RuntimeMoves Proofs.RuntimePending Proofs.RuntimeOps
  Proofs.RuntimeSettled Proofs.RuntimeNew Proofs.RuntimeAccount Proofs.RuntimeRecords Proofs.RuntimeClient.
Import ListNotations.
Open Scope Z_scope.

Lemma names_begins o o' : names o o' -> begins o' = begins o.
Proof. destruct o; cbn; try (intros ->; reflexivity); destruct p; try (intros ->; reflexivity); intros [q ->]; reflexivity. Qed.

Lemma names_collects r o o' : names o o' -> collects_on r o' = collects_on r o.
Proof. destruct o; cbn; try (intros ->; reflexivity); destruct p; try (intros ->; reflexivity); intros [q ->]; reflexivity. Qed.

Section Platform.
Variable P : platform.
Variable w0 : world.

(** The region has no current context. *)
Definition no_current (r : nat) (w : world) : Prop := forall R, nth_error (w_regions w) r = Some R -> r_current R = None.

Lemma context_free_undefined r w o : no_current r w -> context_free r o = true -> step P w o = UB.
Proof.
  intros N C. assert (U : forall r0, Nat.eqb r0 r = true -> resolve w r0 None = UB).
  { intros r0 E. apply Nat.eqb_eq in E. subst r0. unfold resolve. cbn. destruct (get_region w r) as [R| | | |] eqn:ER; auto; cbn.
    - rewrite (N R); auto. apply get_region_ok in ER. apply ER.
    - unfold get_region in ER. destruct (nth_error _ _) as [R|]; [destruct (r_alive R)|]; discriminate.
    - unfold get_region in ER. destruct (nth_error _ _) as [R|]; [destruct (r_alive R)|]; discriminate.
    - unfold get_region in ER. destruct (nth_error _ _) as [R|]; [destruct (r_alive R)|]; discriminate. }
  assert (G : forall r0, (exists R, get_region w r0 = Ok R) \/ get_region w r0 = UB).
  { intros r0. unfold get_region. destruct (nth_error _ _) as [R|]; [destruct (r_alive R)|]; eauto. }
  destruct o as [nf nm np mt info yaml init|r' async now|r' gs now|r' q y|r' q D|r' q now early|r' q y|r' st collect force|st collect|r'|r' ws|ws|q ms'];
    try discriminate; destruct q; try discriminate; cbn in C; cbn [step]; assert (U' := U _ C).
  - destruct (G r') as [[R ->]| ->]; auto. cbn [bind]. rewrite U'. reflexivity.
  - rewrite U'. reflexivity.
  - destruct (G r') as [[R ->]| ->]; auto. cbn [bind]. rewrite U'. reflexivity.
  - rewrite U'. reflexivity.
Qed.

Lemma step_no_current h log w o x w' r : inv P w0 h log w -> explicit o = true -> step P w o = Ok (w', x) ->
  begins o <> Some r -> no_current r w -> (exists e, In e log /\ e_region e = r) ->
  exists log', inv P w0 (h ++ [(o, x)]) log' w' /\ no_current r w' /\ exists e, In e log' /\ e_region e = r.
Proof.
  intros I EX ST NB N (e & IE & EE). destruct (inv_step P w0 _ _ _ _ _ _ I EX ST) as (l & I').
  assert (L := i_log _ _ _ _ _ I _ IE). rewrite EE in L.
  exists (log ++ l). split; auto. split; [|exists e; split; auto; apply in_or_app; auto].
  intros R' ER'. destruct (nth_error (w_regions w) r) as [R|] eqn:ER; [|apply nth_error_None in ER; lia].
  assert (RC := i_records _ _ _ _ _ I'). destruct (records_snoc_inv P _ _ _ _ _ _ RC) as (log1 & l1 & w1 & E1 & RC1 & ST1 & TK & SD).
  assert (w1 = w). { assert (A := i_run _ _ _ _ _ I). clear - A RC1. 
    assert (B : run P w0 (map fst h) = Ok (w1, map snd h)).
    { clear A. induction RC1; [reflexivity|]. rewrite !map_app. cbn. eapply run_snoc; eauto. }
    congruence. }
  subst w1. destruct SD as [_ SD]. destruct (SD _ _ _ ER ER') as (_ & _ & _ & CU). rewrite CU. unfold current_after, is_begin_of. cbn.
  assert (match begins o with Some r' => Nat.eqb r' r | None => false end = false) as ->.
  { destruct (begins o) as [r'|]; auto. apply Nat.eqb_neq. congruence. }
  rewrite (N _ ER). destruct (taken_for r l1); reflexivity.
Qed.

Lemma run_no_current os : forall h log w w' xs r, inv P w0 h log w -> forallb explicit os = true -> run P w os = Ok (w', xs) ->
  Forall (fun o => begins o <> Some r) os -> no_current r w -> (exists e, In e log /\ e_region e = r) -> no_current r w'.
Proof.
  induction os as [|o os IH]; cbn; intros h log w w' xs r I EX H F N E.
  - inversion H; subst. auto.
  - apply bind_inv in H. destruct H as ([w1 x] & ST & H). apply bind_inv in H. destruct H as ([w2 ys] & RU & H). inversion H; subst w' xs. clear H.
    apply andb_prop in EX. destruct EX as [EX1 EX2]. inversion F; subst.
    destruct (step_no_current _ _ _ _ _ _ r I EX1 ST) as (log' & I' & N' & E'); auto. eapply IH; eauto.
Qed.

Lemma records_run h log w : records P w0 h log w -> run P w0 (map fst h) = Ok (w, map snd h).
Proof. induction 1; [reflexivity|]. rewrite !map_app. cbn. eapply run_snoc; eauto. Qed.
End Platform.

Section Runs.
Variable P : platform.

Lemma collects_region_of h log o l r : collects_on r o = true -> taken h log o l -> Forall (fun e => e_region e = r) l.
Proof.
  intros C T. assert (A : forall r', Nat.eqb r' r = true -> Forall (asynchronous h log r') l -> Forall (fun e => e_region e = r) l).
  { intros r' E F. apply Nat.eqb_eq in E. subst r'. eapply Forall_impl; [|exact F]. intros e (X & _). exact X. }
  destruct o as [nf nm np mt info yaml init|r' async now|r' gs now|r' q y|r' q D|r' q now early|r' q y|r' st collect force|st collect|r'|r' ws|ws|q ms'];
    try discriminate; cbn in C, T.
  - destruct q as [[q [|k]]|]; [|eauto|subst l; constructor]. destruct T as (e & st & _ & -> & E & _). apply Nat.eqb_eq in C. constructor; auto. congruence.
  - destruct q as [q|]; [|subst l; constructor]. destruct T as (e & rest & -> & E & _ & _ & _ & F). apply Nat.eqb_eq in C. constructor; [congruence|].
    subst r'. eapply Forall_impl; [|exact F]. intros e' (X & _). exact X.
  - destruct collect; [eauto|subst l; constructor].
  - eauto.
Qed.

Lemma collects_region_exists w o w' x r : collects_on r o = true -> step P w o = Ok (w', x) -> exists R, nth_error (w_regions w) r = Some R.
Proof.
  intros C H. assert (G : forall R, get_region w r = Ok R -> exists R, nth_error (w_regions w) r = Some R)
    by (intros R E; apply get_region_ok in E; exists R; apply E).
  destruct o as [nf nm np mt info yaml init|r' async now|r' gs now|r' q y|r' q D|r' q now early|r' q y|r' st collect force|st collect|r'|r' ws|ws|q ms'];
    try discriminate; cbn in C; apply Nat.eqb_eq in C; subst r'; cbn [step] in H; apply bind_inv in H; destruct H as (y0 & H & K).
  - eauto.
  - apply bind_inv in K. destruct K as (w1 & K & _). unfold end_metric in K. apply bind_inv in K. destruct K as (w2 & K & _).
    unfold collect_context in K. apply bind_inv in K. destruct K as (R & E & _). eauto.
  - unfold region_train in H. apply bind_inv in H. destruct H as (R & E & _). eauto.
  - unfold collect_pending in H. apply bind_inv in H. destruct H as (R & E & _). eauto.
Qed.

Lemma current_lost c files os1 w1 xs1 o w2 x os2 w3 xs3 r call :
  run P (start_world c files) os1 = Ok (w1, xs1) -> step P w1 o = Ok (w2, x) -> run P w2 os2 = Ok (w3, xs3) ->
  forallb (fun o => negb (ends_process o)) (os1 ++ o :: os2) = true ->
  collects_on r o = true -> w_executions w2 <> w_executions w1 -> Forall (fun o => begins o <> Some r) os2 ->
  context_free r call = true -> step P w3 call = UB.
Proof.
  intros R1 ST R2 NE CO NX NB CF. apply context_free_undefined with (r := r); auto.
  rewrite forallb_app in NE. apply andb_prop in NE. destruct NE as [NE1 NE]. cbn in NE. apply andb_prop in NE. destruct NE as [NE2 NE3].
  apply negb_true_iff in NE2.
  destruct (named_run P _ _ _ _ R1 NE1) as (os1' & _ & EX1 & R1').
  destruct (named_step P _ _ _ _ ST NE2) as (o' & NO & EXO & ST').
  destruct (named_run P _ _ _ _ R2 NE3) as (os2' & NO2 & EX2 & R2').
  destruct (inv_run P (start_world c files) eq_refl eq_refl eq_refl _ _ _ EX1 R1') as (log & I).
  destruct (inv_step P _ _ _ _ _ _ _ I EXO ST') as (l & I').
  assert (RC := i_records _ _ _ _ _ I'). destruct (records_snoc_inv P _ _ _ _ _ _ RC) as (log1 & l1 & w1' & E1 & RC1 & ST1 & TK & SD).
  assert (w1' = w1) by (assert (A := i_run _ _ _ _ _ I); apply records_run in RC1; congruence). subst w1'.
  assert (CO' : collects_on r o' = true) by (rewrite (names_collects r _ _ NO); auto).
  assert (F := collects_region_of _ _ _ _ _ CO' TK).
  destruct SD as [SX SD]. destruct l1 as [|e l1].
  { exfalso. apply NX. rewrite SX, Z.add_0_r. apply Z.mod_small. apply (exec_range _ _ _ _ _ I). }
  assert (ER : e_region e = r) by (inversion F; auto).
  apply (run_no_current P _ _ _ _ _ _ _ r I' EX2 R2').
  - clear - NO2 NB. induction NO2; constructor; inversion NB; subst; auto. rewrite (names_begins _ _ H). auto.
  - intros R' ER'. assert (exists R1', nth_error (w_regions w1) r = Some R1') as (R1r & ER1).
    { apply (collects_region_exists _ _ _ _ _ CO' ST'). }
    destruct (SD _ _ _ ER1 ER') as (_ & _ & _ & ->). unfold current_after, is_begin_of. cbn.
    replace (begins o') with (@None nat) by (destruct o'; try discriminate; reflexivity).
    unfold taken_for. cbn. rewrite ER, Nat.eqb_refl. reflexivity.
  - exists e. split; auto. rewrite E1. apply in_or_app. right. left. auto.
Qed.
End Runs.
