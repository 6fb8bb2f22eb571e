(** Lemmas on the runtime: what each call does, in terms of collections, contexts and pending lists. *)
From Coq Require Import ZArith Bool Ascii String Lia List Permutation.
From Verif Require Import Model.Base Model.Float Model.Decimal Model.DatasetM Model.ParserM Model.DatasetIO
  Model.ModelStringM Model.PolicyModelsM Model.ConfigM Model.RuntimeM Spec.DatasetSpec Spec.DatasetClient Spec.RuntimeSpec
  Proofs.TreeFacts Proofs.RuntimeFacts Proofs.RuntimeCollect Proofs.RuntimeMoves Proofs.RuntimePending.
Import ListNotations.
Open Scope Z_scope.

Definition of_region (r : nat) (l : list entry) : list entry := filter (fun e => Nat.eqb (e_region e) r) l.

Lemma of_region_app r a b : of_region r (a ++ b) = of_region r a ++ of_region r b.
Proof. apply filter_app. Qed.

Lemma of_region_all r l : Forall (fun e => e_region e = r) l -> of_region r l = l.
Proof. induction 1 as [|e l E F IH]; cbn; auto. rewrite E, Nat.eqb_refl. f_equal. exact IH. Qed.

Lemma of_region_none r i l : Forall (fun e => e_region e = r) l -> i <> r -> of_region i l = [].
Proof. induction 1 as [|e l E F IH]; cbn; auto. intros N. rewrite E. destruct (Nat.eqb_spec r i); [congruence|]. auto. Qed.

Lemma contexts_of_app a b : contexts_of (a ++ b) = contexts_of a ++ contexts_of b.
Proof. apply map_app. Qed.

(** Every pending context is still pending or was collected, once. *)
Definition accounted (w : world) (l : list entry) (w' : world) : Prop :=
  forall r, Permutation (pending w r) (contexts_of (of_region r l) ++ pending w' r).

Lemma accounted_nil w w' : (forall r, pending w' r = pending w r) -> accounted w [] w'.
Proof. intros H r. rewrite H. apply Permutation_refl. Qed.

Lemma accounted_app a l b l' c : accounted a l b -> accounted b l' c -> accounted a (l ++ l') c.
Proof.
  intros A B r. rewrite of_region_app, contexts_of_app, <- app_assoc. etransitivity; [apply A|].
  apply Permutation_app_head. apply B.
Qed.

Lemma accounted_one w l w' r kept : Forall (fun e => e_region e = r) l -> Permutation (pending w r) (contexts_of l ++ kept) ->
  (forall i, pending w' i = if Nat.eqb i r then kept else pending w i) -> accounted w l w'.
Proof.
  intros F PM PP i. rewrite PP. destruct (Nat.eqb_spec i r) as [->|N].
  - rewrite of_region_all; auto.
  - rewrite (of_region_none r); auto.
Qed.

Lemma accounted_in w l w' r p : accounted w l w' -> In p (pending w' r) -> In p (pending w r).
Proof. intros A I. eapply Permutation_in; [symmetry; apply A|]. apply in_or_app. auto. Qed.

(** No region has its own synchronous context pending. *)
Definition no_own_sync (w : world) : Prop := forall r p, In p (pending w r) -> is_sync_of r p = false.

Lemma accounted_no_own_sync w l w' : accounted w l w' -> no_own_sync w -> no_own_sync w'.
Proof. intros A N r p I. apply N. eapply accounted_in; eauto. Qed.

Section Platform.
Variable P : platform.

(** What training may do when pending contexts may be collected first, or when it is forced. *)
Definition any_own : allowed := fun c own m d => truthy (cf_single_model c) = true \/ d = own.

Lemma collect_pending_accounted Q h log dev r w w' : collect_pending P w r = Ok w' -> views h log dev w -> no_own_sync w ->
  exists l, moves P Q w l w' /\ Forall (async_entry h log dev r) l /\ accounted w l w' /\
    Forall (fun p => dev p = (true, None) /\ snd p <> Sync) (pending w' r).
Proof.
  intros H V N. destruct (collect_pending_spec P Q _ _ _ _ _ _ H V (N r)) as (l & kept & M & F & FK & PM & PP).
  exists l. split; auto. split; auto. split.
  - eapply accounted_one; eauto. eapply Forall_impl; [|exact F]. intros e [E _]; exact E.
  - rewrite PP, Nat.eqb_refl. exact FK.
Qed.

Lemma region_train_accounted (Q : allowed) h log dev r w st collect force w' : region_train P w r st collect force = Ok w' -> views h log dev w ->
  no_own_sync w -> (forall c own m, (force = true \/ collect = true \/ m_trainable m = true) -> Q c own m own) ->
  exists l, moves P Q w l w' /\ Forall (async_entry h log dev r) l /\ (collect = false -> l = []) /\ accounted w l w' /\
    (collect = true -> force = true -> Forall (fun p => dev p = (true, None)) (pending w' r)).
Proof.
  intros H V N HQ. destruct (region_train_spec P Q _ _ _ _ _ _ _ _ _ H V (N r) HQ) as (l & kept & M & F & CF & PM & CK & PP).
  exists l. split; auto. split; auto. split; auto. split.
  - eapply accounted_one; eauto. eapply Forall_impl; [|exact F]. intros e [E _]; exact E.
  - rewrite PP, Nat.eqb_refl. exact CK.
Qed.

Lemma apollo_train_accounted (Q : allowed) h log dev w st collect w' : apollo_train P w st collect = Ok w' -> views h log dev w -> no_own_sync w ->
  (forall c own m, (collect = true \/ m_trainable m = true) -> Q c own m own) ->
  (forall c own m d, truthy (cf_single_model c) = true -> Q c own m d) ->
  exists l, moves P Q w l w' /\ Forall (fun e => async_entry h log dev (e_region e) e) l /\ (collect = false -> l = []) /\ accounted w l w'.
Proof.
  unfold apollo_train, train_all_by, train_regions_by. intros H V N HQ HS.
  destruct (truthy (cf_collective _)); [discriminate|].
  destruct (truthy (cf_single_model (w_config w))) eqn:ES.
  - apply bind_inv in H. destruct H as (d & _ & H).
    assert (T : training P (Q (w_config w)) w w') by (eapply train_each_on_training; eauto).
    exists []. split; [apply moves_train; auto|]. split; auto. split; auto. apply accounted_nil.
    eapply training_pending_same; eauto.
  - set (rs := map snd (w_registry w)) in H. clearbody rs. revert w H V N ES.
    induction rs as [|r rs IH]; cbn; intros w0 H V N ES.
    + inversion H; subst. exists []. split; [constructor|]. split; auto. split; auto. apply accounted_nil; auto.
    + apply bind_inv in H. destruct H as (w1 & E1 & H).
      destruct (region_train_accounted Q _ _ _ _ _ _ _ _ _ E1 V N) as (l & M & F & CF & A & _).
      { intros c own m [X|X]; [discriminate|]. apply HQ; auto. }
      assert (MM := moves_moved _ _ _ _ _ M).
      destruct (IH w1 H (moves_views _ _ _ _ _ _ _ _ M (async_heap _ _ _ _ _ F) V) (accounted_no_own_sync _ _ _ A N)) as (l' & M' & F' & CF' & A').
      { destruct MM as (-> & _). exact ES. }
      exists (l ++ l'). split; [eapply moves_app; eauto|]. split.
      { apply Forall_app. split; auto. eapply Forall_impl; [|exact F]. intros e (X & Y). split; auto. }
      split; [intros C; rewrite CF, CF'; auto|]. eapply accounted_app; eauto.
Qed.

(** Timers completing. *)
Definition report_to (dev : devices) (e : ctxptr * f32) : devices := fun p => report p (dev p) e.

Lemma set_context_regions w p c i R : nth_error (w_regions w) i = Some R -> get_context w p <> UB ->
  exists R', nth_error (w_regions (set_context w p c)) i = Some R' /\
    (same_static R R' /\ r_alive R' = r_alive R /\ r_idx R' = r_idx R /\ r_dataset R' = r_dataset R /\ r_model R' = r_model R /\
     r_pending R' = r_pending R /\ r_current R' = r_current R /\ r_trace R' = r_trace R /\ List.length (r_heap R') = List.length (r_heap R)).
Proof.
  intros E G. unfold set_context. destruct p as [o q]. cbn. unfold get_context in G. cbn in G.
  destruct (nth_error (w_regions w) o) as [Ro|] eqn:Eo; [|exists R; repeat split; auto].
  assert (X : forall R', r_name R' = r_name R' -> True) by auto. clear X.
  destruct q as [|k]; cbn; rewrite nth_set_nth, Eo; destruct (Nat.eqb_spec i o) as [->|Ni]; eexists; (split; [reflexivity || eauto|]);
    try (assert (Ro = R) by congruence; subst); cbn; repeat split; auto. apply set_nth_length.
Qed.

Lemma set_context_globals w p c : same_globals w (set_context w p c).
Proof.
  unfold set_context. destruct (nth_error _ _); [|apply same_globals_refl]. destruct (snd p); repeat split.
Qed.

Lemma set_context_length w p c : List.length (w_regions (set_context w p c)) = List.length (w_regions w).
Proof. unfold set_context. destruct (nth_error _ _); auto. destruct (snd p); cbn; apply set_nth_length. Qed.

Lemma get_set_context w p c0 c q : get_context w p = Ok c0 ->
  get_context (set_context w p c) q = if ctx_eqb q p then Ok c else get_context w q.
Proof.
  intros E. unfold get_context, set_context in *. destruct p as [o x], q as [o' x']. cbn in *.
  destruct (nth_error (w_regions w) o) as [R|] eqn:Eo; [|discriminate].
  unfold ctx_eqb. cbn.
  destruct x as [|k]; cbn; rewrite nth_set_nth, Eo; destruct (Nat.eqb_spec o' o) as [->|N]; cbn; auto.
  - destruct x'; cbn; [destruct (r_alive R); auto; discriminate|rewrite Eo; auto].
  - destruct x' as [|k']; cbn.
    + rewrite Eo. auto.
    + rewrite Eo. rewrite nth_set_nth. destruct (Nat.eqb_spec k' k) as [->|N]; auto.
      destruct (nth_error (r_heap R) k) as [[c1|]|]; auto; discriminate.
Qed.

Lemma pending_set_context w p c i : pending (set_context w p c) i = pending w i.
Proof.
  unfold set_context, pending. destruct (nth_error (w_regions w) (fst p)) as [R|] eqn:E; auto.
  destruct (snd p); cbn; rewrite nth_set_nth, E; destruct (Nat.eqb_spec i (fst p)) as [->|N]; auto; rewrite E; auto.
Qed.

(** Changes confined to one context. *)
Definition touched (p : ctxptr) (w w' : world) : Prop :=
  same_globals w w' /\ List.length (w_regions w') = List.length (w_regions w) /\
  (forall i, pending w' i = pending w i) /\
  (forall i R, nth_error (w_regions w) i = Some R -> exists R', nth_error (w_regions w') i = Some R' /\
    same_static R R' /\ r_alive R' = r_alive R /\ r_idx R' = r_idx R /\ r_dataset R' = r_dataset R /\ r_model R' = r_model R /\
    List.length (r_heap R') = List.length (r_heap R) /\ r_current R' = r_current R /\ r_trace R' = r_trace R) /\
  (forall q, q <> p -> get_context w' q = get_context w q).

Lemma touched_refl p w : touched p w w.
Proof.
  split; [apply same_globals_refl|]. split; auto. split; auto. split; auto. intros i R E. exists R. repeat split; auto.
Qed.

Lemma touched_set_context w p c0 c : get_context w p = Ok c0 -> touched p w (set_context w p c).
Proof.
  intros E. split; [apply set_context_globals|]. split; [apply set_context_length|]. split; [intros; apply pending_set_context|].
  split.
  - intros i R Ei. destruct (set_context_regions w p c i R Ei) as (R' & E' & S & A & I & D & M & _ & CU & TR & L); [congruence|].
    exists R'. repeat split; auto; apply S.
  - intros q N. rewrite (get_set_context _ _ c0) by auto. rewrite ctx_eqb_neq; auto.
Qed.

Lemma complete_touched w e : touched (fst e) w (complete w e).
Proof.
  unfold complete. destruct (get_context w (fst e)) as [c| | | |] eqn:E; try apply touched_refl.
  destruct (c_timer c) as [|[|] [|]]; try apply touched_refl. eapply touched_set_context; eauto.
Qed.

Lemma complete_views h log dev w e : views h log dev w -> views h log (report_to dev e) (complete w e).
Proof.
  intros V p c E. unfold complete in E. destruct e as [q ms]. cbn in E.
  assert (same : forall c, get_context w p = Ok c -> (snd p = Sync \/ ctx_eqb q p = false \/ dev p <> (true, None)) ->
    view h log (report_to dev (q, ms)) p c).
  { intros c1 E1 D. destruct (V _ _ E1) as (V1 & V2 & V3 & V4). split; auto. split; auto. split; auto.
    destruct (snd p); auto. rewrite V4. unfold report_to, report. cbn. destruct (ctx_eqb q p) eqn:X; auto.
    destruct D as [D|[D|D]]; [discriminate|discriminate|]. destruct (dev p) as [[|] [m|]]; cbn; auto. contradiction. }
  destruct (get_context w q) as [c0| | | |] eqn:E0;
    try (apply same; auto; right; left; apply ctx_eqb_neq; intros ->; congruence).
  destruct (V _ _ E0) as (V1 & V2 & V3 & V4). destruct q as [o [|k]]; cbn [snd fst] in V4.
  - destruct V4 as [x V4]. rewrite V4 in E. apply same; auto. destruct p as [o' [|k']]; auto.
    right. left. apply ctx_eqb_neq. discriminate.
  - rewrite V4 in E. destruct (dev (o, Heap k)) as [b m] eqn:ED. cbn in E. destruct b, m.
    + apply same; auto. right. destruct (ctx_eqb (o, Heap k) p) eqn:X; auto. right. apply ctx_eqb_eq in X. subst p. congruence.
    + rewrite (get_set_context _ _ c0) in E by auto. destruct (ctx_eqb p (o, Heap k)) eqn:X.
      * apply ctx_eqb_eq in X. subst p. inversion E; subst c. split; auto. split; auto. split; auto. cbn.
        unfold report_to, report. cbn [fst snd]. rewrite ctx_eqb_refl, ED. reflexivity.
      * apply same; auto. right. left. rewrite ctx_eqb_sym. auto.
    + apply same; auto. right. destruct (ctx_eqb (o, Heap k) p) eqn:X; auto. right. apply ctx_eqb_eq in X. subst p. congruence.
    + apply same; auto. right. destruct (ctx_eqb (o, Heap k) p) eqn:X; auto. right. apply ctx_eqb_eq in X. subst p. congruence.
Qed.
End Platform.
