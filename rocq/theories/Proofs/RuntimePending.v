(** Lemmas on the runtime: collecting the pending contexts of a region. *)
From Coq Require Import ZArith Bool Ascii String Lia List Permutation.
From Verif Require Import Model.Base Model.Float Model.Decimal Model.DatasetM Model.ParserM Model.DatasetIO
  Model.ModelStringM Model.PolicyModelsM Model.ConfigM Model.RuntimeM Spec.DatasetSpec Spec.DatasetClient Spec.RuntimeSpec
  Proofs.TreeFacts Proofs.RuntimeFacts Proofs.RuntimeCollect Proofs.RuntimeMoves.
Import ListNotations.
Open Scope Z_scope.

(** The state of the device timers. *)
Definition devices := ctxptr -> bool * option f32.

(** Contexts hold what the history says; device timers what [dev] says. *)
Definition view (h : history) (log : list entry) (dev : devices) (p : ctxptr) (c : context) : Prop :=
  c_features c = features_of h log p /\ c_policy c = policy_of h p /\ c_idx c = index_of h p /\
  match snd p with
  | Sync => exists e, c_timer c = Clock (option_map clock_seconds (started_of h (fst p))) e
  | Heap _ => c_timer c = Events (fst (dev p)) (snd (dev p))
  end.
Definition views (h : history) (log : list entry) (dev : devices) (w : world) : Prop :=
  forall p c, get_context w p = Ok c -> view h log dev p c.

Definition async_entry (h : history) (log : list entry) (dev : devices) (r : nat) (e : entry) : Prop :=
  e_region e = r /\ faithful h log e /\
  exists o k ms, e_context e = (o, Heap k) /\ dev (e_context e) = (true, Some ms) /\
    e_metric e = div64 (f64_of_f32 ms) (f64_of_Z 1000).

Definition pending (w : world) (r : nat) : list ctxptr :=
  match nth_error (w_regions w) r with Some R => r_pending R | None => [] end.

Definition contexts_of (l : list entry) : list ctxptr := map e_context l.

(** Measurements of contexts that do not outlive them. *)
Definition all_heap (l : list entry) : Prop := Forall (fun e => on_heap (e_context e) = true) l.

Lemma all_heap_app a b : all_heap a -> all_heap b -> all_heap (a ++ b).
Proof. intros A B. apply Forall_app. auto. Qed.

Lemma all_heap_flags l p : all_heap l -> kept_flags l p = [].
Proof.
  intros F. unfold kept_flags. destruct p as [o [|k]]; [cbn [snd]|reflexivity]. replace (filter _ l) with (@nil entry); [reflexivity|].
  induction F as [|e l E F IH]; cbn; auto. rewrite ctx_eqb_neq; auto. intros X. rewrite X in E. discriminate.
Qed.

Lemma all_heap_rest l p c : all_heap l -> rest_of l p c = c.
Proof. intros F. unfold rest_of, wiped. rewrite all_heap_flags by auto. reflexivity. Qed.

Lemma async_all_heap h log dev l : Forall (fun e => async_entry h log dev (e_region e) e) l -> all_heap l.
Proof. intros F. eapply Forall_impl; [|exact F]. intros e (_ & _ & o & k & ms & -> & _). reflexivity. Qed.

Lemma async_heap h log dev r l : Forall (async_entry h log dev r) l -> all_heap l.
Proof. intros F. eapply Forall_impl; [|exact F]. intros e (_ & _ & o & k & ms & -> & _). reflexivity. Qed.

Section Platform.
Variable P : platform.

Lemma moves_views Q h log dev w l w' : moves P Q w l w' -> all_heap l -> views h log dev w -> views h log dev w'.
Proof.
  intros M F V p c E. apply (moved_context_back _ _ _ _ _ (moves_moved _ _ _ _ _ M)) in E. destruct E as (c0 & E & -> & _).
  rewrite all_heap_rest by auto. apply V, E.
Qed.

Lemma collects_pending_same w r p x w' e : collects P w r p x w' -> entry_of w r p x e -> forall i, pending w' i = pending w i.
Proof.
  intros C E i. unfold pending. destruct (nth_error (w_regions w) i) as [R|] eqn:Ei.
  - destruct (collects_moved _ _ _ _ _ _ _ C E _ _ Ei) as (R' & -> & _ & ->). reflexivity.
  - destruct C as (_ & _ & _ & _ & _ & _ & _ & _ & _ & _ & _ & _ & _ & L & _).
    destruct (nth_error (w_regions w') i) eqn:E'; auto.
    apply nth_error_None in Ei. assert (i < List.length (w_regions w'))%nat by (apply nth_error_Some; congruence). lia.
Qed.

Lemma training_pending_same Q w w' : training P Q w w' -> forall i, pending w' i = pending w i.
Proof.
  intros T i. unfold pending. destruct (nth_error (w_regions w) i) as [R|] eqn:Ei.
  - destruct (training_region _ _ _ _ _ _ T Ei) as (R' & -> & m & -> & _). reflexivity.
  - assert (L := training_length _ _ _ _ T). destruct (nth_error (w_regions w') i) eqn:E'; auto.
    apply nth_error_None in Ei. assert (i < List.length (w_regions w'))%nat by (apply nth_error_Some; congruence). lia.
Qed.

Lemma pending_set w r R ps i : get_region w r = Ok R ->
  pending (set_region w r (with_pending R ps)) i = if Nat.eqb i r then ps else pending w i.
Proof.
  intros E. apply get_region_ok in E. destruct E as [E _]. unfold pending. cbn. rewrite nth_set_nth, E.
  destruct (Nat.eqb i r); reflexivity.
Qed.

Lemma collect_loop_spec Q h log dev r : forall ps w w' kept, collect_loop P w r ps = Ok (w', kept) -> views h log dev w ->
  (forall p, In p ps -> is_sync_of r p = false) ->
  exists l, moves P Q w l w' /\ Forall (async_entry h log dev r) l /\
    Forall (fun p => dev p = (true, None) /\ snd p <> Sync) kept /\ Permutation ps (contexts_of l ++ kept) /\ (forall i, pending w' i = pending w i).
Proof.
  induction ps as [|p ps IH]; cbn; intros w w' kept H V S.
  - inversion H; subst. exists []. repeat split; auto; constructor.
  - apply bind_inv in H. destruct H as (c & EC & H). apply bind_inv in H. destruct H as (d & ED & H).
    destruct d as [x|].
    + apply bind_inv in H. destruct H as (w1 & E1 & H). apply collect_context_collects in E1.
      destruct (entry_of_exists _ _ _ _ _ _ E1) as [e Ee].
      assert (M1 : moves P Q w [e] w1) by (eapply mv_collect; eauto; constructor).
      assert (HE : all_heap [e]).
      { constructor; [|constructor]. destruct E1 as (_ & _ & _ & _ & _ & _ & _ & _ & HP & _). destruct Ee as (R & c' & _ & _ & ->). cbn [e_context].
        destruct HP as [HP|(o & k & ->)]; [rewrite S in HP; [discriminate|auto]|reflexivity]. }
      destruct (IH _ _ _ H (moves_views _ _ _ _ _ _ _ M1 HE V)) as (l & M & F & FK & PM & PS); [intros; apply S; auto|].
      exists (e :: l). split; [eapply mv_collect; eauto|]. split.
      * constructor; auto. assert (HV := V _ _ EC). destruct HV as (V1 & V2 & V3 & V4).
        destruct E1 as (_ & _ & _ & _ & _ & _ & _ & _ & HP & _).
        destruct Ee as (R & c' & ER & EC' & ->). rewrite EC in EC'. inversion EC'; subst c'.
        split; [reflexivity|]. split; [repeat split; auto|]. destruct HP as [HP|(o & k & ->)].
        { rewrite S in HP; [discriminate|auto]. }
        exists o, k. cbn [e_context e_metric]. cbn [snd] in V4. rewrite V4 in ED.
        destruct (dev (o, Heap k)) as [b [ms|]]; cbn in ED; destruct b; try discriminate. inversion ED; subst x. eauto.
      * split; auto. split.
        { destruct Ee as (R & c' & ER & EC' & ->). cbn. constructor. exact PM. }
        intros i. rewrite PS. eapply collects_pending_same; eauto.
    + apply bind_inv in H. destruct H as ([w1 kept'] & E1 & H). inversion H; subst w' kept. clear H.
      destruct (IH _ _ _ E1 V) as (l & M & F & FK & PM & PS); [intros; apply S; auto|].
      exists l. split; auto. split; auto. split; [|split; auto].
      * constructor; auto. assert (HV := V _ _ EC). destruct HV as (_ & _ & _ & V4). destruct p as [o [|k]]; cbn [snd fst] in *.
        { destruct V4 as [e V4]. rewrite V4 in ED. destruct (started_of h o), e; discriminate. }
        rewrite V4 in ED. destruct (dev (o, Heap k)) as [b [ms|]]; cbn in ED; destruct b; try discriminate. split; auto. discriminate.
      * etransitivity; [apply perm_skip; exact PM|]. apply Permutation_middle.
Qed.

Lemma collect_pending_spec Q h log dev r w w' : collect_pending P w r = Ok w' -> views h log dev w ->
  (forall p, In p (pending w r) -> is_sync_of r p = false) ->
  exists l kept, moves P Q w l w' /\ Forall (async_entry h log dev r) l /\
    Forall (fun p => dev p = (true, None) /\ snd p <> Sync) kept /\ Permutation (pending w r) (contexts_of l ++ kept) /\
    (forall i, pending w' i = if Nat.eqb i r then kept else pending w i).
Proof.
  unfold collect_pending. intros H V S. apply bind_inv in H. destruct H as (R & ER & H).
  apply bind_inv in H. destruct H as ([w1 kept] & E1 & H). apply bind_inv in H. destruct H as (R1 & ER1 & H).
  inversion H; subst w'. clear H.
  assert (PR : pending w r = r_pending R). { unfold pending. apply get_region_ok in ER. destruct ER as [-> _]. auto. }
  rewrite <- PR in E1.
  destruct (collect_loop_spec Q _ _ _ _ _ _ _ _ E1 V S) as (l & M & F & FK & PM & PS).
  exists l, kept. split. { replace l with (l ++ []) by apply app_nil_r. eapply moves_app; [exact M|]. apply moves_pending; auto. }
  split; auto. split; auto. split; auto. intros i. rewrite pending_set; auto. rewrite PS. reflexivity.
Qed.

(** Region::train. *)
Lemma region_train_spec (Q : allowed) h log dev r w st collect force w' : region_train P w r st collect force = Ok w' -> views h log dev w ->
  (forall p, In p (pending w r) -> is_sync_of r p = false) ->
  (forall c own m, (force = true \/ collect = true \/ m_trainable m = true) -> Q c own m own) ->
  exists l kept, moves P Q w l w' /\ Forall (async_entry h log dev r) l /\ (collect = false -> l = []) /\
    Permutation (pending w r) (contexts_of l ++ kept) /\
    (collect = true -> force = true -> Forall (fun p => dev p = (true, None)) kept) /\
    (forall i, pending w' i = if Nat.eqb i r then kept else pending w i).
Proof.
  unfold region_train. intros H V S HQ. apply bind_inv in H. destruct H as (R & ER & H).
  assert (SAME : forall i, pending w i = if Nat.eqb i r then pending w r else pending w i).
  { intros i. destruct (Nat.eqb_spec i r); subst; auto. }
  destruct (negb force && negb (m_trainable (r_model R))) eqn:EN.
  { inversion H; subst w'. exists [], (pending w r). split; [constructor|]. split; [auto|]. split; [auto|]. split; [apply Permutation_refl|].
    split; auto. intros _ ->. discriminate. }
  apply bind_inv in H. destruct H as (w1 & E1 & H).
  assert (C1 : exists l kept, moves P Q w l w1 /\ Forall (async_entry h log dev r) l /\ (collect = false -> l = []) /\
    Permutation (pending w r) (contexts_of l ++ kept) /\ (collect = true -> force = true -> Forall (fun p => dev p = (true, None)) kept) /\
    (forall i, pending w1 i = if Nat.eqb i r then kept else pending w i)).
  { destruct collect.
    - destruct (collect_pending_spec Q _ _ _ _ _ _ E1 V S) as (l & kept & M & F & FK & PM & PP).
      exists l, kept. split; [exact M|]. split; [exact F|]. split; [discriminate|]. split; [exact PM|]. split; [|exact PP].
      intros _ _. eapply Forall_impl; [|exact FK]. intros a [A _]; exact A.
    - inversion E1; subst w1. exists [], (pending w r). split; [constructor|]. split; [auto|]. split; [auto|].
      split; [apply Permutation_refl|]. split; auto. discriminate. }
  destruct C1 as (l & kept & M & F & CF & PM & CK & PP).
  exists l, kept. split.
  - replace l with (l ++ []) by apply app_nil_r. eapply moves_app; [exact M|].
    destruct force; cbn in EN.
    + apply moves_train. apply (train_body_training _ _ _ _ _ _ H). intros. apply HQ; auto.
    + destruct (get_region w1 r) as [R1| | | |] eqn:ER1; try (unfold train_body in H; rewrite ER1 in H; discriminate).
      destruct (m_trainable (r_model R1)) eqn:T1.
      * apply moves_train. apply (train_body_training _ _ _ _ _ _ H). intros R2 E2. rewrite ER1 in E2. inversion E2; subst.
        apply HQ; auto.
      * destruct collect.
        { apply moves_train. apply (train_body_training _ _ _ _ _ _ H). intros. apply HQ; auto. }
        inversion E1; subst w1. rewrite ER in ER1. inversion ER1; subst R1. rewrite T1 in EN. discriminate.
  - split; auto. split; auto. split; auto. split; auto. intros i.
    assert (exists QQ, training P QQ w1 w') as [QQ T].
    { exists (fun _ _ _ => True). eapply train_body_training; eauto. }
    rewrite (training_pending_same _ _ _ T). apply PP.
Qed.
End Platform.
