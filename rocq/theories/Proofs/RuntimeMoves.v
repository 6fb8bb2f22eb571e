(** Lemmas on the runtime: sequences of collections and trainings. *)
From Coq Require Import ZArith Bool Ascii String Lia List.
From Verif Require Import Model.Base Model.Float Model.Decimal Model.DatasetM Model.ParserM Model.DatasetIO
  Model.ModelStringM Model.PolicyModelsM Model.ConfigM Model.RuntimeM Spec.DatasetSpec Spec.DatasetClient Spec.RuntimeSpec
  Proofs.TreeFacts Proofs.RuntimeFacts Proofs.RuntimeCollect.
Import ListNotations.
Open Scope Z_scope.

Lemma ctx_eqb_eq p q : ctx_eqb p q = true <-> p = q.
Proof.
  destruct p as [a [|i]], q as [b [|j]]; unfold ctx_eqb; cbn; rewrite ?andb_true_r, ?andb_false_r, ?andb_true_iff, ?Nat.eqb_eq;
    split; intros H; try discriminate; try (inversion H; subst; auto); auto.
Qed.

Lemma ctx_eqb_refl p : ctx_eqb p p = true.
Proof. apply ctx_eqb_eq; auto. Qed.

Lemma ctx_eqb_neq p q : p <> q -> ctx_eqb p q = false.
Proof. intros N. destruct (ctx_eqb p q) eqn:E; auto. apply ctx_eqb_eq in E. contradiction. Qed.

Lemma ctx_eqb_sym p q : ctx_eqb p q = ctx_eqb q p.
Proof.
  destruct (ctx_eqb q p) eqn:E.
  - apply ctx_eqb_eq in E. subst. apply ctx_eqb_refl.
  - apply ctx_eqb_neq. intros ->. rewrite ctx_eqb_refl in E. discriminate.
Qed.

Section Platform.
Variable P : platform.

(** The measurement a collection takes. *)
Definition entry_of (w : world) (r : nat) (p : ctxptr) (x : f64) (e : entry) : Prop :=
  exists R c, get_region w r = Ok R /\ get_context w p = Ok c /\
    e = mkEntry r p (c_idx c) (c_features c) (c_policy c) x (truthy (cf_persistent (w_config w)) || m_trainable (r_model R)).

Lemma entry_of_exists w r p x w' : collects P w r p x w' -> exists e, entry_of w r p x e.
Proof. intros (R & c & d & t & ER & EC & _). eexists. exists R, c. eauto. Qed.

(** Data sets a model may be trained on, by configuration. *)
Definition allowed := config -> dataset -> model -> dataset -> Prop.

Inductive moves (Q : allowed) : world -> list entry -> world -> Prop :=
| mv_refl w : moves Q w [] w
| mv_collect w r p x w1 e l w2 : collects P w r p x w1 -> entry_of w r p x e -> moves Q w1 l w2 -> moves Q w (e :: l) w2
| mv_train w w1 l w2 : training P (Q (w_config w)) w w1 -> moves Q w1 l w2 -> moves Q w l w2
| mv_pending w r R ps l w2 : get_region w r = Ok R -> moves Q (set_region w r (with_pending R ps)) l w2 -> moves Q w l w2.

Lemma moves_app Q a l b l' c : moves Q a l b -> moves Q b l' c -> moves Q a (l ++ l') c.
Proof. induction 1; cbn; auto; intros; [eapply mv_collect|eapply mv_train|eapply mv_pending]; eauto. Qed.

Lemma moves_collect Q w r p x w' : collects P w r p x w' -> exists e, entry_of w r p x e /\ moves Q w [e] w'.
Proof. intros C. destruct (entry_of_exists _ _ _ _ _ C) as [e E]. exists e. split; auto. eapply mv_collect; eauto. constructor. Qed.

Lemma moves_train Q w w' : training P (Q (w_config w)) w w' -> moves Q w [] w'.
Proof. intros. eapply mv_train; eauto. constructor. Qed.

Lemma moves_pending Q w r R ps : get_region w r = Ok R -> moves Q w [] (set_region w r (with_pending R ps)).
Proof. intros. eapply mv_pending; eauto. constructor. Qed.

Lemma insert_all_app d h g d1 : insert_all d h = Ok d1 -> insert_all d (h ++ g) = insert_all d1 g.
Proof.
  revert d. induction h as [|m h IH]; cbn; intros d H.
  - inversion H; auto.
  - destruct (ds_insert d (m_features m) (m_policy m) (m_metric m)); cbn in *; try discriminate. auto.
Qed.

(** Whether the context is among those of the measurements. *)
Definition gone (p : ctxptr) (l : list entry) : bool := existsb (fun e => ctx_eqb (e_context e) p) l.

Lemma gone_app p a b : gone p (a ++ b) = gone p a || gone p b.
Proof. apply existsb_app. Qed.

Lemma kept_flags_app a b p : kept_flags (a ++ b) p = kept_flags a p ++ kept_flags b p.
Proof. unfold kept_flags. destruct (snd p); auto. rewrite filter_app, map_app. reflexivity. Qed.

(** Whether a measurement of the context was kept, if the context outlives it. *)
Definition wiped (l : list entry) (p : ctxptr) : bool := existsb (fun b => b) (kept_flags l p).

Lemma wiped_app a b p : wiped (a ++ b) p = wiped a p || wiped b p.
Proof. unfold wiped. rewrite kept_flags_app. apply existsb_app. Qed.

Lemma wiped_heap l i k : wiped l (i, Heap k) = false.
Proof. reflexivity. Qed.

Definition rest_of (l : list entry) (p : ctxptr) (c : context) : context := if wiped l p then without_features c else c.

Lemma rest_of_app a b p c : rest_of (a ++ b) p c = rest_of b p (rest_of a p c).
Proof. unfold rest_of. rewrite wiped_app. destruct (wiped a p), (wiped b p); reflexivity. Qed.

Lemma is_sync_ctx i p : is_sync_of i p = ctx_eqb p (i, Sync).
Proof. destruct p as [o [|k]]; unfold ctx_eqb; cbn; [rewrite andb_true_r|rewrite andb_false_r]; reflexivity. Qed.

(** Region [i] before and after. *)
Definition moved_region (l : list entry) (i : nat) (R R' : region) : Prop :=
  same_static R R' /\ r_alive R' = r_alive R /\ r_idx R' = r_idx R /\ r_sync R' = rest_of l (i, Sync) (r_sync R) /\
  insert_all (r_dataset R) (kept_for i l) = Ok (r_dataset R') /\
  (forall k, nth_error (r_heap R') k = if gone (i, Heap k) l then Some None else nth_error (r_heap R) k) /\
  List.length (r_heap R') = List.length (r_heap R).

Definition count_mod (w : world) (n : nat) : Z := (w_executions w + Z.of_nat n) mod 2 ^ 64.

(** The counter after [n] more collections. *)
Definition counted (n : nat) (w w' : world) : Prop :=
  w_executions w' mod 2 ^ 64 = count_mod w n /\ (0 <= w_executions w < 2 ^ 64 -> 0 <= w_executions w' < 2 ^ 64).

Lemma counted_same w w' : w_executions w' = w_executions w -> counted 0 w w'.
Proof. intros E. unfold counted, count_mod. rewrite E, Z.add_0_r. auto. Qed.

Lemma counted_one w w' : w_executions w' = (w_executions w + 1) mod 2 ^ 64 -> counted 1 w w'.
Proof. intros E. unfold counted, count_mod. rewrite E, Zmod_mod. split; auto. intros _. apply Z.mod_pos_bound. lia. Qed.

Lemma counted_app n m a b c : counted n a b -> counted m b c -> counted (n + m) a c.
Proof.
  intros [A1 A2] [B1 B2]. split; auto. rewrite B1. unfold count_mod in *. rewrite <- Zplus_mod_idemp_l, A1, Zplus_mod_idemp_l. f_equal. lia.
Qed.

Lemma kept_for_app r a b : kept_for r (a ++ b) = kept_for r a ++ kept_for r b.
Proof. unfold kept_for. rewrite filter_app, map_app. reflexivity. Qed.

Lemma heap_without_nth p i h k : (forall j, p = (i, Heap j) -> exists c, nth_error h j = Some c) ->
  nth_error (heap_without p i h) k = if ctx_eqb p (i, Heap k) then Some None else nth_error h k.
Proof.
  intros A. unfold heap_without. destruct p as [o [|j]].
  - rewrite ctx_eqb_neq; auto. discriminate.
  - unfold ctx_eqb; cbn. destruct (Nat.eqb_spec o i) as [->|N]; cbn; auto.
    rewrite nth_set_nth. rewrite (Nat.eqb_sym k j). destruct (Nat.eqb_spec j k); auto. destruct (A j eq_refl) as [c ->]. auto.
Qed.

Lemma heap_without_length p i h : List.length (heap_without p i h) = List.length h.
Proof. unfold heap_without. destruct p as [o [|j]]; auto. destruct (Nat.eqb o i); auto. apply set_nth_length. Qed.

Lemma collects_moved w r p x w' e : collects P w r p x w' -> entry_of w r p x e ->
  forall i Ri, nth_error (w_regions w) i = Some Ri ->
    exists Ri', nth_error (w_regions w') i = Some Ri' /\ moved_region [e] i Ri Ri' /\ r_pending Ri' = r_pending Ri.
Proof.
  intros (R & c & d & t & ER & EC & HD & _ & HP & _ & _ & _ & _ & _ & HI) (R' & c' & ER' & EC' & ->) i Ri Ei.
  rewrite ER in ER'. inversion ER'; subst R'. rewrite EC in EC'. inversion EC'; subst c'. clear ER' EC'.
  destruct (HI i Ri Ei) as (Ri' & Ei' & S & A & I & Y & PE & D & _ & H & _ & _). exists Ri'. split; auto. split; auto.
  split; auto. split; auto. split; auto.
  split. { rewrite Y. unfold rest_of, wiped, kept_flags. cbn [snd filter e_context]. rewrite is_sync_ctx.
    destruct (ctx_eqb p (i, Sync)); cbn [map existsb e_kept]; [rewrite andb_true_r, orb_false_r|rewrite andb_false_r]; reflexivity. }
  split; [|split].
  - unfold kept_for. cbn [filter e_region e_kept]. rewrite (Nat.eqb_sym r i). destruct (Nat.eqb_spec i r) as [->|N].
    + apply get_region_ok in ER. destruct ER as [ER _]. assert (Ri = R) by congruence. subst Ri.
      destruct (truthy (cf_persistent (w_config w)) || m_trainable (r_model R)); cbn.
      * unfold m_features, m_policy, m_metric. cbn. rewrite HD. cbn. congruence.
      * congruence.
    + cbn. congruence.
  - intros k. rewrite H. rewrite heap_without_nth.
    + unfold gone. cbn. rewrite orb_false_r. reflexivity.
    + intros j ->. unfold get_context in EC. cbn in EC. rewrite Ei in EC. destruct (nth_error (r_heap Ri) j); [eauto|discriminate].
  - rewrite H. apply heap_without_length.
Qed.

Lemma moved_refl i R : moved_region [] i R R.
Proof. repeat split; auto. Qed.

Lemma moved_trans l l' i a b c : moved_region l i a b -> moved_region l' i b c -> moved_region (l ++ l') i a c.
Proof.
  intros (S & A & I & Y & D & H & L) (S' & A' & I' & Y' & D' & H' & L').
  split; [eapply same_static_trans; eauto|]. split; [congruence|]. split; [congruence|]. split; [rewrite rest_of_app; congruence|].
  split. { rewrite kept_for_app. rewrite (insert_all_app _ _ _ _ D). exact D'. }
  split; [|congruence].
  intros k. rewrite gone_app, H', H. destruct (gone (i, Heap k) l); cbn; auto. destruct (gone (i, Heap k) l'); auto.
Qed.

(** What moves keep. *)
Definition moved (l : list entry) (w w' : world) : Prop :=
  w_config w' = w_config w /\ w_rank w' = w_rank w /\ w_registry w' = w_registry w /\
  counted (List.length l) w w' /\
  List.length (w_regions w') = List.length (w_regions w) /\
  forall i R, nth_error (w_regions w) i = Some R -> exists R', nth_error (w_regions w') i = Some R' /\ moved_region l i R R'.

Lemma moves_moved Q w l w' : moves Q w l w' -> moved l w w'.
Proof.
  induction 1 as [w|w r p x w1 e l w2 C E M IH|w w1 l w2 T M IH|w r R ps l w2 ER M IH].
  - split; [auto|]. split; [auto|]. split; [auto|]. split; [apply counted_same; auto|]. split; [auto|].
    intros i R E. exists R. split; auto. apply moved_refl.
  - destruct IH as (I1 & I2 & I3 & I4 & I5 & I6). assert (CC := C).
    destruct CC as (R & c & d & t & ER & EC & HD & HT & HP & G1 & G2 & G3 & G4 & G5 & HI).
    split; [congruence|]. split; [congruence|]. split; [congruence|].
    split. { apply (counted_app 1 _ _ w1); auto. apply counted_one. auto. }
    split; [congruence|]. intros i Ri Ei. destruct (collects_moved _ _ _ _ _ _ C E _ _ Ei) as (R1 & E1 & M1 & _).
    destruct (I6 _ _ E1) as (R2 & E2 & M2). exists R2. split; auto. apply (moved_trans [e] l _ _ _ _ M1 M2).
  - destruct IH as (I1 & I2 & I3 & I4 & I5 & I6). assert (TT := T). destruct TT as [(G1 & G2 & G3 & G4) F].
    split; [congruence|]. split; [congruence|]. split; [congruence|].
    split; [apply (counted_app 0 _ _ w1); auto; apply counted_same; auto|].
    split; [rewrite I5; eapply training_length; eauto|].
    intros i Ri Ei. destruct (training_region _ _ _ _ _ _ T Ei) as (R1 & E1 & m & -> & _).
    destruct (I6 _ _ E1) as (R2 & E2 & M2). exists R2. split; auto.
  - destruct IH as (I1 & I2 & I3 & I4 & I5 & I6). cbn in *.
    split; [congruence|]. split; [congruence|]. split; [congruence|]. split; [auto|].
    rewrite set_nth_length in I5. split; [auto|].
    intros i Ri Ei. specialize (I6 i). rewrite nth_set_nth in I6. apply get_region_ok in ER. destruct ER as [ER _].
    rewrite ER in I6. destruct (Nat.eqb_spec i r) as [E0|N]; [subst r|].
    + destruct (I6 _ eq_refl) as (R2 & E2 & M2). exists R2. split; auto. assert (Ri = R) by congruence. subst Ri. exact M2.
    + apply I6; auto.
Qed.

(** Contexts that remain are unchanged, but for the features moved away. *)
Lemma moved_context_back l w w' p c : moved l w w' -> get_context w' p = Ok c ->
  exists c0, get_context w p = Ok c0 /\ c = rest_of l p c0 /\ (snd p <> Sync -> gone p l = false).
Proof.
  intros (_ & _ & _ & _ & L & I). unfold get_context. destruct p as [o q]. cbn.
  destruct (nth_error (w_regions w) o) as [R|] eqn:E.
  - destruct (I _ _ E) as (R' & E' & _ & A & _ & Y & _ & H & _). rewrite E'. destruct q as [|k].
    + rewrite A, Y. destruct (r_alive R); [|discriminate]. intros K. injection K as <-. exists (r_sync R). repeat split; auto. intros N. contradiction.
    + rewrite H. destruct (gone (o, Heap k) l); [discriminate|]. intros K. exists c. auto.
  - assert (E' : nth_error (w_regions w') o = None). { apply nth_error_None. apply nth_error_None in E. lia. }
    rewrite E'. discriminate.
Qed.

Lemma moved_app l l' a b c : moved l a b -> moved l' b c -> moved (l ++ l') a c.
Proof.
  intros (A1 & A2 & A3 & A4 & A5 & A6) (B1 & B2 & B3 & B4 & B5 & B6).
  split; [congruence|]. split; [congruence|]. split; [congruence|].
  split. { rewrite app_length. eapply counted_app; eauto. }
  split; [congruence|]. intros i R E. destruct (A6 _ _ E) as (R1 & E1 & M1). destruct (B6 _ _ E1) as (R2 & E2 & M2).
  exists R2. split; auto. eapply moved_trans; eauto.
Qed.
End Platform.
