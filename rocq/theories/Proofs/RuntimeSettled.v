(** Lemmas on the runtime: the bookkeeping that collections, trainings and timer events preserve. *)
From Coq Require Import ZArith Bool Ascii String Lia List Permutation.
From Verif Require Import Model.Base Model.Float Model.Decimal Model.DatasetM Model.ParserM Model.DatasetIO
  Model.NetM Model.PolicyNetM Model.ModelStringM Model.PolicyModelsM Model.ConfigM Model.RuntimeM
  Spec.DatasetSpec Spec.DatasetClient Spec.RuntimeSpec
  Proofs.TreeFacts Proofs.RuntimeFacts Proofs.RuntimeCollect Proofs.RuntimeMoves Proofs.RuntimePending Proofs.RuntimeOps.
Import ListNotations.
Open Scope Z_scope.

Lemma flags_nil b : flags b [] b.
Proof. exists 0%nat, 0%nat. auto. Qed.

Lemma flags_weaken b b' : (b' = true -> b = true) -> flags b [] b'.
Proof. exists 0%nat, 0%nat. auto. Qed.

Lemma flags_app b l b' l' b'' : flags b l b' -> flags b' l' b'' -> flags b (l ++ l') b''.
Proof.
  intros (a & n & -> & A & N & B) (a' & n' & -> & A' & N' & B'). destruct b'.
  - rewrite N by auto. cbn. rewrite app_nil_r. exists (a + a')%nat, n'. rewrite repeat_app, app_assoc.
    split; auto. split; [|split; auto]. intros ->. specialize (B eq_refl). discriminate.
  - rewrite A' by auto. cbn. exists a, (n + n')%nat. rewrite repeat_app, app_assoc. split; auto. split; auto.
    split; intros H; specialize (B' H); discriminate.
Qed.

Lemma flags_one b : flags b [b] b.
Proof. destruct b; [exists 1%nat, 0%nat|exists 0%nat, 1%nat]; repeat split; auto; discriminate. Qed.

Definition live (w : world) (p : ctxptr) : Prop := exists c, get_context w p = Ok c.

(** The trace and the context of context-free calls. *)
Definition noted (w : world) (l : list entry) (i : nat) (R R' : region) : Prop :=
  r_current R' = (match of_region i l with [] => r_current R | _ :: _ => None end) /\
  m_name (r_model R') = m_name (r_model R) /\
  r_trace R' = r_trace R ++ trace_lines w i R l.

Lemma trace_lines_nil w i R : trace_lines w i R [] = [].
Proof. unfold trace_lines. cbn. destruct (truthy _); auto. Qed.

Lemma noted_nil w i R R' : r_current R' = r_current R -> m_name (r_model R') = m_name (r_model R) -> r_trace R' = r_trace R -> noted w [] i R R'.
Proof. intros A B C. split; auto. split; auto. rewrite trace_lines_nil, app_nil_r. auto. Qed.

Lemma noted_refl w i R : noted w [] i R R.
Proof. apply noted_nil; auto. Qed.

Lemma noted_trans w l l' i a b c : r_name b = r_name a -> noted w l i a b -> noted w l' i b c -> noted w (l ++ l') i a c.
Proof.
  intros N (A & B & C) (A' & B' & C'). split; [|split; [congruence|]].
  - rewrite of_region_app, A', A. destruct (of_region i l); cbn; auto. destruct (of_region i l'); auto.
  - rewrite C', C, <- app_assoc. f_equal. unfold trace_lines. destruct (truthy _); auto.
    change (taken_for i (l ++ l')) with (of_region i (l ++ l')). rewrite of_region_app, map_app, concat_app. rewrite N, B. reflexivity.
Qed.

(** Region [i] before and after measurements [l]. *)
Definition settled_region (w : world) (l : list entry) (i : nat) (R R' : region) : Prop :=
  let c := w_config w in
  (same_static R R' /\ noted w l i R R') /\ (r_alive R' = true -> r_alive R = true) /\ r_idx R' = r_idx R /\ List.length (r_heap R') = List.length (r_heap R) /\
  insert_all (r_dataset R) (kept_for i l) = Ok (r_dataset R') /\
  flags (keeps c R) (map e_kept (of_region i l)) (keeps c R').

Definition with_period (c : config) (g : Z) : config :=
  mkConfig (cf_policy_model c) (cf_collective c) (cf_local c) (cf_single_model c) (cf_region_model c) g
      (cf_region_period c) (cf_trace_policy c) (cf_store_models c) (cf_trace_retrain c) (cf_trace_allgather c)
      (cf_trace_best c) (cf_retrain c) (cf_retrain_time c) (cf_retrain_region c) (cf_trace_csv c) (cf_persistent c)
      (cf_exec_info c) (cf_output_dir c) (cf_datasets_dir c) (cf_traces_dir c) (cf_models_dir c).
Definition same_persistent (c c' : config) : Prop :=
  with_period c' 0 = with_period c 0 /\ (cf_global_period c' = cf_global_period c \/ cf_global_period c' = 0).

Lemma same_persistent_refl c : same_persistent c c.
Proof. split; auto. Qed.
Lemma same_persistent_eq c c' : c' = c -> same_persistent c c'.
Proof. intros ->. apply same_persistent_refl. Qed.
Lemma same_persistent_trans a b c : same_persistent a b -> same_persistent b c -> same_persistent a c.
Proof. intros [H H'] [K K']. split; [congruence|]. destruct K' as [K'|K']; rewrite K'; auto. Qed.
Lemma same_config_field {A} (f : config -> A) c c' : (forall c, f (with_period c 0) = f c) -> same_persistent c c' -> f c' = f c.
Proof. intros E [H _]. rewrite <- (E c), <- (E c'), H. reflexivity. Qed.


Definition settled (l : list entry) (w w' : world) : Prop :=
  same_persistent (w_config w) (w_config w') /\ w_rank w' = w_rank w /\ w_registry w' = w_registry w /\
  counted (List.length l) w w' /\
  List.length (w_regions w') = List.length (w_regions w) /\
  (forall i R, nth_error (w_regions w) i = Some R ->
    exists R', nth_error (w_regions w') i = Some R' /\ settled_region w l i R R') /\
  (forall p, live w' p -> live w p /\ (snd p <> Sync -> gone p l = false)) /\
  (forall p, snd p <> Sync -> gone p l = true -> live w p) /\
  NoDup (filter (fun p => match snd p with Sync => false | _ => true end) (contexts_of l)).

Lemma kept_keeps c c' R : same_persistent c c' -> keeps c' R = keeps c R.
Proof. unfold keeps. intros H. rewrite (same_config_field cf_persistent c c') by auto. auto. Qed.

Lemma settled_region_trans c l l' i a b d : settled_region c l i a b -> settled_region c l' i b d -> settled_region c (l ++ l') i a d.
Proof.
  intros ((S & N) & A & I & H & D & F) ((S' & N') & A' & I' & H' & D' & F').
  split; [split; [eapply same_static_trans; eauto|exact (noted_trans _ _ _ _ _ _ _ (proj1 S) N N')]|]. split; [auto|]. split; [congruence|]. split; [congruence|].
  split. { rewrite kept_for_app. rewrite (insert_all_app _ _ _ _ D). exact D'. }
  rewrite of_region_app, map_app. eapply flags_app; eauto.
Qed.

Lemma NoDup_filter_gone p l : gone p l = false -> ~ In p (contexts_of l).
Proof.
  unfold gone, contexts_of. intros G I. apply in_map_iff in I. destruct I as (e & E & I).
  assert (existsb (fun e => ctx_eqb (e_context e) p) l = true).
  { apply existsb_exists. exists e. split; auto. subst. apply ctx_eqb_refl. }
  congruence.
Qed.

Lemma gone_in p l : gone p l = true <-> In p (contexts_of l).
Proof.
  unfold gone, contexts_of. rewrite existsb_exists, in_map_iff. split; intros (e & A & B).
  - apply ctx_eqb_eq in B. eauto.
  - exists e. split; auto. subst. apply ctx_eqb_refl.
Qed.

Lemma NoDup_app_intro {A} (a b : list A) : NoDup a -> NoDup b -> (forall x, In x a -> ~ In x b) -> NoDup (a ++ b).
Proof.
  induction a; cbn; auto. intros HA HB D. inversion HA; subst. constructor.
  - intros I. apply in_app_or in I. destruct I; auto. apply (D a); auto.
  - apply IHa; auto.
Qed.

Lemma settled_app l l' a b c : settled l a b -> settled l' b c -> settled (l ++ l') a c.
Proof.
  intros (A1 & A2 & A3 & A4 & A5 & A6 & A7 & A8 & A9) (B1 & B2 & B3 & B4 & B5 & B6 & B7 & B8 & B9).
  split; [eapply same_persistent_trans; eauto|]. split; [congruence|]. split; [congruence|].
  split. { rewrite app_length. eapply counted_app; eauto. }
  split; [congruence|]. split.
  { intros i R E. destruct (A6 _ _ E) as (R1 & E1 & M1). destruct (B6 _ _ E1) as (R2 & E2 & M2).
    exists R2. split; auto. eapply settled_region_trans; eauto.
    destruct M2 as ((S & N) & A & I & H & D & F). split; [split; [exact S|]|].
    - destruct N as (N1 & N2 & N3). split; auto. split; auto. rewrite N3. unfold trace_lines. rewrite (same_config_field cf_trace_csv _ _ (fun _ => eq_refl) A1). rewrite A2. reflexivity.
    - repeat (split; [assumption|]). cbv zeta in F. rewrite !(kept_keeps (w_config a) (w_config b)) in F by auto. exact F. }
  split. { intros p L. destruct (B7 _ L) as [L1 G1]. destruct (A7 _ L1) as [L0 G0]. split; auto.
    intros N. rewrite gone_app, G0, G1 by auto. auto. }
  split. { intros p N G. rewrite gone_app in G. apply orb_true_iff in G. destruct G as [G|G]; [apply A8; auto|].
    apply (B8 _ N) in G. apply A7 in G. apply G. }
  rewrite contexts_of_app, filter_app. apply NoDup_app_intro; auto.
  intros p I I'. apply filter_In in I. destruct I as [I N]. apply filter_In in I'. destruct I' as [I' _].
  apply gone_in in I. apply gone_in in I'. assert (NS : snd p <> Sync) by (destruct (snd p); discriminate).
  apply (B8 _ NS) in I'. apply A7 in I'. destruct I' as [_ G]. rewrite G in I by auto. discriminate.
Qed.

Section Platform.
Variable P : platform.

Lemma train_trainable m d m' : m_train P m d = Ok m' -> m_trainable m' = true -> m_trainable m = true.
Proof.
  destruct m; cbn; intros H T.
  1-4: inversion H; subst; exact T.
  - destruct (ds_find_min d [] []) as [[? ?] ?]. inversion H; subst. exact T.
  - destruct (ds_find_min d [] []) as [[? ?] ?]. apply bind_inv in H. destruct H as (t & _ & H). inversion H; subst. discriminate.
  - destruct (ds_find_min d [] []) as [[? ?] ?]. apply bind_inv in H. destruct H as (t & _ & H). inversion H; subst. discriminate.
  - apply bind_inv in H. destruct H as (N & EN & H). inversion H; subst. cbn in T. unfold pn_train in EN.
    apply bind_inv in EN. destruct EN as (st & _ & EN). apply bind_inv in EN. destruct EN as (N1 & E1 & EN). inversion EN; subst.
    cbn in T. unfold train_net in E1. destruct st; [inversion E1; subst; auto|].
    destruct (_ =? _); [discriminate|]. destruct (n_lt _ _ _); [inversion E1; subst; auto|].
    apply bind_inv in E1. destruct E1 as (? & _ & E1). apply bind_inv in E1. destruct E1 as (? & _ & E1).
    apply bind_inv in E1. destruct E1 as (? & _ & E1). apply bind_inv in E1. destruct E1 as (? & _ & E1). inversion E1; subst. auto.
Qed.

Lemma trained_by_trainable Q m m' : trained_by P Q m m' -> m_trainable m' = true -> m_trainable m = true.
Proof. induction 1; auto. intros. eapply train_trainable; eauto. Qed.

Lemma train_name m d m' : m_train P m d = Ok m' -> m_name m' = m_name m.
Proof.
  destruct m; cbn; intros H.
  1-4: inversion H; subst; reflexivity.
  - destruct (ds_find_min d [] []) as [[? ?] ?]. inversion H; subst. reflexivity.
  - destruct (ds_find_min d [] []) as [[? ?] ?]. apply bind_inv in H. destruct H as (t & _ & H). inversion H; subst. reflexivity.
  - destruct (ds_find_min d [] []) as [[? ?] ?]. apply bind_inv in H. destruct H as (t & _ & H). inversion H; subst. reflexivity.
  - apply bind_inv in H. destruct H as (N & EN & H). inversion H; subst. reflexivity.
Qed.

Lemma trained_by_name Q m m' : trained_by P Q m m' -> m_name m' = m_name m.
Proof. induction 1; auto. rewrite IHtrained_by. eapply train_name; eauto. Qed.

Lemma settled_refl w : settled [] w w.
Proof.
  split; [apply same_persistent_refl|]. split; [auto|]. split; [auto|]. split; [apply counted_same; auto|]. split; [auto|].
  split. { intros i R E. exists R. split; auto. split; [split; [apply same_static_refl|apply noted_refl]|]. repeat (split; [auto; fail|]). apply flags_nil. }
  split; [intros p L; split; auto|]. split; [discriminate|constructor].
Qed.

Lemma settled_training Q w w' : training P Q w w' -> settled [] w w'.
Proof.
  intros T. assert (TT := T). destruct TT as [(G1 & G2 & G3 & G4) F].
  split; [apply same_persistent_eq; auto|]. split; [auto|]. split; [auto|].
  split; [apply counted_same; auto|].
  split; [eapply training_length; eauto|]. split.
  { intros i R E. destruct (training_region _ _ _ _ _ _ T E) as (R' & E' & m & -> & M). exists (with_model R m). split; auto.
    split; [split; [repeat split|apply noted_nil; auto; cbn; eapply trained_by_name; eauto]|]. repeat (split; [auto; fail|]). cbn. apply flags_weaken. unfold keeps. cbn. rewrite !orb_true_iff. intros [H|H]; auto.
    right. eapply trained_by_trainable; eauto. }
  split; [|split; [discriminate|constructor]].
  intros p [c L]. rewrite (training_context _ _ _ _ _ T) in L. split; auto. exists c; auto.
Qed.

Lemma settled_collects w r p x w' e : collects P w r p x w' -> entry_of w r p x e -> settled [e] w w'.
Proof.
  intros C E. assert (M : moves P (fun _ _ _ _ => True) w [e] w') by (eapply mv_collect; eauto; constructor).
  assert (MM := moves_moved _ _ _ _ _ M). assert (MV := MM). destruct MM as (G1 & G2 & G3 & G4 & G5 & GI).
  split; [apply same_persistent_eq; auto|]. split; [auto|]. split; [auto|]. split; [auto|]. split; [auto|]. split.
  { intros i Ri Ei. destruct (GI _ _ Ei) as (Ri' & Ei' & S & A & I & _ & D & _ & L). exists Ri'. split; auto.
    destruct C as (R & c & d & t & ER & EC & HD & HT & HP & _ & _ & _ & _ & _ & HI).
    destruct (HI _ _ Ei) as (Ri2 & Ei2 & _ & _ & _ & _ & _ & _ & TR & _ & CU & T). assert (Ri2 = Ri') by congruence. subst Ri2.
    split. { split; auto. destruct E as (R0 & c0 & ER0 & EC0 & ->). rewrite ER in ER0. inversion ER0; subst R0.
      rewrite EC in EC0. inversion EC0; subst c0. rewrite HT in TR. clear HT.
      assert (TN := trained_by_name _ _ _ T). unfold noted, trace_lines, of_region, taken_for. cbn [filter e_region]. rewrite (Nat.eqb_sym r i).
      destruct (Nat.eqb_spec i r) as [->|N].
      - split; auto. split; auto. rewrite TR. apply get_region_ok in ER. destruct ER as [ER _]. assert (R = Ri) by congruence. subst R.
        destruct (truthy (cf_trace_csv _)); cbn [map concat]; rewrite ?app_nil_r; reflexivity.
      - split; auto. split; auto. rewrite TR. destruct (truthy (cf_trace_csv _)); cbn [map concat]; rewrite app_nil_r; reflexivity. }
    split; [congruence|]. split; auto. split; auto. split; auto.
    assert (MT := trained_by_trainable _ _ _ T).
    assert (FW : flags (keeps (w_config w) Ri) [] (keeps (w_config w) Ri')).
    { apply flags_weaken. unfold keeps. rewrite !orb_true_iff. intros [H|H]; auto. }
    destruct E as (R0 & c0 & ER0 & EC0 & ->). rewrite ER in ER0. inversion ER0; subst R0. unfold of_region. cbn [filter e_region].
    destruct (Nat.eqb_spec r i) as [->|N]; [|exact FW].
    apply get_region_ok in ER. destruct ER as [ER _]. assert (R = Ri) by congruence. subst R.
    change (flags (keeps (w_config w) Ri) ([keeps (w_config w) Ri] ++ []) (keeps (w_config w) Ri')).
    eapply flags_app; [apply flags_one|exact FW]. }
  split. { intros q [c L]. apply (moved_context_back _ _ _ _ _ MV) in L. destruct L as (c0 & L & _ & G). split; auto. exists c0; auto. }
  destruct C as (R & c & d & t & ER & EC & _). destruct E as (R0 & c0 & ER0 & EC0 & ->).
  split. { intros q N G. apply gone_in in G. cbn in G. destruct G as [<-|[]]. exists c; auto. }
  cbn. destruct p as [o [|k]]; cbn; constructor; auto. constructor.
Qed.

Lemma settled_pending w r R ps : get_region w r = Ok R -> settled [] w (set_region w r (with_pending R ps)).
Proof.
  intros ER. apply get_region_ok in ER. destruct ER as [ER _].
  split; [apply same_persistent_refl|]. split; [auto|]. split; [auto|]. split; [apply counted_same; auto|].
  split; [cbn; apply set_nth_length|]. split.
  { intros i Ri Ei. cbn. rewrite nth_set_nth, ER. destruct (Nat.eqb_spec i r) as [->|N].
    - assert (Ri = R) by congruence. subst. eexists. split; [reflexivity|]. split; [split; [repeat split|apply noted_nil; auto]|]. repeat (split; [auto; fail|]). apply flags_nil.
    - exists Ri. split; auto. split; [split; [apply same_static_refl|apply noted_refl]|]. repeat (split; [auto; fail|]). apply flags_nil. }
  split; [|split; [discriminate|constructor]].
  intros p [c L]. split; auto. exists c. revert L. unfold get_context. cbn. rewrite nth_set_nth, ER.
  destruct (Nat.eqb_spec (fst p) r) as [->|N]; auto. rewrite ER. destruct (snd p); auto.
Qed.

Lemma settled_moves Q w l w' : moves P Q w l w' -> settled l w w'.
Proof.
  induction 1 as [w|w r p x w1 e l w2 C E M IH|w w1 l w2 T M IH|w r R ps l w2 ER M IH].
  - apply settled_refl.
  - apply (settled_app [e] l _ w1); auto. eapply settled_collects; eauto.
  - apply (settled_app [] l _ w1); auto. eapply settled_training; eauto.
  - apply (settled_app [] l _ _ _ (settled_pending _ _ _ ps ER)); auto.
Qed.

Lemma settled_touched p w w' : touched p w w' -> (live w' p -> live w p) -> settled [] w w'.
Proof.
  intros ((G1 & G2 & G3 & G4) & L & PE & I & C) LP.
  split; [apply same_persistent_eq; auto|]. split; [auto|]. split; [auto|].
  split; [apply counted_same; auto|]. split; [auto|]. split.
  { intros i R E. destruct (I _ _ E) as (R' & E' & S & A & X & D & M & H & CU & TR). exists R'. split; auto.
    split; [split; [auto|apply noted_nil; congruence]|]. split; [congruence|]. split; auto. split; auto. split; [cbn; congruence|]. cbn. unfold keeps. rewrite M. apply flags_nil. }
  split; [|split; [discriminate|constructor]]. intros q L'. split; [|auto].
  destruct (ctx_eqb q p) eqn:E; [apply ctx_eqb_eq in E; subst; auto|].
  destruct L' as [c L']. exists c. rewrite <- C; auto. intros ->. rewrite ctx_eqb_refl in E. discriminate.
Qed.

Lemma settled_set_context w p c0 c : get_context w p = Ok c0 -> settled [] w (set_context w p c).
Proof. intros E. eapply settled_touched; [eapply touched_set_context; eauto|]. intros _. exists c0; auto. Qed.

Lemma complete_live w e p : live (complete w e) p -> live w p.
Proof.
  unfold complete. destruct (get_context w (fst e)) as [c| | | |] eqn:E; auto.
  destruct (c_timer c) as [|[|] [|]]; auto. intros [c' L]. rewrite (get_set_context _ _ c) in L by auto.
  destruct (ctx_eqb p (fst e)) eqn:X; [apply ctx_eqb_eq in X; subst; exists c; auto|exists c'; auto].
Qed.

Lemma settled_complete w e : settled [] w (complete w e).
Proof. eapply settled_touched; [apply complete_touched|]. apply complete_live. Qed.

Lemma accounted_complete w e : accounted w [] (complete w e).
Proof. apply accounted_nil. apply complete_touched. Qed.

Lemma settled_completes batch w : settled [] w (fold_left complete batch w) /\ accounted w [] (fold_left complete batch w).
Proof.
  revert w. induction batch as [|e b IH]; cbn; intros w.
  - split; [apply settled_refl|apply accounted_nil; auto].
  - destruct (IH (complete w e)) as [S A]. split.
    + apply (settled_app [] [] _ _ _ (settled_complete w e) S).
    + apply (accounted_app _ [] _ [] _ (accounted_complete w e) A).
Qed.

Definition reports (dev : devices) (b : list (ctxptr * f32)) : devices := fun p => fold_left (report p) b (dev p).

Lemma views_ext h log dev dev' w : (forall p, dev p = dev' p) -> views h log dev w -> views h log dev' w.
Proof.
  intros E V p c G. destruct (V _ _ G) as (A & B & C & D). repeat split; auto. destruct (snd p); auto. rewrite <- E. auto.
Qed.

Lemma completes_views h log batch : forall dev w, views h log dev w -> views h log (reports dev batch) (fold_left complete batch w).
Proof.
  induction batch as [|e b IH]; intros dev w V; cbn.
  - exact V.
  - eapply views_ext; [|apply IH; apply complete_views; exact V]. reflexivity.
Qed.

(** Once a device timer has reported, later reports do not matter. *)
Lemma report_done p s e ms : s = (true, Some ms) -> report p s e = (true, Some ms).
Proof. intros ->. unfold report. destruct (ctx_eqb _ _); auto. Qed.

Lemma reports_done p b ms : fold_left (report p) b (true, Some ms) = (true, Some ms).
Proof. induction b; cbn; auto. rewrite (report_done _ _ _ ms); auto. Qed.

Lemma async_entry_reports h log dev b r e : async_entry h log dev r e -> async_entry h log (reports dev b) r e.
Proof.
  intros (A & B & o & k & ms & C & D & E). split; auto. split; auto. exists o, k, ms. repeat split; auto.
  unfold reports. rewrite D. apply reports_done.
Qed.

Lemma drain_spec h log r : forall waits dev w w', drain P w r waits = Ok w' -> views h log dev w -> no_own_sync w ->
  exists l, settled l w w' /\ accounted w l w' /\ Forall (async_entry h log (reports dev (List.concat waits)) r) l /\
    pending w' r = [] /\ views h log (reports dev (List.concat waits)) w' /\ w_config w' = w_config w.
Proof.
  assert (base : forall waits dev w w' R, get_region w r = Ok R -> r_pending R = [] ->
    Ok (fold_left complete (List.concat waits) w) = Ok w' -> views h log dev w ->
    exists l, settled l w w' /\ accounted w l w' /\ Forall (async_entry h log (reports dev (List.concat waits)) r) l /\
    pending w' r = [] /\ views h log (reports dev (List.concat waits)) w' /\ w_config w' = w_config w).
  { intros waits dev w w' R ER EP H V. inversion H; subst w'. clear H. exists [].
    destruct (settled_completes (List.concat waits) w) as [S A]. split; [exact S|]. split; [exact A|]. split; [auto|].
    split. { apply Permutation_nil. apply (Permutation_trans (l' := pending w r)).
      - unfold pending at 1. apply get_region_ok in ER. destruct ER as [-> _]. rewrite EP. apply Permutation_refl.
      - exact (A r). }
    split; [apply completes_views; exact V|].
    clear. revert w. induction (List.concat waits) as [|e b IH]; cbn; intros w; auto. rewrite IH. apply complete_touched. }
  induction waits as [|batch rest IH]; intros dev w w' H V N; cbn [drain] in H; apply bind_inv in H; destruct H as (R & ER & H);
    assert (PR : pending w r = r_pending R) by (unfold pending; apply get_region_ok in ER; destruct ER as [-> _]; auto).
  - destruct (r_pending R) eqn:EP; [|discriminate]. eapply base; eauto.
  - destruct (r_pending R) eqn:EP; [eapply base; eauto|].
    apply bind_inv in H. destruct H as (w1 & E1 & H).
    destruct (settled_completes batch w) as [S0 A0].
    assert (V0 := completes_views h log batch dev w V). assert (N0 := accounted_no_own_sync _ _ _ A0 N).
    destruct (collect_pending_accounted P (fun _ _ _ _ => True) _ _ _ _ _ _ E1 V0 N0) as (l1 & M1 & F1 & A1 & FK).
    assert (V1 := moves_views _ _ _ _ _ _ _ _ M1 (async_heap _ _ _ _ _ F1) V0). assert (N1 := accounted_no_own_sync _ _ _ A1 N0).
    destruct (IH _ _ _ H V1 N1) as (l2 & S2 & A2 & F2 & P2 & V2 & C2).
    exists (l1 ++ l2). split. { apply (settled_app [] _ _ _ _ S0). eapply settled_app; [eapply settled_moves; eauto|auto]. }
    split. { apply (accounted_app _ [] _ _ _ A0). eapply accounted_app; eauto. }
    assert (RA : forall b p, reports (reports dev batch) b p = reports dev (batch ++ b) p).
    { intros b0 p. unfold reports. rewrite fold_left_app. reflexivity. }
    split. { apply Forall_app. cbn [List.concat]. split.
      - eapply Forall_impl; [|exact F1]. intros e He. assert (X := async_entry_reports _ _ _ (List.concat rest) _ _ He).
        destruct X as (X1 & X2 & o & k & ms & X3 & X4 & X5). split; auto. split; auto. exists o, k, ms. rewrite <- RA. auto.
      - eapply Forall_impl; [|exact F2]. intros e (X1 & X2 & o & k & ms & X3 & X4 & X5). split; auto. split; auto.
        exists o, k, ms. rewrite <- RA. auto. }
    split; [exact P2|]. split; [cbn [List.concat]; eapply views_ext; [intros; apply RA|exact V2]|].
    rewrite C2. assert (MM := moves_moved _ _ _ _ _ M1). destruct MM as (-> & _).
    clear. revert w. induction batch as [|e b IH]; cbn; intros w; auto. rewrite IH. apply complete_touched.
Qed.
End Platform.
