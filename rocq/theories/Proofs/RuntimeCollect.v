(** Lemmas on the runtime: what collecting one context changes. *)
From Coq Require Import ZArith Bool Ascii String Lia List.
From Verif Require Import Model.Base Model.Float Model.Decimal Model.DatasetM Model.ParserM Model.DatasetIO
  Model.ModelStringM Model.PolicyModelsM Model.ConfigM Model.RuntimeM Proofs.TreeFacts Proofs.RuntimeFacts.
Import ListNotations.
Open Scope Z_scope.

(** Members fixed by the constructor. *)
Definition same_static (R R' : region) : Prop :=
  r_name R' = r_name R /\ r_num_features R' = r_num_features R /\ r_num_policies R' = r_num_policies R /\
  r_min_training R' = r_min_training R /\ r_model_info R' = r_model_info R /\ r_model_name R' = r_model_name R.

Lemma same_static_refl R : same_static R R.
Proof. repeat split. Qed.

Lemma same_static_trans a b c : same_static a b -> same_static b c -> same_static a c.
Proof. unfold same_static. intuition congruence. Qed.

Section Platform.
Variable P : platform.

Definition heap_without (p : ctxptr) (i : nat) (h : list (option context)) : list (option context) :=
  match p with
  | (o, Heap k) => if Nat.eqb o i then set_nth h k None else h
  | (_, Sync) => h
  end.

Definition without_features (c : context) : context := mkContext [] (c_policy c) (c_idx c) (c_timer c).

(** Region [i] before and after region [r] collected [p], with data set [d] and trace [t] in [r] afterwards; [k] tells
    whether the measurement was kept. *)
Definition collected_region (c : config) (r : nat) (p : ctxptr) (k : bool) (d : dataset) (t : bytes) (i : nat) (R R' : region) : Prop :=
  same_static R R' /\ r_alive R' = r_alive R /\ r_idx R' = r_idx R /\ r_sync R' = (if k && is_sync_of i p then without_features (r_sync R) else r_sync R) /\ r_pending R' = r_pending R /\
  r_dataset R' = (if Nat.eqb i r then d else r_dataset R) /\
  r_trace R' = (if Nat.eqb i r then t else r_trace R) /\
  r_heap R' = heap_without p i (r_heap R) /\
  r_current R' = (if Nat.eqb i r then None else r_current R) /\
  trained_by P (auto_data c (r_dataset R')) (r_model R) (r_model R').

(** The effect of collecting [p] in region [r] with [metric]. *)
Definition collects (w : world) (r : nat) (p : ctxptr) (metric : f64) (w' : world) : Prop :=
  exists R c d t,
    get_region w r = Ok R /\ get_context w p = Ok c /\
    (if truthy (cf_persistent (w_config w)) || m_trainable (r_model R)
     then ds_insert (r_dataset R) (c_features c) (c_policy c) metric = Ok d else d = r_dataset R) /\
    t = (if truthy (cf_trace_csv (w_config w)) then r_trace R ++ trace_row w R c metric else r_trace R) /\
    (is_sync_of r p = true \/ exists o k, p = (o, Heap k)) /\
    w_config w' = w_config w /\ w_rank w' = w_rank w /\ w_registry w' = w_registry w /\
    w_executions w' = (w_executions w + 1) mod 2 ^ 64 /\
    List.length (w_regions w') = List.length (w_regions w) /\
    forall i Ri, nth_error (w_regions w) i = Some Ri ->
      exists Ri', nth_error (w_regions w') i = Some Ri' /\ collected_region (w_config w) r p (truthy (cf_persistent (w_config w)) || m_trainable (r_model R)) d t i Ri Ri'.

Lemma training_length Q w w' : training P Q w w' -> List.length (w_regions w') = List.length (w_regions w).
Proof. intros [_ F]. eapply Forall2_length'; eauto. Qed.

Lemma delete_context_inv w p w' : delete_context w p = Ok w' ->
  exists o k Ro c, p = (o, Heap k) /\ nth_error (w_regions w) o = Some Ro /\ nth_error (r_heap Ro) k = Some (Some c) /\
    w' = set_region w o (with_heap Ro (set_nth (r_heap Ro) k None)).
Proof.
  unfold delete_context. destruct p as [o q]. cbn. destruct (nth_error (w_regions w) o) as [Ro|] eqn:E; [|discriminate].
  destruct q as [|k]; [discriminate|]. destruct (nth_error (r_heap Ro) k) as [[c|]|] eqn:EH; try discriminate.
  intros H; inversion H; subst. exists o, k, Ro, c. auto.
Qed.

Lemma collect_context_collects w r p metric w' : collect_context P w r p metric = Ok w' -> collects w r p metric w'.
Proof.
  unfold collect_context. intros H.
  apply bind_inv in H. destruct H as (R & ER & H). apply bind_inv in H. destruct H as (c & EC & H).
  set (R0 := if truthy (cf_trace_csv (w_config w)) then with_trace R (r_trace R ++ trace_row w R c metric) else R) in *.
  assert (M0 : r_model R0 = r_model R) by (unfold R0; destruct (truthy _); reflexivity).
  assert (D0 : r_dataset R0 = r_dataset R) by (unfold R0; destruct (truthy _); reflexivity).
  set (t := if truthy (cf_trace_csv (w_config w)) then r_trace R ++ trace_row w R c metric else r_trace R) in *.
  assert (ET : R0 = with_trace R t). { unfold R0, t. destruct (truthy _); auto. destruct R; reflexivity. }
  apply bind_inv in H. destruct H as (R1 & E1 & H).
  set (k := truthy (cf_persistent (w_config w)) || m_trainable (r_model R)) in *.
  assert (HD : exists d, R1 = with_dataset (if k then moved_features r p c R0 else R0) d /\
     if k then ds_insert (r_dataset R) (c_features c) (c_policy c) metric = Ok d else d = r_dataset R).
  { rewrite M0, D0 in E1. fold k in E1. destruct k.
    - apply bind_inv in E1. destruct E1 as (d & E & E1). inversion E1; subst. eauto.
    - inversion E1; subst. exists (r_dataset R). split; auto. rewrite <- D0. destruct R0; reflexivity. }
  destruct HD as (d & -> & HD).
  assert (SC : is_sync_of r p = true -> c = r_sync R).
  { intros S. destruct p as [o [|j]]; [|discriminate]. cbn in S. apply Nat.eqb_eq in S. subst o.
    unfold get_context in EC. cbn in EC. assert (ER' := ER). apply get_region_ok in ER'. destruct ER' as [NR AR]. rewrite NR, AR in EC. congruence. }
  set (R0' := if k then moved_features r p c R0 else R0) in *.
  assert (ET' : R0' = with_trace (if k && is_sync_of r p then with_sync R (without_features (r_sync R)) else R) t).
  { unfold R0'. rewrite ET. unfold moved_features. destruct k; cbn [andb]; auto. destruct (is_sync_of r p); auto. rewrite (SC eq_refl). reflexivity. }
  apply bind_inv in H. destruct H as (w2 & E2 & H).
  apply bind_inv in H. destruct H as (w3 & E3 & H). apply bind_inv in H. destruct H as (R4 & E4 & H).
  inversion H; subst w'. clear H.
  assert (T := auto_train_training _ _ _ _ E2). cbn [w_config count_execution set_region] in T.
  assert (GF := T). destruct GF as [(G1 & G2 & G3 & G4) F].
  apply get_region_ok in ER. destruct ER as [ER AR].
  assert (S3 : (is_sync_of r p = true /\ w3 = w2) \/ (is_sync_of r p = false /\ delete_context w2 p = Ok w3)).
  { destruct (is_sync_of r p); [left; inversion E3; auto|right; auto]. }
  exists R, c, d, t. split; [apply get_region_ok; auto|]. split; [exact EC|]. split; [exact HD|]. split; [reflexivity|].
  split. { destruct S3 as [[S _]|[S E]]; [left; auto|right]. apply delete_context_inv in E.
    destruct E as (o & kk & _ & _ & -> & _). eauto. }
  assert (G : same_globals w2 w3).
  { destruct S3 as [[_ ->]|[_ E]]; [apply same_globals_refl|]. apply delete_context_inv in E.
    destruct E as (o & kk & Ro & c' & _ & _ & _ & ->). repeat split. }
  destruct G as (H1 & H2 & H3 & H4). cbn in G1, G2, G3, G4.
  split; [cbn; congruence|]. split; [cbn; congruence|]. split; [cbn; congruence|]. split; [cbn; congruence|].
  assert (L2 := training_length _ _ _ T). cbn in L2. rewrite set_nth_length in L2.
  assert (L3 : List.length (w_regions w3) = List.length (w_regions w2)).
  { destruct S3 as [[_ ->]|[_ E]]; auto. apply delete_context_inv in E.
    destruct E as (o & kk & Ro & c' & _ & _ & _ & ->). cbn. apply set_nth_length. }
  split; [cbn; rewrite set_nth_length; congruence|].
  intros i Ri Ei.
  (* the region before training *)
  set (Ri1 := if Nat.eqb i r then with_dataset R0' d else Ri).
  assert (Ei1 : nth_error (w_regions (count_execution (set_region w r (with_dataset R0' d)))) i = Some Ri1).
  { cbn. rewrite nth_set_nth, ER. unfold Ri1. destruct (Nat.eqb_spec i r); auto. }
  destruct (training_region _ _ _ _ _ _ T Ei1) as (Ri2 & Ei2 & m & -> & Tm).
  set (Ri3 := with_heap (with_model Ri1 m) (heap_without p i (r_heap Ri1))).
  assert (HI : r_heap Ri1 = r_heap Ri).
  { unfold Ri1. destruct (Nat.eqb_spec i r); auto. subst. rewrite ET'. destruct (k && is_sync_of r p); cbn; congruence. }
  assert (Ei3 : nth_error (w_regions w3) i = Some Ri3).
  { destruct S3 as [[S ->]|[S E]].
    - rewrite Ei2. f_equal. unfold Ri3, heap_without. destruct p as [o [|kk]]; [|discriminate]. destruct Ri1; reflexivity.
    - apply delete_context_inv in E. destruct E as (o & kk & Ro & c' & -> & Eo & _ & ->). cbn. rewrite nth_set_nth.
      unfold Ri3, heap_without. rewrite (Nat.eqb_sym o i). destruct (Nat.eqb_spec i o) as [->|N].
      + rewrite Eo. rewrite Ei2 in Eo. inversion Eo; subst Ro. reflexivity.
      + rewrite Ei2. f_equal; destruct Ri1; reflexivity. }
  set (Ri4 := if Nat.eqb i r then with_current Ri3 None else Ri3).
  exists Ri4. split.
  { cbn. rewrite nth_set_nth. apply get_region_ok in E4. destruct E4 as [E4 _]. rewrite E4. unfold Ri4.
    destruct (Nat.eqb_spec i r) as [->|N]; auto. f_equal. congruence. }
  assert (DS : r_dataset Ri1 = (if Nat.eqb i r then d else r_dataset Ri)). { unfold Ri1. destruct (Nat.eqb i r); reflexivity. }
  rewrite DS in Tm.
  assert (RR : i = r -> Ri = R) by (intros ->; congruence).
  unfold collected_region, Ri4, Ri3. fold k.
  destruct (Nat.eqb_spec i r) as [E|N].
  - specialize (RR E). subst Ri i. unfold Ri1 in Tm |- *. rewrite ?ET' in *. clearbody k. destruct (k && is_sync_of r p); cbn in *; repeat split; auto.
  - replace (k && is_sync_of i p) with false.
    2:{ symmetry. apply andb_false_iff. right. destruct S3 as [[S _]|[S X]].
        - destruct p as [o [|j]]; [|reflexivity]. cbn in S |- *. apply Nat.eqb_eq in S. subst o. apply Nat.eqb_neq. auto.
        - apply delete_context_inv in X. destruct X as (o & j & _ & _ & -> & _). reflexivity. }
    unfold Ri1 in *. cbn. repeat split; auto.
Qed.
End Platform.
