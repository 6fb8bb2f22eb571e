(** Lemmas about the dataset model. *)
From Coq Require Import List ZArith Bool Sorted Permutation Lia.
From Flocq Require Import BinarySingleNaN.
From Verif Require Import Model.Base Model.Float Model.DatasetM Spec.DatasetSpec Spec.DatasetClient
  Proofs.FloatFacts Proofs.MapFacts Proofs.KeyOrder.
Import ListNotations.
Open Scope Z_scope.

Definition wfd (d : dataset) : Prop := wfmap key_lt kok d.

Lemma wfd_nil : wfd []. Proof. apply wf_nil. Qed.

Lemma recorded_find f p d : fok f -> wfd d -> recorded f p (ds_to_vector d) = map_find key_lt (f, p) d.
Proof.
  intros F W. unfold recorded, ds_to_vector. induction d as [|[[g q] m] d IH]; cbn; auto.
  destruct (wf_cons_inv _ _ _ _ W) as (P' & W' & _). cbn in P'.
  change (negb (key_lt (f, p) (g, q)) && negb (key_lt (g, q) (f, p)))%bool with (eqv key_lt (f, p) (g, q)).
  rewrite key_eqv by assumption. cbn.
  unfold same_key at 1. cbn. destruct (same_features f g && (p =? q))%bool; auto.
Qed.

Definition keqb (a b : key) : bool := (same_features (fst a) (fst b) && (snd a =? snd b))%bool.

Lemma keqb_eqv a b : kok a -> kok b -> keqb a b = eqv key_lt a b.
Proof. intros. unfold keqb. now rewrite key_eqv. Qed.
Lemma keqb_refl a : kok a -> keqb a a = true.
Proof. intros. unfold keqb. rewrite same_features_refl by assumption. now rewrite Z.eqb_refl. Qed.
Lemma keqb_sym a b : kok a -> kok b -> keqb a b = keqb b a.
Proof. intros. rewrite !keqb_eqv by assumption. apply eqv_sym. Qed.
Lemma keqb_trans a b c : kok a -> kok b -> kok c -> keqb a b = true -> keqb b c = true -> keqb a c = true.
Proof. intros A B C. rewrite !keqb_eqv by assumption. now apply key_eqv_trans. Qed.

(** What one insertion does. *)
Lemma insert_spec d f p m : fok f -> wfd d ->
  exists d', ds_insert d f p m = Ok d' /\ wfd d' /\
    (forall k, kok k -> map_find key_lt k d' =
       if keqb k (f, p)
       then Some (match map_find key_lt (f, p) d with Some o => ema o m | None => m end)
       else map_find key_lt k d) /\
    (length d' = match map_find key_lt (f, p) d with Some _ => length d | None => S (length d) end).
Proof.
  intros F W. unfold ds_insert. rewrite F. cbn [negb].
  destruct (map_find key_lt (f, p) d) as [o|] eqn:E.
  - eexists. split; [reflexivity|]. split; [now apply wf_update|]. split.
    + intros k K. rewrite keqb_eqv by assumption. destruct (eqv key_lt k (f, p)) eqn:Q.
      * eapply (find_update_same key_lt kok key_eqv_trans); eauto. congruence.
      * eapply (find_update_other key_lt kok key_eqv_trans); eauto.
    + apply length_update.
  - eexists. split; [reflexivity|].
    split; [eapply (wf_add key_lt kok key_lt_trans); eauto|]. split.
    + intros k K. rewrite keqb_eqv by assumption. destruct (eqv key_lt k (f, p)) eqn:Q.
      * eapply (find_add_same key_lt kok key_lt_irrefl key_lt_trans key_eqv_trans); eauto.
      * now apply find_add_other.
    + apply length_add.
Qed.

Lemma insert_wf d f p m d' : wfd d -> ds_insert d f p m = Ok d' -> wfd d' /\ fok f.
Proof.
  intros W H. destruct (nan_free f) eqn:N.
  - destruct (insert_spec d f p m N W) as (d2 & E & W' & _). rewrite H in E. inversion E; subst. auto.
  - unfold ds_insert in H. rewrite N in H. discriminate.
Qed.

Lemma no_nan_fok m : no_nan_features m <-> fok (m_features m).
Proof. unfold no_nan_features. now rewrite fok_Forall. Qed.

(** Effect of folding insertions on the metric of one key. *)
Definition upd_metric (o : option f64) (l : list f64) : option f64 :=
  match o with
  | Some a => Some (fold_left ema l a)
  | None => match l with [] => None | m :: r => Some (fold_left ema r m) end
  end.

Lemma upd_metric_app o l l' : upd_metric o (l ++ l') = upd_metric (upd_metric o l) l'.
Proof.
  destruct o; cbn.
  - now rewrite fold_left_app.
  - destruct l; cbn; auto. now rewrite fold_left_app.
Qed.

Lemma insert_all_spec h : forall d, wfd d -> Forall no_nan_features h ->
  exists d', insert_all d h = Ok d' /\ wfd d' /\
    forall f p, fok f -> map_find key_lt (f, p) d' =
       upd_metric (map_find key_lt (f, p) d) (metrics_for f p h).
Proof.
  induction h as [|m h IH]; intros d W N; cbn [insert_all].
  - exists d. split; auto. split; auto. intros. cbn. now destruct (map_find _ _ _).
  - inversion N as [|? ? Nm Nh]; subst. apply no_nan_fok in Nm.
    destruct (insert_spec d (m_features m) (m_policy m) (m_metric m) Nm W) as (d1 & E1 & W1 & F1 & _).
    rewrite E1. cbn [bind].
    destruct (IH d1 W1 Nh) as (d2 & E2 & W2 & F2). exists d2. split; auto. split; auto.
    intros f p F. rewrite F2 by assumption. rewrite F1 by exact F.
    unfold metrics_for. cbn [filter]. unfold same_key at 2.
    change (same_features f (m_features m) && (p =? m_policy m))%bool with (keqb (f, p) (m_features m, m_policy m)).
    destruct (keqb (f, p) (m_features m, m_policy m)) eqn:Q; [|reflexivity].
    assert (Q' := Q). rewrite keqb_eqv in Q by assumption. cbn [map].
    rewrite <- (find_eqv key_lt kok key_eqv_trans (f, p) (m_features m, m_policy m)) by (auto; exact F || exact Nm).
    destruct (map_find key_lt (f, p) d); reflexivity.
Qed.

Lemma moving_average_upd l : moving_average l = upd_metric None l.
Proof. destruct l; reflexivity. Qed.

Lemma insert_all_history h : Forall no_nan_features h ->
  exists d, insert_all [] h = Ok d /\
    forall f p, Forall (fun x : f32 => is_nan x = false) f ->
      recorded f p (ds_to_vector d) = moving_average (metrics_for f p h).
Proof.
  intros N. destruct (insert_all_spec h [] wfd_nil N) as (d & E & W & F).
  exists d. split; auto. intros f p Nf. apply fok_Forall in Nf.
  rewrite recorded_find by assumption. rewrite F by assumption. now rewrite moving_average_upd.
Qed.

(** Merging. *)
Lemma merge_insert_all src : forall d, ds_merge d src = insert_all d (ds_to_vector src).
Proof.
  induction src as [|[[f p] m] src IH]; intros d; cbn; auto.
  unfold m_features, m_policy, m_metric. cbn. destruct (ds_insert d f p m); cbn; auto.
Qed.

Lemma wfd_no_nan d : wfd d -> Forall no_nan_features (ds_to_vector d).
Proof.
  intros [A _]. unfold ds_to_vector. rewrite Forall_map. eapply Forall_impl; [|exact A].
  intros [[f p] m]. intros H. apply no_nan_fok. exact H.
Qed.

Lemma metrics_for_wf f p d : fok f -> wfd d ->
  metrics_for f p (ds_to_vector d) = match map_find key_lt (f, p) d with Some m => [m] | None => [] end.
Proof.
  intros F W. unfold metrics_for, ds_to_vector. induction d as [|[[g q] m] d IH]; cbn; auto.
  destruct (wf_cons_inv _ _ _ _ W) as (P' & W' & G). cbn in P'.
  change (negb (key_lt (f, p) (g, q)) && negb (key_lt (g, q) (f, p)))%bool with (eqv key_lt (f, p) (g, q)).
  unfold same_key at 1. cbn.
  change (same_features f g && (p =? q))%bool with (keqb (f, p) (g, q)).
  rewrite keqb_eqv by assumption. destruct (eqv key_lt (f, p) (g, q)) eqn:Q; cbn; [|auto].
  rewrite IH by assumption. rewrite (find_eqv key_lt kok key_eqv_trans (f, p) (g, q)) by (auto; exact F || exact P').
  rewrite (find_lt key_lt kok); auto.
Qed.

Lemma merge_spec d s : wfd d -> wfd s ->
  exists d', ds_merge d s = Ok d' /\ wfd d' /\
    forall f p, fok f -> map_find key_lt (f, p) d' =
      match map_find key_lt (f, p) d, map_find key_lt (f, p) s with
      | Some a, Some b => Some (ema a b)
      | Some a, None => Some a
      | None, o => o
      end.
Proof.
  intros W1 W2. rewrite merge_insert_all.
  destruct (insert_all_spec (ds_to_vector s) d W1 (wfd_no_nan s W2)) as (d' & E & W & F).
  exists d'. split; auto. split; auto. intros f p Fk. rewrite F by assumption.
  rewrite metrics_for_wf by assumption.
  destruct (map_find key_lt (f, p) d), (map_find key_lt (f, p) s); reflexivity.
Qed.

Lemma reachable_wf d ks : reachable d ks -> wfd d.
Proof.
  induction 1.
  - apply wfd_nil.
  - now apply insert_wf in H1.
  - destruct (merge_spec d s IHreachable1 IHreachable2) as (d2 & E & W & _).
    rewrite H1 in E. inversion E; subst; auto.
  - apply wfd_nil.
Qed.

(** Keys held. *)
Lemma find_None_keys k (d : dataset) : map_find key_lt k d = None <-> Forall (fun k' => eqv key_lt k k' = false) (map fst d).
Proof. rewrite find_None. now rewrite Forall_map. Qed.

Lemma sorted_to_vector d : wfd d -> StronglySorted meas_before (ds_to_vector d).
Proof.
  induction d as [|[[f p] m] d IH]; cbn; [constructor|].
  intros W. destruct (wf_cons_inv _ _ _ _ W) as (P' & W' & G). cbn in *.
  constructor; auto. unfold ds_to_vector. rewrite Forall_map.
  destruct W' as [PA _]. rewrite Forall_forall in *. intros [[g q] n] I. specialize (G _ I). specialize (PA _ I).
  cbn in *. apply key_lt_iff in G. cbn in G. unfold meas_before, m_features, m_policy. cbn.
  destruct G as [G|[G1 G2]].
  - left. now apply vec_lt_before.
  - destruct (vec_lt f g) eqn:L; [left; now apply vec_lt_before|right].
    split; auto. rewrite <- vec_eqv by assumption. now apply vec_le_eqv.
Qed.
Definition measured (d : dataset) (k : key) : Prop := map_find key_lt k d <> None.

Lemma keqb_find k k' d : kok k -> kok k' -> wfd d -> keqb k k' = true -> map_find key_lt k d = map_find key_lt k' d.
Proof. intros A B W E. rewrite keqb_eqv in E by assumption. now apply (find_eqv key_lt kok key_eqv_trans). Qed.

Lemma reachable_keys d ks : reachable d ks ->
  Forall kok ks /\ forall k, kok k -> (measured d k <-> existsb (keqb k) ks = true).
Proof.
  unfold measured.
  induction 1 as [|d ks m d' R IH N E|d ks s ks' d' R1 IH1 R2 IH2 E|d ks R IH].
  - split; [constructor|]. cbn. intros k _. split; [congruence|discriminate].
  - destruct IH as [K IH]. apply no_nan_fok in N. split; [apply Forall_app; split; auto|].
    intros k Kk. assert (W := reachable_wf _ _ R).
    destruct (insert_spec d (m_features m) (m_policy m) (m_metric m) N W) as (d2 & E2 & W2 & F & _).
    rewrite E in E2. inversion E2; subst d2. rewrite F by assumption.
    rewrite existsb_app. cbn. rewrite orb_false_r.
    destruct (keqb k (m_features m, m_policy m)) eqn:Q.
    + rewrite orb_true_r. split; [auto|congruence].
    + rewrite orb_false_r. apply IH; auto.
  - destruct IH1 as [K1 IH1], IH2 as [K2 IH2]. split; [apply Forall_app; auto|].
    intros [f p] Kk. assert (W1 := reachable_wf _ _ R1). assert (W2 := reachable_wf _ _ R2).
    destruct (merge_spec d s W1 W2) as (d2 & E2 & W & F). rewrite E in E2. inversion E2; subst d2.
    rewrite F by exact Kk. specialize (IH1 _ Kk). specialize (IH2 _ Kk).
    rewrite existsb_app, orb_true_iff, <- IH1, <- IH2.
    destruct (map_find key_lt (f, p) d), (map_find key_lt (f, p) s); intuition congruence.
  - split; [constructor|]. cbn. intros k _. split; [congruence|discriminate].
Qed.

(** Counting distinct keys. *)
Lemma Forall_filter {A} (Q : A -> Prop) (g : A -> bool) l : Forall Q l -> Forall Q (filter g l).
Proof. rewrite !Forall_forall. intros H x I. apply filter_In in I as [I _]. auto. Qed.

Lemma distinct_ok ks : Forall kok ks -> Forall kok (distinct_keys ks).
Proof.
  induction 1; cbn; constructor; auto. now apply Forall_filter.
Qed.

Lemma distinct_exists k ks : Forall kok ks -> kok k ->
  existsb (keqb k) (distinct_keys ks) = existsb (keqb k) ks.
Proof.
  intros F K. induction ks as [|a ks IH]; cbn; auto. inversion F; subst.
  destruct (keqb k a) eqn:Q; cbn; auto.
  rewrite <- IH by assumption. clear IH.
  assert (D := distinct_ok ks H2). induction (distinct_keys ks) as [|b l IH]; cbn; auto.
  inversion D; subst.
  change (same_features (fst a) (fst b) && (snd a =? snd b))%bool with (keqb a b).
  destruct (keqb a b) eqn:Q2; cbn; rewrite IH; auto.
  destruct (keqb k b) eqn:Q3; auto.
  rewrite keqb_sym in Q2 by assumption.
  rewrite (keqb_trans k b a) in Q; auto; discriminate.
Qed.

Inductive pairwise_distinct : list key -> Prop :=
| pd_nil : pairwise_distinct []
| pd_cons k l : Forall (fun k' => keqb k k' = false) l -> pairwise_distinct l -> pairwise_distinct (k :: l).

Lemma pd_filter g l : pairwise_distinct l -> pairwise_distinct (filter g l).
Proof.
  induction 1; cbn; [constructor|]. destruct (g k); auto. constructor; auto. now apply Forall_filter.
Qed.
Lemma distinct_pd ks : pairwise_distinct (distinct_keys ks).
Proof.
  induction ks as [|a ks IH]; cbn; constructor.
  - rewrite Forall_forall. intros x I. apply filter_In in I as [_ I]. now apply negb_true_iff in I.
  - now apply pd_filter.
Qed.

Lemma pd_remove k l : Forall kok l -> kok k -> pairwise_distinct l -> existsb (keqb k) l = true ->
  exists l', length l = S (length l') /\ Forall kok l' /\ pairwise_distinct l' /\
    forall k', kok k' -> existsb (keqb k') l' = (existsb (keqb k') l && negb (keqb k' k))%bool.
Proof.
  intros F K D. induction D as [|a l FA D IH]; cbn; [discriminate|].
  inversion F; subst. destruct (keqb k a) eqn:Q; cbn; intros E.
  - exists l. repeat split; auto. intros k' K'.
    assert (QQ : keqb k' k = keqb k' a).
    { destruct (keqb k' k) eqn:A, (keqb k' a) eqn:B; auto.
      - rewrite (keqb_trans k' k a) in B; auto.
      - rewrite keqb_sym in Q by assumption. rewrite (keqb_trans k' a k) in A; auto. }
    rewrite QQ. destruct (keqb k' a) eqn:A; cbn.
    + destruct (existsb (keqb k') l) eqn:X; auto. exfalso.
      apply existsb_exists in X as (b & I & X). rewrite Forall_forall in FA, H2. specialize (FA b I).
      rewrite keqb_sym in A by assumption. rewrite (keqb_trans a k' b) in FA; auto; discriminate.
    + now rewrite andb_true_r.
  - destruct (IH H2 E) as (l' & L & F' & D' & X). exists (a :: l'). cbn. repeat split; auto.
    + constructor; auto. rewrite Forall_forall. intros b I.
      assert (Kb : kok b) by (rewrite Forall_forall in F'; auto).
      destruct (keqb a b) eqn:Qab; auto. exfalso.
      assert (Y : existsb (keqb b) l' = true).
      { apply existsb_exists. exists b. split; auto. now apply keqb_refl. }
      rewrite X in Y by assumption. apply andb_true_iff in Y as [Y _].
      apply existsb_exists in Y as (c & I2 & Y). rewrite Forall_forall in FA, H2.
      specialize (FA c I2). rewrite (keqb_trans a b c) in FA; auto; discriminate.
    + intros k' K'. rewrite X by assumption. destruct (keqb k' a) eqn:A; cbn; auto.
      destruct (keqb k' k) eqn:B; auto. exfalso.
      rewrite (keqb_sym k' k) in B by assumption. rewrite (keqb_trans k k' a) in Q; auto; discriminate.
Qed.

Lemma pd_length l1 : forall l2, Forall kok l1 -> Forall kok l2 -> pairwise_distinct l1 -> pairwise_distinct l2 ->
  (forall k, kok k -> existsb (keqb k) l1 = existsb (keqb k) l2) -> length l1 = length l2.
Proof.
  induction l1 as [|a l1 IH]; intros l2 F1 F2 D1 D2 X.
  - destruct l2 as [|b l2]; auto. inversion F2; subst. specialize (X b H1). cbn in X.
    rewrite keqb_refl in X by assumption. discriminate.
  - inversion F1; subst. assert (E := X a H1). cbn in E. rewrite keqb_refl in E by assumption. cbn in E.
    destruct (pd_remove a l2 F2 H1 D2 (eq_sym E)) as (l' & L & F' & D' & Y).
    cbn. rewrite L. f_equal. inversion D1; subst. apply IH; auto.
    intros k K. rewrite Y by assumption. rewrite <- X by assumption. cbn.
    destruct (keqb k a) eqn:Q; cbn.
    + destruct (existsb (keqb k) l1) eqn:Z; auto. exfalso.
      apply existsb_exists in Z as (b & I & Z). rewrite Forall_forall in H3, H2. specialize (H3 b I).
      rewrite keqb_sym in Q by assumption. rewrite (keqb_trans a k b) in H3; auto; discriminate.
    + now rewrite andb_true_r.
Qed.

Lemma wfd_pd d : wfd d -> pairwise_distinct (map fst d).
Proof.
  induction d as [|[k m] d IH]; cbn; [constructor|]. intros W.
  destruct (wf_cons_inv _ _ _ _ W) as (P' & W' & G). cbn in *. constructor; auto.
  rewrite Forall_map. destruct W' as [PA _]. rewrite Forall_forall in *. intros e I.
  rewrite keqb_eqv by auto. apply lt_not_eqv. auto.
Qed.
Lemma wfd_kok d : wfd d -> Forall kok (map fst d).
Proof. intros [A _]. now rewrite Forall_map. Qed.

Lemma measured_exists k d : kok k -> wfd d -> measured d k <-> existsb (keqb k) (map fst d) = true.
Proof.
  intros K W. unfold measured. split.
  - intros H. destruct (map_find key_lt k d) as [v|] eqn:E; [|congruence].
    apply find_In in E as (k' & I & Q). apply existsb_exists. exists k'. split.
    + apply in_map_iff. exists (k', v). auto.
    + rewrite keqb_eqv; auto. exact (wf_In_P key_lt kok d (k', v) W I).
  - intros H E. apply existsb_exists in H as (k' & I & Q).
    rewrite find_None_keys in E. rewrite Forall_forall in E. specialize (E k' I).
    rewrite keqb_eqv in Q; auto; [congruence|]. assert (A := wfd_kok d W). rewrite Forall_forall in A. auto.
Qed.

Lemma reachable_size d ks : reachable d ks -> ds_size d = Z.of_nat (length (distinct_keys ks)).
Proof.
  intros R. assert (W := reachable_wf _ _ R). destruct (reachable_keys _ _ R) as [F M].
  unfold ds_size. f_equal. rewrite <- (map_length fst). apply pd_length; auto using wfd_kok, wfd_pd, distinct_ok, distinct_pd.
  intros k K. rewrite distinct_exists by assumption.
  apply eq_true_iff_eq. rewrite <- measured_exists by assumption. apply M; auto.
Qed.

Lemma update_same k v (d : dataset) : map_find key_lt k d = Some v -> map_update key_lt k v d = d.
Proof.
  induction d as [|[k' w] d IH]; cbn; auto.
  destruct (_ && _)%bool; intros H; [inversion H; subst; auto|]. now rewrite IH.
Qed.

Lemma merge_self_sub d : wfd d -> (forall e, In e d -> ema (snd e) (snd e) = snd e) ->
  forall s, incl s d -> ds_merge d s = Ok d.
Proof.
  intros W H s. induction s as [|[[f p] m] s IH]; intros I; cbn; auto.
  assert (In ((f, p), m) d) by (apply I; now left).
  unfold ds_insert. assert (F : nan_free f = true) by (apply (wf_In_P _ _ _ _ W H0)).
  rewrite F. cbn. rewrite (In_find key_lt kok key_lt_irrefl _ _ _ W H0).
  specialize (H _ H0). cbn in H. rewrite H. cbn.
  rewrite (update_same (f, p) m d) by (apply (In_find key_lt kok key_lt_irrefl _ _ _ W H0)).
  apply IH. intros x Hx. apply I. now right.
Qed.
