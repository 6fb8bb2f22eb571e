(** Final form of the dataset lemmas behind properties C01-C06. *)
From Coq Require Import List ZArith Bool Sorted Lia Reals.
From Flocq Require Import Core BinarySingleNaN.
From Verif Require Import Model.Base Model.Float Model.DatasetM Spec.DatasetSpec Spec.DatasetClient
  Proofs.FloatFacts Proofs.MapFacts Proofs.KeyOrder Proofs.DatasetFacts Proofs.BestPolicy Proofs.EmaBounds.
Import ListNotations.
Open Scope Z_scope.

Lemma listing_sorted_distinct d ks : reachable d ks ->
  StronglySorted meas_before (ds_to_vector d) /\
  ds_size d = Z.of_nat (length (ds_to_vector d)) /\
  ds_size d = Z.of_nat (length (distinct_keys ks)) /\
  (forall f p, Forall (fun x : f32 => is_nan x = false) f ->
     (exists m, recorded f p (ds_to_vector d) = Some m) <->
     existsb (fun k => same_features f (fst k) && (p =? snd k))%bool ks = true).
Proof.
  intros R. assert (W := reachable_wf _ _ R). split; [now apply sorted_to_vector|].
  split; [unfold ds_size, ds_to_vector; now rewrite map_length|].
  split; [now apply reachable_size|].
  intros f p N. apply fok_Forall in N. destruct (reachable_keys _ _ R) as [_ M].
  specialize (M (f, p) N). unfold measured in M. rewrite <- recorded_find in M by assumption.
  change (existsb (fun k => same_features f (fst k) && (p =? snd k))%bool ks) with (existsb (keqb (f, p)) ks).
  rewrite <- M. destruct (recorded f p (ds_to_vector d)).
  - split; [congruence|intros _; eexists; reflexivity].
  - split; [intros [m H]; discriminate|congruence].
Qed.

Lemma ema_range h d f p v :
  Forall no_nan_features h -> insert_all [] h = Ok d ->
  Forall (fun x : f32 => is_nan x = false) f ->
  (forall m, In m (metrics_for f p h) ->
     is_finite m = true /\ (B2R m = 0 \/ bpow radix2 (-1021) <= Rabs (B2R m))%R) ->
  recorded f p (ds_to_vector d) = Some v ->
  is_finite v = true /\
  (exists lo, In lo (metrics_for f p h) /\ (B2R lo <= B2R v)%R) /\
  (exists hi, In hi (metrics_for f p h) /\ (B2R v <= B2R hi)%R).
Proof.
  intros N E F H R. destruct (insert_all_history h N) as (d' & E' & S).
  rewrite E in E'. inversion E'; subst d'. rewrite S in R by assumption.
  apply moving_average_range; auto. rewrite Forall_forall. exact H.
Qed.

Lemma find_min_reachable d ks fs ps : reachable d ks ->
  (forall f p m, In (f, p, m) (ds_to_vector d) -> is_nan m = false) ->
  exists best,
    ds_find_min d fs ps = (fs ++ map fst best, ps ++ map (fun b => fst (snd b)) best, best) /\
    StronglySorted features_before (map fst best) /\
    (forall f p m, In (f, p, m) (ds_to_vector d) -> existsb (same_features f) (map fst best) = true) /\
    (forall f p m, In (f, (p, m)) best ->
       (exists f', In (f', p, m) (ds_to_vector d) /\ same_features f f' = true) /\
       forall f' p' m', In (f', p', m') (ds_to_vector d) -> same_features f f' = true ->
         Bleb m m' = true /\ (Beqb m m' = true -> p <= p')).
Proof.
  intros R N. assert (W := reachable_wf _ _ R).
  destruct (find_min_spec d fs ps W) as (best & A & B & _ & C & D).
  - rewrite Forall_forall. intros [[f p] m] I. cbn. apply (N f p m). now apply <- In_to_vector.
  - exists best. auto.
Qed.

Lemma merge_reachable d ks s ks' : reachable d ks -> reachable s ks' ->
  exists d', ds_merge d s = Ok d' /\
    forall f p, Forall (fun x : f32 => is_nan x = false) f ->
      recorded f p (ds_to_vector d') =
      match recorded f p (ds_to_vector d), recorded f p (ds_to_vector s) with
      | Some a, Some b => Some (mean2 a b)
      | Some a, None => Some a
      | None, Some b => Some b
      | None, None => None
      end.
Proof.
  intros R1 R2. assert (W1 := reachable_wf _ _ R1). assert (W2 := reachable_wf _ _ R2).
  destruct (merge_spec d s W1 W2) as (d' & E & W & F). exists d'. split; auto.
  intros f p N. apply fok_Forall in N. rewrite !recorded_find by assumption. rewrite F by assumption.
  destruct (map_find key_lt (f, p) d), (map_find key_lt (f, p) s); reflexivity.
Qed.

Lemma merge_self d ks : reachable d ks ->
  (forall f p m, In (f, p, m) (ds_to_vector d) ->
     is_finite m = true /\ (B2R m = 0 \/ bpow radix2 (-1021) <= Rabs (B2R m))%R) ->
  ds_merge d d = Ok d.
Proof.
  intros R H. assert (W := reachable_wf _ _ R). apply merge_self_sub; auto.
  - intros [[f p] m] I. cbn. apply (mean2_same' m). apply (H f p m). now apply <- In_to_vector.
  - apply incl_refl.
Qed.
