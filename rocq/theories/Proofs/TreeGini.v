(** Bounds on the binary32 gini scores; training never fails an assertion. *)
From Coq Require Import List ZArith Bool Lia Sorted Permutation Reals Lra Psatz SpecFloat Arith.
From Flocq Require Import Core BinarySingleNaN Relative.
From Verif Require Import Model.Base Model.Float Model.TreeM Spec.DatasetSpec Spec.TreeSpec
  Proofs.FloatFacts Proofs.FloatConv Proofs.TreeFacts Proofs.TreeThreshold.
Import ListNotations.
Open Scope R_scope.

Definition u : R := / 16777216.

Lemma fmt_pow e : (-149 <= e)%Z -> fmt32 (bpow radix2 e).
Proof. intros. apply (generic_format_FLT_bpow radix2 (-149) 24); lia. Qed.

Lemma rnd32_rel x y : x <= y -> 1 / 2 <= y -> rnd32 x <= y * (1 + u).
Proof.
  intros L P. apply Rle_trans with (rnd32 y). { apply round_le; auto; typeclasses eauto. }
  generalize (relative_error_N_FLT radix2 (-149) 24 ltac:(reflexivity) (fun x => negb (Z.even x)) y).
  intros E. assert (H : bpow radix2 (-149 + 24 - 1) <= Rabs y).
  { rewrite Rabs_pos_eq by lra. apply Rle_trans with (bpow radix2 (-1)); [apply bpow_le; lia|].
    change (bpow radix2 (-1)) with (/ 2). lra. }
  specialize (E H). rewrite (Rabs_pos_eq y) in E by lra.
  change (round radix2 (FLT_exp (-149) 24) (Znearest (fun x : Z => negb (Z.even x))) y) with (rnd32 y) in E.
  apply Rabs_le_inv in E.
  change (bpow radix2 (- (24) + 1)) with (/ 8388608) in E. unfold u. lra.
Qed.

Lemma small_128 x : Rabs x <= bpow radix2 60 -> Rabs x < bpow radix2 128.
Proof. intros. eapply Rle_lt_trans; [eassumption|]. apply bpow_lt. lia. Qed.

Lemma bnd60 : bpow radix2 60 = 1152921504606846976.
Proof. reflexivity. Qed.

Lemma filter_length_le {A} (p : A -> bool) l : (length (filter p l) <= length l)%nat.
Proof. induction l; cbn; auto. destruct (p a); cbn; lia. Qed.

Section Gini.
Variables (l : list sample) (n : Z).
Hypothesis Hn : n = Z.of_nat (length l).
Hypothesis Hpos : (0 < n <= 2 ^ 24)%Z.

Definition prop_of (c : Z) : f32 := div32 (f32_of_Z (count_class c l)) (f32_of_Z n).

Lemma count_le c : (0 <= count_class c l <= n)%Z.
Proof. unfold count_class. rewrite Hn. split; [lia|]. apply inj_le, filter_length_le. Qed.

Lemma nfl : is_finite (f32_of_Z n) = true /\ B2R (f32_of_Z n) = IZR n.
Proof. apply f32_of_Z_spec. lia. Qed.

Lemma ratio_bound c : 0 <= IZR (count_class c l) / IZR n <= 1.
Proof.
  assert (C := count_le c). destruct C as [C1 C2]. apply IZR_le in C1, C2.
  assert (P : 0 < IZR n) by (apply IZR_lt; lia).
  split.
  - apply Rmult_le_pos; auto. left. now apply Rinv_0_lt_compat.
  - apply (Rmult_le_reg_r (IZR n)); auto. unfold Rdiv. rewrite Rmult_assoc, Rinv_l by lra. lra.
Qed.

Lemma fmt1 : fmt32 1.
Proof. apply (fmt_of_Z 1). vm_compute. discriminate. Qed.
Lemma fmt0 : fmt32 0.
Proof. apply generic_format_0. Qed.

Lemma prop_spec c : is_finite (prop_of c) = true /\ 0 <= B2R (prop_of c) <= 1 /\
  B2R (prop_of c) = rnd32 (IZR (count_class c l) / IZR n).
Proof.
  assert (P : 0 < IZR n) by (apply IZR_lt; lia).
  destruct nfl as [F V]. destruct (f32_of_Z_spec (count_class c l)) as [F1 V1].
  { generalize (count_le c). lia. }
  assert (B := rnd32_between 0 1 _ fmt0 fmt1 (ratio_bound c)).
  destruct (div32_spec (f32_of_Z (count_class c l)) (f32_of_Z n)) as [F2 V2]; auto.
  { rewrite V. lra. }
  { rewrite V, V1. apply small_128. rewrite bnd60. apply Rabs_le. lra. }
  rewrite V, V1 in V2. unfold prop_of. rewrite V2. auto.
Qed.

Lemma sq_spec c : is_finite (mul32 (prop_of c) (prop_of c)) = true /\
  0 <= B2R (mul32 (prop_of c) (prop_of c)) <= 1 /\
  B2R (mul32 (prop_of c) (prop_of c)) = rnd32 (B2R (prop_of c) * B2R (prop_of c)).
Proof.
  destruct (prop_spec c) as (F & B & _).
  assert (Q := rnd32_between 0 1 (B2R (prop_of c) * B2R (prop_of c)) fmt0 fmt1 ltac:(nra)).
  destruct (mul32_spec (prop_of c) (prop_of c)) as [F2 V2]; auto.
  { apply small_128. rewrite bnd60. apply Rabs_le. lra. }
  rewrite V2. auto.
Qed.

Definition gfold cls g0 : f32 := fold_left (fun g c => add32 g (mul32 (prop_of c) (prop_of c))) cls g0.

Lemma gfold_spec cls : forall g0 m, is_finite g0 = true -> (0 <= m)%Z -> 0 <= B2R g0 <= IZR m ->
  (m + Z.of_nat (length cls) <= 2 ^ 24)%Z ->
  is_finite (gfold cls g0) = true /\
  B2R g0 <= B2R (gfold cls g0) <= IZR (m + Z.of_nat (length cls)) /\
  forall c, In c cls -> B2R (mul32 (prop_of c) (prop_of c)) <= B2R (gfold cls g0).
Proof.
  induction cls as [|c cls IH]; intros g0 m F M B L.
  - cbn [gfold fold_left length]. replace (m + Z.of_nat 0)%Z with m by lia. repeat split; auto; try lra.
    intros c [].
  - cbn [length] in L. destruct (sq_spec c) as (F1 & B1 & _).
    set (q := mul32 (prop_of c) (prop_of c)) in *.
    assert (Fm : fmt32 (IZR (m + 1))) by (apply fmt_of_Z; lia).
    assert (K : B2R g0 <= B2R g0 + B2R q <= IZR (m + 1)) by (rewrite plus_IZR; lra).
    assert (K2 := rnd32_between _ _ _ (fmt32_B2R g0) Fm K).
    assert (K3 := rnd32_between (B2R q) (IZR (m + 1)) (B2R g0 + B2R q) (fmt32_B2R q) Fm ltac:(lra)).
    destruct (add32_spec g0 q) as [F2 V2]; auto.
    { apply (abs_between (B2R g0) (IZR (m + 1))); auto.
      - apply abs_B2R_lt_emax.
      - apply IZR_lt_128. lia. }
    destruct (IH (add32 g0 q) (m + 1)%Z) as (F3 & B3 & I3); auto; try lia.
    { rewrite V2. lra. }
    cbn [gfold fold_left]. fold q. fold (gfold cls (add32 g0 q)). rewrite V2 in B3.
    split; auto. split.
    + replace (m + Z.of_nat (length (c :: cls)))%Z with (m + 1 + Z.of_nat (length cls))%Z by (cbn [length]; lia).
      lra.
    + intros c' [->|Hc]; auto. fold q. lra.
Qed.

Lemma compute_gini_eq classes : compute_gini classes l = sub32 one32 (gfold classes zero32).
Proof. unfold compute_gini, gfold, prop_of. rewrite Hn. reflexivity. Qed.

Lemma one32_spec : is_finite one32 = true /\ B2R one32 = 1.
Proof. apply (f32_of_Z_spec 1). vm_compute. discriminate. Qed.

(** gini = 1 - g with the fold's bounds. *)
Lemma gini_spec classes : (Z.of_nat (length classes) <= 2 ^ 24)%Z ->
  is_finite (compute_gini classes l) = true /\
  IZR (1 - Z.of_nat (length classes)) <= B2R (compute_gini classes l) <= 1 /\
  forall q, fmt32 (1 - q) ->
    (exists c, In c classes /\ q <= B2R (mul32 (prop_of c) (prop_of c))) -> B2R (compute_gini classes l) <= 1 - q.
Proof.
  intros K. destruct (gfold_spec classes zero32 0) as (F & B & I); auto; try lia; [cbn; lra|].
  change (B2R zero32) with 0 in B. rewrite Z.add_0_l in B.
  destruct one32_spec as [F1 V1].
  assert (R : IZR (1 - Z.of_nat (length classes)) <= rnd32 (B2R one32 - B2R (gfold classes zero32)) <= 1).
  { apply rnd32_between; [apply fmt_of_Z; lia|apply fmt1|]. rewrite V1, minus_IZR. lra. }
  destruct (sub32_spec one32 (gfold classes zero32)) as [F2 V2]; auto.
  { apply (abs_between _ _ _ _ (IZR_lt_128 (1 - Z.of_nat (length classes)) ltac:(lia)) (IZR_lt_128 1 ltac:(lia)) R). }
  rewrite compute_gini_eq, V2. split; auto. split; auto.
  intros q Fq (c & Hc & Hq). apply I in Hc.
  apply round_le_generic; auto; try typeclasses eauto. rewrite V1. lra.
Qed.

(** All samples of one class: the score is not positive. *)
Lemma gini_pure classes c : (Z.of_nat (length classes) <= 2 ^ 24)%Z -> In c classes ->
  (forall s, In s l -> snd s = c) -> le32 (compute_gini classes l) zero32 = true.
Proof.
  intros K Hc Hs. destruct (gini_spec classes K) as (F & B & I).
  assert (E : count_class c l = n).
  { unfold count_class. rewrite Hn. f_equal. clear - Hs. induction l as [|s r IH]; cbn; auto.
    rewrite (proj2 (Z.eqb_eq _ _)) by (apply Hs; left; auto). cbn. f_equal. apply IH. intros; apply Hs; right; auto. }
  assert (Q : 1 <= B2R (mul32 (prop_of c) (prop_of c))).
  { destruct (sq_spec c) as (_ & _ & ->). destruct (prop_spec c) as (_ & _ & ->).
    rewrite E. assert (0 < IZR n) by (apply IZR_lt; lia).
    replace (IZR n / IZR n) with 1 by (field; lra).
    rewrite (round_generic _ _ _ 1 fmt1), Rmult_1_r, (round_generic _ _ _ 1 fmt1). lra. }
  assert (H := I 1 ltac:(replace (1 - 1) with 0 by ring; apply fmt0) (ex_intro _ c (conj Hc Q))).
  unfold le32. rewrite Bleb_xval by (try reflexivity; destruct (compute_gini classes l); auto; discriminate).
  rewrite !xval_finite by auto. rbool. cbn [zero32 B2R]. lra.
Qed.

Lemma counts_sum classes : (forall s, In s l -> In (snd s) classes) ->
  (n <= fold_right (fun c a => count_class c l + a) 0 classes)%Z.
Proof.
  rewrite Hn. clear Hn Hpos. intros H. induction l as [|s r IH].
  - cbn. clear. induction classes; cbn; lia.
  - assert (IH' := IH (fun x Hx => H x (or_intror Hx))).
    assert (E : forall cls, In (snd s) cls ->
       (fold_right (fun c a => count_class c r + a) 0 cls + 1 <=
        fold_right (fun c a => count_class c (s :: r) + a) 0 cls)%Z).
    { assert (M : forall c, (count_class c r <= count_class c (s :: r))%Z).
      { intros c. unfold count_class. cbn [filter]. destruct (snd s =? c)%Z; cbn [length]; lia. }
      assert (MM : forall cls, (fold_right (fun c a => count_class c r + a) 0 cls <=
                               fold_right (fun c a => count_class c (s :: r) + a) 0 cls)%Z).
      { induction cls as [|c cls IHc]; cbn [fold_right]; [lia|]. generalize (M c). lia. }
      induction cls as [|c cls IHc]; [intros []|]. intros [->|Hc]; cbn [fold_right].
      - generalize (MM cls).
        assert (count_class (snd s) (s :: r) = count_class (snd s) r + 1)%Z as ->; [|lia].
        unfold count_class. cbn [filter]. rewrite Z.eqb_refl. cbn [length]. lia.
      - generalize (M c) (IHc Hc). lia. }
    generalize (E classes (H s (or_introl eq_refl))). cbn [length]. lia.
Qed.

Lemma large_class classes : (forall s, In s l -> In (snd s) classes) ->
  exists c, In c classes /\ (n <= Z.of_nat (length classes) * count_class c l)%Z.
Proof.
  intros H. assert (S := counts_sum classes H).
  destruct (Exists_dec (fun c => (n <= Z.of_nat (length classes) * count_class c l)%Z) classes) as [E|E].
  { intros c. apply Z_le_dec. }
  - apply Exists_exists in E. auto.
  - exfalso. set (k := Z.of_nat (length classes)) in *.
    assert (G : forall cls, (forall c, In c cls -> In c classes) ->
      (k * fold_right (fun c a => count_class c l + a) 0 cls <= (n - 1) * Z.of_nat (length cls))%Z).
    { induction cls as [|c cls IHc]; cbn [fold_right length]; [lia|]. intros Hi.
      assert (A : (k * count_class c l <= n - 1)%Z).
      { destruct (Z_lt_le_dec (n - 1) (k * count_class c l)); auto. exfalso. apply E.
        apply Exists_exists. exists c. split; [apply Hi; left; auto|lia]. }
      generalize (IHc (fun x Hx => Hi x (or_intror Hx))). lia. }
    assert (G' := G classes (fun c H => H)). fold k in G'.
    assert (0 < k)%Z.
    { unfold k. destruct classes; [|cbn [length]; lia]. cbn in S. lia. }
    nia.
Qed.

(** With at most 1024 classes the score is at most 1 - 2^-20. *)
Lemma gini_below classes : (Z.of_nat (length classes) <= 1024)%Z -> (forall s, In s l -> In (snd s) classes) ->
  is_finite (compute_gini classes l) = true /\
  -1024 <= B2R (compute_gini classes l) <= 1 - / 1048576.
Proof.
  intros K H. destruct (gini_spec classes ltac:(lia)) as (F & B & I).
  split; auto. split.
  { apply Rle_trans with (IZR (1 - Z.of_nat (length classes))); [apply IZR_le; lia|lra]. }
  destruct (large_class classes H) as (c & Hc & L).
  apply I.
  { replace (1 - / 1048576) with (F2R (Float radix2 1048575 (-20))).
    - apply (generic_format_FLT radix2 (-149) 24). eexists; [reflexivity| |]; cbn; lia.
    - unfold F2R. cbn. lra. }
  exists c. split; auto.
  destruct (sq_spec c) as (_ & _ & ->). destruct (prop_spec c) as (_ & Pb & Pv).
  assert (P : / 1024 <= B2R (prop_of c)).
  { rewrite Pv. change (/ 1024) with (bpow radix2 (-10)).
    apply round_ge_generic; try typeclasses eauto. { apply fmt_pow. lia. }
    change (bpow radix2 (-10)) with (/ 1024).
    assert (Pn : 0 < IZR n) by (apply IZR_lt; lia).
    apply (Rmult_le_reg_r (IZR n)); auto. unfold Rdiv. rewrite Rmult_assoc, Rinv_l, Rmult_1_r by lra.
    assert (L' : (n <= 1024 * count_class c l)%Z) by (generalize (count_le c); nia).
    apply IZR_le in L'. rewrite mult_IZR in L'. lra. }
  change (/ 1048576) with (bpow radix2 (-20)).
  apply round_ge_generic; try typeclasses eauto. { apply fmt_pow. lia. }
  change (bpow radix2 (-20)) with (/ 1048576). nra.
Qed.
End Gini.
