(** The computed impurities are close to the real ones, and the scan finds the least. *)
From Coq Require Import List ZArith Bool Lia Sorted Permutation Reals Lra Psatz Arith.
From Flocq Require Import Core BinarySingleNaN Relative.
From Verif Require Import Model.Base Model.Float Model.TreeM Spec.DatasetSpec Spec.TreeSpec Spec.GreedySpec
  Proofs.FloatFacts Proofs.FloatConv Proofs.TreeFacts Proofs.TreeLabels Proofs.TreeThreshold Proofs.TreeGini Proofs.TreeTotal Proofs.TreeTraining.
Import ListNotations.
Open Scope R_scope.

Lemma err x M : Rabs x <= M -> bpow radix2 (-126) <= M -> Rabs (rnd32 x - x) <= u * M.
Proof.
  intros H L. destruct (error_N_FLT radix2 (-149) 24 ltac:(reflexivity) (fun x => negb (Z.even x)) x) as (eps & eta & E1 & E2 & E3 & E4).
  change (round radix2 (FLT_exp (-149) 24) (Znearest (fun x : Z => negb (Z.even x))) x) with (rnd32 x) in E4. rewrite E4.
  replace (/ 2 * bpow radix2 (- (24) + 1)) with u in E1 by (change (bpow radix2 (- (24) + 1)) with (/ 8388608); unfold u; lra).
  replace (x * (1 + eps) + eta - x) with (x * eps + eta) by ring. assert (P := bpow_gt_0 radix2 (-126)). assert (U : 0 < u) by (unfold u; lra).
  destruct (Req_dec eps 0) as [Z|Z].
  - subst eps. rewrite Rmult_0_r, Rplus_0_l. eapply Rle_trans; [exact E2|]. apply Rle_trans with (u * bpow radix2 (-126)); [|nra].
    change (-149)%Z with (-126 + -23)%Z. rewrite bpow_plus. change (bpow radix2 (-23)) with (/ 8388608). unfold u. lra.
  - assert (eta = 0) as -> by (apply Rmult_integral in E3; tauto). rewrite Rplus_0_r, Rabs_mult. assert (A := Rabs_pos x). assert (B := Rabs_pos eps). nra.
Qed.

Lemma tiny M : / 1048576 * / 1048576 * / 1048576 <= M -> bpow radix2 (-126) <= M.
Proof. intros H. apply Rle_trans with (bpow radix2 (-60)); [apply bpow_le; lia|]. replace (bpow radix2 (-60)) with (/ 1048576 * / 1048576 * / 1048576); [exact H|]. change (-60)%Z with (-20 + -20 + -20)%Z. rewrite !bpow_plus. reflexivity. Qed.

(** ** Counting *)

Lemma count_class_occ c l : count_class c l = Z.of_nat (count_occ Z.eq_dec (map snd l) c).
Proof. unfold count_class. f_equal. induction l as [|s l IH]; [reflexivity|]. cbn [filter map count_occ]. destruct (Z.eqb_spec (snd s) c), (Z.eq_dec (snd s) c); try contradiction; cbn [length]; rewrite IH; reflexivity. Qed.
Lemma share_count c l : share c l = IZR (count_class c l) / IZR (Z.of_nat (length l)).
Proof. unfold share. rewrite count_class_occ, <- !INR_IZR_INZ. reflexivity. Qed.

Lemma sum_other cs (s : sample) (l : list sample) : ~ In (snd s) cs -> forall n, fold_right (fun c a => (Z.of_nat (count_occ Z.eq_dec (map snd (s :: l)) c) + a)%Z) n cs = fold_right (fun c a => (Z.of_nat (count_occ Z.eq_dec (map snd l) c) + a)%Z) n cs.
Proof.
  induction cs as [|c cs IH]; intros N n; [reflexivity|]. cbn [fold_right]. rewrite IH by (intros X; apply N; right; exact X). cbn [map count_occ]. destruct (Z.eq_dec (snd s) c) as [E|E]; [contradiction N; left; symmetry; exact E|reflexivity].
Qed.
Lemma counts_le cs (l : list sample) : NoDup cs -> (fold_right (fun c a => (Z.of_nat (count_occ Z.eq_dec (map snd l) c) + a)%Z) 0%Z cs <= Z.of_nat (length l))%Z.
Proof.
  intros N. induction l as [|s l IH].
  - clear. induction cs as [|c cs IH]; cbn [fold_right map count_occ length]; [lia|]. cbn [map count_occ length] in IH. lia.
  - assert (X : (fold_right (fun c a => (Z.of_nat (count_occ Z.eq_dec (map snd (s :: l)) c) + a)%Z) 0%Z cs <= fold_right (fun c a => (Z.of_nat (count_occ Z.eq_dec (map snd l) c) + a)%Z) 0%Z cs + 1)%Z).
    { clear IH. induction N as [|c cs NI N IH]; cbn [fold_right]; [lia|]. destruct (Z.eq_dec (snd s) c) as [E|E].
      - rewrite (sum_other cs s l) by (rewrite E; exact NI). cbn [map count_occ]. destruct (Z.eq_dec (snd s) c); [lia|contradiction].
      - replace (count_occ Z.eq_dec (map snd (s :: l)) c) with (count_occ Z.eq_dec (map snd l) c) by (cbn [map count_occ]; destruct (Z.eq_dec (snd s) c); [contradiction|reflexivity]). lia. }
    cbn [length]. lia.
Qed.

Lemma share_bound c l : l <> [] -> 0 <= share c l <= 1.
Proof.
  intros N. unfold share. assert (0 < INR (length l)) by (apply lt_0_INR; destruct l; [contradiction N; reflexivity|cbn; lia]).
  assert (B : (count_occ Z.eq_dec (map snd l) c <= length l)%nat) by (generalize (count_occ_bound Z.eq_dec c (map snd l)); rewrite map_length; auto). apply le_INR in B. assert (0 <= INR (count_occ Z.eq_dec (map snd l) c)) by apply pos_INR.
  split; [apply Rmult_le_pos; [assumption|left; apply Rinv_0_lt_compat; assumption]|]. apply (Rmult_le_reg_r (INR (length l))); [assumption|]. unfold Rdiv. rewrite Rmult_assoc, Rinv_l by lra. lra.
Qed.
Lemma squares_bound cs (l : list sample) : l <> [] -> NoDup cs -> 0 <= sum_squares cs l <= 1.
Proof.
  intros N D. assert (L : 0 < INR (length l)) by (apply lt_0_INR; destruct l; [contradiction N; reflexivity|cbn; lia]). split.
  - clear D. induction cs as [|c cs IH]; cbn [sum_squares fold_right]; [lra|]. assert (B := share_bound c l N). unfold sum_squares in IH. nra.
  - assert (C := counts_le cs l D). assert (S : sum_squares cs l <= IZR (fold_right (fun c a => (Z.of_nat (count_occ Z.eq_dec (map snd l) c) + a)%Z) 0%Z cs) / INR (length l)).
    { clear C D. induction cs as [|c cs IH]; cbn [sum_squares fold_right]; [unfold Rdiv; lra|]. unfold sum_squares in IH. rewrite plus_IZR, <- INR_IZR_INZ. unfold Rdiv in *. rewrite Rmult_plus_distr_r.
      assert (B := share_bound c l N). unfold share, Rdiv in *. nra. }
    apply IZR_le in C. rewrite <- INR_IZR_INZ in C. eapply Rle_trans; [exact S|]. apply (Rmult_le_reg_r (INR (length l))); [exact L|]. unfold Rdiv. rewrite Rmult_assoc, Rinv_l by lra. lra.
Qed.

Lemma share_absent c l : ~ In c (map snd l) -> share c l = 0.
Proof. intros N. unfold share. rewrite (proj1 (count_occ_not_In Z.eq_dec _ _) N). cbn. unfold Rdiv. lra. Qed.

Lemma squares_perm cs cs' (l : list sample) : Permutation cs cs' -> sum_squares cs l = sum_squares cs' l.
Proof. unfold sum_squares. induction 1; cbn [fold_right]; lra. Qed.
Lemma squares_app a b (l : list sample) : sum_squares (a ++ b) l = sum_squares a l + sum_squares b l.
Proof. unfold sum_squares. induction a as [|c a IH]; cbn [app fold_right]; lra. Qed.
Lemma squares_absent cs (l : list sample) : (forall c, In c cs -> ~ In c (map snd l)) -> sum_squares cs l = 0.
Proof. unfold sum_squares. induction cs as [|c cs IH]; intros H; cbn [fold_right]; [reflexivity|]. rewrite (share_absent c l) by (apply H; left; reflexivity). rewrite IH; [lra|]. intros; apply H; right; assumption. Qed.

(** Any list of all classes, without repetitions, will do. *)
Lemma squares_classes classes (l : list sample) : NoDup classes -> (forall s, In s l -> In (snd s) classes) -> sum_squares classes l = sum_squares (nodup Z.eq_dec (map snd l)) l.
Proof.
  intros N H. assert (P : Permutation classes (filter (fun c => if in_dec Z.eq_dec c (map snd l) then true else false) classes ++ filter (fun c => negb (if in_dec Z.eq_dec c (map snd l) then true else false)) classes)).
  { clear. induction classes as [|c cs IH]; [constructor|]. cbn [filter]. destruct (in_dec Z.eq_dec c (map snd l)); cbn [negb app]; [constructor; exact IH|]. apply Permutation_cons_app. exact IH. }
  rewrite (squares_perm _ _ l P), squares_app, (squares_absent (filter (fun c => negb (if in_dec Z.eq_dec c (map snd l) then true else false)) classes)), Rplus_0_r.
  - apply squares_perm. apply NoDup_Permutation; [apply NoDup_filter; exact N|apply NoDup_nodup|]. intros c. rewrite nodup_In, filter_In. destruct (in_dec Z.eq_dec c (map snd l)) as [I|I]; split; intros X; try tauto; try (destruct X; discriminate).
    split; [|reflexivity]. apply in_map_iff in I. destruct I as (s & <- & IN). exact (H s IN).
  - intros c IN I. apply filter_In in IN. destruct IN as [_ IN]. destruct (in_dec Z.eq_dec c (map snd l)); [discriminate IN|contradiction].
Qed.

(** ** How far the computed scores are off *)

Section Error.
Variables (l : list sample) (n : Z).
Hypothesis Hn : n = Z.of_nat (length l).
Hypothesis Hpos : (0 < n <= 2 ^ 24)%Z.

Let ne : l <> [].
Proof. intros ->. cbn in Hn. lia. Qed.

Lemma square_err c : Rabs (B2R (mul32 (prop_of l n c) (prop_of l n c)) - share c l * share c l) <= 4 * u * (share c l * share c l).
Proof.
  destruct (sq_spec l n Hn Hpos c) as (_ & _ & ->). destruct (prop_spec l n Hn Hpos c) as (_ & _ & ->).
  assert (E : IZR (count_class c l) / IZR n = share c l) by (rewrite share_count, <- Hn; reflexivity). rewrite E. assert (B := share_bound c l ne).
  assert (C := count_le l n Hn c). assert (Pn : 0 < IZR n <= 16777216) by (split; [apply IZR_lt; lia|apply IZR_le; lia]).
  destruct (Z.eq_dec (count_class c l) 0) as [Z0|Z0].
  - rewrite Z0 in E. unfold Rdiv in E. rewrite Rmult_0_l in E. rewrite <- E. replace (rnd32 0) with 0 by (symmetry; apply round_0; typeclasses eauto). rewrite !Rmult_0_r.
    replace (rnd32 0) with 0 by (symmetry; apply round_0; typeclasses eauto). rewrite Rminus_0_r, Rabs_R0. lra.
  - assert (S : / 16777216 <= share c l).
    { rewrite <- E. assert (1 <= IZR (count_class c l)) by (apply IZR_le; lia). apply (Rmult_le_reg_r (IZR n)); [lra|]. unfold Rdiv. rewrite (Rmult_assoc (IZR (count_class c l))), Rinv_l by lra. nra. }
    set (x := share c l) in *. assert (P := err x x ltac:(rewrite Rabs_pos_eq; lra) ltac:(apply tiny; lra)). apply Rabs_le_inv in P. set (p := rnd32 x) in *.
    unfold u in *. assert (PP : / 33554432 <= p <= 2) by lra. assert (PQ : 0 <= p * p) by nra. assert (Q := err (p * p) (p * p) ltac:(rewrite Rabs_pos_eq; lra) ltac:(apply tiny; nra)). apply Rabs_le_inv in Q.
    unfold u in Q. assert (W : x * x * (1 - 2 * / 16777216) <= p * p <= x * x * (1 + 2 * / 16777216 + / 16777216 * / 16777216)).
    { assert (x * (1 - / 16777216) <= p <= x * (1 + / 16777216)) by lra. split; nra. }
    apply Rabs_le. nra.
Qed.

Lemma fold_err cls : forall g0 S0 k, is_finite g0 = true -> 0 <= S0 -> (0 <= k)%Z -> (k + Z.of_nat (length cls) <= 2 ^ 20)%Z ->
  Rabs (B2R g0 - S0) <= 2 * u * IZR k + 4 * u * S0 -> S0 + sum_squares cls l <= 1 ->
  is_finite (gfold l n cls g0) = true /\
  Rabs (B2R (gfold l n cls g0) - (S0 + sum_squares cls l)) <= 2 * u * IZR (k + Z.of_nat (length cls)) + 4 * u * (S0 + sum_squares cls l).
Proof.
  induction cls as [|c cls IH]; intros g0 S0 k F PS PK K E T.
  - cbn [gfold fold_left length sum_squares fold_right]. rewrite Rplus_0_r. replace (k + Z.of_nat 0)%Z with k by lia. split; assumption.
  - cbn [length] in K |- *. cbn [sum_squares fold_right] in T |- *. fold (sum_squares cls l) in T |- *.
    assert (Q := square_err c). destruct (sq_spec l n Hn Hpos c) as (F1 & B1 & _). set (q := mul32 (prop_of l n c) (prop_of l n c)) in *.
    set (x := share c l * share c l) in *. assert (X : 0 <= x) by (unfold x; nra).
    assert (SB : 0 <= sum_squares cls l). { clear. unfold sum_squares. induction cls as [|c cls IH]; cbn [fold_right]; [lra|nra]. }
    assert (K2 : 0 <= IZR k <= 1048576) by (split; apply IZR_le; lia).
    apply Rabs_le_inv in Q. apply Rabs_le_inv in E. unfold u in *.
    assert (A : Rabs (B2R g0 + B2R q) <= 2) by (apply Rabs_le; lra).
    assert (R := err _ 2 A ltac:(apply tiny; lra)). apply Rabs_le_inv in R. unfold u in R.
    destruct (add32_spec g0 q F F1) as [F2 V2].
    { apply small_128. rewrite bnd60. apply Rabs_le. lra. }
    destruct (IH (add32 g0 q) (S0 + x) (k + 1)%Z F2 ltac:(lra) ltac:(lia) ltac:(lia)) as [F3 E3].
    { rewrite V2, plus_IZR. apply Rabs_le. lra. }
    { lra. }
    cbn [gfold fold_left]. fold q. fold (gfold l n cls (add32 g0 q)). split; [exact F3|].
    replace (k + Z.of_nat (S (length cls)))%Z with (k + 1 + Z.of_nat (length cls))%Z by lia. replace (S0 + (x + sum_squares cls l)) with (S0 + x + sum_squares cls l) by ring. exact E3.
Qed.

Lemma gini_err classes : NoDup classes -> (forall s, In s l -> In (snd s) classes) -> (Z.of_nat (length classes) <= 2 ^ 20)%Z ->
  is_finite (compute_gini classes l) = true /\ Rabs (B2R (compute_gini classes l) - impurity l) <= (2 * IZR (Z.of_nat (length classes)) + 6) * u /\ 0 <= impurity l <= 1.
Proof.
  intros D H K. assert (SB := squares_bound classes l ne D).
  destruct (fold_err classes zero32 0 0 eq_refl ltac:(lra) ltac:(lia) ltac:(lia)) as [F E].
  { change (B2R zero32) with 0. rewrite Rminus_0_r, Rabs_R0. lra. } { lra. }
  rewrite Rplus_0_l, Z.add_0_l in E. unfold impurity. rewrite <- (squares_classes classes l D H). set (G := sum_squares classes l) in *. set (g := gfold l n classes zero32) in *. set (k := IZR (Z.of_nat (length classes))) in *.
  assert (K2 : 0 <= k <= 1048576) by (split; apply IZR_le; lia). apply Rabs_le_inv in E. unfold u in *.
  destruct one32_spec as [F1 V1]. assert (A : Rabs (1 - B2R g) <= 2) by (apply Rabs_le; lra). assert (R := err _ 2 A ltac:(apply tiny; lra)). apply Rabs_le_inv in R. unfold u in R.
  destruct (sub32_spec one32 g F1 F) as [F2 V2]. { rewrite V1. apply small_128. rewrite bnd60. apply Rabs_le. lra. }
  rewrite (compute_gini_eq l n Hn). fold g. split; [exact F2|]. rewrite V2, V1. split; [apply Rabs_le; lra|lra].
Qed.
End Error.

Lemma split_err classes (l : list sample) i : NoDup classes -> (forall s, In s l -> In (snd s) classes) -> (Z.of_nat (length classes) <= 2 ^ 20)%Z -> (Z.of_nat (length l) <= 2 ^ 24)%Z -> (0 < i < length l)%nat ->
  is_finite (split_gini classes l i) = true /\ Rabs (B2R (split_gini classes l i) - divided (firstn i l) (skipn i l)) <= (2 * IZR (Z.of_nat (length classes)) + 13) * u.
Proof.
  intros D H K N Hi.
  assert (HL : length (firstn i l) = i) by (rewrite firstn_length; lia).
  assert (HR : length (skipn i l) = (length l - i)%nat) by (rewrite skipn_length; lia).
  assert (Hsub : forall s, In s (firstn i l) \/ In s (skipn i l) -> In (snd s) classes).
  { intros s Hs. apply H. rewrite <- (firstn_skipn i l). apply in_or_app. auto. }
  assert (PL : (0 < Z.of_nat (length (firstn i l)) <= 2 ^ 24)%Z) by (rewrite HL; lia).
  assert (PR : (0 < Z.of_nat (length (skipn i l)) <= 2 ^ 24)%Z) by (rewrite HR; lia).
  destruct (gini_err (firstn i l) _ eq_refl PL classes D (fun s Hs => Hsub s (or_introl Hs)) K) as (FL & EL & BL).
  destruct (gini_err (skipn i l) _ eq_refl PR classes D (fun s Hs => Hsub s (or_intror Hs)) K) as (FR & ER & BR).
  unfold divided. rewrite HL, HR. replace (i + (length l - i))%nat with (length l) by lia. rewrite !INR_IZR_INZ. rewrite Nat2Z.inj_sub by lia.
  unfold split_gini. set (n := Z.of_nat (length l)) in *. set (iz := Z.of_nat i) in *. set (gl := compute_gini classes (firstn i l)) in *. set (gr := compute_gini classes (skipn i l)) in *.
  set (p := impurity (firstn i l)) in *. set (q := impurity (skipn i l)) in *. set (k := IZR (Z.of_nat (length classes))) in *.
  assert (K2 : 0 <= k <= 1048576) by (split; apply IZR_le; lia).
  assert (I1 : (1 <= iz <= 2 ^ 24)%Z) by (unfold iz, n in *; lia). assert (I2 : (1 <= n - iz <= 2 ^ 24)%Z) by (unfold iz, n in *; lia).
  destruct (f32_of_Z_spec iz ltac:(lia)) as [Fi Vi]. destruct (f32_of_Z_spec (n - iz) ltac:(lia)) as [Fj Vj]. destruct (f32_of_Z_spec n ltac:(lia)) as [Fn Vn].
  rewrite minus_IZR in *. set (a := IZR iz) in *. assert (A : 1 <= a) by (apply IZR_le; lia). assert (B : 1 <= IZR n - a) by (unfold a; rewrite <- minus_IZR; apply IZR_le; lia). assert (M : IZR n <= 16777216) by (apply IZR_le; lia).
  set (b := IZR n - a) in *. assert (NB : IZR n = a + b) by (unfold b; ring).
  apply Rabs_le_inv in EL, ER. set (d := (2 * k + 6) * u) in *. assert (DB : 0 <= d <= / 4) by (unfold d, u; lra).
  assert (W : forall w g x, 1 <= w -> - d <= g - x <= d -> 0 <= x <= 1 -> Rabs (w * g) <= 2 * w). { intros w g x W1 W2 W3. apply Rabs_le. nra. }
  assert (X1 := err _ _ (W a (B2R gl) p A EL BL) ltac:(apply tiny; lra)). assert (X2 := err _ _ (W b (B2R gr) q B ER BR) ltac:(apply tiny; lra)). apply Rabs_le_inv in X1, X2.
  assert (Y1 : - (a * d) <= a * B2R gl - a * p <= a * d) by nra. assert (Y2 : - (b * d) <= b * B2R gr - b * q <= b * d) by nra.
  assert (Z1 : 0 <= a * p <= a) by nra. assert (Z2 : 0 <= b * q <= b) by nra.
  assert (U : u = / 16777216) by reflexivity. assert (AD : a * d <= a * / 4) by nra. assert (BD : b * d <= b * / 4) by nra.
  destruct (mul32_spec (f32_of_Z iz) gl Fi FL) as [F1 V1]. { rewrite Vi. apply small_128. rewrite bnd60. apply Rabs_le. rewrite U in *. lra. }
  destruct (mul32_spec (f32_of_Z (n - iz)) gr Fj FR) as [F2 V2]. { rewrite Vj. apply small_128. rewrite bnd60. apply Rabs_le. rewrite U in *. lra. }
  rewrite Vi in V1. rewrite Vj in V2. set (x1 := mul32 (f32_of_Z iz) gl) in *. set (x2 := mul32 (f32_of_Z (n - iz)) gr) in *. rewrite <- V1 in X1. rewrite <- V2 in X2.
  assert (S1 : Rabs (B2R x1 + B2R x2) <= 2 * (a + b)) by (apply Rabs_le; rewrite U in *; lra).
  assert (X3 := err _ _ S1 ltac:(apply tiny; lra)). apply Rabs_le_inv in X3. 
  destruct (add32_spec x1 x2 F1 F2) as [F3 V3]. { apply small_128. rewrite bnd60. apply Rabs_le. rewrite U in *. lra. }
  set (s := add32 x1 x2) in *. rewrite <- V3 in X3. set (T := a * p + b * q) in *.
  assert (X4 : - ((a + b) * (d + 4 * u)) <= B2R s - T <= (a + b) * (d + 4 * u)) by (unfold T; lra).
  assert (IV : 0 < / (a + b)) by (apply Rinv_0_lt_compat; lra). assert (IE : (a + b) * / (a + b) = 1) by (apply Rinv_r; lra).
  assert (X5 : - (d + 4 * u) <= B2R s / (a + b) - T / (a + b) <= d + 4 * u).
  { unfold Rdiv. rewrite <- Rmult_minus_distr_r. replace (d + 4 * u) with ((a + b) * (d + 4 * u) * / (a + b)) by (rewrite (Rmult_comm (a + b)), Rmult_assoc, IE; ring). split; [rewrite Ropp_mult_distr_l|]; apply Rmult_le_compat_r; lra. }
  assert (TB : 0 <= T / (a + b) <= 1).
  { split; [apply Rmult_le_pos; unfold T; lra|]. apply (Rmult_le_reg_r (a + b)); [lra|]. unfold Rdiv. rewrite Rmult_assoc, (Rmult_comm (/ (a + b))), IE. unfold T. lra. }
  assert (S2 : Rabs (B2R s / (a + b)) <= 3) by (apply Rabs_le; rewrite U in *; lra).
  assert (X6 := err _ _ S2 ltac:(apply tiny; lra)). apply Rabs_le_inv in X6.
  destruct (div32_spec s (f32_of_Z n) F3) as [F4 V4]. { rewrite Vn. lra. } { rewrite Vn, NB. apply small_128. rewrite bnd60. apply Rabs_le. rewrite U in *. lra. }
  rewrite Vn, NB in V4. split; [exact F4|]. rewrite NB. rewrite V4. apply Rabs_le. unfold d in *. lra.
Qed.

(** ** The scan finds the least score *)

Lemma share_perm c (l l' : list sample) : Permutation l l' -> share c l = share c l'.
Proof. intros P. rewrite !share_count, (count_perm c l l' P), (Permutation_length P). reflexivity. Qed.
Lemma impurity_perm (l l' : list sample) : Permutation l l' -> impurity l = impurity l'.
Proof.
  intros P. unfold impurity. f_equal.
  assert (S : forall cs, sum_squares cs l = sum_squares cs l') by (intros cs; unfold sum_squares; induction cs as [|c cs IH]; cbn [fold_right]; [reflexivity|]; rewrite IH, (share_perm c l l' P); reflexivity).
  rewrite S. apply squares_perm. apply NoDup_Permutation; [apply NoDup_nodup|apply NoDup_nodup|]. intros c. rewrite !nodup_In.
  assert (Q : Permutation (map snd l) (map snd l')) by (apply Permutation_map; exact P). split; intros I; [exact (Permutation_in c Q I)|exact (Permutation_in c (Permutation_sym Q) I)].
Qed.
Lemma divided_perm ll lr ll' lr' : Permutation ll ll' -> Permutation lr lr' -> divided ll lr = divided ll' lr'.
Proof. intros P Q. unfold divided. rewrite (impurity_perm _ _ P), (impurity_perm _ _ Q), (Permutation_length P), (Permutation_length Q). reflexivity. Qed.

Definition score (b : best_split) : f32 := fst (fst (fst b)).

Lemma try_split_best classes f l i b : is_finite (score b) = true -> is_finite (split_gini classes l i) = true -> Forall (has_feature f) l -> (0 < i < length l)%nat ->
  is_finite (score (try_split classes f l i b)) = true /\ B2R (score (try_split classes f l i b)) <= B2R (score b) /\
  (boundary f l i -> B2R (score (try_split classes f l i b)) <= B2R (split_gini classes l i)).
Proof.
  intros Fb Fg H Hi. destruct b as [[[m pos] f0] thr]. cbn [score fst] in *. unfold try_split.
  destruct (eq32 _ _) eqn:E.
  - cbn [score fst]. split; [exact Fb|split; [lra|]]. intros [_ B]. exfalso. unfold eq32 in E. rewrite Forall_forall in H.
    assert (H1 : has_feature f (nth (i - 1) l ([], 0%Z))) by (apply H, nth_In; lia). assert (H2 : has_feature f (nth i l ([], 0%Z))) by (apply H, nth_In; lia).
    destruct H1 as [_ H1], H2 as [_ H2]. unfold feature in H1, H2. rewrite Beqb_xval in E by auto. unfold val, feature in B. rbool. lra.
  - cbv zeta. destruct (le32 m _) eqn:G; cbn [score fst].
    + split; [exact Fb|split; [lra|]]. intros _. unfold le32 in G. rewrite Bleb_xval in G by (apply not_nan_finite; assumption). rewrite !xval_finite in G by assumption. rbool; lra.
    + split; [exact Fg|]. unfold le32 in G. rewrite Bleb_xval in G by (apply not_nan_finite; assumption). rewrite !xval_finite in G by assumption. rbool. split; [lra|intros _; lra].
Qed.

Lemma scan_feature_best classes f l b : is_finite (score b) = true -> (forall i, (0 < i < length l)%nat -> is_finite (split_gini classes l i) = true) -> Forall (has_feature f) l ->
  is_finite (score (scan_feature classes f l b)) = true /\ B2R (score (scan_feature classes f l b)) <= B2R (score b) /\
  (forall i, boundary f l i -> B2R (score (scan_feature classes f l b)) <= B2R (split_gini classes l i)).
Proof.
  intros Fb Fg H. unfold scan_feature.
  assert (G : forall is b, is_finite (score b) = true -> (forall i, In i is -> (0 < i < length l)%nat) ->
    let b' := fold_left (fun b i => try_split classes f l i b) is b in
    is_finite (score b') = true /\ B2R (score b') <= B2R (score b) /\ (forall i, In i is -> boundary f l i -> B2R (score b') <= B2R (split_gini classes l i))).
  { clear b Fb. induction is as [|i is IH]; intros b Fb R; cbv zeta; cbn [fold_left]; [split; [exact Fb|split; [lra|intros i []]]|].
    destruct (try_split_best classes f l i b Fb (Fg i (R i (or_introl eq_refl))) H (R i (or_introl eq_refl))) as (F1 & L1 & C1).
    destruct (IH _ F1 (fun j J => R j (or_intror J))) as (F2 & L2 & C2). split; [exact F2|split; [lra|]]. intros j [<-|J] B; [specialize (C1 B); lra|exact (C2 j J B)]. }
  destruct (G (seq 1 (length l - 1)) b Fb) as (F & L & C). { intros i I. apply in_seq in I. lia. }
  split; [exact F|split; [exact L|]]. intros i B. apply C; [|exact B]. destruct B as [B _]. apply in_seq. lia.
Qed.

Lemma scan_features_best srt classes l0 : sorter_ok srt -> (forall l i, Permutation l0 l -> (0 < i < length l)%nat -> is_finite (split_gini classes l i) = true) ->
  forall fs l b l' b', Permutation l0 l -> is_finite (score b) = true -> scan_features srt classes fs l b = Ok (l', b') ->
  is_finite (score b') = true /\ B2R (score b') <= B2R (score b) /\
  (forall f, In f fs -> exists lf, Permutation l0 lf /\ sorted_by f lf /\ forall i, boundary f lf i -> B2R (score b') <= B2R (split_gini classes lf i)).
Proof.
  intros HS FG. induction fs as [|f fs IH]; intros l b l' b' P Fb H; cbn [scan_features] in H.
  - injection H as <- <-. split; [exact Fb|split; [lra|intros f []]].
  - apply bind_inv in H. destruct H as (l1 & E & H). destruct (sort_by_ok _ _ _ _ HS E) as (P1 & S1 & F1). assert (P2 : Permutation l0 l1) by (eapply Permutation_trans; eauto).
    destruct (scan_feature_best classes f l1 b Fb (fun i I => FG l1 i P2 I) F1) as (F2 & L2 & C2). destruct (IH _ _ _ _ P2 F2 H) as (F3 & L3 & C3). split; [exact F3|split; [lra|]].
    intros g [<-|G]; [|exact (C3 g G)]. exists l1. split; [exact P2|split; [exact S1|]]. intros i B. specialize (C2 i B). lra.
Qed.

Lemma sorted_app f l r : sorted_by f l -> sorted_by f r -> (forall x y, In x l -> In y r -> val f x <= val f y) -> sorted_by f (l ++ r).
Proof.
  unfold sorted_by. induction 1 as [|a l S IH F]; intros R H; cbn [app]; [exact R|]. constructor.
  - apply IH; [exact R|]. intros; apply H; [right; assumption|assumption].
  - rewrite Forall_forall in *. intros y I. apply in_app_or in I. destruct I as [I|I]; [exact (F y I)|apply H; [left; reflexivity|exact I]].
Qed.

(** Every division by a threshold is, up to the order within its sides, a position of the sorted range. *)
Lemma apart_boundary srt k f l ll lr : sorter_ok srt -> uniform_samples k l -> Permutation l (ll ++ lr) -> ll <> [] -> lr <> [] -> apart f ll lr ->
  (f < k)%nat /\ exists ls, Permutation l ls /\ sorted_by f ls /\ boundary f ls (length ll) /\ Permutation (firstn (length ll) ls) ll /\ Permutation (skipn (length ll) ls) lr.
Proof.
  intros HS U P NL NR A.
  assert (FK : (f < k)%nat).
  { destruct ll as [|x ll]; [congruence|]. destruct lr as [|y lr]; [congruence|]. destruct (A x y (or_introl eq_refl) (or_introl eq_refl)) as (a & b & E & _ & _).
    assert (I : In x l) by (eapply Permutation_in; [apply Permutation_sym; exact P|left; reflexivity]). unfold uniform_samples in U. rewrite Forall_forall in U. destruct (U x I) as [L _]. rewrite <- L. apply nth_error_Some. intros X. assert (Y := eq_trans (eq_sym E) X). discriminate Y. }
  split; [exact FK|].
  assert (HF := uniform_has k l f U FK). rewrite Forall_forall in HF.
  assert (HL : forall x, In x ll -> has_feature f x) by (intros x I; apply HF; eapply Permutation_in; [apply Permutation_sym; exact P|apply in_or_app; left; exact I]).
  assert (HR : forall x, In x lr -> has_feature f x) by (intros x I; apply HF; eapply Permutation_in; [apply Permutation_sym; exact P|apply in_or_app; right; exact I]).
  assert (SB : forall q, (forall x, In x q -> has_feature f x) -> exists q', Permutation q q' /\ sorted_by f q').
  { intros q HQ. assert (E : sort_by srt f q = Ok (srt (feature_lt f) q)).
    { unfold sort_by. match goal with |- (if ?b then _ else _) = _ => assert (b = true) as -> end; [|reflexivity]. apply forallb_forall. intros x I. destruct (HQ x I) as [H1 H2]. rewrite H2. apply Nat.ltb_lt in H1. rewrite H1. reflexivity. }
    destruct (sort_by_ok _ _ _ _ HS E) as (P1 & S1 & _). eexists. split; eassumption. }
  destruct (SB ll HL) as (sl & PL & SL), (SB lr HR) as (sr & PR & SR).
  assert (V : forall x y, In x sl -> In y sr -> val f x < val f y).
  { intros x y IX IY. apply (Permutation_in x (Permutation_sym PL)) in IX. apply (Permutation_in y (Permutation_sym PR)) in IY. destruct (A x y IX IY) as (a & b & Ea & Eb & L).
    assert (Hx := HL x IX). assert (Hy := HR y IY). rewrite (nth_error_feature f x Hx) in Ea. rewrite (nth_error_feature f y Hy) in Eb. injection Ea as <-. injection Eb as <-.
    unfold lt32 in L. rewrite Bltb_xval in L by (apply Hx || apply Hy). unfold val. rbool; lra. }
  assert (LL : length sl = length ll) by (symmetry; exact (Permutation_length PL)). assert (LR : length sr = length lr) by (symmetry; exact (Permutation_length PR)).
  assert (P0 : (0 < length ll)%nat) by (destruct ll; [congruence|cbn; lia]). assert (P1 : (0 < length lr)%nat) by (destruct lr; [congruence|cbn; lia]).
  exists (sl ++ sr). split; [eapply Permutation_trans; [exact P|apply Permutation_app; assumption]|]. split; [apply sorted_app; [exact SL|exact SR|]; intros x y IX IY; left; apply V; assumption|].
  split.
  - split; [rewrite app_length; lia|]. apply V.
    + rewrite app_nth1 by lia. apply nth_In. lia.
    + rewrite app_nth2 by lia. apply nth_In. lia.
  - rewrite <- LL, firstn_app, Nat.sub_diag, firstn_all, skipn_app, Nat.sub_diag, skipn_all. cbn [firstn skipn app]. rewrite app_nil_r. split; apply Permutation_sym; assumption.
Qed.

(** ** Training *)

Lemma divided_le classes (l ls : list sample) i j (ls' : list sample) : NoDup classes -> (forall s, In s l -> In (snd s) classes) -> (Z.of_nat (length classes) <= 2 ^ 20)%Z -> (Z.of_nat (length l) <= 2 ^ 24)%Z ->
  Permutation l ls -> Permutation l ls' -> (0 < i < length ls)%nat -> (0 < j < length ls')%nat ->
  B2R (split_gini classes ls i) <= B2R (split_gini classes ls' j) -> divided (firstn i ls) (skipn i ls) <= divided (firstn j ls') (skipn j ls') + slack (length classes).
Proof.
  intros D H K N P P' Hi Hj L.
  destruct (split_err classes ls i D (fun s I => H s (Permutation_in s (Permutation_sym P) I)) K ltac:(rewrite <- (Permutation_length P); exact N) Hi) as [_ E1].
  destruct (split_err classes ls' j D (fun s I => H s (Permutation_in s (Permutation_sym P') I)) K ltac:(rewrite <- (Permutation_length P'); exact N) Hj) as [_ E2].
  apply Rabs_le_inv in E1, E2. unfold slack, u in *. rewrite INR_IZR_INZ. lra.
Qed.

Lemma build_tree_greedy srt classes k : sorter_ok srt -> NoDup classes -> (Z.of_nat (length classes) <= 2 ^ 20)%Z -> forall fuel md d l t l',
  l <> [] -> (forall s, In s l -> In (snd s) classes) -> (Z.of_nat (length l) <= 2 ^ 24)%Z -> uniform_samples k l ->
  build_tree fuel srt classes md d l = Ok (t, l') -> greedy (slack (length classes)) (md - d) l t.
Proof.
  intros HS D K. induction fuel as [|fuel IH]; intros md d l t l' NE HC N U H; [discriminate H|].
  assert (PN : (0 < Z.of_nat (length l) <= 2 ^ 24)%Z) by (split; [destruct l; [contradiction NE; reflexivity|cbn [length]; lia]|exact N]).
  destruct (gini_err l _ eq_refl PN classes D HC K) as (FG & EG & BG).
  assert (SG : Rabs (B2R (compute_gini classes l) - impurity l) <= slack (length classes)).
  { eapply Rle_trans; [exact EG|]. unfold slack, u. rewrite INR_IZR_INZ. assert (0 <= IZR (Z.of_nat (length classes))) by (apply IZR_le; lia). lra. }
  apply build_tree_step in H; [|exact HS]. destruct H as (c & r & EC & [(-> & -> & W)|H]).
  - constructor; [exact SG|]. destruct W as [W|[W|W]]; [left; lia|contradiction (NE W)|right]. unfold le32 in W. rewrite Bleb_xval in W by (try reflexivity; apply not_nan_finite; exact FG). rewrite !xval_finite in W by (try reflexivity; exact FG). rbool.
    change (B2R zero32) with 0 in *. apply Rabs_le_inv in SG. lra.
  - destruct H as (DM & _ & GZ & ls & pos & f & thr & gs & lt & ll & rt & lr & E & P & S & F & (lx & Px & Sx & Fx & Bx & Eg & Et) & B & E1 & E2 & -> & ->).
    assert (PX : Permutation ls lx) by (eapply Permutation_trans; [apply Permutation_sym; exact P|exact Px]).
    destruct (cut_perm f ls lx pos S Sx PX B) as [CL CR]. destruct (boundary_nonempty _ _ _ B) as [NL NR].
    assert (HB : (0 < pos < length lx)%nat) by apply Bx.
    apply (greedy_inner _ _ l (firstn pos ls) (skipn pos ls) _ _ _ f thr lt rt _ (nth (pos - 1) lx ([], 0%Z)) (nth pos lx ([], 0%Z)) (feature f (nth (pos - 1) lx ([], 0%Z))) (feature f (nth pos lx ([], 0%Z)))).
    + exact SG.
    + lia.
    + destruct (Forall_dec (fun s : sample => snd s = snd (hd ([], 0%Z) l)) (fun s => Z.eq_dec _ _) l) as [A|A].
      * exfalso. rewrite Forall_forall in A. assert (X := gini_pure l _ eq_refl PN classes (snd (hd ([], 0%Z) l)) ltac:(lia)). rewrite X in GZ; [discriminate GZ| |exact A].
        apply HC. destruct l; [contradiction NE; reflexivity|left; reflexivity].
      * apply neg_Forall_Exists_neg in A; [|intros s; apply Z.eq_dec]. apply Exists_exists in A. destruct A as (s & I & Q). exists s, (hd ([], 0%Z) l). split; [exact I|split; [destruct l; [contradiction NE; reflexivity|left; reflexivity]|exact Q]].
    + rewrite firstn_skipn. exact P.
    + exact NL.
    + exact NR.
    + intros x y Hx Hy. exact (boundary_lt f ls pos x y S B F Hx Hy).
    + intros f' ll' lr' P' NL' NR' A'. destruct (apart_boundary srt k f' l ll' lr' HS U P' NL' NR' A') as (FK & lz & Pz & Sz & Bz & ZL & ZR).
      rewrite <- (divided_perm _ _ _ _ ZL ZR), (divided_perm _ _ _ _ CL CR).
      unfold split in E. cbv zeta in E. match type of E with (if negb ?b then _ else _) = _ => destruct b end; cbn [negb] in E; [|discriminate E]. apply bind_inv in E. destruct E as ([l1 [[[g1 p1] f1] t1]] & E3 & E). apply bind_inv in E. destruct E as (l2 & E4 & E). injection E as -> -> -> -> ->.
      rewrite (hd_uniform k l U NE) in E3.
      assert (FS : forall (q : list sample) i, Permutation l q -> (0 < i < length q)%nat -> is_finite (split_gini classes q i) = true).
      { intros q i Q I. apply split_err; try assumption. - intros s J. apply HC. exact (Permutation_in s (Permutation_sym Q) J). - assert (LQ := Permutation_length Q). slia. }
      destruct (scan_features_best srt classes l HS FS _ _ _ _ _ (Permutation_refl l) (proj1 one32_spec : is_finite (score (one32, length l, O, zero32)) = true) E3) as (_ & _ & C).
      destruct (C f' ltac:(apply in_seq; lia)) as (lf & Pf & Sf & Lf). cbn [score fst] in Lf.
      assert (PZ : Permutation lz lf) by (eapply Permutation_trans; [apply Permutation_sym; exact Pz|exact Pf]).
      assert (Bf := boundary_transfer f' lz lf _ Sz Sf PZ Bz). destruct (cut_perm f' lz lf _ Sz Sf PZ Bz) as [ZL2 ZR2]. rewrite (divided_perm _ _ _ _ ZL2 ZR2).
      apply (divided_le classes l); try assumption. * apply Bf. * rewrite <- Eg. apply Lf. exact Bf.
    + apply (Permutation_in _ (Permutation_sym CL)). replace (nth (pos - 1) lx ([], 0%Z)) with (nth (pos - 1) (firstn pos lx) ([], 0%Z)); [apply nth_In; rewrite firstn_length; lia|].
      rewrite <- (firstn_skipn pos lx) at 2. rewrite app_nth1 by (rewrite firstn_length; lia). reflexivity.
    + apply (Permutation_in _ (Permutation_sym CR)). replace (nth pos lx ([], 0%Z)) with (nth 0 (skipn pos lx) ([], 0%Z)); [apply nth_In; rewrite skipn_length; lia|].
      rewrite <- (firstn_skipn pos lx) at 2. rewrite app_nth2 by (rewrite firstn_length; lia). rewrite firstn_length_le by lia. rewrite Nat.sub_diag. reflexivity.
    + apply nth_error_feature. rewrite Forall_forall in Fx. apply Fx, nth_In. lia.
    + apply nth_error_feature. rewrite Forall_forall in Fx. apply Fx, nth_In. lia.
    + intros x' a' I Q. apply (Permutation_in _ CL) in I. rewrite Forall_forall in Fx. assert (Hx : has_feature f x') by (apply Fx; rewrite <- (firstn_skipn pos lx); apply in_or_app; left; exact I).
      rewrite (nth_error_feature f x' Hx) in Q. injection Q as <-. unfold lt32. rewrite Bltb_xval by (apply Hx || (apply Fx, nth_In; lia)). apply Rlt_bool_false.
      apply (in_firstn_nth (A:=sample) _ _ _ ([], 0%Z)) in I. destruct I as (i & I1 & I2 & ->). fold (val f (nth i lx ([], 0%Z))). fold (val f (nth (pos - 1) lx ([], 0%Z))).
      destruct (Nat.eq_dec i (pos - 1)) as [->|]; [lra|]. apply (sorted_nth (A:=sample) _ lx ([], 0%Z) Sx). slia.
    + intros x' a' I Q. apply (Permutation_in _ CR) in I. rewrite Forall_forall in Fx. assert (Hx : has_feature f x') by (apply Fx; rewrite <- (firstn_skipn pos lx); apply in_or_app; right; exact I).
      rewrite (nth_error_feature f x' Hx) in Q. injection Q as <-. unfold lt32. rewrite Bltb_xval by (apply Hx || (apply Fx, nth_In; lia)). apply Rlt_bool_false.
      apply (in_skipn_nth (A:=sample) _ _ _ ([], 0%Z)) in I. destruct I as (i & I1 & I2 & ->). fold (val f (nth i lx ([], 0%Z))). fold (val f (nth pos lx ([], 0%Z))).
      destruct (Nat.eq_dec i pos) as [->|]; [lra|]. apply (sorted_nth (A:=sample) _ lx ([], 0%Z) Sx). slia.
    + exact Et.
    + assert (IN : forall s, In s (firstn pos ls) -> In s l) by (intros s I; apply (Permutation_in s (Permutation_sym P)); rewrite <- (firstn_skipn pos ls); apply in_or_app; left; exact I).
      replace (md - d - 1)%Z with (md - (d + 1))%Z by lia. refine (IH _ _ _ _ _ NL (fun s I => HC s (IN s I)) _ _ E1); [assert (LP := Permutation_length P); rewrite firstn_length; slia|exact (uniform_incl k l _ U IN)].
    + assert (IN : forall s, In s (skipn pos ls) -> In s l) by (intros s I; apply (Permutation_in s (Permutation_sym P)); rewrite <- (firstn_skipn pos ls); apply in_or_app; right; exact I).
      replace (md - d - 1)%Z with (md - (d + 1))%Z by lia. refine (IH _ _ _ _ _ NR (fun s I => HC s (IN s I)) _ _ E2); [assert (LP := Permutation_length P); rewrite skipn_length; slia|exact (uniform_incl k l _ U IN)].
Qed.

Lemma train_greedy srt md h t k features responses t' : sorter_ok srt -> trained srt md h t ->
  length responses = length features -> uniform_samples k (combine features responses) ->
  (Z.of_nat (length features) <= 2 ^ 24)%Z -> (Z.of_nat (length (nodup Z.eq_dec (List.concat (map snd h) ++ responses))) <= 2 ^ 20)%Z ->
  dt_train srt t features responses = Ok t' ->
  greedy (slack (length (nodup Z.eq_dec (List.concat (map snd h) ++ responses)))) md (combine features responses) (t_root t').
Proof.
  intros HS HT L U N K H. destruct (trained_classes _ _ _ _ HT) as (S & I & M).
  assert (CC := class_count_history responses (t_classes t) (List.concat (map snd h)) S I). rewrite <- CC in *.
  unfold dt_train in H. destruct features as [|f0 fs] eqn:Ef; [discriminate H|]. rewrite <- Ef in *. destruct (negb _); [discriminate H|].
  apply bind_inv in H. destruct H as ([root data] & E & H). injection H as <-. cbn [t_root]. rewrite M in E. replace md with (md - 0)%Z at 1 by lia.
  refine (build_tree_greedy srt _ k HS (sorted_lt_nodup _ (set_insert_all_sorted responses _ S)) K _ _ _ _ _ _ _ _ _ U E).
  - intros X. apply (f_equal (@length _)) in X. rewrite combine_length, L, Nat.min_id, Ef in X. discriminate X.
  - intros s J. apply set_insert_all_in. left. exact (in_combine_snd _ _ _ J).
  - rewrite combine_length. lia.
Qed.
