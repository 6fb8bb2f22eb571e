(** The softmax of binary64 numbers. *)
From Coq Require Import List ZArith Bool Lia Reals Lra SpecFloat.
From Flocq Require Import Core BinarySingleNaN.
From Verif Require Import Model.Base Model.Float Model.NetM Model.PolicyNetM.
From Verif Require Import Spec.NetSpec Spec.SoftmaxSpec Proofs.FloatFacts Proofs.FloatConv Proofs.KokkosDoubles Proofs.NetFacts Proofs.NetGradient Proofs.NetStep Proofs.PolicyNetStale.
Import ListNotations.
Local Open Scope R_scope.

Notation xv := (@xval 53 1024).

Definition low_ok (x : f64) : Prop := is_finite x = true \/ x = B754_infinity true.
Lemma low_ok_nan x : low_ok x -> is_nan x = false.
Proof. intros [F| ->]; [|reflexivity]. destruct x; try reflexivity; discriminate F. Qed.

Lemma max_cases M (a b : f64) : low_ok a -> low_ok b -> let c := NetM.max (f64_arith M) a b in (c = a \/ c = b) /\ low_ok c /\ xv a <= xv c /\ xv b <= xv c.
Proof.
  intros A B. cbv zeta. unfold NetM.max. cbn [n_lt f64_arith]. unfold lt64. rewrite (Bltb_xval 53 1024 a b (low_ok_nan _ A) (low_ok_nan _ B)).
  destruct (Rlt_bool_spec (xv a) (xv b)); (split; [auto|]); (split; [assumption|]); lra.
Qed.

Lemma top_fold M (z : nat -> f64) l a : low_ok a -> (forall j, In j l -> low_ok (z j)) ->
  let c := fold_left (fun a j => NetM.max (f64_arith M) a (z j)) l a in
  low_ok c /\ xv a <= xv c /\ (forall j, In j l -> xv (z j) <= xv c) /\ (c = a \/ exists j, In j l /\ c = z j).
Proof.
  revert a. induction l as [|j l IH]; intros a A Z; cbn [fold_left]; cbv zeta.
  { split; [exact A|]. split; [lra|]. split; [intros j []|]. auto. }
  destruct (max_cases M a (z j) A (Z j (or_introl eq_refl))) as (C & L & XA & XB).
  destruct (IH _ L (fun k K => Z k (or_intror K))) as (L' & X1 & X2 & X3). cbv zeta in *. split; [exact L'|]. split; [lra|]. split.
  - intros k [<-|K]; [lra|auto].
  - destruct X3 as [X3|(k & K & X3)]; [|right; exists k; split; [right; exact K|exact X3]]. destruct C as [C|C]; rewrite C in X3 at 2.
    + left. exact X3.
    + right. exists j. split; [left; reflexivity|exact X3].
Qed.

Lemma top_ok M m (z : nat -> f64) : (0 < m)%nat -> (forall j, (j < m)%nat -> low_ok (z j)) ->
  low_ok (top (f64_arith M) m z) /\ (forall j, (j < m)%nat -> xv (z j) <= xv (top (f64_arith M) m z)) /\ exists j, (j < m)%nat /\ top (f64_arith M) m z = z j.
Proof.
  intros Hm Z. destruct (top_fold M z (seq 0 m) (z O) (Z O Hm)) as (A & _ & B & C). { intros j J. apply in_seq in J. apply Z. lia. }
  fold (top (f64_arith M) m z) in *. split; [exact A|]. split; [intros j J; apply B, in_seq; lia|].
  destruct C as [C|(j & J & C)]; [exists O; auto|]. apply in_seq in J. exists j. split; [lia|exact C].
Qed.

(** ** Differences *)
Lemma not_nan_infinity_low (t : f64) : is_finite t = true -> sub64 (B754_infinity true) t = B754_infinity true.
Proof. destruct t as [s|s| |s]; try discriminate; reflexivity. Qed.

Lemma sub_low (x t : f64) : low_ok x -> is_finite t = true -> xv x <= xv t ->
  low_ok (sub64 x t) /\ xv (sub64 x t) <= 0 /\ (is_finite (sub64 x t) = true -> is_finite x = true /\ B2R (sub64 x t) = rnd64 (B2R x - B2R t)).
Proof.
  intros [F| ->] T L.
  2:{ rewrite not_nan_infinity_low by exact T. split; [right; reflexivity|]. split; [|discriminate]. cbn [xval]. pose proof (bpow_gt_0 radix2 1024). lra. }
  rewrite !xval_finite in L by assumption.
  assert (RN : rnd64 (B2R x - B2R t) <= 0).
  { replace 0 with (rnd64 0) by apply round_0, vNE. apply round_le; [apply v64|apply vNE|lra]. }
  pose proof (Bminus_correct 53 1024 _ _ mode_NE x t F T) as C.
  destruct (Rlt_bool_spec (Rabs (rnd64 (B2R x - B2R t))) (bpow radix2 1024)) as [O|O].
  - destruct C as (V & FF & _). change (Bminus mode_NE x t) with (sub64 x t) in *. split; [left; exact FF|]. split; [rewrite xval_finite by exact FF; rewrite V; exact RN|auto].
  - destruct C as (V & S). change (Bminus mode_NE x t) with (sub64 x t) in *.
    assert (SX : Bsign x = true).
    { destruct (Bsign x) eqn:E; [reflexivity|exfalso]. symmetry in S. apply negb_false_iff in S.
      assert (0 <= B2R x) by (destruct x as [s|s| |s mx ex]; try discriminate F; cbn in *; [lra|subst; apply F2R_ge_0; cbn; lia]).
      assert (B2R t <= 0) by (destruct t as [s|s| |s mx ex]; try discriminate T; cbn in *; [lra|subst; apply F2R_le_0; cbn; lia]).
      replace (B2R x - B2R t) with 0 in O by lra. rewrite round_0 in O by apply vNE. rewrite Rabs_R0 in O. pose proof (bpow_gt_0 radix2 1024). lra. }
    rewrite SX in V. destruct (sub64 x t) as [s|s| |s mx ex]; cbn in V; try discriminate V. injection V as ->.
    split; [right; reflexivity|]. split; [|discriminate]. cbn [xval]. pose proof (bpow_gt_0 radix2 1024). lra.
Qed.

Lemma zero_value (x : f64) : is_finite x = true -> B2R x = 0 -> exists s, x = B754_zero s.
Proof.
  destruct x as [s|s| |s mx ex B]; try discriminate; intros _ V; [exists s; reflexivity|]. exfalso. cbn in V.
  apply eq_0_F2R in V. destruct s; discriminate V.
Qed.

Lemma sub_same (t : f64) : is_finite t = true -> exists s, sub64 t t = B754_zero s.
Proof.
  intros T. pose proof (Bminus_correct 53 1024 _ _ mode_NE t t T T) as C.
  replace (B2R t - B2R t) with 0 in C by ring. rewrite round_0 in C by apply vNE. rewrite Rabs_R0, Rlt_bool_true in C by apply bpow_gt_0.
  destruct C as (V0 & F0 & _). apply zero_value; assumption.
Qed.

Lemma sub_order (x y t : f64) : low_ok x -> low_ok y -> is_finite t = true -> xv x <= xv y -> xv y <= xv t -> xv (sub64 x t) <= xv (sub64 y t).
Proof.
  intros X Y T XY YT. destruct (sub_low x t X T ltac:(lra)) as (A1 & A2 & A3). destruct (sub_low y t Y T YT) as (B1 & B2 & B3).
  pose proof (bpow_gt_0 radix2 1024) as P.
  destruct A1 as [A1|A1].
  2:{ rewrite A1. cbn [xval]. destruct B1 as [B1|B1]; [rewrite (xval_finite 53 1024 _ B1); pose proof (finite_bound 53 1024 _ B1); lra|rewrite B1; cbn [xval]; lra]. }
  destruct (A3 A1) as (FX & VX). rewrite (xval_finite 53 1024 _ A1) in *. rewrite VX in *.
  assert (FY : is_finite y = true).
  { destruct Y as [Y| ->]; [exact Y|exfalso]. cbn [xval] in XY. rewrite (xval_finite 53 1024 _ FX) in XY. pose proof (finite_bound 53 1024 _ FX). lra. }
  rewrite (xval_finite 53 1024 _ FX), (xval_finite 53 1024 _ FY) in XY. rewrite (xval_finite 53 1024 _ FY), (xval_finite 53 1024 _ T) in YT.
  assert (R1 : rnd64 (B2R x - B2R t) <= rnd64 (B2R y - B2R t)) by (apply round_le; [apply v64|apply vNE|lra]).
  assert (R2 : rnd64 (B2R y - B2R t) <= 0). { replace 0 with (rnd64 0) by apply round_0, vNE. apply round_le; [apply v64|apply vNE|lra]. }
  pose proof (finite_bound 53 1024 _ A1) as FB. rewrite VX in FB.
  destruct (sub64_spec y t FY T) as (FF & VV). { rewrite Rabs_left1 by exact R2. lra. }
  rewrite (xval_finite 53 1024 _ FF), VV. exact R1.
Qed.

(** ** Sums *)
Definition unit_ok (e : f64) : Prop := is_finite e = true /\ 0 <= B2R e <= 1.

Fixpoint rsum (l : list R) : R := match l with [] => 0 | x :: r => x + rsum r end.
Lemma rsum_fold l : fold_right Rplus 0 l = rsum l.
Proof. induction l as [|x l IH]; [reflexivity|]. cbn. rewrite IH. reflexivity. Qed.

Notation half_ulp x := (/ 2 * ulp radix2 (fexp 53 1024) x).

Lemma fmt_nat k : (Z.of_nat k <= 2 ^ 52)%Z -> fmt64 (INR k).
Proof. intros K. rewrite INR_IZR_INZ. apply fmt64_int. lia. Qed.

Lemma sum_ok l : forall acc K, is_finite acc = true -> 0 <= B2R acc <= INR K -> (Z.of_nat (K + length l) <= 2 ^ 52)%Z -> Forall unit_ok l ->
  let s := fold_left add64 l acc in
  is_finite s = true /\ B2R acc <= B2R s <= INR (K + length l) /\ (forall e, In e l -> B2R e <= B2R s) /\
  Rabs (B2R s - (B2R acc + rsum (map B2R l))) <= INR (length l) * half_ulp (B2R s).
Proof.
  induction l as [|e l IH]; intros acc K FA BA HK FL; cbn [fold_left length map rsum]; cbv zeta.
  { rewrite Nat.add_0_r. split; [exact FA|]. split; [lra|]. split; [intros e []|]. cbn [INR].
    replace (B2R acc - (B2R acc + 0)) with 0 by ring. rewrite Rabs_R0. lra. }
  inversion FL as [|? ? (FE & BE) FL']; subst. cbn [length] in HK.
  assert (LO : B2R acc <= rnd64 (B2R acc + B2R e)) by (apply round_ge_generic; [apply v64|apply vNE|apply fmt64_B2R|lra]).
  assert (LE : B2R e <= rnd64 (B2R acc + B2R e)) by (apply round_ge_generic; [apply v64|apply vNE|apply fmt64_B2R|lra]).
  assert (HI : rnd64 (B2R acc + B2R e) <= INR (S K)) by (apply round_le_generic; [apply v64|apply vNE|apply fmt_nat; lia|rewrite S_INR; lra]).
  assert (BIG : INR (S K) < bpow radix2 1024).
  { rewrite INR_IZR_INZ. eapply Rle_lt_trans; [|apply (below_1024 (2 ^ 52)); lia]. rewrite Rabs_pos_eq by (apply IZR_le; lia). apply IZR_le. lia. }
  destruct (add64_spec acc e FA FE) as (FS & VS). { rewrite Rabs_pos_eq by lra. lra. }
  destruct (IH (add64 acc e) (S K) FS ltac:(rewrite VS; lra) ltac:(lia) FL') as (F1 & B1 & M1 & E1). cbv zeta in *. rewrite VS in *.
  replace (S K + length l)%nat with (K + S (length l))%nat in B1 by lia.
  split; [exact F1|]. split; [lra|]. split; [intros x [<-|I]; [lra|auto]|].
  set (s := fold_left add64 l (add64 acc e)) in *.
  assert (ER : Rabs (rnd64 (B2R acc + B2R e) - (B2R acc + B2R e)) <= half_ulp (B2R s)).
  { eapply Rle_trans; [apply error_le_half_ulp_round; [apply v64|apply m64]|]. apply Rmult_le_compat_l; [lra|]. apply ulp_le; [apply v64|apply m64|].
    change ZnearestE with (round_mode mode_NE). rewrite !Rabs_pos_eq by lra. lra. }
  rewrite S_INR. replace (B2R s - (B2R acc + (B2R e + rsum (map B2R l)))) with
    ((B2R s - (rnd64 (B2R acc + B2R e) + rsum (map B2R l))) + (rnd64 (B2R acc + B2R e) - (B2R acc + B2R e))) by ring.
  eapply Rle_trans; [apply Rabs_triang|]. lra.
Qed.

Lemma half_ulp_at_least_1 s : 1 <= s -> half_ulp s <= / 2 ^ 53 * s.
Proof.
  intros H. assert (U : ulp radix2 (FLT_exp (-1074) 53) s <= Rabs s * bpow radix2 (1 - 53)).
  { apply ulp_FLT_le. rewrite Rabs_pos_eq by lra. apply Rle_trans with 1; [|exact H]. change 1 with (bpow radix2 0). apply bpow_le. lia. }
  change (FLT_exp (-1074) 53) with (fexp 53 1024) in U. rewrite Rabs_pos_eq in U by lra. change (1 - 53)%Z with (-52)%Z in U.
  replace (bpow radix2 (-52)) with (2 * / 2 ^ 53) in U. 2:{ change (bpow radix2 (-52)) with (/ 4503599627370496). replace (2 ^ 53) with 9007199254740992 by (simpl; lra). lra. }
  lra.
Qed.

Lemma half_ulp_at_most_1 x : 0 <= x <= 1 -> half_ulp x <= / 2 ^ 53.
Proof.
  intros H. eapply Rle_trans; [|pose proof (half_ulp_at_least_1 1 (Rle_refl _)) as A; rewrite Rmult_1_r in A; exact A].
  apply Rmult_le_compat_l; [lra|]. apply ulp_le; [apply v64|apply m64|]. rewrite !Rabs_pos_eq by lra. lra.
Qed.

Lemma quotient_ok (e s : f64) : unit_ok e -> is_finite s = true -> 1 <= B2R s ->
  unit_ok (div64 e s) /\ B2R (div64 e s) = rnd64 (B2R e / B2R s) /\ Rabs (B2R (div64 e s) - B2R e / B2R s) <= / 2 ^ 53.
Proof.
  intros (FE & BE) FS BS.
  assert (Q : 0 <= B2R e / B2R s <= 1).
  { split; [apply Rmult_le_pos; [lra|apply Rlt_le, Rinv_0_lt_compat; lra]|]. apply Rmult_le_reg_r with (B2R s); [lra|]. unfold Rdiv. rewrite Rmult_assoc, Rinv_l by lra. lra. }
  assert (RQ : 0 <= rnd64 (B2R e / B2R s) <= 1).
  { split; [apply round_ge_generic; [apply v64|apply vNE|apply generic_format_0|lra]|apply round_le_generic; [apply v64|apply vNE|apply (fmt64_int 1); reflexivity|lra]]. }
  assert (B1 : 1 < bpow radix2 1024) by (change 1 with (bpow radix2 0); apply bpow_lt; lia).
  destruct (div64_spec e s FE) as (FD & VD); [lra|rewrite Rabs_pos_eq; lra|].
  split; [split; [exact FD|rewrite VD; exact RQ]|]. split; [exact VD|]. rewrite VD.
  eapply Rle_trans; [apply error_le_half_ulp; apply v64|]. apply half_ulp_at_most_1. exact Q.
Qed.

Lemma quotients_sum s l : is_finite s = true -> 1 <= B2R s -> Forall unit_ok l ->
  Forall unit_ok (map (fun e => div64 e s) l) /\ Rabs (rsum (map B2R (map (fun e => div64 e s) l)) - rsum (map B2R l) / B2R s) <= INR (length l) * / 2 ^ 53.
Proof.
  intros FS BS FL. induction FL as [|e l E FL (IH1 & IH2)]; [split; [constructor|]; cbn; unfold Rdiv; rewrite Rmult_0_l, Rminus_0_r, Rabs_R0; lra|].
  destruct (quotient_ok e s E FS BS) as (Q1 & _ & Q2). split; [constructor; assumption|]. cbn [map rsum length]. rewrite S_INR.
  replace (B2R (div64 e s) + rsum (map B2R (map (fun e0 => div64 e0 s) l)) - (B2R e + rsum (map B2R l)) / B2R s) with
    ((B2R (div64 e s) - B2R e / B2R s) + (rsum (map B2R (map (fun e0 => div64 e0 s) l)) - rsum (map B2R l) / B2R s)) by (unfold Rdiv; ring).
  eapply Rle_trans; [apply Rabs_triang|]. lra.
Qed.

Lemma quotients_distribution l : (Z.of_nat (length l) <= 2 ^ 52)%Z -> Forall unit_ok l -> In one64 l ->
  let s := fold_left add64 l zero64 in is_finite s = true /\ 1 <= B2R s /\ nearly_distribution (map (fun e => div64 e s) l).
Proof.
  intros HL FL IN. destruct (sum_ok l zero64 0 eq_refl ltac:(cbn; lra) HL FL) as (FS & BS & MS & ES). cbv zeta. set (s := fold_left add64 l zero64) in *.
  assert (S1 : 1 <= B2R s) by (rewrite <- (proj1 one_value); apply MS, IN).
  split; [exact FS|]. split; [exact S1|]. destruct (quotients_sum s l FS S1 FL) as (Q1 & Q2). split; [exact Q1|]. rewrite rsum_fold, map_length.
  pose proof (half_ulp_at_least_1 _ S1) as HU. pose proof (pos_INR (length l)) as PL. cbn [B2R zero64] in ES. rewrite Rplus_0_l in ES.
  assert (E2 : Rabs (rsum (map B2R l) / B2R s - 1) <= INR (length l) * / 2 ^ 53).
  { replace (rsum (map B2R l) / B2R s - 1) with (- (B2R s - rsum (map B2R l)) * / B2R s) by (field; lra). rewrite Rabs_mult, Rabs_Ropp, (Rabs_pos_eq (/ B2R s)) by (apply Rlt_le, Rinv_0_lt_compat; lra).
    apply Rmult_le_reg_r with (B2R s); [lra|]. rewrite Rmult_assoc, Rinv_l, Rmult_1_r by lra. eapply Rle_trans; [exact ES|].
    rewrite Rmult_assoc. apply Rmult_le_compat_l; [exact PL|exact HU]. }
  replace (rsum (map B2R (map (fun e => div64 e s) l)) - 1) with
    ((rsum (map B2R (map (fun e => div64 e s) l)) - rsum (map B2R l) / B2R s) + (rsum (map B2R l) / B2R s - 1)) by ring.
  eapply Rle_trans; [apply Rabs_triang|]. replace (/ 2 ^ 52) with (/ 2 ^ 53 + / 2 ^ 53) by (simpl; field). lra.
Qed.

(** ** A row *)
Lemma le_below (x : f64) : low_ok x -> xv x <= 0 -> le64 x zero64 = true.
Proof. intros L X. unfold le64. rewrite (Bleb_xval 53 1024 x zero64 (low_ok_nan _ L) eq_refl). apply Rle_bool_true. exact X. Qed.
Lemma le_low (x y : f64) : low_ok x -> low_ok y -> le64 x y = Rle_bool (xv x) (xv y).
Proof. intros X Y. unfold le64. apply Bleb_xval; apply low_ok_nan; assumption. Qed.

Definition weight_of M m (z : nat -> f64) j : f64 := m_exp M (sub64 (z j) (top (f64_arith M) m z)).

Lemma soft_row M m z : tab1 m (soft (f64_arith M) m z) = map (fun e => div64 e (fold_left add64 (tab1 m (weight_of M m z)) zero64)) (tab1 m (weight_of M m z)).
Proof.
  unfold tab1 at 1 3. rewrite map_map. apply map_ext. intros j. unfold soft. cbn [n_div f64_arith]. f_equal. symmetry. apply (fold_left_tab1 (f64_arith M) m (weight_of M m z)).
Qed.

Lemma top_finite M m (z : nat -> f64) : (forall j, (j < m)%nat -> low_ok (z j)) -> (exists j, (j < m)%nat /\ is_finite (z j) = true) ->
  is_finite (top (f64_arith M) m z) = true /\ (forall j, (j < m)%nat -> xv (z j) <= xv (top (f64_arith M) m z)) /\ exists j, (j < m)%nat /\ top (f64_arith M) m z = z j.
Proof.
  intros Z (j & J & F). destruct (top_ok M m z ltac:(lia) Z) as (L & U & W). split; [|auto]. destruct L as [L|L]; [exact L|exfalso]. specialize (U j J). rewrite L in U.
  cbn [xval] in U. rewrite (xval_finite 53 1024 _ F) in U. pose proof (finite_bound 53 1024 _ F). lra.
Qed.

Lemma weights_ok M m z : decent_exp M -> (forall j, (j < m)%nat -> low_ok (z j)) -> (exists j, (j < m)%nat /\ is_finite (z j) = true) ->
  Forall unit_ok (tab1 m (weight_of M m z)) /\ In one64 (tab1 m (weight_of M m z)).
Proof.
  intros E Z F. destruct (top_finite M m z Z F) as (T & U & j & J & W). split.
  - apply Forall_forall. intros x I. unfold tab1 in I. apply in_map_iff in I as (k & <- & I). apply in_seq in I.
    destruct (sub_low (z k) _ (Z k ltac:(lia)) T (U k ltac:(lia))) as (A & B & _). apply (de_below M E). now apply le_below.
  - unfold tab1. apply in_map_iff. exists j. split; [|apply in_seq; lia]. unfold weight_of. rewrite <- W. destruct (sub_same _ T) as (s & ->). apply (de_zero M E).
Qed.

Lemma weights_order M m z j k : decent_exp M -> (forall j, (j < m)%nat -> low_ok (z j)) -> (exists j, (j < m)%nat /\ is_finite (z j) = true) ->
  (j < m)%nat -> (k < m)%nat -> le64 (z j) (z k) = true -> B2R (weight_of M m z j) <= B2R (weight_of M m z k).
Proof.
  intros E Z F J K L. destruct (top_finite M m z Z F) as (T & U & _). rewrite le_low in L by auto. revert L. case Rle_bool_spec; [intros L _|discriminate].
  destruct (sub_low (z j) _ (Z j J) T (U j J)) as (A1 & A2 & _). destruct (sub_low (z k) _ (Z k K) T (U k K)) as (B1 & B2 & _).
  apply (de_grows M E); [|now apply le_below]. rewrite le_low by assumption. apply Rle_bool_true. apply sub_order; auto.
Qed.

Lemma tab1_low m (z : nat -> f64) : usable (tab1 m z) -> (forall j, (j < m)%nat -> low_ok (z j)) /\ (exists j, (j < m)%nat /\ is_finite (z j) = true).
Proof.
  intros (A & B). unfold tab1 in *. rewrite Forall_map, Forall_forall in A. apply Exists_exists in B as (x & I & F). apply in_map_iff in I as (j & <- & I).
  split; [intros k K; apply A, in_seq; lia|]. apply in_seq in I. exists j. split; [lia|exact F].
Qed.

Lemma soft_distribution M m z : decent_exp M -> (Z.of_nat m <= 2 ^ 52)%Z -> usable (tab1 m z) -> nearly_distribution (tab1 m (soft (f64_arith M) m z)).
Proof.
  intros E HM U. apply tab1_low in U as (Z & F). destruct (weights_ok M m z E Z F) as (W & O). rewrite soft_row.
  apply quotients_distribution; [rewrite tab1_length; exact HM|exact W|exact O].
Qed.

Lemma tab1_nth_error {X} m (f : nat -> X) j x : nth_error (tab1 m f) j = Some x -> (j < m)%nat /\ x = f j.
Proof.
  intros H. assert (J : (j < m)%nat) by (rewrite <- (tab1_length m f); apply nth_error_Some; congruence). split; [exact J|].
  rewrite (arr1_tab1 m f j J) in H. congruence.
Qed.

Lemma soft_order M m z : decent_exp M -> (Z.of_nat m <= 2 ^ 52)%Z -> usable (tab1 m z) -> same_order (tab1 m z) (tab1 m (soft (f64_arith M) m z)).
Proof.
  intros E HM U j k x y p q X Y P Q L. apply tab1_low in U as (Z & F).
  apply tab1_nth_error in X as (J & ->), Y as (K & ->), P as (_ & ->), Q as (_ & ->).
  pose proof (weights_order M m z j k E Z F J K L) as O. destruct (weights_ok M m z E Z F) as (W & ONE).
  destruct (quotients_distribution (tab1 m (weight_of M m z)) ltac:(rewrite tab1_length; exact HM) W ONE) as (FS & BS & _).
  set (s := fold_left add64 (tab1 m (weight_of M m z)) zero64) in *.
  assert (V : forall i, (i < m)%nat -> B2R (soft (f64_arith M) m z i) = rnd64 (B2R (weight_of M m z i) / B2R s)).
  { intros i I. unfold soft. cbn [n_div f64_arith]. change (n_exp (f64_arith M) (n_sub (f64_arith M) (z i) (top (f64_arith M) m z))) with (weight_of M m z i).
    replace (total _ m _) with s by apply (fold_left_tab1 (f64_arith M) m (weight_of M m z)). apply quotient_ok; [|exact FS|exact BS].
    rewrite Forall_forall in W. apply W. unfold tab1. apply in_map_iff. exists i. split; [reflexivity|apply in_seq; lia]. }
  rewrite !V by assumption. apply round_le; [apply v64|apply vNE|]. apply Rmult_le_compat_r; [apply Rlt_le, Rinv_0_lt_compat; lra|exact O].
Qed.

(** ** Rows that say nothing *)
Lemma add_nan_l (x : f64) : add64 B754_nan x = B754_nan.
Proof. destruct x; reflexivity. Qed.
Lemma add_nan_r (x : f64) : add64 x B754_nan = B754_nan.
Proof. destruct x; reflexivity. Qed.
Lemma div_nan_r (x : f64) : div64 x B754_nan = B754_nan.
Proof. destruct x; reflexivity. Qed.
Lemma fold_nan l : fold_left add64 l B754_nan = B754_nan.
Proof. induction l as [|x l IH]; [reflexivity|]. cbn [fold_left]. rewrite add_nan_l. exact IH. Qed.
Lemma fold_in_nan l : forall acc, In B754_nan l -> fold_left add64 l acc = B754_nan.
Proof.
  induction l as [|x l IH]; intros acc I; [destruct I|]. cbn [fold_left]. destruct I as [-> |I]; [rewrite add_nan_r; apply fold_nan|apply IH, I].
Qed.

Definition bad_value (x : f64) : Prop := x = B754_nan \/ x = B754_infinity false.
Lemma low_or_bad x : low_ok x \/ bad_value x.
Proof. unfold low_ok, bad_value. destruct x as [s|[|]| |s mx ex B]; cbn; auto. Qed.

Lemma low_ok_dec (x : f64) : {low_ok x} + {~ low_ok x}.
Proof.
  unfold low_ok. destruct x as [s|[|]| |s mx ex B]; try (left; left; reflexivity); try (left; right; reflexivity); right; intros [H|H]; discriminate H.
Defined.

Lemma some_bad m (z : nat -> f64) : ~ usable (tab1 m z) -> (exists j, (j < m)%nat /\ bad_value (z j)) \/ (forall j, (j < m)%nat -> z j = B754_infinity true).
Proof.
  intros U.
  destruct (Forall_Exists_dec (fun j => low_ok (z j)) (fun j => low_ok_dec (z j)) (seq 0 m)) as [A|A].
  - right. intros j J. rewrite Forall_forall in A. destruct (A j ltac:(apply in_seq; lia)) as [F|I]; [|exact I]. exfalso. apply U. split.
    + unfold tab1. rewrite Forall_map. apply Forall_forall. exact A.
    + apply Exists_exists. exists (z j). split; [|exact F]. unfold tab1. apply in_map_iff. exists j. split; [reflexivity|apply in_seq; lia].
  - left. apply Exists_exists in A as (j & I & A). apply in_seq in I. exists j. split; [lia|]. destruct (low_or_bad (z j)); [contradiction|assumption].
Qed.

Lemma top_infinite M m (z : nat -> f64) : (forall j, (j < m)%nat -> is_nan (z j) = false) -> (exists j, (j < m)%nat /\ z j = B754_infinity false) ->
  top (f64_arith M) m z = B754_infinity false.
Proof.
  intros NN (j & J & I).
  assert (H : forall l a, is_nan a = false -> (forall k, In k l -> is_nan (z k) = false) -> a = B754_infinity false \/ In j l ->
    fold_left (fun a j => NetM.max (f64_arith M) a (z j)) l a = B754_infinity false).
  { induction l as [|k l IH]; intros a A L X; cbn [fold_left]; [destruct X as [X|[]]; exact X|].
    assert (MX : is_nan (NetM.max (f64_arith M) a (z k)) = false) by (unfold NetM.max; destruct (n_lt _ _ _); [apply L; left; reflexivity|exact A]).
    apply IH; [exact MX|intros q Q; apply L; right; exact Q|]. destruct X as [-> |[-> |X]]; [left|left|right; exact X].
    - unfold NetM.max. cbn [n_lt f64_arith]. unfold lt64. rewrite (Bltb_xval 53 1024 (B754_infinity false) (z k) eq_refl (L k (or_introl eq_refl))). rewrite Rlt_bool_false; [reflexivity|]. cbn [xval].
      destruct (z k) as [s|[|]| |s mx ex B] eqn:Q; cbn [xval]; pose proof (bpow_gt_0 radix2 1024); try lra; [cbn; lra|specialize (L k (or_introl eq_refl)); rewrite Q in L; discriminate L|].
      pose proof (finite_bound 53 1024 (B754_finite s mx ex B) eq_refl). lra.
    - rewrite I. unfold NetM.max. cbn [n_lt f64_arith]. unfold lt64. rewrite (Bltb_xval 53 1024 a (B754_infinity false) A eq_refl). case Rlt_bool_spec; [reflexivity|]. cbn [xval]. intros G.
      destruct a as [s|[|]| |s mx ex B]; cbn [xval] in G; pose proof (bpow_gt_0 radix2 1024); try lra; try reflexivity; [cbn in G; lra|discriminate A|].
      pose proof (finite_bound 53 1024 (B754_finite s mx ex B) eq_refl). lra. }
  unfold top. apply H; [apply NN; lia|intros k K; apply in_seq in K; apply NN; lia|right; apply in_seq; lia].
Qed.

Lemma soft_nan M m z : decent_exp M -> (0 < m)%nat -> ~ usable (tab1 m z) -> Forall (fun p => p = B754_nan) (tab1 m (soft (f64_arith M) m z)).
Proof.
  intros E Hm U.
  assert (W : exists j, (j < m)%nat /\ sub64 (z j) (top (f64_arith M) m z) = B754_nan).
  { destruct (Forall_Exists_dec (fun j => is_nan (z j) = false) (fun j => bool_dec _ _) (seq 0 m)) as [N|N].
    - rewrite Forall_forall in N. assert (NN : forall j, (j < m)%nat -> is_nan (z j) = false) by (intros j J; apply N, in_seq; lia).
      destruct (some_bad m z U) as [(j & J & [B|B])|B].
      + specialize (NN j J). rewrite B in NN. discriminate NN.
      + exists j. split; [exact J|]. rewrite (top_infinite M m z NN) by (exists j; auto). rewrite B. reflexivity.
      + exists O. split; [exact Hm|]. destruct (top_ok M m z Hm) as (_ & _ & k & K & T). { intros j J. right. apply B, J. }
        rewrite T, (B k K), (B O Hm). reflexivity.
    - apply Exists_exists in N as (j & I & N). apply in_seq in I. exists j. split; [lia|]. destruct (z j); try (exfalso; apply N; reflexivity).
      destruct (top (f64_arith M) m z); reflexivity. }
  destruct W as (j & J & W). rewrite soft_row. rewrite Forall_map. apply Forall_forall. intros e _. rewrite fold_in_nan; [apply div_nan_r|].
  unfold tab1. apply in_map_iff. exists j. split; [|apply in_seq; lia]. unfold weight_of. rewrite W. apply (de_nan M E).
Qed.

(** ** The network *)
Lemma firstn_at {X} (l : list X) : forall m j, (j < m)%nat -> nth_error (firstn m l) j = nth_error l j.
Proof. induction l as [|x l IH]; intros [|m] [|j] H; try lia; try reflexivity. cbn. apply IH. lia. Qed.
Lemma skipn_at {X} (l : list X) : forall m j, nth_error (skipn m l) j = nth_error l (m + j).
Proof. induction l as [|x l IH]; intros [|m] j; try reflexivity; [destruct j; reflexivity|]. cbn [skipn Nat.add nth_error]. apply IH. Qed.
Lemma row_tab2 {X} (d : X) batch m (f : nat -> nat -> X) i : (i < batch)%nat -> row m i (tab2 batch m f) = tab1 m (f i).
Proof.
  intros I. unfold row. apply (nth_ext _ _ d d).
  - rewrite firstn_length, skipn_length, tab2_length, tab1_length. nia.
  - intros j J. rewrite firstn_length, skipn_length, tab2_length in J.
    assert (JM : (j < m)%nat) by lia. apply nth_error_nth.
    rewrite (nth_error_nth (tab1 m (f i)) j d (arr1_tab1 m (f i) j JM)).
    rewrite firstn_at by exact JM. rewrite skipn_at. apply (arr2_tab2 batch m f i j I JM).
Qed.

Lemma network_rows M N n h m batch state p : shaped N n h m -> (0 < m)%nat -> length state = (batch * n)%nat -> forward_pass (f64_arith M) N state batch = Ok p ->
  exists z, forall i, (i < batch)%nat -> row m i (out3 p) = tab1 m (z i) /\ row m i (aout3 p) = tab1 m (soft (f64_arith M) m (z i)).
Proof.
  intros S Hm Ls E.
  pose proof (shaped_layer_ok zero64 _ _ _ (sh_1 _ _ _ _ S)) as S1. pose proof (shaped_layer_ok zero64 _ _ _ (sh_2 _ _ _ _ S)) as S2.
  pose proof (shaped_layer_ok zero64 _ _ _ (sh_3 _ _ _ _ S)) as S3.
  rewrite (forward_pass_ok (f64_arith M) N n h m _ _ _ _ _ _ S1 S2 S3 Hm batch state _ (arr2_list zero64 _ _ _ Ls)) in E. injection E as <-. cbn [out3 aout3].
  eexists. intros i I. split; [apply (row_tab2 zero64); exact I|]. rewrite (row_tab2 zero64) by exact I. reflexivity.
Qed.

Lemma network_distribution M N n h m batch state p i : decent_exp M -> shaped N n h m -> (0 < m)%nat -> (Z.of_nat m <= 2 ^ 52)%Z -> length state = (batch * n)%nat ->
  forward_pass (f64_arith M) N state batch = Ok p -> (i < batch)%nat -> usable (row m i (out3 p)) ->
  length (row m i (aout3 p)) = m /\ nearly_distribution (row m i (aout3 p)) /\ same_order (row m i (out3 p)) (row m i (aout3 p)).
Proof.
  intros E S Hm HM Ls H I U. destruct (network_rows M N n h m batch state p S Hm Ls H) as (z & Z). destruct (Z i I) as (Z1 & Z2). rewrite Z1 in *. rewrite Z2.
  split; [apply tab1_length|]. split; [now apply soft_distribution|now apply soft_order].
Qed.

Lemma network_nothing M N n h m batch state p i : decent_exp M -> shaped N n h m -> (0 < m)%nat -> length state = (batch * n)%nat ->
  forward_pass (f64_arith M) N state batch = Ok p -> (i < batch)%nat -> ~ usable (row m i (out3 p)) ->
  length (row m i (aout3 p)) = m /\ Forall (fun q => q = B754_nan) (row m i (aout3 p)).
Proof.
  intros E S Hm Ls H I U. destruct (network_rows M N n h m batch state p S Hm Ls H) as (z & Z). destruct (Z i I) as (Z1 & Z2). rewrite Z1 in *. rewrite Z2.
  split; [apply tab1_length|]. now apply soft_nan.
Qed.
