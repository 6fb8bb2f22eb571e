(** The candidates of double ranges of the Kokkos connector. *)
From Coq Require Import ZArith Bool Reals Lra Lia SpecFloat List.
From Flocq Require Import Core BinarySingleNaN.
From Verif Require Import Model.Base Model.Float Model.KokkosM Spec.KokkosSpec Proofs.TreeFacts Proofs.FloatFacts Proofs.FloatConv.
Import ListNotations.
Open Scope R_scope.

(** ** Rounding *)

Lemma fmt64_int z : (Z.abs z < 2 ^ 53)%Z -> fmt64 (IZR z).
Proof.
  intros H. apply (generic_format_FLT radix2 (-1074) 53). exists (Float radix2 z 0); cbn; [unfold F2R; cbn; ring|exact H|lia].
Qed.

Lemma fmt64_grid x : fmt64 x -> / 2 <= Rabs x -> exists m, x = IZR m * bpow radix2 (-53).
Proof.
  intros F L. assert (G : generic_format radix2 (FIX_exp (-53)) x).
  { apply (generic_inclusion_ge radix2 (fexp 53 1024) (FIX_exp (-53)) (-1)); [|cbn; lra|exact F].
    intros e He. unfold FIX_exp, fexp, FLT_exp. lia. }
  apply FIX_format_generic in G. destruct G as [f E X]. exists (Fnum f). rewrite E. unfold F2R. rewrite X. reflexivity.
Qed.

Lemma grid_close x y : fmt64 x -> fmt64 y -> / 2 <= Rabs x -> / 2 <= Rabs y -> Rabs (x - y) < bpow radix2 (-53) -> x = y.
Proof.
  intros Fx Fy Lx Ly C. destruct (fmt64_grid x Fx Lx) as (m & ->). destruct (fmt64_grid y Fy Ly) as (n & ->).
  rewrite <- Rmult_minus_distr_r, Rabs_mult in C. rewrite (Rabs_pos_eq (bpow radix2 (-53))) in C by apply bpow_ge_0.
  assert (P := bpow_gt_0 radix2 (-53)). rewrite <- minus_IZR, <- abs_IZR in C.
  assert (Q : (Z.abs (m - n) < 1)%Z). { apply lt_IZR. apply (Rmult_lt_reg_r (bpow radix2 (-53))); [exact P|]. lra. }
  assert (m = n) as -> by lia. reflexivity.
Qed.

Definition tiny (e : R) : Prop := Rabs e < bpow radix2 (-60).

(** A small number added to an integer is lost. *)
Lemma absorbed z e : (z <> 0)%Z -> (Z.abs z < 2 ^ 53)%Z -> tiny e -> rnd64 (IZR z + e) = IZR z.
Proof.
  intros NZ B T. unfold tiny in T.
  assert (NP : Rabs (rnd64 (IZR z + e) - (IZR z + e)) <= Rabs e).
  { destruct (round_N_pt radix2 (fexp 53 1024) (fun x => negb (Z.even x)) (IZR z + e)) as [_ N].
    specialize (N (IZR z) (fmt64_int z B)). replace (IZR z - (IZR z + e)) with (- e) in N by ring. rewrite Rabs_Ropp in N. exact N. }
  assert (BP : bpow radix2 (-60) = bpow radix2 (-53) * / 128) by (cbn; lra). assert (P := bpow_gt_0 radix2 (-53)).
  assert (P2 : bpow radix2 (-53) < 1). { apply (bpow_lt radix2 (-53) 0). lia. }
  assert (CL : Rabs (rnd64 (IZR z + e) - IZR z) < bpow radix2 (-53) * / 64).
  { replace (rnd64 (IZR z + e) - IZR z) with ((rnd64 (IZR z + e) - (IZR z + e)) + e) by ring.
    eapply Rle_lt_trans; [apply Rabs_triang|]. lra. }
  assert (ZA : 1 <= Rabs (IZR z)). { rewrite <- abs_IZR. apply IZR_le. lia. }
  apply grid_close; [apply generic_format_round; apply v64 || apply vNE|apply fmt64_int; exact B| |lra|lra].
  assert (TR := Rabs_triang_inv (IZR z) (IZR z - rnd64 (IZR z + e))). replace (IZR z - (IZR z - rnd64 (IZR z + e))) with (rnd64 (IZR z + e)) in TR by ring.
  rewrite Rabs_minus_sym in CL. lra.
Qed.

Lemma round_same x : fmt64 x -> rnd64 x = x.
Proof. intros F. apply round_generic; [apply vNE|exact F]. Qed.

Lemma below_1024 z : (Z.abs z <= 2 ^ 60)%Z -> Rabs (IZR z) < bpow radix2 1024.
Proof.
  intros H. rewrite <- abs_IZR. apply Rle_lt_trans with (IZR (2 ^ 60)); [apply IZR_le; exact H|]. change (IZR (2 ^ 60)) with (IZR (radix2 ^ 60)).
  rewrite IZR_Zpower by lia. apply bpow_lt. lia.
Qed.

Lemma f64_of_Z_spec z : (Z.abs z < 2 ^ 53)%Z -> is_finite (f64_of_Z z) = true /\ B2R (f64_of_Z z) = IZR z.
Proof.
  intros H. unfold f64_of_Z. generalize (binary_normalize_correct 53 1024 eq_refl eq_refl mode_NE z 0 false).
  assert (E : F2R (Float radix2 z 0) = IZR z) by (unfold F2R; cbn; ring). cbv zeta. rewrite E. rewrite round_generic; [|typeclasses eauto|apply fmt64_int; exact H].
  rewrite Rlt_bool_true by (apply below_1024; lia). intros (A & B & _). auto.
Qed.

Lemma add64_spec (x y : f64) : is_finite x = true -> is_finite y = true -> Rabs (rnd64 (B2R x + B2R y)) < bpow radix2 1024 ->
  is_finite (add64 x y) = true /\ B2R (add64 x y) = rnd64 (B2R x + B2R y).
Proof.
  intros Fx Fy H. generalize (Bplus_correct 53 1024 _ _ mode_NE x y Fx Fy). rewrite Rlt_bool_true by exact H. intros (A & B & _). auto.
Qed.
Lemma sub64_spec (x y : f64) : is_finite x = true -> is_finite y = true -> Rabs (rnd64 (B2R x - B2R y)) < bpow radix2 1024 ->
  is_finite (sub64 x y) = true /\ B2R (sub64 x y) = rnd64 (B2R x - B2R y).
Proof.
  intros Fx Fy H. generalize (Bminus_correct 53 1024 _ _ mode_NE x y Fx Fy). rewrite Rlt_bool_true by exact H. intros (A & B & _). auto.
Qed.
Lemma mul64_spec (x y : f64) : is_finite x = true -> is_finite y = true -> Rabs (rnd64 (B2R x * B2R y)) < bpow radix2 1024 ->
  is_finite (mul64 x y) = true /\ B2R (mul64 x y) = rnd64 (B2R x * B2R y).
Proof.
  intros Fx Fy H. generalize (Bmult_correct 53 1024 _ _ mode_NE x y). rewrite Rlt_bool_true by exact H. rewrite Fx, Fy. intros (A & B & _). auto.
Qed.

Lemma epsilon_value : is_finite epsilon = true /\ B2R epsilon = 5444517870735015 * bpow radix2 (-132).
Proof.
  unfold epsilon. generalize (binary_normalize_correct 53 1024 eq_refl eq_refl mode_NE 5444517870735015 (-132) false).
  assert (F : fmt64 (F2R (Float radix2 5444517870735015 (-132)))).
  { apply (generic_format_FLT radix2 (-1074) 53). exists (Float radix2 5444517870735015 (-132)); cbn; [reflexivity|lia|lia]. }
  cbv zeta. rewrite round_generic; [|typeclasses eauto|exact F]. rewrite Rlt_bool_true.
  - intros (A & B & _). split; [exact B|]. etransitivity; [exact A|reflexivity].
  - unfold F2R. cbn [Fnum Fexp]. rewrite Rabs_pos_eq by (apply Rmult_le_pos; [lra|apply bpow_ge_0]).
    apply Rlt_trans with (bpow radix2 53 * bpow radix2 (-132)).
    + apply Rmult_lt_compat_r; [apply bpow_gt_0|]. cbn. lra.
    + rewrite <- bpow_plus. apply bpow_lt. lia.
Qed.
Lemma epsilon_pos : 0 < B2R epsilon < bpow radix2 (-79).
Proof.
  rewrite (proj2 epsilon_value). assert (P := bpow_gt_0 radix2 (-132)). split; [apply Rmult_lt_0_compat; lra|].
  change (-79)%Z with (53 + -132)%Z. rewrite bpow_plus. apply Rmult_lt_compat_r; [exact P|]. cbn. lra.
Qed.

(** ** Continuous ranges *)

Lemma doubles_length lower step oL : forall n i, List.length (double_slices lower step oL i n) = n.
Proof. induction n; intros i; cbn; auto. Qed.
Lemma doubles_nth lower step oL : forall n i k, (k < n)%nat -> nth_error (double_slices lower step oL i n) k =
  Some (VDouble (add64 (if oL then lower else add64 lower epsilon) (mul64 (f64_of_Z (i + Z.of_nat k)) step))).
Proof.
  induction n as [|n IH]; intros i k L; [lia|]. cbn [double_slices]. destruct k as [|k].
  - cbn. rewrite Z.add_0_r. reflexivity.
  - cbn [nth_error]. rewrite IH by lia. replace (i + 1 + Z.of_nat k)%Z with (i + Z.of_nat (S k))%Z by lia. reflexivity.
Qed.

Lemma zero_step step : eq64 step zero64 = true -> exists s, step = B754_zero s.
Proof. unfold eq64, zero64, Beqb. destruct step as [s|s| |s m e b]; cbn; intros H; try discriminate; eauto; destruct s; discriminate. Qed.

Lemma times_zero (x : f64) s : is_finite x = true -> exists s', mul64 x (B754_zero s) = B754_zero s'.
Proof. unfold mul64. destruct x; cbn; intros H; try discriminate; eauto. Qed.
Lemma plus_zero (x : f64) s : is_finite x = true -> B2R (add64 x (B754_zero s)) = B2R x.
Proof. unfold add64. destruct x as [t|t| |t m e b]; cbn; intros H; try discriminate; [destruct t, s; reflexivity|reflexivity]. Qed.

(** A step of zero: a hundred times the same candidate. *)
Lemma continuous lower upper step (oL oU : bool) : eq64 step zero64 = true -> is_finite (if oL then lower else add64 lower epsilon) = true ->
  exists vs, associate_candidates (CDoubleRange lower upper step oL oU) = Ok (100%Z, vs) /\ List.length vs = 100%nat /\
    Forall (fun v => exists x, v = VDouble x /\ B2R x = B2R (if oL then lower else add64 lower epsilon)) vs.
Proof.
  intros Z F. exists (double_slices lower step oL 0 100). split; [|split].
  - cbn [associate_candidates]. unfold count_double_slices. rewrite Z. reflexivity.
  - apply doubles_length.
  - apply Forall_forall. intros v IN. apply In_nth_error in IN. destruct IN as (k & E).
    assert (L : (k < 100)%nat). { assert (X : (k < List.length (double_slices lower step oL 0 100))%nat) by (apply nth_error_Some; congruence). rewrite doubles_length in X. exact X. }
    rewrite doubles_nth in E by exact L. rewrite Z.add_0_l in E. injection E as <-. eexists. split; [reflexivity|].
    destruct (zero_step _ Z) as (s & ->). destruct (f64_of_Z_spec (Z.of_nat k)) as [FZ _]; [lia|]. destruct (times_zero _ s FZ) as (s' & EZ). rewrite EZ. apply plus_zero. exact F.
Qed.

(** ** Ranges between integers *)

Section Range.
Variables lower upper step : f64.
Variables L U s : Z.
Hypothesis FL : is_finite lower = true.
Hypothesis FU : is_finite upper = true.
Hypothesis FS : is_finite step = true.
Hypothesis VL : B2R lower = IZR L.
Hypothesis VU : B2R upper = IZR U.
Hypothesis VS : B2R step = IZR s.
Hypothesis BL : (Z.abs L <= 2 ^ 50)%Z.
Hypothesis BU : (Z.abs U <= 2 ^ 50)%Z.
Hypothesis BS : (0 < s <= 2 ^ 50)%Z.
Hypothesis LU : (L < U)%Z.

Definition low (oL : bool) : R := IZR L + (if oL then 0 else if (L =? 0)%Z then B2R epsilon else 0).
Definition high (oU : bool) : R := IZR U - (if oU then 0 else if (U =? 0)%Z then B2R epsilon else 0).

Lemma tiny_epsilon : tiny (B2R epsilon).
Proof. destruct epsilon_pos as [A B]. unfold tiny. rewrite Rabs_pos_eq by lra. eapply Rlt_trans; [exact B|]. apply bpow_lt. lia. Qed.
Lemma eps_1024 : Rabs (B2R epsilon) < bpow radix2 1024.
Proof. eapply Rlt_trans; [exact tiny_epsilon|]. apply bpow_lt. lia. Qed.

Lemma low_spec (oL : bool) : is_finite (if oL then lower else add64 lower epsilon) = true /\ B2R (if oL then lower else add64 lower epsilon) = low oL.
Proof.
  unfold low. destruct oL; [rewrite Rplus_0_r; auto|]. destruct (Z.eqb_spec L 0) as [E|E].
  - assert (R : rnd64 (B2R lower + B2R epsilon) = B2R epsilon) by (rewrite VL, E, Rplus_0_l; apply round_same, fmt64_B2R).
    destruct (add64_spec lower epsilon FL (proj1 epsilon_value)) as [A B]; [rewrite R; apply eps_1024|]. rewrite R in B. split; [exact A|]. rewrite B, E. ring.
  - assert (R : rnd64 (B2R lower + B2R epsilon) = IZR L) by (rewrite VL; apply absorbed; [exact E|lia|exact tiny_epsilon]).
    destruct (add64_spec lower epsilon FL (proj1 epsilon_value)) as [A B]; [rewrite R; apply below_1024; lia|]. rewrite R in B. split; [exact A|]. rewrite B. ring.
Qed.
Lemma high_spec (oU : bool) : is_finite (if oU then upper else sub64 upper epsilon) = true /\ B2R (if oU then upper else sub64 upper epsilon) = high oU.
Proof.
  unfold high. destruct oU; [rewrite Rminus_0_r; auto|]. destruct (Z.eqb_spec U 0) as [E|E].
  - assert (R : rnd64 (B2R upper - B2R epsilon) = - B2R epsilon).
    { rewrite VU, E. replace (0 - B2R epsilon) with (- B2R epsilon) by ring. apply round_same. apply generic_format_opp, fmt64_B2R. }
    destruct (sub64_spec upper epsilon FU (proj1 epsilon_value)) as [A B]; [rewrite R, Rabs_Ropp; apply eps_1024|]. rewrite R in B. split; [exact A|]. rewrite B, E. ring.
  - assert (R : rnd64 (B2R upper - B2R epsilon) = IZR U).
    { rewrite VU. unfold Rminus. apply absorbed; [exact E|lia|]. unfold tiny. rewrite Rabs_Ropp. exact tiny_epsilon. }
    destruct (sub64_spec upper epsilon FU (proj1 epsilon_value)) as [A B]; [rewrite R; apply below_1024; lia|]. rewrite R in B. split; [exact A|]. rewrite B. ring.
Qed.

Lemma width_spec (oL oU : bool) : let d := sub64 (if oU then upper else sub64 upper epsilon) (if oL then lower else add64 lower epsilon) in
  is_finite d = true /\ B2R d = IZR (U - L).
Proof.
  destruct (low_spec oL) as [A B]. destruct (high_spec oU) as [C D]. cbv zeta.
  assert (R : rnd64 (B2R (if oU then upper else sub64 upper epsilon) - B2R (if oL then lower else add64 lower epsilon)) = IZR (U - L)).
  { rewrite B, D. unfold low, high. set (e1 := if oL then 0 else if (L =? 0)%Z then B2R epsilon else 0). set (e2 := if oU then 0 else if (U =? 0)%Z then B2R epsilon else 0).
    replace (IZR U - e2 - (IZR L + e1)) with (IZR (U - L) + - (e1 + e2)) by (rewrite minus_IZR; ring). apply absorbed; [lia|lia|].
    unfold tiny. rewrite Rabs_Ropp. destruct epsilon_pos as [P Q].
    assert (BB : bpow radix2 (-60) = bpow radix2 (-79) * 524288) by (cbn; lra). assert (PP := bpow_gt_0 radix2 (-79)).
    assert (E1 : 0 <= e1 <= B2R epsilon) by (unfold e1; destruct oL; [lra|destruct (L =? 0)%Z; lra]).
    assert (E2 : 0 <= e2 <= B2R epsilon) by (unfold e2; destruct oU; [lra|destruct (U =? 0)%Z; lra]).
    rewrite Rabs_pos_eq by lra. lra. }
  destruct (sub64_spec _ _ C A) as [X Y]; [rewrite R; apply below_1024; lia|]. rewrite R in Y. auto.
Qed.

Lemma trunc64 (x : f64) : Btrunc x = Ztrunc (B2R x).
Proof. apply eq_IZR. rewrite Btrunc_correct by reflexivity. unfold round, scaled_mantissa, cexp, FIX_exp, F2R; cbn. now rewrite !Rmult_1_r. Qed.

(** The rounded quotient has the same integer part. *)
Lemma quotient d : (0 <= d <= 2 ^ 51)%Z -> Ztrunc (rnd64 (IZR d / IZR s)) = (d / s)%Z.
Proof.
  intros D. set (n := (d / s)%Z). assert (N0 : (0 <= n)%Z) by (apply Z.div_pos; lia). assert (N1 : (n <= d)%Z) by (apply Z.div_le_upper_bound; nia).
  assert (SP : 0 < IZR s) by (apply IZR_lt; lia).
  assert (Q1 : IZR n <= IZR d / IZR s).
  { apply Rmult_le_reg_r with (IZR s); [exact SP|]. unfold Rdiv. rewrite Rmult_assoc, Rinv_l, Rmult_1_r by lra. rewrite <- mult_IZR. apply IZR_le.
    unfold n. rewrite Z.mul_comm. apply Z.mul_div_le. lia. }
  assert (Q2 : IZR d / IZR s <= IZR (n + 1) - / IZR s).
  { apply Rmult_le_reg_r with (IZR s); [exact SP|]. unfold Rdiv. rewrite Rmult_assoc, Rinv_l, Rmult_1_r by lra. rewrite Rmult_minus_distr_r, Rinv_l by lra.
    rewrite <- mult_IZR, <- minus_IZR. apply IZR_le. assert (M := Z.mod_pos_bound d s ltac:(lia)). assert (E := Z.div_mod d s ltac:(lia)). fold n in E. nia. }
  assert (F1 : fmt64 (IZR (n + 1))) by (apply fmt64_int; lia).
  assert (PR : IZR (n + 1) - / IZR s <= pred radix2 (fexp 53 1024) (IZR (n + 1))).
  { assert (X : 1 <= IZR (n + 1)) by (apply IZR_le; lia). rewrite pred_eq_pos by lra.
    assert (UL : ulp radix2 (fexp 53 1024) (IZR (n + 1)) <= / IZR s).
    { rewrite ulp_neq_0 by lra. unfold cexp.
      assert (MG : bpow radix2 (mag radix2 (IZR (n + 1)) - 1) <= IZR (n + 1)).
      { assert (Y := bpow_mag_le radix2 (IZR (n + 1)) ltac:(lra)). rewrite Rabs_pos_eq in Y by lra. exact Y. }
      assert (M1 : (1 <= mag radix2 (IZR (n + 1)))%Z) by (apply mag_ge_bpow; cbn; rewrite Rabs_pos_eq; lra).
      assert (FE : fexp 53 1024 (mag radix2 (IZR (n + 1))) = (mag radix2 (IZR (n + 1)) - 1 + -52)%Z) by (unfold fexp, SpecFloat.emin; lia). rewrite FE, bpow_plus.
      apply Rmult_le_reg_r with (IZR s); [exact SP|]. rewrite Rinv_l by lra.
      assert (K : (s * (n + 1) <= 2 ^ 52)%Z). { assert (Z := Z.mul_div_le d s ltac:(lia)). fold n in Z. lia. }
      apply IZR_le in K. rewrite mult_IZR in K. change (IZR (2 ^ 52)) with (IZR (radix2 ^ 52)) in K. rewrite IZR_Zpower in K by lia.
      apply Rle_trans with (IZR (n + 1) * bpow radix2 (-52) * IZR s).
      - apply Rmult_le_compat_r; [lra|]. apply Rmult_le_compat_r; [apply bpow_ge_0|exact MG].
      - replace 1 with (bpow radix2 52 * bpow radix2 (-52)) by (rewrite <- bpow_plus; reflexivity).
        replace (IZR (n + 1) * bpow radix2 (-52) * IZR s) with (IZR s * IZR (n + 1) * bpow radix2 (-52)) by ring. apply Rmult_le_compat_r; [apply bpow_ge_0|exact K]. }
    unfold pred_pos. destruct (Req_bool_spec (IZR (n + 1)) (bpow radix2 (mag radix2 (IZR (n + 1)) - 1))) as [EB|EB]; [|lra].
    assert (V : bpow radix2 (fexp 53 1024 (mag radix2 (IZR (n + 1)) - 1)) <= ulp radix2 (fexp 53 1024) (IZR (n + 1))).
    { rewrite ulp_neq_0 by lra. apply bpow_le. unfold cexp, fexp, SpecFloat.emin. lia. }
    lra. }
  assert (RB : IZR n <= rnd64 (IZR d / IZR s) <= pred radix2 (fexp 53 1024) (IZR (n + 1))).
  { apply rnd64_between; [apply fmt64_int; lia|apply generic_format_pred; [apply v64|exact F1]|lra]. }
  assert (PL : pred radix2 (fexp 53 1024) (IZR (n + 1)) < IZR (n + 1)).
  { apply pred_lt_id. apply Rgt_not_eq. apply IZR_lt. lia. }
  rewrite Ztrunc_floor by (apply Rle_trans with (IZR n); [apply IZR_le; lia|apply RB]). apply Zfloor_imp. lra.
Qed.

Lemma quotient_bound d : (0 <= d <= 2 ^ 51)%Z -> Rabs (rnd64 (IZR d / IZR s)) < bpow radix2 1024.
Proof.
  intros D. assert (SP : 0 < IZR s) by (apply IZR_lt; lia). assert (S1 : 1 <= IZR s) by (apply IZR_le; lia). assert (D0 : 0 <= IZR d) by (apply IZR_le; lia).
  assert (Q : 0 <= IZR d / IZR s <= IZR d).
  { split; [apply Rmult_le_pos; [exact D0|apply Rlt_le, Rinv_0_lt_compat, SP]|]. apply Rmult_le_reg_r with (IZR s); [exact SP|]. unfold Rdiv. rewrite Rmult_assoc, Rinv_l, Rmult_1_r by lra. nra. }
  destruct (rnd64_between 0 (IZR d) (IZR d / IZR s)) as [A B]; [apply generic_format_0|apply fmt64_int; lia|exact Q|].
  rewrite Rabs_pos_eq by exact A. eapply Rle_lt_trans; [exact B|]. rewrite <- (Rabs_pos_eq (IZR d)) by exact D0. apply below_1024. lia.
Qed.

Lemma double_count (oL oU : bool) : count_double_slices lower upper step oL oU = Ok ((U - L) / s)%Z.
Proof.
  unfold count_double_slices. assert (NZ : eq64 step zero64 = false).
  { unfold eq64, zero64. rewrite Beqb_correct by (exact FS || reflexivity). cbn [B2R]. rewrite VS. apply Req_bool_false. apply Rgt_not_eq. apply IZR_lt. lia. }
  rewrite NZ. destruct (width_spec oL oU) as [A B]. cbv zeta. assert (D : (0 <= U - L <= 2 ^ 51)%Z) by lia.
  assert (SN : B2R step <> 0) by (rewrite VS; apply Rgt_not_eq, IZR_lt; lia).
  destruct (div64_spec _ _ A SN) as [C E]; [rewrite B, VS; apply quotient_bound; exact D|]. rewrite B, VS in E.
  unfold i64_of_f64. rewrite C. rewrite trunc64, E, quotient by exact D.
  assert (N0 : (0 <= (U - L) / s)%Z) by (apply Z.div_pos; lia). assert (N1 : ((U - L) / s <= U - L)%Z) by (apply Z.div_le_upper_bound; nia).
  replace ((- 2 ^ 63 <=? (U - L) / s) && ((U - L) / s <? 2 ^ 63))%Z with true; [reflexivity|]. symmetry. apply andb_true_intro. split; [apply Z.leb_le|apply Z.ltb_lt]; lia.
Qed.

(** The candidates: from the lower bound in steps, without the largest that is still in the range, whatever bounds are declared open. *)
Lemma double_range (oL oU : bool) : ((U - L) / s <= int_max)%Z ->
  exists vs, associate_candidates (CDoubleRange lower upper step oL oU) = Ok (Z.of_nat (List.length vs), vs) /\ Z.of_nat (List.length vs) = ((U - L) / s)%Z /\
    forall k v, nth_error vs k = Some v -> exists x, v = VDouble x /\ is_finite x = true /\
      B2R x = IZR (L + Z.of_nat k * s) + (if negb oL && (L =? 0)%Z && (k =? 0)%nat then B2R epsilon else 0).
Proof.
  intros IM. set (n := ((U - L) / s)%Z) in *. assert (N0 : (0 <= n)%Z) by (apply Z.div_pos; lia).
  exists (double_slices lower step oL 0 (Z.to_nat n)). rewrite doubles_length, Z2Nat.id by exact N0. split; [|split; [reflexivity|]].
  - cbn [associate_candidates]. rewrite double_count. cbn [bind]. fold n. destruct (Z.leb_spec n 0) as [Z|Z].
    + assert (n = 0%Z) as -> by lia. reflexivity.
    + destruct (Z.ltb_spec int_max n); [lia|]. reflexivity.
  - intros k v E.
    assert (K : (k < Z.to_nat n)%nat). { assert (X : (k < List.length (double_slices lower step oL 0 (Z.to_nat n)))%nat) by (apply nth_error_Some; congruence). rewrite doubles_length in X. exact X. }
    rewrite doubles_nth in E by exact K. rewrite Z.add_0_l in E. injection E as <-. eexists. split; [reflexivity|].
    assert (KS : (0 <= Z.of_nat k * s <= U - L)%Z). { assert (X := Z.mul_div_le (U - L) s ltac:(lia)). fold n in X. nia. }
    assert (KB : (Z.of_nat k <= 2 ^ 51)%Z) by nia.
    destruct (f64_of_Z_spec (Z.of_nat k)) as [FK VK]; [lia|].
    assert (R : rnd64 (B2R (f64_of_Z (Z.of_nat k)) * B2R step) = IZR (Z.of_nat k * s)).
    { rewrite VK, VS, <- mult_IZR. apply round_same, fmt64_int. lia. }
    destruct (mul64_spec _ _ FK FS) as [FM VM]; [rewrite R; apply below_1024; lia|]. rewrite R in VM. destruct (low_spec oL) as [FB VB].
    assert (R2 : rnd64 (B2R (if oL then lower else add64 lower epsilon) + B2R (mul64 (f64_of_Z (Z.of_nat k)) step)) =
      IZR (L + Z.of_nat k * s) + (if negb oL && (L =? 0)%Z && (k =? 0)%nat then B2R epsilon else 0)).
    { destruct (Nat.eqb_spec k 0) as [K0|K0].
      - subst k. rewrite VM. rewrite Z.mul_0_l, Rplus_0_r, Z.add_0_r. rewrite round_same by apply fmt64_B2R. rewrite VB. unfold low. destruct oL, (L =? 0)%Z; reflexivity.
      - rewrite andb_false_r, Rplus_0_r. rewrite VB, VM. unfold low. set (e := if oL then 0 else if (L =? 0)%Z then B2R epsilon else 0).
        replace (IZR L + e + IZR (Z.of_nat k * s)) with (IZR (L + Z.of_nat k * s) + e) by (rewrite plus_IZR; ring).
        destruct (Z.eq_dec (L + Z.of_nat k * s) 0) as [Z0|Z0].
        + assert (e = 0) as ->. { unfold e. destruct oL; [reflexivity|]. destruct (Z.eqb_spec L 0); [nia|reflexivity]. }
          rewrite Rplus_0_r. apply round_same, fmt64_int. lia.
        + apply absorbed; [exact Z0|lia|]. unfold e. destruct oL; [unfold tiny; rewrite Rabs_R0; apply bpow_gt_0|]. destruct (L =? 0)%Z; [exact tiny_epsilon|unfold tiny; rewrite Rabs_R0; apply bpow_gt_0]. }
    assert (BD : Rabs (IZR (L + Z.of_nat k * s) + (if negb oL && (L =? 0)%Z && (k =? 0)%nat then B2R epsilon else 0)) < bpow radix2 1024).
    { apply Rle_lt_trans with (Rabs (IZR (2 ^ 60))); [|apply below_1024; lia].
      assert (T := tiny_epsilon). unfold tiny in T. assert (B1 : bpow radix2 (-60) < 1) by (apply (bpow_lt radix2 (-60) 0); lia).
      eapply Rle_trans; [apply Rabs_triang|]. rewrite <- !abs_IZR.
      apply Rle_trans with (IZR (2 ^ 52) + 1); [|rewrite <- plus_IZR; apply IZR_le; lia].
      apply Rplus_le_compat; [apply IZR_le; lia|]. destruct (negb oL && _ && _); [lra|rewrite Rabs_R0; lra]. }
    destruct (add64_spec _ _ FB FM) as [X Y]; [rewrite R2; exact BD|]. rewrite R2 in Y. auto.
Qed.
End Range.
