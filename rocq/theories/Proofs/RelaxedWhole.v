(** Whole times within ten per cent of another. *)
From Coq Require Import ZArith Bool Reals Lia Lra.
From Flocq Require Import Core BinarySingleNaN.
From Verif Require Import Model.Base Model.Float Model.AccuracyM Proofs.FloatFacts Proofs.FloatConv Proofs.KokkosDoubles Proofs.RelaxedFloats.
Local Open Scope R_scope.

Lemma whole_range z : (0 <= z < 2 ^ 40)%Z -> IZR z <= bpow radix2 500.
Proof.
  intros H. apply Rle_trans with (bpow radix2 40); [|apply bpow_le; lia]. rewrite <- (IZR_Zpower radix2) by lia. apply IZR_le. change (Z.pow radix2 40) with (2 ^ 40)%Z. lia.
Qed.

Theorem within_ten_whole b d : (0 < b < 2 ^ 40)%Z -> (0 <= d < 2 ^ 40)%Z -> within_ten (f64_of_Z b) (f64_of_Z d) = (10 * Z.abs (b - d) <=? b)%Z.
Proof.
  intros HB HD. destruct (f64_of_Z_spec b) as [FB EB]; [lia|]. destruct (f64_of_Z_spec d) as [FD ED]; [lia|].
  assert (PB : 1 <= IZR b) by (apply IZR_le; lia).
  rewrite share_value; [|exact FB|exact FD| |].
  2:{ rewrite EB. split; [|apply whole_range; lia]. apply Rle_trans with (bpow radix2 0); [apply bpow_le; lia|exact PB]. }
  2:{ rewrite ED. split; [apply IZR_le; lia|apply whole_range; lia]. }
  unfold gap. rewrite EB, ED, <- minus_IZR, <- abs_IZR. set (g := Z.abs (b - d)). assert (G : (0 <= g < 2 ^ 40)%Z) by lia. clearbody g.
  rewrite (round_same (IZR g)) by (apply fmt64_int; lia). rewrite <- mult_IZR. rewrite (round_same (IZR (g * 100))) by (apply fmt64_int; lia).
  assert (F10 : fmt64 10) by (apply (fmt64_int 10); lia).
  destruct (Z.leb_spec (10 * g) b) as [L|L].
  - apply Rle_bool_true. rewrite <- (round_same 10 F10). apply round_le; [typeclasses eauto|typeclasses eauto|].
    apply Rmult_le_reg_r with (IZR b); [lra|]. unfold Rdiv. rewrite Rmult_assoc, Rinv_l, Rmult_1_r by lra. rewrite <- mult_IZR. apply IZR_le. lia.
  - apply Rle_bool_false. set (y := 10 + bpow radix2 (-40)).
    assert (FY : fmt64 y).
    { apply (generic_format_FLT radix2 (-1074) 53). exists (Float radix2 (10 * 2 ^ 40 + 1) (-40)); [|cbn; lia|cbn; lia].
      unfold F2R, y. cbn [Fnum Fexp]. rewrite plus_IZR, mult_IZR, Rmult_plus_distr_r, Rmult_1_l, Rmult_assoc. f_equal. change (2 ^ 40)%Z with (Z.pow radix2 40). rewrite IZR_Zpower by lia. rewrite <- bpow_plus. cbn. ring. }
    apply Rlt_le_trans with y; [assert (Q := bpow_gt_0 radix2 (-40)); unfold y; lra|]. rewrite <- (round_same y FY). apply round_le; [typeclasses eauto|typeclasses eauto|].
    apply Rmult_le_reg_r with (IZR b); [lra|]. unfold Rdiv. rewrite (Rmult_assoc _ (/ IZR b)), Rinv_l, Rmult_1_r by lra.
    assert (S : bpow radix2 (-40) * IZR b <= 1).
    { apply Rle_trans with (bpow radix2 (-40) * bpow radix2 40); [|rewrite <- bpow_plus; cbn; lra]. apply Rmult_le_compat_l; [apply bpow_ge_0|].
      rewrite <- (IZR_Zpower radix2) by lia. apply IZR_le. change (Z.pow radix2 40) with (2 ^ 40)%Z. lia. }
    assert (K : IZR b * 10 + 1 <= IZR (g * 100)) by (rewrite <- mult_IZR, <- plus_IZR; apply IZR_le; lia). unfold y. rewrite Rmult_plus_distr_r. lra.
Qed.
