(** Probabilities cached before PolicyNet::load outlive it. *)
From Coq Require Import List ZArith Bool Lia Reals Lra SpecFloat.
From Flocq Require Import Core BinarySingleNaN.
From Verif Require Import Model.Base Model.Float Model.DatasetM Model.NetM Model.PolicyNetM.
From Verif Require Import Spec.NetSpec Spec.PolicyNetSpec Proofs.NetFacts Proofs.NetGradient Proofs.NetStep Proofs.PolicyNetFacts Proofs.PolicyNetFiles
  Proofs.PolicyNetSafety Proofs.EmaBounds Proofs.FloatConv.
Import ListNotations.
Local Open Scope nat_scope.

Lemma stale_lookup M P P1 f probs file : lookup_probs (f64_arith M) P f = Ok (probs, P1) ->
  lookup_probs (f64_arith M) (pn_load P1 file) f = Ok (probs, pn_load P1 file).
Proof.
  unfold lookup_probs. destruct (encode f) as [zs| | | |]; cbn [bind]; try discriminate. rewrite load_cache.
  destruct (cache_find (key_of zs) (pn_cache P)) as [p|] eqn:E.
  - intros H; injection H as <- <-. rewrite E. reflexivity.
  - destruct (evaluate_net (f64_arith M) P zs) as [p| | | |]; cbn [bind]; try discriminate.
    intros H; injection H as <- <-. cbn [pn_cache cache_find]. rewrite (proj2 (bytes_eqb_eq _ _) eq_refl). reflexivity.
Qed.

Section Plain.
Variable M : libm.
Notation A := (f64_arith M).

Lemma zero_times b : mul64 zero64 (bit A b) = zero64.
Proof. destruct b; vm_compute; reflexivity. Qed.
Lemma zero_times_zero : mul64 zero64 zero64 = zero64.
Proof. vm_compute; reflexivity. Qed.
Lemma zero_plus y : y <> B754_zero true -> add64 zero64 y = y.
Proof. destruct y as [[|]| | |]; intros N; try reflexivity; exfalso; now apply N. Qed.
Lemma minus_zero y : y <> B754_zero true -> sub64 y zero64 = y.
Proof. destruct y as [[|]| | |]; intros N; try reflexivity. Qed.

Lemma total_zero n f : (forall k, k < n -> f k = zero64) -> total A n f = zero64.
Proof.
  intros H. unfold total. assert (G : forall l, (forall k, In k l -> f k = zero64) -> fold_left (fun acc k => n_add A acc (f k)) l (n_zero A) = zero64).
  { induction l as [|k l IH]; intros L; [reflexivity|]. cbn [fold_left]. rewrite (L k) by (left; reflexivity).
    change (n_add A (n_zero A) zero64) with (n_zero A). apply IH. intros q Q; apply L; right; exact Q. }
  apply G. intros k K. apply H, in_seq0, K.
Qed.

Definition zeros (n : nat) : list f64 := repeat zero64 n.
Definition plain_layer (n m : nat) (b : list f64) : layer f64 :=
  mkLayer n m (zeros (m * n)) b (zeros (m * n)) (zeros (m * n)) (zeros m) (zeros m) 0.
Definition plain (n h : nat) (y : f64) : pnet f64 :=
  mkPnet 2 (mkNet (plain_layer n h (zeros h)) (plain_layer h h (zeros h)) (plain_layer h 2 [zero64; y]) zero64 zero64 zero64)
    [] zero64 zero64 zero64 0 true.

Lemma zeros_nth n k : nth k (zeros n) zero64 = zero64.
Proof. unfold zeros. revert k; induction n as [|n IH]; intros [|k]; cbn; auto. Qed.

Lemma plain_shaped n h y : shaped (pn_net (plain n h y)) n h 2.
Proof. constructor; constructor; cbn; try reflexivity; apply repeat_length. Qed.

Lemma input_bits zs j : exists b, nth j (input_of (bit A) zs) zero64 = bit A b.
Proof.
  destruct (nth_in_or_default j (input_of (bit A) zs) zero64) as [I|E]; [|exists false; exact E].
  unfold input_of in I. apply in_concat in I as (l & L & I). apply in_map_iff in L as (z & <- & _).
  apply in_map_iff in I as (b & E & _). exists b. symmetry; exact E.
Qed.

(** Same weights and biases as [plain]. *)
Definition plain_net (N : net f64) (n h : nat) (y : f64) : Prop :=
  shaped N n h 2 /\ l_w (layer1 N) = zeros (h * n) /\ l_b (layer1 N) = zeros h /\
  l_w (layer2 N) = zeros (h * h) /\ l_b (layer2 N) = zeros h /\ l_w (layer3 N) = zeros (2 * h) /\ l_b (layer3 N) = [zero64; y].

Lemma plain_forward N n h y zs : plain_net N n h y -> y <> B754_zero true -> lt64 zero64 y = false ->
  n = 64 * length zs -> m_exp M zero64 = one64 ->
  net_forward A N (input_of (bit A) zs) 1 = Ok [div64 one64 (add64 one64 (m_exp M y)); div64 (m_exp M y) (add64 one64 (m_exp M y))].
Proof.
  intros (S & W1 & B1 & W2 & B2 & W3 & B3) Y Ly En E0.
  pose proof (shaped_layer_ok zero64 _ _ _ (sh_1 _ _ _ _ S)) as S1. pose proof (shaped_layer_ok zero64 _ _ _ (sh_2 _ _ _ _ S)) as S2.
  pose proof (shaped_layer_ok zero64 _ _ _ (sh_3 _ _ _ _ S)) as S3.
  assert (X : arr2 1 n (input_of (bit A) zs) (fun i j => nth (at2 n i j) (input_of (bit A) zs) zero64)).
  { apply arr2_list. rewrite input_length. lia. }
  rewrite (net_forward_ok A N n h 2 _ _ _ _ _ _ S1 S2 S3 ltac:(lia) 1 _ _ X).
  rewrite W1, B1, W2, B2, W3, B3. unfold tab2, cells. cbn [seq list_prod map app fst snd].
  match goal with |- Ok [soft A 2 ?z 0; _] = _ => set (u := z) end.
  assert (Z1 : forall i j, rect A (z1 A n (fun j k => nth (at2 n j k) (zeros (h * n)) zero64) (fun j => nth j (zeros h) zero64)
     (fun i j => nth (at2 n i j) (input_of (bit A) zs) zero64) i) j = zero64).
  { intros i j. unfold rect, z1, lin. rewrite (total_zero n), zeros_nth; [reflexivity|].
    intros k _. rewrite zeros_nth. destruct (input_bits zs (at2 n i k)) as [b ->]. apply zero_times. }
  assert (Z2 : forall i j, rect A (z2 A n h (fun j k => nth (at2 n j k) (zeros (h * n)) zero64) (fun j k => nth (at2 h j k) (zeros (h * h)) zero64)
     (fun j => nth j (zeros h) zero64) (fun j => nth j (zeros h) zero64)
     (fun i j => nth (at2 n i j) (input_of (bit A) zs) zero64) i) j = zero64).
  { intros i j. unfold rect at 1. unfold z2, lin. rewrite (total_zero h), zeros_nth; [reflexivity|].
    intros k _. rewrite zeros_nth, Z1. apply zero_times_zero. }
  assert (U : forall j, u j = add64 zero64 (nth j [zero64; y] zero64)).
  { intros j. unfold u, z3, lin. rewrite (total_zero h); [reflexivity|].
    intros k _. rewrite zeros_nth, Z2. apply zero_times_zero. }
  assert (U0 : u 0 = zero64) by (rewrite U; reflexivity).
  assert (U1 : u 1 = y) by (rewrite U; apply zero_plus, Y).
  assert (T : top A 2 u = zero64).
  { unfold top. cbn [seq fold_left]. rewrite U0, U1. unfold NetM.max. cbn [n_lt f64_arith].
    change (lt64 zero64 zero64) with false. cbv iota. rewrite Ly. reflexivity. }
  assert (E1 : n_exp A (n_sub A (u 0) (top A 2 u)) = one64) by (rewrite U0, T; exact E0).
  assert (E2 : n_exp A (n_sub A (u 1) (top A 2 u)) = m_exp M y).
  { rewrite U1, T. cbn [n_exp n_sub f64_arith]. now rewrite minus_zero. }
  unfold soft. assert (D : total A 2 (fun k => n_exp A (n_sub A (u k) (top A 2 u))) = add64 one64 (m_exp M y)).
  { unfold total. cbn [seq fold_left]. rewrite E1, E2. cbn [n_add n_zero f64_arith]. f_equal. }
  rewrite D, E1, E2. reflexivity.
Qed.

Lemma plain_lookup P n h y f : pn_policies P = 2 -> pn_cache P = [] -> plain_net (pn_net P) n h y -> y <> B754_zero true -> lt64 zero64 y = false ->
  n = 64 * length f -> Forall encodable f -> m_exp M zero64 = one64 ->
  exists Q, lookup_probs A P f = Ok ([div64 one64 (add64 one64 (m_exp M y)); div64 (m_exp M y) (add64 one64 (m_exp M y))], Q)
    /\ pn_policies Q = 2 /\ pn_net Q = pn_net P /\ pn_count Q = pn_count P.
Proof.
  intros EP EC PN Y Ly En F E0. unfold lookup_probs. rewrite (encode_ok f F). cbn [bind]. rewrite EC. cbn [cache_find].
  unfold evaluate_net. rewrite (plain_forward _ n h y _ PN Y Ly); [|rewrite map_length; exact En|exact E0].
  cbn [bind]. rewrite EP. cbn [seq map_out rd nth_error bind]. eexists. split; [reflexivity|]. repeat split; assumption.
Qed.

Lemma loaded_plain P n h y : shaped (pn_net P) n h 2 -> is_int (pn_count P) ->
  plain_net (pn_net (pn_load P (Some (pn_store (plain n h y))))) n h y /\
  pn_policies (pn_load P (Some (pn_store (plain n h y)))) = pn_policies P /\
  pn_count (pn_load P (Some (pn_store (plain n h y)))) = 0%Z.
Proof.
  intros S C. rewrite (load_store (plain n h y) P); [|exists n, h, 2; split; [apply plain_shaped|exact S]|split; cbn; lia|exact C].
  destruct S as [[] [] []]. repeat split; cbn; auto; apply repeat_length.
Qed.
End Plain.

Lemma minus_one_ok : f64_of_Z (-1) <> B754_zero true /\ lt64 zero64 (f64_of_Z (-1)) = false.
Proof.
  split; [|vm_compute; reflexivity]. intros Q. apply (f_equal is_finite_strict) in Q. revert Q. vm_compute. discriminate.
Qed.

Lemma even_odds : B2R (div64 one64 (add64 one64 one64)) = (/ 2)%R.
Proof.
  rewrite <- SF2R_B2SF. replace (B2SF (div64 one64 (add64 one64 one64))) with (S754_finite false 4503599627370496 (-53)) by (vm_compute; reflexivity).
  unfold SF2R, F2R. cbn. lra.
Qed.

Lemma one_value : B2R one64 = 1%R /\ is_finite one64 = true.
Proof.
  split; [|reflexivity]. rewrite <- SF2R_B2SF.
  replace (B2SF one64) with (S754_finite false 4503599627370496 (-52)) by (vm_compute; reflexivity).
  unfold SF2R, F2R. cbn. lra.
Qed.

Lemma fmt_small z e : (Z.abs z < 2 ^ 53)%Z -> (-1074 <= e)%Z -> fmt64 (IZR z * bpow radix2 e).
Proof.
  intros Z E. apply (generic_format_FLT radix2 (-1074) 53). exists (Float radix2 z e); cbn [Fnum Fexp]; auto.
Qed.

Local Open Scope R_scope.
Lemma better_odds (e : f64) : is_finite e = true -> / 4 <= B2R e <= / 2 ->
  is_finite (div64 one64 (add64 one64 e)) = true /\ 5 / 8 <= B2R (div64 one64 (add64 one64 e)) <= 1.
Proof.
  intros F E. destruct one_value as [V1 F1].
  assert (F54 : fmt64 (5 / 4)). { replace (5 / 4) with (IZR 5 * bpow radix2 (-2)) by (cbn; lra). apply fmt_small; lia. }
  assert (F32 : fmt64 (3 / 2)). { replace (3 / 2) with (IZR 3 * bpow radix2 (-1)) by (cbn; lra). apply fmt_small; lia. }
  assert (F58 : fmt64 (5 / 8)). { replace (5 / 8) with (IZR 5 * bpow radix2 (-3)) by (cbn; lra). apply fmt_small; lia. }
  assert (F11 : fmt64 1). { replace 1 with (IZR 1 * bpow radix2 0) by (cbn; lra). apply fmt_small; lia. }
  assert (BIG : 2 < bpow radix2 1024). { change 2 with (bpow radix2 1). apply bpow_lt. lia. }
  assert (S : is_finite (add64 one64 e) = true /\ 5 / 4 <= B2R (add64 one64 e) <= 3 / 2).
  { assert (R := rnd64_between (5 / 4) (3 / 2) (1 + B2R e) F54 F32 ltac:(lra)).
    pose proof (Bplus_correct 53 1024 _ _ mode_NE one64 e F1 F) as H. rewrite V1 in H. rewrite Rlt_bool_true in H.
    - destruct H as (H1 & H2 & _). split; [exact H2|]. unfold add64. rewrite H1. exact R.
    - apply Rabs_lt. cbn [round_mode] in *. split.
      + apply Rlt_le_trans with 0; [generalize (bpow_gt_0 radix2 1024); lra|]. apply Rle_trans with (5/4); [lra|exact (proj1 R)].
      + apply Rle_lt_trans with (3/2); [exact (proj2 R)|lra]. }
  destruct S as [FS S]. set (s := add64 one64 e) in *.
  assert (Q : 5 / 8 <= 1 / B2R s <= 1).
  { assert (0 < B2R s) by (apply Rlt_le_trans with (5/4); [lra|exact (proj1 S)]). split.
    - apply Rmult_le_reg_r with (B2R s); [exact H|]. unfold Rdiv. rewrite (Rmult_assoc 1), Rinv_l by (apply Rgt_not_eq; exact H). 
      apply Rle_trans with (5 * / 8 * (3 / 2)); [apply Rmult_le_compat_l; [lra|exact (proj2 S)]|lra].
    - apply Rmult_le_reg_r with (B2R s); [exact H|]. unfold Rdiv. rewrite (Rmult_assoc 1), Rinv_l by (apply Rgt_not_eq; exact H).
      rewrite !Rmult_1_l. apply Rle_trans with (5 / 4); [lra|exact (proj1 S)]. }
  assert (R := rnd64_between (5 / 8) 1 (1 / B2R s) F58 F11 Q).
  destruct (div64_spec one64 s) as [G1 G2].
  - exact F1.
  - apply Rgt_not_eq. apply Rlt_le_trans with (5/4); [lra|exact (proj1 S)].
  - rewrite V1. apply Rabs_lt. split.
    + apply Rlt_le_trans with 0; [generalize (bpow_gt_0 radix2 1024); lra|]. apply Rle_trans with (5/8); [lra|exact (proj1 R)].
    + apply Rle_lt_trans with 1; [exact (proj2 R)|lra].
  - split; [exact G1|]. rewrite G2, V1. exact R.
Qed.
Local Open Scope nat_scope.

Lemma stale_after_load M features lr beta be1 be2 threshold init f : sane_exp M -> features_ok features f ->
  let A := f64_arith M in
  let P0 := new_pnet A 2 features lr beta be1 be2 threshold init in
  exists file1 file2 probs fresh P1 P2,
    lookup_probs A (pn_load P0 (Some file1)) f = Ok (probs, P1) /\
    lookup_probs A (no_cache (pn_load P1 (Some file2))) f = Ok (fresh, P2) /\
    map B2R probs = [/ 2; / 2]%R /\
    (exists a b, fresh = [a; b] /\ 5 / 8 <= B2R a)%R /\
    lookup_probs A (pn_load P1 (Some file2)) f = Ok (probs, pn_load P1 (Some file2)).
Proof.
  intros (E0 & FE & BE) [L F] A P0. set (n := 64 * features). set (h := Nat.div (n + 2) 2).
  assert (SH : shaped (pn_net P0) n h 2) by apply new_net_shaped.
  exists (pn_store (plain n h zero64)), (pn_store (plain n h (f64_of_Z (-1)))).
  destruct (loaded_plain P0 n h zero64 SH) as (N1 & Q1 & C1); [split; cbn; lia|].
  set (PA := pn_load P0 (Some (pn_store (plain n h zero64)))) in *.
  destruct (plain_lookup M PA n h zero64 f) as (P1 & LK & PP & PN & PC); try assumption.
  { unfold PA. rewrite load_cache. reflexivity. }
  { intros Q. discriminate Q. }
  { reflexivity. }
  { unfold n. now rewrite L. }
  destruct (loaded_plain P1 n h (f64_of_Z (-1))) as (N2 & Q2 & C2).
  { rewrite PN. apply N1. }
  { rewrite PC, C1. split; lia. }
  destruct (plain_lookup M (no_cache (pn_load P1 (Some (pn_store (plain n h (f64_of_Z (-1))))))) n h (f64_of_Z (-1)) f) as (P2 & LK2 & _); try assumption.
  { reflexivity. }
  { apply minus_one_ok. }
  { apply minus_one_ok. }
  { unfold n. now rewrite L. }
  do 4 eexists. split; [exact LK|]. split; [exact LK2|]. split; [|split].
  - rewrite E0. cbn [map]. rewrite even_odds. reflexivity.
  - do 2 eexists. split; [reflexivity|]. apply (better_odds _ FE BE).
  - apply (stale_lookup M PA). exact LK.
Qed.
