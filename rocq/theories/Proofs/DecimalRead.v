(** Reading back a printed floating-point number. *)
From Coq Require Import List ZArith Bool Ascii String Lia Reals Lra SpecFloat.
From Coq Require Import ZifyBool.
From Flocq Require Import Core BinarySingleNaN Relative.
From Verif Require Import Model.Base Model.Float Model.Decimal Spec.DecimalSpec Proofs.DecimalInt Proofs.DecimalFloat.
Import ListNotations.
Open Scope Z_scope.

Section Format.
Context {prec emax : Z}.
Context (Hp : Prec_gt_0 prec) (He : Prec_lt_emax prec emax).
Notation float := (binary_float prec emax).
Notation rnd := (round radix2 (fexp prec emax) ZnearestE).

Lemma ratio_float_correct s n d :
  let x := ratio_float prec emax Hp He s n d in
  let v := (if s then - (IZR (Zpos n) / IZR (Zpos d)) else IZR (Zpos n) / IZR (Zpos d))%R in
  if Rlt_bool (Rabs (rnd v)) (bpow radix2 emax)
  then B2R x = rnd v /\ is_finite x = true /\ Bsign x = s
  else x = B754_infinity s.
Proof.
  intros x v.
  assert (H := proj2 (Bdiv_correct_aux prec emax Hp He mode_NE s n 0 false d 0)).
  cbv zeta in H. rewrite xorb_false_r in H.
  set (z := let '(mz, ez, lz) := SFdiv_core_binary prec emax (Zpos n) 0 (Zpos d) 0 in
            binary_round_aux prec emax mode_NE s mz ez lz) in H.
  assert (EZ : ratio_SF prec emax s n d = z) by reflexivity.
  assert (EV : (F2R (Float radix2 (cond_Zopp s (Zpos n)) 0) / F2R (Float radix2 (cond_Zopp false (Zpos d)) 0))%R = v).
  { unfold F2R, v. cbn [Fnum Fexp bpow]. rewrite !Rmult_1_r. destruct s; cbn [cond_Zopp]; auto.
    change (- Zpos n) with (Z.opp (Zpos n)). rewrite opp_IZR. unfold Rdiv. ring. }
  rewrite EV in H. change (round_mode mode_NE) with ZnearestE in H.
  destruct (Rlt_bool (Rabs (rnd v)) (bpow radix2 emax)).
  - destruct H as (A & B & C). unfold x, ratio_float.
    rewrite B2R_SF2B, is_finite_SF2B, Bsign_SF2B, EZ. auto.
  - unfold x, ratio_float. revert H. unfold binary_overflow. cbn [overflow_to_inf]. rewrite <- EZ. intros H.
    apply B2SF_inj. rewrite B2SF_SF2B. exact H.
Qed.

Lemma normal_not_below (x : float) : is_finite x = true -> (bpow radix2 (2 - emax) <= Rabs (B2R x))%R ->
  below_normal x = false.
Proof.
  destruct x as [s|s| |s m e b]; cbn [below_normal is_finite]; intros F B; auto; try discriminate.
  - exfalso. cbn [B2R] in B. rewrite Rabs_R0 in B. assert (H := bpow_gt_0 radix2 (2 - emax)). lra.
  - apply Z.ltb_ge. apply Z.le_ngt. intros L. revert B. apply Rlt_not_le.
    cbn [B2R]. rewrite <- F2R_Zabs. rewrite abs_cond_Zopp. cbn [Z.abs].
    apply Rlt_le_trans with (bpow radix2 (Z.log2 (Zpos m) + 1 + e)).
    + unfold F2R. cbn [Fnum Fexp]. rewrite bpow_plus. apply Rmult_lt_compat_r; [apply bpow_gt_0|].
      rewrite <- IZR_Zpower by (assert (X := Z.log2_nonneg (Zpos m)); lia).
      apply IZR_lt. change (radix2 ^ (Z.log2 (Zpos m) + 1)) with (2 ^ (Z.log2 (Zpos m) + 1)).
      rewrite Z.add_1_r. apply Z.log2_spec. lia.
    + apply bpow_le. lia.
Qed.

Lemma ratio_of_dec_value m e : let '(n, d) := ratio_of_dec 10 m e in
  (IZR (Zpos n) / IZR (Zpos d))%R = F2R (Float radix10 (Zpos m) e).
Proof.
  unfold ratio_of_dec. rewrite F2R10. destruct (Z.leb_spec 0 e).
  - assert (0 < 10 ^ e) by (apply Z.pow_pos_nonneg; lia).
    rewrite Z2Pos.id by nia. rewrite mult_IZR, bpow10_IZR by assumption. unfold Rdiv. rewrite Rinv_1. ring.
  - assert (0 < 10 ^ (- e)) by (apply Z.pow_pos_nonneg; lia).
    rewrite Z2Pos.id by assumption. replace e with (- - e) at 2 by lia. rewrite bpow10_neg by lia. reflexivity.
Qed.

Lemma value_of_dec (neg : bool) m e :
  let v := (if neg then - F2R (Float radix10 (Zpos m) e) else F2R (Float radix10 (Zpos m) e))%R in
  (bpow radix2 (2 - emax) <= Rabs (rnd v) < bpow radix2 emax)%R ->
  exists y, value_of prec emax Hp He (NumDec neg (Zpos m) e) = Ok y /\
    is_finite y = true /\ Bsign y = neg /\ B2R y = rnd v.
Proof.
  intros v B. cbn [value_of]. assert (E := ratio_of_dec_value m e).
  destruct (ratio_of_dec 10 m e) as [n d]. unfold value_ratio.
  assert (C := ratio_float_correct neg n d). cbv zeta in C. rewrite E in C. fold v in C.
  rewrite Rlt_bool_true in C by apply B. destruct C as (C1 & C2 & C3).
  set (y := ratio_float prec emax Hp He neg n d) in *. exists y.
  assert (BN : below_normal y = false) by (apply normal_not_below; auto; rewrite C1; apply B).
  rewrite BN. cbn [andb]. destruct y; try discriminate C2; auto.
Qed.

Lemma ratio_of_value m e : let '(n, d) := ratio_of m e in
  0 < n /\ 0 < d /\ (IZR n / IZR d)%R = F2R (Float radix2 (Zpos m) e).
Proof.
  unfold ratio_of. destruct (Z.leb_spec 0 e).
  - assert (0 < 2 ^ e) by (apply Z.pow_pos_nonneg; lia). split; [nia|]. split; [lia|].
    unfold F2R. cbn [Fnum Fexp]. rewrite mult_IZR, <- IZR_Zpower by assumption.
    change (radix2 ^ e) with (2 ^ e). field.
  - assert (0 < 2 ^ (- e)) by (apply Z.pow_pos_nonneg; lia). split; [lia|]. split; [lia|].
    unfold F2R. cbn [Fnum Fexp]. replace e with (- - e) at 2 by lia. rewrite bpow_opp.
    rewrite <- IZR_Zpower by lia. reflexivity.
Qed.

(** Largest finite number of the format. *)
Definition max_ratio : Z * Z := (((2 ^ prec - 1) * 2 ^ (emax - prec)), 1).
(** Its six-digit rendering does not exceed it (decided by computation for each format). *)
Definition max6_ok : Prop := let '(n, d) := max_ratio in
  let '(D, X) := dec6 n d in 5 <= X /\ D * 10 ^ (X - 5) <= n.

Lemma round6_le_max v : max6_ok -> (v <= IZR (fst max_ratio))%R -> (round6 v <= IZR (fst max_ratio))%R.
Proof.
  unfold max6_ok, max_ratio. cbn [fst]. set (M := (2 ^ prec - 1) * 2 ^ (emax - prec)).
  unfold Prec_gt_0, Prec_lt_emax in *.
  assert (PM : 0 < M).
  { unfold M. assert (2 ^ 1 <= 2 ^ prec) by (apply Z.pow_le_mono_r; lia).
    assert (0 < 2 ^ (emax - prec)) by (apply Z.pow_pos_nonneg; lia). nia. }
  destruct (dec6 M 1) as [D X] eqn:E. intros (X5 & L) Hv.
  destruct (dec6_spec M 1 D X PM ltac:(lia) E) as (A & _).
  replace (IZR M / 1)%R with (IZR M) in A by field.
  apply Rle_trans with (round6 (IZR M)).
  - unfold round6. apply round_le; auto. apply FLX_exp_valid. reflexivity. apply valid_rnd_N.
  - rewrite A, F2R10, bpow10_IZR, <- mult_IZR by lia. now apply IZR_le.
Qed.

Lemma max_format : generic_format radix2 (fexp prec emax) (IZR (fst max_ratio)).
Proof.
  unfold max_ratio. cbn [fst]. unfold Prec_gt_0, Prec_lt_emax in *.
  change (fexp prec emax) with (FLT_exp (3 - emax - prec) prec).
  apply generic_format_FLT. exists (Float radix2 (2 ^ prec - 1) (emax - prec)).
  - unfold F2R. cbn [Fnum Fexp]. rewrite mult_IZR, <- IZR_Zpower by lia. reflexivity.
  - cbn [Fnum]. assert (0 < 2 ^ prec) by (apply Z.pow_pos_nonneg; lia).
    change (radix2 ^ prec) with (2 ^ prec). lia.
  - cbn [Fexp]. lia.
Qed.

Lemma finite_le_max m e : bounded prec emax m e = true ->
  (F2R (Float radix2 (Zpos m) e) <= IZR (fst max_ratio))%R.
Proof.
  intros B. apply bounded_le_emax_minus_prec in B; auto.
  replace (IZR (fst max_ratio)) with (bpow radix2 emax - bpow radix2 (emax - prec))%R; auto.
  unfold Prec_gt_0, Prec_lt_emax in *.
  unfold max_ratio. cbn [fst]. rewrite mult_IZR, minus_IZR.
  change (2 ^ prec) with (radix2 ^ prec). change (2 ^ (emax - prec)) with (radix2 ^ (emax - prec)).
  rewrite !IZR_Zpower by lia. rewrite Rmult_minus_distr_r, <- bpow_plus. replace (prec + (emax - prec)) with emax by lia. ring.
Qed.

Lemma round6_pos_range v : (0 < v)%R -> (v * (1 - / 100000) <= round6 v)%R.
Proof.
  intros Hv. assert (H := relative_error_N_FLX radix10 6 ltac:(lia) (fun x => negb (Z.even x)) v).
  fold (round6 v) in H. change (bpow radix10 (- (6) + 1)) with (/ 100000)%R in H.
  rewrite (Rabs_pos_eq v) in H by lra. apply Rabs_le_inv in H. lra.
Qed.

Lemma round6_opp v : round6 (- v) = (- round6 v)%R.
Proof. apply round_NE_opp. Qed.

Lemma bpow_min_format : generic_format radix2 (fexp prec emax) (bpow radix2 (2 - emax)).
Proof.
  unfold Prec_gt_0, Prec_lt_emax in *.
  apply generic_format_bpow. unfold fexp, emin. lia.
Qed.

Lemma rnd_range v : max6_ok -> (bpow radix2 (3 - emax) <= v <= IZR (fst max_ratio))%R ->
  (bpow radix2 (2 - emax) <= rnd (round6 v) < bpow radix2 emax)%R.
Proof.
  intros Hm [A B].
  assert (V : Valid_exp (fexp prec emax)) by (apply fexp_correct; auto).
  split.
  - rewrite <- (round_generic radix2 (fexp prec emax) ZnearestE _ bpow_min_format).
    apply round_le; auto. apply valid_rnd_N.
    assert (P := bpow_gt_0 radix2 (2 - emax)).
    replace (3 - emax) with (1 + (2 - emax)) in A by lia. rewrite bpow_plus in A. change (bpow radix2 1) with 2%R in A.
    assert (R := round6_pos_range v ltac:(lra)). lra.
  - apply Rle_lt_trans with (IZR (fst max_ratio)).
    + rewrite <- (round_generic radix2 (fexp prec emax) ZnearestE _ max_format).
      apply round_le; auto. apply valid_rnd_N. now apply round6_le_max.
    + unfold max_ratio. cbn [fst]. unfold Prec_gt_0, Prec_lt_emax in *.
      rewrite mult_IZR, minus_IZR. change (2 ^ prec) with (radix2 ^ prec). change (2 ^ (emax - prec)) with (radix2 ^ (emax - prec)).
      rewrite !IZR_Zpower by lia. rewrite Rmult_minus_distr_r, <- bpow_plus.
      replace (prec + (emax - prec)) with emax by lia. assert (P := bpow_gt_0 radix2 (emax - prec)). lra.
Qed.

(** Characters of printed numbers. *)
Definition numchar (c : ascii) : Prop :=
  isdig c \/ c = "."%char \/ c = "e"%char \/ c = "+"%char \/ c = "-"%char.

Lemma frac_chars l : Forall isdig l -> Forall numchar (frac l).
Proof.
  intros F. apply strip_digits in F. unfold frac. destruct (strip_zeros l); constructor.
  - right. now left.
  - eapply Forall_impl; [|exact F]. now left.
Qed.
Lemma digits_chars l : Forall isdig l -> Forall numchar l.
Proof. intros F. eapply Forall_impl; [|exact F]. now left. Qed.
Lemma Forall_firstn {A} (P : A -> Prop) n l : Forall P l -> Forall P (firstn n l).
Proof. intros F. rewrite <- (firstn_skipn n l) in F. now apply Forall_app in F. Qed.
Lemma Forall_skipn {A} (P : A -> Prop) n l : Forall P l -> Forall P (skipn n l).
Proof. intros F. rewrite <- (firstn_skipn n l) in F. now apply Forall_app in F. Qed.

Lemma fmt_g_chars D X : Forall numchar (fmt_g D X).
Proof.
  unfold fmt_g. assert (F := digits_w_digits 6 D). set (ds := digits_w 6 D) in *.
  destruct ((-4 <=? X) && (X <? 6)).
  - destruct (0 <=? X).
    + apply Forall_app. split; [apply digits_chars, Forall_firstn; auto|apply frac_chars, Forall_skipn; auto].
    + constructor; [left; reflexivity|]. apply frac_chars, Forall_app. split; auto using zeros_digits.
  - apply Forall_app. split; [apply digits_chars, Forall_firstn; auto|].
    apply Forall_app. split; [apply frac_chars, Forall_skipn; auto|].
    unfold exp_suffix. constructor; [right; right; now left|]. constructor; [destruct (X <? 0); unfold numchar; tauto|].
    apply digits_chars, digits_w_digits.
Qed.
Lemma fmt_g_head D X : exists c r, fmt_g D X = c :: r /\ isdig c.
Proof.
  unfold fmt_g. assert (F := digits_w_digits 6 D). assert (L := digits_w_length 6 D).
  set (ds := digits_w 6 D) in *. clearbody ds. destruct ds as [|c ds]; [discriminate|]. inversion F; subst.
  destruct ((-4 <=? X) && (X <? 6)).
  - destruct (0 <=? X).
    + rewrite Nat.add_1_r. cbn [firstn app]. eauto.
    + eexists. eexists. split; [reflexivity|reflexivity].
  - cbn [firstn app]. eauto.
Qed.

Lemma lex_num_digits neg l t : (exists c r, l = c :: r /\ isdig c) -> Forall numchar l -> num_end t ->
  lex_num ((if neg : bool then $"-" else []) ++ l ++ t) = lex_dec neg (l ++ t).
Proof.
  intros (c & r & -> & Hc) F T. unfold lex_num.
  assert (TS : take_sign (drop_space ((if neg then $"-" else []) ++ (c :: r) ++ t)) = (neg, (c :: r) ++ t)).
  { destruct neg; [reflexivity|]. cbn [app drop_space]. destruct (isdig_props c Hc) as (A & B & C).
    rewrite A. cbn [take_sign]. now rewrite B, C. }
  rewrite TS. cbv iota beta.
  assert (LC : forall x, lower x = "x"%char -> numchar x -> False).
  { intros x E [D|[->|[->|[->| ->]]]]; try discriminate E.
    unfold isdig, is_digit in D. unfold lower in E.
    replace ((65 <=? N_of_ascii x) && (N_of_ascii x <=? 90))%N with false in E by lia. subst x. discriminate D. }
  assert (LD : lower c = c).
  { unfold lower. unfold isdig, is_digit in Hc.
    replace ((65 <=? N_of_ascii c) && (N_of_ascii c <=? 90))%N with false by lia. reflexivity. }
  assert (NE : forall x, is_digit x = false -> Ascii.eqb x c = false).
  { intros x Hx. destruct (Ascii.eqb_spec x c); auto. subst. unfold isdig in Hc. congruence. }
  cbn [app].
  assert (P1 : drop_prefix_ci ($"infinity") (c :: r ++ t) = None).
  { cbn [lit list_ascii_of_string drop_prefix_ci]. rewrite LD, NE by reflexivity. reflexivity. }
  assert (P2 : drop_prefix_ci ($"inf") (c :: r ++ t) = None).
  { cbn [lit list_ascii_of_string drop_prefix_ci]. rewrite LD, NE by reflexivity. reflexivity. }
  assert (P3 : drop_prefix_ci ($"nan") (c :: r ++ t) = None).
  { cbn [lit list_ascii_of_string drop_prefix_ci]. rewrite LD, NE by reflexivity. reflexivity. }
  assert (P4 : drop_prefix_ci ($"0x") (c :: r ++ t) = None).
  { cbn [lit list_ascii_of_string drop_prefix_ci]. destruct (Ascii.eqb "0" (lower c)); auto.
    destruct r as [|c2 r]; cbn [app].
    - destruct t as [|c2 t]; auto. destruct T as (_ & _ & _ & E).
      rewrite Ascii.eqb_sym, E. reflexivity.
    - destruct (Ascii.eqb_spec "x" (lower c2)) as [E|]; auto. exfalso. eapply LC; [symmetry; exact E|].
      inversion F as [|? ? ? F2]; subst. now inversion F2. }
  now rewrite P1, P2, P3, P4.
Qed.

(** What follows a printed number may not extend "inf" to "infinity". *)
Definition value_end (t : bytes) : Prop := num_end t /\ match t with c :: _ => Ascii.eqb (lower c) "i" = false | [] => True end.

Lemma print_read (x : float) t : max6_ok -> normal_range x -> value_end t ->
  exists y, stoX prec emax Hp He (print_float x ++ t) = Ok (y, t) /\ six_digit_copy x y.
Proof.
  intros Hm N (T & TI). unfold stoX. destruct x as [s|s| |s m e b]; cbn [print_float six_digit_copy].
  - exists (B754_zero s). rewrite <- app_assoc.
    rewrite (lex_num_digits s ($"0") t); auto.
    + change ($"0" ++ t) with (["0"%char] ++ t).
      rewrite (lex_dec_int s ["0"%char] t 0 t); try (repeat constructor; fail); auto using num_end_no_digit, num_end_lex_exp.
      * discriminate.
      * intros c r ->. apply T.
    + do 2 eexists; split; reflexivity.
    + repeat constructor.
  - exists (B754_infinity s). split; auto.
    assert (E : lex_num (((if s then $"-" else []) ++ $"inf") ++ t) = Some (NumInf s, t)).
    { unfold lex_num. assert (TS : take_sign (drop_space (((if s then $"-" else []) ++ $"inf") ++ t)) = (s, $"inf" ++ t)) by (destruct s; reflexivity).
      rewrite TS. cbv iota beta.
      assert (P1 : drop_prefix_ci ($"infinity") ($"inf" ++ t) = None).
      { cbn [lit list_ascii_of_string drop_prefix_ci app]. change (Ascii.eqb "i" (lower "i")) with true.
        change (Ascii.eqb "n" (lower "n")) with true. change (Ascii.eqb "f" (lower "f")) with true. cbv iota. destruct t as [|c t]; auto. rewrite Ascii.eqb_sym. now rewrite TI. }
      rewrite P1. reflexivity. }
    rewrite E. reflexivity.
  - exists B754_nan. split; auto.
  - assert (RV := ratio_of_value m e). destruct (ratio_of m e) as [n d]. destruct RV as (Pn & Pd & RV).
    destruct (dec6 n d) as [D X] eqn:E6.
    destruct (dec6_spec n d D X Pn Pd E6) as (A & BD & _).
    rewrite <- app_assoc. rewrite (lex_num_digits s (fmt_g D X) t); auto using fmt_g_head, fmt_g_chars.
    destruct (fmt_g_lex s D X t BD T) as (mm & ee & L & Pm & V). rewrite L.
    destruct mm as [|mm|mm]; try lia.
    assert (BR : B2R (B754_finite s m e b : float) = (if s then - (IZR n / IZR d) else IZR n / IZR d)%R).
    { cbn [B2R]. rewrite RV. destruct s; cbn [cond_Zopp]; auto. unfold F2R. cbn [Fnum Fexp].
      change (- Zpos m) with (Z.opp (Zpos m)). rewrite opp_IZR. ring. }
    assert (PV : (0 < IZR n / IZR d)%R) by (apply Rdiv_lt_0_compat; apply IZR_lt; lia).
    assert (AB : Rabs (B2R (B754_finite s m e b : float)) = (IZR n / IZR d)%R).
    { rewrite BR. destruct s; [rewrite Rabs_Ropp|]; apply Rabs_pos_eq; lra. }
    cbn [normal_range] in N. rewrite AB in N.
    assert (RG : (bpow radix2 (2 - emax) <= rnd (round6 (IZR n / IZR d)) < bpow radix2 emax)%R).
    { apply rnd_range; auto. split; auto. rewrite RV. now apply finite_le_max. }
    assert (PR : (0 < rnd (round6 (IZR n / IZR d)))%R).
    { assert (P := bpow_gt_0 radix2 (2 - emax)). lra. }
    rewrite <- V in A.
    destruct (value_of_dec s mm ee) as (y & Y1 & Y2 & Y3 & Y4).
    { rewrite <- A. destruct s; [rewrite round_NE_opp, Rabs_Ropp|]; rewrite Rabs_pos_eq by lra; exact RG. }
    exists y. rewrite Y1. split; auto. split; auto. split; auto. rewrite Y4, BR. destruct s; rewrite <- A; auto.
    now rewrite round6_opp.
Qed.

(** Bounded length and no white space. *)
Lemma numchar_not_space l : Forall numchar l -> Forall (fun c => isspace c = false) l.
Proof.
  intros F. eapply Forall_impl; [|exact F]. intros c [H|[->|[->|[->| ->]]]]; auto. now apply isdig_props.
Qed.
Lemma strip_length l : (List.length (strip_zeros l) <= List.length l)%nat.
Proof. destruct (strip_zeros_spec l) as [k E]. rewrite E at 2. rewrite app_length. lia. Qed.
Lemma frac_length l : (List.length (frac l) <= S (List.length l))%nat.
Proof. unfold frac. assert (H := strip_length l). destruct (strip_zeros l); cbn [List.length] in *; lia. Qed.

Lemma fmt_g_length D X : -10000 < X < 10000 -> (1 <= List.length (fmt_g D X) <= 14)%nat.
Proof.
  intros B. destruct (fmt_g_head D X) as (c & r & E & _). split; [rewrite E; cbn [List.length]; lia|].
  unfold fmt_g. assert (L := digits_w_length 6 D). set (ds := digits_w 6 D) in *.
  destruct ((-4 <=? X) && (X <? 6)) eqn:RG.
  - destruct (Z.leb_spec 0 X).
    + rewrite app_length, firstn_length. assert (A := frac_length (skipn (Z.to_nat X + 1) ds)).
      rewrite skipn_length in A. lia.
    + cbn [List.length]. assert (A := frac_length (repeat "0"%char (Z.to_nat (- X) - 1) ++ ds)).
      rewrite app_length, repeat_length in A. lia.
  - rewrite !app_length, firstn_length. assert (A := frac_length (skipn 1 ds)). rewrite skipn_length in A.
    unfold exp_suffix. cbn [List.length]. rewrite digits_w_length.
    assert (ndig (Z.abs X) <= 4)%nat by (apply ndig_le; [change (10 ^ Z.of_nat 4) with 10000|]; lia). lia.
Qed.

Lemma bpow_radix_le e : 0 <= e -> (bpow radix2 e <= bpow radix10 e)%R.
Proof.
  intros H. rewrite <- !IZR_Zpower by assumption. apply IZR_le.
  apply Z.pow_le_mono_l. cbn. lia.
Qed.

Lemma finite_exp_bound m e n d D X : bounded prec emax m e = true -> emax + prec <= 9000 ->
  ratio_of m e = (n, d) -> dec6 n d = (D, X) -> -10000 < X < 10000.
Proof.
  intros B HB RV E. assert (R := ratio_of_value m e). rewrite RV in R. destruct R as (Pn & Pd & R).
  destruct (dec6_spec n d D X Pn Pd E) as (_ & _ & BX).
  assert (S := dec_exp_spec n d Pn Pd). rewrite R in S.
  assert (U := bounded_lt_emax prec emax m e B).
  assert (L : (bpow radix2 (3 - emax - prec) <= F2R (Float radix2 (Zpos m) e))%R).
  { apply Rle_trans with (bpow radix2 e).
    - apply bpow_le. apply andb_prop in B as [B _]. unfold canonical_mantissa in B. apply Zeq_bool_eq in B. unfold fexp, emin in B. lia.
    - unfold F2R. cbn [Fnum Fexp]. assert (P := bpow_gt_0 radix2 e).
      assert (1 <= IZR (Zpos m))%R by (apply IZR_le; lia). nra. }
  unfold Prec_gt_0, Prec_lt_emax in *.
  assert (A : dec_exp n d < emax).
  { apply (lt_bpow radix10). apply Rle_lt_trans with (F2R (Float radix2 (Zpos m) e)); [apply S|].
    eapply Rlt_le_trans; [exact U|]. apply bpow_radix_le. lia. }
  assert (C : 3 - emax - prec < dec_exp n d + 1).
  { apply (lt_bpow radix10). eapply Rle_lt_trans; [|apply S]. eapply Rle_trans; [|exact L].
    replace (3 - emax - prec) with (- (emax + prec - 3)) by lia. rewrite !bpow_opp.
    apply Rinv_le; [apply bpow_gt_0|]. apply bpow_radix_le. lia. }
  lia.
Qed.

Lemma print_float_length (x : float) : emax + prec <= 9000 ->
  (1 <= List.length (print_float x) <= 15)%nat.
Proof.
  intros HB. destruct x as [s|s| |s m e b]; cbn [print_float].
  - destruct s; cbn; lia.
  - destruct s; cbn; lia.
  - cbn; lia.
  - destruct (ratio_of m e) as [n d] eqn:R. destruct (dec6 n d) as [D X] eqn:E.
    assert (L := fmt_g_length D X (finite_exp_bound m e n d D X b HB R E)).
    rewrite app_length. destruct s; cbn [List.length lit list_ascii_of_string]; lia.
Qed.
Lemma print_float_not_space (x : float) : Forall (fun c => isspace c = false) (print_float x).
Proof.
  destruct x as [s|s| |s m e b]; cbn [print_float].
  - destruct s; repeat constructor.
  - destruct s; repeat constructor.
  - repeat constructor.
  - destruct (ratio_of m e) as [n d] eqn:R. destruct (dec6 n d) as [D X] eqn:E.
    apply Forall_app. split; [destruct s; repeat constructor|]. apply numchar_not_space, fmt_g_chars.
Qed.
End Format.

Lemma max6_ok_32 : @max6_ok 24 128.
Proof. unfold max6_ok. vm_compute. split; discriminate. Qed.
Lemma max6_ok_64 : @max6_ok 53 1024.
Proof. unfold max6_ok. vm_compute. split; discriminate. Qed.
