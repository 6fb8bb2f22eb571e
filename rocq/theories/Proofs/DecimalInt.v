(** Decimal digits of integers: printing and reading back. *)
From Coq Require Import List ZArith Bool Ascii String Lia.
From Coq Require Import ZifyBool.
From Verif Require Import Model.Base Model.Decimal.
Import ListNotations.
Open Scope Z_scope.

Definition isdig (c : ascii) : Prop := is_digit c = true.

Lemma digit_cases d : 0 <= d < 10 ->
  d = 0 \/ d = 1 \/ d = 2 \/ d = 3 \/ d = 4 \/ d = 5 \/ d = 6 \/ d = 7 \/ d = 8 \/ d = 9.
Proof. lia. Qed.

Ltac each_digit d H := destruct (digit_cases d H) as [->|[->|[->|[->|[->|[->|[->|[->|[->| ->]]]]]]]]].

Lemma digit_val_char d : 0 <= d < 10 -> digit_val (digit_char d) = d.
Proof. intros H. each_digit d H; reflexivity. Qed.
Lemma digit_is_digit d : 0 <= d < 10 -> isdig (digit_char d).
Proof. intros H. each_digit d H; reflexivity. Qed.
Lemma digit_val_range c : isdig c -> 0 <= digit_val c < 10.
Proof. unfold isdig, is_digit, digit_val. lia. Qed.

Lemma digits_w_length k n : List.length (digits_w k n) = k.
Proof. revert n. induction k; intros; cbn; auto. rewrite app_length, IHk. cbn. lia. Qed.
Lemma digits_w_digits k : forall n, Forall isdig (digits_w k n).
Proof.
  induction k; intros; cbn; [constructor|]. apply Forall_app. split; auto.
  repeat constructor. apply digit_is_digit. apply Z.mod_pos_bound. lia.
Qed.

Lemma digits_val_fold a s : fold_left (fun a c => a * 10 + digit_val c) s a = a * 10 ^ Z.of_nat (List.length s) + digits_val s.
Proof.
  unfold digits_val. revert a. induction s as [|c s IH]; intros a; cbn [fold_left List.length].
  - cbn. lia.
  - rewrite IH. rewrite (IH (0 * 10 + digit_val c)).
    rewrite Nat2Z.inj_succ, Z.pow_succ_r by lia. ring.
Qed.
Lemma digits_val_app a b : digits_val (a ++ b) = digits_val a * 10 ^ Z.of_nat (List.length b) + digits_val b.
Proof. unfold digits_val at 1. rewrite fold_left_app. apply digits_val_fold. Qed.
Lemma digits_val_cons c s : digits_val (c :: s) = digit_val c * 10 ^ Z.of_nat (List.length s) + digits_val s.
Proof. change (c :: s) with ([c] ++ s). rewrite digits_val_app. reflexivity. Qed.
Lemma digits_val_nonneg s : Forall isdig s -> 0 <= digits_val s.
Proof.
  induction s as [|c s IH] using rev_ind; intros F; [unfold digits_val; cbn; lia|].
  apply Forall_app in F as [F G]. inversion G; subst. rewrite digits_val_app. cbn.
  specialize (IH F). assert (X := digit_val_range c H1).
  change (digits_val [c]) with (0 * 10 + digit_val c). lia.
Qed.

Lemma digits_val_w k : forall n, 0 <= n -> digits_val (digits_w k n) = n mod 10 ^ Z.of_nat k.
Proof.
  induction k; intros n Hn.
  - cbn. now rewrite Z.mod_1_r.
  - cbn [digits_w]. rewrite digits_val_app. cbn [List.length].
    rewrite IHk by (apply Z.div_pos; lia).
    change (digits_val [digit_char (n mod 10)]) with (0 * 10 + digit_val (digit_char (n mod 10))).
    rewrite digit_val_char by (apply Z.mod_pos_bound; lia).
    change (10 ^ Z.of_nat 1) with 10.
    rewrite (Nat2Z.inj_succ k), Z.pow_succ_r by lia.
    rewrite (Z.rem_mul_r n 10) by (try lia; apply Z.pow_nonzero; lia). lia.
Qed.

Lemma ndig_fuel_spec fuel : forall n, 0 <= n -> n < 2 ^ (Z.of_nat fuel + 1) ->
  n < 10 ^ Z.of_nat (ndig_fuel fuel n) /\ (1 <= ndig_fuel fuel n)%nat /\
  (1 <= n -> 10 ^ (Z.of_nat (ndig_fuel fuel n) - 1) <= n).
Proof.
  induction fuel; intros n Hn Hb; cbn [ndig_fuel].
  - cbn in *. lia.
  - destruct (Z.ltb_spec n 10).
    + cbn. lia.
    + assert (Hd : 0 <= n / 10) by (apply Z.div_pos; lia).
      assert (Hm : n = 10 * (n / 10) + n mod 10) by (apply Z.div_mod; lia).
      assert (Hr := Z.mod_pos_bound n 10 ltac:(lia)).
      assert (Hb' : n / 10 < 2 ^ (Z.of_nat fuel + 1)).
      { rewrite Nat2Z.inj_succ in Hb. replace (Z.succ (Z.of_nat fuel) + 1) with (Z.succ (Z.of_nat fuel + 1)) in Hb by lia.
        rewrite Z.pow_succ_r in Hb by lia. lia. }
      destruct (IHfuel (n / 10) Hd Hb') as (A & B & C).
      set (k := ndig_fuel fuel (n / 10)) in *.
      rewrite Nat2Z.inj_succ. rewrite Z.pow_succ_r by lia.
      split; [lia|]. split; [lia|]. intros _.
      replace (Z.succ (Z.of_nat k) - 1) with (Z.succ (Z.of_nat k - 1)) by lia.
      rewrite Z.pow_succ_r by lia. assert (10 ^ (Z.of_nat k - 1) <= n / 10); [apply C|]; lia.
Qed.

Lemma ndig_spec n : 0 <= n ->
  n < 10 ^ Z.of_nat (ndig n) /\ (1 <= ndig n)%nat /\ (1 <= n -> 10 ^ (Z.of_nat (ndig n) - 1) <= n).
Proof.
  intros Hn. unfold ndig. apply ndig_fuel_spec; auto.
  rewrite Z2Nat.id by apply Z.log2_nonneg.
  destruct (Z.eq_dec n 0) as [->|]; [cbn; lia|].
  replace (Z.log2 n + 1) with (Z.succ (Z.log2 n)) by lia. apply Z.log2_spec. lia.
Qed.

Lemma ndig_le n k : 0 <= n < 10 ^ Z.of_nat k -> (1 <= k)%nat -> (ndig n <= k)%nat.
Proof.
  intros [A B] Hk. destruct (ndig_spec n A) as (_ & C & D).
  destruct (Z.eq_dec n 0) as [->|]; [cbn; lia|].
  assert (E := D ltac:(lia)).
  destruct (Nat.le_gt_cases (ndig n) k); auto. exfalso.
  assert (10 ^ Z.of_nat k <= 10 ^ (Z.of_nat (ndig n) - 1)) by (apply Z.pow_le_mono_r; lia). lia.
Qed.

Lemma print_nonneg_digits n : Forall isdig (print_nonneg n).
Proof. apply digits_w_digits. Qed.
Lemma print_nonneg_length n : List.length (print_nonneg n) = ndig n.
Proof. apply digits_w_length. Qed.
Lemma print_nonneg_val n : 0 <= n -> digits_val (print_nonneg n) = n.
Proof.
  intros H. unfold print_nonneg. rewrite digits_val_w by assumption.
  apply Z.mod_small. split; auto. now apply ndig_spec.
Qed.
Lemma print_nonneg_nonempty n : 0 <= n -> print_nonneg n <> [].
Proof. intros H E. apply (f_equal (@List.length _)) in E. rewrite print_nonneg_length in E. cbn in E.
  destruct (ndig_spec n H) as (_ & B & _). lia. Qed.

(** Text after a number that does not extend it. *)
Definition no_digit_head (t : bytes) : Prop :=
  match t with [] => True | c :: _ => is_digit c = false end.

Lemma span_digits_app a t : Forall isdig a -> no_digit_head t -> span_digits (a ++ t) = (a, t).
Proof.
  induction 1; intros N; cbn.
  - destruct t as [|c t]; cbn in *; auto. now rewrite N.
  - rewrite H. now rewrite IHForall.
Qed.
Lemma span_digits_digits s a b : span_digits s = (a, b) -> Forall isdig a /\ s = a ++ b /\ no_digit_head b.
Proof.
  revert a b. induction s as [|c s IH]; cbn; intros a b E.
  - inversion E; subst. repeat split; constructor.
  - destruct (is_digit c) eqn:D.
    + destruct (span_digits s) as [a' b'] eqn:E'. inversion E; subst.
      destruct (IH a' b eq_refl) as (F & S & N). repeat split; auto. cbn. now rewrite S.
    + inversion E; subst. repeat split; [constructor|auto].
Qed.

Lemma isdig_props c : isdig c -> isspace c = false /\ Ascii.eqb c "-" = false /\ Ascii.eqb c "+" = false.
Proof.
  unfold isdig, is_digit, isspace. intros H. repeat split.
  - lia.
  - destruct (Ascii.eqb_spec c "-"); subst; auto.
  - destruct (Ascii.eqb_spec c "+"); subst; auto.
Qed.

Lemma take_sign_digits a t : Forall isdig a -> a <> [] -> take_sign (drop_space (a ++ t)) = (false, a ++ t).
Proof.
  intros F N. destruct F as [|c a H F]; [congruence|]. cbn.
  destruct (isdig_props c H) as (A & B & C). rewrite A. cbn. now rewrite B, C.
Qed.
Lemma take_sign_minus s : take_sign (drop_space ("-"%char :: s)) = (true, s).
Proof. reflexivity. Qed.

(** stoi reads back what `os << int` printed. *)
Lemma stoi_print z t : -2147483648 <= z <= 2147483647 -> no_digit_head t ->
  stoi (print_Z z ++ t) = Ok (z, t).
Proof.
  intros R N. unfold stoi, print_Z.
  assert (E : forall n s, 0 <= n -> take_sign (drop_space s) = (false, print_nonneg n ++ t) -> n <= 2147483647 ->
    (let '(neg, s1) := take_sign (drop_space s) in
     let '(ds, rest) := span_digits s1 in
     match ds with
     | [] => Throw
     | _ => let v := if neg then - digits_val ds else digits_val ds in
         if (-2147483648 <=? v) && (v <=? 2147483647) then Ok (v, rest) else Throw
     end) = Ok (n, t)).
  { intros n s Hn Hs Hr. rewrite Hs. rewrite span_digits_app by (auto using print_nonneg_digits).
    assert (NE := print_nonneg_nonempty n Hn). assert (V := print_nonneg_val n Hn).
    destruct (print_nonneg n) as [|c l]; [congruence|]. cbv zeta. rewrite V.
    replace ((-2147483648 <=? n) && (n <=? 2147483647)) with true by lia. reflexivity. }
  destruct (Z.ltb_spec z 0).
  - cbn [app]. rewrite take_sign_minus.
    rewrite span_digits_app by (auto using print_nonneg_digits).
    assert (NE := print_nonneg_nonempty (- z) ltac:(lia)). assert (V := print_nonneg_val (- z) ltac:(lia)).
    destruct (print_nonneg (- z)) as [|c l]; [congruence|]. cbv zeta. rewrite V.
    replace (- - z) with z by lia.
    replace ((-2147483648 <=? z) && (z <=? 2147483647)) with true by lia. reflexivity.
  - apply (E z); try lia. apply take_sign_digits; auto using print_nonneg_digits.
    apply print_nonneg_nonempty. lia.
Qed.

Lemma stoul_print z t : 0 <= z < 2 ^ 64 -> no_digit_head t ->
  stoul (print_Z z ++ t) = Ok (z, t).
Proof.
  intros R N. unfold stoul, print_Z. destruct (Z.ltb_spec z 0); [lia|].
  rewrite take_sign_digits by (auto using print_nonneg_digits; apply print_nonneg_nonempty; lia).
  rewrite span_digits_app by (auto using print_nonneg_digits).
  assert (NE := print_nonneg_nonempty z ltac:(lia)). assert (V := print_nonneg_val z ltac:(lia)).
  destruct (print_nonneg z) as [|c l]; [congruence|]. rewrite V.
  destruct (Z.ltb_spec z (2 ^ 64)); [reflexivity|lia].
Qed.

Lemma print_Z_length z k : Z.abs z < 10 ^ Z.of_nat k -> (1 <= k)%nat -> (1 <= List.length (print_Z z) <= S k)%nat.
Proof.
  intros H Hk. unfold print_Z. destruct (Z.ltb_spec z 0); cbn [List.length]; rewrite print_nonneg_length.
  - assert (ndig (- z) <= k)%nat by (apply ndig_le; lia). lia.
  - assert (ndig z <= k)%nat by (apply ndig_le; lia). destruct (ndig_spec z) as (_ & B & _); lia.
Qed.

Lemma isdig_not_space s : Forall isdig s -> Forall (fun c => isspace c = false) s.
Proof. intros F. eapply Forall_impl; [|exact F]. intros c H. now apply isdig_props. Qed.
Lemma print_Z_not_space z : Forall (fun c => isspace c = false) (print_Z z).
Proof.
  unfold print_Z. destruct (z <? 0); [constructor; auto|]; apply isdig_not_space, print_nonneg_digits.
Qed.
