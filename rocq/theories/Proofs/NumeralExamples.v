(** What the examples of C103 use. *)
From Coq Require Import List ZArith Bool Reals Ascii String Lia Lra.
From Flocq Require Import Core BinarySingleNaN.
From Verif Require Import Model.Base Model.Float Model.Decimal Model.ParserM Spec.NumeralSpec Proofs.Numerals.
Import ListNotations.
Open Scope Z_scope.

Definition at_token (s : bytes) : parser := mkParser [] s 0.

Lemma dec_one c d : is_digit c = true -> digit_val c = d -> digit_of false c d.
Proof. intros A <-. apply dec_digit. auto. Qed.
Lemma hex_one c d : hex_val c = Some d -> digit_of true c d.
Proof. apply hex_digit. Qed.

Lemma stops_comma r : stops (","%char :: r).
Proof. cbn. intros X. repeat (destruct X as [X|X]; [discriminate X|]). exact X. Qed.

Lemma ex_hex : exists x, numeral_text ($"-0x1.8P+1") true x /\ x = 3%R.
Proof.
  eexists. split.
  - apply (hexadecimal ["-"%char] true ($"0x") ($"1") [1] ($".8") [8] ($"P+1") 1); try solve [constructor | cbn; auto | discriminate].
    + constructor; [apply hex_one; reflexivity|constructor].
    + constructor. constructor; [apply hex_one; reflexivity|constructor].
    + apply (an_exponent true "P" ["+"%char] false ($"1") [1]); [cbn; auto|constructor| |discriminate]. constructor; [apply dec_one; reflexivity|constructor].
  - change (value 16 ([1] ++ [8])) with 24. change (1 - 4 * Z.of_nat (List.length [8])) with (-3). unfold powerRZ. change (Pos.to_nat 3) with 3%nat. simpl. field.
Qed.

Lemma ex_large : exists x, numeral_text ($"1e39") false x /\ x = IZR (10 ^ 39).
Proof.
  eexists. split.
  - apply (decimal [] false ($"1") [1] [] [] ($"e39") 39); try solve [constructor | discriminate].
    + constructor; [apply dec_one; reflexivity|constructor].
    + apply (an_exponent false "e" [] false ($"39") [3; 9]); [cbn; auto|constructor| |discriminate]. repeat (constructor; [apply dec_one; reflexivity|]). constructor.
  - change (value 10 ([1] ++ [])) with 1. cbn [List.length Z.of_nat]. rewrite Z.sub_0_r, Rmult_1_l. cbn [powerRZ]. rewrite pow_IZR. f_equal.
Qed.

Definition is_b (o : outcome (f32 * parser)) (z : Z) (t : bytes) : bool :=
  match o with Ok (y, p) => match y with B754_finite _ _ _ _ => (if SpecFloat.SFeqb (B2SF y) (B2SF (f32_of_Z z)) then true else false) && bytes_eqb (token p) t | _ => false end | _ => false end.
Definition thrown_b {A} (o : outcome A) : bool := match o with Throw => true | _ => false end.
