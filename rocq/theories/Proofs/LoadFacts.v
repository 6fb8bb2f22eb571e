(** Steps of the text loaders on well-formed text. *)
From Coq Require Import List ZArith Bool Ascii String Lia.
From Coq Require Import ZifyBool.
From Flocq Require Import BinarySingleNaN.
From Verif Require Import Model.Base Model.Float Model.Decimal Model.ParserM
  Spec.TokenSpec Spec.DecimalSpec Proofs.DecimalInt Proofs.DecimalFloat Proofs.DecimalRead Proofs.ParserFacts.
Import ListNotations.
Open Scope Z_scope.

Definition clean (c : ascii) : Prop := isspace c = false /\ c <> nul.

(** A token usable by the loaders. *)
Definition good_word (w : bytes) : Prop :=
  w <> [] /\ Forall clean w /\ hd_error w <> Some "#"%char /\ (List.length w < 64)%nat.

Lemma cstr_clean w : Forall clean w -> cstr w = w.
Proof.
  induction 1 as [|c w [_ N] F IH]; cbn [cstr]; auto.
  destruct (Ascii.eqb_spec c nul); [congruence|]. now rewrite IH.
Qed.
Lemma clean_nonspace w : Forall clean w -> Forall nonspace w.
Proof. apply Forall_impl. now intros c [H _]. Qed.

Lemma bytes_eqb_spec a b : bytes_eqb a b = true <-> a = b.
Proof.
  revert b. induction a as [|x a IH]; destruct b as [|y b]; cbn [bytes_eqb]; split; intros H; try congruence.
  - apply andb_prop in H as [H1 H2]. apply Ascii.eqb_eq in H1. apply IH in H2. congruence.
  - inversion H; subst. rewrite Ascii.eqb_refl. cbn. now apply IH.
Qed.
Lemma bytes_eqb_refl a : bytes_eqb a a = true.
Proof. now apply bytes_eqb_spec. Qed.
Lemma bytes_eqb_neq a b : a <> b -> bytes_eqb a b = false.
Proof. intros N. destruct (bytes_eqb a b) eqn:E; auto. apply bytes_eqb_spec in E. congruence. Qed.

Definition at_token (p : parser) (w : bytes) (s : bytes) : Prop := p = mkParser s w 0.

Lemma token_at s w : Forall clean w -> token (mkParser s w 0) = w.
Proof. intros F. unfold token. cbn [p_off p_buf skipn]. now apply cstr_clean. Qed.

Lemma next_word b w c r buf off : blank b -> good_word w -> isspace c = true ->
  get_next_token (mkParser (b ++ w ++ c :: r) buf off) = Ok (mkParser (c :: r) w 0).
Proof.
  intros B (N & F & H & L) C. eapply next_token; eauto; try reflexivity. now apply clean_nonspace.
Qed.

Lemma expect_word b w c r buf off : blank b -> good_word w -> isspace c = true ->
  expect_next w (mkParser (b ++ w ++ c :: r) buf off) = Ok (mkParser (c :: r) w 0).
Proof.
  intros B G C. unfold expect_next. rewrite next_word by assumption. cbn [bind].
  unfold parse_expected, token_is. rewrite token_at by apply G. now rewrite bytes_eqb_refl.
Qed.

Lemma skipn_app_exact {A} (a b : list A) : skipn (List.length a) (a ++ b) = b.
Proof. induction a; cbn; auto. Qed.

(** After a number has been read from the front of a token, the token is what follows it. *)
Lemma after_parse_at s a t : Forall clean (a ++ t) ->
  after_parse (mkParser s (a ++ t) 0) t = mkParser s (a ++ t) (List.length a) /\
  token (mkParser s (a ++ t) (List.length a)) = t.
Proof.
  intros F. split.
  - unfold after_parse. rewrite token_at by assumption. cbn [p_in p_buf]. f_equal. rewrite app_length. lia.
  - unfold token. cbn [p_off p_buf]. rewrite skipn_app_exact. apply Forall_app in F as [_ F]. now apply cstr_clean.
Qed.

Lemma parse_int_at s a t v : Forall clean (a ++ t) -> stoi (a ++ t) = Ok (v, t) ->
  parse_int (mkParser s (a ++ t) 0) = Ok (v, mkParser s (a ++ t) (List.length a)).
Proof.
  intros F E. unfold parse_int. rewrite token_at by assumption. rewrite E. cbn [bind fst snd].
  now rewrite (proj1 (after_parse_at s a t F)).
Qed.
Lemma parse_float_at s a t v : Forall clean (a ++ t) -> stof (a ++ t) = Ok (v, t) ->
  parse_float (mkParser s (a ++ t) 0) = Ok (v, mkParser s (a ++ t) (List.length a)).
Proof.
  intros F E. unfold parse_float. rewrite token_at by assumption. rewrite E. cbn [bind fst snd].
  now rewrite (proj1 (after_parse_at s a t F)).
Qed.
Lemma parse_double_at s a t v : Forall clean (a ++ t) -> stod (a ++ t) = Ok (v, t) ->
  parse_double (mkParser s (a ++ t) 0) = Ok (v, mkParser s (a ++ t) (List.length a)).
Proof.
  intros F E. unfold parse_double. rewrite token_at by assumption. rewrite E. cbn [bind fst snd].
  now rewrite (proj1 (after_parse_at s a t F)).
Qed.
Lemma parse_ulong_at s a t v : Forall clean (a ++ t) -> stoul (a ++ t) = Ok (v, t) ->
  parse_ulong (mkParser s (a ++ t) 0) = Ok (v, mkParser s (a ++ t) (List.length a)).
Proof.
  intros F E. unfold parse_ulong. rewrite token_at by assumption. rewrite E. cbn [bind fst snd].
  now rewrite (proj1 (after_parse_at s a t F)).
Qed.
Lemma parse_uint_at s a t v : Forall clean (a ++ t) -> stoul (a ++ t) = Ok (v, t) ->
  parse_uint (mkParser s (a ++ t) 0) = Ok (v mod 2 ^ 32, mkParser s (a ++ t) (List.length a)).
Proof.
  intros F E. unfold parse_uint. rewrite token_at by assumption. rewrite E. cbn [bind fst snd].
  now rewrite (proj1 (after_parse_at s a t F)).
Qed.
Lemma parse_expected_at s a t : Forall clean (a ++ t) ->
  parse_expected t (mkParser s (a ++ t) (List.length a)) = Ok (mkParser s (a ++ t) (List.length a)).
Proof.
  intros F. unfold parse_expected, token_is. rewrite (proj2 (after_parse_at s a t F)). now rewrite bytes_eqb_refl.
Qed.

(** Printed numbers are good words. *)
Lemma isdig_clean l : Forall isdig l -> Forall clean l.
Proof.
  apply Forall_impl. intros c H. split; [now apply isdig_props|]. intros ->. discriminate H.
Qed.
Lemma print_Z_clean z : Forall clean (print_Z z).
Proof.
  unfold print_Z. destruct (z <? 0); [constructor; [split; [reflexivity|discriminate]|]|];
    apply isdig_clean, print_nonneg_digits.
Qed.
Lemma numchar_clean l : Forall numchar l -> Forall clean l.
Proof.
  apply Forall_impl. intros c [H|[->|[->|[->| ->]]]]; try (split; [reflexivity|discriminate]).
  split; [now apply isdig_props|]. intros ->. discriminate H.
Qed.
Lemma print_float_clean {prec emax} (x : binary_float prec emax) : Forall clean (print_float x).
Proof.
  destruct x as [s|s| |s m e b]; cbn [print_float].
  - destruct s; repeat constructor; discriminate.
  - destruct s; repeat constructor; discriminate.
  - repeat constructor; discriminate.
  - destruct (ratio_of m e) as [n d]. destruct (dec6 n d) as [D X].
    apply Forall_app. split; [destruct s; repeat constructor; discriminate|]. apply numchar_clean, fmt_g_chars.
Qed.
Lemma hd_error_app {A} (a b : list A) : a <> [] -> hd_error (a ++ b) = hd_error a.
Proof. destruct a; [congruence|reflexivity]. Qed.

Lemma digits_hd l : l <> [] -> Forall isdig l -> hd_error l <> Some "#"%char.
Proof. intros N F. destruct F; [congruence|]. cbn. intros E. inversion E; subst. discriminate H. Qed.
Lemma print_Z_hd z : hd_error (print_Z z) <> Some "#"%char /\ print_Z z <> [].
Proof.
  unfold print_Z. destruct (Z.ltb_spec z 0); [split; discriminate|].
  assert (N := print_nonneg_nonempty z ltac:(lia)). split; auto. apply digits_hd; auto using print_nonneg_digits.
Qed.
Lemma print_float_hd {prec emax} (x : binary_float prec emax) :
  hd_error (print_float x) <> Some "#"%char /\ print_float x <> [].
Proof.
  destruct x as [s|s| |s m e b]; cbn [print_float].
  - destruct s; split; discriminate.
  - destruct s; split; discriminate.
  - split; discriminate.
  - destruct (ratio_of m e) as [n d]. destruct (dec6 n d) as [D X].
    destruct s; [split; discriminate|]. cbn [app]. destruct (fmt_g_head D X) as (c & r & -> & Hc).
    split; [|discriminate]. cbn. intros E. inversion E; subst. discriminate Hc.
Qed.
