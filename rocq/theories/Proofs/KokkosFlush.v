(** The flush rate of the Kokkos connector. *)
From Coq Require Import ZArith Bool Ascii String Lia List.
From Verif Require Import Model.Base Model.Decimal Model.ModelStringM Model.ConfigM Model.KokkosM
  Spec.NumeralSpec Spec.FlushSpec Proofs.TreeFacts Proofs.DecimalInt Proofs.Numerals Proofs.ModelStringFacts Proofs.KokkosDefects.
Import ListNotations.
Open Scope Z_scope.

Lemma prefix_of_iff p : forall s, prefix_of p s = true <-> exists t, s = p ++ t.
Proof.
  induction p as [|x p IH]; intros s; cbn [prefix_of].
  - split; [intros _; exists s; reflexivity|reflexivity].
  - destruct s as [|y s]; [split; [discriminate|intros (t & H); discriminate H]|]. rewrite andb_true_iff, IH. split.
    + intros (E & t & ->). apply Ascii.eqb_eq in E as ->. exists t. reflexivity.
    + intros (t & H). injection H as -> ->. split; [apply Ascii.eqb_refl|exists t; reflexivity].
Qed.
Lemma contains_iff p : forall s, contains p s = true <-> exists a b, s = a ++ p ++ b.
Proof.
  induction s as [|c s IH]; cbn [contains]; rewrite orb_true_iff, prefix_of_iff.
  - split; [intros [(t & H)|H]; [exists [], t; exact H|discriminate H]|]. intros (a & b & H). left. symmetry in H. apply app_eq_nil in H as (-> & H). exists b. symmetry. exact H.
  - rewrite IH. split.
    + intros [(t & ->)|(a & b & ->)]; [exists [], t; reflexivity|exists (c :: a), b; reflexivity].
    + intros (a & b & H). destruct a as [|x a]; [left; exists b; exact H|]. right. injection H as -> ->. exists a, b. reflexivity.
Qed.

Lemma find_char_split c s n : find_char c s = Some n -> exists a, s = a ++ c :: skipn (S n) s /\ ~ In c a.
Proof.
  revert n. induction s as [|x s IH]; cbn [find_char]; intros n E; [discriminate E|]. destruct (Ascii.eqb_spec x c) as [->|N].
  - injection E as <-. exists []. split; [reflexivity|intros []].
  - destruct (find_char c s) as [k|]; [|discriminate E]. injection E as <-. destruct (IH k eq_refl) as (a & E & I). exists (x :: a). split.
    + cbn [app]. f_equal. exact E.
    + intros [X|X]; [exact (N X)|exact (I X)].
Qed.
Lemma find_char_none c s : find_char c s = None -> ~ In c s.
Proof.
  induction s as [|x s IH]; cbn [find_char]; intros E; [intros []|]. destruct (Ascii.eqb_spec x c) as [->|N]; [discriminate E|].
  destruct (find_char c s); [discriminate E|]. intros [X|X]; [exact (N X)|exact (IH eq_refl X)].
Qed.

Lemma atoi_reads s z : atoi s = Ok z -> leading_number s z.
Proof.
  unfold atoi. intros E. destruct (drop_space_inv s) as (sp & S & W). destruct (take_sign (drop_space s)) as [neg s1] eqn:T.
  destruct (span_digits s1) as [ds rest] eqn:D. apply take_sign_inv in T as (sg & TS & SG). apply span_digits_digits in D as (I & -> & N).
  destruct (places_dec ds I) as (vs & P). destruct (dec_places ds vs P) as (_ & V & L).
  exists sp, sg, neg, ds, vs, rest. split; [rewrite S, TS; reflexivity|]. split; [exact W|]. split; [exact SG|]. split; [exact P|]. split.
  { intros c d H G. destruct rest as [|x rest]; [discriminate H|]. injection H as ->. cbn [no_digit_head] in N. apply dec_digit in G as [G _]. unfold isdig in G. congruence. }
  rewrite <- V. destruct ds as [|x ds].
  - injection E as <-. change (digits_val []) with 0. split; [destruct neg; reflexivity|lia].
  - destruct (andb (- 2 ^ 31 <=? (if neg then - digits_val (x :: ds) else digits_val (x :: ds))) ((if neg then - digits_val (x :: ds) else digits_val (x :: ds)) <? 2 ^ 31)) eqn:B; [|discriminate E].
    apply andb_true_iff in B as (B1 & B2). apply Z.leb_le in B1. apply Z.ltb_lt in B2. injection E as <-. split; [reflexivity|lia].
Qed.

Lemma parse_loop_rate args : forall o flush o' flush', parse_loop args o flush = Ok (o', flush') -> flush_rate args flush flush'.
Proof.
  induction args as [|arg args IH]; intros o flush o' flush' E; cbn [parse_loop] in E.
  { injection E as <- <-. left. split; [constructor|reflexivity]. }
  assert (SKIP : forall o'', ~ about_flushing arg -> parse_loop args o'' flush = Ok (o', flush') -> flush_rate (arg :: args) flush flush').
  { intros o'' N E'. destruct (IH _ _ _ _ E') as [(F & ->)|(a1 & b & a2 & t & -> & R)]; [left; split; [constructor; assumption|reflexivity]|right; exists (arg :: a1), b, a2, t; split; [reflexivity|exact R]]. }
  assert (NC : contains ($"--flush-rate=") arg = false -> ~ about_flushing arg) by (intros C A; apply contains_iff in A; congruence).
  destruct (bytes_eqb arg ($"--disable_retrain")) eqn:A; [apply bytes_eqb_eq in A as ->; exact (SKIP _ (NC eq_refl) E)|].
  destruct (bytes_eqb arg ($"--distributed-training")) eqn:B; [apply bytes_eqb_eq in B as ->; exact (SKIP _ (NC eq_refl) E)|].
  destruct (bytes_eqb arg ($"--trace")) eqn:C; [apply bytes_eqb_eq in C as ->; exact (SKIP _ (NC eq_refl) E)|].
  destruct (contains ($"--flush-rate=") arg) eqn:D; [|exact (SKIP _ (NC eq_refl) E)].
  apply bind_inv in E as (z & Z & E). apply contains_iff in D. destruct (IH _ _ _ _ E) as [(F & ->)|(a1 & b & a2 & t & -> & R)]; [|right; exists (arg :: a1), b, a2, t; split; [reflexivity|exact R]].
  right. destruct (find_char "=" arg) as [n|] eqn:FC.
  - exists [], arg, args, (skipn (S n) arg). split; [reflexivity|]. split; [exact D|]. split; [exact F|]. split; [exact (find_char_split _ _ _ FC)|]. exact (atoi_reads _ _ Z).
  - exfalso. apply find_char_none in FC. apply FC. destruct D as (a & b & ->). apply in_or_app. right. cbn. auto 20.
Qed.

Lemma parsed_rate args env flush env' flush' : parse_args args env flush = Ok (env', flush') -> flush_rate args flush flush'.
Proof.
  unfold parse_args. intros H. apply bind_inv in H. destruct H as ([o fl] & L & H). apply bind_inv in H. destruct H as (x & _ & H). apply bind_inv in H. destruct H as (y & _ & H).
  apply bind_inv in H. destruct H as (z & _ & H). cbv zeta in H. assert (OKE : forall (A B : Type) (a a' : A) (b b' : B), Ok (a, b) = Ok (a', b') -> b = b') by congruence. apply OKE in H. subst fl.
  exact (parse_loop_rate _ _ _ _ _ L).
Qed.
