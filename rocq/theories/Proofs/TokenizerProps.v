(** The tokenizer properties in specification vocabulary. *)
From Coq Require Import List ZArith Bool Ascii String Lia.
From Verif Require Import Model.Base Model.Decimal Model.ParserM Spec.TokenSpec Proofs.ParserFacts Proofs.LoadFacts.
Import ListNotations.

Lemma cstr_no_nul w : ~ In nul w -> cstr w = w.
Proof.
  induction w as [|c w IH]; cbn [cstr]; auto. intros N. destruct (Ascii.eqb_spec c nul); [exfalso; apply N; left; auto|].
  rewrite IH; auto. intros H. apply N. now right.
Qed.

Lemma tokenizer_returns b w c r p : p_in p = b ++ w ++ c :: r ->
  blank b -> word w -> (List.length w <= 63)%nat -> white c -> ~ In nul w ->
  exists p', get_next_token p = Ok p' /\ token p' = w /\ p_in p' = c :: r.
Proof.
  intros E B (N & F & H) L C NU. apply word_nonspace in F. apply isspace_white in C.
  exists (mkParser (c :: r) w 0). split; [eapply next_token; eauto; lia|]. split; auto.
  unfold token. cbn. now apply cstr_no_nul.
Qed.

Lemma tokenizer_outcomes p :
  (get_next_token p = UB <-> ends_too_early (p_in p)) /\
  (get_next_token p = Abort <->
     exists b w r, p_in p = b ++ w ++ r /\ blank b /\ word w /\ List.length w = 64%nat) /\
  (forall p', get_next_token p = Ok p' -> (List.length (p_buf p') < 64)%nat) /\
  get_next_token p <> Throw /\ get_next_token p <> Fuel.
Proof.
  split; [|split; [|split; [|split; [apply get_next_token_no_throw|apply get_next_token_no_fuel]]]].
  - split; [|apply next_token_early]. intros E. assert (C := classify p). rewrite E in C. now inversion C.
  - split.
    + intros E. assert (C := classify p). rewrite E in C. inversion C as [| |b w r E0 B F H L|]; subst.
      exists b, (firstn 64 w), (skipn 64 w ++ r). split; [rewrite (app_assoc (firstn 64 w)), firstn_skipn; exact E0|].
      split; auto. split.
      * split; [destruct w; [cbn in L; lia|discriminate]|]. split; [|destruct w; auto].
        apply word_nonspace. rewrite Forall_forall in *. intros x I. apply F. rewrite <- (firstn_skipn 64 w). apply in_or_app. now left.
      * rewrite firstn_length. lia.
    + intros (b & w & r & E & B & (N & F & H) & L). apply word_nonspace in F. eapply next_token_long; eauto. lia.
  - intros p' E. assert (C := classify p). rewrite E in C. inversion C; subst; cbn; [lia|assumption].
Qed.
