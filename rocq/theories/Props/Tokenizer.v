(** Properties C07-C08: the tokenizer. *)
From Coq Require Import List ZArith Bool Ascii String PeanoNat.
From Verif Require Import Model.Base Model.ParserM Spec.TokenSpec Proofs.TokenizerProps.
Import ListNotations.

Theorem C07_next_token : forall b w c r p,
  p_in p = b ++ w ++ c :: r ->
  blank b -> word w -> (List.length w <= 63)%nat -> white c -> ~ In nul w ->
  exists p', get_next_token p = Ok p' /\ token p' = w /\ p_in p' = c :: r.
Proof. exact tokenizer_returns. Qed.
Print Assumptions C07_next_token.

Example C07_nonvacuous :
  let p := new_parser ($"  # a comment # here" ++ nl :: $"# another" ++ nl :: $" data: { x") in
  exists p', get_next_token p = Ok p' /\ token p' = $"data:" /\ p_in p' = $" { x".
Proof.
  cbv zeta. apply (C07_next_token ($"  # a comment # here" ++ nl :: $"# another" ++ nl :: $" ") ($"data:") " "%char ($"{ x")).
  - reflexivity.
  - do 2 (apply blank_white; [now left|]).
    apply (blank_comment ($" a comment # here") ($"# another" ++ nl :: $" ")); [cbn; intuition discriminate|].
    apply (blank_comment ($" another") ($" ")); [cbn; intuition discriminate|].
    apply blank_white; [now left|constructor].
  - split; [discriminate|]. split; [|discriminate]. repeat constructor; cbn; intuition discriminate.
  - apply Nat.leb_le. reflexivity.
  - now left.
  - cbn. intuition discriminate.
Qed.

Theorem C08_token_buffer : forall p,
  (get_next_token p = UB <-> ends_too_early (p_in p)) /\
  (get_next_token p = Abort <->
     exists b w r, p_in p = b ++ w ++ r /\ blank b /\ word w /\ List.length w = 64%nat) /\
  (forall p', get_next_token p = Ok p' -> (List.length (p_buf p') < 64)%nat) /\
  get_next_token p <> Throw /\ get_next_token p <> Fuel.
Proof. exact tokenizer_outcomes. Qed.
Print Assumptions C08_token_buffer.

Example C08_nonvacuous :
  get_next_token (new_parser (List.repeat "x"%char 64)) = Abort /\
  get_next_token (new_parser (List.repeat "x"%char 63)) = UB /\
  (exists p', get_next_token (new_parser (List.repeat "x"%char 63 ++ $" ")) = Ok p' /\
     List.length (p_buf p') = 63%nat).
Proof. split; [reflexivity|]. split; [reflexivity|]. eexists. split; reflexivity. Qed.
