(** Streams that deliver a known sequence of tokens. *)
From Coq Require Import List ZArith Bool Ascii String Lia.
From Verif Require Import Model.Base Model.Float Model.Decimal Model.ParserM Spec.TokenSpec
  Proofs.ParserFacts Proofs.LoadFacts.
Import ListNotations.
Open Scope Z_scope.

Definition starts_white (s : bytes) : Prop := exists c r, s = c :: r /\ isspace c = true.

(** [feeds s ws r]: reading tokens from [s] gives the words [ws] and leaves [r]. *)
Inductive feeds : bytes -> list bytes -> bytes -> Prop :=
| feeds_nil r : feeds r [] r
| feeds_cons b w s ws r s0 : s0 = b ++ w ++ s -> blank b -> good_word w -> starts_white s -> feeds s ws r ->
    feeds s0 (w :: ws) r.

Lemma feeds_app s ws r ws' r' : feeds s ws r -> feeds r ws' r' -> feeds s (ws ++ ws') r'.
Proof. induction 1; cbn; intros; auto. econstructor; eauto. Qed.

Lemma blank_app b b' : blank b -> blank b' -> blank (b ++ b').
Proof.
  induction 1; intros; cbn; auto; [apply blank_white; auto|]. rewrite <- app_assoc. cbn. apply blank_comment; auto.
Qed.

Lemma feeds_blank b s w ws r : blank b -> feeds s (w :: ws) r -> feeds (b ++ s) (w :: ws) r.
Proof.
  intros B F. inversion F; subst. eapply (feeds_cons (b ++ b0)); eauto using blank_app. now rewrite app_assoc.
Qed.

Lemma feeds_next s w ws r buf off : feeds s (w :: ws) r ->
  exists s', get_next_token (mkParser s buf off) = Ok (mkParser s' w 0) /\ feeds s' ws r.
Proof.
  intros F. inversion F as [|b ? s' ? ? ? E B G (c & q & -> & C) F']; subst. exists (c :: q). split; auto.
  now apply next_word.
Qed.

Lemma feeds_good s w ws r : feeds s (w :: ws) r -> good_word w.
Proof. intros F; inversion F; auto. Qed.

Lemma feeds_expect s w ws r buf off : feeds s (w :: ws) r ->
  exists s', expect_next w (mkParser s buf off) = Ok (mkParser s' w 0) /\ feeds s' ws r.
Proof.
  intros F. destruct (feeds_next _ _ _ _ buf off F) as (s' & E & F'). exists s'. split; auto.
  unfold expect_next. rewrite E. cbn [bind]. unfold parse_expected, token_is.
  rewrite token_at by apply (feeds_good _ _ _ _ F). now rewrite bytes_eqb_refl.
Qed.

Lemma feeds_length s ws r : feeds s ws r -> (List.length ws + List.length r <= List.length s)%nat.
Proof.
  induction 1; cbn [List.length]; [lia|]. subst. rewrite !app_length.
  destruct w; [destruct H1 as [X _]; congruence|]. cbn [List.length]. lia.
Qed.

(** What the parser sees after reading one token. *)
Lemma token_is_word s w x : good_word w -> token_is (mkParser s w 0) x = bytes_eqb w x.
Proof. intros G. unfold token_is. now rewrite token_at by apply G. Qed.

Lemma after_number s a t : Forall clean (a ++ t) -> parse_expected t (mkParser s (a ++ t) (List.length a)) =
  Ok (mkParser s (a ++ t) (List.length a)).
Proof.
  intros F. unfold parse_expected, token_is. rewrite (proj2 (after_parse_at s a t F)). now rewrite bytes_eqb_refl.
Qed.

(** Text that delivers words, whatever follows. *)
Definition delivers (s : bytes) (ws : list bytes) : Prop :=
  forall r w' ws' r', feeds r (w' :: ws') r' -> feeds (s ++ r) (ws ++ w' :: ws') r'.

Lemma delivers_app s ws s' ws' : delivers s ws -> delivers s' ws' -> delivers (s ++ s') (ws ++ ws').
Proof.
  intros D D' r w q r' F. rewrite <- !app_assoc. specialize (D' _ _ _ _ F).
  destruct ws' as [|w1 q1]; cbn [app] in *; apply D; auto.
Qed.

Lemma delivers_nil : delivers [] [].
Proof. intros r w q r' F. exact F. Qed.

Lemma delivers_blank b : blank b -> delivers b [].
Proof. intros B r w q r' F. now apply feeds_blank. Qed.

Lemma feeds_space c r w ws r' : isspace c = true -> feeds r (w :: ws) r' -> feeds (c :: r) (w :: ws) r'.
Proof.
  intros C F. apply (feeds_blank [c]); auto. apply blank_white; [|constructor]. now apply isspace_white.
Qed.

Lemma delivers_word w c : good_word w -> isspace c = true -> delivers (w ++ [c]) [w].
Proof.
  intros G C r w' q r' F. eapply (feeds_cons [] w (c :: r)); auto.
  - now rewrite <- app_assoc.
  - constructor.
  - exists c, r. auto.
  - now apply feeds_space.
Qed.

(** Words separated by single spaces. *)
Fixpoint join (ws : list bytes) : bytes :=
  match ws with
  | [] => []
  | [w] => w
  | w :: r => w ++ $" " ++ join r
  end.

Lemma delivers_join ws : Forall good_word ws -> ws <> [] -> delivers (join ws ++ [nl]) ws.
Proof.
  induction 1 as [|w r G F IH]; [congruence|]. intros _. destruct r as [|w1 r].
  - cbn [join]. now apply delivers_word.
  - assert (D := IH ltac:(discriminate)). cbn [join]. cbn [join] in D.
    replace ((w ++ $" " ++ _) ++ [nl]) with ((w ++ [" "%char]) ++ join (w1 :: r) ++ [nl]).
    2:{ now rewrite <- !app_assoc. }
    change (w :: w1 :: r) with ([w] ++ w1 :: r). apply delivers_app; auto. now apply delivers_word.
Qed.
