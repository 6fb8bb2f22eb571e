(** The tokenizer. *)
From Coq Require Import List ZArith Bool Ascii String Lia.
From Coq Require Import ZifyBool.
From Verif Require Import Model.Base Model.Float Model.Decimal Model.ParserM Spec.TokenSpec.
Import ListNotations.
Open Scope Z_scope.

Definition nonspace (c : ascii) : Prop := isspace c = false.

Lemma isspace_white c : isspace c = true <-> white c.
Proof.
  split.
  - intros H. unfold isspace in H.
    assert (E : (N_of_ascii c = 32 \/ N_of_ascii c = 9 \/ N_of_ascii c = 10 \/ N_of_ascii c = 11 \/ N_of_ascii c = 12 \/ N_of_ascii c = 13)%N) by lia.
    rewrite <- (ascii_N_embedding c).
    unfold white. cbn [In].
    destruct E as [E|[E|[E|[E|[E|E]]]]]; rewrite E; vm_compute; tauto.
  - unfold white. cbn [In]. intros [<-|[<-|[<-|[<-|[<-|[<-|[]]]]]]]; reflexivity.
Qed.
Lemma nonspace_white c : nonspace c <-> ~ white c.
Proof. unfold nonspace. rewrite <- isspace_white. destruct (isspace c); split; congruence. Qed.
Lemma word_nonspace w : Forall (fun c => ~ white c) w <-> Forall nonspace w.
Proof. split; apply Forall_impl; intros; now apply nonspace_white. Qed.

Lemma ignore_line_app text r : ~ In nl text -> ignore_line (text ++ nl :: r) = r.
Proof.
  induction text as [|c t IH]; cbn [ignore_line app]; intros N.
  - change (Ascii.eqb nl nl) with true. reflexivity.
  - destruct (Ascii.eqb_spec c nl); [exfalso; apply N; left; auto|]. apply IH. intros H. apply N. now right.
Qed.
Lemma ignore_line_none text : ~ In nl text -> ignore_line text = [].
Proof.
  induction text as [|c t IH]; cbn [ignore_line app]; intros N; auto.
  destruct (Ascii.eqb_spec c nl); [exfalso; apply N; left; auto|]. apply IH. intros H. apply N. now right.
Qed.
Lemma ignore_line_length s : (List.length (ignore_line s) <= List.length s)%nat.
Proof. induction s as [|c s IH]; cbn [ignore_line List.length]; auto. destruct (Ascii.eqb c nl); lia. Qed.

(** The three phases of getNextToken on the text after the position. *)
Definition skip_blank (s : bytes) : outcome bytes :=
  let* s1 := skip_space s in skip_comments (S (List.length s1)) s1.

Lemma skip_space_length s s' : skip_space s = Ok s' -> (List.length s' <= List.length s)%nat.
Proof.
  revert s'. induction s as [|c s IH]; cbn [skip_space]; intros s' E; [discriminate|].
  destruct (isspace c); [apply IH in E; cbn; lia|]. inversion E; subst. auto.
Qed.

Lemma skip_comments_fuel f1 : forall f2 s, (List.length s < f1)%nat -> (f1 <= f2)%nat ->
  skip_comments f1 s = skip_comments f2 s.
Proof.
  induction f1; intros f2 s L1 L2; [lia|]. destruct f2; [lia|]. cbn [skip_comments].
  destruct s as [|c s]; auto. destruct (Ascii.eqb_spec c "#"); auto. subst c.
  destruct (skip_space (ignore_line ("#"%char :: s))) as [s'| | | |] eqn:E; cbn [bind]; auto.
  apply IHf1; [|lia]. apply skip_space_length in E. cbn [ignore_line] in E. change (Ascii.eqb "#" nl) with false in E. cbv iota in E.
  assert (X := ignore_line_length s). cbn [List.length] in L1. lia.
Qed.

Lemma skip_blank_white c s : isspace c = true -> skip_blank (c :: s) = skip_blank s.
Proof. intros H. unfold skip_blank. cbn [skip_space]. now rewrite H. Qed.
Lemma skip_blank_hash s : skip_blank ("#"%char :: s) = skip_blank (ignore_line s).
Proof.
  unfold skip_blank at 1. cbn [skip_space]. change (isspace "#") with false. cbv iota. cbn [bind].
  cbn [skip_comments]. change (Ascii.eqb "#" "#") with true. cbv iota.
  cbn [ignore_line]. change (Ascii.eqb "#" nl) with false. cbv iota.
  unfold skip_blank. destruct (skip_space (ignore_line s)) as [s'| | | |] eqn:E; cbn [bind]; auto.
  symmetry. apply skip_comments_fuel; [lia|]. apply skip_space_length in E.
  assert (X := ignore_line_length s). cbn [List.length]. lia.
Qed.
Lemma skip_blank_other c s : isspace c = false -> c <> "#"%char -> skip_blank (c :: s) = Ok (c :: s).
Proof.
  intros H N. unfold skip_blank. cbn [skip_space]. rewrite H. cbn [bind skip_comments].
  destruct (Ascii.eqb_spec c "#"); [congruence|reflexivity].
Qed.
Lemma skip_blank_nil : skip_blank [] = UB.
Proof. reflexivity. Qed.

Lemma skip_blank_app b s : blank b -> skip_blank (b ++ s) = skip_blank s.
Proof.
  induction 1; cbn [app]; auto.
  - rewrite skip_blank_white; auto. now apply isspace_white.
  - rewrite skip_blank_hash. rewrite <- app_assoc. cbn [app]. rewrite ignore_line_app by assumption. auto.
Qed.

(** Every stream is blank text followed by nothing, an unfinished comment, or a word. *)
Lemma split_line s : ~ In nl s \/ exists t r, s = t ++ nl :: r /\ ~ In nl t.
Proof.
  induction s as [|c s [H|(t & r & E & N)]].
  - left. intros [].
  - destruct (Ascii.eqb_spec c nl).
    + right. exists [], s. subst. split; auto.
    + left. intros [|]; auto.
  - destruct (Ascii.eqb_spec c nl).
    + right. exists [], s. subst. split; auto.
    + right. exists (c :: t), r. subst s. split; auto. intros [|]; auto.
Qed.

Lemma split_word s : Forall nonspace s \/ exists w c r, s = w ++ c :: r /\ Forall nonspace w /\ isspace c = true.
Proof.
  induction s as [|c s [H|(w & d & r & E & N & D)]].
  - left. constructor.
  - destruct (isspace c) eqn:E.
    + right. exists [], c, s. repeat split; auto.
    + left. constructor; auto.
  - destruct (isspace c) eqn:F.
    + right. exists [], c, s. repeat split; auto.
    + right. exists (c :: w), d, r. subst s. repeat split; auto.
Qed.

Inductive stream_shape (s : bytes) : Prop :=
| shape_none b : s = b -> blank b -> stream_shape s
| shape_comment b text : s = b ++ "#"%char :: text -> blank b -> ~ In nl text -> stream_shape s
| shape_word b w : s = b ++ w -> blank b -> Forall nonspace w -> w <> [] -> hd_error w <> Some "#"%char -> stream_shape s
| shape_token b w c r : s = b ++ w ++ c :: r -> blank b -> Forall nonspace w -> w <> [] ->
    hd_error w <> Some "#"%char -> isspace c = true -> stream_shape s.

Lemma stream_shape_exists s : stream_shape s.
Proof.
  remember (List.length s) as n eqn:L. assert (L' : (List.length s <= n)%nat) by lia. clear L.
  revert s L'. induction n; intros s L.
  { destruct s; [|cbn in L; lia]. eapply shape_none; [reflexivity|constructor]. }
  destruct s as [|c s]; [eapply shape_none; [reflexivity|constructor]|]. cbn [List.length] in L.
  destruct (isspace c) eqn:E.
  - assert (W : white c) by now apply isspace_white.
    destruct (IHn s ltac:(lia)); subst.
    + eapply shape_none; [reflexivity|]. constructor; auto.
    + eapply (shape_comment _ (c :: b)); [reflexivity| |]; auto. constructor; auto.
    + eapply (shape_word _ (c :: b)); [reflexivity| | | |]; auto. constructor; auto.
    + eapply (shape_token _ (c :: b)); [reflexivity| | | | |]; auto. constructor; auto.
  - destruct (Ascii.eqb_spec c "#").
    + subst c. destruct (split_line s) as [N|(t & r & -> & N)].
      * eapply (shape_comment _ []); [reflexivity|constructor|auto].
      * assert (LR : (List.length r <= n)%nat) by (rewrite app_length in L; cbn [List.length] in L; lia).
        destruct (IHn r LR); subst.
        -- eapply shape_none; [reflexivity|]. apply blank_comment; auto.
        -- eapply (shape_comment _ ("#"%char :: t ++ nl :: b)); [cbn [app]; rewrite <- app_assoc; reflexivity| |]; auto. apply blank_comment; auto.
        -- eapply (shape_word _ ("#"%char :: t ++ nl :: b)); [cbn [app]; rewrite <- app_assoc; reflexivity| | | |]; auto. apply blank_comment; auto.
        -- eapply (shape_token _ ("#"%char :: t ++ nl :: b)); [cbn [app]; rewrite <- app_assoc; reflexivity| | | | |]; auto. apply blank_comment; auto.
    + destruct (split_word s) as [N|(w & d & r & -> & N & D)].
      * eapply (shape_word _ []); [reflexivity|constructor|constructor; auto|discriminate|cbn; congruence].
      * eapply (shape_token _ [] (c :: w) d r); [reflexivity|constructor|constructor; auto|discriminate|cbn; congruence|auto].
Qed.

(** The token loop. *)
Lemma take_token_word w : forall idx acc c r, Forall nonspace w -> isspace c = true ->
  idx + Z.of_nat (List.length w) < BUFSIZE ->
  take_token idx acc (w ++ c :: r) = Ok (rev acc ++ w, idx + Z.of_nat (List.length w), c :: r).
Proof.
  unfold BUFSIZE. induction w as [|x w IH]; intros idx acc c r F C L; cbn [app].
  - cbn [take_token List.length]. rewrite C. rewrite app_nil_r. do 3 f_equal. cbn. lia.
  - inversion F; subst. cbn [take_token]. unfold nonspace in H1. rewrite H1. cbn [List.length] in L. unfold BUFSIZE.
    replace (idx <? 64) with true by lia. cbn [negb]. replace (64 <=? idx + 1) with false by lia.
    rewrite IH by (auto; lia). cbn [rev List.length]. rewrite <- app_assoc. cbn [app]. do 3 f_equal. lia.
Qed.
Lemma take_token_long w : forall idx acc r, Forall nonspace w -> 0 <= idx < BUFSIZE ->
  BUFSIZE <= idx + Z.of_nat (List.length w) -> take_token idx acc (w ++ r) = Abort.
Proof.
  unfold BUFSIZE. induction w as [|x w IH]; intros idx acc r F B L; cbn [app].
  - cbn [List.length] in L. lia.
  - inversion F; subst. cbn [take_token]. unfold nonspace in H1. rewrite H1. cbn [List.length] in L. unfold BUFSIZE.
    replace (idx <? 64) with true by lia. cbn [negb]. destruct (Z.leb_spec 64 (idx + 1)); auto.
    apply IH; auto; lia.
Qed.
Lemma take_token_end w : forall idx acc, Forall nonspace w ->
  idx + Z.of_nat (List.length w) < BUFSIZE -> take_token idx acc w = UB.
Proof.
  unfold BUFSIZE. induction w as [|x w IH]; intros idx acc F L; cbn [take_token]; auto.
  inversion F; subst. unfold nonspace in H1. rewrite H1. cbn [List.length] in L. unfold BUFSIZE.
  replace (idx <? 64) with true by lia. cbn [negb]. replace (64 <=? idx + 1) with false by lia.
  apply IH; auto; lia.
Qed.

Lemma get_next_token_eq p : p_in p <> [] ->
  get_next_token p =
  let* s := skip_blank (p_in p) in
  let* r := take_token 0 [] s in
  let '(buf, idx, rest) := r in if negb (idx <? BUFSIZE) then UB else Ok (mkParser rest buf 0).
Proof.
  intros N. unfold get_next_token, skip_blank. destruct (p_in p) as [|c s]; [congruence|].
  destruct (skip_space (c :: s)); cbn [bind]; auto.
  destruct (skip_comments _ a); cbn [bind]; auto.
Qed.

Lemma app_nonempty {A} (l m : list A) : m <> [] -> l ++ m <> [].
Proof. destruct l; cbn; auto. discriminate. Qed.

Lemma skip_blank_word b w s : blank b -> Forall nonspace w -> w <> [] -> hd_error w <> Some "#"%char ->
  skip_blank (b ++ w ++ s) = Ok (w ++ s).
Proof.
  intros B F N H. rewrite skip_blank_app by assumption. destruct w as [|c w]; [congruence|].
  inversion F; subst. cbn [app]. apply skip_blank_other; auto. cbn in H. congruence.
Qed.

(** The token is delivered and the stream is left at the delimiter. *)
Lemma next_token p b w c r : p_in p = b ++ w ++ c :: r -> blank b -> Forall nonspace w -> w <> [] ->
  hd_error w <> Some "#"%char -> isspace c = true -> (List.length w < 64)%nat ->
  get_next_token p = Ok (mkParser (c :: r) w 0).
Proof.
  intros E B F N H C L. rewrite get_next_token_eq.
  - rewrite E. rewrite skip_blank_word by assumption. cbn [bind].
    rewrite take_token_word by (auto; unfold BUFSIZE; lia). cbn [bind rev app]. unfold BUFSIZE.
    replace (0 + Z.of_nat (List.length w) <? 64) with true by lia. reflexivity.
  - rewrite E. apply app_nonempty, app_nonempty. discriminate.
Qed.
Lemma next_token_long p b w r : p_in p = b ++ w ++ r -> blank b -> Forall nonspace w ->
  hd_error w <> Some "#"%char -> (64 <= List.length w)%nat ->
  get_next_token p = Abort.
Proof.
  intros E B F H L. assert (N : w <> []) by (intros ->; cbn in L; lia). rewrite get_next_token_eq.
  - rewrite E. rewrite skip_blank_word by assumption. cbn [bind].
    rewrite take_token_long by (auto; unfold BUFSIZE; lia). reflexivity.
  - rewrite E. apply app_nonempty. destruct w; [congruence|discriminate].
Qed.
Lemma next_token_early p : ends_too_early (p_in p) -> get_next_token p = UB.
Proof.
  intros (N & b & w & E & B & H). rewrite get_next_token_eq by assumption. rewrite E.
  destruct H as [->|[(t & -> & T)|((N1 & F & H) & L)]].
  - rewrite skip_blank_app by assumption. reflexivity.
  - rewrite skip_blank_app by assumption. rewrite skip_blank_hash, ignore_line_none by assumption. reflexivity.
  - apply word_nonspace in F. rewrite <- (app_nil_r w). rewrite skip_blank_word by assumption. rewrite app_nil_r.
    cbn [bind]. rewrite take_token_end; auto. unfold BUFSIZE. lia.
Qed.
Lemma next_token_empty p : p_in p = [] -> get_next_token p = Ok (mkParser [] [] 0).
Proof. intros E. unfold get_next_token. rewrite E. reflexivity. Qed.

(** Complete classification. *)
Inductive token_result (p : parser) : outcome parser -> Prop :=
| res_empty : p_in p = [] -> token_result p (Ok (mkParser [] [] 0))
| res_token b w c r : p_in p = b ++ w ++ c :: r -> blank b -> Forall nonspace w -> w <> [] ->
    hd_error w <> Some "#"%char -> isspace c = true -> (List.length w < 64)%nat ->
    token_result p (Ok (mkParser (c :: r) w 0))
| res_long b w r : p_in p = b ++ w ++ r -> blank b -> Forall nonspace w ->
    hd_error w <> Some "#"%char -> (64 <= List.length w)%nat -> token_result p Abort
| res_early : ends_too_early (p_in p) -> token_result p UB.

Lemma classify p : token_result p (get_next_token p).
Proof.
  destruct (p_in p) as [|x s] eqn:E0.
  { rewrite next_token_empty by assumption. now constructor. }
  assert (N : p_in p <> []) by congruence. clear E0.
  destruct (stream_shape_exists (p_in p)) as [b E B|b t E B T|b w E B F NW H|b w c r E B F NW H C].
  - assert (EE : ends_too_early (p_in p)).
    { split; auto. exists b, []. rewrite app_nil_r. auto. }
    rewrite next_token_early by assumption. now constructor.
  - assert (EE : ends_too_early (p_in p)).
    { split; auto. exists b, ("#"%char :: t). split; auto. split; auto. right. left. eauto. }
    rewrite next_token_early by assumption. now constructor.
  - destruct (Nat.lt_ge_cases (List.length w) 64).
    + assert (EE : ends_too_early (p_in p)).
      { split; auto. exists b, w. split; auto. split; auto. right. right. split; auto. split; auto. split; auto.
        now apply word_nonspace. }
      rewrite next_token_early by assumption. now constructor.
    + assert (E' : p_in p = b ++ w ++ []) by (rewrite app_nil_r; auto).
      rewrite (next_token_long p b w []) by assumption. now apply (res_long p b w []).
  - destruct (Nat.lt_ge_cases (List.length w) 64).
    + rewrite (next_token p b w c r) by assumption. now apply (res_token p b w c r).
    + rewrite (next_token_long p b w (c :: r)) by assumption. now apply (res_long p b w (c :: r)).
Qed.

(** Appending text to a stream does not change tokens already delimited. *)
Definition ext (t : bytes) (p : parser) : parser := mkParser (p_in p ++ t) (p_buf p) (p_off p).
Lemma token_ext t p : token (ext t p) = token p.
Proof. reflexivity. Qed.

Lemma get_next_token_ext t p p' : p_in p <> [] -> get_next_token p = Ok p' ->
  p_in p' <> [] /\ get_next_token (ext t p) = Ok (ext t p').
Proof.
  intros N E. assert (C := classify p). rewrite E in C.
  inversion C as [H0|b w c r E0 B F NW H SP L| |]; [congruence|]. split; [subst; discriminate|].
  apply (next_token (ext t p) b w c (r ++ t)); auto.
  cbn [ext p_in]. rewrite E0. rewrite <- !app_assoc. reflexivity.
Qed.

(** Tokens consume input. *)
Lemma get_next_token_length p p' : get_next_token p = Ok p' ->
  (List.length (p_in p') <= List.length (p_in p))%nat /\
  (token p' <> [] -> (List.length (p_in p') < List.length (p_in p))%nat).
Proof.
  intros E. assert (C := classify p). rewrite E in C.
  inversion C as [H0|b w c r E0 B F NW H SP L| |]; subst.
  - cbn. split; [lia|]. intros X. exfalso. apply X. reflexivity.
  - rewrite E0. destruct w as [|x w]; [congruence|]. cbn [p_in]. rewrite !app_length. cbn [List.length]. lia.
Qed.
Lemma get_next_token_no_fuel p : get_next_token p <> Fuel.
Proof. assert (C := classify p). intros E. rewrite E in C. inversion C. Qed.
Lemma get_next_token_no_throw p : get_next_token p <> Throw.
Proof. assert (C := classify p). intros E. rewrite E in C. inversion C. Qed.
