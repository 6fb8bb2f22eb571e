(** Dataset files. *)
From Coq Require Import List ZArith Bool Ascii String Lia Reals Lra.
From Coq Require Import ZifyBool.
From Flocq Require Import Core BinarySingleNaN.
From Verif Require Import Model.Base Model.Float Model.Decimal Model.ParserM Model.DatasetM Model.DatasetIO
  Spec.TokenSpec Spec.DecimalSpec Spec.DatasetSpec Spec.DatasetClient Spec.DatasetFileSpec
  Proofs.DecimalInt Proofs.DecimalFloat Proofs.DecimalRead Proofs.ParserFacts Proofs.LoadFacts
  Proofs.FloatFacts Proofs.MapFacts Proofs.KeyOrder Proofs.DatasetFacts.
Import ListNotations.
Open Scope Z_scope.

Lemma plain_good w t : plain_text w -> Forall clean t -> (List.length t <= 1)%nat -> good_word (w ++ t).
Proof.
  intros (N & L & H & F) T LT. split; [destruct w; [congruence|discriminate]|]. split; [apply Forall_app; auto|].
  split; [now rewrite hd_error_app|]. rewrite app_length. lia.
Qed.
Lemma plain_clean w t : plain_text w -> Forall clean t -> Forall clean (w ++ t).
Proof. intros (_ & _ & _ & F) T. apply Forall_app; auto. Qed.

Ltac good := split; [discriminate|]; split; [repeat constructor; discriminate|]; split; [discriminate|cbn; lia].
Ltac cleans := repeat constructor; discriminate.

Lemma blank_space : blank ($" ").
Proof. constructor; [now left|constructor]. Qed.
Lemma blank_spaces : blank ($"  ").
Proof. constructor; [now left|apply blank_space]. Qed.
Lemma blank_nl b : blank b -> blank (nl :: b).
Proof. intros. constructor; auto. right. right. now left. Qed.
Lemma blank_sp b : blank b -> blank (" "%char :: b).
Proof. intros. constructor; auto. now left. Qed.
#[local] Hint Resolve blank_space blank_spaces blank_nl blank_sp blank_nil : core.

(** The features loop on "t1, t2, ... ], ". *)
Lemma load_features_ok fs : forall fuel acc gap r buf off,
  Forall (fun f => plain_text (fst f) /\ stof (fst f ++ $",") = Ok (snd f, $",")) fs ->
  (List.length fs < fuel)%nat -> blank gap ->
  load_features fuel acc
    (mkParser (" "%char :: List.concat (map (fun f : bytes * f32 => fst f ++ $", ") fs) ++ gap ++ $"]," ++ " "%char :: r) buf off)
  = Ok (acc ++ map snd fs, mkParser (" "%char :: r) ($"],") 0).
Proof.
  induction fs as [|[w x] fs IH]; intros fuel acc gap r buf off F L G; (destruct fuel as [|fuel]; [lia|]).
  - cbn [map List.concat app load_features].
    change (" "%char :: gap ++ $"]," ++ " "%char :: r) with ((" "%char :: gap) ++ $"]," ++ " "%char :: r).
    rewrite next_word; auto; [|good]. cbn [bind]. unfold token_is. rewrite token_at by cleans.
    rewrite bytes_eqb_refl. rewrite app_nil_r. reflexivity.
  - inversion F as [|? ? [P E] F']; subst. cbn [fst snd] in *. cbn [map List.concat fst load_features].
    replace (" "%char :: ((w ++ $", ") ++ List.concat (map (fun f : bytes * f32 => fst f ++ $", ") fs)) ++ gap ++ $"]," ++ " "%char :: r)
      with ([" "%char] ++ (w ++ $",") ++ " "%char :: List.concat (map (fun f : bytes * f32 => fst f ++ $", ") fs) ++ gap ++ $"]," ++ " "%char :: r)
      by (cbn [app]; rewrite <- !app_assoc; reflexivity).
    assert (GW : good_word (w ++ $",")) by (apply plain_good; auto; cleans).
    rewrite next_word; auto. cbn [bind]. unfold token_is. rewrite token_at by apply GW.
    assert (NE : w ++ $"," <> $"],").
    { intros X. change ($"],") with ($"]" ++ $",") in X. apply app_inv_tail in X. subst w. discriminate E. }
    rewrite bytes_eqb_neq by assumption.
    rewrite parse_float_at with (v := x) by (auto; apply GW). cbn [bind].
    rewrite parse_expected_at by apply GW. cbn [bind].
    rewrite IH; auto; [|cbn in L; lia]. rewrite <- app_assoc. reflexivity.
Qed.

(** The text of one record after its index, with [gap] before the closing bracket. *)
Definition record_text (gap : bytes) (r : file_record) : bytes :=
  r_index r ++ $":" ++ $" { features: [ "
  ++ List.concat (map (fun f : bytes * f32 => fst f ++ $", ") (r_features r))
  ++ gap ++ $"]," ++ $" policy: " ++ fst (r_policy r) ++ $","
  ++ $" xtime: " ++ fst (r_metric r) ++ $" }," ++ [nl].

Lemma concat_length_ge (fs : list (bytes * f32)) :
  (List.length fs <= List.length (List.concat (map (fun f : bytes * f32 => fst f ++ $", ") fs)))%nat.
Proof.
  induction fs as [|f fs IH]; cbn [map List.concat List.length]; [lia|]. rewrite !app_length. change (List.length ($", ")) with 2%nat. lia.
Qed.

Lemma load_record_ok gap r s : blank gap -> well_spelled r ->
  load_record (mkParser (" "%char :: $"{ features: [ "
      ++ List.concat (map (fun f : bytes * f32 => fst f ++ $", ") (r_features r))
      ++ gap ++ $"]," ++ $" policy: " ++ fst (r_policy r) ++ $","
      ++ $" xtime: " ++ fst (r_metric r) ++ $" }," ++ nl :: s) (r_index r ++ $":") 0)
  = Ok (map snd (r_features r), snd (r_policy r), snd (r_metric r), mkParser (nl :: s) ($"},") 0).
Proof.
  intros G ((PI & vi & EI) & FF & (PP & EP) & (PM & rm & EM)). unfold load_record.
  rewrite parse_int_at with (v := vi) by (auto; apply plain_clean; auto; cleans). cbn [bind].
  rewrite parse_expected_at by (apply plain_clean; auto; cleans). cbn [bind].
  set (FT := List.concat (map (fun f : bytes * f32 => fst f ++ $", ") (r_features r))).
  set (T3 := fst (r_policy r) ++ $"," ++ $" xtime: " ++ fst (r_metric r) ++ $" }," ++ nl :: s).
  change (" "%char :: $"{ features: [ " ++ FT ++ gap ++ $"]," ++ $" policy: " ++ T3)
    with ($" " ++ $"{" ++ " "%char :: $"features: [ " ++ FT ++ gap ++ $"]," ++ $" policy: " ++ T3).
  rewrite expect_word by (auto; good). cbn [bind].
  change (" "%char :: $"features: [ " ++ FT ++ gap ++ $"]," ++ $" policy: " ++ T3)
    with ($" " ++ $"features:" ++ " "%char :: $"[ " ++ FT ++ gap ++ $"]," ++ $" policy: " ++ T3).
  rewrite expect_word by (auto; good). cbn [bind].
  change (" "%char :: $"[ " ++ FT ++ gap ++ $"]," ++ $" policy: " ++ T3)
    with ($" " ++ $"[" ++ " "%char :: FT ++ gap ++ $"]," ++ " "%char :: $"policy: " ++ T3).
  rewrite expect_word by (auto; good). cbn [bind].
  unfold FT at 2. rewrite load_features_ok; auto.
  2:{ cbn [p_in List.length]. rewrite app_length. assert (X := concat_length_ge (r_features r)). fold FT in X. lia. }
  cbn [bind app].
  change (" "%char :: $"policy: " ++ T3) with ($" " ++ $"policy:" ++ " "%char :: T3).
  rewrite expect_word by (auto; good). cbn [bind].
  assert (GP : good_word (fst (r_policy r) ++ $",")) by (apply plain_good; auto; cleans).
  replace (" "%char :: T3) with ($" " ++ (fst (r_policy r) ++ $",") ++ " "%char :: $"xtime: " ++ fst (r_metric r) ++ $" }," ++ nl :: s)
    by (unfold T3; rewrite <- !app_assoc; reflexivity).
  rewrite next_word by auto. cbn [bind].
  rewrite parse_int_at with (v := snd (r_policy r)) by (auto; apply GP). cbn [bind].
  rewrite parse_expected_at by apply GP. cbn [bind].
  change (" "%char :: $"xtime: " ++ fst (r_metric r) ++ $" }," ++ nl :: s)
    with ($" " ++ $"xtime:" ++ " "%char :: fst (r_metric r) ++ $" }," ++ nl :: s).
  rewrite expect_word by (auto; good). cbn [bind].
  assert (GM : good_word (fst (r_metric r))).
  { rewrite <- (app_nil_r (fst (r_metric r))). apply plain_good; auto. }
  change (" "%char :: fst (r_metric r) ++ $" }," ++ nl :: s)
    with ($" " ++ fst (r_metric r) ++ " "%char :: $"}," ++ nl :: s).
  rewrite next_word by auto. cbn [bind].
  unfold parse_double. rewrite token_at by apply GM. rewrite EM. cbn [bind fst snd].
  unfold after_parse. cbn [p_in p_buf].
  change (" "%char :: $"}," ++ nl :: s) with ($" " ++ $"}," ++ nl :: s).
  rewrite expect_word by (auto; good). cbn [bind]. reflexivity.
Qed.

(** The outer loop over any records followed by a closing brace. *)
Definition lines (rs : list (bytes * bytes * file_record)) : bytes :=
  List.concat (map (fun x => let '(lead, gap, r) := x in lead ++ record_text gap r) rs).

Lemma lines_cons lead gap r rs : lines ((lead, gap, r) :: rs) = lead ++ record_text gap r ++ lines rs.
Proof. unfold lines. cbn [map List.concat]. now rewrite <- app_assoc. Qed.

Definition line_ok (x : bytes * bytes * file_record) : Prop :=
  let '(lead, gap, r) := x in blank lead /\ blank gap /\ well_spelled r.

Lemma record_text_split gap r s : record_text gap r ++ s =
  (r_index r ++ $":") ++ " "%char :: $"{ features: [ "
      ++ List.concat (map (fun f : bytes * f32 => fst f ++ $", ") (r_features r))
      ++ gap ++ $"]," ++ $" policy: " ++ fst (r_policy r) ++ $","
      ++ $" xtime: " ++ fst (r_metric r) ++ $" }," ++ nl :: s.
Proof. unfold record_text. rewrite <- !app_assoc. reflexivity. Qed.

Lemma index_not_brace r : well_spelled r -> r_index r ++ $":" <> $"}".
Proof.
  intros ((PI & vi & EI) & _) X. destruct PI as (N & _). destruct (r_index r) as [|c l]; [congruence|].
  destruct l; discriminate.
Qed.

Lemma load_records_ok rs : forall fuel d b c r buf off,
  Forall line_ok rs -> (List.length rs < fuel)%nat -> blank b -> isspace c = true ->
  load_records fuel d (mkParser (nl :: lines rs ++ b ++ $"}" ++ c :: r) buf off) =
  let* d' := insert_all d (map (fun x => r_meas (snd x)) rs) in Ok (d', mkParser (c :: r) ($"}") 0).
Proof.
  induction rs as [|[[lead gap] rc] rs IH]; intros fuel d b c r buf off F L B C; (destruct fuel as [|fuel]; [lia|]).
  - cbn [lines map List.concat app load_records insert_all bind].
    change (nl :: b ++ $"}" ++ c :: r) with ((nl :: b) ++ $"}" ++ c :: r).
    rewrite next_word by (auto; good). cbn [bind]. unfold token_is. rewrite token_at by cleans.
    now rewrite bytes_eqb_refl.
  - inversion F as [|? ? LO F']; subst. cbv [line_ok] in LO. destruct LO as (BL & BG & W). cbn [load_records].
    rewrite lines_cons, <- !app_assoc. rewrite record_text_split.
    assert (GI : good_word (r_index rc ++ $":")).
    { destruct W as ((PI & _) & _). apply plain_good; auto; cleans. }
    match goal with |- context [mkParser (nl :: lead ++ ?t) _ _] => change (nl :: lead ++ t) with ((nl :: lead) ++ t) end.
    rewrite next_word by auto. cbn [bind]. unfold token_is. rewrite token_at by apply GI.
    rewrite bytes_eqb_neq by now apply index_not_brace.
    rewrite load_record_ok by assumption. cbn [bind map snd insert_all].
    change (m_features (r_meas rc)) with (map snd (r_features rc)).
    change (m_policy (r_meas rc)) with (snd (r_policy rc)). change (m_metric (r_meas rc)) with (snd (r_metric rc)).
    destruct (ds_insert d (map snd (r_features rc)) (snd (r_policy rc)) (snd (r_metric rc))); cbn [bind]; auto.
    apply IH; auto. cbn in L. lia.
Qed.

Lemma lines_length rs : (List.length rs <= List.length (lines rs))%nat.
Proof.
  induction rs as [|[[a b] r] rs IH]; [cbn; lia|]. rewrite lines_cons, !app_length. unfold record_text.
  rewrite !app_length. cbn [List.length lit list_ascii_of_string]. lia.
Qed.

Lemma ds_load_ok pre d rs b c r : blank pre -> Forall line_ok rs -> blank b -> isspace c = true ->
  ds_load d (pre ++ $"data: {" ++ nl :: lines rs ++ b ++ $"}" ++ c :: r) =
  let* d' := insert_all d (map (fun x => r_meas (snd x)) rs) in Ok (d', c :: r).
Proof.
  intros P F B C. unfold ds_load, new_parser.
  change (pre ++ $"data: {" ++ nl :: lines rs ++ b ++ $"}" ++ c :: r)
    with (pre ++ $"data:" ++ " "%char :: $"{" ++ nl :: lines rs ++ b ++ $"}" ++ c :: r).
  rewrite expect_word by (auto; good). cbn [bind].
  change (" "%char :: $"{" ++ nl :: lines rs ++ b ++ $"}" ++ c :: r)
    with ($" " ++ $"{" ++ nl :: lines rs ++ b ++ $"}" ++ c :: r).
  rewrite expect_word by (auto; good). cbn [bind]. cbn [p_in].
  rewrite load_records_ok; auto.
  - destruct (insert_all d (map (fun x => r_meas (snd x)) rs)); reflexivity.
  - cbn [List.length]. rewrite app_length. assert (X := lines_length rs). lia.
Qed.
