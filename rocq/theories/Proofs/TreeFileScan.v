(** Reading the files of trees and forests: it terminates, and what follows the text read does not matter. *)
From Coq Require Import List ZArith Bool Ascii String Lia.
From Verif Require Import Model.Base Model.Float Model.Decimal Model.ParserM Model.TreeM Model.TreeIO Model.ForestM
  Spec.DecimalSpec Spec.DatasetFileSpec Spec.TreeSpec Spec.TreeFileSpec Spec.ForestSpec
  Proofs.ParserFacts Proofs.LoadFacts Proofs.DatasetFileDefects Proofs.TreeFacts Proofs.Feeds Proofs.TreeIOFacts Proofs.TreeFileProps Proofs.ForestFacts.
Import ListNotations.
Open Scope Z_scope.

(** A step from [p] to [p'] that has consumed a word. *)
Definition moved (p p' : parser) : Prop := p_in p' <> [] /\ (List.length (p_in p') < List.length (p_in p))%nat.

Lemma moved_trans a b c : moved a b -> moved b c -> moved a c.
Proof. unfold moved. intros [A B] [C D]. split; [exact C|lia]. Qed.

Lemma next_scan0 p p' : get_next_token p = Ok p' -> p_in p' <> [] -> moved p p' /\ forall t, get_next_token (ext t p) = Ok (ext t p').
Proof.
  intros E T. assert (N : p_in p <> []).
  { intros X. rewrite next_token_empty in E by exact X. injection E as <-. apply T. reflexivity. }
  assert (X := fun t => get_next_token_ext t p p' N E). split.
  - split; [exact T|]. assert (C := classify p). rewrite E in C. inversion C as [H0|b w c r E0 B F NW H SP L| |]; [congruence|]. cbn [p_in]. rewrite E0, !app_length.
    destruct w as [|x w]; [congruence|]. cbn [List.length]. lia.
  - intros t. apply X.
Qed.

Lemma next_scan p p' : get_next_token p = Ok p' -> token p' <> [] -> moved p p' /\ forall t, get_next_token (ext t p) = Ok (ext t p').
Proof.
  intros E T. assert (N : p_in p <> []).
  { intros X. rewrite next_token_empty in E by exact X. injection E as <-. apply T. reflexivity. }
  assert (X := fun t => get_next_token_ext t p p' N E). split.
  - split; [exact (proj1 (X []))|]. apply get_next_token_length in E. apply E. exact T.
  - intros t. apply X.
Qed.

Lemma expected_scan s p p' : s <> [] -> parse_expected s p = Ok p' -> p' = p /\ token p <> [] /\ forall t, parse_expected s (ext t p) = Ok (ext t p).
Proof.
  intros NE E. unfold parse_expected in *. unfold token_is in *. destruct (bytes_eqb (token p) s) eqn:B; [|discriminate]. injection E as <-.
  split; [reflexivity|]. split; [apply bytes_eqb_spec in B; congruence|]. intros t. rewrite token_ext, B. reflexivity.
Qed.

Lemma expect_scan s p p' : s <> [] -> expect_next s p = Ok p' -> moved p p' /\ forall t, expect_next s (ext t p) = Ok (ext t p').
Proof.
  intros NE E. unfold expect_next in *. apply bind_ok in E as (q & E1 & E2). apply expected_scan in E2 as (-> & T & X); [|exact NE].
  destruct (next_scan _ _ E1 T) as [M Y]. split; [exact M|]. intros t. rewrite Y. cbn [bind]. apply X.
Qed.

Definition parses {A} (f : parser -> outcome (A * parser)) : Prop := forall p v p', f p = Ok (v, p') ->
  token p <> [] /\ p_in p' = p_in p /\ forall t, f (ext t p) = Ok (v, ext t p').

Lemma stoi_empty : stoi [] = Throw. Proof. reflexivity. Qed.
Lemma parse_int_scan : parses parse_int.
Proof.
  intros p v p' E. unfold parse_int in *. apply bind_ok in E as (q & E1 & E2). injection E2 as <- <-. split; [intros X; rewrite X in E1; discriminate E1|].
  split; [reflexivity|]. intros t. rewrite token_ext, E1. reflexivity.
Qed.
Lemma parse_float_scan : parses parse_float.
Proof.
  intros p v p' E. unfold parse_float in *. apply bind_ok in E as (q & E1 & E2). injection E2 as <- <-. split; [intros X; rewrite X in E1; discriminate E1|].
  split; [reflexivity|]. intros t. rewrite token_ext, E1. reflexivity.
Qed.
Lemma parse_uint_scan : parses parse_uint.
Proof.
  intros p v p' E. unfold parse_uint in *. apply bind_ok in E as (q & E1 & E2). injection E2 as <- <-. split; [intros X; rewrite X in E1; discriminate E1|].
  split; [reflexivity|]. intros t. rewrite token_ext, E1. reflexivity.
Qed.
Lemma parse_ulong_scan : parses parse_ulong.
Proof.
  intros p v p' E. unfold parse_ulong in *. apply bind_ok in E as (q & E1 & E2). injection E2 as <- <-. split; [intros X; rewrite X in E1; discriminate E1|].
  split; [reflexivity|]. intros t. rewrite token_ext, E1. reflexivity.
Qed.

Lemma moved_in p q p' : moved p q -> p_in p' = p_in q -> moved p p'.
Proof. unfold moved. intros M ->. exact M. Qed.

Lemma key_val_scan {A} (f : parser -> outcome (A * parser)) key p v p' : parses f -> key <> [] -> key_val f key p = Ok (v, p') ->
  moved p p' /\ forall t, key_val f key (ext t p) = Ok (v, ext t p').
Proof.
  intros F NE E. unfold key_val in *. apply bind_ok in E as (q1 & E1 & E). apply bind_ok in E as (q2 & E2 & E). apply bind_ok in E as ([x q3] & E3 & E).
  apply bind_ok in E as (q4 & E4 & E). injection E as <- <-.
  destruct (expect_scan _ _ _ NE E1) as [M1 X1]. destruct (F _ _ _ E3) as (T & I & X3). destruct (next_scan _ _ E2 T) as [M2 X2].
  apply expected_scan in E4 as (-> & _ & X4); [|discriminate]. split; [eapply moved_trans; [exact M1|]; eapply moved_in; [exact M2|exact I]|].
  intros t. rewrite X1. cbn [bind]. rewrite X2. cbn [bind]. rewrite X3. cbn [bind]. rewrite X4. reflexivity.
Qed.
Lemma key_val_no_fuel {A} (f : parser -> outcome (A * parser)) key p : (forall q, f q <> Fuel) -> key_val f key p <> Fuel.
Proof.
  intros F. unfold key_val. apply bind_no_fuel; [apply expect_no_fuel|]. intros q1 _. apply bind_no_fuel; [apply get_next_token_no_fuel|]. intros q2 _.
  apply bind_no_fuel; [apply F|]. intros [v q3] _. apply bind_no_fuel; [apply parse_expected_no_fuel|]. discriminate.
Qed.
Lemma parse_uint_no_fuel p : parse_uint p <> Fuel.
Proof. unfold parse_uint. apply bind_no_fuel; [apply stoul_no_fuel|discriminate]. Qed.
Lemma parse_ulong_no_fuel p : parse_ulong p <> Fuel.
Proof. unfold parse_ulong. apply bind_no_fuel; [apply stoul_no_fuel|discriminate]. Qed.

Lemma is_token p s : s <> [] -> token_is p s = true -> token p <> [].
Proof. intros NE B. apply bytes_eqb_spec in B. congruence. Qed.

(** ** The loops *)

Definition scans {A} (f : nat -> parser -> outcome (A * parser)) : Prop := forall fuel p v p', f fuel p = Ok (v, p') ->
  moved p p' /\ forall t fuel', (fuel <= fuel')%nat -> f fuel' (ext t p) = Ok (v, ext t p').

Lemma parse_counts_scan fuel : forall acc p v p', parse_counts fuel acc p = Ok (v, p') ->
  moved p p' /\ forall t fuel', (fuel <= fuel')%nat -> parse_counts fuel' acc (ext t p) = Ok (v, ext t p').
Proof.
  induction fuel as [|fuel IH]; intros acc p v p' E; [discriminate|]. cbn [parse_counts] in E. apply bind_ok in E as (q1 & E1 & E). destruct (token_is q1 ($"},")) eqn:B.
  - injection E as <- <-. destruct (next_scan _ _ E1 (is_token _ ($"},") ltac:(discriminate) B)) as [M X]. split; [exact M|]. intros t [|fuel'] L; [lia|]. cbn [parse_counts].
    rewrite X. cbn [bind]. unfold token_is in *. rewrite token_ext, B. reflexivity.
  - apply bind_ok in E as ([x q2] & E2 & E). apply bind_ok in E as (q3 & E3 & E). apply bind_ok in E as (q4 & E4 & E). apply bind_ok in E as ([y q5] & E5 & E). apply bind_ok in E as (q6 & E6 & E).
    destruct (parse_int_scan _ _ _ E2) as (T2 & I2 & X2). destruct (next_scan _ _ E1 T2) as [M1 X1]. apply expected_scan in E3 as (-> & _ & X3); [|discriminate].
    destruct (parse_ulong_scan _ _ _ E5) as (T5 & I5 & X5). destruct (next_scan _ _ E4 T5) as [M4 X4]. apply expected_scan in E6 as (-> & _ & X6); [|discriminate].
    destruct (IH _ _ _ _ E) as [M X]. split.
    + unfold moved in *. rewrite I2 in *. rewrite I5 in *. destruct M1, M4, M. split; [assumption|lia].
    + intros t [|fuel'] L; [lia|]. cbn [parse_counts]. rewrite X1. cbn [bind]. unfold token_is in *. rewrite token_ext, B, X2. cbn [bind]. rewrite X3. cbn [bind]. rewrite X4. cbn [bind].
      rewrite X5. cbn [bind]. rewrite X6. cbn [bind]. apply X. lia.
Qed.
Lemma parse_counts_no_fuel fuel : forall acc p, (List.length (p_in p) < fuel)%nat -> parse_counts fuel acc p <> Fuel.
Proof.
  induction fuel as [|fuel IH]; intros acc p L; [lia|]. cbn [parse_counts]. apply bind_no_fuel; [apply get_next_token_no_fuel|]. intros q1 E1. destruct (token_is q1 ($"},")); [discriminate|].
  apply bind_no_fuel; [apply parse_int_no_fuel|]. intros [x q2] E2. apply bind_no_fuel; [apply parse_expected_no_fuel|]. intros q3 E3. apply bind_no_fuel; [apply get_next_token_no_fuel|]. intros q4 E4.
  apply bind_no_fuel; [apply parse_ulong_no_fuel|]. intros [y q5] E5. apply bind_no_fuel; [apply parse_expected_no_fuel|]. intros q6 E6. apply IH.
  destruct (parse_int_scan _ _ _ E2) as (T2 & I2 & _). destruct (next_scan _ _ E1 T2) as [M1 _]. apply expected_scan in E3 as (-> & _ & _); [|discriminate].
  destruct (parse_ulong_scan _ _ _ E5) as (T5 & I5 & _). destruct (next_scan _ _ E4 T5) as [M4 _]. apply expected_scan in E6 as (-> & _ & _); [|discriminate].
  unfold moved in *. rewrite I2 in *. rewrite I5 in *. destruct M1, M4. lia.
Qed.

Lemma parse_features_scan fuel : forall acc p v p', parse_features fuel acc p = Ok (v, p') ->
  moved p p' /\ forall t fuel', (fuel <= fuel')%nat -> parse_features fuel' acc (ext t p) = Ok (v, ext t p').
Proof.
  induction fuel as [|fuel IH]; intros acc p v p' E; [discriminate|]. cbn [parse_features] in E. apply bind_ok in E as (q1 & E1 & E). destruct (token_is q1 ($"],")) eqn:B.
  - injection E as <- <-. destruct (next_scan _ _ E1 (is_token _ ($"],") ltac:(discriminate) B)) as [M X]. split; [exact M|]. intros t [|fuel'] L; [lia|]. cbn [parse_features].
    rewrite X. cbn [bind]. unfold token_is in *. rewrite token_ext, B. reflexivity.
  - apply bind_ok in E as ([x q2] & E2 & E). apply bind_ok in E as (q3 & E3 & E).
    destruct (parse_float_scan _ _ _ E2) as (T2 & I2 & X2). destruct (next_scan _ _ E1 T2) as [M1 X1]. apply expected_scan in E3 as (-> & _ & X3); [|discriminate].
    destruct (IH _ _ _ _ E) as [M X]. split.
    + unfold moved in *. rewrite I2 in *. destruct M1, M. split; [assumption|lia].
    + intros t [|fuel'] L; [lia|]. cbn [parse_features]. rewrite X1. cbn [bind]. unfold token_is in *. rewrite token_ext, B, X2. cbn [bind]. rewrite X3. cbn [bind]. apply X. lia.
Qed.
Lemma parse_features_no_fuel fuel : forall acc p, (List.length (p_in p) < fuel)%nat -> parse_features fuel acc p <> Fuel.
Proof.
  induction fuel as [|fuel IH]; intros acc p L; [lia|]. cbn [parse_features]. apply bind_no_fuel; [apply get_next_token_no_fuel|]. intros q1 E1. destruct (token_is q1 ($"],")); [discriminate|].
  apply bind_no_fuel; [apply parse_float_no_fuel|]. intros [x q2] E2. apply bind_no_fuel; [apply parse_expected_no_fuel|]. intros q3 E3. apply IH.
  destruct (parse_float_scan _ _ _ E2) as (T2 & I2 & _). destruct (next_scan _ _ E1 T2) as [M1 _]. apply expected_scan in E3 as (-> & _ & _); [|discriminate].
  unfold moved in *. rewrite I2 in *. destruct M1. lia.
Qed.

Lemma parse_classes_scan fuel : forall acc p v p', parse_classes fuel acc p = Ok (v, p') ->
  moved p p' /\ forall t fuel', (fuel <= fuel')%nat -> parse_classes fuel' acc (ext t p) = Ok (v, ext t p').
Proof.
  induction fuel as [|fuel IH]; intros acc p v p' E; [discriminate|]. cbn [parse_classes] in E. apply bind_ok in E as (q1 & E1 & E). destruct (token_is q1 ($"],")) eqn:B.
  - injection E as <- <-. destruct (next_scan _ _ E1 (is_token _ ($"],") ltac:(discriminate) B)) as [M X]. split; [exact M|]. intros t [|fuel'] L; [lia|]. cbn [parse_classes].
    rewrite X. cbn [bind]. unfold token_is in *. rewrite token_ext, B. reflexivity.
  - apply bind_ok in E as ([x q2] & E2 & E). apply bind_ok in E as (q3 & E3 & E).
    destruct (parse_int_scan _ _ _ E2) as (T2 & I2 & X2). destruct (next_scan _ _ E1 T2) as [M1 X1]. apply expected_scan in E3 as (-> & _ & X3); [|discriminate].
    destruct (IH _ _ _ _ E) as [M X]. split.
    + unfold moved in *. rewrite I2 in *. destruct M1, M. split; [assumption|lia].
    + intros t [|fuel'] L; [lia|]. cbn [parse_classes]. rewrite X1. cbn [bind]. unfold token_is in *. rewrite token_ext, B, X2. cbn [bind]. rewrite X3. cbn [bind]. apply X. lia.
Qed.
Lemma parse_classes_no_fuel fuel : forall acc p, (List.length (p_in p) < fuel)%nat -> parse_classes fuel acc p <> Fuel.
Proof.
  induction fuel as [|fuel IH]; intros acc p L; [lia|]. cbn [parse_classes]. apply bind_no_fuel; [apply get_next_token_no_fuel|]. intros q1 E1. destruct (token_is q1 ($"],")); [discriminate|].
  apply bind_no_fuel; [apply parse_int_no_fuel|]. intros [x q2] E2. apply bind_no_fuel; [apply parse_expected_no_fuel|]. intros q3 E3. apply IH.
  destruct (parse_int_scan _ _ _ E2) as (T2 & I2 & _). destruct (next_scan _ _ E1 T2) as [M1 _]. apply expected_scan in E3 as (-> & _ & _); [|discriminate].
  unfold moved in *. rewrite I2 in *. destruct M1. lia.
Qed.

Lemma parse_class_idx_scan fuel : forall acc p v p', parse_class_idx fuel acc p = Ok (v, p') ->
  moved p p' /\ forall t fuel', (fuel <= fuel')%nat -> parse_class_idx fuel' acc (ext t p) = Ok (v, ext t p').
Proof.
  induction fuel as [|fuel IH]; intros acc p v p' E; [discriminate|]. cbn [parse_class_idx] in E. apply bind_ok in E as (q1 & E1 & E). destruct (token_is q1 ($"],")) eqn:B.
  - injection E as <- <-. destruct (next_scan _ _ E1 (is_token _ ($"],") ltac:(discriminate) B)) as [M X]. split; [exact M|]. intros t [|fuel'] L; [lia|]. cbn [parse_class_idx].
    rewrite X. cbn [bind]. unfold token_is in *. rewrite token_ext, B. reflexivity.
  - apply bind_ok in E as ([x q2] & E2 & E). apply bind_ok in E as (q3 & E3 & E). destruct (x =? 2147483647) eqn:MX; [discriminate|].
    destruct (parse_int_scan _ _ _ E2) as (T2 & I2 & X2). destruct (next_scan _ _ E1 T2) as [M1 X1]. apply expected_scan in E3 as (-> & _ & X3); [|discriminate].
    destruct (IH _ _ _ _ E) as [M X]. split.
    + unfold moved in *. rewrite I2 in *. destruct M1, M. split; [assumption|lia].
    + intros t [|fuel'] L; [lia|]. cbn [parse_class_idx]. rewrite X1. cbn [bind]. unfold token_is in *. rewrite token_ext, B, X2. cbn [bind]. rewrite X3. cbn [bind]. rewrite MX. apply X. lia.
Qed.
Lemma parse_class_idx_no_fuel fuel : forall acc p, (List.length (p_in p) < fuel)%nat -> parse_class_idx fuel acc p <> Fuel.
Proof.
  induction fuel as [|fuel IH]; intros acc p L; [lia|]. cbn [parse_class_idx]. apply bind_no_fuel; [apply get_next_token_no_fuel|]. intros q1 E1. destruct (token_is q1 ($"],")); [discriminate|].
  apply bind_no_fuel; [apply parse_int_no_fuel|]. intros [x q2] E2. apply bind_no_fuel; [apply parse_expected_no_fuel|]. intros q3 E3. destruct (x =? 2147483647); [discriminate|]. apply IH.
  destruct (parse_int_scan _ _ _ E2) as (T2 & I2 & _). destruct (next_scan _ _ E1 T2) as [M1 _]. apply expected_scan in E3 as (-> & _ & _); [|discriminate].
  unfold moved in *. rewrite I2 in *. destruct M1. lia.
Qed.

(** ** Nodes and samples *)

Lemma child_scan fuel key :
  (forall p v p', parse_node fuel p = Ok (v, p') -> moved p p' /\ forall t fuel', (fuel <= fuel')%nat -> parse_node fuel' (ext t p) = Ok (v, ext t p')) ->
  forall p v p', (if token_is p key then let* (l, p) := parse_node fuel p in let* p := get_next_token p in Ok (l, p) else Ok (Null, p)) = Ok (v, p') -> token p' <> [] ->
  (moved p p' \/ p' = p) /\ forall t fuel', (fuel <= fuel')%nat ->
  (if token_is (ext t p) key then let* (l, p) := parse_node fuel' (ext t p) in let* p := get_next_token p in Ok (l, p) else Ok (Null, ext t p)) = Ok (v, ext t p').
Proof.
  intros IH p v p' E T. unfold token_is in *. destruct (bytes_eqb (token p) key) eqn:B.
  - apply bind_ok in E as ([x q1] & E1 & E). apply bind_ok in E as (q2 & E2 & E). injection E as <- <-. destruct (IH _ _ _ E1) as [M1 X1]. destruct (next_scan _ _ E2 T) as [M2 X2].
    split; [left; eapply moved_trans; eauto|]. intros t fuel' L. rewrite token_ext, B, (X1 t fuel' L). cbn [bind]. rewrite X2. reflexivity.
  - injection E as <- <-. split; [right; reflexivity|]. intros t fuel' _. rewrite token_ext, B. reflexivity.
Qed.

Lemma child_token fuel key p v p' : (if token_is p key then let* (l, p) := parse_node fuel p in let* p := get_next_token p in Ok (l, p) else Ok (Null, p)) = Ok (v, p') ->
  token p' <> [] -> key <> [] -> token p <> [].
Proof.
  intros E T NE. destruct (token_is p key) eqn:B; [exact (is_token _ _ NE B)|]. injection E as <- <-. exact T.
Qed.

Lemma parse_node_scan fuel : forall p v p', parse_node fuel p = Ok (v, p') ->
  moved p p' /\ forall t fuel', (fuel <= fuel')%nat -> parse_node fuel' (ext t p) = Ok (v, ext t p').
Proof.
  induction fuel as [|fuel IH]; intros p v p' E; [discriminate|]. cbn [parse_node] in E.
  apply bind_ok in E as (q1 & E1 & E). apply bind_ok in E as ([g q2] & E2 & E). apply bind_ok in E as ([n q3] & E3 & E). apply bind_ok in E as ([c q4] & E4 & E).
  apply bind_ok in E as ([f q5] & E5 & E). apply bind_ok in E as ([h q6] & E6 & E). apply bind_ok in E as (q7 & E7 & E). apply bind_ok in E as (q8 & E8 & E).
  apply bind_ok in E as ([k q9] & E9 & E). apply bind_ok in E as (q10 & E10 & E). apply bind_ok in E as ([l q11] & E11 & E). apply bind_ok in E as ([r q12] & E12 & E).
  apply bind_ok in E as (q13 & E13 & E). injection E as <- <-.
  apply expected_scan in E13 as (-> & T12 & X13); [|discriminate].
  assert (T11 := child_token _ ($"right:") _ _ _ E12 T12 ltac:(discriminate)). assert (T10 := child_token _ ($"left:") _ _ _ E11 T11 ltac:(discriminate)).
  destruct (expect_scan ($"{") _ _ ltac:(discriminate) E1) as [M1 X1].
  destruct (key_val_scan _ ($"gini:") _ _ _ parse_float_scan ltac:(discriminate) E2) as [M2 X2].
  destruct (key_val_scan _ ($"num_samples:") _ _ _ parse_ulong_scan ltac:(discriminate) E3) as [M3 X3].
  destruct (key_val_scan _ ($"predicted_class:") _ _ _ parse_int_scan ltac:(discriminate) E4) as [M4 X4].
  destruct (key_val_scan _ ($"feature_idx:") _ _ _ parse_int_scan ltac:(discriminate) E5) as [M5 X5].
  destruct (key_val_scan _ ($"threshold:") _ _ _ parse_float_scan ltac:(discriminate) E6) as [M6 X6].
  destruct (expect_scan ($"count_per_class:") _ _ ltac:(discriminate) E7) as [M7 X7]. destruct (expect_scan ($"{") _ _ ltac:(discriminate) E8) as [M8 X8].
  destruct (parse_counts_scan _ _ _ _ _ E9) as [M9 X9]. destruct (next_scan _ _ E10 T10) as [M10 X10].
  destruct (child_scan fuel ($"left:") IH _ _ _ E11 T11) as [M11 X11]. destruct (child_scan fuel ($"right:") IH _ _ _ E12 T12) as [M12 X12].
  split.
  - assert (A : moved p q10).
    { clear - M1 M2 M3 M4 M5 M6 M7 M8 M9 M10. unfold moved in *. destruct M1, M2, M3, M4, M5, M6, M7, M8, M9, M10. split; [assumption|lia]. }
    assert (B : moved p q11) by (destruct M11 as [M| ->]; [eapply moved_trans; eauto|exact A]).
    destruct M12 as [M| ->]; [eapply moved_trans; eauto|exact B].
  - intros t [|fuel'] L; [lia|]. cbn [parse_node]. rewrite X1. cbn [bind]. rewrite X2. cbn [bind]. rewrite X3. cbn [bind]. rewrite X4. cbn [bind]. rewrite X5. cbn [bind]. rewrite X6. cbn [bind].
    rewrite X7. cbn [bind]. rewrite X8. cbn [bind]. rewrite X9 by (cbn [ext p_in]; rewrite app_length; lia). cbn [bind]. rewrite X10. cbn [bind].
    rewrite X11 by lia. cbn [bind]. rewrite X12 by lia. cbn [bind]. rewrite X13. reflexivity.
Qed.
Lemma child_no_fuel fuel key p : (token_is p key = true -> parse_node fuel p <> Fuel) ->
  (if token_is p key then let* (l, p) := parse_node fuel p in let* p := get_next_token p in Ok (l, p) else Ok (Null, p)) <> Fuel.
Proof.
  intros H. destruct (token_is p key); [|discriminate]. apply bind_no_fuel; [apply H; reflexivity|]. intros [l q] _. apply bind_no_fuel; [apply get_next_token_no_fuel|]. discriminate.
Qed.

Lemma next_shorter p q : get_next_token p = Ok q -> (List.length (p_in q) <= List.length (p_in p))%nat.
Proof. intros E. apply get_next_token_length in E. apply E. Qed.
Lemma child_shorter fuel key p v q : (if token_is p key then let* (l, p) := parse_node fuel p in let* p := get_next_token p in Ok (l, p) else Ok (Null, p)) = Ok (v, q) ->
  (List.length (p_in q) <= List.length (p_in p))%nat.
Proof.
  destruct (token_is p key).
  - intros E. apply bind_ok in E as ([x q1] & E1 & E). apply bind_ok in E as (q2 & E2 & E). injection E as <- <-. apply next_shorter in E2. destruct (parse_node_scan _ _ _ _ E1) as [[_ M] _]. lia.
  - intros E. injection E as <- <-. lia.
Qed.

Lemma parse_node_no_fuel fuel : forall p, (List.length (p_in p) < fuel)%nat -> parse_node fuel p <> Fuel.
Proof.
  induction fuel as [|fuel IH]; intros p L; [lia|]. cbn [parse_node].
  apply bind_no_fuel; [apply expect_no_fuel|]. intros q1 E1. destruct (expect_scan ($"{") _ _ ltac:(discriminate) E1) as [M1 _].
  apply bind_no_fuel; [apply key_val_no_fuel, parse_float_no_fuel|]. intros [g q2] E2. destruct (key_val_scan _ ($"gini:") _ _ _ parse_float_scan ltac:(discriminate) E2) as [M2 _].
  apply bind_no_fuel; [apply key_val_no_fuel, parse_ulong_no_fuel|]. intros [n q3] E3. destruct (key_val_scan _ ($"num_samples:") _ _ _ parse_ulong_scan ltac:(discriminate) E3) as [M3 _].
  apply bind_no_fuel; [apply key_val_no_fuel, parse_int_no_fuel|]. intros [c q4] E4. destruct (key_val_scan _ ($"predicted_class:") _ _ _ parse_int_scan ltac:(discriminate) E4) as [M4 _].
  apply bind_no_fuel; [apply key_val_no_fuel, parse_int_no_fuel|]. intros [f q5] E5. destruct (key_val_scan _ ($"feature_idx:") _ _ _ parse_int_scan ltac:(discriminate) E5) as [M5 _].
  apply bind_no_fuel; [apply key_val_no_fuel, parse_float_no_fuel|]. intros [h q6] E6. destruct (key_val_scan _ ($"threshold:") _ _ _ parse_float_scan ltac:(discriminate) E6) as [M6 _].
  apply bind_no_fuel; [apply expect_no_fuel|]. intros q7 E7. destruct (expect_scan ($"count_per_class:") _ _ ltac:(discriminate) E7) as [M7 _].
  apply bind_no_fuel; [apply expect_no_fuel|]. intros q8 E8. destruct (expect_scan ($"{") _ _ ltac:(discriminate) E8) as [M8 _].
  apply bind_no_fuel; [apply parse_counts_no_fuel; lia|]. intros [k q9] E9. destruct (parse_counts_scan _ _ _ _ _ E9) as [M9 _].
  apply bind_no_fuel; [apply get_next_token_no_fuel|]. intros q10 E10. apply next_shorter in E10.
  unfold moved in *. destruct M1 as [_ M1], M2 as [_ M2], M3 as [_ M3], M4 as [_ M4], M5 as [_ M5], M6 as [_ M6], M7 as [_ M7], M8 as [_ M8], M9 as [_ M9].
  apply bind_no_fuel; [apply child_no_fuel; intros _; apply IH; lia|]. intros [l q11] E11. apply child_shorter in E11.
  apply bind_no_fuel; [apply child_no_fuel; intros _; apply IH; lia|]. intros [r q12] _.
  apply bind_no_fuel; [apply parse_expected_no_fuel|]. discriminate.
Qed.

Lemma parse_samples_scan fuel : forall acc p v p', parse_samples fuel acc p = Ok (v, p') ->
  moved p p' /\ forall t fuel', (fuel <= fuel')%nat -> parse_samples fuel' acc (ext t p) = Ok (v, ext t p').
Proof.
  induction fuel as [|fuel IH]; intros acc p v p' E; [discriminate|]. cbn [parse_samples] in E. apply bind_ok in E as (q1 & E1 & E). destruct (token_is q1 ($"},")) eqn:B.
  - injection E as <- <-. destruct (next_scan _ _ E1 (is_token _ ($"},") ltac:(discriminate) B)) as [M X]. split; [exact M|]. intros t [|fuel'] L; [lia|]. cbn [parse_samples].
    rewrite X. cbn [bind]. unfold token_is in *. rewrite token_ext, B. reflexivity.
  - apply bind_ok in E as (q2 & E2 & E). apply bind_ok in E as (q3 & E3 & E). apply bind_ok in E as (q4 & E4 & E). apply bind_ok in E as ([x q5] & E5 & E).
    apply bind_ok in E as (q6 & E6 & E). apply bind_ok in E as (q7 & E7 & E). apply bind_ok in E as ([c q8] & E8 & E). apply bind_ok in E as (q9 & E9 & E).
    destruct (expect_scan ($"{") _ _ ltac:(discriminate) E2) as [M2 X2].
    assert (N1 : p_in q1 <> []) by (intros X; destruct M2 as [_ M2]; rewrite X in M2; cbn in M2; lia).
    destruct (next_scan0 _ _ E1 N1) as [M1 X1].
    destruct (expect_scan ($"features:") _ _ ltac:(discriminate) E3) as [M3 X3]. destruct (expect_scan ($"[") _ _ ltac:(discriminate) E4) as [M4 X4].
    destruct (parse_features_scan _ _ _ _ _ E5) as [M5 X5]. destruct (expect_scan ($"class:") _ _ ltac:(discriminate) E6) as [M6 X6].
    destruct (parse_int_scan _ _ _ E8) as (T8 & I8 & X8). destruct (next_scan _ _ E7 T8) as [M7 X7]. destruct (expect_scan ($"},") _ _ ltac:(discriminate) E9) as [M9 X9].
    destruct (IH _ _ _ _ E) as [M X]. split.
    + unfold moved in *. rewrite I8 in *. destruct M1, M2, M3, M4, M5, M6, M7, M9, M. split; [assumption|lia].
    + intros t [|fuel'] L; [lia|]. cbn [parse_samples]. rewrite X1. cbn [bind]. unfold token_is in *. rewrite token_ext, B, X2. cbn [bind]. rewrite X3. cbn [bind]. rewrite X4. cbn [bind].
      rewrite X5 by (cbn [ext p_in]; rewrite app_length; lia). cbn [bind]. rewrite X6. cbn [bind]. rewrite X7. cbn [bind]. rewrite X8. cbn [bind]. rewrite X9. cbn [bind]. apply X. lia.
Qed.
Lemma parse_samples_no_fuel fuel : forall acc p, (List.length (p_in p) < fuel)%nat -> parse_samples fuel acc p <> Fuel.
Proof.
  induction fuel as [|fuel IH]; intros acc p L; [lia|]. cbn [parse_samples]. apply bind_no_fuel; [apply get_next_token_no_fuel|]. intros q1 E1. apply next_shorter in E1. destruct (token_is q1 ($"},")); [discriminate|].
  apply bind_no_fuel; [apply expect_no_fuel|]. intros q2 E2. destruct (expect_scan ($"{") _ _ ltac:(discriminate) E2) as [[_ M2] _].
  apply bind_no_fuel; [apply expect_no_fuel|]. intros q3 E3. destruct (expect_scan ($"features:") _ _ ltac:(discriminate) E3) as [[_ M3] _].
  apply bind_no_fuel; [apply expect_no_fuel|]. intros q4 E4. destruct (expect_scan ($"[") _ _ ltac:(discriminate) E4) as [[_ M4] _].
  apply bind_no_fuel; [apply parse_features_no_fuel; lia|]. intros [x q5] E5. destruct (parse_features_scan _ _ _ _ _ E5) as [[_ M5] _].
  apply bind_no_fuel; [apply expect_no_fuel|]. intros q6 E6. destruct (expect_scan ($"class:") _ _ ltac:(discriminate) E6) as [[_ M6] _].
  apply bind_no_fuel; [apply get_next_token_no_fuel|]. intros q7 E7. apply next_shorter in E7.
  apply bind_no_fuel; [apply parse_int_no_fuel|]. intros [c q8] E8. apply parse_int_in in E8.
  apply bind_no_fuel; [apply expect_no_fuel|]. intros q9 E9. destruct (expect_scan ($"},") _ _ ltac:(discriminate) E9) as [[_ M9] _].
  apply IH. rewrite E8 in *. lia.
Qed.

(** ** Trees *)

Lemma parse_tree_scan t0 s v rest : parse_tree t0 s = Ok (v, rest) ->
  (rest <> [] /\ (List.length rest < List.length s)%nat) /\ forall t, parse_tree t0 (s ++ t) = Ok (v, rest ++ t).
Proof.
  intros E. unfold parse_tree in E.
  apply bind_ok in E as (q1 & E1 & E). apply bind_ok in E as (q2 & E2 & E). apply bind_ok in E as ([md q3] & E3 & E). apply bind_ok in E as (q4 & E4 & E). apply bind_ok in E as (q5 & E5 & E).
  apply bind_ok in E as ([cl q6] & E6 & E). apply bind_ok in E as ([nf q7] & E7 & E). apply bind_ok in E as (q8 & E8 & E). apply bind_ok in E as ([root q9] & E9 & E).
  apply bind_ok in E as (q10 & E10 & E). apply bind_ok in E as (q11 & E11 & E). apply bind_ok in E as ([data q12] & E12 & E). apply bind_ok in E as (q13 & E13 & E). injection E as <- <-.
  destruct (expect_scan ($"tree:") _ _ ltac:(discriminate) E1) as [M1 X1]. destruct (expect_scan ($"{") _ _ ltac:(discriminate) E2) as [M2 X2].
  destruct (key_val_scan _ ($"max_depth:") _ _ _ parse_uint_scan ltac:(discriminate) E3) as [M3 X3].
  destruct (expect_scan ($"classes:") _ _ ltac:(discriminate) E4) as [M4 X4]. destruct (expect_scan ($"[") _ _ ltac:(discriminate) E5) as [M5 X5].
  destruct (parse_classes_scan _ _ _ _ _ E6) as [M6 X6]. destruct (key_val_scan _ ($"num_features:") _ _ _ parse_uint_scan ltac:(discriminate) E7) as [M7 X7].
  destruct (expect_scan ($"root:") _ _ ltac:(discriminate) E8) as [M8 X8]. destruct (parse_node_scan _ _ _ _ E9) as [M9 X9].
  destruct (expect_scan ($"data:") _ _ ltac:(discriminate) E10) as [M10 X10]. destruct (expect_scan ($"{") _ _ ltac:(discriminate) E11) as [M11 X11].
  destruct (parse_samples_scan _ _ _ _ _ E12) as [M12 X12]. destruct (expect_scan ($"}") _ _ ltac:(discriminate) E13) as [M13 X13].
  split.
  - clear - M1 M2 M3 M4 M5 M6 M7 M8 M9 M10 M11 M12 M13. unfold moved in *. destruct M1 as [_ M1], M2, M3, M4, M5, M6, M7, M8, M9, M10, M11, M12, M13. cbn [new_parser p_in] in M1. split; [assumption|lia].
  - intros t. unfold parse_tree. change (new_parser (s ++ t)) with (ext t (new_parser s)). rewrite X1. cbn [bind]. rewrite X2. cbn [bind]. rewrite X3. cbn [bind]. rewrite X4. cbn [bind]. rewrite X5. cbn [bind].
    rewrite X6 by (cbn [ext p_in]; rewrite app_length; lia). cbn [bind]. rewrite X7. cbn [bind]. rewrite X8. cbn [bind]. rewrite X9 by (cbn [ext p_in]; rewrite app_length; lia). cbn [bind].
    rewrite X10. cbn [bind]. rewrite X11. cbn [bind]. rewrite X12 by (cbn [ext p_in]; rewrite app_length; lia). cbn [bind]. rewrite X13. reflexivity.
Qed.

Lemma parse_tree_no_fuel t0 s : parse_tree t0 s <> Fuel.
Proof.
  unfold parse_tree.
  apply bind_no_fuel; [apply expect_no_fuel|]. intros q1 _. apply bind_no_fuel; [apply expect_no_fuel|]. intros q2 _. apply bind_no_fuel; [apply key_val_no_fuel, parse_uint_no_fuel|]. intros [md q3] _.
  apply bind_no_fuel; [apply expect_no_fuel|]. intros q4 _. apply bind_no_fuel; [apply expect_no_fuel|]. intros q5 _. apply bind_no_fuel; [apply parse_classes_no_fuel; lia|]. intros [cl q6] _.
  apply bind_no_fuel; [apply key_val_no_fuel, parse_uint_no_fuel|]. intros [nf q7] _. apply bind_no_fuel; [apply expect_no_fuel|]. intros q8 _. apply bind_no_fuel; [apply parse_node_no_fuel; lia|]. intros [root q9] _.
  apply bind_no_fuel; [apply expect_no_fuel|]. intros q10 _. apply bind_no_fuel; [apply expect_no_fuel|]. intros q11 _. apply bind_no_fuel; [apply parse_samples_no_fuel; lia|]. intros [data q12] _.
  apply bind_no_fuel; [apply expect_no_fuel|]. discriminate.
Qed.

Lemma tree_load_terminates t s : dt_load t s <> Fuel.
Proof. unfold dt_load. apply bind_no_fuel; [apply parse_tree_no_fuel|]. intros [x y] _. discriminate. Qed.

Lemma tree_load_extends t s x t' : dt_load t s = Ok t' -> dt_load t (s ++ x) = Ok t'.
Proof.
  unfold dt_load. intros E. apply bind_ok in E as ([v r] & E & K). injection K as <-. rewrite (proj2 (parse_tree_scan _ _ _ _ E) x). reflexivity.
Qed.

(** ** Forests *)

Lemma parse_trees_scan todo : forall p v p', p_in p <> [] -> parse_trees todo p = Ok (v, p') ->
  (p_in p' <> [] /\ (List.length (p_in p') <= List.length (p_in p))%nat) /\ forall t, parse_trees todo (ext t p) = Ok (v, ext t p').
Proof.
  induction todo as [|todo IH]; intros p v p' NE E; cbn [parse_trees] in E.
  - injection E as <- <-. split; [split; [exact NE|lia]|]. reflexivity.
  - apply bind_ok in E as ([x r] & E1 & E). cbv zeta in E. apply bind_ok in E as (q2 & E2 & E). apply bind_ok in E as (q3 & E3 & E). apply bind_ok in E as ([ts q4] & E4 & E). injection E as <- <-.
    destruct (parse_tree_scan _ _ _ _ E1) as [M1 X1]. apply expected_scan in E3 as (-> & T & X3); [|discriminate]. destruct (next_scan _ _ E2 T) as [M2 X2].
    destruct (IH q2 ts q4 (proj1 M2) E4) as [M4 X4]. split.
    + destruct M1 as [_ M1], M2 as [_ M2], M4 as [N4 M4]. cbn [p_in] in M2. split; [exact N4|lia].
    + intros t. cbn [parse_trees]. cbn [ext p_in]. rewrite X1. cbn [bind]. change (mkParser (r ++ t) (p_buf p) (p_off p)) with (ext t (mkParser r (p_buf p) (p_off p))). cbv zeta.
      change (p_buf (ext t p)) with (p_buf p). change (p_off (ext t p)) with (p_off p).
      change (mkParser (r ++ t) (p_buf p) (p_off p)) with (ext t (mkParser r (p_buf p) (p_off p))). rewrite X2. cbn [bind]. rewrite X3. cbn [bind]. rewrite X4. reflexivity.
Qed.
Lemma parse_trees_no_fuel todo : forall p, parse_trees todo p <> Fuel.
Proof.
  induction todo as [|todo IH]; intros p; cbn [parse_trees]; [discriminate|]. apply bind_no_fuel; [apply parse_tree_no_fuel|]. intros [x r] _. cbv zeta.
  apply bind_no_fuel; [apply get_next_token_no_fuel|]. intros q2 _. apply bind_no_fuel; [apply parse_expected_no_fuel|]. intros q3 _. apply bind_no_fuel; [apply IH|]. intros [ts q4] _. discriminate.
Qed.

Lemma forest_load_terminates f s : f_load f s <> Fuel.
Proof.
  unfold f_load.
  apply bind_no_fuel; [apply expect_no_fuel|]. intros q1 _. apply bind_no_fuel; [apply expect_no_fuel|]. intros q2 _. apply bind_no_fuel; [apply key_val_no_fuel, parse_uint_no_fuel|]. intros [nt q3] _.
  apply bind_no_fuel; [apply key_val_no_fuel, parse_uint_no_fuel|]. intros [md q4] _. apply bind_no_fuel; [apply expect_no_fuel|]. intros q5 _. apply bind_no_fuel; [apply expect_no_fuel|]. intros q6 _.
  apply bind_no_fuel; [apply parse_class_idx_no_fuel; lia|]. intros [i q7] _. destruct (negb _); [discriminate|]. apply bind_no_fuel; [apply expect_no_fuel|]. intros q8 _.
  apply bind_no_fuel; [apply expect_no_fuel|]. intros q9 _. apply bind_no_fuel; [apply parse_trees_no_fuel|]. intros [ts q10] _. apply bind_no_fuel; [apply expect_no_fuel|]. intros q11 _.
  apply bind_no_fuel; [apply expect_no_fuel|]. discriminate.
Qed.

(** What is left unread after a forest. *)
Definition f_load_rest (f : forest) (s : bytes) : outcome (forest * bytes) :=
  let* p := expect_next ($"rfc:") (new_parser s) in
  let* p := expect_next ($"{") p in
  let* (num_trees, p) := key_val parse_uint ($"num_trees:") p in
  let* (max_depth, p) := key_val parse_uint ($"max_depth:") p in
  let* p := expect_next ($"classes:") p in
  let* p := expect_next ($"[") p in
  let* (idx, p) := parse_class_idx (S (List.length (p_in p))) 0 p in
  if negb (idx =? f_num_classes f) then Throw
  else
    let* p := expect_next ($"trees:") p in
    let* p := expect_next ($"[") p in
    let* (ts, p) := parse_trees (Z.to_nat num_trees) p in
    let* p := expect_next ($"]") p in
    let* p := expect_next ($"}") p in
    Ok (mkForest (f_trees f ++ ts) (f_num_classes f) num_trees max_depth, p_in p).

Lemma f_load_rest_ok f s f' : f_load f s = Ok f' <-> exists rest, f_load_rest f s = Ok (f', rest).
Proof.
  unfold f_load, f_load_rest.
  destruct (expect_next ($"rfc:") _) as [q1| | | |]; cbn [bind]; try (split; [discriminate|intros [? K]; discriminate K]).
  destruct (expect_next ($"{") q1) as [q2| | | |]; cbn [bind]; try (split; [discriminate|intros [? K]; discriminate K]).
  destruct (key_val parse_uint _ q2) as [[nt q3]| | | |]; cbn [bind]; try (split; [discriminate|intros [? K]; discriminate K]).
  destruct (key_val parse_uint _ q3) as [[md q4]| | | |]; cbn [bind]; try (split; [discriminate|intros [? K]; discriminate K]).
  destruct (expect_next _ q4) as [q5| | | |]; cbn [bind]; try (split; [discriminate|intros [? K]; discriminate K]).
  destruct (expect_next _ q5) as [q6| | | |]; cbn [bind]; try (split; [discriminate|intros [? K]; discriminate K]).
  destruct (parse_class_idx _ _ q6) as [[i q7]| | | |]; cbn [bind]; try (split; [discriminate|intros [? K]; discriminate K]).
  destruct (negb _); [split; [discriminate|intros [? K]; discriminate K]|].
  destruct (expect_next _ q7) as [q8| | | |]; cbn [bind]; try (split; [discriminate|intros [? K]; discriminate K]).
  destruct (expect_next _ q8) as [q9| | | |]; cbn [bind]; try (split; [discriminate|intros [? K]; discriminate K]).
  destruct (parse_trees _ q9) as [[ts q10]| | | |]; cbn [bind]; try (split; [discriminate|intros [? K]; discriminate K]).
  destruct (expect_next _ q10) as [q11| | | |]; cbn [bind]; try (split; [discriminate|intros [? K]; discriminate K]).
  destruct (expect_next _ q11) as [q12| | | |]; cbn [bind]; try (split; [discriminate|intros [? K]; discriminate K]).
  split; [intros K; injection K as <-; eauto|intros [r K]; injection K as <- _; reflexivity].
Qed.

Lemma f_load_scan f s f' rest : f_load_rest f s = Ok (f', rest) -> rest <> [] /\ forall t, f_load_rest f (s ++ t) = Ok (f', rest ++ t).
Proof.
  intros E. unfold f_load_rest in E.
  apply bind_ok in E as (q1 & E1 & E). apply bind_ok in E as (q2 & E2 & E). apply bind_ok in E as ([nt q3] & E3 & E). apply bind_ok in E as ([md q4] & E4 & E). apply bind_ok in E as (q5 & E5 & E).
  apply bind_ok in E as (q6 & E6 & E). apply bind_ok in E as ([i q7] & E7 & E). destruct (negb _) eqn:B; [discriminate|]. apply bind_ok in E as (q8 & E8 & E). apply bind_ok in E as (q9 & E9 & E).
  apply bind_ok in E as ([ts q10] & E10 & E). apply bind_ok in E as (q11 & E11 & E). apply bind_ok in E as (q12 & E12 & E). injection E as <- <-.
  destruct (expect_scan ($"rfc:") _ _ ltac:(discriminate) E1) as [M1 X1]. destruct (expect_scan ($"{") _ _ ltac:(discriminate) E2) as [M2 X2].
  destruct (key_val_scan _ ($"num_trees:") _ _ _ parse_uint_scan ltac:(discriminate) E3) as [M3 X3]. destruct (key_val_scan _ ($"max_depth:") _ _ _ parse_uint_scan ltac:(discriminate) E4) as [M4 X4].
  destruct (expect_scan ($"classes:") _ _ ltac:(discriminate) E5) as [M5 X5]. destruct (expect_scan ($"[") _ _ ltac:(discriminate) E6) as [M6 X6].
  destruct (parse_class_idx_scan _ _ _ _ _ E7) as [M7 X7]. destruct (expect_scan ($"trees:") _ _ ltac:(discriminate) E8) as [M8 X8]. destruct (expect_scan ($"[") _ _ ltac:(discriminate) E9) as [M9 X9].
  destruct (parse_trees_scan _ _ _ _ (proj1 M9) E10) as [M10 X10]. destruct (expect_scan ($"]") _ _ ltac:(discriminate) E11) as [M11 X11]. destruct (expect_scan ($"}") _ _ ltac:(discriminate) E12) as [M12 X12].
  split; [apply M12|]. intros t. unfold f_load_rest. change (new_parser (s ++ t)) with (ext t (new_parser s)). rewrite X1. cbn [bind]. rewrite X2. cbn [bind]. rewrite X3. cbn [bind]. rewrite X4. cbn [bind].
  rewrite X5. cbn [bind]. rewrite X6. cbn [bind]. rewrite X7 by (cbn [ext p_in]; rewrite app_length; lia). cbn [bind]. rewrite B. rewrite X8. cbn [bind]. rewrite X9. cbn [bind].
  rewrite X10. cbn [bind]. rewrite X11. cbn [bind]. rewrite X12. reflexivity.
Qed.

Lemma forest_load_extends f s x f' : f_load f s = Ok f' -> f_load f (s ++ x) = Ok f'.
Proof. intros E. apply f_load_rest_ok in E as [r E]. apply f_load_rest_ok. exists (r ++ x). apply f_load_scan. exact E. Qed.

(** ** Truncated files *)

Lemma load_prefix_rest f text n : writable_forest f -> feeds text (forest_words f ++ [$"}"]) [nl] ->
  f_num_trees f = Z.of_nat n -> (n <= List.length (f_trees f))%nat ->
  exists ts', Forall2 dtree_copy (firstn n (f_trees f)) ts' /\
  exists p', feeds (p_in p') (trees_words (skipn n (f_trees f)) ++ [$"]"; $"}"]) [nl] /\
  forall a b, f_load_rest (new_forest (f_num_classes f) a b) text =
    let* p := expect_next ($"]") p' in
    let* p := expect_next ($"}") p in
    Ok (mkForest ts' (f_num_classes f) (f_num_trees f) (f_max_depth f), p_in p).
Proof.
  intros [Hc Ht Hd W] D EN LN. unfold forest_words in D. rewrite <- !app_assoc in D. cbn [app] in D.
  assert (W1 : Forall writable (firstn n (f_trees f))).
  { rewrite <- (firstn_skipn n (f_trees f)) in W. now apply Forall_app in W as [W _]. }
  destruct (parse_trees_ok _ W1) as (ts' & C & P). exists ts'. split; auto.
  unfold f_load_rest, new_parser.
  destruct (expect_p (mkParser text [] 0) _ _ _ D) as (s1 & E1 & F1).
  destruct (expect_p (mkParser s1 ($"rfc:") 0) _ _ _ F1) as (s2 & E2 & F2).
  destruct (key_val_ok parse_uint ($"num_trees:") (print_Z (f_num_trees f)) (f_num_trees f) (mkParser s2 ($"{") 0) _ _
    ltac:(apply uint_number; auto with numbers; cbn; lia) F2) as (p3 & E3 & F3).
  destruct (key_val_ok parse_uint ($"max_depth:") (print_Z (f_max_depth f)) (f_max_depth f) p3 _ _
    ltac:(apply uint_number; auto with numbers; cbn; lia) F3) as (p4 & E4 & F4).
  destruct (expect_p p4 _ _ _ F4) as (s5 & E5 & F5).
  destruct (expect_p (mkParser s5 ($"classes:") 0) _ _ _ F5) as (s6 & E6 & F6).
  destruct (parse_class_idx_ok (Z.to_nat (f_num_classes f)) 0 (S (List.length (p_in (mkParser s6 ($"[") 0)))) (mkParser s6 ($"[") 0)
    _ _ ltac:(lia) F6) as (p7 & E7 & F7).
  { cbn [p_in]. apply feeds_fuel in F6. rewrite !map_length, seq_length in F6. lia. }
  change (Z.of_nat 0) with 0 in E7. rewrite Nat.add_0_l, Z2Nat.id in E7 by lia.
  destruct (expect_p p7 _ _ _ F7) as (s8 & E8 & F8).
  destruct (expect_p (mkParser s8 ($"trees:") 0) _ _ _ F8) as (s9 & E9 & F9).
  rewrite <- (firstn_skipn n (f_trees f)) in F9. unfold trees_words in F9. rewrite map_app, concat_app, <- app_assoc in F9.
  destruct (P (mkParser s9 ($"[") 0) _ _ F9) as (p10 & E10 & F10).
  rewrite firstn_length_le in E10 by assumption.
  exists p10. split; [exact F10|]. intros a b.
  rewrite E1. cbn [bind]. rewrite E2. cbn [bind]. rewrite E3. cbn [bind]. rewrite E4. cbn [bind].
  rewrite E5. cbn [bind]. rewrite E6. cbn [bind]. rewrite E7. cbn [bind new_forest f_num_classes f_trees].
  rewrite Z.eqb_refl. cbn [negb]. rewrite E8. cbn [bind]. rewrite E9. cbn [bind].
  rewrite EN, Nat2Z.id, E10. cbn [bind]. reflexivity.
Qed.

Lemma one_char {A} (r b : list A) x : r <> [] -> r ++ b = [x] -> b = [].
Proof. destruct r as [|y r]; [congruence|]. intros _ E. injection E as _ E. destruct r; [exact E|discriminate E]. Qed.

Lemma truncated_tree t text s b t0 t' : writable t -> dt_save t = Ok text -> text = s ++ b -> b <> [] -> dt_load t0 s <> Ok t'.
Proof.
  intros W S ET NB E. unfold dt_load in E. apply bind_ok in E as ([v r] & E & K). destruct (parse_tree_scan _ _ _ _ E) as [[NR _] X]. specialize (X b). rewrite <- ET in X.
  destruct (output_tree_ok 0 t W) as (s1 & E1 & F). destruct (parse_tree_ok t W) as (root & data & CR & CD & P).
  unfold dt_save in S. rewrite E1 in S. cbn [bind] in S. injection S as <-.
  rewrite (P t0 _ [nl]) in X.
  - injection X as _ X. symmetry in X. apply one_char in X; [contradiction|exact NR].
  - specialize (F []). rewrite app_nil_r in F. unfold tree_words in *. apply (feeds_comment ($" DecisionTreeImpl")); [|exact F].
    cbn. intros Y. repeat (destruct Y as [Y|Y]; [discriminate|]). exact Y.
Qed.

Lemma truncated_forest f text s b x y f' : writable_forest f -> Z.of_nat (List.length (f_trees f)) = f_num_trees f -> f_save f = Ok text -> text = s ++ b -> b <> [] ->
  f_load (new_forest (f_num_classes f) x y) s <> Ok f'.
Proof.
  intros W EN S ET NB E. apply f_load_rest_ok in E as [r E]. destruct (f_load_scan _ _ _ _ E) as [NR X]. specialize (X b). rewrite <- ET in X.
  destruct (f_save_ok f W) as (text' & ES & D). rewrite S in ES. injection ES as <-.
  destruct (load_prefix_rest f text (List.length (f_trees f)) W D (eq_sym EN) (Nat.le_refl _)) as (ts' & C & p' & F & EL).
  rewrite skipn_all in F. unfold trees_words in F. cbn [map List.concat app] in F. rewrite EL in X.
  destruct (expect_p _ _ _ _ F) as (s1 & E1 & F1). rewrite E1 in X. cbn [bind] in X.
  destruct (expect_p (mkParser s1 ($"]") 0) _ _ _ F1) as (s2 & E2 & F2). rewrite E2 in X. cbn [bind] in X. injection X as _ X. cbn [p_in] in X.
  assert (R : s2 = [nl]) by (inversion F2; reflexivity). rewrite R in X. symmetry in X. apply one_char in X; [contradiction|exact NR].
Qed.
