(** Stored forests with another list of classes. *)
From Coq Require Import List ZArith Bool Ascii String Lia.
From Verif Require Import Model.Base Model.Float Model.Decimal Model.ParserM Model.TreeM Model.TreeIO Model.ForestM
  Spec.TokenSpec Spec.DecimalSpec Spec.DatasetFileSpec Spec.TreeSpec Spec.TreeFileSpec Spec.ForestSpec Spec.ForestFileSpec
  Proofs.DecimalInt Proofs.ParserFacts Proofs.LoadFacts Proofs.DatasetIOFacts Proofs.TreeFacts Proofs.Feeds Proofs.TreeIOFacts Proofs.TreeFileProps Proofs.ForestFacts.
Import ListNotations.
Open Scope Z_scope.

Lemma last_from {A} (l : list A) : forall a d, last (a :: l) d = last l a.
Proof. induction l as [|b l IH]; intros a d; [reflexivity|]. change (last (a :: b :: l) d) with (last (b :: l) d). rewrite !IH. reflexivity. Qed.

(** Reading a list of classes. *)
Lemma parse_class_list cs : forall idx fuel p ws r, Forall is_int cs ->
  feeds (p_in p) (map (fun c => print_Z c ++ comma) cs ++ $"]," :: ws) r -> (List.length cs < fuel)%nat ->
  if in_dec Z.eq_dec 2147483647 cs then parse_class_idx fuel idx p = UB
  else exists p', parse_class_idx fuel idx p = Ok (last (map (fun c => c + 1) cs) idx, p') /\ feeds (p_in p') ws r.
Proof.
  induction cs as [|c cs IH]; intros idx fuel p ws r B D Hf; (destruct fuel; [cbn [List.length] in Hf; lia|]); cbn [parse_class_idx map app] in *.
  - destruct (in_dec Z.eq_dec 2147483647 []) as [[]|_]. destruct (next_p _ _ _ _ D) as (s1 & -> & F1). cbn [bind]. rewrite token_is_word by now good.
    rewrite bytes_eqb_refl. eauto.
  - destruct (next_p _ _ _ _ D) as (s1 & -> & F1). cbn [bind].
    assert (N : number parse_int (print_Z c) comma c) by (apply int_number; [exact (Forall_inv B)|auto with numbers..]).
    rewrite token_is_word by apply N.
    rewrite (number_not_brace parse_int _ _ _ ($"],") N) by reflexivity.
    rewrite (proj2 N). cbn [bind]. rewrite after_number by apply N. cbn [bind].
    destruct (Z.eqb_spec c 2147483647) as [->|NE].
    { destruct (in_dec Z.eq_dec 2147483647 (2147483647 :: cs)) as [_|X]; [reflexivity|]. exfalso. apply X. left. reflexivity. }
    cbn [List.length] in Hf.
    specialize (IH (c + 1) fuel (mkParser s1 (print_Z c ++ comma) (List.length (print_Z c))) ws r (Forall_inv_tail B) F1 ltac:(lia)).
    destruct (in_dec Z.eq_dec 2147483647 cs) as [I|I], (in_dec Z.eq_dec 2147483647 (c :: cs)) as [J|J]; try exact IH.
    + exfalso. apply J. right. exact I.
    + destruct J as [J|J]; contradiction.
    + rewrite last_from. exact IH.
Qed.

(** The words of a stored forest with the classes [cs]. *)
Definition listed_words (f : forest) (cs : list Z) : list bytes :=
  [$"rfc:"; $"{"] ++ [$"num_trees:"; print_Z (f_num_trees f) ++ comma] ++ [$"max_depth:"; print_Z (f_max_depth f) ++ comma]
  ++ ([$"classes:"; $"["] ++ map (fun c => print_Z c ++ comma) cs ++ [$"],"])
  ++ [$"trees:"; $"["] ++ trees_words (f_trees f) ++ [$"]"].

(** The head of a stored forest, up to its classes. *)
Definition forest_head (f : forest) : bytes :=
  $"# RandomForestImpl" ++ [nl] ++ line 0 ($"rfc: {") ++ line 1 ($"num_trees: " ++ print_Z (f_num_trees f) ++ $",")
  ++ line 1 ($"max_depth: " ++ print_Z (f_max_depth f) ++ $",").

Lemma f_save_parts f text : f_save f = Ok text -> exists trees, output_trees (f_trees f) = Ok trees /\
  text = forest_head f ++ classes_line (all_classes (f_num_classes f)) ++ line 1 ($"trees:" ++ $" [") ++ trees ++ line 1 ($"]") ++ line 0 ($"}").
Proof.
  unfold f_save, output_rfc. intros E. apply bind_inv in E as (s & E & K). injection K as <-. apply bind_inv in E as (trees & E & K). injection K as <-.
  exists trees. split; [exact E|]. unfold forest_head, classes_line, all_classes. rewrite map_map. unfold line. rewrite <- !app_assoc. reflexivity.
Qed.

Lemma classes_delivers cs : Forall is_int cs -> delivers (classes_line cs) ([$"classes:"; $"["] ++ map (fun c => print_Z c ++ comma) cs ++ [$"],"]).
Proof.
  intros I. apply (delivers_eq ([" "%char; " "%char] ++ ($"classes:" ++ [" "%char]) ++ ($"[" ++ [" "%char]) ++
    List.concat (map (fun i => print_Z i ++ $", ") cs) ++ ($"]," ++ [nl]))); [reflexivity|].
  apply (delivers_app _ []); [apply delivers_blank; repeat constructor|].
  apply (delivers_app _ [$"classes:"]); [apply delivers_word; [good|reflexivity]|].
  apply (delivers_app _ [$"["]); [apply delivers_word; [good|reflexivity]|].
  apply delivers_app; [|apply delivers_word; [good|reflexivity]].
  apply concat_words_in. apply Forall_forall. intros z Hz. rewrite Forall_forall in I. specialize (I z Hz). unfold is_int in I.
  apply print_Z_good; [lia|cleans|cbn; lia].
Qed.

Lemma listed_feeds f cs trees : writable_forest f -> Forall is_int cs -> output_trees (f_trees f) = Ok trees ->
  feeds (forest_head f ++ classes_line cs ++ line 1 ($"trees:" ++ $" [") ++ trees ++ line 1 ($"]") ++ line 0 ($"}")) (listed_words f cs ++ [$"}"]) [nl].
Proof.
  intros [Hc Ht Hd F] I ET. destruct (output_trees_ok _ F) as (s & ES & D). rewrite ET in ES. injection ES as <-.
  unfold forest_head. rewrite <- !app_assoc. apply (feeds_comment ($" RandomForestImpl")).
  { cbn. intros X. repeat (destruct X as [X|X]; [discriminate|]). exact X. }
  assert (DD : delivers (line 0 ($"rfc: {") ++ line 1 ($"num_trees: " ++ print_Z (f_num_trees f) ++ $",")
    ++ line 1 ($"max_depth: " ++ print_Z (f_max_depth f) ++ $",") ++ classes_line cs ++ line 1 ($"trees:" ++ $" [") ++ trees ++ line 1 ($"]")) (listed_words f cs)).
  { unfold listed_words. apply delivers_app; [line_tac|]. apply delivers_app; [line_tac|]. apply delivers_app; [line_tac|].
    apply delivers_app; [now apply classes_delivers|]. apply delivers_app; [line_tac|]. apply delivers_app; [exact D|line_tac]. }
  specialize (DD (line 0 ($"}")) ($"}") [] [nl]). rewrite <- !app_assoc in DD. apply DD.
  apply (feeds_cons [] ($"}") [nl]); [reflexivity|constructor|now good| |constructor]. exists nl, []. split; reflexivity.
Qed.

(** Loading it. *)
Lemma load_listed f : writable_forest f -> Z.of_nat (List.length (f_trees f)) = f_num_trees f ->
  exists ts', forall cs text k a b, Forall is_int cs -> feeds text (listed_words f cs ++ [$"}"]) [nl] ->
    f_load (new_forest k a b) text =
      if in_dec Z.eq_dec 2147483647 cs then UB
      else if last cs (-1) + 1 =? k then Ok (mkForest ts' k (f_num_trees f) (f_max_depth f)) else Throw.
Proof.
  intros [Hc Ht Hd W] EN. destruct (parse_trees_ok _ W) as (ts' & C & P). exists ts'. intros cs text k a b I D.
  unfold listed_words in D. rewrite <- !app_assoc in D. cbn [app] in D. unfold f_load, new_parser.
  destruct (expect_p (mkParser text [] 0) _ _ _ D) as (s1 & E1 & F1).
  destruct (expect_p (mkParser s1 ($"rfc:") 0) _ _ _ F1) as (s2 & E2 & F2).
  destruct (key_val_ok parse_uint ($"num_trees:") (print_Z (f_num_trees f)) (f_num_trees f) (mkParser s2 ($"{") 0) _ _
    ltac:(apply uint_number; auto with numbers; cbn; lia) F2) as (p3 & E3 & F3).
  destruct (key_val_ok parse_uint ($"max_depth:") (print_Z (f_max_depth f)) (f_max_depth f) p3 _ _
    ltac:(apply uint_number; auto with numbers; cbn; lia) F3) as (p4 & E4 & F4).
  destruct (expect_p p4 _ _ _ F4) as (s5 & E5 & F5).
  destruct (expect_p (mkParser s5 ($"classes:") 0) _ _ _ F5) as (s6 & E6 & F6).
  assert (X := parse_class_list cs 0 (S (List.length (p_in (mkParser s6 ($"[") 0)))) (mkParser s6 ($"[") 0) _ _ I F6).
  assert (L : (List.length cs < S (List.length (p_in (mkParser s6 ($"[") 0))))%nat).
  { cbn [p_in]. apply feeds_fuel in F6. rewrite map_length in F6. lia. }
  specialize (X L). rewrite E1. cbn [bind]. rewrite E2. cbn [bind]. rewrite E3. cbn [bind]. rewrite E4. cbn [bind].
  rewrite E5. cbn [bind]. rewrite E6. cbn [bind]. destruct (in_dec Z.eq_dec 2147483647 cs) as [J|J]; [rewrite X; reflexivity|].
  destruct X as (p7 & E7 & F7). rewrite E7. cbn [bind new_forest f_num_classes f_trees].
  assert (LL : last (map (fun c => c + 1) cs) 0 = last cs (-1) + 1).
  { clear. change 0 with (-1 + 1). generalize (-1). induction cs as [|c cs IH]; intros d; [reflexivity|]. cbn [map]. rewrite !last_from. apply IH. }
  rewrite LL. destruct (last cs (-1) + 1 =? k); cbn [negb]; [|reflexivity].
  destruct (expect_p p7 _ _ _ F7) as (s8 & E8 & F8).
  destruct (expect_p (mkParser s8 ($"trees:") 0) _ _ _ F8) as (s9 & E9 & F9).
  destruct (P (mkParser s9 ($"[") 0) _ _ F9) as (p10 & E10 & F10).
  rewrite E8. cbn [bind]. rewrite E9. cbn [bind]. rewrite <- EN, Nat2Z.id, E10. cbn [bind].
  destruct (expect_p _ _ _ _ F10) as (s11 & -> & F11). cbn [bind].
  destruct (expect_p (mkParser s11 ($"]") 0) _ _ _ F11) as (s12 & -> & F12). reflexivity.
Qed.

(** ** Finding the classes in the text *)

Definition bracket : ascii := "["%char.

Lemma first_bracket (a a' r r' : bytes) : ~ In bracket a -> ~ In bracket a' -> a ++ bracket :: r = a' ++ bracket :: r' -> a = a' /\ r = r'.
Proof.
  revert a'. induction a as [|c a IH]; intros [|c' a'] N N' E; cbn [app] in E.
  - injection E as <-. split; reflexivity.
  - injection E as <- _. exfalso. apply N'. left. reflexivity.
  - injection E as -> _. exfalso. apply N. left. reflexivity.
  - injection E as <- E. destruct (IH a') as [-> ->]; [intros X; apply N; right; exact X|intros X; apply N'; right; exact X|exact E|]. split; reflexivity.
Qed.

Lemma no_bracket_b s : forallb (fun c => negb (Ascii.eqb c bracket)) s = true -> ~ In bracket s.
Proof. intros F I. rewrite forallb_forall in F. specialize (F _ I). discriminate F. Qed.

Lemma no_bracket_app a b : ~ In bracket a -> ~ In bracket b -> ~ In bracket (a ++ b).
Proof. intros A B I. apply in_app_or in I as [I|I]; auto. Qed.

Lemma print_Z_no_bracket z : ~ In bracket (print_Z z).
Proof.
  assert (D : forall n, 0 <= n -> ~ In bracket (print_nonneg n)).
  { intros n _ I. assert (F := print_nonneg_digits n). rewrite Forall_forall in F. specialize (F _ I). discriminate F. }
  unfold print_Z. destruct (Z.ltb_spec z 0); [intros [E|E]; [discriminate E|]|]; [revert E|]; apply D; lia.
Qed.

Lemma head_no_bracket f : ~ In bracket (forest_head f).
Proof.
  unfold forest_head, line. repeat (apply no_bracket_app; [first [apply print_Z_no_bracket|apply no_bracket_b; reflexivity|idtac]|]);
    try (apply no_bracket_b; reflexivity).
  all: repeat (apply no_bracket_app; [first [apply print_Z_no_bracket|apply no_bracket_b; reflexivity|idtac]|]); try (apply no_bracket_b; reflexivity).
Qed.

Lemma found_classes f text trees a b : output_trees (f_trees f) = Ok trees ->
  text = forest_head f ++ classes_line (all_classes (f_num_classes f)) ++ line 1 ($"trees:" ++ $" [") ++ trees ++ line 1 ($"]") ++ line 0 ($"}") ->
  text = a ++ classes_line (all_classes (f_num_classes f)) ++ b -> ~ In bracket a ->
  a = forest_head f /\ b = line 1 ($"trees:" ++ $" [") ++ trees ++ line 1 ($"]") ++ line 0 ($"}").
Proof.
  intros ET -> E N. set (tl := line 1 ($"trees:" ++ $" [") ++ trees ++ line 1 ($"]") ++ line 0 ($"}")) in *.
  assert (S : forall cs x, classes_line cs ++ x = $"  classes: " ++ bracket :: ($" " ++ List.concat (map (fun c => print_Z c ++ $", ") cs) ++ $"]," ++ [nl]) ++ x).
  { intros cs x. unfold classes_line. rewrite <- !app_assoc. reflexivity. }
  rewrite !S, !(app_assoc _ ($"  classes: ")) in E.
  destruct (first_bracket (forest_head f ++ $"  classes: ") (a ++ $"  classes: ") _ _
    (no_bracket_app _ _ (head_no_bracket f) (no_bracket_b ($"  classes: ") eq_refl)) (no_bracket_app _ _ N (no_bracket_b ($"  classes: ") eq_refl)) E) as [A B].
  apply app_inv_tail in A. apply app_inv_head in B. split; symmetry; assumption.
Qed.

(** ** The classes of a stored forest *)

Lemma relisted f text a b cs k x y : writable_forest f -> Z.of_nat (List.length (f_trees f)) = f_num_trees f ->
  f_save f = Ok text -> text = a ++ classes_line (all_classes (f_num_classes f)) ++ b -> ~ In "["%char a -> Forall is_int cs ->
  exists f', (forall u v, f_load (new_forest (f_num_classes f) u v) text = Ok f') /\
  (In 2147483647 cs -> f_load (new_forest k x y) (a ++ classes_line cs ++ b) = UB) /\
  (~ In 2147483647 cs -> last cs (-1) + 1 = k ->
     f_load (new_forest k x y) (a ++ classes_line cs ++ b) = Ok (mkForest (f_trees f') k (f_num_trees f') (f_max_depth f'))) /\
  (~ In 2147483647 cs -> last cs (-1) + 1 <> k -> f_load (new_forest k x y) (a ++ classes_line cs ++ b) = Throw).
Proof.
  intros W EN S EA N I. destruct (f_save_parts _ _ S) as (trees & ET & EP). destruct (found_classes _ _ _ _ _ ET EP EA N) as [-> ->].
  destruct (load_listed f W EN) as (ts' & L).
  exists (mkForest ts' (f_num_classes f) (f_num_trees f) (f_max_depth f)). cbn [f_trees f_num_trees f_max_depth].
  assert (L2 := L cs _ k x y I (listed_feeds f cs trees W I ET)). repeat split.
  - intros u v. destruct (saved_forest_loads f W EN) as (t2 & f2 & S2 & C2 & L3). rewrite S in S2. injection S2 as <-.
    assert (R : 0 <= f_num_classes f < 2 ^ 31) by apply W.
    assert (IA : Forall is_int (all_classes (f_num_classes f))).
    { apply Forall_forall. intros z Hz. apply in_map_iff in Hz as (n & <- & Hn). apply in_seq in Hn. unfold is_int. lia. }
    assert (F := listed_feeds f _ trees W IA ET). rewrite <- EP in F.
    assert (L4 := L _ text (f_num_classes f) u v IA F). rewrite L3 in L4. rewrite L3.
    destruct in_dec as [J|J] in L4; [discriminate L4|]. destruct (_ =? _) in L4; [|discriminate L4]. injection L4 as ->. reflexivity.
  - intros J. rewrite L2. destruct (in_dec Z.eq_dec 2147483647 cs); [reflexivity|contradiction].
  - intros J K. rewrite L2. destruct (in_dec Z.eq_dec 2147483647 cs); [contradiction|]. rewrite K, Z.eqb_refl. reflexivity.
  - intros J K. rewrite L2. destruct (in_dec Z.eq_dec 2147483647 cs); [contradiction|]. apply Z.eqb_neq in K. rewrite K. reflexivity.
Qed.

(** Every stored forest has such a list, once. *)
Lemma has_classes f text : f_save f = Ok text -> exists a b, text = a ++ classes_line (all_classes (f_num_classes f)) ++ b /\ ~ In "["%char a.
Proof. intros S. destruct (f_save_parts _ _ S) as (trees & ET & EP). exists (forest_head f). eexists. split; [exact EP|apply head_no_bracket]. Qed.
