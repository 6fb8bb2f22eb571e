(** Writing and reading of decision trees as sequences of words. *)
From Coq Require Import List ZArith Bool Ascii String Lia Sorting.Sorted.
From Coq Require Import ZifyBool.
From Flocq Require Import BinarySingleNaN.
From Verif Require Import Model.Base Model.Float Model.Decimal Model.ParserM Model.TreeM Model.TreeIO
  Spec.TokenSpec Spec.DecimalSpec Spec.DatasetFileSpec Spec.TreeFileSpec
  Proofs.FloatFacts Proofs.DecimalInt Proofs.DecimalFloat Proofs.DecimalRead Proofs.ParserFacts Proofs.LoadFacts
  Proofs.DatasetIOFacts Proofs.DatasetFileProps Proofs.Feeds Proofs.TreeLabels.
Import ListNotations.
Open Scope Z_scope.

Notation comma := ($",").

(** [a] followed by [t] is a word that [parse] reads as [v] up to [t]. *)
Definition number {A} (parse : parser -> outcome (A * parser)) (a t : bytes) (v : A) : Prop :=
  good_word (a ++ t) /\
  forall s, parse (mkParser s (a ++ t) 0) = Ok (v, mkParser s (a ++ t) (List.length a)).

Lemma print_Z_nonempty z : print_Z z <> [].
Proof. apply print_Z_hd. Qed.

Lemma print_Z_good z t : Z.abs z < 10 ^ 40 -> Forall clean t -> (List.length t <= 1)%nat -> good_word (print_Z z ++ t).
Proof.
  intros R F L. assert (X := print_Z_length z 40 ltac:(exact R) ltac:(lia)). split; [|split; [|split]].
  - intros E. apply app_eq_nil in E as [E _]. now apply print_Z_nonempty in E.
  - apply Forall_app. split; auto. apply print_Z_clean.
  - rewrite hd_error_app by apply print_Z_nonempty. apply print_Z_hd.
  - rewrite app_length. lia.
Qed.

Lemma print_float_good (x : f32) t : Forall clean t -> (List.length t <= 1)%nat -> good_word (print_float x ++ t).
Proof.
  intros F L. apply plain_good; auto. apply (print_float_plain prec_gt_0_32 prec_lt_emax_32). lia.
Qed.

Lemma int_number z t : is_int z -> Forall clean t -> (List.length t <= 1)%nat -> no_digit_head t ->
  number parse_int (print_Z z) t z.
Proof.
  intros I C L N. split; [apply print_Z_good; auto; unfold is_int in I; lia|].
  intros s. apply parse_int_at; [apply Forall_app; split; auto using print_Z_clean|].
  apply stoi_print; auto.
Qed.

Lemma ulong_number z t : 0 <= z < 2 ^ 64 -> Forall clean t -> (List.length t <= 1)%nat -> no_digit_head t ->
  number parse_ulong (print_Z z) t z.
Proof.
  intros I C L N. split; [apply print_Z_good; auto; lia|].
  intros s. apply parse_ulong_at; [apply Forall_app; split; auto using print_Z_clean|].
  apply stoul_print; auto.
Qed.

Lemma uint_number z t : 0 <= z < 2 ^ 32 -> Forall clean t -> (List.length t <= 1)%nat -> no_digit_head t ->
  number parse_uint (print_Z z) t z.
Proof.
  intros I C L N. split; [apply print_Z_good; auto; lia|].
  intros s. assert (X : z mod 2 ^ 32 = z) by (apply Z.mod_small; lia). rewrite <- X at 2.
  apply parse_uint_at; [apply Forall_app; split; auto using print_Z_clean|].
  apply stoul_print; auto. lia.
Qed.

Lemma float_number (x : f32) : normal_range x ->
  exists y, six_digit_copy x y /\ number parse_float (print_float x) comma y.
Proof.
  intros N. destruct (print_read prec_gt_0_32 prec_lt_emax_32 x comma max6_ok_32 N (value_end_comma [])) as (y & E & C).
  exists y. split; auto. split; [apply print_float_good; [cleans|cbn; lia]|].
  intros s. apply parse_float_at; [apply Forall_app; split; [apply print_float_clean|cleans]|]. exact E.
Qed.

Lemma clean_comma : Forall clean comma. Proof. cleans. Qed.
Lemma clean_colon : Forall clean ($":"). Proof. cleans. Qed.
Lemma nodigit_comma : no_digit_head comma. Proof. reflexivity. Qed.
Lemma nodigit_colon : no_digit_head ($":"). Proof. reflexivity. Qed.
Lemma nodigit_nil : no_digit_head []. Proof. reflexivity. Qed.
#[export] Hint Resolve clean_comma clean_colon nodigit_comma nodigit_colon nodigit_nil : numbers.

(** Reading steps. *)
Lemma next_p p w ws r : feeds (p_in p) (w :: ws) r ->
  exists s', get_next_token p = Ok (mkParser s' w 0) /\ feeds s' ws r.
Proof. destruct p as [s b o]. cbn [p_in]. apply feeds_next. Qed.

Lemma expect_p p w ws r : feeds (p_in p) (w :: ws) r ->
  exists s', expect_next w p = Ok (mkParser s' w 0) /\ feeds s' ws r.
Proof. destruct p as [s b o]. cbn [p_in]. apply feeds_expect. Qed.

Lemma key_val_ok {A} parse key a (v : A) p ws r : number parse a comma v ->
  feeds (p_in p) (key :: (a ++ comma) :: ws) r ->
  exists p', key_val parse key p = Ok (v, p') /\ feeds (p_in p') ws r.
Proof.
  intros [G N] F. unfold key_val. destruct (expect_p _ _ _ _ F) as (s1 & -> & F1). cbn [bind].
  destruct (next_p (mkParser s1 key 0) _ _ _ F1) as (s2 & -> & F2). cbn [bind].
  rewrite N. cbn [bind]. rewrite after_number by apply G. cbn [bind]. eauto.
Qed.

Lemma number_not_brace {A} (parse : parser -> outcome (A * parser)) a t v x : number parse a t v ->
  parse (mkParser [] x 0) = Throw -> bytes_eqb (a ++ t) x = false.
Proof.
  intros [G N] E. apply bytes_eqb_neq. intros <-. rewrite N in E. discriminate.
Qed.

(** The words of the parts of a tree. *)
Fixpoint counts_words (classes counts : list Z) : list bytes :=
  match classes, counts with
  | c :: cs, n :: ns => (print_Z c ++ $":") :: (print_Z n ++ comma) :: counts_words cs ns
  | _, _ => []
  end.

Definition child (key : bytes) (t : tree) (words : list bytes) : list bytes :=
  match t with Null => [] | _ => key :: words end.

Fixpoint node_words (classes : list Z) (t : tree) : list bytes :=
  match t with
  | Null => []
  | Node g n c f thr l r counts =>
      $"{" :: $"gini:" :: (print_float g ++ comma) :: $"num_samples:" :: (print_Z n ++ comma)
      :: $"predicted_class:" :: (print_Z c ++ comma) :: $"feature_idx:" :: (print_Z f ++ comma)
      :: $"threshold:" :: (print_float thr ++ comma) :: $"count_per_class:" :: $"{"
      :: counts_words classes counts ++ $"},"
      :: child ($"left:") l (node_words classes l) ++ child ($"right:") r (node_words classes r)
      ++ [$"},"]
  end.

Definition sample_words (i : Z) (s : sample) : list bytes :=
  (print_Z i ++ $":") :: $"{" :: $"features:" :: $"["
  :: map (fun x : f32 => print_float x ++ comma) (fst s) ++ [$"],"; $"class:"; print_Z (snd s); $"},"].

Fixpoint data_words (i : Z) (d : list sample) : list bytes :=
  match d with [] => [] | s :: r => sample_words i s ++ data_words (i + 1) r end.

Definition tree_words (t : dtree) : list bytes :=
  [$"tree:"; $"{"] ++ [$"max_depth:"; print_Z (t_max_depth t) ++ comma]
  ++ ([$"classes:"; $"["] ++ map (fun c => print_Z c ++ comma) (t_classes t) ++ [$"],"])
  ++ [$"num_features:"; print_Z (t_num_features t) ++ comma]
  ++ ($"root:" :: node_words (t_classes t) (t_root t))
  ++ [$"data:"; $"{"] ++ data_words 0 (t_data t) ++ [$"},"].

(** Writing. *)
Lemma blank_indent k : blank (indent k).
Proof. induction k; cbn [indent]; [constructor|]. now repeat apply blank_sp. Qed.

Lemma line_words level ws : Forall good_word ws -> ws <> [] -> delivers (line level (join ws)) ws.
Proof.
  intros G N. unfold line. apply (delivers_app _ []); [apply delivers_blank, blank_indent|].
  now apply delivers_join.
Qed.

Lemma line_words_eq level s ws : s = join ws -> Forall good_word ws -> ws <> [] -> delivers (line level s) ws.
Proof. intros ->. apply line_words. Qed.

Ltac goodw := first [ now good | apply print_float_good; [cleans|cbn; lia]
  | apply print_Z_good; [unfold is_int in *; lia|cleans|cbn; lia] | assumption ].
Ltac line_tac := eapply line_words_eq; [cbn [join]; rewrite <- ?app_assoc; reflexivity
  | repeat (constructor; [goodw|]); constructor | discriminate].

Lemma output_counts_ok level classes counts : List.length counts = List.length classes ->
  Forall is_int classes -> Forall (fun x => 0 <= x < 2 ^ 64) counts ->
  exists s, output_counts level classes counts = Ok s /\ delivers s (counts_words classes counts).
Proof.
  revert counts. induction classes as [|c cs IH]; intros [|n ns] L I F; try discriminate L.
  - exists []. split; auto. apply delivers_nil.
  - inversion I; inversion F; subst. destruct (IH ns) as (s & E & D); auto.
    cbn [output_counts counts_words]. rewrite E. cbn [bind]. eexists. split; [reflexivity|].
    apply (delivers_app _ [print_Z c ++ $":"; print_Z n ++ comma]); auto.
    line_tac.
Qed.

Lemma cons_app {A} (x : A) l : x :: l = [x] ++ l. Proof. reflexivity. Qed.

Lemma output_node_ok classes t : forall level key, Forall is_int classes ->
  writable_tree (List.length classes) t -> t <> Null -> good_word (key ++ $":") ->
  exists s, output_node level classes t key = Ok s /\ delivers s ((key ++ $":") :: node_words classes t).
Proof.
  induction t as [|g n c f thr l IHl r IHr counts]; intros level key I W N K; [congruence|].
  cbn [writable_tree] in W. destruct W as (Hg & Hn & Hc & Hf & Ht & Hk & Hcs & Wl & Wr).
  cbn [output_node node_words].
  destruct (output_counts_ok (S level) classes counts Hk I Hcs) as (cs & -> & Dcs). cbn [bind].
  assert (exists s, (match l with Null => Ok [] | _ => output_node (S level) classes l ($"left") end) = Ok s /\
            delivers s (child ($"left:") l (node_words classes l))) as (sl & El & Dl).
  { destruct l as [|g1 n1 c1 f1 t1 l1 r1 k1].
    - exists []. split; auto using delivers_nil.
    - apply (IHl (S level) ($"left")); auto; [discriminate|good]. }
  assert (exists s, (match r with Null => Ok [] | _ => output_node (S level) classes r ($"right") end) = Ok s /\
            delivers s (child ($"right:") r (node_words classes r))) as (sr & Er & Dr).
  { destruct r as [|g1 n1 c1 f1 t1 l1 r1 k1].
    - exists []. split; auto using delivers_nil.
    - apply (IHr (S level) ($"right")); auto; [discriminate|good]. }
  rewrite El. cbn [bind]. rewrite Er. cbn [bind]. eexists. split; [reflexivity|]. clear IHl IHr El Er.
  apply (delivers_app _ [key ++ $":"; $"{"]). { line_tac. }
  apply (delivers_app _ [$"gini:"; print_float g ++ comma]). { line_tac. }
  apply (delivers_app _ [$"num_samples:"; print_Z n ++ comma]). { line_tac. }
  apply (delivers_app _ [$"predicted_class:"; print_Z c ++ comma]). { line_tac. }
  apply (delivers_app _ [$"feature_idx:"; print_Z f ++ comma]). { line_tac. }
  apply (delivers_app _ [$"threshold:"; print_float thr ++ comma]). { line_tac. }
  apply (delivers_app _ [$"count_per_class:"; $"{"]). { line_tac. }
  apply delivers_app; auto.
  apply (delivers_app _ [$"},"]). { line_tac. }
  apply delivers_app; auto. apply delivers_app; auto. line_tac.
Qed.

Lemma concat_words {A} (f : A -> bytes) (l : list A) :
  (forall x, good_word (f x ++ comma)) ->
  delivers (List.concat (map (fun x => f x ++ $", ") l)) (map (fun x => f x ++ comma) l).
Proof.
  intros G. induction l as [|x l IH]; cbn [map List.concat]; [apply delivers_nil|].
  apply (delivers_app _ [f x ++ comma]); auto. replace (f x ++ $", ") with ((f x ++ comma) ++ [" "%char]) by now rewrite <- app_assoc.
  apply delivers_word; auto.
Qed.

Lemma concat_words_in {A} (f : A -> bytes) (l : list A) :
  Forall (fun x => good_word (f x ++ comma)) l ->
  delivers (List.concat (map (fun x => f x ++ $", ") l)) (map (fun x => f x ++ comma) l).
Proof.
  induction 1 as [|x l G F IH]; cbn [map List.concat]; [apply delivers_nil|].
  apply (delivers_app _ [f x ++ comma]); auto. replace (f x ++ $", ") with ((f x ++ comma) ++ [" "%char]) by now rewrite <- app_assoc.
  apply delivers_word; auto.
Qed.

Lemma delivers_eq s s' ws : s = s' -> delivers s ws -> delivers s' ws.
Proof. now intros ->. Qed.

Lemma output_sample_ok level i s : 0 <= i < 10 ^ 39 -> is_int (snd s) -> delivers (output_sample level i s) (sample_words i s).
Proof.
  intros I Ic. unfold output_sample, sample_words, line.
  apply (delivers_eq (indent level ++ ((print_Z i ++ $":") ++ [" "%char]) ++ ($"{" ++ [" "%char]) ++ ($"features:" ++ [" "%char])
    ++ ($"[" ++ [" "%char]) ++ List.concat (map (fun x : f32 => print_float x ++ $", ") (fst s))
    ++ ($"]," ++ [" "%char]) ++ ($"class:" ++ [" "%char]) ++ (print_Z (snd s) ++ [" "%char]) ++ ($"}," ++ [nl]))).
  { rewrite <- !app_assoc. reflexivity. }
  apply (delivers_app _ []); [apply delivers_blank, blank_indent|].
  apply (delivers_app _ [print_Z i ++ $":"]); [apply delivers_word; [apply print_Z_good; [lia|cleans|cbn; lia]|reflexivity]|].
  apply (delivers_app _ [$"{"]); [apply delivers_word; [good|reflexivity]|].
  apply (delivers_app _ [$"features:"]); [apply delivers_word; [good|reflexivity]|].
  apply (delivers_app _ [$"["]); [apply delivers_word; [good|reflexivity]|].
  apply delivers_app; [apply concat_words; intros; apply print_float_good; [cleans|cbn; lia]|].
  apply (delivers_app _ [$"],"]); [apply delivers_word; [good|reflexivity]|].
  apply (delivers_app _ [$"class:"]); [apply delivers_word; [good|reflexivity]|].
  apply (delivers_app _ [print_Z (snd s)]).
  { apply delivers_word; [|reflexivity]. rewrite <- (app_nil_r (print_Z (snd s))).
    apply print_Z_good; [unfold is_int in *; lia|constructor|cbn; lia]. }
  apply delivers_word; [good|reflexivity].
Qed.

Lemma output_data_ok level d : forall i, 0 <= i -> i + Z.of_nat (List.length d) < 10 ^ 39 ->
  Forall (fun s => is_int (snd s)) d -> delivers (output_data level i d) (data_words i d).
Proof.
  induction d as [|s d IH]; intros i I B F; cbn [output_data data_words]; [apply delivers_nil|].
  inversion F; subst. cbn [List.length] in B. apply delivers_app.
  - apply output_sample_ok; auto. lia.
  - apply IH; auto; lia.
Qed.

(** The text of a tree. *)
Lemma output_tree_ok level t : writable t ->
  exists s, output_tree level ($"tree") t = Ok s /\ forall r, feeds (s ++ r) (tree_words t ++ [$"}"]) (nl :: r).
Proof.
  intros W. destruct W as [Wd Wf Wc Wi Wr Wt B Wda]. unfold output_tree.
  destruct (output_node_ok (t_classes t) (t_root t) (S level) ($"root")) as (sr & -> & Dr); auto; [good|].
  cbn [bind]. eexists. split; [reflexivity|]. intros r.
  match goal with |- feeds ((?a1 ++ ?a2 ++ ?a3 ++ ?a4 ++ ?a5 ++ ?a6 ++ ?a7 ++ ?a8 ++ ?a9) ++ _) _ _ =>
    assert (D : delivers (a1 ++ a2 ++ a3 ++ a4 ++ a5 ++ a6 ++ a7 ++ a8) (tree_words t));
    [|replace (a1 ++ a2 ++ a3 ++ a4 ++ a5 ++ a6 ++ a7 ++ a8 ++ a9)
        with ((a1 ++ a2 ++ a3 ++ a4 ++ a5 ++ a6 ++ a7 ++ a8) ++ a9) by now rewrite <- !app_assoc] end.
  - unfold tree_words.
    apply (delivers_app _ [$"tree:"; $"{"]). { line_tac. }
    apply (delivers_app _ [$"max_depth:"; print_Z (t_max_depth t) ++ comma]). { line_tac. }
    apply delivers_app.
    { unfold line. apply (delivers_eq (indent (S level) ++ ($"classes:" ++ [" "%char]) ++ ($"[" ++ [" "%char])
        ++ List.concat (map (fun c => print_Z c ++ $", ") (t_classes t)) ++ ($"]," ++ [nl]))).
      { rewrite <- !app_assoc. reflexivity. }
      apply (delivers_app _ []); [apply delivers_blank, blank_indent|].
      apply (delivers_app _ [$"classes:"]); [apply delivers_word; [good|reflexivity]|].
      apply (delivers_app _ [$"["]); [apply delivers_word; [good|reflexivity]|].
      apply delivers_app; [|apply delivers_word; [good|reflexivity]].
      apply concat_words_in. eapply Forall_impl; [|exact Wi]. cbn. intros c Ic. goodw. }
    apply (delivers_app _ [$"num_features:"; print_Z (t_num_features t) ++ comma]). { line_tac. }
    apply delivers_app; auto.
    apply (delivers_app _ [$"data:"; $"{"]). { line_tac. }
    apply delivers_app; [|line_tac].
    apply output_data_ok; [lia|unfold sample, f32 in *; lia|]. eapply Forall_impl; [|exact Wda]. cbn. tauto.
  - rewrite <- app_assoc. apply D. unfold line.
    apply (feeds_cons (indent level) ($"}") (nl :: r)); [now rewrite <- !app_assoc|apply blank_indent|good| |constructor].
    exists nl, r. auto.
Qed.

(** Reading. *)
Lemma parse_counts_ok classes : forall counts fuel acc p ws r, List.length counts = List.length classes ->
  Forall is_int classes -> Forall (fun x => 0 <= x < 2 ^ 64) counts ->
  feeds (p_in p) (counts_words classes counts ++ $"}," :: ws) r ->
  (List.length classes < fuel)%nat ->
  exists p', parse_counts fuel acc p = Ok (acc ++ counts, p') /\ feeds (p_in p') ws r.
Proof.
  induction classes as [|c cs IH]; intros [|n ns] fuel acc p ws r L I F D Hf; try discriminate L;
    cbn [counts_words app] in D; (destruct fuel as [|fuel]; [cbn in Hf; lia|]); cbn [parse_counts].
  - destruct (next_p _ _ _ _ D) as (s1 & -> & F1). cbn [bind].
    rewrite token_is_word by good. rewrite bytes_eqb_refl, app_nil_r. eauto.
  - inversion I as [|? ? Ic Ics]; inversion F as [|? ? Fn Fns]; subst.
    assert (Nc := int_number c ($":") Ic clean_colon ltac:(cbn; lia) nodigit_colon).
    assert (Nn := ulong_number n comma Fn clean_comma ltac:(cbn; lia) nodigit_comma).
    destruct (next_p _ _ _ _ D) as (s1 & -> & F1). cbn [bind].
    rewrite token_is_word by apply Nc. rewrite (number_not_brace parse_int _ _ c) by (auto; reflexivity).
    rewrite (proj2 Nc). cbn [bind]. rewrite after_number by apply Nc. cbn [bind].
    destruct (next_p (mkParser s1 (print_Z c ++ $":") (List.length (print_Z c))) _ _ _ F1) as (s2 & -> & F2).
    cbn [bind]. rewrite (proj2 Nn). cbn [bind]. rewrite after_number by apply Nn. cbn [bind].
    destruct (IH ns fuel (acc ++ [n]) (mkParser s2 (print_Z n ++ comma) (List.length (print_Z n))) ws r)
      as (p' & E & F3); auto; [cbn in Hf; lia|].
    exists p'. rewrite E, <- app_assoc. auto.
Qed.

Lemma feeds_fuel s ws ws' r : feeds s (ws ++ ws') r -> (List.length ws <= List.length s)%nat.
Proof. intros F. apply feeds_length in F. rewrite app_length in F. lia. Qed.

Lemma counts_words_length classes : forall counts, List.length counts = List.length classes ->
  (List.length classes <= List.length (counts_words classes counts))%nat.
Proof.
  induction classes as [|c cs IH]; intros [|n ns] L; try discriminate L; cbn [counts_words List.length]; [lia|].
  specialize (IH ns). cbn in L. lia.
Qed.

Lemma node_words_length classes t : (match t with Null => 0 | _ => 1 end <= List.length (node_words classes t))%nat.
Proof. destruct t; cbn; lia. Qed.

Lemma parse_node_ok classes t : Forall is_int classes ->
  writable_tree (List.length classes) t -> t <> Null ->
  exists t', tree_copy t t' /\ forall fuel p ws r, feeds (p_in p) (node_words classes t ++ ws) r ->
    (List.length (node_words classes t) < fuel)%nat ->
    exists p', parse_node fuel p = Ok (t', p') /\ feeds (p_in p') ws r.
Proof.
  intros I. induction t as [|g n c f thr l IHl r IHr counts]; intros W N; [congruence|].
  cbn [writable_tree] in W. destruct W as (Hg & Hn & Hc & Hf & Ht & Hk & Hcs & Wl & Wr).
  destruct (float_number g Hg) as (g' & Cg & Ng). destruct (float_number thr Ht) as (thr' & Ct & Nt).
  assert (Nn := ulong_number n comma Hn clean_comma ltac:(cbn; lia) nodigit_comma).
  assert (Nc := int_number c comma Hc clean_comma ltac:(cbn; lia) nodigit_comma).
  assert (Nf := int_number f comma Hf clean_comma ltac:(cbn; lia) nodigit_comma).
  assert (L : exists l', tree_copy l l' /\ forall fuel p key ws r, good_word key -> bytes_eqb key ($"left:") = false ->
    feeds (p_in p) (child ($"left:") l (node_words classes l) ++ key :: ws) r ->
    (List.length (child ($"left:") l (node_words classes l)) < fuel)%nat ->
    exists p1 s2, get_next_token p = Ok p1 /\
      (if token_is p1 ($"left:")
       then let* (l, p) := parse_node fuel p1 in let* p := get_next_token p in Ok (l, p)
       else Ok (Null, p1)) = Ok (l', mkParser s2 key 0) /\ feeds s2 ws r).
  { destruct l as [|g1 n1 c1 f1 t1 l1 r1 k1].
    - exists Null. split; [constructor|]. intros fuel p key ws q G K F Hl. cbn [child app] in F.
      destruct (next_p _ _ _ _ F) as (s1 & E & F1). exists (mkParser s1 key 0), s1. split; auto.
      rewrite token_is_word by auto. rewrite K. auto.
    - destruct IHl as (l' & Cl & P); auto; [discriminate|]. exists l'. split; auto. intros fuel p key ws q G K F Hl.
      unfold child in F. cbn [app] in F. destruct (next_p _ _ _ _ F) as (s1 & E & F1).
      exists (mkParser s1 ($"left:") 0).
      destruct (P fuel (mkParser s1 ($"left:") 0) (key :: ws) q) as (p2 & E2 & F2); auto.
      { unfold child in Hl. cbn [List.length] in Hl. lia. }
      destruct (next_p _ _ _ _ F2) as (s3 & E3 & F3). exists s3. split; auto.
      rewrite token_is_word by good. rewrite bytes_eqb_refl, E2. cbn [bind]. rewrite E3. auto. }
  assert (R : exists r', tree_copy r r' /\ forall fuel s ws q,
    let p := mkParser s (hd ($"},") (child ($"right:") r (node_words classes r))) 0 in
    feeds s (tl (child ($"right:") r (node_words classes r) ++ $"}," :: ws)) q ->
    (List.length (child ($"right:") r (node_words classes r)) < fuel)%nat ->
    exists s2,
      (if token_is p ($"right:")
       then let* (l, p) := parse_node fuel p in let* p := get_next_token p in Ok (l, p)
       else Ok (Null, p)) = Ok (r', mkParser s2 ($"},") 0) /\ feeds s2 ws q).
  { destruct r as [|g1 n1 c1 f1 t1 l1 r1 k1].
    - exists Null. split; [constructor|]. intros fuel s ws q p F Hl. cbn [child app tl] in F. unfold p. cbn [child hd].
      rewrite token_is_word by good. exists s. auto.
    - destruct IHr as (r' & Cr & P); auto; [discriminate|]. exists r'. split; auto. intros fuel s ws q p F Hl.
      unfold child in F. cbn [app tl] in F. unfold p, child. cbn [hd].
      destruct (P fuel (mkParser s ($"right:") 0) ($"}," :: ws) q) as (p2 & E2 & F2); auto.
      { unfold child in Hl. cbn [List.length] in Hl. lia. }
      destruct (next_p _ _ _ _ F2) as (s3 & E3 & F3). exists s3. split; auto.
      rewrite token_is_word by good. rewrite bytes_eqb_refl, E2. cbn [bind]. rewrite E3. auto. }
  destruct L as (l' & Cl & PL). destruct R as (r' & Cr & PR). clear IHl IHr.
  exists (Node g' n c f thr' l' r' counts). split; [now constructor|].
  intros fuel p ws q F Hl. cbn [node_words] in F, Hl.
  set (wl := child ($"left:") l (node_words classes l)) in *. set (wr := child ($"right:") r (node_words classes r)) in *.
  destruct fuel as [|fuel]; [lia|]. cbn [parse_node]. cbn [app] in F.
  destruct (expect_p _ _ _ _ F) as (s1 & -> & F1). cbn [bind].
  destruct (key_val_ok _ _ _ _ (mkParser s1 ($"{") 0) _ _ Ng F1) as (p2 & -> & F2). cbn [bind].
  destruct (key_val_ok _ _ _ _ p2 _ _ Nn F2) as (p3 & -> & F3). cbn [bind].
  destruct (key_val_ok _ _ _ _ p3 _ _ Nc F3) as (p4 & -> & F4). cbn [bind].
  destruct (key_val_ok _ _ _ _ p4 _ _ Nf F4) as (p5 & -> & F5). cbn [bind].
  destruct (key_val_ok _ _ _ _ p5 _ _ Nt F5) as (p6 & -> & F6). cbn [bind].
  destruct (expect_p _ _ _ _ F6) as (s7 & -> & F7). cbn [bind].
  destruct (expect_p (mkParser s7 ($"count_per_class:") 0) _ _ _ F7) as (s8 & -> & F8). cbn [bind].
  rewrite <- app_assoc in F8. cbn [app] in F8.
  destruct (parse_counts_ok classes counts (S (List.length s8)) [] (mkParser s8 ($"{") 0) _ _ Hk I Hcs F8) as (p9 & E9 & F9).
  { assert (X := feeds_fuel _ _ _ _ F8). assert (Y := counts_words_length classes counts Hk). lia. }
  cbn [p_in] in *. rewrite E9. cbn [bind app]. rewrite <- !app_assoc in F9.
  assert (HL : (List.length wl + List.length wr < fuel)%nat).
  { revert Hl. cbn [List.length]. rewrite ?app_length. cbn [List.length]. rewrite ?app_length. cbn [List.length]. lia. }
  destruct wr as [|kr wr'] eqn:Ewr.
  - cbn [app] in F9. edestruct (PL fuel p9 ($"},") ws q) as (p10 & s11 & E10 & E11 & F11); auto; [good|lia|].
    rewrite E10. cbn [bind]. rewrite E11. cbn [bind].
    destruct (PR fuel s11 ws q) as (s12 & E12 & F12); auto; [cbn; lia|].
    cbn [hd] in E12. rewrite E12. cbn [bind]. unfold parse_expected. rewrite token_is_word by good.
    rewrite bytes_eqb_refl. cbn [bind]. eauto.
  - assert (kr = $"right:") as -> by (unfold wr, child in Ewr; destruct r; [discriminate|]; congruence).
    cbn [app] in F9. edestruct (PL fuel p9 ($"right:") (wr' ++ $"}," :: ws) q) as (p10 & s11 & E10 & E11 & F11); auto; [good|cbn in HL; lia|].
    rewrite E10. cbn [bind]. rewrite E11. cbn [bind].
    destruct (PR fuel s11 ws q) as (s12 & E12 & F12); auto; [lia|].
    cbn [hd] in E12. rewrite E12. cbn [bind]. unfold parse_expected. rewrite token_is_word by good.
    rewrite bytes_eqb_refl. cbn [bind]. eauto.
Qed.

Lemma parse_features_ok fs : Forall normal_range fs ->
  exists fs', Forall2 six_digit_copy fs fs' /\ forall fuel acc p ws r,
    feeds (p_in p) (map (fun x : f32 => print_float x ++ comma) fs ++ $"]," :: ws) r ->
    (List.length fs < fuel)%nat ->
    exists p', parse_features fuel acc p = Ok (acc ++ fs', p') /\ feeds (p_in p') ws r.
Proof.
  induction 1 as [|x fs Hx F (fs' & C & P)].
  - exists []. split; [constructor|]. intros fuel acc p ws r D Hf. destruct fuel; [cbn in Hf; lia|].
    cbn [parse_features map app] in *. destruct (next_p _ _ _ _ D) as (s1 & -> & F1). cbn [bind].
    rewrite token_is_word by good. rewrite bytes_eqb_refl, app_nil_r. eauto.
  - destruct (float_number x Hx) as (y & Cy & Ny). exists (y :: fs'). split; [constructor; auto|].
    intros fuel acc p ws r D Hf. destruct fuel; [cbn in Hf; lia|]. cbn [parse_features map app] in *.
    destruct (next_p _ _ _ _ D) as (s1 & -> & F1). cbn [bind].
    rewrite token_is_word by apply Ny. rewrite (number_not_brace parse_float _ _ y) by (auto; reflexivity).
    rewrite (proj2 Ny). cbn [bind]. rewrite after_number by apply Ny. cbn [bind].
    destruct (P fuel (acc ++ [y]) (mkParser s1 (print_float x ++ comma) (List.length (print_float x))) ws r)
      as (p' & E & F2); auto; [cbn in Hf; lia|].
    exists p'. split; auto. rewrite <- app_assoc in E. exact E.
Qed.

Lemma parse_samples_ok d : Forall (fun s : sample => Forall normal_range (fst s) /\ is_int (snd s)) d ->
  exists d', Forall2 sample_copy d d' /\ forall i fuel acc p ws r, 0 <= i -> i + Z.of_nat (List.length d) < 10 ^ 39 ->
    feeds (p_in p) (data_words i d ++ $"}," :: ws) r ->
    (List.length d < fuel)%nat ->
    exists p', parse_samples fuel acc p = Ok (acc ++ d', p') /\ feeds (p_in p') ws r.
Proof.
  induction 1 as [|[fs c] d [Hs Hi] F (d' & C & P)].
  - exists []. split; [constructor|]. intros i fuel acc p ws r I B D Hf. destruct fuel; [cbn in Hf; lia|].
    cbn [parse_samples data_words app] in *. destruct (next_p _ _ _ _ D) as (s1 & -> & F1). cbn [bind].
    rewrite token_is_word by good. rewrite bytes_eqb_refl, app_nil_r. eauto.
  - cbn [fst snd] in *. destruct (parse_features_ok fs Hs) as (fs' & Cf & Pf). exists ((fs', c) :: d').
    split; [constructor; auto; split; auto|].
    intros i fuel acc p ws r I B D Hf. destruct fuel; [cbn in Hf; lia|]. cbn [List.length] in B, Hf.
    assert (Ni := print_Z_good i ($":") ltac:(lia) clean_colon ltac:(cbn; lia)).
    assert (Nc := int_number c [] Hi ltac:(constructor) ltac:(cbn; lia) nodigit_nil).
    cbn [parse_samples data_words] in *. unfold sample_words in D. cbn [fst snd] in D.
    rewrite <- app_assoc in D. cbn [app] in D. rewrite <- app_assoc in D. cbn [app] in D.
    destruct (next_p _ _ _ _ D) as (s1 & -> & F1). cbn [bind].
    rewrite token_is_word by exact Ni. rewrite bytes_eqb_neq.
    2:{ intros E. assert (X : stoi ($"},") = Throw) by reflexivity. rewrite <- E in X.
        destruct (print_Z i) as [|a q] eqn:EP; [now apply print_Z_nonempty in EP|].
        destruct q as [|? [|? ?]]; discriminate E. }
    destruct (expect_p (mkParser s1 (print_Z i ++ $":") 0) _ _ _ F1) as (s2 & -> & F2). cbn [bind].
    destruct (expect_p (mkParser s2 ($"{") 0) _ _ _ F2) as (s3 & -> & F3). cbn [bind].
    destruct (expect_p (mkParser s3 ($"features:") 0) _ _ _ F3) as (s4 & -> & F4). cbn [bind p_in].
    destruct (Pf (S (List.length s4)) [] (mkParser s4 ($"[") 0) _ _ F4) as (p5 & E5 & F5).
    { assert (X := feeds_fuel _ _ _ _ F4). rewrite map_length in X. unfold f32 in *. lia. }
    rewrite E5. cbn [bind app].
    destruct (expect_p _ _ _ _ F5) as (s6 & -> & F6). cbn [bind].
    destruct (next_p (mkParser s6 ($"class:") 0) _ _ _ F6) as (s7 & -> & F7). cbn [bind].
    destruct Nc as [_ Nc]. rewrite !app_nil_r in Nc. rewrite Nc. cbn [bind].
    destruct (expect_p (mkParser s7 (print_Z c) (List.length (print_Z c))) _ _ _ F7) as (s8 & -> & F8). cbn [bind].
    destruct (P (i + 1) fuel (acc ++ [(fs', c)]) (mkParser s8 ($"},") 0) ws r) as (p' & E & F9); auto; try lia.
    exists p'. split; auto. rewrite <- app_assoc in E. exact E.
Qed.

Lemma parse_classes_ok cs : forall fuel acc p ws r, Forall is_int cs ->
  feeds (p_in p) (map (fun c => print_Z c ++ comma) cs ++ $"]," :: ws) r ->
  (List.length cs < fuel)%nat ->
  exists p', parse_classes fuel acc p = Ok (set_insert_all cs acc, p') /\ feeds (p_in p') ws r.
Proof.
  induction cs as [|c cs IH]; intros fuel acc p ws r I D Hf; (destruct fuel; [cbn in Hf; lia|]); cbn [parse_classes map app] in *.
  - destruct (next_p _ _ _ _ D) as (s1 & -> & F1). cbn [bind].
    rewrite token_is_word by good. rewrite bytes_eqb_refl. eauto.
  - inversion I as [|? ? Ic Ics]; subst.
    assert (Nc := int_number c comma Ic clean_comma ltac:(cbn; lia) nodigit_comma).
    destruct (next_p _ _ _ _ D) as (s1 & -> & F1). cbn [bind].
    rewrite token_is_word by apply Nc. rewrite (number_not_brace parse_int _ _ c) by (auto; reflexivity).
    rewrite (proj2 Nc). cbn [bind]. rewrite after_number by apply Nc. cbn [bind].
    apply (IH fuel (set_insert c acc) (mkParser s1 (print_Z c ++ comma) (List.length (print_Z c))) ws r); auto.
    cbn in Hf; lia.
Qed.

Lemma data_words_length d : forall i, (List.length d <= List.length (data_words i d))%nat.
Proof.
  induction d as [|s d IH]; intros i; cbn [data_words List.length]; [lia|]. rewrite app_length. specialize (IH (i + 1)).
  unfold sample_words. cbn [List.length]. unfold sample, f32 in *. lia.
Qed.

(** Reading a tree written anywhere in a stream, into any tree object. *)
Lemma parse_tree_ok t : writable t ->
  exists root data, tree_copy (t_root t) root /\ Forall2 sample_copy (t_data t) data /\
  forall t0 s r, feeds s (tree_words t ++ [$"}"]) r ->
    parse_tree t0 s = Ok (mkTree (t_data t0 ++ data) (set_insert_all (t_classes t) (t_classes t0)) root
      (t_num_features t) (t_max_depth t), r).
Proof.
  intros [Wd Wf Wc Wi Wr Wt B Wda].
  destruct (parse_node_ok (t_classes t) (t_root t) Wi Wt Wr) as (root & CR & PR).
  destruct (parse_samples_ok (t_data t) Wda) as (data & CD & PD).
  assert (Nd := uint_number (t_max_depth t) comma Wd clean_comma ltac:(cbn; lia) nodigit_comma).
  assert (Nf := uint_number (t_num_features t) comma Wf clean_comma ltac:(cbn; lia) nodigit_comma).
  exists root, data. split; auto. split; auto. intros t0 s r F. unfold parse_tree, tree_words in *.
  rewrite <- !app_assoc in F. cbn [app] in F. rewrite <- ?app_assoc in F. cbn [app] in F.
  destruct (expect_p (new_parser s) _ _ _ F) as (s1 & -> & F1). cbn [bind].
  destruct (expect_p (mkParser s1 ($"tree:") 0) _ _ _ F1) as (s2 & -> & F2). cbn [bind].
  destruct (key_val_ok _ _ _ _ (mkParser s2 ($"{") 0) _ _ Nd F2) as (p3 & -> & F3). cbn [bind].
  destruct (expect_p p3 _ _ _ F3) as (s4 & -> & F4). cbn [bind].
  destruct (expect_p (mkParser s4 ($"classes:") 0) _ _ _ F4) as (s5 & -> & F5). cbn [bind p_in].
  destruct (parse_classes_ok (t_classes t) (S (List.length s5)) (t_classes t0) (mkParser s5 ($"[") 0) _ _ Wi F5) as (p6 & -> & F6).
  { assert (X := feeds_fuel _ _ _ _ F5). rewrite map_length in X. lia. }
  cbn [bind].
  destruct (key_val_ok _ _ _ _ p6 _ _ Nf F6) as (p7 & -> & F7). cbn [bind].
  destruct (expect_p p7 _ _ _ F7) as (s8 & -> & F8). cbn [bind p_in].
  destruct (PR (S (List.length s8)) (mkParser s8 ($"root:") 0) _ _ F8) as (p9 & -> & F9).
  { assert (X := feeds_fuel _ _ _ _ F8). lia. }
  cbn [bind].
  destruct (expect_p p9 _ _ _ F9) as (s10 & -> & F10). cbn [bind].
  destruct (expect_p (mkParser s10 ($"data:") 0) _ _ _ F10) as (s11 & -> & F11). cbn [bind p_in].
  destruct (PD 0 (S (List.length s11)) (t_data t0) (mkParser s11 ($"{") 0) _ _ ltac:(lia) ltac:(unfold sample, f32 in *; lia) F11) as (p12 & -> & F12).
  { assert (X := feeds_fuel _ _ _ _ F11). assert (Y := data_words_length (t_data t) 0). unfold sample, f32 in *. lia. }
  cbn [bind].
  destruct (expect_p p12 _ _ _ F12) as (s13 & -> & F13). cbn [bind p_in].
  inversion F13; subst. reflexivity.
Qed.
