(** Random forests: votes, training, files. *)
From Coq Require Import List ZArith Bool Ascii String Lia Sorting.Sorted Permutation.
From Coq Require Import ZifyBool.
From Coq Require Import Reals.
From Flocq Require Import Core BinarySingleNaN.
From Verif Require Import Model.Base Model.Float Model.Decimal Model.ParserM Model.TreeM Model.TreeIO Model.ForestM
  Spec.TokenSpec Spec.DecimalSpec Spec.DatasetSpec Spec.DatasetFileSpec Spec.TreeSpec Spec.TreeFileSpec Spec.ForestSpec
  Proofs.DecimalInt Proofs.ParserFacts Proofs.LoadFacts Proofs.DatasetIOFacts Proofs.DatasetFileProps Proofs.Feeds
  Proofs.TreeFacts Proofs.TreeLabels Proofs.TreeTraining Proofs.TreeIOFacts Proofs.TreeFileProps.
Import ListNotations.
Open Scope Z_scope.

(** * Votes *)
Lemma bump_length c counts : List.length (bump c counts) = List.length counts.
Proof. revert c. induction counts; intros [|c]; cbn; auto. Qed.

Lemma bump_nth c : forall counts i, (c < List.length counts)%nat ->
  nth i (bump c counts) 0 = nth i counts 0 + (if Nat.eqb i c then 1 else 0).
Proof.
  induction c as [|c IH]; intros [|n r] i L; cbn [List.length] in L; try lia; cbn [bump].
  - destruct i; cbn; lia.
  - destruct i; cbn [nth Nat.eqb]; [lia|]. apply IH. lia.
Qed.

Lemma votes_count x k : forall ts vs counts, 0 <= k -> List.length counts = Z.to_nat k ->
  Forall2 (fun t v => dt_predict t x = Ok v) ts vs -> Forall (fun v => 0 <= v < k) vs ->
  exists counts', votes ts k x counts = Ok counts' /\ List.length counts' = Z.to_nat k /\
    forall i, (i < Z.to_nat k)%nat ->
      nth i counts' 0 = nth i counts 0 + Z.of_nat (count_occ Z.eq_dec vs (Z.of_nat i)).
Proof.
  intros ts vs counts K. revert counts.
  induction ts as [|t ts IH] in vs |- *; intros counts L F R; inversion F; subst.
  - exists counts. split; auto. split; auto. intros. cbn. lia.
  - inversion R as [|? ? Rv Rvs]; subst. cbn [votes]. rewrite H1. cbn [bind].
    assert (T : ((0 <=? y) && (y <? k))%bool = true) by lia. rewrite T.
    destruct (IH l' (bump (Z.to_nat y) counts)) as (c' & E & Lc & N); auto; [now rewrite bump_length|].
    exists c'. split; auto. split; auto. intros i Hi. rewrite N by assumption.
    rewrite bump_nth by lia. cbn [count_occ]. destruct (Z.eq_dec y (Z.of_nat i)) as [->|D].
    + rewrite Nat2Z.id, Nat.eqb_refl. lia.
    + destruct (Nat.eqb_spec i (Z.to_nat y)); [|lia]. lia.
Qed.

(** The first maximum of a non-empty list. *)
Lemma first_max_spec counts : forall pre best, (best < List.length pre)%nat ->
  (forall j, (j < List.length pre)%nat -> nth j pre 0 <= nth best pre 0) ->
  (forall j, (j < best)%nat -> nth j pre 0 < nth best pre 0) ->
  exists b, first_max counts (Z.of_nat (List.length pre)) (Z.of_nat best) (nth best pre 0) = Z.of_nat b /\
    (b < List.length (pre ++ counts))%nat /\
    (forall j, (j < List.length (pre ++ counts))%nat -> nth j (pre ++ counts) 0 <= nth b (pre ++ counts) 0) /\
    (forall j, (j < b)%nat -> nth j (pre ++ counts) 0 < nth b (pre ++ counts) 0).
Proof.
  induction counts as [|n r IH]; intros pre best B M SS; cbn [first_max].
  - exists best. rewrite app_nil_r. auto.
  - assert (L1 : List.length (pre ++ [n]) = S (List.length pre)) by (rewrite app_length; cbn; lia).
    assert (N0 : nth (List.length pre) (pre ++ [n]) 0 = n) by (rewrite app_nth2, Nat.sub_diag by lia; reflexivity).
    assert (NP : forall j, (j < List.length pre)%nat -> nth j (pre ++ [n]) 0 = nth j pre 0) by (intros; now rewrite app_nth1).
    replace (Z.of_nat (List.length pre) + 1) with (Z.of_nat (List.length (pre ++ [n]))) by lia.
    change (pre ++ n :: r) with (pre ++ [n] ++ r). rewrite app_assoc.
    destruct (Z.ltb_spec (nth best pre 0) n).
    + specialize (IH (pre ++ [n]) (List.length pre)). rewrite N0 in IH. apply IH; [lia| |].
      * intros j Hj. destruct (Nat.eq_dec j (List.length pre)) as [->|]; [lia|].
        rewrite NP by lia. specialize (M j ltac:(lia)). lia.
      * intros j Hj. rewrite NP by lia. specialize (M j ltac:(lia)). lia.
    + specialize (IH (pre ++ [n]) best). rewrite (NP best) in IH by lia. apply IH; [lia| |].
      * intros j Hj. destruct (Nat.eq_dec j (List.length pre)) as [->|]; [lia|].
        rewrite NP by lia. apply M. lia.
      * intros j Hj. rewrite !NP by lia. apply SS. lia.
Qed.

Lemma forest_votes f x vs : 1 <= f_num_classes f -> votes_for x f vs ->
  Forall (fun v => 0 <= v < f_num_classes f) vs ->
  exists c, f_predict f x = Ok c /\ plurality (f_num_classes f) vs c.
Proof.
  intros K V R. unfold f_predict. destruct (Z.leb_spec (f_num_classes f) 0); [lia|].
  destruct (votes_count x (f_num_classes f) (f_trees f) vs (repeat 0 (Z.to_nat (f_num_classes f))))
    as (counts & E & L & N); auto; [lia|apply repeat_length|].
  rewrite E. cbn [bind]. destruct counts as [|n r]; [cbn in L; lia|].
  destruct (first_max_spec r [n] 0%nat) as (b & EB & LB & MB & SB); [cbn; lia| | |].
  { intros j Hj. cbn in Hj. assert (j = 0%nat) as -> by lia. lia. }
  { intros j Hj. lia. }
  cbn [nth List.length] in EB. change (Z.of_nat 1) with 1 in EB. change (Z.of_nat 0) with 0 in EB.
  cbn [app] in *. exists (Z.of_nat b). split; [now rewrite EB|].
  assert (C : forall i, (i < Z.to_nat (f_num_classes f))%nat -> nth i (n :: r) 0 = Z.of_nat (count_occ Z.eq_dec vs (Z.of_nat i))).
  { intros i Hi. rewrite N by assumption. rewrite nth_repeat. lia. }
  split; [lia|]. split.
  - intros d Hd. specialize (MB (Z.to_nat d) ltac:(lia)). rewrite !C in MB by lia. rewrite Z2Nat.id in MB by lia. lia.
  - intros d Hd. specialize (SB (Z.to_nat d) ltac:(lia)). rewrite !C in SB by lia. rewrite Z2Nat.id in SB by lia. lia.
Qed.

(** * Training *)
Lemma vec_get_nth {A} (l : list A) i d : (i < List.length l)%nat -> vec_get l (Z.of_nat i) = Ok (nth i l d).
Proof.
  intros H. unfold vec_get. destruct (Z.ltb_spec (Z.of_nat i) 0); [lia|]. rewrite Nat2Z.id.
  now rewrite (nth_error_nth' l d).
Qed.

Lemma sample_loop_ok pick n features responses : picker_ok pick -> List.length features = n ->
  List.length responses = n -> (0 < n)%nat -> forall todo k,
  exists fs rs, sample_loop pick n todo k features responses = Ok (fs, rs) /\
    List.length fs = todo /\ List.length rs = todo /\
    incl (combine fs rs) (combine features responses) /\ incl fs features /\ incl rs responses.
Proof.
  intros HP LF LR N. induction todo as [|todo IH]; intros k; cbn [sample_loop].
  - exists [], []. repeat split; intros x [].
  - assert (B := HP n k N). rewrite (vec_get_nth features _ []), (vec_get_nth responses _ 0) by lia. cbn [bind].
    destruct (IH (S k)) as (fs & rs & -> & L1 & L2 & I1 & I2 & I3). cbn [bind].
    eexists _, _. split; [reflexivity|]. cbn [List.length combine]. repeat split; try lia.
    + intros x [<-|H]; auto. rewrite <- combine_nth by lia. apply nth_In. rewrite combine_length. lia.
    + intros x [<-|H]; auto. apply nth_In. lia.
    + intros x [<-|H]; auto. apply nth_In. lia.
Qed.

Lemma dt_train_depth srt t fs rs t' : dt_train srt t fs rs = Ok t' -> t_max_depth t' = t_max_depth t.
Proof.
  unfold dt_train. destruct fs as [|f0 fs']; [discriminate|]. destruct (negb _); [discriminate|].
  intros E. apply bind_inv in E as ([root d] & _ & E). now injection E as <-.
Qed.

Definition same_list (x y : outcome (list dtree)) : Prop :=
  match x, y with
  | Ok u, Ok v => Forall2 same_dtree u v
  | Throw, Throw | Abort, Abort | UB, UB | Fuel, Fuel => True
  | _, _ => False
  end.

Lemma train_loop_same srt srt' pick md features responses k : sorter_ok srt -> sorter_ok srt' -> picker_ok pick ->
  List.length responses = List.length features -> uniform_samples k (combine features responses) ->
  forall todo i, same_list (train_loop srt pick md todo i features responses) (train_loop srt' pick md todo i features responses).
Proof.
  intros HS HS' HP L U. induction todo as [|todo IH]; intros i; cbn [train_loop]; [constructor|].
  destruct (Nat.eq_dec (List.length features) 0) as [Z0|NZ].
  { destruct features; [|discriminate]. cbn [List.length sample_loop bind]. exact I. }
  remember (List.length features) as n eqn:En. assert (N : (0 < n)%nat) by lia.
  destruct (sample_loop_ok pick n features responses HP (eq_sym En) L N n i) as (fs & rs & -> & L1 & L2 & I1 & _).
  cbn [bind]. unfold new_trained_dtree.
  assert (U' : uniform_samples k (combine fs rs)) by (eapply uniform_incl; eauto).
  assert (X := training_order_irrelevant srt srt' md [] (new_dtree md) k fs rs fs rs HS HS' (trained_new _ _)
    ltac:(lia) ltac:(lia) U' (Permutation_refl _)).
  destruct (dt_train srt (new_dtree md) fs rs) as [u| | | |] eqn:E1, (dt_train srt' (new_dtree md) fs rs) as [u'| | | |] eqn:E2;
    cbn [bind]; try contradiction; try exact I.
  specialize (IH (i + n)%nat).
  destruct (train_loop srt pick md todo _ _ _) as [v| | | |], (train_loop srt' pick md todo _ _ _) as [v'| | | |];
    cbn [bind same_list] in *; try contradiction; auto.
  constructor; auto. destruct X as (X1 & X2 & X3 & X4). split; auto.
  now rewrite (dt_train_depth _ _ _ _ _ E1), (dt_train_depth _ _ _ _ _ E2).
Qed.

Lemma train_loop_length srt pick md features responses : forall todo i ts,
  train_loop srt pick md todo i features responses = Ok ts -> List.length ts = todo.
Proof.
  induction todo as [|todo IH]; intros i ts; cbn [train_loop]; [intros E; now injection E as <-|].
  intros E. apply bind_inv in E as ([fs rs] & _ & E). apply bind_inv in E as (t & _ & E).
  apply bind_inv in E as (q & E1 & E). injection E as <-. cbn. f_equal. eauto.
Qed.

Lemma forest_training_deterministic srt srt' pick f g k features responses :
  sorter_ok srt -> sorter_ok srt' -> picker_ok pick -> List.length responses = List.length features ->
  uniform_samples k (combine features responses) ->
  f_num_trees f = f_num_trees g -> f_max_depth f = f_max_depth g ->
  match f_train srt pick f features responses, f_train srt' pick g features responses with
  | Ok u, Ok v => exists ts ts', f_trees u = f_trees f ++ ts /\ f_trees v = f_trees g ++ ts' /\ Forall2 same_dtree ts ts' /\
      List.length ts = Z.to_nat (f_num_trees f)
  | Throw, Throw | Abort, Abort | UB, UB | Fuel, Fuel => True
  | _, _ => False
  end.
Proof.
  intros HS HS' HP L U EN ED. unfold f_train. rewrite <- EN, <- ED.
  assert (X := train_loop_same srt srt' pick (f_max_depth f) features responses k HS HS' HP L U (Z.to_nat (f_num_trees f)) 0).
  destruct (train_loop srt pick _ _ _ _ _) as [v| | | |] eqn:E, (train_loop srt' pick _ _ _ _ _) as [v'| | | |];
    cbn [bind same_list] in *; try contradiction; auto.
  exists v, v'. repeat split; auto. eapply train_loop_length; eauto.
Qed.

Lemma same_trees_vote x k : forall ts ts', Forall2 same_dtree ts ts' -> forall counts, votes ts k x counts = votes ts' k x counts.
Proof.
  induction 1 as [|t t' ts ts' S F IH]; intros counts; cbn [votes]; auto.
  unfold dt_predict. rewrite (sd_root _ _ S). destruct (evaluate (t_root t') x); cbn [bind]; auto.
  destruct ((0 <=? a) && (a <? k))%bool; auto.
Qed.

Lemma same_trees_predict f g x : f_num_classes f = f_num_classes g -> Forall2 same_dtree (f_trees f) (f_trees g) ->
  f_predict f x = f_predict g x.
Proof. intros E F. unfold f_predict. rewrite E. now rewrite (same_trees_vote x _ _ _ F). Qed.

Lemma forest_training_succeeds srt pick f k features responses : sorter_ok srt -> picker_ok pick ->
  features <> [] -> List.length responses = List.length features ->
  uniform_samples k (combine features responses) -> consistent (combine features responses) ->
  Z.of_nat (List.length features) <= 2 ^ 24 ->
  Z.of_nat (List.length (nodup Z.eq_dec responses)) <= 1024 ->
  exists f', f_train srt pick f features responses = Ok f'.
Proof.
  intros HS HP NE L U C N K. unfold f_train.
  assert (G : forall todo i, exists ts, train_loop srt pick (f_max_depth f) todo i features responses = Ok ts).
  { induction todo as [|todo IH]; intros i; cbn [train_loop]; eauto.
    assert (N0 : (0 < List.length features)%nat) by (destruct features; [congruence|cbn; lia]).
    destruct (sample_loop_ok pick _ features responses HP eq_refl L N0 (List.length features) i)
      as (fs & rs & -> & L1 & L2 & I1 & I2 & I3).
    cbn [bind]. unfold new_trained_dtree.
    destruct (train_total srt (new_dtree (f_max_depth f)) k fs rs) as (t & ->); auto.
    - intros ->. cbn in L1. lia.
    - lia.
    - eapply uniform_incl; eauto.
    - intros s s' H H'. apply C; auto.
    - unfold f32 in *. lia.
    - cbn [t_classes new_dtree]. rewrite class_count, app_nil_r by constructor.
      assert (X : (List.length (nodup Z.eq_dec rs) <= List.length (nodup Z.eq_dec responses))%nat).
      { apply NoDup_incl_length; [apply NoDup_nodup|]. intros x Hx. apply nodup_In in Hx. apply nodup_In. auto. }
      lia.
    - cbn [bind]. destruct (IH (i + List.length features)%nat) as (ts & ->). cbn [bind]. eauto. }
  destruct (G (Z.to_nat (f_num_trees f)) 0%nat) as (ts & ->). cbn [bind]. eauto.
Qed.

Lemma trained_forest_writable srt pick f features responses f' : sorter_ok srt -> picker_ok pick ->
  0 <= f_num_classes f < 2 ^ 31 -> 0 <= f_num_trees f < 2 ^ 32 -> 0 <= f_max_depth f < 2 ^ 32 ->
  f_train srt pick f features responses = Ok f' -> List.length responses = List.length features ->
  Z.of_nat (List.length features) < 2 ^ 64 ->
  Forall (fun x : list f32 => Z.of_nat (List.length x) < 2 ^ 31 /\ Forall normal_range x) features ->
  Forall is_int responses -> Forall (fun t => Forall normal_range (tree_floats (t_root t))) (f_trees f') ->
  Forall writable (f_trees f) ->
  writable_forest f' /\
  Z.of_nat (List.length (f_trees f')) = Z.of_nat (List.length (f_trees f)) + f_num_trees f'.
Proof.
  intros HS HP Hc Ht Hd E L B FF FR FN W. unfold f_train in E. apply bind_inv in E as (ts & E & X). injection X as <-.
  cbn [f_trees f_num_trees] in *. assert (LT := train_loop_length _ _ _ _ _ _ _ _ E).
  split; [|rewrite app_length; lia]. constructor; cbn; auto. apply Forall_app. split; auto.
  apply Forall_app in FN as [_ FN]. clear LT W. revert FN E. generalize 0%nat as i. revert ts.
  induction (Z.to_nat (f_num_trees f)) as [|todo IH]; intros ts i FN E; cbn [train_loop] in E; [injection E as <-; constructor|].
  destruct (Nat.eq_dec (List.length features) 0) as [Z0|NZ].
  { destruct features; [|discriminate]. cbn [List.length sample_loop bind] in E. discriminate. }
  assert (N : (0 < List.length features)%nat) by lia.
  destruct (sample_loop_ok pick _ features responses HP eq_refl L N (List.length features) i) as (fs & rs & E0 & L1 & L2 & I1 & I2 & I3).
  rewrite E0 in E. cbn [bind] in E. apply bind_inv in E as (t & E1 & E). apply bind_inv in E as (q & E2 & E). injection E as <-.
  constructor.
  - eapply trained_writable; eauto.
    + unfold f32 in *. lia.
    + rewrite Forall_forall in *. auto.
    + rewrite Forall_forall in *. auto.
    + now apply Forall_inv in FN.
  - eapply IH; eauto. now apply Forall_inv_tail in FN.
Qed.

(** * Files *)
Definition trees_words (ts : list dtree) : list bytes :=
  List.concat (map (fun t => tree_words t ++ [$"}"; $","]) ts).

Definition forest_words (f : forest) : list bytes :=
  [$"rfc:"; $"{"] ++ [$"num_trees:"; print_Z (f_num_trees f) ++ comma] ++ [$"max_depth:"; print_Z (f_max_depth f) ++ comma]
  ++ ([$"classes:"; $"["] ++ map (fun c => print_Z c ++ comma) (map Z.of_nat (seq 0 (Z.to_nat (f_num_classes f)))) ++ [$"],"])
  ++ [$"trees:"; $"["] ++ trees_words (f_trees f) ++ [$"]"].

Lemma output_tree_delivers level t : writable t ->
  exists s, output_tree level ($"tree") t = Ok s /\ delivers s (tree_words t ++ [$"}"]).
Proof.
  intros W. destruct (output_tree_ok level t W) as (s & E & F). exists s. split; auto.
  intros r w' ws' r' G. eapply feeds_app; [apply F|]. now apply feeds_space.
Qed.

Lemma output_trees_ok ts : Forall writable ts -> exists s, output_trees ts = Ok s /\ delivers s (trees_words ts).
Proof.
  induction 1 as [|t ts W F (s & E & D)]; cbn [output_trees]; [exists []; split; auto; apply delivers_nil|].
  destruct (output_tree_delivers 2 t W) as (st & -> & Dt). cbn [bind]. rewrite E. cbn [bind].
  eexists. split; [reflexivity|]. unfold trees_words. cbn [map List.concat].
  replace ((tree_words t ++ [$"}"; $","]) ++ List.concat (map (fun t => tree_words t ++ [$"}"; $","]) ts))
    with ((tree_words t ++ [$"}"]) ++ [$","] ++ trees_words ts) by (unfold trees_words; now rewrite <- !app_assoc).
  apply delivers_app; auto. apply delivers_app; auto. line_tac.
Qed.

Lemma f_save_ok f : writable_forest f ->
  exists text, f_save f = Ok text /\ feeds text (forest_words f ++ [$"}"]) [nl].
Proof.
  intros [Hc Ht Hd F]. unfold f_save, output_rfc. destruct (output_trees_ok _ F) as (s & -> & D). cbn [bind].
  eexists. split; [reflexivity|].
  assert (G : feeds (line 0 ($"rfc: {")
      ++ line 1 ($"num_trees: " ++ print_Z (f_num_trees f) ++ $",")
      ++ line 1 ($"max_depth: " ++ print_Z (f_max_depth f) ++ $",")
      ++ line 1 ($"classes: [ "
                 ++ List.concat (map (fun i => print_Z (Z.of_nat i) ++ $", ") (seq 0 (Z.to_nat (f_num_classes f))))
                 ++ $"],")
      ++ line 1 ($"trees:" ++ $" [")
      ++ s
      ++ line 1 ($"]")
      ++ line 0 ($"}")) (forest_words f ++ [$"}"]) [nl]).
  { assert (DD : delivers (line 0 ($"rfc: {")
      ++ line 1 ($"num_trees: " ++ print_Z (f_num_trees f) ++ $",")
      ++ line 1 ($"max_depth: " ++ print_Z (f_max_depth f) ++ $",")
      ++ line 1 ($"classes: [ "
                 ++ List.concat (map (fun i => print_Z (Z.of_nat i) ++ $", ") (seq 0 (Z.to_nat (f_num_classes f))))
                 ++ $"],")
      ++ line 1 ($"trees:" ++ $" [")
      ++ s
      ++ line 1 ($"]")) (forest_words f)).
    { unfold forest_words. apply delivers_app; [line_tac|]. apply delivers_app; [line_tac|]. apply delivers_app; [line_tac|].
      apply delivers_app; [|apply delivers_app; [line_tac|]; apply delivers_app; [auto|line_tac]].
      unfold line. apply (delivers_app _ []); [apply delivers_blank, blank_indent|].
      apply (delivers_eq (($"classes:" ++ [" "%char]) ++ ($"[" ++ [" "%char]) ++
        List.concat (map (fun i => print_Z i ++ $", ") (map Z.of_nat (seq 0 (Z.to_nat (f_num_classes f))))) ++ ($"]," ++ [nl]))).
      { rewrite map_map, <- !app_assoc. reflexivity. }
      apply (delivers_app _ [$"classes:"]); [apply delivers_word; [good|reflexivity]|].
      apply (delivers_app _ [$"["]); [apply delivers_word; [good|reflexivity]|].
      apply delivers_app; [|apply delivers_word; [good|reflexivity]].
      apply concat_words_in. apply Forall_forall. intros z Hz. apply in_map_iff in Hz as (i & <- & Hi). apply in_seq in Hi.
      apply print_Z_good; [lia|cleans|cbn; lia]. }
    specialize (DD (line 0 ($"}")) ($"}") [] [nl]). rewrite <- !app_assoc in DD. apply DD.
    apply (feeds_cons [] ($"}") [nl]); [reflexivity|constructor|now good| |constructor]. exists nl, []. split; reflexivity. }
  apply (feeds_comment ($" RandomForestImpl")); [|exact G].
  cbn. intros X. repeat (destruct X as [X|X]; [discriminate|]). exact X.
Qed.

Lemma parse_class_idx_ok n : forall m fuel p ws r, Z.of_nat (m + n) < 2 ^ 31 ->
  feeds (p_in p) (map (fun c => print_Z c ++ comma) (map Z.of_nat (seq m n)) ++ $"]," :: ws) r ->
  (n < fuel)%nat ->
  exists p', parse_class_idx fuel (Z.of_nat m) p = Ok (Z.of_nat (m + n), p') /\ feeds (p_in p') ws r.
Proof.
  induction n as [|n IH]; intros m fuel p ws r B D Hf; (destruct fuel; [lia|]); cbn [parse_class_idx seq map app] in *.
  - destruct (next_p _ _ _ _ D) as (s1 & -> & F1). cbn [bind]. rewrite token_is_word by now good.
    rewrite bytes_eqb_refl, Nat.add_0_r. eauto.
  - destruct (next_p _ _ _ _ D) as (s1 & -> & F1). cbn [bind].
    assert (N : number parse_int (print_Z (Z.of_nat m)) comma (Z.of_nat m)).
    { apply int_number; auto with numbers; try (unfold is_int; cbn; lia). }
    rewrite token_is_word by apply N.
    rewrite (number_not_brace parse_int _ _ _ ($"],") N) by reflexivity.
    rewrite (proj2 N). cbn [bind]. rewrite after_number by apply N. cbn [bind].
    destruct (Z.eqb_spec (Z.of_nat m) 2147483647); [lia|].
    replace (Z.of_nat m + 1) with (Z.of_nat (S m)) by lia. replace (m + S n)%nat with (S m + n)%nat by lia.
    apply IH; auto; lia.
Qed.

(** Reading the first trees of a list. *)
Lemma parse_trees_ok ts : Forall writable ts ->
  exists ts', Forall2 dtree_copy ts ts' /\ forall p ws r, feeds (p_in p) (trees_words ts ++ ws) r ->
    exists p', parse_trees (List.length ts) p = Ok (ts', p') /\ feeds (p_in p') ws r.
Proof.
  induction 1 as [|t ts W F (ts' & C & P)].
  - exists []. split; [constructor|]. intros p ws r D. exists p. split; auto.
  - destruct (parse_tree_ok t W) as (root & data & CR & CD & PT).
    exists (mkTree data (t_classes t) root (t_num_features t) (t_max_depth t) :: ts'). split.
    { constructor; auto. now split. }
    intros p ws r D. unfold trees_words in D. cbn [map List.concat] in D.
    assert (SP : exists q, feeds (p_in p) (tree_words t ++ [$"}"]) q /\
      feeds q ([$","] ++ List.concat (map (fun t => tree_words t ++ [$"}"; $","]) ts) ++ ws) r).
    { replace (((tree_words t ++ [$"}"; $","]) ++ List.concat (map (fun t => tree_words t ++ [$"}"; $","]) ts)) ++ ws)
        with ((tree_words t ++ [$"}"]) ++ [$","] ++ List.concat (map (fun t => tree_words t ++ [$"}"; $","]) ts) ++ ws) in D
        by now rewrite <- !app_assoc.
      revert D. generalize (tree_words t ++ [$"}"]) as l.
      generalize ([$","] ++ List.concat (map (fun t => tree_words t ++ [$"}"; $","]) ts) ++ ws) as q.
      generalize (p_in p) as s. clear. intros s q l. revert s. induction l as [|w l IH]; intros s D.
      - exists s. split; [constructor|exact D].
      - cbn [app] in D. inversion D as [|? ? ? ? ? ? ? ? ? ? D1]; subst. destruct (IH _ D1) as (q0 & A & B). exists q0. split; auto. econstructor; eauto. }
    destruct SP as (q & F1 & F2). cbn [List.length parse_trees]. rewrite (PT _ _ _ F1). cbn [bind new_dtree t_data t_classes app].
    rewrite (set_insert_all_sorted_id _ []) by apply W.
    destruct (next_p (mkParser q (p_buf p) (p_off p)) _ _ _ F2) as (s1 & -> & F3). cbn [bind].
    unfold parse_expected. rewrite token_is_word by now good. rewrite bytes_eqb_refl. cbn [bind].
    destruct (P (mkParser s1 ($",") 0) ws r F3) as (p' & -> & F4). cbn [bind]. eauto.
Qed.

(** Reading a saved forest up to the closing bracket. *)
Lemma load_prefix f text n : writable_forest f -> feeds text (forest_words f ++ [$"}"]) [nl] ->
  f_num_trees f = Z.of_nat n -> (n <= List.length (f_trees f))%nat ->
  exists ts', Forall2 dtree_copy (firstn n (f_trees f)) ts' /\
  exists p', feeds (p_in p') (trees_words (skipn n (f_trees f)) ++ [$"]"; $"}"]) [nl] /\
  forall a b, f_load (new_forest (f_num_classes f) a b) text =
    let* p := expect_next ($"]") p' in
    let* _ := expect_next ($"}") p in
    Ok (mkForest ts' (f_num_classes f) (f_num_trees f) (f_max_depth f)).
Proof.
  intros [Hc Ht Hd W] D EN LN. unfold forest_words in D. rewrite <- !app_assoc in D. cbn [app] in D.
  assert (W1 : Forall writable (firstn n (f_trees f))).
  { rewrite <- (firstn_skipn n (f_trees f)) in W. now apply Forall_app in W as [W _]. }
  destruct (parse_trees_ok _ W1) as (ts' & C & P). exists ts'. split; auto.
  unfold f_load, new_parser.
  destruct (expect_p (mkParser text [] 0) _ _ _ D) as (s1 & E1 & F1).
  destruct (expect_p (mkParser s1 ($"rfc:") 0) _ _ _ F1) as (s2 & E2 & F2).
  destruct (key_val_ok parse_uint ($"num_trees:") (print_Z (f_num_trees f)) (f_num_trees f) (mkParser s2 ($"{") 0) _ _
    ltac:(apply uint_number; auto with numbers; cbn; lia) F2) as (p3 & E3 & F3).
  destruct (key_val_ok parse_uint ($"max_depth:") (print_Z (f_max_depth f)) (f_max_depth f) p3 _ _
    ltac:(apply uint_number; auto with numbers; cbn; lia) F3) as (p4 & E4 & F4).
  destruct (expect_p p4 _ _ _ F4) as (s5 & E5 & F5).
  destruct (expect_p (mkParser s5 ($"classes:") 0) _ _ _ F5) as (s6 & E6 & F6).
  destruct (parse_class_idx_ok (Z.to_nat (f_num_classes f)) 0 (S (List.length (p_in (mkParser s6 ($"[") 0)))) (mkParser s6 ($"[") 0)
    _ _ ltac:(lia) F6) as (p7 & E7 & F7).
  { cbn [p_in]. apply feeds_fuel in F6. rewrite !map_length, seq_length in F6. lia. }
  change (Z.of_nat 0) with 0 in E7. rewrite Nat.add_0_l, Z2Nat.id in E7 by lia.
  destruct (expect_p p7 _ _ _ F7) as (s8 & E8 & F8).
  destruct (expect_p (mkParser s8 ($"trees:") 0) _ _ _ F8) as (s9 & E9 & F9).
  rewrite <- (firstn_skipn n (f_trees f)) in F9. unfold trees_words in F9. rewrite map_app, concat_app, <- app_assoc in F9.
  destruct (P (mkParser s9 ($"[") 0) _ _ F9) as (p10 & E10 & F10).
  rewrite firstn_length_le in E10 by assumption.
  exists p10. split; [exact F10|]. intros a b.
  rewrite E1. cbn [bind]. rewrite E2. cbn [bind]. rewrite E3. cbn [bind]. rewrite E4. cbn [bind].
  rewrite E5. cbn [bind]. rewrite E6. cbn [bind]. rewrite E7. cbn [bind new_forest f_num_classes f_trees].
  rewrite Z.eqb_refl. cbn [negb]. rewrite E8. cbn [bind]. rewrite E9. cbn [bind].
  rewrite EN, Nat2Z.id, E10. cbn [bind]. reflexivity.
Qed.

Lemma saved_forest_loads f : writable_forest f -> Z.of_nat (List.length (f_trees f)) = f_num_trees f ->
  exists text f', f_save f = Ok text /\ forest_copy f f' /\
    forall a b, f_load (new_forest (f_num_classes f) a b) text = Ok f'.
Proof.
  intros W EN. destruct (f_save_ok f W) as (text & ES & D).
  destruct (load_prefix f text (List.length (f_trees f)) W D (eq_sym EN) (Nat.le_refl _)) as (ts' & C & p' & F & EL).
  rewrite firstn_all in C. rewrite skipn_all in F. unfold trees_words in F. cbn [map List.concat app] in F.
  exists text, (mkForest ts' (f_num_classes f) (f_num_trees f) (f_max_depth f)). split; auto. split; [now split|].
  intros a b. rewrite EL.
  destruct (expect_p _ _ _ _ F) as (s1 & -> & F1). cbn [bind].
  destruct (expect_p (mkParser s1 ($"]") 0) _ _ _ F1) as (s2 & -> & F2). reflexivity.
Qed.

Lemma copied_trees_vote x k ts ts' : Forall2 dtree_copy ts ts' ->
  Forall (fun t => Forall (fun y : f32 => six_digit_copy y y) (thresholds (t_root t))) ts ->
  forall counts, votes ts' k x counts = votes ts k x counts.
Proof.
  induction 1 as [|t t' ts ts' S F IH]; intros G counts; cbn [votes]; auto.
  unfold dt_predict. rewrite (evaluate_copy (t_root t) (t_root t')) by (first [apply S | now apply Forall_inv in G]).
  destruct (evaluate (t_root t) x); cbn [bind]; auto. apply Forall_inv_tail in G.
  destruct ((0 <=? a) && (a <? k))%bool; auto.
Qed.

Lemma saved_forest_predicts f text f' a b x : writable_forest f -> Z.of_nat (List.length (f_trees f)) = f_num_trees f ->
  Forall (fun t => Forall (fun y : f32 => six_digit_copy y y) (thresholds (t_root t))) (f_trees f) ->
  f_save f = Ok text -> f_load (new_forest (f_num_classes f) a b) text = Ok f' -> f_predict f' x = f_predict f x.
Proof.
  intros W EN G S L. destruct (saved_forest_loads f W EN) as (text1 & f1 & S1 & C & L1).
  rewrite S in S1. injection S1 as <-. rewrite L1 in L. injection L as <-.
  unfold f_predict. rewrite (fc_classes _ _ C). now rewrite (copied_trees_vote x _ _ _ (fc_all _ _ C) G).
Qed.

(** A forest with more trees than it says. *)
Lemma excess_trees_abort f a b : writable_forest f -> f_num_trees f < Z.of_nat (List.length (f_trees f)) ->
  exists text, f_save f = Ok text /\ f_load (new_forest (f_num_classes f) a b) text = Abort.
Proof.
  intros W EN. destruct (f_save_ok f W) as (text & ES & D). exists text. split; auto.
  destruct (load_prefix f text (Z.to_nat (f_num_trees f)) W D) as (ts' & C & p' & F & EL).
  { rewrite Z2Nat.id; [reflexivity|apply W]. }
  { lia. }
  rewrite EL. destruct (skipn (Z.to_nat (f_num_trees f)) (f_trees f)) as [|t r] eqn:E.
  { apply (f_equal (@List.length _)) in E. rewrite skipn_length in E. cbn in E. assert (X := wf_trees _ W). lia. }
  unfold trees_words in F. cbn [map List.concat] in F. rewrite <- !app_assoc in F. unfold tree_words in F. cbn [app] in F.
  destruct (next_p _ _ _ _ F) as (s1 & E1 & F1). unfold expect_next. rewrite E1. cbn [bind].
  unfold parse_expected. rewrite token_is_word by now good. reflexivity.
Qed.

Lemma retrained_forest srt pick f fs rs f1 fs' rs' f2 a b : 1 <= f_num_trees f -> f_trees f = [] ->
  f_train srt pick f fs rs = Ok f1 -> f_train srt pick f1 fs' rs' = Ok f2 -> writable_forest f2 ->
  Z.of_nat (List.length (f_trees f2)) = 2 * f_num_trees f2 /\
  exists text, f_save f2 = Ok text /\ f_load (new_forest (f_num_classes f2) a b) text = Abort.
Proof.
  intros HN E0 E1 E2 W.
  assert (X : Z.of_nat (List.length (f_trees f2)) = 2 * f_num_trees f2 /\ f_num_trees f2 = f_num_trees f).
  { unfold f_train in *. apply bind_inv in E1 as (t1 & A1 & B1). injection B1 as <-. cbn [f_num_trees f_max_depth f_trees f_num_classes] in E2.
    apply bind_inv in E2 as (t2 & A2 & B2). injection B2 as <-. cbn [f_num_trees f_trees].
    apply train_loop_length in A1, A2. rewrite E0, !app_length, A1, A2. cbn [List.length f_num_trees]. lia. }
  destruct X as [X Y]. split; auto. apply excess_trees_abort; auto. lia.
Qed.

(** Decides [normal_range] for numbers of moderate size, by computation. *)
Definition normal_b (l : list f32) : bool :=
  forallb (fun x : f32 => match x with B754_finite _ _ e _ => -125 <=? e | _ => true end) l.

Lemma normal_list_b l : normal_b l = true -> Forall normal_range l.
Proof.
  unfold normal_b. rewrite forallb_forall. intros H. apply Forall_forall. intros x Hx. specialize (H x Hx).
  destruct x as [| | |s m e B]; cbn [normal_range]; auto. apply Z.leb_le in H.
  apply Rle_trans with (bpow radix2 e); [apply bpow_le; lia|].
  cbn [B2R]. rewrite <- F2R_Zabs, abs_cond_Zopp. cbn [Z.abs]. unfold F2R. cbn [Fnum Fexp].
  rewrite <- (Rmult_1_l (bpow radix2 e)) at 1. apply Rmult_le_compat_r; [apply bpow_ge_0|]. apply IZR_le. lia.
Qed.
