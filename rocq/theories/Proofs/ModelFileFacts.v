(** Models read from files, and files of models with another number of policies. *)
From Coq Require Import ZArith Bool Ascii String Lia List.
From Flocq Require Import BinarySingleNaN.
From Verif Require Import Model.Base Model.Float Model.Decimal Model.ParserM Model.DatasetM Model.TreeM Model.TreeIO Model.ForestM Model.ModelStringM Model.PolicyModelsM
  Spec.TokenSpec Spec.TreeSpec Spec.TreeFileSpec Spec.ForestSpec Spec.PolicyModelsSpec Spec.ModelFileSpec
  Proofs.DecimalInt Proofs.ParserFacts Proofs.Feeds Proofs.TreeFacts Proofs.TreeIOFacts Proofs.ForestFacts Proofs.ModelStringFacts.
Import ListNotations.
Open Scope Z_scope.

(** ** Two ways to read a file *)

Lemma tree_answers P n n' t e e' : same_trained P (MTree n false t e) (MTree n' false t e').
Proof.
  split; [reflexivity|]. split; [reflexivity|]. split; [reflexivity|]. intros calls. unfold replies.
  induction calls as [|[D f] calls IH]; [reflexivity|]. cbn [ask m_get_index negb]. destruct (dt_predict t f) as [c| | | |]; try reflexivity. cbn [bind].
  destruct (ask P (MTree n false t e) calls) as [[cs x]| | | |], (ask P (MTree n' false t e') calls) as [[cs' x']| | | |]; cbn [bind] in IH |- *; try discriminate IH; try reflexivity. injection IH as ->. reflexivity.
Qed.
Lemma forest_answers P n n' t e e' : same_trained P (MForest n false t e) (MForest n' false t e').
Proof.
  split; [reflexivity|]. split; [reflexivity|]. split; [reflexivity|]. intros calls. unfold replies.
  induction calls as [|[D f] calls IH]; [reflexivity|]. cbn [ask m_get_index negb]. destruct (f_predict t f) as [c| | | |]; try reflexivity. cbn [bind].
  destruct (ask P (MForest n false t e) calls) as [[cs x]| | | |], (ask P (MForest n' false t e') calls) as [[cs' x']| | | |]; cbn [bind] in IH |- *; try discriminate IH; try reflexivity. injection IH as ->. reflexivity.
Qed.

Lemma created_tree P nf n ps init m : create_model P ($"DecisionTree") nf n ps init = Ok m -> exists d e, m = MTree n true (new_dtree d) (Some e).
Proof.
  unfold create_model. cbn [create_fuel]. intros H. change (bytes_eqb ($"DecisionTree") ($"Static")) with false in H. change (bytes_eqb ($"DecisionTree") ($"DatasetMap")) with false in H.
  change (bytes_eqb ($"DecisionTree") ($"Random")) with false in H. change (bytes_eqb ($"DecisionTree") ($"RoundRobin")) with false in H. change (bytes_eqb ($"DecisionTree") ($"DecisionTree")) with true in H. cbv iota in H.
  apply bind_inv in H. destruct H as (d & _ & H). apply bind_inv in H. destruct H as (e & _ & H). injection H as <-. exists d, e. reflexivity.
Qed.
Lemma created_forest P nf n ps init m : create_model P ($"RandomForest") nf n ps init = Ok m -> exists a b e, m = MForest n true (new_forest n a b) (Some e).
Proof.
  unfold create_model. cbn [create_fuel]. intros H. change (bytes_eqb ($"RandomForest") ($"Static")) with false in H. change (bytes_eqb ($"RandomForest") ($"DatasetMap")) with false in H.
  change (bytes_eqb ($"RandomForest") ($"Random")) with false in H. change (bytes_eqb ($"RandomForest") ($"RoundRobin")) with false in H. change (bytes_eqb ($"RandomForest") ($"DecisionTree")) with false in H. change (bytes_eqb ($"RandomForest") ($"RandomForest")) with true in H. cbv iota in H.
  apply bind_inv in H. destruct H as (a & _ & H). apply bind_inv in H. destruct H as (b & _ & H). apply bind_inv in H. destruct H as (e & _ & H). injection H as <-. exists a, b, e. reflexivity.
Qed.

Lemma two_ways P name nf n ps init m s : name = $"DecisionTree" \/ name = $"RandomForest" -> create_model P name nf n ps init = Ok m ->
  same_outcome P (m_load m (Some s)) (create_from_file name n (Some s)).
Proof.
  intros [-> | ->] C.
  - apply created_tree in C. destruct C as (d & e & ->). change (create_from_file ($"DecisionTree") n (Some s)) with (load_tree_model n (Some s)). cbn [m_load load_tree_model].
    change (dt_load (new_dtree d) s) with (dt_load (new_dtree 0) s). destruct (dt_load (new_dtree 0) s) as [t| | | |]; cbn [bind same_outcome]; try exact I. apply tree_answers.
  - apply created_forest in C. destruct C as (a & b & e & ->). change (create_from_file ($"RandomForest") n (Some s)) with (load_forest_model n (Some s)). cbn [m_load load_forest_model].
    change (f_load (new_forest n a b) s) with (f_load (new_forest n 0 0) s). destruct (f_load (new_forest n 0 0) s) as [t| | | |]; cbn [bind same_outcome]; try exact I. apply forest_answers.
Qed.

Lemma no_file P name nf n ps init m : name = $"DecisionTree" \/ name = $"RandomForest" -> create_model P name nf n ps init = Ok m ->
  m_load m None = Throw /\ create_from_file name n None = Abort.
Proof.
  intros [-> | ->] C; [apply created_tree in C; destruct C as (d & e & ->)|apply created_forest in C; destruct C as (a & b & e & ->)]; split; reflexivity.
Qed.

Lemma only_three name n file m : create_from_file name n file = Ok m -> In name [$"Optimal"; $"DecisionTree"; $"RandomForest"].
Proof.
  unfold create_from_file. intros H. destruct (bytes_eqb name ($"Static") || bytes_eqb name ($"Random") || bytes_eqb name ($"RoundRobin") || bytes_eqb name ($"DatasetMap")); [discriminate H|].
  destruct (bytes_eqb name ($"Optimal")) eqn:E1; [apply bytes_eqb_eq in E1; subst; left; reflexivity|].
  destruct (bytes_eqb name ($"DecisionTree")) eqn:E2; [apply bytes_eqb_eq in E2; subst; right; left; reflexivity|].
  destruct (bytes_eqb name ($"RandomForest")) eqn:E3; [apply bytes_eqb_eq in E3; subst; right; right; left; reflexivity|].
  destruct (bytes_eqb name ($"PolicyNet")); discriminate H.
Qed.

(** A name of a model that cannot be created from a file throws; any other name aborts. *)
Lemma others name n file : ~ In name [$"Optimal"; $"DecisionTree"; $"RandomForest"] ->
  create_from_file name n file = (if in_dec (list_eq_dec ascii_dec) name [$"Static"; $"Random"; $"RoundRobin"; $"DatasetMap"; $"PolicyNet"] then Throw else Abort).
Proof.
  intros N. unfold create_from_file. destruct (in_dec (list_eq_dec ascii_dec) name [$"Static"; $"Random"; $"RoundRobin"; $"DatasetMap"; $"PolicyNet"]) as [I|I].
  - destruct I as [<-|[<-|[<-|[<-|[<-|[]]]]]]; reflexivity.
  - assert (X : forall l, In l [$"Optimal"; $"DecisionTree"; $"RandomForest"] \/ In l [$"Static"; $"Random"; $"RoundRobin"; $"DatasetMap"; $"PolicyNet"] -> bytes_eqb name l = false).
    { intros l IL. destruct (bytes_eqb name l) eqn:E; [|reflexivity]. apply bytes_eqb_eq in E. subst l. destruct IL as [IL|IL]; contradiction. }
    rewrite !X by (cbn [In]; tauto). reflexivity.
Qed.

(** ** Another number of policies *)

Lemma any_count P s n n' e e' t : same_outcome P (m_load (MTree n t (new_dtree 0) e) (Some s)) (m_load (MTree n' t (new_dtree 0) e') (Some s)).
Proof. cbn [m_load]. destruct (dt_load (new_dtree 0) s) as [u| | | |]; cbn [bind same_outcome]; try exact I. apply tree_answers. Qed.

Lemma any_policies P nf nf' n n' ps ps' init init' m m' s : create_model P ($"DecisionTree") nf n ps init = Ok m -> create_model P ($"DecisionTree") nf' n' ps' init' = Ok m' ->
  same_outcome P (m_load m (Some s)) (m_load m' (Some s)).
Proof.
  intros C C'. apply created_tree in C. apply created_tree in C'. destruct C as (d & e & ->), C' as (d' & e' & ->). exact (any_count P s n n' (Some e) (Some e') true).
Qed.

Lemma other_classes f g text : writable_forest f -> f_num_classes g <> f_num_classes f -> f_save f = Ok text -> f_load g text = Throw.
Proof.
  intros W NE ES. destruct (f_save_ok f W) as (text' & ES' & D). rewrite ES in ES'. injection ES' as <-. destruct W as [Hc Ht Hd W].
  unfold forest_words in D. rewrite <- !app_assoc in D. cbn [app] in D. unfold f_load, new_parser.
  destruct (expect_p (mkParser text [] 0) _ _ _ D) as (s1 & E1 & F1).
  destruct (expect_p (mkParser s1 ($"rfc:") 0) _ _ _ F1) as (s2 & E2 & F2).
  destruct (key_val_ok parse_uint ($"num_trees:") (print_Z (f_num_trees f)) (f_num_trees f) (mkParser s2 ($"{") 0) _ _
    ltac:(apply uint_number; auto with numbers; cbn; lia) F2) as (p3 & E3 & F3).
  destruct (key_val_ok parse_uint ($"max_depth:") (print_Z (f_max_depth f)) (f_max_depth f) p3 _ _
    ltac:(apply uint_number; auto with numbers; cbn; lia) F3) as (p4 & E4 & F4).
  destruct (expect_p p4 _ _ _ F4) as (s5 & E5 & F5).
  destruct (expect_p (mkParser s5 ($"classes:") 0) _ _ _ F5) as (s6 & E6 & F6).
  destruct (parse_class_idx_ok (Z.to_nat (f_num_classes f)) 0 (S (List.length (p_in (mkParser s6 ($"[") 0)))) (mkParser s6 ($"[") 0)
    _ _ ltac:(lia) F6) as (p7 & E7 & F7).
  { cbn [p_in]. apply feeds_fuel in F6. rewrite !map_length, seq_length in F6. lia. }
  change (Z.of_nat 0) with 0 in E7. rewrite Nat.add_0_l, Z2Nat.id in E7 by lia.
  rewrite E1. cbn [bind]. rewrite E2. cbn [bind]. rewrite E3. cbn [bind]. rewrite E4. cbn [bind].
  rewrite E5. cbn [bind]. rewrite E6. cbn [bind]. rewrite E7. cbn [bind].
  destruct (Z.eqb_spec (f_num_classes f) (f_num_classes g)) as [X|X]; [contradiction NE; symmetry; exact X|]. reflexivity.
Qed.

Lemma forest_checked P nf n ps init m k t e f text : create_model P ($"RandomForest") nf n ps init = Ok m -> writable_forest f -> f_num_classes f <> n ->
  m_store (MForest k t f e) = Ok (Some text) -> m_load m (Some text) = Throw /\ create_from_file ($"RandomForest") n (Some text) = Throw.
Proof.
  intros C W NE S. assert (T := two_ways P ($"RandomForest") nf n ps init m text (or_intror eq_refl) C). apply created_forest in C. destruct C as (a & b & e' & ->).
  cbn [m_store] in S. apply bind_inv in S. destruct S as (s & ES & S). injection S as <-.
  assert (L : m_load (MForest n true (new_forest n a b) (Some e')) (Some s) = Throw).
  { cbn [m_load]. rewrite (other_classes f (new_forest n a b) s W) by (exact ES || (cbn; intros X; apply NE; symmetry; exact X)). reflexivity. }
  split; [exact L|]. rewrite L in T. cbn [same_outcome] in T. destruct (create_from_file ($"RandomForest") n (Some s)); try contradiction T. reflexivity.
Qed.
