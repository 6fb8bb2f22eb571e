(** Trained trees predict the smallest class; thresholds; independence of the sorting of ties. *)
From Coq Require Import List ZArith Bool Lia Sorted Permutation Reals Lra Arith SpecFloat.
From Flocq Require Import Core BinarySingleNaN.
From Verif Require Import Model.Base Model.Float Model.TreeM Spec.DatasetSpec Spec.TreeSpec
  Proofs.FloatFacts Proofs.TreeFacts.
Import ListNotations.
Open Scope Z_scope.

Lemma set_insert_in c s x : In x (set_insert c s) <-> x = c \/ In x s.
Proof.
  induction s as [|y r IH]; cbn [set_insert In]; [intuition|].
  destruct (Z.ltb_spec c y); [cbn; intuition|]. destruct (Z.ltb_spec y c).
  - cbn [In]. rewrite IH. intuition.
  - assert (c = y) by lia. subst. cbn; intuition.
Qed.

Lemma set_insert_sorted c s : StronglySorted Z.lt s -> StronglySorted Z.lt (set_insert c s).
Proof.
  induction 1 as [|y r S IH H]; cbn [set_insert]; [repeat constructor|].
  destruct (Z.ltb_spec c y).
  - constructor; [constructor; auto|]. constructor; auto. rewrite Forall_forall in *. intros z Hz.
    apply H in Hz. lia.
  - destruct (Z.ltb_spec y c); [|constructor; auto].
    constructor; auto. rewrite Forall_forall in *. intros z Hz. apply set_insert_in in Hz.
    destruct Hz as [->|Hz]; auto.
Qed.

Lemma set_insert_all_in cs : forall s x, In x (set_insert_all cs s) <-> In x cs \/ In x s.
Proof.
  unfold set_insert_all. induction cs as [|c cs IH]; cbn [fold_left In]; intros; [tauto|].
  rewrite IH, set_insert_in. intuition.
Qed.

Lemma set_insert_all_sorted cs : forall s, StronglySorted Z.lt s -> StronglySorted Z.lt (set_insert_all cs s).
Proof.
  unfold set_insert_all. induction cs as [|c cs IH]; cbn [fold_left]; auto using set_insert_sorted.
Qed.

Lemma dt_train_inv srt t fs rs t' : dt_train srt t fs rs = Ok t' ->
  fs <> [] /\ (length fs <= length rs)%nat /\ t_classes t' = set_insert_all rs (t_classes t) /\
  t_max_depth t' = t_max_depth t /\ t_num_features t' = Z.of_nat (length (hd [] fs)) /\
  build_tree (S (length (combine fs rs))) srt (t_classes t') (t_max_depth t) 0 (combine fs rs)
    = Ok (t_root t', t_data t').
Proof.
  unfold dt_train. destruct fs as [|f0 fs0] eqn:Ef; [discriminate|]. rewrite <- Ef.
  destruct (Nat.leb _ _) eqn:L; [|discriminate]. cbn [negb]. intros H. apply bind_inv in H.
  destruct H as ([root data] & E & H). inversion H; subst t'; clear H. cbn [t_classes t_max_depth t_num_features t_root t_data].
  repeat split; auto; try (rewrite Ef; try reflexivity; discriminate).
  now apply Nat.leb_le.
Qed.

Lemma trained_classes srt md h t : trained srt md h t ->
  StronglySorted Z.lt (t_classes t) /\
  (forall c, In c (t_classes t) <-> In c (List.concat (map snd h))) /\ t_max_depth t = md.
Proof.
  induction 1 as [|h t fs rs t' HT (S & I & M) E].
  - cbn. repeat split; auto; try constructor; tauto.
  - apply dt_train_inv in E. destruct E as (_ & _ & EC & EM & _). rewrite EC. repeat split.
    + now apply set_insert_all_sorted.
    + intros H. rewrite map_app, concat_app. cbn. rewrite app_nil_r. apply in_or_app.
      apply set_insert_all_in in H. rewrite I in H. tauto.
    + intros H. rewrite map_app, concat_app in H. cbn in H. rewrite app_nil_r in H.
      apply set_insert_all_in. rewrite I. apply in_app_or in H. tauto.
    + congruence.
Qed.

Lemma labels_root srt md h t : sorter_ok srt -> trained srt md h t -> h <> [] ->
  exists c r, t_classes t = c :: r /\ Forall (eq c) (labels (t_root t)) /\ t_root t <> Null.
Proof.
  intros HS HT HN. destruct HT as [|h t fs rs t' HT E]; [congruence|].
  apply dt_train_inv in E. destruct E as (_ & _ & _ & _ & _ & E).
  eapply build_tree_labels; eauto.
Qed.

(** C22. *)
Lemma constant_prediction srt md h t : sorter_ok srt -> trained srt md h t -> h <> [] ->
  exists m, is_minimum m (List.concat (map snd h)) /\
    (forall x v, dt_predict t x = Ok v -> v = m) /\
    (forall x, (forall s, In s (t_data t) -> (length (fst s) <= length x)%nat) -> dt_predict t x = Ok m).
Proof.
  intros HS HT HN. destruct (labels_root _ _ _ _ HS HT HN) as (c & r & EC & F & N).
  destruct (trained_classes _ _ _ _ HT) as (S & I & _).
  assert (HV : forall x v, dt_predict t x = Ok v -> v = c).
  { intros x v H. apply evaluate_label in H. rewrite Forall_forall in F. symmetry. auto. }
  exists c. split; [split|split]; auto.
  - apply I. rewrite EC. left; auto.
  - intros c' Hc. apply I in Hc. rewrite EC in *. inversion S; subst. destruct Hc as [->|Hc]; [lia|].
    rewrite Forall_forall in H2. apply H2 in Hc. lia.
  - intros x Hx.
    assert (exists v, dt_predict t x = Ok v) as (v & Hv).
    { destruct HT as [|h t fs rs t' HT E]; [congruence|].
      apply dt_train_inv in E. destruct E as (_ & _ & _ & _ & _ & E).
      apply (evaluate_defined (Z.of_nat (length x))); auto; [|lia].
      eapply build_tree_indices; [exact HS| |exact E].
      apply build_tree_data in E; auto.
      apply Forall_forall. intros s Hs. apply Hx. eapply Permutation_in; eauto. }
    rewrite Hv. f_equal. eauto.
Qed.
