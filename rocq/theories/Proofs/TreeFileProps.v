(** Properties of decision tree files. *)
From Coq Require Import List ZArith Bool Ascii String Lia Sorting.Sorted Permutation.
From Coq Require Import ZifyBool.
From Flocq Require Import BinarySingleNaN.
From Verif Require Import Model.Base Model.Float Model.Decimal Model.ParserM Model.TreeM Model.TreeIO
  Spec.TokenSpec Spec.DecimalSpec Spec.DatasetFileSpec Spec.TreeSpec Spec.TreeFileSpec
  Proofs.DatasetFileProps Proofs.Feeds Proofs.TreeFacts Proofs.TreeLabels Proofs.InsertionSortFacts Proofs.TreeIOFacts.
Import ListNotations.
Open Scope Z_scope.

Lemma set_insert_last c s : Forall (fun x => x < c) s -> set_insert c s = s ++ [c].
Proof.
  induction 1 as [|x s H F IH]; cbn [set_insert app]; auto.
  repeat match goal with |- context [if ?b then _ else _] => destruct b eqn:?; try lia end. now rewrite IH.
Qed.

Lemma set_insert_all_sorted_id cs : forall acc, StronglySorted Z.lt (acc ++ cs) -> set_insert_all cs acc = acc ++ cs.
Proof.
  unfold set_insert_all. induction cs as [|c cs IH]; intros acc S; cbn [fold_left]; [now rewrite app_nil_r|].
  rewrite set_insert_last.
  - rewrite IH; rewrite <- app_assoc; auto.
  - clear IH. induction acc as [|a acc IH]; [constructor|]. cbn [app] in S. inversion S as [|? ? S' F]; subst.
    constructor; [|now apply IH]. rewrite Forall_forall in F. apply F. apply in_or_app. right. now left.
Qed.

Lemma six_digit_copy_fun {prec emax} (x y y' : binary_float prec emax) :
  six_digit_copy x y -> six_digit_copy x y' -> y = y'.
Proof.
  destruct x; cbn [six_digit_copy]; try congruence.
  intros (F & S & V) (F' & S' & V'). apply B2R_Bsign_inj; congruence.
Qed.

Lemma feeds_comment text s ws w r : ~ In nl text -> feeds s (w :: ws) r ->
  feeds ("#"%char :: text ++ nl :: s) (w :: ws) r.
Proof.
  intros N F. replace ("#"%char :: text ++ nl :: s) with (("#"%char :: text ++ [nl]) ++ s).
  2:{ cbn [app]. now rewrite <- app_assoc. }
  apply feeds_blank; auto. apply (blank_comment text []); auto. constructor.
Qed.

Lemma saved_tree_loads t : writable t ->
  exists text t', dt_save t = Ok text /\ dtree_copy t t' /\ forall md, dt_load (new_dtree md) text = Ok t'.
Proof.
  intros W. destruct (output_tree_ok 0 t W) as (s & E & F).
  destruct (parse_tree_ok t W) as (root & data & CR & CD & P).
  exists ($"# DecisionTreeImpl" ++ [nl] ++ s), (mkTree data (t_classes t) root (t_num_features t) (t_max_depth t)).
  split; [unfold dt_save; now rewrite E|]. split; [now split|].
  intros md. unfold dt_load. rewrite (P (new_dtree md) _ [nl]).
  - cbn [bind new_dtree t_data t_classes app]. rewrite (set_insert_all_sorted_id _ []); [reflexivity|]. apply W.
  - specialize (F []). rewrite app_nil_r in F. unfold tree_words in *.
    apply (feeds_comment ($" DecisionTreeImpl")); [|exact F].
    cbn. intros X. repeat (destruct X as [X|X]; [discriminate|]). exact X.
Qed.

Lemma evaluate_copy t t' : tree_copy t t' -> Forall (fun x : f32 => six_digit_copy x x) (thresholds t) ->
  forall x, evaluate t' x = evaluate t x.
Proof.
  induction 1 as [|g g' n c f thr thr' l l' r r' counts Cg Ct Cl IHl Cr IHr]; intros F x; [reflexivity|].
  cbn [thresholds] in F. inversion F as [|? ? F1 F2]; subst. apply Forall_app in F2 as [Fl Fr].
  assert (thr' = thr) as -> by (eapply six_digit_copy_fun; eauto).
  specialize (IHl Fl x). specialize (IHr Fr x). cbn [evaluate].
  destruct (f =? -1); [reflexivity|]. destruct (vec_get x f); cbn [bind]; auto.
  destruct (lt32 a thr).
  - inversion Cl; subst; [reflexivity|]. exact IHl.
  - inversion Cr; subst; [reflexivity|]. exact IHr.
Qed.

Lemma saved_tree_predicts t text t' md x : writable t ->
  Forall (fun y : f32 => six_digit_copy y y) (thresholds (t_root t)) ->
  dt_save t = Ok text -> dt_load (new_dtree md) text = Ok t' -> dt_predict t' x = dt_predict t x.
Proof.
  intros W F S L. destruct (saved_tree_loads t W) as (text1 & t1 & S1 & C & L1).
  rewrite S in S1. injection S1 as <-. rewrite L1 in L. injection L as <-.
  apply evaluate_copy; auto. apply C.
Qed.

(** Trees that come out of training can be saved. *)
Lemma partition_writable classes l t : partition_tree classes l t -> Forall normal_range (tree_floats t) ->
  Forall is_int (labels t) -> Z.of_nat (List.length l) < 2 ^ 64 ->
  (forall s, In s l -> Z.of_nat (List.length (fst s)) < 2 ^ 31) -> writable_tree (List.length classes) t.
Proof.
  assert (CL : forall (l : list sample) counts, counts_of classes l counts -> Z.of_nat (List.length l) < 2 ^ 64 ->
     List.length counts = List.length classes /\ Forall (fun x => 0 <= x < 2 ^ 64) counts).
  { intros q counts F B. split; [symmetry; exact (Forall2_len _ _ _ F)|].
    assert (G : forall cs ks, Forall2 (fun c n => n = Z.of_nat (count_occ Z.eq_dec (map snd q) c)) cs ks ->
      Forall (fun x => 0 <= x < 2 ^ 64) ks).
    { induction 1; constructor; auto. subst. split; [lia|].
      assert (X := count_occ_bound Z.eq_dec x (map snd q)). rewrite map_length in X. unfold sample, f32 in *. lia. }
    eapply G; exact F. }
  induction 1 as [l g n c thr counts E CO|l ll lr g n c f thr lt rt counts E CO Pm Nl Nr Sp Pl IHl Pr IHr];
    intros FF FL B FS; cbn [tree_floats labels writable_tree] in *;
    inversion FF as [|? ? Hg FF1]; subst; inversion FF1 as [|? ? Ht FF2]; subst; inversion FL as [|? ? Hc FL2]; subst;
    destruct (CL _ _ CO B) as [K1 K2].
  - unfold sample, f32 in *. repeat (split; [first [assumption | unfold is_int; lia | lia]|]). auto.
  - apply Forall_app in FF2 as [FFl FFr]. apply Forall_app in FL2 as [FLl FLr].
    assert (X := Permutation_length Pm). rewrite app_length in X.
    assert (IL : forall s, In s ll -> Z.of_nat (List.length (fst s)) < 2 ^ 31).
    { intros s Hs. apply FS. eapply Permutation_in; [apply Permutation_sym; exact Pm|]. apply in_or_app; auto. }
    assert (IR : forall s, In s lr -> Z.of_nat (List.length (fst s)) < 2 ^ 31).
    { intros s Hs. apply FS. eapply Permutation_in; [apply Permutation_sym; exact Pm|]. apply in_or_app; auto. }
    assert (Hf : is_int (Z.of_nat f)).
    { destruct ll as [|x0 ll']; [congruence|]. destruct lr as [|y0 lr']; [congruence|].
      destruct (Sp x0 y0 ltac:(now left) ltac:(now left)) as (a & b & A & _ & _).
      assert (Y : (f < List.length (fst x0))%nat) by (apply nth_error_Some; congruence).
      specialize (IL x0 ltac:(now left)). unfold is_int. lia. }
    repeat (split; [first [assumption | unfold sample, f32 in *; lia]|]). split.
    + apply IHl; auto. unfold sample, f32 in *; lia.
    + apply IHr; auto. unfold sample, f32 in *; lia.
Qed.

Lemma trained_writable srt md fs rs t : sorter_ok srt -> 0 <= md < 2 ^ 32 ->
  dt_train srt (new_dtree md) fs rs = Ok t ->
  Z.of_nat (List.length fs) < 2 ^ 64 -> Forall (fun f : list f32 => Z.of_nat (List.length f) < 2 ^ 31 /\ Forall normal_range f) fs ->
  Forall is_int rs -> Forall normal_range (tree_floats (t_root t)) -> writable t.
Proof.
  intros HS HM E HB HF HR HT.
  assert (T : trained srt md [(fs, rs)] t) by (apply (trained_more srt md [] (new_dtree md)); [constructor|exact E]).
  destruct (labels_root srt md _ t HS T ltac:(discriminate)) as (c & q & EC & FL & NN).
  destruct (train_partition srt (new_dtree md) fs rs t HS (proj1 HM) E) as (P & _ & MD & PD).
  assert (IN := dt_train_inv _ _ _ _ _ E).
  destruct IN as (NE & LE & CLS & IN). cbn [t_classes new_dtree] in CLS.
  assert (WI : Forall is_int (t_classes t)).
  { apply Forall_forall. intros x Hx. rewrite CLS in Hx. apply set_insert_all_in in Hx as [Hx|[]].
    rewrite Forall_forall in HR. auto. }
  assert (IC : forall s, In s (combine fs rs) -> In (fst s) fs /\ In (snd s) rs).
  { intros [a b] Hs. split; [eapply in_combine_l|eapply in_combine_r]; eauto. }
  assert (LC : Z.of_nat (List.length (combine fs rs)) < 2 ^ 64).
  { assert (X := combine_length fs rs). unfold sample, f32 in *. lia. }
  rewrite Forall_forall in HF.
  constructor; auto.
  - rewrite MD. cbn. lia.
  - unfold dt_train in E. destruct fs as [|f0 fs']; [discriminate|].
    destruct (negb _); [discriminate|]. apply bind_inv in E as ([root d] & _ & E). injection E as <-.
    cbn [t_num_features]. destruct (HF f0 ltac:(now left)) as [X _]. unfold f32 in *. lia.
  - rewrite CLS. apply set_insert_all_sorted. constructor.
  - eapply partition_writable; eauto.
    + eapply Forall_impl; [|exact FL]. intros x <-. rewrite EC in WI. now inversion WI.
    + intros s Hs. now apply HF, IC.
  - assert (X := Permutation_length PD). unfold sample, f32 in *. lia.
  - apply Forall_forall. intros s Hs. apply Permutation_sym in PD. apply (Permutation_in _ PD) in Hs.
    apply IC in Hs as [H1 H2]. split; [now apply HF|]. rewrite Forall_forall in HR. auto.
Qed.

(** Saving a tree that comes out of training never reads a missing count. *)
Lemma output_counts_total level classes : forall counts, List.length counts = List.length classes ->
  exists s, output_counts level classes counts = Ok s.
Proof.
  induction classes as [|c cs IH]; intros [|n ns] L; try discriminate L; cbn [output_counts]; eauto.
  destruct (IH ns) as (s & ->); auto. cbn [bind]. eauto.
Qed.

Lemma partition_saves classes l t : partition_tree classes l t ->
  forall level key, exists s, output_node level classes t key = Ok s.
Proof.
  induction 1 as [l g n c thr counts E CO|l ll lr g n c f thr lt rt counts E CO Pm Nl Nr Sp Pl IHl Pr IHr];
    intros level key; cbn [output_node];
    destruct (output_counts_total (S level) classes counts) as (sc & ->); try (symmetry; exact (Forall2_len _ _ _ CO));
    cbn [bind]; eauto.
  destruct (IHl (S level) ($"left")) as (sl & EL). destruct (IHr (S level) ($"right")) as (sr & ER).
  destruct lt; [inversion Pl|]. rewrite EL. cbn [bind]. destruct rt; [inversion Pr|]. rewrite ER. cbn [bind]. eauto.
Qed.

Lemma trained_saves srt t fs rs t' : sorter_ok srt -> 0 <= t_max_depth t -> dt_train srt t fs rs = Ok t' ->
  exists text, dt_save t' = Ok text.
Proof.
  intros HS HM E. destruct (train_partition srt _ _ _ _ HS HM E) as (P & _).
  unfold dt_save, output_tree. destruct (partition_saves _ _ _ P 1 ($"root")) as (s & ->). cbn [bind]. eauto.
Qed.

(** A tree file whose threshold has more than six digits. *)
Definition precise_file : bytes :=
  $"tree: { max_depth: 2, classes: [ 0, 1, ], num_features: 1, root: { gini: 0.5, num_samples: 2, predicted_class: 0, feature_idx: 0, threshold: 1.0000001, count_per_class: { 0: 1, 1: 1, }, left: { gini: 0, num_samples: 1, predicted_class: 0, feature_idx: -1, threshold: 0, count_per_class: { 0: 1, 1: 0, }, }, right: { gini: 0, num_samples: 1, predicted_class: 1, feature_idx: -1, threshold: 0, count_per_class: { 0: 0, 1: 1, }, }, }, data: { }, }" ++ [nl].

Definition resaved (file : bytes) : outcome (dtree * bytes * dtree) :=
  let* t := dt_load (new_dtree 2) file in
  let* s := dt_save t in
  let* t' := dt_load (new_dtree 2) s in
  Ok (t, s, t').

Definition is_ok (o : outcome Z) (v : Z) : bool := match o with Ok x => x =? v | _ => false end.

Lemma resaving_changes_decision : exists file t saved t' x,
  dt_load (new_dtree 2) file = Ok t /\ dt_save t = Ok saved /\ dt_load (new_dtree 2) saved = Ok t' /\
  dt_predict t x = Ok 0 /\ dt_predict t' x = Ok 1.
Proof.
  destruct (ok_holds (resaved precise_file)
    (fun q => is_ok (dt_predict (fst (fst q)) [f32_of_Z 1]) 0 && is_ok (dt_predict (snd q) [f32_of_Z 1]) 1)%bool)
    as ([[t s] t'] & E & H).
  - vm_compute. reflexivity.
  - unfold resaved in E. apply bind_inv in E as (t1 & E1 & E). apply bind_inv in E as (s1 & E2 & E).
    apply bind_inv in E as (t2 & E3 & E). injection E as <- <- <-.
    apply andb_prop in H as [H1 H2]. cbn [fst snd] in H1, H2.
    exists precise_file, t1, s1, t2, [f32_of_Z 1]. repeat (split; [assumption|]).
    split; apply ok_is; assumption.
Qed.
