(** Structure of trained trees. *)
From Coq Require Import List ZArith Bool Lia Sorted Permutation Reals Lra Arith.
From Flocq Require Import Core BinarySingleNaN.
From Verif Require Import Model.Base Model.Float Model.TreeM Spec.DatasetSpec Spec.TreeSpec Proofs.FloatFacts.
Import ListNotations.
Open Scope Z_scope.

Definition val (f : nat) (s : sample) : R := xval (feature f s).
Definition has_feature (f : nat) (s : sample) : Prop :=
  (f < length (fst s))%nat /\ is_nan (feature f s) = false.
Definition sorted_by (f : nat) (l : list sample) : Prop := StronglySorted (fun x y => (val f x <= val f y)%R) l.

Lemma bind_inv {A B} (m : outcome A) (k : A -> outcome B) b : bind m k = Ok b -> exists a, m = Ok a /\ k a = Ok b.
Proof. destruct m; cbn; intros; try discriminate. eauto. Qed.

Lemma feature_lt_val f x y : has_feature f x -> has_feature f y ->
  feature_lt f x y = Rlt_bool (val f x) (val f y).
Proof. intros [_ A] [_ B]. unfold feature_lt, lt32, val. now apply Bltb_xval. Qed.

Lemma feature_strict_weak f l : Forall (has_feature f) l -> strict_weak_on (feature_lt f) l.
Proof.
  intros H. rewrite Forall_forall in H. repeat split; intros.
  - rewrite feature_lt_val by auto. apply Rlt_bool_false. lra.
  - rewrite feature_lt_val in * by auto. rbool. lra.
  - match goal with K : feature_lt f x y = true |- _ => rewrite feature_lt_val in K by auto end. rbool.
    destruct (Rlt_le_dec (val f x) (val f z)); [left|right]; rewrite feature_lt_val by auto; rbool; lra.
Qed.

Lemma sorted_impl {A} (P Q : A -> A -> Prop) l : (forall x y, In x l -> In y l -> P x y -> Q x y) ->
  StronglySorted P l -> StronglySorted Q l.
Proof.
  intros H S. induction S; constructor.
  - apply IHS. intros; apply H; auto; right; auto.
  - rewrite Forall_forall in *. intros y Hy. apply H; auto; [left|right]; auto.
Qed.

Lemma has_feature_b f s :
  (Nat.ltb f (length (fst s)) && negb (is_nan (feature f s)))%bool = true <-> has_feature f s.
Proof.
  unfold has_feature. rewrite andb_true_iff, Nat.ltb_lt, negb_true_iff. tauto.
Qed.

Lemma sort_by_ok srt f l l' : sorter_ok srt -> sort_by srt f l = Ok l' ->
  Permutation l l' /\ sorted_by f l' /\ Forall (has_feature f) l'.
Proof.
  intros HS. unfold sort_by.
  match goal with |- context [forallb ?p l] => destruct (forallb p l) eqn:E end; [|discriminate]. intros H; inversion H; subst; clear H.
  assert (F : Forall (has_feature f) l).
  { apply Forall_forall. intros s Hs. rewrite forallb_forall in E. apply has_feature_b. auto. }
  destruct (HS _ _ (feature_strict_weak f l F)) as [P S].
  assert (F' : Forall (has_feature f) (srt (feature_lt f) l)).
  { eapply Permutation_Forall; eauto. }
  repeat split; auto. rewrite Forall_forall in F'.
  revert S. apply sorted_impl. intros x y Hx Hy Hxy. rewrite feature_lt_val in Hxy by auto. rbool. lra.
Qed.

Lemma sort_by_total srt f l : Forall (has_feature f) l -> exists l', sort_by srt f l = Ok l'.
Proof.
  intros H. unfold sort_by. rewrite (proj2 (forallb_forall _ l)); eauto.
  intros s Hs. apply has_feature_b. rewrite Forall_forall in H; auto.
Qed.

(** Sorted lists of reals that are permutations of each other are equal. *)
Lemma sorted_perm_eq (a b : list R) : StronglySorted Rle a -> StronglySorted Rle b -> Permutation a b -> a = b.
Proof.
  revert b. induction a as [|x a IH]; intros b Sa Sb P.
  - apply Permutation_nil in P. auto.
  - destruct b as [|y b]; [apply Permutation_sym, Permutation_nil in P; discriminate|].
    inversion Sa; inversion Sb; subst.
    assert (x = y).
    { rewrite Forall_forall in *.
      assert (In x (y :: b)) by (eapply Permutation_in; eauto; left; auto).
      assert (In y (x :: a)) by (eapply Permutation_in; [apply Permutation_sym; eauto|left; auto]).
      destruct H as [|H]; auto. destruct H0 as [|H0]; auto.
      apply H6 in H. apply H2 in H0. lra. }
    subst. f_equal. apply IH; auto. eapply Permutation_cons_inv; eauto.
Qed.

Lemma sorted_map f l : sorted_by f l -> StronglySorted Rle (map (val f) l).
Proof.
  induction 1; cbn; constructor; auto. rewrite Forall_forall in *. intros r Hr.
  apply in_map_iff in Hr. destruct Hr as (s & <- & Hs). auto.
Qed.

Lemma sorted_by_vals f l l' : sorted_by f l -> sorted_by f l' -> Permutation l l' ->
  map (val f) l = map (val f) l'.
Proof. intros. apply sorted_perm_eq; auto using sorted_map. now apply Permutation_map. Qed.

Lemma sorted_nth {A} (R : A -> A -> Prop) l d : StronglySorted R l ->
  forall i j, (i < j < length l)%nat -> R (nth i l d) (nth j l d).
Proof.
  induction 1 as [|a l S IH Ha]; intros i j H; [cbn in H; lia|].
  destruct j as [|j]; [lia|]. cbn [nth length] in *. destruct i as [|i].
  - rewrite Forall_forall in Ha. apply Ha, nth_In. lia.
  - apply IH. lia.
Qed.

Lemma in_firstn_nth {A} (l : list A) n x d : In x (firstn n l) ->
  exists i, (i < n)%nat /\ (i < length l)%nat /\ x = nth i l d.
Proof.
  revert n. induction l as [|a l IH]; intros [|n] H; cbn in H; try tauto.
  destruct H as [->|H].
  - exists O. cbn. repeat split; lia.
  - destruct (IH _ H) as (i & A1 & A2 & ->). exists (S i). cbn. repeat split; lia.
Qed.

Lemma in_skipn_nth {A} (l : list A) n x d : In x (skipn n l) ->
  exists i, (n <= i)%nat /\ (i < length l)%nat /\ x = nth i l d.
Proof.
  revert n. induction l as [|a l IH]; intros n H.
  - rewrite skipn_nil in H. destruct H.
  - destruct n as [|n]; cbn [skipn] in H.
    + apply (In_nth _ _ d) in H. destruct H as (i & A1 & <-). exists i. repeat split; lia.
    + destruct (IH _ H) as (i & A1 & A2 & ->). exists (S i). cbn. repeat split; lia.
Qed.

(** What the scan maintains. *)
Definition boundary (f : nat) (l : list sample) (pos : nat) : Prop :=
  (0 < pos < length l)%nat /\ (val f (nth (pos - 1) l ([], 0%Z)) < val f (nth pos l ([], 0%Z)))%R.

Definition split_from (classes : list Z) (l0 : list sample) (b : best_split) : Prop :=
  let '(g, pos, f, thr) := b in
  exists l, Permutation l0 l /\ sorted_by f l /\ Forall (has_feature f) l /\ boundary f l pos /\
    g = split_gini classes l pos /\
    thr = midpoint (feature f (nth (pos - 1) l ([], 0%Z))) (feature f (nth pos l ([], 0%Z))).

Ltac slia := unfold sample in *; lia.
Lemma sorted_adjacent f l i : sorted_by f l -> (0 < i < length l)%nat ->
  (val f (nth (i - 1) l ([], 0%Z)) <= val f (nth i l ([], 0%Z)))%R.
Proof. intros S H. apply (sorted_nth (A:=sample) _ l ([], 0%Z) S). slia. Qed.

Lemma boundary_split f l pos x y : sorted_by f l -> boundary f l pos ->
  In x (firstn pos l) -> In y (skipn pos l) -> (val f x < val f y)%R.
Proof.
  intros S [H1 H2] Hx Hy.
  apply (in_firstn_nth (A:=sample) _ _ _ ([], 0%Z)) in Hx. apply (in_skipn_nth (A:=sample) _ _ _ ([], 0%Z)) in Hy.
  destruct Hx as (i & I1 & I2 & ->), Hy as (j & J1 & J2 & ->).
  assert ((val f (nth i l ([], 0%Z)) <= val f (nth (pos - 1) l ([], 0%Z)))%R).
  { destruct (Nat.eq_dec i (pos - 1)) as [->|]; [lra|]. apply (sorted_nth (A:=sample) _ l ([], 0%Z) S). slia. }
  assert ((val f (nth pos l ([], 0%Z)) <= val f (nth j l ([], 0%Z)))%R).
  { destruct (Nat.eq_dec j pos) as [->|]; [lra|]. apply (sorted_nth (A:=sample) _ l ([], 0%Z) S). slia. }
  lra.
Qed.

Lemma nth_map_val f l i : nth i (map (val f) l) (val f ([], 0%Z)) = val f (nth i l ([], 0%Z)).
Proof. apply map_nth. Qed.

Lemma boundary_transfer f l l' pos : sorted_by f l -> sorted_by f l' -> Permutation l l' ->
  boundary f l pos -> boundary f l' pos.
Proof.
  intros S S' P [H1 H2]. split.
  - rewrite <- (Permutation_length P). auto.
  - rewrite <- !nth_map_val in *. rewrite <- (sorted_by_vals f l l'); auto.
Qed.

Lemma try_split_spec classes f l0 l i b :
  Permutation l0 l -> sorted_by f l -> Forall (has_feature f) l -> (0 < i < length l)%nat ->
  try_split classes f l i b = b \/ split_from classes l0 (try_split classes f l i b).
Proof.
  intros P S F Hi. destruct b as [[[g pos] f0] thr]. unfold try_split.
  destruct (eq32 _ _) eqn:E; [left; auto|]. destruct (le32 g _) eqn:G; [left; auto|].
  right. exists l. repeat split; auto; try lia.
  assert (A := sorted_adjacent f l i S Hi).
  destruct A as [A|A]; auto. exfalso.
  rewrite Forall_forall in F.
  assert (H1 : has_feature f (nth (i - 1) l ([], 0%Z))) by (apply F, nth_In; lia).
  assert (H2 : has_feature f (nth i l ([], 0%Z))) by (apply F, nth_In; lia).
  destruct H1 as [_ H1], H2 as [_ H2]. unfold eq32 in E. unfold feature in H1, H2.
  rewrite Beqb_xval in E by auto. rbool. contradiction.
Qed.

Lemma scan_feature_spec classes f l0 l b :
  Permutation l0 l -> sorted_by f l -> Forall (has_feature f) l ->
  scan_feature classes f l b = b \/ split_from classes l0 (scan_feature classes f l b).
Proof.
  intros P S F. unfold scan_feature.
  assert (G : Forall (fun i => 0 < i < length l)%nat (seq 1 (length l - 1))).
  { apply Forall_forall. intros i Hi. apply in_seq in Hi. lia. }
  revert b. induction G as [|i is Hi G IH]; intros b; cbn [fold_left]; auto.
  destruct (IH (try_split classes f l i b)) as [E|E]; auto. rewrite E.
  apply try_split_spec; auto.
Qed.

Lemma scan_features_spec srt classes l0 fs : forall l b l' b', sorter_ok srt -> Permutation l0 l ->
  scan_features srt classes fs l b = Ok (l', b') ->
  Permutation l0 l' /\ (b' = b \/ split_from classes l0 b').
Proof.
  induction fs as [|f fs IH]; intros l b l' b' HS P H; cbn [scan_features] in H.
  - inversion H; subst. auto.
  - apply bind_inv in H. destruct H as (l1 & E & H).
    destruct (sort_by_ok _ _ _ _ HS E) as (P1 & S1 & F1).
    assert (P2 : Permutation l0 l1) by (eapply Permutation_trans; eauto).
    destruct (IH _ _ _ _ HS P2 H) as [P3 [E3|E3]]; split; auto.
    subst b'. destruct (scan_feature_spec classes f l0 l1 b P2 S1 F1) as [->|]; auto.
Qed.

Lemma split_spec srt classes l l' g pos f thr : sorter_ok srt ->
  split srt classes l = Ok (l', (g, pos, f, thr)) ->
  Permutation l l' /\ sorted_by f l' /\ Forall (has_feature f) l' /\ (1 < length l)%nat /\
  ((g, pos, f, thr) = (one32, length l, O, zero32) \/
   split_from classes l (g, pos, f, thr) /\ boundary f l' pos).
Proof.
  intros HS. unfold split. destruct (Nat.ltb 1 (length l)) eqn:E; [|discriminate]. cbn [negb].
  intros H. apply bind_inv in H. destruct H as ([l1 [[[g1 pos1] f1] thr1]] & E1 & H).
  apply bind_inv in H. destruct H as (l2 & E2 & H). inversion H; subst; clear H.
  destruct (scan_features_spec _ _ l _ _ _ _ _ HS (Permutation_refl l) E1) as [P1 C1].
  destruct (sort_by_ok _ _ _ _ HS E2) as (P2 & S2 & F2).
  assert (P : Permutation l l') by (eapply Permutation_trans; eauto).
  repeat split; auto. { now apply Nat.ltb_lt. }
  destruct C1 as [C1|C1]; auto. right. split; auto.
  destruct C1 as (lx & Px & Sx & Fx & Bx & _). eapply (boundary_transfer f lx); eauto.
  eapply Permutation_trans; [apply Permutation_sym; eauto|auto].
Qed.

Lemma counts_of_counts classes l : counts_of classes l (get_count_per_class classes l).
Proof.
  unfold counts_of, get_count_per_class. induction classes; cbn; constructor; auto.
  unfold count_class. f_equal. clear. induction l as [|s l IH]; cbn; auto.
  destruct (Z.eqb_spec (snd s) a); destruct (Z.eq_dec (snd s) a); cbn; congruence.
Qed.

Lemma counts_of_perm classes l l' cs : Permutation l l' -> counts_of classes l cs -> counts_of classes l' cs.
Proof.
  intros P H. unfold counts_of in *. induction H; constructor; auto. subst. f_equal.
  assert (Q : Permutation (map snd l) (map snd l')) by (apply Permutation_map; auto).
  rewrite (Permutation_count_occ Z.eq_dec) in Q. auto.
Qed.

Lemma new_leaf_inv classes cs g n t : new_leaf classes cs g n = Ok t ->
  exists c r, classes = c :: r /\ t = Node g n c (-1) zero32 Null Null cs.
Proof.
  unfold new_leaf. cbn. destruct classes as [|c r]; cbn; intros H; inversion H. eauto.
Qed.

Lemma nth_error_feature f s : has_feature f s -> nth_error (fst s) f = Some (feature f s).
Proof. intros [H _]. apply nth_error_nth'. auto. Qed.

Lemma boundary_lt f l pos x y : sorted_by f l -> boundary f l pos -> Forall (has_feature f) l ->
  In x (firstn pos l) -> In y (skipn pos l) ->
  exists a b, nth_error (fst x) f = Some a /\ nth_error (fst y) f = Some b /\ lt32 a b = true.
Proof.
  intros S B F Hx Hy. assert (L := boundary_split f l pos x y S B Hx Hy).
  rewrite <- (firstn_skipn pos l) in F. rewrite Forall_forall in F.
  assert (Fx : has_feature f x) by (apply F, in_or_app; auto).
  assert (Fy : has_feature f y) by (apply F, in_or_app; auto).
  exists (feature f x), (feature f y). rewrite !nth_error_feature by auto. repeat split; auto.
  unfold lt32. rewrite Bltb_xval by apply Fx || apply Fy. now apply Rlt_bool_true.
Qed.

(** The inner case of build_tree, unpacked. *)
Lemma build_tree_step fuel srt classes md d l t l' : sorter_ok srt ->
  build_tree (S fuel) srt classes md d l = Ok (t, l') ->
  exists c r, classes = c :: r /\
  let g := compute_gini classes l in
  let n := Z.of_nat (length l) in
  let cs := get_count_per_class classes l in
  (t = Node g n c (-1) zero32 Null Null cs /\ l' = l /\
     (md <= d \/ l = [] \/ le32 g zero32 = true)) \/
  (d < md /\ l <> [] /\ le32 g zero32 = false /\
   exists ls pos f thr gs lt ll rt lr,
     split srt classes l = Ok (ls, (gs, pos, f, thr)) /\
     Permutation l ls /\ sorted_by f ls /\ Forall (has_feature f) ls /\
     split_from classes l (gs, pos, f, thr) /\ boundary f ls pos /\
     build_tree fuel srt classes md (d + 1) (firstn pos ls) = Ok (lt, ll) /\
     build_tree fuel srt classes md (d + 1) (skipn pos ls) = Ok (rt, lr) /\
     t = Node g n c (Z.of_nat f) thr lt rt cs /\ l' = ll ++ lr).
Proof.
  intros HS H. cbn [build_tree] in H. apply bind_inv in H. destruct H as (node & E1 & H).
  apply new_leaf_inv in E1. destruct E1 as (c & r & Ec & ->). exists c, r. split; auto. cbv zeta.
  destruct (Z.leb_spec md d).
  { inversion H; subst. left. repeat split; auto. }
  destruct l as [|s l0] eqn:El.
  { inversion H; subst. left. repeat split; auto. }
  rewrite <- El in *. destruct (le32 (compute_gini classes l) zero32) eqn:E2.
  { inversion H; subst. left. repeat split; auto. }
  right. repeat split; auto. { rewrite El; discriminate. }
  apply bind_inv in H. destruct H as ([ls [[[gs pos] f] thr]] & E3 & H).
  destruct (Nat.eqb_spec pos (length ls)); [discriminate|].
  apply bind_inv in H. destruct H as ([lt ll] & E4 & H).
  apply bind_inv in H. destruct H as ([rt lr] & E5 & H). inversion H; subst t l'; clear H.
  destruct (split_spec _ _ _ _ _ _ _ _ HS E3) as (P & S & F & L & [C|[C B]]).
  { inversion C; subst. apply Permutation_length in P. congruence. }
  exists ls, pos, f, thr, gs, lt, ll, rt, lr. repeat split; auto; try apply B.
Qed.

Lemma build_tree_data fuel : forall srt classes md d l t l', sorter_ok srt ->
  build_tree fuel srt classes md d l = Ok (t, l') -> Permutation l l'.
Proof.
  induction fuel; intros srt classes md d l t l' HS H; [discriminate|].
  apply build_tree_step in H; auto. destruct H as (c & r & _ & [(_ & -> & _)|H]); auto.
  destruct H as (_ & _ & _ & ls & pos & f & thr & gs & lt & ll & rt & lr & _ & P & _ & _ & _ & _ & E1 & E2 & _ & ->).
  apply IHfuel in E1, E2; auto.
  eapply Permutation_trans; [exact P|]. rewrite <- (firstn_skipn pos ls). now apply Permutation_app.
Qed.

Lemma boundary_nonempty f l pos : boundary f l pos -> firstn pos l <> [] /\ skipn pos l <> [].
Proof.
  intros [H _]. split; intros E; apply (f_equal (@length sample)) in E.
  - rewrite firstn_length in E. cbn in E. lia.
  - rewrite skipn_length in E. cbn in E. lia.
Qed.

Lemma build_tree_partition fuel : forall srt classes md d l t l', sorter_ok srt ->
  build_tree fuel srt classes md d l = Ok (t, l') -> partition_tree classes l t.
Proof.
  induction fuel; intros srt classes md d l t l' HS H; [discriminate|].
  apply build_tree_step in H; auto. destruct H as (c & r & _ & [(-> & -> & _)|H]).
  { constructor; auto. apply counts_of_counts. }
  destruct H as (_ & _ & _ & ls & pos & f & thr & gs & lt & ll & rt & lr & _ & P & S & F & C & B & E1 & E2 & -> & ->).
  apply IHfuel in E1, E2; auto. destruct (boundary_nonempty _ _ _ B).
  apply (part_inner classes l (firstn pos ls) (skipn pos ls)); auto.
  - apply counts_of_counts.
  - rewrite firstn_skipn. auto.
  - intros x y Hx Hy. eapply boundary_lt; eauto.
Qed.

Lemma tree_depth_node g n c f thr l r cs m : -1 <= m -> tree_depth l <= m -> tree_depth r <= m ->
  tree_depth (Node g n c f thr l r cs) <= m + 1.
Proof.
  intros Hm A B. cbn [tree_depth]. destruct l, r; try lia.
Qed.

Lemma build_tree_depth fuel : forall srt classes md d l t l', sorter_ok srt ->
  build_tree fuel srt classes md d l = Ok (t, l') -> tree_depth t <= Z.max 0 (md - d).
Proof.
  induction fuel; intros srt classes md d l t l' HS H; [discriminate|].
  apply build_tree_step in H; auto. destruct H as (c & r & _ & [(-> & -> & _)|H]).
  { cbn. lia. }
  destruct H as (D & _ & _ & ls & pos & f & thr & gs & lt & ll & rt & lr & _ & P & S & F & C & B & E1 & E2 & -> & ->).
  apply IHfuel in E1, E2; auto.
  replace (Z.max 0 (md - d)) with (Z.max 0 (md - (d + 1)) + 1) by lia.
  apply tree_depth_node; lia.
Qed.

(** C20. *)
Lemma train_partition srt t features responses t' : sorter_ok srt -> 0 <= t_max_depth t ->
  dt_train srt t features responses = Ok t' ->
  partition_tree (t_classes t') (combine features responses) (t_root t') /\
  tree_depth (t_root t') <= t_max_depth t /\ t_max_depth t' = t_max_depth t /\
  Permutation (combine features responses) (t_data t').
Proof.
  intros HS Hd. unfold dt_train. destruct features as [|f0 fs] eqn:Ef; [discriminate|]. rewrite <- Ef.
  destruct (Nat.leb _ _); [|discriminate]. cbn [negb]. intros H. apply bind_inv in H.
  destruct H as ([root data] & E & H). inversion H; subst t'; clear H. cbn.
  split; [|split; [|split]]; auto.
  - eapply build_tree_partition; eauto.
  - apply build_tree_depth in E; auto. lia.
  - eapply build_tree_data; eauto.
Qed.

(** C22: labels. *)
Lemma build_tree_labels fuel : forall srt classes md d l t l', sorter_ok srt ->
  build_tree fuel srt classes md d l = Ok (t, l') ->
  exists c r, classes = c :: r /\ Forall (eq c) (labels t) /\ t <> Null.
Proof.
  induction fuel; intros srt classes md d l t l' HS H; [discriminate|].
  apply build_tree_step in H; auto. destruct H as (c & r & Ec & [(-> & -> & _)|H]).
  { exists c, r. split; [|split]; auto; [repeat constructor|discriminate]. }
  destruct H as (D & _ & _ & ls & pos & f & thr & gs & lt & ll & rt & lr & _ & P & S & F & C & B & E1 & E2 & -> & ->).
  apply IHfuel in E1, E2; auto. destruct E1 as (c1 & r1 & EE1 & F1 & _), E2 as (c2 & r2 & EE2 & F2 & _).
  exists c, r. split; [|split]; auto; [|discriminate]. cbn [labels].
  rewrite Ec in EE1, EE2. inversion EE1; inversion EE2; subst. constructor; auto. apply Forall_app; auto.
Qed.

Lemma evaluate_label t x v : evaluate t x = Ok v -> In v (labels t).
Proof.
  revert v. induction t as [|g n c f thr l IHl r IHr cs]; intros v H; cbn [evaluate] in H; [discriminate|].
  cbn [labels]. destruct (f =? -1). { inversion H; left; auto. }
  apply bind_inv in H. destruct H as (y & _ & H). destruct (lt32 y thr).
  - destruct l; [inversion H; left; auto|]. right. apply in_or_app. left. apply IHl; auto.
  - destruct r; [inversion H; left; auto|]. right. apply in_or_app. right. apply IHr; auto.
Qed.

(** Feature indices are below [k]. *)
Fixpoint indices_below (k : Z) (t : tree) : Prop :=
  match t with
  | Null => True
  | Node _ _ _ f _ l r _ => (f = -1 \/ 0 <= f < k) /\ indices_below k l /\ indices_below k r
  end.

Lemma evaluate_defined k t x : indices_below k t -> t <> Null -> k <= Z.of_nat (length x) ->
  exists v, evaluate t x = Ok v.
Proof.
  induction t as [|g n c f thr l IHl r IHr cs]; intros H N L; [congruence|]. cbn [evaluate].
  destruct H as (Hf & Hl & Hr). destruct (Z.eqb_spec f (-1)); [eauto|].
  destruct Hf as [|Hf]; [congruence|].
  unfold vec_get. replace (f <? 0) with false by lia.
  destruct (nth_error x (Z.to_nat f)) eqn:E.
  2:{ apply nth_error_None in E. lia. }
  cbn [bind]. destruct (lt32 _ _).
  - destruct l; eauto. apply IHl; auto. discriminate.
  - destruct r; eauto. apply IHr; auto. discriminate.
Qed.

Lemma scan_features_index srt classes k : forall fs l b l' b',
  Forall (fun f => f < k)%nat fs -> (snd (fst b) < k)%nat ->
  scan_features srt classes fs l b = Ok (l', b') -> (snd (fst b') < k)%nat.
Proof.
  induction fs as [|f fs IH]; intros l b l' b' F Hb H; cbn [scan_features] in H.
  - inversion H; subst; auto.
  - inversion F; subst. apply bind_inv in H. destruct H as (l1 & _ & H).
    eapply IH; [auto| |exact H]. clear - Hb H2. unfold scan_feature.
    revert b Hb. generalize (seq 1 (length l1 - 1)). induction l as [|i is IH]; intros b Hb; cbn [fold_left]; auto.
    apply IH. destruct b as [[[g p] f0] th]. cbn in Hb. unfold try_split.
    destruct (eq32 _ _); auto. destruct (le32 g _); auto.
Qed.

Lemma build_tree_indices fuel : forall srt classes md d l t l' k, sorter_ok srt ->
  Forall (fun s => length (fst s) <= k)%nat l ->
  build_tree fuel srt classes md d l = Ok (t, l') -> indices_below (Z.of_nat k) t.
Proof.
  induction fuel; intros srt classes md d l t l' k HS U H; [discriminate|].
  apply build_tree_step in H; auto. destruct H as (c & r & Ec & [(-> & -> & _)|H]).
  { cbn. auto. }
  destruct H as (D & NE & _ & ls & pos & f & thr & gs & lt & ll & rt & lr & _ & P & S & F & C & B & E1 & E2 & -> & ->).
  assert (U' : Forall (fun s => length (fst s) <= k)%nat ls) by (eapply Permutation_Forall; eauto).
  assert (Hf : (f < k)%nat).
  { destruct ls as [|s ls]. { apply Permutation_sym, Permutation_nil in P. congruence. }
    inversion F as [|? ? [K _] ?]; inversion U'; subst. lia. }
  rewrite <- (firstn_skipn pos ls) in U'. apply Forall_app in U'. destruct U' as [U1 U2].
  cbn [indices_below]. split; [right; lia|].
  split; [eapply (IHfuel srt classes md (d + 1) (firstn pos ls))|eapply (IHfuel srt classes md (d + 1) (skipn pos ls))]; eassumption.
Qed.
