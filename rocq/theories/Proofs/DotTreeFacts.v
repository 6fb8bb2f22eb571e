From Coq Require Import List ZArith Bool Ascii String Lia Permutation.
From Verif Require Import Model.Base Model.Decimal Model.DotM Spec.DotSpec Proofs.TreeFacts Proofs.DecimalInt Proofs.DotFacts.
From Coq Require Import List.
Import ListNotations.

Section YInd.
Variable P : ynode -> Prop.
Hypothesis H : forall b l r, (forall x, l = Some x -> P x) -> (forall x, r = Some x -> P x) -> P (YNode b l r).
Fixpoint ynode_rect' (t : ynode) : P t :=
  match t with
  | YNode b l r => H b l r
      (match l as l0 return forall x, l0 = Some x -> P x with
       | Some y => fun x E => eq_ind y P (ynode_rect' y) x (f_equal (fun o => match o with Some z => z | None => y end) E)
       | None => fun x E => match E in _ = o return match o with Some _ => P x | None => True end with eq_refl => I end
       end)
      (match r as r0 return forall x, r0 = Some x -> P x with
       | Some y => fun x E => eq_ind y P (ynode_rect' y) x (f_equal (fun o => match o with Some z => z | None => y end) E)
       | None => fun x E => match E in _ = o return match o with Some _ => P x | None => True end with eq_refl => I end
       end)
  end.
End YInd.

Lemma way_cons base s w : way_name base (s :: w) = way_name (base ++ side_name s) w.
Proof. unfold way_name. cbn [map List.concat]. rewrite <- app_assoc. reflexivity. Qed.
Lemma way_nil base : way_name base [] = base.
Proof. apply app_nil_r. Qed.
Lemma way_inj base w : forall w', way_name base w = way_name base w' -> w = w'.
Proof.
  unfold way_name. intros w' E. apply app_inv_head in E. revert w' E. induction w as [|s w IH]; intros [|s' w'] E.
  - reflexivity.
  - destruct s'; discriminate E.
  - destruct s; discriminate E.
  - destruct s, s'; try discriminate E; cbn [map List.concat side_name] in E; apply app_inv_head in E; f_equal; apply IH; exact E.
Qed.

Lemma node_labels t : forall name n b, In (n, b) (labels (dot_node t name)) <-> exists w t', place t w = Some t' /\ n = way_name name w /\ b = ylabel t'.
Proof.
  induction t as [c l r IHl IHr] using ynode_rect'. intros name n b.
  assert (L : In (n, b) (labels match l with Some x => dot_node x (name ++ $"_left") ++ [AnEdge name (name ++ $"_left")] | None => [] end) <->
    exists w t', place (YNode c l r) (ToLeft :: w) = Some t' /\ n = way_name name (ToLeft :: w) /\ b = ylabel t').
  { destruct l as [x|]; [|split; [contradiction|intros (w & t' & E & _); discriminate E]]. rewrite labels_app. cbn [labels flat_map app]. rewrite app_nil_r.
    fold (labels (dot_node x (name ++ $"_left"))). rewrite (IHl x eq_refl). cbn [place].
    split; intros (w & t' & X & -> & Z); exists w, t'; (split; [exact X|]; split; [|exact Z]); [symmetry|]; apply way_cons. }
  assert (R : In (n, b) (labels match r with Some x => dot_node x (name ++ $"_right") ++ [AnEdge name (name ++ $"_right")] | None => [] end) <->
    exists w t', place (YNode c l r) (ToRight :: w) = Some t' /\ n = way_name name (ToRight :: w) /\ b = ylabel t').
  { destruct r as [x|]; [|split; [contradiction|intros (w & t' & E & _); destruct l; discriminate E]]. rewrite labels_app. cbn [labels flat_map app]. rewrite app_nil_r.
    fold (labels (dot_node x (name ++ $"_right"))). rewrite (IHr x eq_refl). 
    split; intros (w & t' & X & -> & Z); exists w, t'; (split; [destruct l; exact X|]; split; [|exact Z]); [symmetry|]; apply way_cons. }
  cbn [dot_node]. unfold labels. cbn [flat_map]. rewrite flat_map_app. cbn [app In]. rewrite in_app_iff. unfold labels in L, R. rewrite L, R. split.
  - intros [H|[(w & t' & X)|(w & t' & X)]].
    + injection H as <- <-. exists [], (YNode c l r). rewrite way_nil. repeat split.
    + exists (ToLeft :: w), t'. exact X.
    + exists (ToRight :: w), t'. exact X.
  - intros ([|[|] w] & t' & X & Y & Z).
    + left. injection X as <-. subst. rewrite way_nil. reflexivity.
    + right. left. exists w, t'. auto.
    + right. right. exists w, t'. auto.
Qed.

Lemma node_edges t : forall name a b, In (a, b) (drawn_edges (dot_node t name)) <->
  exists w s t', place t (w ++ [s]) = Some t' /\ a = way_name name w /\ b = way_name name (w ++ [s]).
Proof.
  induction t as [c l r IHl IHr] using ynode_rect'. intros name a b.
  assert (L : In (a, b) (drawn_edges match l with Some x => dot_node x (name ++ $"_left") ++ [AnEdge name (name ++ $"_left")] | None => [] end) <->
    exists w s t', place (YNode c l r) (w ++ [s]) = Some t' /\ hd_error (w ++ [s]) = Some ToLeft /\ a = way_name name w /\ b = way_name name (w ++ [s])).
  { destruct l as [x|].
    - rewrite drawn_app. cbn [drawn_edges flat_map app]. fold (drawn_edges (dot_node x (name ++ $"_left"))). rewrite in_app_iff, (IHl x eq_refl). split.
      + intros [(w & s & t' & X & -> & ->)|[E|[]]].
        * exists (ToLeft :: w), s, t'. rewrite <- app_comm_cons, !way_cons. split; [exact X|repeat split].
        * injection E as <- <-. exists [], ToLeft, x. cbn [app]. rewrite way_cons, !way_nil. split; [destruct x; reflexivity|repeat split].
      + intros ([|s0 w] & s & t' & X & Y & -> & ->).
        * right. left. cbn [app hd_error] in Y. injection Y as ->. cbn [app]. rewrite way_cons, !way_nil. reflexivity.
        * left. cbn [app hd_error] in Y. injection Y as ->. exists w, s, t'. rewrite <- app_comm_cons, !way_cons. split; [exact X|repeat split].
    - split; [contradiction|]. intros ([|s0 w] & s & t' & X & Y & _); cbn [app hd_error] in Y; injection Y as ->; discriminate X. }
  assert (R : In (a, b) (drawn_edges match r with Some x => dot_node x (name ++ $"_right") ++ [AnEdge name (name ++ $"_right")] | None => [] end) <->
    exists w s t', place (YNode c l r) (w ++ [s]) = Some t' /\ hd_error (w ++ [s]) = Some ToRight /\ a = way_name name w /\ b = way_name name (w ++ [s])).
  { destruct r as [x|].
    - rewrite drawn_app. cbn [drawn_edges flat_map app]. fold (drawn_edges (dot_node x (name ++ $"_right"))). rewrite in_app_iff, (IHr x eq_refl). split.
      + intros [(w & s & t' & X & -> & ->)|[E|[]]].
        * exists (ToRight :: w), s, t'. rewrite <- app_comm_cons, !way_cons. split; [destruct l; exact X|repeat split].
        * injection E as <- <-. exists [], ToRight, x. cbn [app]. rewrite way_cons, !way_nil. split; [destruct l, x; reflexivity|repeat split].
      + intros ([|s0 w] & s & t' & X & Y & -> & ->).
        * right. left. cbn [app hd_error] in Y. injection Y as ->. cbn [app]. rewrite way_cons, !way_nil. reflexivity.
        * left. cbn [app hd_error] in Y. injection Y as ->. exists w, s, t'. rewrite <- app_comm_cons, !way_cons. split; [destruct l; exact X|repeat split].
    - split; [contradiction|]. intros ([|s0 w] & s & t' & X & Y & _); cbn [app hd_error] in Y; injection Y as ->; destruct l; discriminate X. }
  cbn [dot_node]. unfold drawn_edges. cbn [flat_map app]. rewrite flat_map_app, in_app_iff. unfold drawn_edges in L, R. rewrite L, R. split.
  - intros [(w & s & t' & X & _ & Z)|(w & s & t' & X & _ & Z)]; exists w, s, t'; auto.
  - intros (w & s & t' & X & Z). destruct (hd_error (w ++ [s])) as [[|]|] eqn:Y.
    + left. exists w, s, t'. auto.
    + right. exists w, s, t'. auto.
    + destruct w; discriminate Y.
Qed.

Definition names_of (l : list statement) : list bytes := map fst (labels l).
Lemma names_app a b : names_of (a ++ b) = names_of a ++ names_of b.
Proof. unfold names_of. rewrite labels_app, map_app. reflexivity. Qed.
Lemma node_names_iff t name n : In n (names_of (dot_node t name)) <-> exists w t', place t w = Some t' /\ n = way_name name w.
Proof.
  unfold names_of. rewrite in_map_iff. split.
  - intros ((n' & b) & <- & I). apply node_labels in I as (w & t' & A & B & _). exists w, t'. auto.
  - intros (w & t' & A & B). exists (n, ylabel t'). split; [reflexivity|]. apply node_labels. exists w, t'. auto.
Qed.
Lemma node_NoDup t : forall name, NoDup (names_of (dot_node t name)).
Proof.
  induction t as [c l r IHl IHr] using ynode_rect'. intros name. cbn [dot_node].
  change (ANode name c :: ?k) with ([ANode name c] ++ k). rewrite !names_app.
  assert (PL : forall x n, l = Some x -> In n (names_of (dot_node x (name ++ $"_left"))) -> exists w, n = way_name name (ToLeft :: w)).
  { intros x n _ I. apply node_names_iff in I as (w & t' & _ & ->). exists w. symmetry. apply way_cons. }
  assert (PR : forall x n, r = Some x -> In n (names_of (dot_node x (name ++ $"_right"))) -> exists w, n = way_name name (ToRight :: w)).
  { intros x n _ I. apply node_names_iff in I as (w & t' & _ & ->). exists w. symmetry. apply way_cons. }
  assert (QL : forall n, In n (names_of match l with Some x => dot_node x (name ++ $"_left") ++ [AnEdge name (name ++ $"_left")] | None => [] end) -> exists w, n = way_name name (ToLeft :: w)).
  { intros n I. destruct l as [x|]; [|contradiction]. rewrite names_app, in_app_iff in I. destruct I as [I|[]]. exact (PL x n eq_refl I). }
  assert (QR : forall n, In n (names_of match r with Some x => dot_node x (name ++ $"_right") ++ [AnEdge name (name ++ $"_right")] | None => [] end) -> exists w, n = way_name name (ToRight :: w)).
  { intros n I. destruct r as [x|]; [|contradiction]. rewrite names_app, in_app_iff in I. destruct I as [I|[]]. exact (PR x n eq_refl I). }
  apply NoDup_app_intro; [repeat constructor; intros []| |].
  - apply NoDup_app_intro.
    + destruct l as [x|]; [|constructor]. rewrite names_app. cbn. rewrite app_nil_r. apply (IHl x eq_refl).
    + destruct r as [x|]; [|constructor]. rewrite names_app. cbn. rewrite app_nil_r. apply (IHr x eq_refl).
    + intros n I J. apply QL in I as (w & ->). apply QR in J as (w' & E). apply way_inj in E. discriminate E.
  - intros n [<-|[]] I. cbn [fst] in I. apply in_app_iff in I as [I|I]; [apply QL in I as (w & E)|apply QR in I as (w & E)];
      rewrite <- (way_nil name) in E at 1; apply way_inj in E; discriminate E.
Qed.
Lemma node_targets t : forall name, Permutation (names_of (dot_node t name)) (name :: map snd (drawn_edges (dot_node t name))).
Proof.
  induction t as [c l r IHl IHr] using ynode_rect'. intros name. cbn [dot_node].
  assert (Q : forall x n, Permutation (names_of (dot_node x n)) (n :: map snd (drawn_edges (dot_node x n))) ->
    Permutation (names_of (dot_node x n ++ [AnEdge name n])) (map snd (drawn_edges (dot_node x n ++ [AnEdge name n])))).
  { intros x n P. rewrite names_app, drawn_app, map_app. cbn. rewrite app_nil_r. etransitivity; [exact P|]. apply Permutation_cons_append. }
  change (ANode name c :: ?k) with ([ANode name c] ++ k). rewrite !names_app, !drawn_app, !map_app.
  change (names_of [ANode name c]) with [name]. change (map snd (drawn_edges [ANode name c])) with (@nil bytes). cbn [app]. apply (Permutation_cons eq_refl). apply Permutation_app.
  - destruct l as [x|]; [|constructor]. apply Q, (IHl x eq_refl).
  - destruct r as [x|]; [|constructor]. apply Q, (IHr x eq_refl).
Qed.

(** *** A tree and its head *)
Lemma tree_labels tr name n b : In (n, b) (labels (dot_tree tr name)) <->
  (n = name /\ b = fst tr) \/ exists w t', place (snd tr) w = Some t' /\ n = way_name (name ++ $"_root") w /\ b = ylabel t'.
Proof.
  unfold dot_tree. change (ANode name (fst tr) :: ?k) with ([ANode name (fst tr)] ++ k). rewrite !labels_app, !in_app_iff, node_labels. cbn. split.
  - intros [[E|[]]|[X|[]]]; [injection E as <- <-; auto|auto].
  - intros [[-> ->]|X]; auto.
Qed.
Lemma tree_edges tr name a b : In (a, b) (drawn_edges (dot_tree tr name)) <->
  (a = name /\ b = name ++ $"_root") \/ exists w s t', place (snd tr) (w ++ [s]) = Some t' /\ a = way_name (name ++ $"_root") w /\ b = way_name (name ++ $"_root") (w ++ [s]).
Proof.
  unfold dot_tree. change (ANode name (fst tr) :: ?k) with ([ANode name (fst tr)] ++ k). rewrite !drawn_app, !in_app_iff, node_edges. cbn. split.
  - intros [[]|[X|[E|[]]]]; [auto|injection E as <- <-; auto].
  - intros [[-> ->]|X]; auto.
Qed.
Lemma tree_NoDup tr name : NoDup (names_of (dot_tree tr name)).
Proof.
  unfold dot_tree. change (ANode name (fst tr) :: ?k) with ([ANode name (fst tr)] ++ k). rewrite !names_app. cbn [names_of labels flat_map map app fst]. rewrite app_nil_r. constructor; [|apply node_NoDup].
  intros I. apply node_names_iff in I as (w & t' & _ & E). unfold way_name in E. rewrite <- app_assoc in E. rewrite <- (app_nil_r name) in E at 1. apply app_inv_head in E. discriminate E.
Qed.
Lemma tree_targets tr name : Permutation (names_of (dot_tree tr name)) (name :: map snd (drawn_edges (dot_tree tr name))).
Proof.
  unfold dot_tree. change (ANode name (fst tr) :: ?k) with ([ANode name (fst tr)] ++ k). rewrite !names_app, !drawn_app, !map_app. cbn [names_of labels drawn_edges flat_map map app fst snd]. rewrite app_nil_r.
  constructor. etransitivity; [apply node_targets|]. apply Permutation_cons_append.
Qed.

(** *** Forests *)
Definition head_name (i : Z) : bytes := $"tree_" ++ print_Z i.
Fixpoint forest_of (trees : list (bytes * ynode)) (i : Z) : list statement :=
  match trees with [] => [] | t :: rest => dot_tree t (head_name i) ++ [AnEdge ($"rfc") (head_name i)] ++ forest_of rest (i + 1) end.
Lemma dot_trees_eq trees : forall i n, dot_trees trees i n = if (n <=? List.length trees)%nat then Ok (forest_of (firstn n trees) i) else Throw.
Proof.
  induction trees as [|t trees IH]; intros i [|n]; try reflexivity. cbn [dot_trees List.length]. rewrite IH. cbn [Nat.leb]. destruct (n <=? List.length trees)%nat; reflexivity.
Qed.

Definition nth_tree (ts : list (bytes * ynode)) (r0 r : Z) (t : bytes * ynode) : Prop := exists k, r = (r0 + Z.of_nat k)%Z /\ nth_error ts k = Some t.
Lemma nth_tree_cons t0 ts r0 r t : nth_tree (t0 :: ts) r0 r t <-> (r = r0 /\ t = t0) \/ nth_tree ts (r0 + 1) r t.
Proof.
  split.
  - intros ([|k] & -> & H); [left; injection H as ->; split; [lia|reflexivity]|right; exists k; split; [lia|exact H]].
  - intros [[-> ->]|(k & -> & H)]; [exists 0%nat; split; [lia|reflexivity]|exists (S k); split; [lia|exact H]].
Qed.
Lemma forest_of_labels ts : forall r0 n b, In (n, b) (labels (forest_of ts r0)) <-> exists r t, nth_tree ts r0 r t /\
  ((n = head_name r /\ b = fst t) \/ exists w t', place (snd t) w = Some t' /\ n = way_name (head_name r ++ $"_root") w /\ b = ylabel t').
Proof.
  induction ts as [|t0 ts IH]; intros r0 n b.
  - split; [contradiction|]. intros (r & t & (k & _ & H) & _). destruct k; discriminate H.
  - cbn [forest_of]. rewrite !labels_app, in_app_iff, tree_labels. cbn [labels flat_map app]. fold (labels (forest_of ts (r0 + 1))). rewrite IH. split.
    + intros [X|(r & t & N & X)]; [exists r0, t0|exists r, t]; rewrite nth_tree_cons; auto.
    + intros (r & t & N & X). apply nth_tree_cons in N as [[-> ->]|N]; [left; exact X|right; exists r, t; auto].
Qed.
Lemma forest_of_edges ts : forall r0 a b, In (a, b) (drawn_edges (forest_of ts r0)) <-> exists r t, nth_tree ts r0 r t /\
  ((a = $"rfc" /\ b = head_name r) \/ (a = head_name r /\ b = head_name r ++ $"_root") \/
   exists w s t', place (snd t) (w ++ [s]) = Some t' /\ a = way_name (head_name r ++ $"_root") w /\ b = way_name (head_name r ++ $"_root") (w ++ [s])).
Proof.
  induction ts as [|t0 ts IH]; intros r0 a b.
  - split; [contradiction|]. intros (r & t & (k & _ & H) & _). destruct k; discriminate H.
  - cbn [forest_of]. rewrite !drawn_app, in_app_iff, tree_edges. cbn [drawn_edges flat_map app In]. fold (drawn_edges (forest_of ts (r0 + 1))). rewrite IH. split.
    + intros [X|[E|(r & t & N & X)]]; [exists r0, t0|exists r0, t0|exists r, t]; rewrite nth_tree_cons; (split; [auto|]); [auto|injection E as <- <-; auto|exact X].
    + intros (r & t & N & X). apply nth_tree_cons in N as [[-> ->]|N]; [|right; right; exists r, t; auto]. destruct X as [[-> ->]|X]; [right; left; reflexivity|left; exact X].
Qed.
Lemma tail_free r n t : In n (names_of (dot_tree t (head_name r))) -> exists x, n = head_name r ++ x /\ no_digit_head x.
Proof.
  unfold names_of. rewrite in_map_iff. intros ((n' & b) & <- & I). cbn [fst]. apply tree_labels in I as [[-> _]|(w & t' & _ & -> & _)].
  - exists []. split; [symmetry; apply app_nil_r|exact Logic.I].
  - exists ($"_root" ++ List.concat (map side_name w)). unfold way_name. rewrite <- app_assoc. split; reflexivity.
Qed.
Lemma names_from ts : forall r0 n, In n (names_of (forest_of ts r0)) -> exists r x, n = head_name r ++ x /\ no_digit_head x /\ (r0 <= r)%Z.
Proof.
  induction ts as [|t ts IH]; intros r0 n I; [contradiction|]. cbn [forest_of] in I. rewrite !names_app in I. rewrite in_app_iff in I. destruct I as [I|I].
  - apply tail_free in I as (x & A & B). exists r0, x. repeat split; [exact A|exact B|lia].
  - cbn [names_of labels flat_map map app] in I. apply IH in I as (r & x & A & B & C). exists r, x. repeat split; [exact A|exact B|lia].
Qed.
Lemma head_cut r r' x x' : no_digit_head x -> no_digit_head x' -> head_name r ++ x = head_name r' ++ x' -> r = r' /\ x = x'.
Proof. intros A B E. unfold head_name in E. rewrite <- !app_assoc in E. apply app_inv_head in E. apply print_Z_cut in E; assumption. Qed.
Lemma forest_of_NoDup ts : forall r0, NoDup (names_of (forest_of ts r0)).
Proof.
  induction ts as [|t ts IH]; intros r0; [constructor|]. cbn [forest_of]. rewrite !names_app. cbn [names_of labels flat_map map app]. fold (labels (forest_of ts (r0 + 1))).
  apply NoDup_app_intro; [apply tree_NoDup|apply IH|]. intros n I J. apply tail_free in I as (x & -> & A). apply names_from in J as (r & x' & E & B & C). apply head_cut in E as [-> _]; [lia|assumption|assumption].
Qed.
Lemma forest_of_targets ts : forall r0, Permutation (names_of (forest_of ts r0)) (map snd (drawn_edges (forest_of ts r0))).
Proof.
  induction ts as [|t ts IH]; intros r0; [constructor|]. cbn [forest_of]. rewrite !names_app, !drawn_app, !map_app. cbn [names_of labels drawn_edges flat_map map app snd].
  fold (labels (forest_of ts (r0 + 1))). fold (drawn_edges (forest_of ts (r0 + 1))). fold (names_of (dot_tree t (head_name r0))). fold (names_of (forest_of ts (r0 + 1))).
  etransitivity; [apply Permutation_app; [apply tree_targets|apply IH]|]. cbn [app]. apply Permutation_middle.
Qed.

Theorem tree_picture tr name l : dot_tree tr name = l ->
  NoDup (node_names l) /\
  (forall n b, In (n, b) (labels l) <-> (n = name /\ b = fst tr) \/
     exists w t', place (snd tr) w = Some t' /\ n = way_name (name ++ $"_root") w /\ b = ylabel t') /\
  (forall a b, In (a, b) (drawn_edges l) <-> (a = name /\ b = name ++ $"_root") \/
     exists w s t', place (snd tr) (w ++ [s]) = Some t' /\ a = way_name (name ++ $"_root") w /\ b = way_name (name ++ $"_root") (w ++ [s])) /\
  Permutation (node_names l) (name :: map snd (drawn_edges l)).
Proof.
  intros <-. rewrite names_labels. split; [apply tree_NoDup|]. split; [intros; apply tree_labels|]. split; [intros; apply tree_edges|apply tree_targets].
Qed.

Theorem forest_picture label num trees l : dot_rfc label num trees = Ok l ->
  (num <= List.length trees)%nat /\
  NoDup (node_names l) /\
  (forall n b, In (n, b) (labels l) <-> (n = $"rfc" /\ b = label) \/
     exists r t, (r < num)%nat /\ nth_error trees r = Some t /\
       ((n = $"tree_" ++ print_Z (Z.of_nat r) /\ b = fst t) \/
        exists w t', place (snd t) w = Some t' /\ n = way_name ($"tree_" ++ print_Z (Z.of_nat r) ++ $"_root") w /\ b = ylabel t')) /\
  (forall a b, In (a, b) (drawn_edges l) <->
     exists r t, (r < num)%nat /\ nth_error trees r = Some t /\
       ((a = $"rfc" /\ b = $"tree_" ++ print_Z (Z.of_nat r)) \/
        (a = $"tree_" ++ print_Z (Z.of_nat r) /\ b = $"tree_" ++ print_Z (Z.of_nat r) ++ $"_root") \/
        exists w s t', place (snd t) (w ++ [s]) = Some t' /\ a = way_name ($"tree_" ++ print_Z (Z.of_nat r) ++ $"_root") w /\
          b = way_name ($"tree_" ++ print_Z (Z.of_nat r) ++ $"_root") (w ++ [s]))) /\
  Permutation (node_names l) ($"rfc" :: map snd (drawn_edges l)).
Proof.
  unfold dot_rfc. rewrite dot_trees_eq. destruct (Nat.leb_spec num (List.length trees)) as [LE|]; [|discriminate]. cbn [bind]. intros E. injection E as <-. split; [exact LE|].
  set (ts := firstn num trees).
  assert (N : forall r t, nth_tree ts 0 r t <-> exists k, r = Z.of_nat k /\ (k < num)%nat /\ nth_error trees k = Some t).
  { assert (FN : forall k, (k < num)%nat -> nth_error ts k = nth_error trees k).
    { unfold ts. clear. revert trees. induction num as [|m IH]; intros [|x l] k L; try lia; destruct k; try reflexivity. cbn. apply IH. lia. }
    intros r t. split.
    - intros (k & -> & H). assert (K : (k < num)%nat). { assert (X : (k < List.length ts)%nat) by (apply nth_error_Some; congruence). unfold ts in X. rewrite firstn_length in X. lia. }
      exists k. rewrite <- FN by exact K. split; [lia|]. split; [exact K|exact H].
    - intros (k & -> & L & H). exists k. split; [lia|]. rewrite FN by exact L. exact H. }
  assert (HN : forall k, $"tree_" ++ print_Z (Z.of_nat k) ++ $"_root" = head_name (Z.of_nat k) ++ $"_root") by (intros; unfold head_name; rewrite <- app_assoc; reflexivity).
  rewrite names_labels. unfold labels, drawn_edges. cbn [flat_map app map fst]. fold (labels (forest_of ts 0)). fold (drawn_edges (forest_of ts 0)). fold (names_of (forest_of ts 0)). split; [|split; [|split]].
  - constructor; [|apply forest_of_NoDup]. intros I. apply names_from in I as (r & x & E & _). discriminate E.
  - intros n b. cbn [In]. rewrite forest_of_labels. split.
    + intros [E|(r & t & T & X)]; [injection E as <- <-; auto|]. right. apply N in T as (k & -> & L & T). exists k, t. rewrite HN. auto.
    + intros [[-> ->]|(k & t & L & T & X)]; [auto|]. right. exists (Z.of_nat k), t. rewrite HN in X. split; [apply N; exists k; auto|exact X].
  - intros a b. rewrite forest_of_edges. split.
    + intros (r & t & T & X). apply N in T as (k & -> & L & T). exists k, t. rewrite HN. auto.
    + intros (k & t & L & T & X). exists (Z.of_nat k), t. rewrite HN in X. split; [apply N; exists k; auto|exact X].
  - constructor. apply forest_of_targets.
Qed.
Theorem forest_complete label num trees : (num <= List.length trees)%nat -> exists l, dot_rfc label num trees = Ok l.
Proof. intros L. unfold dot_rfc. rewrite dot_trees_eq. apply Nat.leb_le in L. rewrite L. eexists. reflexivity. Qed.
