From Coq Require Import List ZArith Bool Ascii String Lia.
From Verif Require Import Model.Base Model.Decimal Model.DotM Spec.DotSpec Proofs.TreeFacts Proofs.DecimalInt.
From Coq Require Import List.
Import ListNotations.
Open Scope Z_scope.

(** *** Names *)
Lemma print_Z_cut z z' t t' : no_digit_head t -> no_digit_head t' -> print_Z z ++ t = print_Z z' ++ t' -> z = z' /\ t = t'.
Proof.
  intros N N'. unfold print_Z.
  assert (P : forall a b, 0 <= a -> 0 <= b -> print_nonneg a ++ t = print_nonneg b ++ t' -> a = b /\ t = t').
  { intros a b A B E. assert (S1 := span_digits_app (print_nonneg a) t (print_nonneg_digits a) N).
    assert (S2 := span_digits_app (print_nonneg b) t' (print_nonneg_digits b) N'). rewrite E, S2 in S1. injection S1 as E1 E2.
    split; [|congruence]. rewrite <- (print_nonneg_val a A), <- (print_nonneg_val b B). congruence. }
  assert (Q : forall a l, 0 <= a -> print_nonneg a ++ t = "-"%char :: l -> False).
  { intros a l A E. assert (D := print_nonneg_digits a). assert (NE := print_nonneg_nonempty a A). destruct (print_nonneg a) as [|c w]; [contradiction|].
    injection E as -> _. inversion D as [|? ? H _]. discriminate H. }
  assert (Q' : forall a l, 0 <= a -> "-"%char :: l = print_nonneg a ++ t' -> False).
  { intros a l A E. assert (D := print_nonneg_digits a). assert (NE := print_nonneg_nonempty a A). destruct (print_nonneg a) as [|c w]; [contradiction|].
    injection E as <- _. inversion D as [|? ? H _]. discriminate H. }
  destruct (Z.ltb_spec z 0), (Z.ltb_spec z' 0); intros E.
  - injection E as E. apply P in E; lia || (split; [lia|tauto]).
  - exfalso. cbn [app] in E. exact (Q' z' _ ltac:(lia) E).
  - exfalso. cbn [app] in E. exact (Q z _ ltac:(lia) E).
  - apply P; assumption.
Qed.
Lemma app_same {A} (p a b : list A) : p ++ a = p ++ b -> a = b.
Proof. apply app_inv_head. Qed.

Lemma tree_name_inj r d i r' d' i' : tree_name r d i = tree_name r' d' i' -> r = r' /\ d = d' /\ i = i'.
Proof.
  unfold tree_name. intros E. apply app_same in E. apply print_Z_cut in E as [-> E]; [|reflexivity|reflexivity].
  apply app_same in E. apply print_Z_cut in E as [-> E]; [|reflexivity|reflexivity]. apply app_same in E.
  rewrite <- (app_nil_r (print_Z i)), <- (app_nil_r (print_Z i')) in E. apply print_Z_cut in E as [-> _]; [auto|reflexivity|reflexivity].
Qed.
Lemma tree_name_root r d i : tree_name r d i <> $"root".
Proof. discriminate. Qed.

(** *** The loop over the nodes *)
Lemma count_pos t : 1 <= count t.
Proof. induction t; cbn [count]; lia. Qed.
Lemma stored_count d t : Z.of_nat (List.length (stored d t)) = count t.
Proof. revert d. induction t as [b|b l IHl r IHr]; intros d; [reflexivity|]. cbn [stored List.length count]. rewrite app_length. specialize (IHl (d + 1)). specialize (IHr (d + 1)). lia. Qed.

Definition E (tid d i d' i' : Z) : statement := AnEdge (tree_name tid d i) (tree_name tid d' i').
Fixpoint edges_in (tid d i : Z) (t : shape) : list statement :=
  match t with
  | Tip _ => []
  | Fork _ l r => E tid d i (d + 1) (i + 1) :: edges_in tid (d + 1) (i + 1) l ++ E tid d i (d + 1) (i + 1 + count l) :: edges_in tid (d + 1) (i + 1 + count l) r
  end.

Lemma pop_junk d junk p pd S : Forall (fun x => d <= snd x) junk -> pd < d -> pop_until d (junk ++ (p, pd) :: S) = Ok ((p, pd), S).
Proof.
  intros F L. induction F as [|[j e] junk H Hs IH]; cbn [app pop_until].
  - destruct (Z.leb_spec d pd); [lia|reflexivity].
  - cbn [snd] in H. destruct (Z.leb_spec d e); [exact IH|lia].
Qed.

(** A part that is not the last one. *)
Lemma loop_inner tid size t : forall d i junk p pd S rest, Forall (fun x => d <= snd x) junk -> pd < d -> i + count t < size ->
  exists junk', Forall (fun x => d <= snd x) junk' /\
  edge_loop tid size i (map fst (stored d t) ++ rest) (junk ++ (p, pd) :: S) =
    (let* q := edge_loop tid size (i + count t) rest (junk' ++ (p, pd) :: S) in Ok (E tid pd p d i :: edges_in tid d i t ++ fst q, snd q)).
Proof.
  induction t as [b|b l IHl r IHr]; intros d i junk p pd S rest F L C.
  - cbn [count] in C. exists [(i, d)]. split; [constructor; [cbn; lia|constructor]|]. cbn [stored map fst app edge_loop]. rewrite pop_junk by assumption. cbn [bind].
    destruct (Z.ltb_spec i (size - 1)); [|lia]. cbn [count edges_in app]. destruct (edge_loop tid size (i + 1) rest ((i, d) :: (p, pd) :: S)) as [[es fin]| | | |]; reflexivity.
  - cbn [count] in C. cbn [stored map fst app edge_loop]. rewrite pop_junk by assumption. cbn [bind]. destruct (Z.ltb_spec i (size - 1)); [|assert (X := count_pos l); assert (Y := count_pos r); lia].
    rewrite map_app, <- app_assoc.
    destruct (IHl (d + 1) (i + 1) [] i d ((p, pd) :: S) (map fst (stored (d + 1) r) ++ rest)) as (j1 & F1 & E1); [constructor|lia|assert (Y := count_pos r); lia|].
    cbn [app] in E1. rewrite E1. clear E1.
    destruct (IHr (d + 1) (i + 1 + count l) j1 i d ((p, pd) :: S) rest) as (j2 & F2 & E2); [exact F1|lia|lia|]. rewrite E2. clear E2.
    exists (j2 ++ [(i, d)]). split.
    + apply Forall_app. split; [eapply Forall_impl; [|exact F2]; cbn; intros; lia|]. constructor; [cbn; lia|constructor].
    + rewrite <- app_assoc. cbn [app]. replace (i + count (Fork b l r)) with (i + 1 + count l + count r) by (cbn [count]; lia).
      destruct (edge_loop tid size (i + 1 + count l + count r) rest (j2 ++ (i, d) :: (p, pd) :: S)) as [[es fin]| | | |]; try reflexivity.
      cbn [bind fst snd edges_in app]. do 3 f_equal. rewrite <- !app_assoc. reflexivity.
Qed.

(** The last part: what is on top of the stack at the end. *)
Lemma loop_last tid size t : forall d i junk p pd S, Forall (fun x => d <= snd x) junk -> pd < d -> i + count t = size ->
  exists j e below, edge_loop tid size i (map fst (stored d t)) (junk ++ (p, pd) :: S) = Ok (E tid pd p d i :: edges_in tid d i t, (j, e) :: below) /\
    match t with Tip _ => (j, e) = (p, pd) | Fork _ _ _ => i <= j end.
Proof.
  induction t as [b|b l IHl r IHr]; intros d i junk p pd S F L C.
  - cbn [count] in C. exists p, pd, S. split; [|reflexivity]. cbn [stored map fst app edge_loop]. rewrite pop_junk by assumption. cbn [bind].
    destruct (Z.ltb_spec i (size - 1)); [lia|reflexivity].
  - cbn [count] in C. cbn [stored map fst app edge_loop]. rewrite pop_junk by assumption. cbn [bind]. destruct (Z.ltb_spec i (size - 1)); [|assert (X := count_pos l); assert (Y := count_pos r); lia].
    rewrite map_app.
    destruct (loop_inner tid size l (d + 1) (i + 1) [] i d ((p, pd) :: S) (map fst (stored (d + 1) r))) as (j1 & F1 & E1); [constructor|lia|assert (Y := count_pos r); lia|].
    cbn [app] in E1. rewrite E1. clear E1.
    destruct (IHr (d + 1) (i + 1 + count l) j1 i d ((p, pd) :: S)) as (j & e & below & E2 & T); [exact F1|lia|lia|]. rewrite E2. clear E2.
    exists j, e, below. split; [reflexivity|]. destruct r; [injection T as -> _; lia|assert (X := count_pos l); lia].
Qed.

Fixpoint nodes_in (tid d i : Z) (t : shape) : list statement :=
  match t with
  | Tip b => [ANode (tree_name tid d i) b]
  | Fork b l r => ANode (tree_name tid d i) b :: nodes_in tid (d + 1) (i + 1) l ++ nodes_in tid (d + 1) (i + 1 + count l) r
  end.
Lemma node_loop_app tid a : forall i b, node_loop tid i (a ++ b) = node_loop tid i a ++ node_loop tid (i + Z.of_nat (List.length a)) b.
Proof.
  induction a as [|[d x] a IH]; intros i b.
  - cbn [app node_loop List.length]. f_equal. lia.
  - cbn [app node_loop]. rewrite IH. cbn [app List.length]. do 2 f_equal. f_equal. lia.
Qed.
Lemma node_loop_stored tid t : forall d i, node_loop tid i (stored d t) = nodes_in tid d i t.
Proof.
  induction t as [b|b l IHl r IHr]; intros d i; [reflexivity|]. cbn [stored node_loop nodes_in]. f_equal. rewrite node_loop_app, IHl, stored_count, IHr. reflexivity.
Qed.

Lemma tree_parsed tid t : parse_tree tid (stored 0 t) = if ends_at_root t then Ok (nodes_in tid 0 0 t ++ edges_in tid 0 0 t) else Throw.
Proof.
  unfold parse_tree. rewrite stored_count, node_loop_stored. destruct t as [b|b l r]; [reflexivity|]. cbn [stored tl]. rewrite map_app.
  destruct (loop_inner tid (count (Fork b l r)) l (0 + 1) 1 [] 0 0 [] (map fst (stored (0 + 1) r))) as (j1 & F1 & E1); [constructor|lia|cbn [count]; assert (X := count_pos r); lia|].
  cbn [app] in E1. rewrite E1. clear E1.
  destruct (loop_last tid (count (Fork b l r)) r (0 + 1) (1 + count l) j1 0 0 []) as (j & e & below & E2 & T); [exact F1|lia|cbn [count]; lia|]. rewrite E2. clear E2.
  cbn [bind fst snd]. destruct r as [b'|b' l' r'].
  - injection T as -> ->. reflexivity.
  - cbn [ends_at_root]. destruct (Z.eqb_spec j 0); [|reflexivity]. assert (X := count_pos l). lia.
Qed.

(** *** What is drawn *)
Lemma nodes_no_edges tid t : forall d i, drawn_edges (nodes_in tid d i t) = [].
Proof. induction t as [b|b l IHl r IHr]; intros d i; [reflexivity|]. cbn [nodes_in]. unfold drawn_edges in *. cbn [flat_map app]. rewrite flat_map_app, IHl, IHr. reflexivity. Qed.
Lemma edges_no_nodes tid t : forall d i, labels (edges_in tid d i t) = [].
Proof. induction t as [b|b l IHl r IHr]; intros d i; [reflexivity|]. cbn [edges_in]. unfold labels in *. cbn [flat_map app E]. rewrite flat_map_app, IHl. cbn [flat_map app E]. apply IHr. Qed.
Lemma labels_app a b : labels (a ++ b) = labels a ++ labels b. Proof. apply flat_map_app. Qed.
Lemma drawn_app a b : drawn_edges (a ++ b) = drawn_edges a ++ drawn_edges b. Proof. apply flat_map_app. Qed.
Lemma names_labels l : node_names l = map fst (labels l).
Proof. unfold node_names, labels. induction l as [|[n b|a b] l IH]; cbn; [reflexivity|f_equal; exact IH|exact IH]. Qed.

Lemma nodes_iff tid t : forall d i n b, In (n, b) (labels (nodes_in tid d i t)) <-> exists d' i' t', part d i t d' i' t' /\ n = tree_name tid d' i' /\ b = label_of t'.
Proof.
  induction t as [b0|b0 l IHl r IHr]; intros d i n b.
  - cbn. split.
    + intros [H|[]]. injection H as <- <-. exists d, i, (Tip b0). repeat split. constructor.
    + intros (d' & i' & t' & P & -> & ->). inversion P; subst. left. reflexivity.
  - cbn [nodes_in]. unfold labels. cbn [flat_map app]. rewrite flat_map_app. fold (labels (nodes_in tid (d + 1) (i + 1) l)). fold (labels (nodes_in tid (d + 1) (i + 1 + count l) r)).
    cbn [In]. rewrite in_app_iff, IHl, IHr. split.
    + intros [H|[(d' & i' & t' & P & X)|(d' & i' & t' & P & X)]].
      * injection H as <- <-. exists d, i, (Fork b0 l r). repeat split. constructor.
      * exists d', i', t'. split; [apply part_left; exact P|exact X].
      * exists d', i', t'. split; [apply part_right; exact P|exact X].
    + intros (d' & i' & t' & P & X). inversion P; subst.
      * left. destruct X as [-> ->]. reflexivity.
      * right. left. eauto.
      * right. right. eauto.
Qed.
Lemma edges_iff tid t : forall d i a b, In (a, b) (drawn_edges (edges_in tid d i t)) <->
  exists d' i' x l r, part d i t d' i' (Fork x l r) /\ a = tree_name tid d' i' /\ (b = tree_name tid (d' + 1) (i' + 1) \/ b = tree_name tid (d' + 1) (i' + 1 + count l)).
Proof.
  induction t as [b0|b0 l IHl r IHr]; intros d i a b.
  - cbn. split; [contradiction|]. intros (d' & i' & x & l & r & P & _). inversion P.
  - cbn [edges_in]. unfold drawn_edges. cbn [flat_map app E]. rewrite flat_map_app. cbn [flat_map app E].
    fold (drawn_edges (edges_in tid (d + 1) (i + 1) l)). fold (drawn_edges (edges_in tid (d + 1) (i + 1 + count l) r)).
    cbn [In]. rewrite in_app_iff. cbn [In]. rewrite IHl, IHr. split.
    + intros [H|[(d' & i' & x & l' & r' & P & X)|[H|(d' & i' & x & l' & r' & P & X)]]].
      * injection H as <- <-. exists d, i, b0, l, r. repeat split; [constructor|left; reflexivity].
      * exists d', i', x, l', r'. split; [apply part_left; exact P|exact X].
      * injection H as <- <-. exists d, i, b0, l, r. repeat split; [constructor|right; reflexivity].
      * exists d', i', x, l', r'. split; [apply part_right; exact P|exact X].
    + intros (d' & i' & x & l' & r' & P & X). inversion P; subst.
      * destruct X as (-> & [->| ->]); [left; reflexivity|right; right; left; reflexivity].
      * right. left. exists d', i', x, l', r'. auto.
      * right. right. right. exists d', i', x, l', r'. auto.
Qed.

(** Places are distinct. *)
Lemma part_range d i t d' i' t' : part d i t d' i' t' -> i <= i' /\ i' + count t' <= i + count t /\ d <= d'.
Proof. induction 1 as [|? ? ? l r ? ? ? ? IH|? ? ? l r ? ? ? ? IH]; cbn [count] in *; try (assert (X := count_pos l); assert (Y := count_pos r)); lia. Qed.

Lemma nodes_range tid t d i n : In n (map fst (labels (nodes_in tid d i t))) -> exists d' i', n = tree_name tid d' i' /\ i <= i' < i + count t.
Proof.
  intros I. apply in_map_iff in I as ([n' b] & <- & I). apply nodes_iff in I as (d' & i' & t' & P & -> & ->). exists d', i'. split; [reflexivity|].
  apply part_range in P. assert (X := count_pos t'). lia.
Qed.
Lemma NoDup_app_intro {A} (a b : list A) : NoDup a -> NoDup b -> (forall x, In x a -> ~ In x b) -> NoDup (a ++ b).
Proof.
  induction 1 as [|x a NI N IH]; intros B D; [exact B|]. cbn. constructor.
  - rewrite in_app_iff. intros [I|I]; [contradiction|]. apply (D x (or_introl eq_refl) I).
  - apply IH; [exact B|]. intros y I. apply D. right; exact I.
Qed.
Lemma nodes_NoDup tid t : forall d i, NoDup (map fst (labels (nodes_in tid d i t))).
Proof.
  induction t as [b|b l IHl r IHr]; intros d i; [repeat constructor; intros []|]. cbn [nodes_in]. unfold labels. cbn [flat_map app map fst]. rewrite flat_map_app, map_app.
  fold (labels (nodes_in tid (d + 1) (i + 1) l)). fold (labels (nodes_in tid (d + 1) (i + 1 + count l) r)). constructor.
  - rewrite in_app_iff. intros [I|I]; apply nodes_range in I as (d' & i' & N & R); apply tree_name_inj in N as (_ & _ & ->); [lia|assert (X := count_pos l); lia].
  - apply NoDup_app_intro; [apply IHl|apply IHr|]. intros n I J. apply nodes_range in I as (d1 & i1 & -> & R1). apply nodes_range in J as (d2 & i2 & N & R2).
    apply tree_name_inj in N as (_ & _ & ->). lia.
Qed.
(** The targets of the edges are the nodes but the first. *)
Lemma targets tid t : forall d i, exists l, map fst (labels (nodes_in tid d i t)) = tree_name tid d i :: l /\ map snd (drawn_edges (edges_in tid d i t)) = l.
Proof.
  induction t as [b|b l IHl r IHr]; intros d i; [exists []; split; reflexivity|].
  destruct (IHl (d + 1) (i + 1)) as (l1 & A1 & B1). destruct (IHr (d + 1) (i + 1 + count l)) as (l2 & A2 & B2).
  eexists. split.
  - cbn [nodes_in]. unfold labels. cbn [flat_map app map fst]. rewrite flat_map_app, map_app. fold (labels (nodes_in tid (d + 1) (i + 1) l)). fold (labels (nodes_in tid (d + 1) (i + 1 + count l) r)).
    rewrite A1, A2. reflexivity.
  - cbn [edges_in]. unfold drawn_edges. cbn [flat_map app E]. rewrite flat_map_app. cbn [flat_map app E].
    fold (drawn_edges (edges_in tid (d + 1) (i + 1) l)). fold (drawn_edges (edges_in tid (d + 1) (i + 1 + count l) r)).
    cbn [map snd]. rewrite map_app. cbn [map snd]. rewrite B1, B2. reflexivity.
Qed.

(** *** Forests *)
Fixpoint forest (r : Z) (ts : list shape) : list statement :=
  match ts with [] => [] | t :: rest => (nodes_in r 0 0 t ++ edges_in r 0 0 t) ++ [AnEdge ($"root") (tree_name r 0 0)] ++ forest (r + 1) rest end.
Lemma trees_parsed ts : forall r, parse_trees r (map (stored 0) ts) = if forallb ends_at_root ts then Ok (forest r ts) else Throw.
Proof.
  induction ts as [|t ts IH]; intros r; [reflexivity|]. cbn [map parse_trees forallb]. rewrite tree_parsed, IH. destruct (ends_at_root t); [|reflexivity].
  destruct (forallb ends_at_root ts); reflexivity.
Qed.
Theorem parsed label ts : parse label (map (stored 0) ts) = if forallb ends_at_root ts then Ok (ANode ($"root") label :: forest 0 ts) else Throw.
Proof. unfold parse. rewrite trees_parsed. destruct (forallb ends_at_root ts); reflexivity. Qed.

Theorem dies_iff label ts : parse label (map (stored 0) ts) = Throw <-> exists t, In t ts /\ ends_at_root t = false.
Proof.
  rewrite parsed. destruct (forallb ends_at_root ts) eqn:F.
  - split; [discriminate|]. intros (t & I & H). rewrite forallb_forall in F. rewrite (F t I) in H. discriminate.
  - split; [intros _|reflexivity]. destruct (existsb (fun t => negb (ends_at_root t)) ts) eqn:X.
    + apply existsb_exists in X as (t & I & H). exists t. split; [exact I|]. destruct (ends_at_root t); [discriminate|reflexivity].
    + exfalso. assert (G : forallb ends_at_root ts = true); [|congruence]. apply forallb_forall. intros t I. destruct (ends_at_root t) eqn:H; [reflexivity|].
      assert (Y : existsb (fun t => negb (ends_at_root t)) ts = true); [|congruence]. apply existsb_exists. exists t. rewrite H. auto.
Qed.
Theorem draws_iff label ts : (exists l, parse label (map (stored 0) ts) = Ok l) <-> forall t, In t ts -> ends_at_root t = true.
Proof.
  rewrite parsed. rewrite <- forallb_forall. destruct (forallb ends_at_root ts); split; try congruence; [intros _; eexists; reflexivity|intros (l & X); discriminate].
Qed.

Definition nth_tree (ts : list shape) (r0 r : Z) (t : shape) : Prop := exists k, r = r0 + Z.of_nat k /\ nth_error ts k = Some t.
Lemma nth_tree_cons t0 ts r0 r t : nth_tree (t0 :: ts) r0 r t <-> (r = r0 /\ t = t0) \/ nth_tree ts (r0 + 1) r t.
Proof.
  split.
  - intros ([|k] & -> & H); [left; injection H as ->; split; [lia|reflexivity]|right; exists k; split; [lia|exact H]].
  - intros [[-> ->]|(k & -> & H)]; [exists 0%nat; split; [lia|reflexivity]|exists (S k); split; [lia|exact H]].
Qed.
Lemma forest_labels ts : forall r0 n b, In (n, b) (labels (forest r0 ts)) <-> exists r t d i t', nth_tree ts r0 r t /\ part 0 0 t d i t' /\ n = tree_name r d i /\ b = label_of t'.
Proof.
  induction ts as [|t0 ts IH]; intros r0 n b.
  - cbn. split; [contradiction|]. intros (r & t & d & i & t' & (k & _ & H) & _). destruct k; discriminate H.
  - cbn [forest]. rewrite !labels_app, edges_no_nodes. cbn [labels flat_map app]. rewrite app_nil_r, in_app_iff, nodes_iff, IH. split.
    + intros [(d & i & t' & X)|(r & t & d & i & t' & N & X)]; [exists r0, t0, d, i, t'|exists r, t, d, i, t']; rewrite nth_tree_cons; auto.
    + intros (r & t & d & i & t' & N & X). apply nth_tree_cons in N as [[-> ->]|N]; [left; exists d, i, t'; exact X|right; exists r, t, d, i, t'; auto].
Qed.
Lemma forest_edges ts : forall r0 a b, In (a, b) (drawn_edges (forest r0 ts)) <->
  (exists r t, nth_tree ts r0 r t /\ a = $"root" /\ b = tree_name r 0 0) \/
  (exists r t d i x l h, nth_tree ts r0 r t /\ part 0 0 t d i (Fork x l h) /\ a = tree_name r d i /\ (b = tree_name r (d + 1) (i + 1) \/ b = tree_name r (d + 1) (i + 1 + count l))).
Proof.
  induction ts as [|t0 ts IH]; intros r0 a b.
  - cbn. split; [contradiction|]. intros [(r & t & (k & _ & H) & _)|(r & t & d & i & x & l & h & (k & _ & H) & _)]; destruct k; discriminate H.
  - cbn [forest]. rewrite !drawn_app, nodes_no_edges. cbn [drawn_edges flat_map app]. fold (drawn_edges (forest (r0 + 1) ts)). rewrite in_app_iff. cbn [In]. rewrite edges_iff, IH. split.
    + intros [(d & i & x & l & h & X)|[H|[(r & t & N & X)|(r & t & d & i & x & l & h & N & X)]]].
      * right. exists r0, t0, d, i, x, l, h. rewrite nth_tree_cons. auto.
      * left. injection H as <- <-. exists r0, t0. rewrite nth_tree_cons. auto.
      * left. exists r, t. rewrite nth_tree_cons. auto.
      * right. exists r, t, d, i, x, l, h. rewrite nth_tree_cons. auto.
    + intros [(r & t & N & -> & ->)|(r & t & d & i & x & l & h & N & X)]; apply nth_tree_cons in N as [[-> ->]|N].
      * right. left. reflexivity.
      * right. right. left. exists r, t. auto.
      * left. exists d, i, x, l, h. exact X.
      * right. right. right. exists r, t, d, i, x, l, h. auto.
Qed.
Lemma forest_names_from ts : forall r0 n, In n (map fst (labels (forest r0 ts))) -> exists r d i, n = tree_name r d i /\ r0 <= r.
Proof.
  intros r0 n I. apply in_map_iff in I as ([n' b] & <- & I). apply forest_labels in I as (r & t & d & i & t' & (k & -> & _) & _ & -> & _). exists (r0 + Z.of_nat k), d, i. split; [reflexivity|lia].
Qed.
Lemma forest_NoDup ts : forall r0, NoDup (map fst (labels (forest r0 ts))).
Proof.
  induction ts as [|t ts IH]; intros r0; [constructor|]. cbn [forest]. rewrite !labels_app, edges_no_nodes. cbn [labels flat_map app]. rewrite app_nil_r, map_app.
  apply NoDup_app_intro; [apply nodes_NoDup|apply IH|]. intros n I J. apply nodes_range in I as (d & i & -> & _). apply forest_names_from in J as (r & d' & i' & N & L).
  apply tree_name_inj in N as (-> & _). lia.
Qed.
From Coq Require Import Permutation.
Lemma forest_targets ts : forall r0, Permutation (map snd (drawn_edges (forest r0 ts))) (map fst (labels (forest r0 ts))).
Proof.
  induction ts as [|t ts IH]; intros r0; [constructor|]. cbn [forest]. rewrite !labels_app, edges_no_nodes, !drawn_app, nodes_no_edges. cbn [labels drawn_edges flat_map app].
  fold (drawn_edges (forest (r0 + 1) ts)). fold (labels (forest (r0 + 1) ts)). rewrite app_nil_r, !map_app. cbn [map snd].
  destruct (targets r0 t 0 0) as (l & -> & ->). cbn [app]. etransitivity; [symmetry; apply Permutation_middle|]. apply perm_skip, Permutation_app_head, IH.
Qed.

Theorem picture label ts l : parse label (map (stored 0) ts) = Ok l ->
  NoDup (node_names l) /\
  (forall n b, In (n, b) (labels l) <-> (n = $"root" /\ b = label) \/
     exists r t d i t', nth_error ts r = Some t /\ part 0 0 t d i t' /\ n = tree_name (Z.of_nat r) d i /\ b = label_of t') /\
  (forall a b, In (a, b) (drawn_edges l) <->
     (exists r, (r < List.length ts)%nat /\ a = $"root" /\ b = tree_name (Z.of_nat r) 0 0) \/
     (exists r t d i x l h, nth_error ts r = Some t /\ part 0 0 t d i (Fork x l h) /\ a = tree_name (Z.of_nat r) d i /\
        (b = tree_name (Z.of_nat r) (d + 1) (i + 1) \/ b = tree_name (Z.of_nat r) (d + 1) (i + 1 + count l)))) /\
  Permutation (node_names l) ($"root" :: map snd (drawn_edges l)).
Proof.
  rewrite parsed. destruct (forallb ends_at_root ts); [|discriminate]. intros H. injection H as <-.
  rewrite names_labels. unfold labels, drawn_edges. cbn [flat_map app map fst]. fold (labels (forest 0 ts)). fold (drawn_edges (forest 0 ts)). repeat split.
  - constructor; [|apply forest_NoDup]. intros I. apply forest_names_from in I as (r & d & i & N & _). symmetry in N. apply tree_name_root in N. exact N.
  - intros [H|I]; [injection H as <- <-; auto|]. right. apply forest_labels in I as (r & t & d & i & t' & (k & -> & N) & X). exists k, t, d, i, t'. auto.
  - intros [[-> ->]|(k & t & d & i & t' & N & X)]; [left; reflexivity|]. right. apply forest_labels. exists (Z.of_nat k), t, d, i, t'. split; [exists k; auto|exact X].
  - intros I. apply forest_edges in I as [(r & t & (k & -> & N) & X)|(r & t & d & i & x & l & h & (k & -> & N) & X)].
    + left. exists k. split; [apply nth_error_Some; congruence|exact X].
    + right. exists k, t, d, i, x, l, h. auto.
  - intros [(k & L & X)|(k & t & d & i & x & l & h & N & X)]; apply forest_edges.
    + left. destruct (nth_error ts k) as [t|] eqn:N; [|apply nth_error_None in N; lia]. exists (Z.of_nat k), t. split; [exists k; auto|exact X].
    + right. exists (Z.of_nat k), t, d, i, x, l, h. split; [exists k; auto|exact X].
  - constructor. symmetry. apply forest_targets.
Qed.
