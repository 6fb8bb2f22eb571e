(** C135, C136: pictures of trees and forests. *)
From Coq Require Import List ZArith Bool Ascii String Permutation.
From Verif Require Import Model.Base Model.Decimal Model.DotM Spec.DotSpec Proofs.DotFacts Proofs.DotTreeFacts Proofs.DotExamples.
From Coq Require Import List.
Import ListNotations.
Open Scope Z_scope.

(** rfc2dot_opencv.py fails exactly if in some tree the right part of the root is not a leaf. *)
Theorem C135_dies : forall label ts, parse label (map (stored 0) ts) = Throw <-> exists t, In t ts /\ ends_at_root t = false.
Proof. exact dies_iff. Qed.
Example C135_dies_example : parse ($"") (map (stored 0) [leaning; rightward]) = Throw.
Proof. apply C135_dies. exists rightward. split; [right; left; reflexivity|reflexivity]. Qed.
Print Assumptions C135_dies.

Theorem C135_draws : forall label ts, (exists l, parse label (map (stored 0) ts) = Ok l) <-> forall t, In t ts -> ends_at_root t = true.
Proof. exact draws_iff. Qed.
Example C135_draws_example : exists l, parse ($"") (map (stored 0) [leaning; Tip ($"x")]) = Ok l.
Proof. apply C135_draws. intros t [<-|[<-|[]]]; reflexivity. Qed.
Print Assumptions C135_draws.

(** Otherwise the picture shows the forest. *)
Theorem C135_picture : forall label ts l, parse label (map (stored 0) ts) = Ok l ->
  NoDup (node_names l) /\
  (forall n b, In (n, b) (labels l) <-> (n = $"root" /\ b = label) \/
     exists r t d i t', nth_error ts r = Some t /\ part 0 0 t d i t' /\ n = tree_name (Z.of_nat r) d i /\ b = label_of t') /\
  (forall a b, In (a, b) (drawn_edges l) <->
     (exists r, (r < List.length ts)%nat /\ a = $"root" /\ b = tree_name (Z.of_nat r) 0 0) \/
     (exists r t d i x l h, nth_error ts r = Some t /\ part 0 0 t d i (Fork x l h) /\ a = tree_name (Z.of_nat r) d i /\
        (b = tree_name (Z.of_nat r) (d + 1) (i + 1) \/ b = tree_name (Z.of_nat r) (d + 1) (i + 1 + count l)))) /\
  Permutation (node_names l) ($"root" :: map snd (drawn_edges l)).
Proof. exact picture. Qed.
Example C135_picture_example : exists l, parse ($"f") (map (stored 0) [leaning]) = Ok l /\ In ($"tree_0_d_0_n_0", $"tree_0_d_1_n_4") (drawn_edges l) /\ ~ In ($"tree_0_d_1_n_1", $"tree_0_d_1_n_4") (drawn_edges l).
Proof.
  destruct (proj2 (C135_draws ($"f") [leaning])) as (l & E); [intros t [<-|[]]; reflexivity|]. exists l. split; [exact E|]. split.
  - apply (C135_picture _ _ _ E). right. exists 0%nat, leaning, 0, 0, ($"a"), (Fork ($"b") (Tip ($"c")) (Tip ($"d"))), (Tip ($"e")). split; [reflexivity|]. split; [constructor|]. split; [reflexivity|right; reflexivity].
  - revert E. vm_compute. intros E. injection E as <-. intros I. repeat (destruct I as [I|I]; [discriminate I|]). exact I.
Qed.
Print Assumptions C135_picture.

(** dtree2dot.py shows every tree. *)
Theorem C136_tree : forall tr name l, dot_tree tr name = l ->
  NoDup (node_names l) /\
  (forall n b, In (n, b) (labels l) <-> (n = name /\ b = fst tr) \/
     exists w t', place (snd tr) w = Some t' /\ n = way_name (name ++ $"_root") w /\ b = ylabel t') /\
  (forall a b, In (a, b) (drawn_edges l) <-> (a = name /\ b = name ++ $"_root") \/
     exists w s t', place (snd tr) (w ++ [s]) = Some t' /\ a = way_name (name ++ $"_root") w /\ b = way_name (name ++ $"_root") (w ++ [s])) /\
  Permutation (node_names l) (name :: map snd (drawn_edges l)).
Proof. exact tree_picture. Qed.
Example C136_tree_example : In ($"tree_root_right", $"tree_root_right_left") (drawn_edges (dot_tree three_leaves ($"tree"))).
Proof. apply (C136_tree three_leaves ($"tree") _ eq_refl). right. exists [ToRight], ToLeft, (YNode ($"1") None None). repeat split. Qed.
Print Assumptions C136_tree.

(** rfc2dot.py shows as many trees of the forest as it says it has. *)
Theorem C136_forest : forall label num trees l, dot_rfc label num trees = Ok l ->
  (num <= List.length trees)%nat /\
  NoDup (node_names l) /\
  (forall n b, In (n, b) (labels l) <-> (n = $"rfc" /\ b = label) \/
     exists r t, (r < num)%nat /\ nth_error trees r = Some t /\
       ((n = $"tree_" ++ print_Z (Z.of_nat r) /\ b = fst t) \/
        exists w t', place (snd t) w = Some t' /\ n = way_name ($"tree_" ++ print_Z (Z.of_nat r) ++ $"_root") w /\ b = ylabel t')) /\
  (forall a b, In (a, b) (drawn_edges l) <->
     exists r t, (r < num)%nat /\ nth_error trees r = Some t /\
       ((a = $"rfc" /\ b = $"tree_" ++ print_Z (Z.of_nat r)) \/
        (a = $"tree_" ++ print_Z (Z.of_nat r) /\ b = $"tree_" ++ print_Z (Z.of_nat r) ++ $"_root") \/
        exists w s t', place (snd t) (w ++ [s]) = Some t' /\ a = way_name ($"tree_" ++ print_Z (Z.of_nat r) ++ $"_root") w /\
          b = way_name ($"tree_" ++ print_Z (Z.of_nat r) ++ $"_root") (w ++ [s]))) /\
  Permutation (node_names l) ($"rfc" :: map snd (drawn_edges l)).
Proof. exact forest_picture. Qed.
Theorem C136_complete : forall label num trees, (num <= List.length trees)%nat -> exists l, dot_rfc label num trees = Ok l.
Proof. exact forest_complete. Qed.
Example C136_forest_example : exists l, dot_rfc ($"f") 2 [three_leaves; three_leaves] = Ok l /\ NoDup (node_names l) /\ In ($"rfc", $"tree_1") (drawn_edges l).
Proof.
  destruct (C136_complete ($"f") 2 [three_leaves; three_leaves]) as (l & E); [repeat constructor|]. exists l. split; [exact E|].
  destruct (C136_forest _ _ _ _ E) as (_ & A & _ & B & _). split; [exact A|]. apply B. exists 1%nat, three_leaves. split; [repeat constructor|]. split; [reflexivity|]. left. split; reflexivity.
Qed.
Print Assumptions C136_forest.
Print Assumptions C136_complete.
