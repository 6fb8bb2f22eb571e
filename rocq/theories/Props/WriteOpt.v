(** C137: the file of best policies and what an Optimal model does with it. *)
From Coq Require Import List ZArith Bool Ascii String Permutation Sorted.
From Flocq Require Import BinarySingleNaN.
From Verif Require Import Model.Base Model.Float Model.Decimal Model.DatasetM Model.PolicyModelsM Model.WriteOptM Spec.PolicyModelsSpec Spec.WriteOptSpec
  Proofs.WriteOptFacts Proofs.WriteOptExamples.
From Coq Require Import List.
Import ListNotations.
Open Scope Z_scope.

(** The file for a region holds one policy for each execution measured, by index: one that took least time. *)
Theorem C137_written : forall rows rank s region, arranged rows rank s -> (forall r, In r rows -> is_nan (o_time r) = false) ->
  exists l, opt_file s region = comma_separated (map (fun r => print_Z (o_policy r)) l) /\
    StronglySorted (fun a b => o_idx a < o_idx b) l /\
    (forall r, In r l -> measured_for rows rank region (o_idx r) r /\ fastest rows rank region (o_idx r) (o_policy r)) /\
    (forall i r, measured_for rows rank region i r -> In i (map o_idx l)).
Proof. exact opt_written. Qed.
Example C137_written_example : opt_file four_sorted ($"r") = $"1,0" /\
  exists l, opt_file four_sorted ($"r") = comma_separated (map (fun r => print_Z (o_policy r)) l) /\
    (forall r, In r l -> measured_for four_rows 0 ($"r") (o_idx r) r /\ fastest four_rows 0 ($"r") (o_idx r) (o_policy r)).
Proof. split; [reflexivity|]. destruct (C137_written four_rows 0 four_sorted ($"r") four_arranged four_numbers) as (l & A & _ & B & _). exists l. auto. Qed.
Print Assumptions C137_written.

(** One file for each region measured on the rank. *)
Theorem C137_files : forall rows rank s, arranged rows rank s ->
  NoDup (opt_regions s) /\ forall r, In r (opt_regions s) <-> exists x, In x rows /\ o_rank x = rank /\ o_region x = r.
Proof. exact opt_files. Qed.
Example C137_files_example : In ($"r") (opt_regions four_sorted).
Proof. apply (C137_files four_rows 0 four_sorted four_arranged). exists (opt_of 0 0 0 5). repeat split. left. reflexivity. Qed.
Print Assumptions C137_files.

(** When the executions measured are those numbered 0 to [count] - 1, an Optimal model made from the file gives each of as many
    executions a policy that took least time for it, and aborts at the next one. *)
Theorem C137_replayed : forall P num rows rank s region count, arranged rows rank s -> (forall r, In r rows -> is_nan (o_time r) = false) ->
  (forall r, In r rows -> -2147483648 <= o_policy r <= 2147483647) ->
  (forall i, (exists r, measured_for rows rank region i r) <-> 0 <= i < Z.of_nat count) ->
  exists m, create_from_file ($"Optimal") num (Some (opt_file s region)) = Ok m /\
    (forall calls, (List.length calls <= count)%nat -> exists ps m', ask P m calls = Ok (ps, m') /\ List.length ps = List.length calls /\
       forall i p, nth_error ps i = Some p -> fastest rows rank region (Z.of_nat i) p) /\
    (forall calls, (count < List.length calls)%nat -> ask P m calls = Abort).
Proof. exact opt_replayed. Qed.
Example C137_replayed_example : forall P, exists m, create_from_file ($"Optimal") 2 (Some ($"1,0")) = Ok m /\
  forall D f E g, exists p q m', ask P m [(D, f); (E, g)] = Ok ([p; q], m') /\ fastest four_rows 0 ($"r") 0 p /\ fastest four_rows 0 ($"r") 1 q.
Proof.
  intros P. destruct (C137_replayed P 2 four_rows 0 four_sorted ($"r") 2 four_arranged four_numbers four_policies four_indices) as (m & A & B & _).
  exists m. split; [exact A|]. intros D f E g. destruct (B [(D, f); (E, g)] (le_n _)) as (ps & m' & X & L & F).
  destruct ps as [|p [|q [|]]]; try discriminate L. exists p, q, m'. split; [exact X|]. split; [exact (F 0%nat p eq_refl)|exact (F 1%nat q eq_refl)].
Qed.
Print Assumptions C137_replayed.
