(** Which policies are best for each execution. *)
From Coq Require Import List ZArith Bool Ascii String Permutation.
From Flocq Require Import BinarySingleNaN.
From Verif Require Import Model.Base Model.Float Model.WriteOptM.
Import ListNotations.

(** The rows measured for an execution of a region on a rank. *)
Definition measured_for (rows : list opt_row) (rank : Z) (region : bytes) (idx : Z) (r : opt_row) : Prop :=
  In r rows /\ o_rank r = rank /\ o_region r = region /\ o_idx r = idx.
(** [p] was measured for the execution, and no policy measured for it took less time. *)
Definition fastest (rows : list opt_row) (rank : Z) (region : bytes) (idx p : Z) : Prop :=
  exists r, measured_for rows rank region idx r /\ o_policy r = p /\
    forall r', measured_for rows rank region idx r' -> Bleb (o_time r) (o_time r') = true.
(** What pandas may make of the rows of a rank when it sorts them. *)
Definition arranged (rows : list opt_row) (rank : Z) (s : list opt_row) : Prop := Permutation (of_rank rank rows) s /\ in_order s = true.
