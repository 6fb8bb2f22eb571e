(** What the arguments of the Kokkos connector say about the flush rate. *)
From Coq Require Import ZArith Ascii String List.
From Verif Require Import Model.Base Spec.NumeralSpec.
Import ListNotations.
Open Scope Z_scope.

(** The argument speaks of the flush rate: the text is anywhere in it. *)
Definition about_flushing (arg : bytes) : Prop := exists a b, arg = a ++ $"--flush-rate=" ++ b.

(** The number a text starts with, after white space; 0 where there is none. *)
Definition leading_number (text : bytes) (z : Z) : Prop :=
  exists sp sg neg ds vs rest, text = sp ++ sg ++ ds ++ rest /\ white sp /\ sign_text sg neg /\ places false ds vs /\
    (forall c d, hd_error rest = Some c -> ~ digit_of false c d) /\ z = (if neg then - value 10 vs else value 10 vs) /\ - 2 ^ 31 <= z < 2 ^ 31.

(** What follows the first '=' of the argument. *)
Definition after_equals (arg text : bytes) : Prop := exists before, arg = before ++ "="%char :: text /\ ~ In "="%char before.

(** The flush rate after the arguments, from the one before them: the last argument about it counts. *)
Definition flush_rate (args : list bytes) (before after : Z) : Prop :=
  (Forall (fun a => ~ about_flushing a) args /\ after = before) \/
  (exists args1 arg args2 text, args = args1 ++ arg :: args2 /\ about_flushing arg /\ Forall (fun a => ~ about_flushing a) args2 /\
     after_equals arg text /\ leading_number text after).
