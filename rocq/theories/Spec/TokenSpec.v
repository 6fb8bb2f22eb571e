(** The token grammar of the text files read by Apollo, stated on the characters of the stream. *)
From Coq Require Import List ZArith Bool Ascii String.
From Verif Require Import Model.Base.
Import ListNotations.

(** White space: space, tab, newline, vertical tab, form feed, carriage return. *)
Definition white (c : ascii) : Prop :=
  In c [" "%char; ascii_of_nat 9; ascii_of_nat 10; ascii_of_nat 11; ascii_of_nat 12; ascii_of_nat 13].

(** White space and '#' comments that extend to the end of their line. *)
Inductive blank : bytes -> Prop :=
| blank_nil : blank []
| blank_white c r : white c -> blank r -> blank (c :: r)
| blank_comment text r : ~ In nl text -> blank r -> blank ("#"%char :: text ++ nl :: r).

(** A word: characters without white space, not starting a comment. *)
Definition word (w : bytes) : Prop :=
  w <> [] /\ Forall (fun c => ~ white c) w /\ hd_error w <> Some "#"%char.

(** A non-empty stream that ends before the end of its first token is seen. *)
Definition ends_too_early (s : bytes) : Prop :=
  s <> [] /\ exists b w, s = b ++ w /\ blank b /\
    (w = [] \/
     (exists text, w = "#"%char :: text /\ ~ In nl text) \/
     (word w /\ (List.length w < 64)%nat)).
