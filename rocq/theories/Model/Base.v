(** Shared vocabulary of the model: outcomes of C++ operations and byte strings.
    Used to model every file under /repo/src; nothing here is specific to one function. *)
From Coq Require Import List ZArith Bool Ascii String.
Import ListNotations.

(** Outcome of running a piece of C++ code.
    [Throw]: a C++ exception leaves the code (src/helpers/*, src/models/*: `throw`, std::stoi, ...).
    [Abort]: the process stops on purpose: abort(), exit(), failed assert, fatal_error
             (src/helpers/ErrorHandling.h lines 9-15).
    [UB]:    undefined behaviour of the C++ standard was reached.
    [Fuel]:  the recursion bound of the model ran out (never a result of the code; theorems
             show it does not occur). *)
Inductive outcome (A : Type) : Type :=
| Ok (a : A)
| Throw
| Abort
| UB
| Fuel.
Arguments Ok {A} a.
Arguments Throw {A}.
Arguments Abort {A}.
Arguments UB {A}.
Arguments Fuel {A}.

(** Sequencing of C++ statements; no particular source line.
    Used for every function body, e.g. src/Dataset.cpp lines 114-174. *)
Definition bind {A B} (m : outcome A) (f : A -> outcome B) : outcome B :=
  match m with
  | Ok a => f a
  | Throw => Throw
  | Abort => Abort
  | UB => UB
  | Fuel => Fuel
  end.

Notation "'let*' x ':=' m 'in' k" := (bind m (fun x => k))
  (at level 200, x pattern, m at level 100, k at level 200, right associativity).

(** Byte strings (std::string, char arrays, file contents) as lists of characters. *)
Definition bytes := list ascii.

(** String literals of the C++ source as byte strings. E.g. src/Dataset.cpp line 96. *)
Definition lit (s : string) : bytes := list_ascii_of_string s.
Notation "$ s" := (lit s%string) (at level 1, format "$ s").

(** Equality of byte strings, as std::string::operator== and (on NUL-free strings) strcmp
    (src/helpers/Parser.cpp lines 12-15). *)
Fixpoint bytes_eqb (a b : bytes) : bool :=
  match a, b with
  | [], [] => true
  | x :: a', y :: b' => (Ascii.eqb x y && bytes_eqb a' b')%bool
  | _, _ => false
  end.

(** The newline character, '\n' in the sources. E.g. src/Dataset.cpp line 96. *)
Definition nl : ascii := ascii_of_nat 10.
(** The NUL character, '\0' in the sources. E.g. src/helpers/Parser.cpp line 39. *)
Definition nul : ascii := ascii_of_nat 0.

(** Checked vector access `v[i]`: outside the vector is undefined behaviour
    (every `operator[]` of std::vector in the sources). *)
Definition vec_get {A} (v : list A) (i : Z) : outcome A :=
  if (i <? 0)%Z then UB
  else match nth_error v (Z.to_nat i) with
       | Some a => Ok a
       | None => UB
       end.
