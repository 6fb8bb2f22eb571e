(** Softmax::lossGrad (src/models/PolicyNet.cpp lines 315-332) with the array it fills, for actions of any value.

    NetM has an action outside its row undefined. The code adds it to the start of the row and uses the sum as an index into the
    array of the whole batch, which may also be longer than the batch needs, as it only ever grows (lines 273-284). Simplified: an
    element that was never written holds some number; the index is computed without overflow. *)
From Coq Require Import List Bool ZArith.
From Verif Require Import Model.Base Model.NetM.
Import ListNotations.

(** Array read `a[k]` with an int index: outside the array is undefined. src/models/PolicyNet.cpp line 328. *)
Definition rd_at {B} (a : list B) (k : Z) : outcome B := if (k <? 0)%Z then UB else rd a (Z.to_nat k).

(** Array write `a[k] = x`: outside the array is undefined. src/models/PolicyNet.cpp lines 326 and 328. *)
Definition wr_at {B} (a : list B) (k : Z) (x : B) : outcome (list B) :=
  if ((k <? 0) || (Z.of_nat (List.length a) <=? k))%Z then UB else Ok (firstn (Z.to_nat k) a ++ x :: skipn (S (Z.to_nat k)) a).

Section LossGrad.
Context {T : Type} (A : arith T).
Local Notation "x + y" := (n_add A x y).
Local Notation "x * y" := (n_mul A x y).
Local Notation "x / y" := (n_div A x y).

(** One sample, src/models/PolicyNet.cpp lines 324-328. *)
Definition loss_row (action : list Z) (probs reward : list T) (batch m : nat) (grad : list T) (i : nat) : outcome (list T) :=
  let* r := rd reward i in
  let* grad := fold_out (fun grad j =>
    let* p := rd probs (at2 m i j) in
    wr_at grad (Z.of_nat (at2 m i j)) ((n_opp A r * p) / n_nat A batch)) (seq 0 m) grad in
  let* a := rd action i in
  let k := (Z.of_nat (Nat.mul i m) + a)%Z in
  let* x := rd_at grad k in
  wr_at grad k (x + r / n_nat A batch).

(** All samples, src/models/PolicyNet.cpp lines 323-329; [grad] is what the array held before. *)
Definition loss_array (action : list Z) (probs reward : list T) (batch m : nat) (grad : list T) : outcome (list T) :=
  fold_out (loss_row action probs reward batch m) (seq 0 batch) grad.
End LossGrad.
