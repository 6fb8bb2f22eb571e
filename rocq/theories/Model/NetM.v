(** The neural network of PolicyNet (src/models/PolicyNet.cpp lines 20-413), written once over an arbitrary
    arithmetic so that it can be run on binary64 numbers and reasoned about on real numbers.

    Simplifications. The scratch arrays `outputs` and `inputGrad` of the layers are results of the functions
    here: every element is overwritten before it is read (they are zeroed or assigned at the start of each
    pass), so they carry no state from one call to the next. An array filled by nested loops is the list of
    its elements in index order, each element accumulating its terms in the order of the loops. Overflow of
    `int` index products is not modelled. *)
From Coq Require Import List Bool ZArith.
From Verif Require Import Model.Base.
Import ListNotations.

(** Arithmetic on `double` used by the network: constants, operators, and the functions of <cmath> called.
    [n_pow x n] is std::pow with an integer second argument; [n_nat] converts an int. *)
Record arith (T : Type) := {
  n_zero : T;
  n_one : T;
  n_eps : T;
  n_nat : nat -> T;
  n_add : T -> T -> T;
  n_sub : T -> T -> T;
  n_mul : T -> T -> T;
  n_div : T -> T -> T;
  n_opp : T -> T;
  n_exp : T -> T;
  n_sqrt : T -> T;
  n_pow : T -> Z -> T;
  n_lt : T -> T -> bool;
  n_signbit : T -> bool
}.
Arguments n_zero {T}. Arguments n_one {T}. Arguments n_eps {T}. Arguments n_nat {T}. Arguments n_add {T}.
Arguments n_sub {T}. Arguments n_mul {T}. Arguments n_div {T}. Arguments n_opp {T}. Arguments n_exp {T}.
Arguments n_sqrt {T}. Arguments n_pow {T}. Arguments n_lt {T}. Arguments n_signbit {T}.

(** Array read `a[i]`: outside the array is undefined. src/models/PolicyNet.cpp lines 20-413. *)
Definition rd {A} (a : list A) (i : nat) : outcome A :=
  match nth_error a i with Some x => Ok x | None => UB end.

(** A counted loop that builds an array, and a counted loop that updates a variable.
    The loops of src/models/PolicyNet.cpp lines 93-104. *)
Fixpoint map_out {A B} (f : A -> outcome B) (l : list A) : outcome (list B) :=
  match l with
  | [] => Ok []
  | x :: r => let* y := f x in let* q := map_out f r in Ok (y :: q)
  end.
(** See [map_out]. The loops of src/models/PolicyNet.cpp lines 93-104. *)
Fixpoint fold_out {A B} (f : B -> A -> outcome B) (l : list A) (b : B) : outcome B :=
  match l with
  | [] => Ok b
  | x :: r => let* b := f b x in fold_out f r b
  end.

Section Net.
Context {T : Type} (A : arith T).
Local Notation "x + y" := (n_add A x y).
Local Notation "x - y" := (n_sub A x y).
Local Notation "x * y" := (n_mul A x y).
Local Notation "x / y" := (n_div A x y).

(** Row-major index `i * width + j` of a two-dimensional array stored flat. src/models/PolicyNet.cpp line 99. *)
Definition at2 (width i j : nat) : nat := Nat.add (Nat.mul i width) j.

(** The cells of a [rows] x [cols] array in index order. src/models/PolicyNet.cpp lines 93-104. *)
Definition cells (rows cols : nat) : list (nat * nat) := list_prod (seq 0 rows) (seq 0 cols).

(** The members of FCLayer that persist between calls (lines 183-196). The gradient arrays are zeroed at the
    start of every backward pass, see above. *)
Record layer := mkLayer {
  l_in : nat;
  l_out : nat;
  l_w : list T;
  l_b : list T;
  l_wm : list T;
  l_wv : list T;
  l_bm : list T;
  l_bv : list T;
  l_step : nat
}.

(** FCLayer::FCLayer, lines 23-51: zero-initialised except for the weights, drawn at random ([init] are the
    draws in order). *)
Definition new_layer (n_in n_out : nat) (init : nat -> T) : layer :=
  let ws := Nat.mul n_out n_in in
  mkLayer n_in n_out (map init (seq 0 ws)) (repeat (n_zero A) n_out)
    (repeat (n_zero A) ws) (repeat (n_zero A) ws) (repeat (n_zero A) n_out) (repeat (n_zero A) n_out) 0.

(** FCLayer::forward, lines 94-104, one element of `outputs`. *)
Definition fc_cell (L : layer) (inputs : list T) (i j : nat) : outcome T :=
  let* s := fold_out (fun acc k =>
      let* w := rd (l_w L) (at2 (l_in L) j k) in
      let* x := rd inputs (at2 (l_in L) i k) in
      Ok (acc + w * x)) (seq 0 (l_in L)) (n_zero A) in
  let* b := rd (l_b L) j in
  Ok (s + b).

(** FCLayer::forward, lines 72-107. *)
Definition fc_forward (L : layer) (inputs : list T) (batch : nat) : outcome (list T) :=
  map_out (fun c => fc_cell L inputs (fst c) (snd c)) (cells batch (l_out L)).

(** The gradients computed by one backward pass of a layer. src/models/PolicyNet.cpp lines 108-140. *)
Record grads := mkGrads { g_w : list T; g_b : list T }.

(** FCLayer::backward, lines 109-140: weight and bias gradients, and the gradient of the inputs. *)
Definition fc_backward (L : layer) (inputs chain : list T) (batch : nat) : outcome (grads * list T) :=
  let* gw := map_out (fun c => fold_out (fun acc i =>
      let* g := rd chain (at2 (l_out L) i (fst c)) in
      let* x := rd inputs (at2 (l_in L) i (snd c)) in
      Ok (acc + g * x)) (seq 0 batch) (n_zero A)) (cells (l_out L) (l_in L)) in
  let* gb := map_out (fun j => fold_out (fun acc i =>
      let* g := rd chain (at2 (l_out L) i j) in
      Ok (acc + g)) (seq 0 batch) (n_zero A)) (seq 0 (l_out L)) in
  let* gi := map_out (fun c => fold_out (fun acc j =>
      let* g := rd chain (at2 (l_out L) (fst c) j) in
      let* w := rd (l_w L) (at2 (l_in L) j (snd c)) in
      Ok (acc + g * w)) (seq 0 (l_out L)) (n_zero A)) (cells batch (l_in L)) in
  Ok (mkGrads gw gb, gi).

(** The Adam update of one parameter, lines 154-166 and 169-179: new moments and new value. *)
Definition adam (lr beta1 beta2 : T) (step : nat) (m v p g : T) : T * T * T :=
  let m' := beta1 * m + (n_one A - beta1) * g in
  let v' := beta2 * v + (n_one A - beta2) * n_pow A g 2%Z in
  let mhat := m' / (n_one A - n_pow A beta1 (Z.of_nat step)) in
  let vhat := v' / (n_one A - n_pow A beta2 (Z.of_nat step)) in
  (m', v', p + (lr * mhat) / (n_sqrt A vhat + n_eps A)).

(** The loops of FCLayer::step over one kind of parameter. src/models/PolicyNet.cpp lines 142-181. *)
Definition adam_all (lr beta1 beta2 : T) (step : nat) (m v p g : list T) : outcome (list (T * T * T)) :=
  map_out (fun i =>
    let* mi := rd m i in let* vi := rd v i in let* pi := rd p i in let* gi := rd g i in
    Ok (adam lr beta1 beta2 step mi vi pi gi)) (seq 0 (List.length p)).

(** FCLayer::step, lines 142-181. *)
Definition fc_step (L : layer) (lr beta1 beta2 : T) (g : grads) : outcome layer :=
  let step := S (l_step L) in
  let* w := adam_all lr beta1 beta2 step (l_wm L) (l_wv L) (l_w L) (g_w g) in
  let* b := adam_all lr beta1 beta2 step (l_bm L) (l_bv L) (l_b L) (g_b g) in
  let m3 := fun q : T * T * T => fst (fst q) in
  let v3 := fun q : T * T * T => snd (fst q) in
  Ok (mkLayer (l_in L) (l_out L) (map snd w) (map snd b) (map m3 w) (map v3 w) (map m3 b) (map v3 b) step).

(** std::max(a, b): `a < b ? b : a`. *)
Definition max (a b : T) : T := if n_lt A a b then b else a.

(** ReLU::forward, lines 215-237. *)
Definition relu_forward (inputs : list T) (size : nat) : outcome (list T) :=
  map_out (fun i => let* x := rd inputs i in Ok (max x (n_zero A))) (seq 0 size).

(** ReLU::backward, lines 239-251: `chain[i] * std::signbit(-inputs[i])`, the bool converting to 0.0 or 1.0. *)
Definition relu_backward (inputs chain : list T) (size : nat) : outcome (list T) :=
  map_out (fun i =>
    let* g := rd chain i in
    let* x := rd inputs i in
    Ok (g * (if n_signbit A (n_opp A x) then n_one A else n_zero A))) (seq 0 size).

(** Softmax::forward, lines 287-295: the maximum of one row, starting from its first element. *)
Definition row_max (inputs : list T) (m i : nat) : outcome T :=
  let* a := rd inputs (at2 m i 0) in
  fold_out (fun a j => let* x := rd inputs (at2 m i j) in Ok (max a x)) (seq 0 m) a.

(** Softmax::forward, lines 297-310, one row. *)
Definition softmax_row (inputs : list T) (m i : nat) : outcome (list T) :=
  let* alpha := row_max inputs m i in
  let* es := map_out (fun j => let* x := rd inputs (at2 m i j) in Ok (n_exp A (x - alpha))) (seq 0 m) in
  let sum := fold_left (fun s e => s + e) es (n_zero A) in
  Ok (map (fun e => e / sum) es).

(** Softmax::forward, lines 271-313. *)
Definition softmax_forward (inputs : list T) (batch m : nat) : outcome (list T) :=
  let* rows := map_out (softmax_row inputs m) (seq 0 batch) in
  Ok (List.concat rows).

(** Softmax::lossGrad, lines 315-332. Simplified: an action outside its row is undefined here, though the place may lie in the
    array of the batch; see LossGradM. *)
Definition loss_grad (action : list nat) (probs reward : list T) (batch m : nat) : outcome (list T) :=
  let* rows := map_out (fun i =>
    let* r := rd reward i in
    let* a := rd action i in
    if negb (Nat.ltb a m) then UB
    else map_out (fun j =>
      let* p := rd probs (at2 m i j) in
      let g := (n_opp A r * p) / n_nat A batch in
      Ok (if Nat.eqb j a then g + r / n_nat A batch else g)) (seq 0 m)) (seq 0 batch) in
  Ok (List.concat rows).

(** Net, lines 343-359 and 399-412. *)
Record net := mkNet {
  layer1 : layer;
  layer2 : layer;
  layer3 : layer;
  learn_rate : T;
  net_beta1 : T;
  net_beta2 : T
}.

(** Net::Net, lines 343-359; [init] gives the draws of each layer. *)
Definition new_net (n_in hidden n_out : nat) (lr beta1 beta2 : T) (init : nat -> nat -> T) : net :=
  mkNet (new_layer n_in hidden (init 1)) (new_layer hidden hidden (init 2)) (new_layer hidden n_out (init 3))
    lr beta1 beta2.

(** Everything the forward pass computes, lines 361-372 and 376-382. *)
Record pass := mkPass { out1 : list T; aout1 : list T; out2 : list T; aout2 : list T; out3 : list T; aout3 : list T }.

(** The forward pass of lines 376-382. hiddenSize and outputSize of the net are those of its layers. *)
Definition forward_pass (N : net) (state : list T) (batch : nat) : outcome pass :=
  let hidden := l_out (layer1 N) in
  let* o1 := fc_forward (layer1 N) state batch in
  let* a1 := relu_forward o1 (Nat.mul batch hidden) in
  let* o2 := fc_forward (layer2 N) a1 batch in
  let* a2 := relu_forward o2 (Nat.mul batch hidden) in
  let* o3 := fc_forward (layer3 N) a2 batch in
  let* a3 := softmax_forward o3 batch (l_out (layer3 N)) in
  Ok (mkPass o1 a1 o2 a2 o3 a3).

(** Net::forward, lines 361-372. *)
Definition net_forward (N : net) (state : list T) (batch : nat) : outcome (list T) :=
  let* p := forward_pass N state batch in Ok (aout3 p).

(** The backward pass of Net::trainStep, lines 376-391: gradients of the three layers. *)
Definition net_gradients (N : net) (state : list T) (action : list nat) (reward : list T) (batch : nat)
  : outcome (grads * grads * grads) :=
  let hidden := l_out (layer1 N) in
  let* p := forward_pass N state batch in
  let* d3 := loss_grad action (aout3 p) reward batch (l_out (layer3 N)) in
  let* (g3, i3) := fc_backward (layer3 N) (aout2 p) d3 batch in
  let* d2 := relu_backward (out2 p) i3 (Nat.mul batch hidden) in
  let* (g2, i2) := fc_backward (layer2 N) (aout1 p) d2 batch in
  let* d1 := relu_backward (out1 p) i2 (Nat.mul batch hidden) in
  let* (g1, _) := fc_backward (layer1 N) state d1 batch in
  Ok (g1, g2, g3).

(** Net::trainStep, lines 374-397. *)
Definition train_step (N : net) (state : list T) (action : list nat) (reward : list T) (batch : nat) : outcome net :=
  let* (g1, g2, g3) := net_gradients N state action reward batch in
  let* L1 := fc_step (layer1 N) (learn_rate N) (net_beta1 N) (net_beta2 N) g1 in
  let* L2 := fc_step (layer2 N) (learn_rate N) (net_beta1 N) (net_beta2 N) g2 in
  let* L3 := fc_step (layer3 N) (learn_rate N) (net_beta1 N) (net_beta2 N) g3 in
  Ok (mkNet L1 L2 L3 (learn_rate N) (net_beta1 N) (net_beta2 N)).
End Net.

Arguments layer T : clear implicits.
Arguments net T : clear implicits.
Arguments grads T : clear implicits.
Arguments pass T : clear implicits.
