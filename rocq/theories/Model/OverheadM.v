(** Model of the bundled benchmark, test/apollo-overhead.cpp: the calls it makes to the runtime and its exit status. The
    arguments are the numbers `atoi` reads; the measuring of time (lines 50, 65-66, 68, 71-73, 76, 79, 81-82), the resource
    usage of lines 84-85 and the output are left out, as are MPI_Init and MPI_Finalize. *)
From Coq Require Import ZArith Bool Ascii String List.
From Verif Require Import Model.Base Model.Float Model.ModelStringM Model.PolicyModelsM Model.RuntimeM.
Import ListNotations.
Open Scope Z_scope.

(** `unsigned X = atoi(...)`, test/apollo-overhead.cpp lines 27-30. *)
Definition as_unsigned (z : Z) : Z := z mod 2 ^ 32.

Section Overhead.
Variable P : platform.
(** The clock readings of the begin and end calls, the draws and the initial weights no tree uses, by number of the
    call. *)
Variable started ended : nat -> Z * Z.
Variable D : nat -> draws.
Variable init : nat -> nat -> f64.

(** [n] iterations of a loop whose body is [f], from number [i]. test/apollo-overhead.cpp lines 54, 69, 77. *)
Fixpoint loop (f : nat -> world -> outcome world) (n i : nat) (w : world) : outcome world :=
  match n with
  | O => Ok w
  | S n => let* w := f i w in loop f n (S i) w
  end.

(** The region, test/apollo-overhead.cpp lines 44-48; the constructor takes ints. *)
Definition overhead_region (features policies : Z) : op :=
  OpRegion (to_int features) ($"test-overhead") (to_int policies) 0 ($"DecisionTree,max_depth=2") [] init.

(** `setFeature(i % NUM_TRAINING_DATA)`, test/apollo-overhead.cpp line 57: a remainder by zero is undefined. *)
Definition overhead_feature (data : Z) (i : nat) (w : world) : outcome world :=
  if data =? 0 then UB
  else let* (w, _) := step P w (OpSetFeature 0 None (f32_of_Z (Z.of_nat i mod data))) in Ok w.

(** The body of the first loop, test/apollo-overhead.cpp lines 55-63. *)
Definition overhead_execution (features data : Z) (i : nat) (w : world) : outcome world :=
  let* (w, _) := step P w (OpBegin 0 false (started i)) in
  let* w := loop (fun _ w => overhead_feature data i w) (Z.to_nat features) 0 w in
  let* (w, _) := step P w (OpGetPolicy 0 None (D i)) in
  let* (w, _) := step P w (OpEnd 0 None (ended i) None) in
  Ok w.

(** `r->train(0, true, true)`, test/apollo-overhead.cpp line 70. *)
Definition overhead_train (_ : nat) (w : world) : outcome world :=
  let* (w, _) := step P w (OpTrain 0 0 true true) in Ok w.

(** `r->getPolicyIndex()`, test/apollo-overhead.cpp line 78, the [i]-th time. *)
Definition overhead_ask (i : nat) (w : world) : outcome world :=
  let* (w, _) := step P w (OpGetPolicy 0 None (D i)) in Ok w.

(** Execution and model building, test/apollo-overhead.cpp lines 42-73. *)
Definition overhead_build (features policies data reps : Z) (w : world) : outcome world :=
  let* (w, _) := step P w (overhead_region features policies) in
  let* w := loop (overhead_execution features data) (Z.to_nat reps) 0 w in
  loop overhead_train (Z.to_nat reps) 0 w.

(** Model evaluation, test/apollo-overhead.cpp lines 75-80. *)
Definition overhead_evaluate (reps : Z) (w : world) : outcome world :=
  let n := Z.to_nat reps in
  let* (w, _) := step P w (OpBegin 0 false (started n)) in
  let* w := loop overhead_ask n n w in
  let* (w, _) := step P w (OpEnd 0 None (ended n) None) in
  Ok w.

(** main, test/apollo-overhead.cpp lines 14-106: the exit status and the state it leaves. *)
Definition overhead_main (argc a1 a2 a3 a4 : Z) (w : world) : outcome (Z * world) :=
  if argc <? 5 then Ok (1, w)
  else
    let features := as_unsigned a1 in
    let policies := as_unsigned a2 in
    let data := as_unsigned a3 in
    let reps := as_unsigned a4 in
    if reps <? data then Ok (1, w)
    else
      let* w := overhead_build features policies data reps w in
      let* w := overhead_evaluate reps w in
      Ok (0, w).
End Overhead.
