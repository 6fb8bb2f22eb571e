(** Model of the bundled device programs, test/test-cuda.cpp and test/test-hip.cpp, which replace the timer of the
    synchronous context by a device timer. Left out are the arrays, the copies and the kernel (test-cuda.cpp
    lines 30-71, 84-87 and 109-112), checkResult, which prints a message only, and the output. *)
From Coq Require Import ZArith Bool Ascii String List.
From Verif Require Import Model.Base Model.Float Model.PolicyModelsM Model.RuntimeM.
Import ListNotations.
Open Scope Z_scope.

(** `ctx->timer = Apollo::Timer::create<CudaAsync>(); ctx->timer->start();`, test/test-cuda.cpp lines 95-97,
    test/test-hip.cpp lines 98-100, with TimerCudaAsync.cpp lines 25-34 and 42-46. *)
Definition install_timer (w : world) (p : ctxptr) : outcome world :=
  let* c := get_context w p in
  Ok (set_context w p (mkContext (c_features c) (c_policy c) (c_idx c) (Events false None))).

Section GpuTest.
Variable P : platform.

(** Region::end(context), src/Region.cpp lines 569-580, whatever the timer of the synchronous context is: [early] is the
    elapsed time if the device reaches the stop event, recorded on line 571, before line 574 asks for it. If it does not,
    isDone returns false, which line 574 ignores, and line 575 reads the indeterminate `metric`. *)
Definition end_installed (w : world) (r : nat) (p : ctxptr) (now : Z * Z) (early : option f32) : outcome world :=
  if is_sync_of r p then
    let* c := get_context w p in
    let w := set_context w p (mkContext (c_features c) (c_policy c) (c_idx c) (timer_stop now (c_timer c))) in
    let w := match early with Some ms => complete w (p, ms) | None => w end in
    let* c := get_context w p in
    let* d := timer_done (c_timer c) in
    match d with
    | Some metric => collect_context P w r p metric
    | None => UB
    end
  else end_context P w r p now early.

(** The clock readings of the begin and end calls, the draws, and the elapsed times of the device, by iteration. *)
Variable started ended : nat -> Z * Z.
Variable D : nat -> draws.
Variable early : nat -> option f32.
Variable init : nat -> nat -> f64.

(** `r->end()`, which ends the current context: test/test-cuda.cpp line 114, test/test-hip.cpp line 116. *)
Definition end_current (w : world) (r : nat) (now : Z * Z) (e : option f32) : outcome world :=
  let* _ := get_region w r in
  let* p := resolve w r None in
  end_installed w r p now e.

(** The body of the loop, test/test-cuda.cpp lines 83-119, test/test-hip.cpp lines 86-124, for [np] policies and arrays of
    [n] numbers: the policy taken. A policy other than the cases of the switch aborts. *)
Definition gpu_execution (np n : Z) (j : nat) (w : world) : outcome (world * Z) :=
  let* (w, p) := begin_features w 0 [f32_of_Z n] (started j) in
  let* (w, x) := step P w (OpGetPolicy 0 None (D j)) in
  match x with
  | GotPolicy k =>
      let* w := install_timer w p in
      if negb ((0 <=? k) && (k <? np)) then Abort
      else
        let* w := end_current w 0 (ended j) (early j) in
        if Nat.eqb j 10 then let* (w, _) := step P w (OpTrainAll 0 true) in Ok (w, k) else Ok (w, k)
  | _ => Abort
  end.

(** [todo] iterations from number [j] on. test/test-cuda.cpp line 82, test/test-hip.cpp line 85. *)
Fixpoint gpu_loop (np n : Z) (todo j : nat) (w : world) : outcome (world * list Z) :=
  match todo with
  | O => Ok (w, [])
  | S todo =>
      let* (w, k) := gpu_execution np n j w in
      let* (w, ks) := gpu_loop np n todo (S j) w in
      Ok (w, k :: ks)
  end.

(** main: the region, test/test-cuda.cpp lines 77-79, and 20 iterations; the policies taken. *)
Definition gpu_main (name : bytes) (np n : Z) (w : world) : outcome (world * list Z) :=
  let* (w, _) := step P w (OpRegion 1 name np 0 [] [] init) in
  gpu_loop np n 20 0 w.

(** test/test-cuda.cpp lines 28 and 77-79. *)
Definition cuda_main : world -> outcome (world * list Z) := gpu_main ($"cuda-region") 2 100000.

(** test/test-hip.cpp lines 31 and 80-82. *)
Definition hip_main : world -> outcome (world * list Z) := gpu_main ($"hip-region") 3 1000000.
End GpuTest.
