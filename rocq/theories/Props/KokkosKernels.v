(** Property C87: fences around the kernels of a Kokkos program. *)
From Coq Require Import ZArith Bool Ascii String List.
From Verif Require Import Model.Base Model.Float Model.DatasetM Model.ModelStringM Model.PolicyModelsM Model.ConfigM Model.RuntimeM Model.KokkosM
  Spec.RuntimeSpec Spec.KokkosSpec Proofs.RuntimeExamples Proofs.KokkosFences Proofs.KokkosExamples Proofs.KokkosFenceExamples.
Import ListNotations.
Open Scope Z_scope.

(** ** C87 *)

(** The device of a kernel is fenced before and after it if a problem was met for the first time since the last
    training, and not otherwise. *)
Theorem C87_fences : forall P hash c files flush os K vss dev, krun P hash (started c files flush) os = Ok (K, vss) ->
  Z.of_nat (List.length os) < 2 ^ 64 -> 0 <= dev < 2 ^ 32 ->
  (newly_met flush os -> kernel_begins true K dev = (dev, [dev]) /\ kernel_ends true K dev = [dev]) /\
  (~ newly_met flush os -> kernel_begins true K dev = (dev, []) /\ kernel_ends true K dev = []).
Proof. exact fences. Qed.
Print Assumptions C87_fences.

(** So once the problems of a program have been met, a training ends all fencing. *)
Theorem C87_unfenced : forall P hash c files flush os o more K vss dev, krun P hash (started c files flush) (os ++ o :: more) = Ok (K, vss) ->
  Z.of_nat (List.length (os ++ o :: more)) < 2 ^ 64 -> 0 <= dev < 2 ^ 32 -> flushes flush os o ->
  (forall ids, In ids (problems (os ++ o :: more)) -> In ids (problems os)) ->
  kernel_begins true K dev = (dev, []) /\ kernel_ends true K dev = [].
Proof. exact unfenced_after. Qed.
Print Assumptions C87_unfenced.

(** This includes kernels of problems that are still being explored. *)
Theorem C87_exploring_unfenced : exists K vss K' vs R, krun example_platform example_hash (started forest_settings [] 1) other_ends = Ok (K, vss) /\
  kernel_begins true K 0 = (0, [0]) /\ kstep example_platform example_hash K (end_kernel 10 2) = Ok (K', vs) /\ flushes 1 other_ends (end_kernel 10 2) /\
  nth_error (w_regions (k_world K')) 0 = Some R /\ m_trainable (r_model R) = true /\ open_problem (other_ends ++ [end_kernel 10 2]) 20 = Some [1; 2] /\
  kernel_begins true K' 0 = (0, []).
Proof. exact exploring_unfenced. Qed.
Print Assumptions C87_exploring_unfenced.

(** The witness has a new problem before the training. *)
Example C87_nonvacuous : newly_met 1 other_ends /\ flushes 1 other_ends (end_kernel 10 2).
Proof. exact (conj other_newly other_flushes). Qed.
