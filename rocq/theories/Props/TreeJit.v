(** Property C52: code generated from decision trees. *)
From Coq Require Import List ZArith Bool Ascii String.
From Flocq Require Import BinarySingleNaN.
From Verif Require Import Model.Base Model.Float Model.Decimal Model.TreeM Model.TreeIO Model.TreeJit
  Spec.DecimalSpec Spec.TreeSpec Spec.JitSpec Proofs.DatasetFileTheorems Proofs.TreeJitFacts.
Import ListNotations.
Open Scope Z_scope.

Theorem C52_generated_code_agrees : forall t, complete t -> Forall six_digit_exact (split_thresholds t) ->
  exists s, (forall level, generate_source level t = code level s) /\ compiles s /\
    forall x, call s x = evaluate t x.
Proof. exact generated_code_agrees. Qed.
Print Assumptions C52_generated_code_agrees.

Theorem C52_trained_complete : forall classes l t, partition_tree classes l t -> complete t.
Proof. exact partition_complete. Qed.
Print Assumptions C52_trained_complete.

(** Reading the threshold back as a float is not enough: the literal in the source is a double. *)
Theorem C52_rounded_threshold_refuted : exists t s x, complete t /\
  Forall (fun thr : f32 => stof (print_float thr) = Ok (thr, [])) (split_thresholds t) /\
  (forall level, generate_source level t = code level s) /\ compiles s /\
  evaluate t x = Ok 1 /\ call s x = Ok 0.
Proof. exact generated_code_differs. Qed.
Print Assumptions C52_rounded_threshold_refuted.

Theorem C52_left_only_falls_off : forall g n c f thr l cs x v,
  l <> Null -> complete l -> six_digit_exact thr ->
  f <> -1 -> vec_get x f = Ok v -> lt32 v thr = false ->
  evaluate (Node g n c f thr l Null cs) x = Ok c /\
  exists s, (forall level, generate_source level (Node g n c f thr l Null cs) = code level s) /\ call s x = UB.
Proof. exact generated_code_falls_off. Qed.
Print Assumptions C52_left_only_falls_off.

Theorem C52_right_only_malformed : forall g n c f thr r cs level, r <> Null -> complete r ->
  forall s k, plain_constants s -> generate_source level (Node g n c f thr Null r cs) <> code k s.
Proof. exact right_only_no_program. Qed.
Print Assumptions C52_right_only_malformed.

Example C52_nonvacuous :
  let t := bare 1 (f32_of_Z (-25)) (answer 3) (bare 0 (f32_of_Z 7) (answer 0) (answer 2)) in
  complete t /\ Forall six_digit_exact (split_thresholds t) /\
  evaluate t [f32_of_Z 7; f32_of_Z (-25)] = Ok 2 /\
  generate_source 2 t = $"    if (features[1] < -25) {
      return 3;
    }
    else {
      if (features[0] < 7) {
        return 0;
      }
      else {
        return 2;
      }
    }
".
Proof.
  cbv zeta. split; [|split; [|split]].
  - split; [discriminate|]. split; [reflexivity|]. split; [discriminate|]. split; reflexivity.
  - repeat (apply Forall_cons; [apply exact_of_Z; reflexivity|]). apply Forall_nil.
  - apply InsertionSortFacts.ok_is. vm_compute. reflexivity.
  - vm_compute. reflexivity.
Qed.
