(** C123: a measurement that is kept takes the features of its context with it. *)
From Coq Require Import ZArith Bool Ascii String List.
From Verif Require Import Model.Base Model.Float Model.DatasetM Model.PolicyModelsM Model.ConfigM Model.RuntimeM
  Spec.RuntimeSpec Spec.EmptiedSpec Proofs.RuntimeExamples Proofs.RuntimePolicyExamples Proofs.RuntimeEmptied Proofs.RuntimeEmptiedExamples.
Import ListNotations.
Open Scope Z_scope.

(** After the end of a synchronous execution the context has no features if the measurement was kept, and its features
    otherwise; its policy stays. *)
Theorem C123_moved : forall P c files os w xs r R o w' x,
  run P (start_world c files) os = Ok (w, xs) -> forallb explicit os = true -> nth_error (w_regions w) r = Some R ->
  ends_sync r o -> step P w o = Ok (w', x) ->
  exists R', nth_error (w_regions w') r = Some R' /\
    c_features (r_sync R') = (if keeps c R then [] else c_features (r_sync R)) /\ c_policy (r_sync R') = c_policy (r_sync R).
Proof. exact moved_out. Qed.
Print Assumptions C123_moved.

(** Until the region is begun again, or a feature set, the context has none, and another end records a measurement
    without features. *)
Theorem C123_second_end : forall P c files os w xs r R o w1 x os2 w2 xs2 R2 now early w3 y,
  run P (start_world c files) os = Ok (w, xs) -> forallb explicit os = true ->
  nth_error (w_regions w) r = Some R -> keeps c R = true -> ends_sync r o -> step P w o = Ok (w1, x) ->
  run P w1 os2 = Ok (w2, xs2) -> forallb explicit os2 = true -> Forall (gives_nothing r) os2 -> nth_error (w_regions w2) r = Some R2 ->
  step P w2 (OpEnd r (Some (r, Sync)) now early) = Ok (w3, y) ->
  c_features (r_sync R2) = [] /\
  exists R3 t, nth_error (w_regions w3) r = Some R3 /\
    if keeps c R2 then ds_insert (r_dataset R2) [] (c_policy (r_sync R2)) t = Ok (r_dataset R3) else r_dataset R3 = r_dataset R2.
Proof. exact nothing_left. Qed.
Print Assumptions C123_second_end.

(** An execution with the feature 3, ended, and ended again after an execution of another region. *)
Example C123_nonvacuous : exists w xs R w1 x1 w2 xs2 R2 w3 x3 R3,
  run example_platform (start_world plain []) ended_calls = Ok (w, xs) /\ forallb explicit ended_calls = true /\
  nth_error (w_regions w) 0 = Some R /\ keeps plain R = true /\ List.length (c_features (r_sync R)) = 1%nat /\
  ends_sync 0 (finish s0 15) /\ step example_platform w (finish s0 15) = Ok (w1, x1) /\
  run example_platform w1 other_calls = Ok (w2, xs2) /\ forallb explicit other_calls = true /\ Forall (gives_nothing 0) other_calls /\
  nth_error (w_regions w2) 0 = Some R2 /\ keeps plain R2 = true /\
  step example_platform w2 (finish s0 30) = Ok (w3, x3) /\ nth_error (w_regions w3) 0 = Some R3 /\ keys_of R3 = [([], 1); ([f32_of_Z 3], 0)].
Proof. exact twice_ended. Qed.
