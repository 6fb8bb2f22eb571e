(** Properties C16, C17, C49 and C50: the policy models that do not learn. *)
From Coq Require Import List ZArith Bool Ascii String Lia.
From Flocq Require Import BinarySingleNaN.
From Verif Require Import Model.Base Model.Float Model.Decimal Model.DatasetM Model.ModelStringM Model.PolicyModelsM
  Spec.DatasetSpec Spec.DatasetClient Spec.ModelStringSpec Spec.PolicyModelsSpec
  Proofs.PolicyModelsFacts Proofs.PolicyModelsExamples.
Import ListNotations.
Open Scope Z_scope.

Theorem C16_static_constant : forall P num_features n init p, -2147483648 <= p <= 2147483647 ->
  exists ps, parse_policy_model ($"Static,policy=" ++ print_Z p) = Ok ($"Static", ps) /\
    (p < 0 -> create_model P ($"Static") num_features n ps init = Throw) /\
    (0 <= p -> exists m, create_model P ($"Static") num_features n ps init = Ok m /\
       forall calls, ask P m calls = Ok (repeat (if p <? n then p else 0) (List.length calls), m)).
Proof. exact static_region_model. Qed.
Print Assumptions C16_static_constant.

Theorem C16_static_default : forall P num_features n init, 1 <= n ->
  exists ps m, parse_policy_model ($"Static") = Ok ($"Static", ps) /\
    create_model P ($"Static") num_features n ps init = Ok m /\
    forall calls, ask P m calls = Ok (repeat 0 (List.length calls), m).
Proof. exact static_default. Qed.
Print Assumptions C16_static_default.

(** Policy 2 of 3; policy 3 of 3 does not exist. *)
Example C16_nonvacuous : forall P D init,
  (let* (name, ps) := parse_policy_model ($"Static,policy=2") in
   let* m := create_model P name 1 3 ps init in let* (cs, _) := ask P m [(D, []); (D, [one32])] in Ok cs) = Ok [2; 2] /\
  (let* (name, ps) := parse_policy_model ($"Static,policy=3") in
   let* m := create_model P name 1 3 ps init in let* (cs, _) := ask P m [(D, [])] in Ok cs) = Ok [0].
Proof. split; reflexivity. Qed.

Theorem C17_round_robin_cycles : forall P num_features n init, 1 <= n ->
  exists m, create_model P ($"RoundRobin") num_features n [] init = Ok m /\
    forall calls, exists m', ask P m calls =
      Ok (map (fun k => Z.of_nat k mod n) (seq 0 (List.length calls)), m').
Proof. exact round_robin_answers. Qed.
Print Assumptions C17_round_robin_cycles.

(** With k = n both bounds are 1: any n consecutive calls return every policy exactly once. *)
Theorem C17_round_robin_fair : forall P num_features n init, 1 <= n ->
  exists m, create_model P ($"RoundRobin") num_features n [] init = Ok m /\
    forall calls answers m', ask P m calls = Ok (answers, m') ->
      forall s k c, (s + k <= List.length calls)%nat -> 0 <= c < n ->
        Z.of_nat k / n <= times c (firstn k (skipn s answers)) <= (Z.of_nat k + n - 1) / n.
Proof. exact round_robin_fair. Qed.
Print Assumptions C17_round_robin_fair.

Example C17_nonvacuous : forall P D init,
  (let* m := create_model P ($"RoundRobin") 1 3 [] init in
   let* (cs, _) := ask P m (repeat (D, [one32]) 7) in Ok cs) = Ok [0; 1; 2; 0; 1; 2; 0] /\
  times 0 (firstn 4 (skipn 2 [0; 1; 2; 0; 1; 2; 0])) = 1 /\ times 2 (firstn 4 (skipn 2 [0; 1; 2; 0; 1; 2; 0])) = 2 /\
  4 / 3 = 1 /\ (4 + 3 - 1) / 3 = 2.
Proof. repeat split. Qed.

Theorem C49_optimal_replays : forall P num_features n init pieces ps,
  Forall2 (fun s p => free_of "," s /\ exists rest, stoi s = Ok (p, rest)) pieces ps ->
  exists m0 m, create_model P ($"Optimal") num_features n [] init = Ok m0 /\
    m_load m0 (Some (comma_separated pieces)) = Ok m /\
    create_from_file ($"Optimal") n (Some (comma_separated pieces)) = Ok m /\
    (pieces <> [] -> m_load m0 (Some (comma_separated pieces ++ [","%char])%list) = Ok m) /\
    (forall calls, (List.length calls <= List.length ps)%nat ->
       exists m', ask P m calls = Ok (firstn (List.length calls) ps, m')) /\
    (forall calls, (List.length ps < List.length calls)%nat -> ask P m calls = Abort).
Proof. exact optimal_replays. Qed.
Print Assumptions C49_optimal_replays.

Example C49_nonvacuous : comma_separated [$"3"; $" 1"; $"-2x"] = $"3, 1,-2x" /\
  Forall2 (fun s p => free_of "," s /\ exists rest, stoi s = Ok (p, rest)) [$"3"; $" 1"; $"-2x"] [3; 1; -2].
Proof. exact optimal_example. Qed.

Theorem C50_dataset_map : forall P D n best d ks, reachable d ks ->
  (forall f p m, In (f, p, m) (ds_to_vector d) -> is_nan m = false) ->
  exists m, m_train P (MDatasetMap n best) d = Ok m /\
    forall f, Forall (fun x => is_nan x = false) f ->
      (existsb (fun e => same_features f (m_features e)) (ds_to_vector d) = true ->
         exists p, m_get_index P D m f = Ok (p, m) /\ best_policy_for f (ds_to_vector d) p) /\
      (existsb (fun e => same_features f (m_features e)) (ds_to_vector d) = false -> m_get_index P D m f = Abort).
Proof. exact dataset_map_answers. Qed.
Print Assumptions C50_dataset_map.

(** Features 1 were measured with policies 0, 2 and 1 (2 and 1 tie), features 5 with policy 3, features 7 never. *)
Example C50_nonvacuous : exists d ks, reachable d ks /\
  (forall f p m, In (f, p, m) (ds_to_vector d) -> is_nan m = false) /\
  forall P D, let answer x := (let* m := m_train P (MDatasetMap 4 []) d in
                               let* (p, _) := m_get_index P D m [f32_of_Z x] in Ok p) in
    answer 1 = Ok 1 /\ answer 5 = Ok 3 /\ answer 7 = Abort.
Proof. exact dataset_map_example. Qed.
