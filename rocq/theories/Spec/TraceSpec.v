(** Specification of the traces of policies (APOLLO_TRACE_POLICY) and of best policies (APOLLO_TRACE_BEST_POLICIES). *)
From Coq Require Import ZArith Bool Ascii String Sorted List.
From Flocq Require Import Core BinarySingleNaN.
From Verif Require Import Model.Base Model.Decimal Model.Float Model.DatasetM Model.PolicyModelsM Model.ConfigM Model.RuntimeM Spec.DatasetSpec Spec.RuntimeSpec.
Import ListNotations.
Open Scope Z_scope.

(** What a file holds; nothing if there is none. *)
Definition contents (path : bytes) (files : list (bytes * bytes)) : bytes := match file_find path files with Some s => s | None => [] end.

(** Features without their fractions, each followed by a comma. *)
Definition whole_features (f : list f32) : bytes := List.concat (map (fun x : f32 => print_Z (Ztrunc (B2R x)) ++ $", ") f).

(** The line for a policy answered. *)
Definition policy_line (rank : Z) (name model : bytes) (f : list f32) (k : Z) : bytes :=
  $"Rank " ++ print_Z rank ++ $" region " ++ name ++ $" model " ++ model ++ $" features [ " ++ whole_features f ++ $"] policy " ++ print_Z k ++ [nl].
Definition policy_file (rank : Z) : bytes := $"rank-" ++ print_Z rank ++ $"-policies.txt".

(** One line for each request, in order, with the region and its features as they are then. *)
Fixpoint policy_lines (P : platform) (w : world) (os : list op) : list bytes :=
  match os with
  | [] => []
  | o :: rest =>
      match step P w o with
      | Ok (w', x) =>
          match o, x with
          | OpGetPolicy r p _, GotPolicy k =>
              match nth_error (w_regions w) r with
              | Some R => [policy_line (w_rank w) (r_name R) (m_name (r_model R)) (call_features w r p) k]
              | None => []
              end
          | _, _ => []
          end ++ policy_lines P w' rest
      | _ => []
      end
  end.

(** The best policy of each features vector of a data set, by features: the lowest metric, then the lowest policy. *)
Definition best_of (d : dataset) (best : list (list f32 * (Z * f64))) : Prop :=
  StronglySorted features_before (map fst best) /\
  (forall f p m, In (f, p, m) (ds_to_vector d) -> existsb (same_features f) (map fst best) = true) /\
  forall f p m, In (f, (p, m)) best ->
    (exists f', In (f', p, m) (ds_to_vector d) /\ same_features f f' = true) /\
    forall f' p' m', In (f', p', m') (ds_to_vector d) -> same_features f f' = true -> Bleb m m' = true /\ (Beqb m m' = true -> p <= p').

(** The report of them. *)
Definition best_line (b : list f32 * (Z * f64)) : bytes :=
  $"[ " ++ whole_features (fst b) ++ $"] P:" ++ print_Z (fst (snd b)) ++ $" T: " ++ print_float (snd (snd b)) ++ [nl].
Definition best_report (rank : Z) (name : bytes) (d : dataset) (text : bytes) : Prop :=
  exists best, best_of d best /\
    text = $"=== Rank " ++ print_Z rank ++ $" BEST POLICIES Region " ++ name ++ $" ===" ++ [nl] ++ List.concat (map best_line best).
Definition best_file (step rank : Z) (name : bytes) : bytes :=
  $"step-" ++ print_Z step ++ $"-rank-" ++ print_Z rank ++ $"-" ++ name ++ $"-best_policies.txt".

(** The file of a training step holds the report of the region's data, with no metric that is no number. *)
Definition reported (w : world) (step : Z) (R : region) : Prop :=
  (forall f p m, In (f, p, m) (ds_to_vector (r_dataset R)) -> is_nan m = false) ->
  exists text, best_report (w_rank w) (r_name R) (r_dataset R) text /\ file_find (best_file step (w_rank w) (r_name R)) (w_files w) = Some text.

(** An unsigned 64-bit number as an int. *)
Definition as_int (n z : Z) : Prop := - 2 ^ 31 <= z < 2 ^ 31 /\ (2 ^ 32 | n - z).

(** After an execution of a region with a model that can be trained: the reports of the automatic trainings, by the number
    of executions or by the number of the region's. *)
Definition end_report (c : config) (os : list op) (xs : list result) (w w' : world) (r : nat) (R' : region) : Prop :=
  let n := (w_executions w + 1) mod 2 ^ 64 in
  let begins := count_begins (combine os xs) r in
  (global_due (w_config w) n -> cf_single_model c = 0 ->
     forall i Ri Ri', first_named (region_names w) (r_name Ri) i -> nth_error (w_regions w) i = Some Ri -> m_trainable (r_model Ri) = true ->
       nth_error (w_regions w') i = Some Ri' -> 0 < ds_size (r_dataset Ri') -> exists z, as_int n z /\ reported w' z Ri') /\
  (~ global_due (w_config w) n -> region_due (w_config w) begins \/ enough R' -> reported w' begins R').
