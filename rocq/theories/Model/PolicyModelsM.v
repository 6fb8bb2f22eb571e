(** The policy models as the runtime sees them (include/apollo/PolicyModel.h, include/apollo/models/*.h,
    src/models/*.cpp) and the factory that creates them (src/ModelFactory.cpp). Without ENABLE_OPENCV.

    Simplifications. Messages to std::cout and std::cerr are left out. Failure to open a file for writing is not
    modelled. The behaviour of the random number engines is a parameter of each call that draws. *)
From Coq Require Import List ZArith Bool Ascii String.
From Verif Require Import Model.Base Model.Float Model.Decimal Model.DatasetM Model.TreeM Model.TreeIO Model.ForestM
  Model.NetM Model.PolicyNetM Model.ModelStringM.
Import ListNotations.
Open Scope Z_scope.

(** What the implementation of the C++ library is free to choose: std::sort (DecisionTreeImpl.cpp lines 331, 363), the
    default-seeded std::mt19937 with std::uniform_int_distribution<size_t> (RandomForestImpl.cpp lines 34-35),
    std::exp and std::pow (PolicyNet.cpp). *)
Record platform := { p_sort : sorter; p_pick : picker; p_libm : libm }.

(** The random engines in one call: [d_uniform lo hi] is std::uniform_int_distribution<>(lo, hi) (Random.cpp lines
    20, 33), [d_discrete w] is std::discrete_distribution over the weights [w] (PolicyNet.cpp lines 590-591). *)
Record draws := { d_uniform : Z -> Z -> Z; d_discrete : list f64 -> outcome Z }.

(** The objects behind a PolicyModel pointer with the members that matter:
    Static.h line 31; Random.h (policy_count only); RoundRobin.h line 31; Optimal.h line 32;
    DatasetMap.h line 31; DecisionTree.h lines 46-49; RandomForest.h lines 48-51; PolicyNet.h lines 45-55.
    The first argument is policy_count (PolicyModel.h line 34), which Optimal sets to 0 and PolicyNet keeps in
    its own record. The explorer is a unique_ptr: [None] is null. *)
Inductive model :=
| MStatic (count choice : Z)
| MRandom (count : Z)
| MRoundRobin (count last : Z)
| MOptimal (queue : list Z)
| MDatasetMap (count : Z) (best : best_map)
| MTree (count : Z) (trainable : bool) (impl : dtree) (explorer : option model)
| MForest (count : Z) (trainable : bool) (impl : forest) (explorer : option model)
| MNet (net : pnet f64).

(** PolicyModel::isTrainable: Static.h line 27, Random.h line 26, RoundRobin.h line 26, Optimal.h line 28,
    DatasetMap.h line 26, DecisionTree.cpp line 86, RandomForest.cpp line 88, PolicyNet.cpp line 596. *)
Definition m_trainable (m : model) : bool :=
  match m with
  | MStatic _ _ | MRandom _ | MRoundRobin _ _ | MOptimal _ | MDatasetMap _ _ => false
  | MTree _ t _ _ | MForest _ t _ _ => t
  | MNet P => pn_trainable P
  end.

(** The member name, PolicyModel.h line 35, as set by the constructors. *)
Definition m_name (m : model) : bytes :=
  match m with
  | MStatic _ p => $"Static," ++ print_Z p
  | MRandom _ => $"Random"
  | MRoundRobin _ _ => $"RoundRobin"
  | MOptimal _ => $"Optimal"
  | MDatasetMap _ _ => $"DatasetMap"
  | MTree _ _ _ _ => $"DecisionTree"
  | MForest _ _ _ _ => $"RandomForest"
  | MNet _ => $"PolicyNet"
  end.

(** Random::Random, Random.cpp lines 30-34: the distribution needs 0 <= policy_count - 1. *)
Definition new_random (n : Z) : outcome model := if n <? 1 then UB else Ok (MRandom n).

(** PolicyModel::getIndex: Static.cpp line 14; Random.cpp lines 15-28; RoundRobin.cpp lines 16-20 (remainder by
    zero is undefined); Optimal.cpp lines 29-39; DatasetMap.cpp lines 14-24 (a NaN breaks the map's order);
    DecisionTree.cpp lines 115-120; RandomForest.cpp lines 119-124; PolicyNet.cpp lines 532-594. *)
Fixpoint m_get_index (P : platform) (D : draws) (m : model) (features : list f32) : outcome (Z * model) :=
  match m with
  | MStatic _ choice => Ok (choice, m)
  | MRandom n => if 1 <? n then Ok (d_uniform D 0 (n - 1), m) else Ok (0, m)
  | MRoundRobin n last =>
      if n =? 0 then UB
      else let choice := Z.rem (last + 1) n in Ok (choice, MRoundRobin n choice)
  | MOptimal queue =>
      match queue with
      | [] => Abort
      | p :: rest => Ok (p, MOptimal rest)
      end
  | MDatasetMap _ best =>
      if negb (nan_free features) then UB
      else match map_find vec_lt features best with
           | None => Abort
           | Some (p, _) => Ok (p, m)
           end
  | MTree n trainable t explorer =>
      if negb trainable then let* c := dt_predict t features in Ok (c, m)
      else match explorer with
           | None => UB
           | Some e => let* (c, e') := m_get_index P D e features in Ok (c, MTree n trainable t (Some e'))
           end
  | MForest n trainable f explorer =>
      if negb trainable then let* c := f_predict f features in Ok (c, m)
      else match explorer with
           | None => UB
           | Some e => let* (c, e') := m_get_index P D e features in Ok (c, MForest n trainable f (Some e'))
           end
  | MNet N =>
      let* (c, N') := pn_get_index (f64_arith (p_libm P)) (d_discrete D) N features in Ok (c, MNet N')
  end.

(** PolicyModel::train: no-ops in Static.h line 28, Random.h line 27, RoundRobin.h line 27, Optimal.h line 29;
    DatasetMap.cpp lines 26-31; DecisionTree.cpp lines 88-113; RandomForest.cpp lines 90-115; PolicyNet.cpp
    lines 442-475. *)
Definition m_train (P : platform) (m : model) (d : dataset) : outcome model :=
  match m with
  | MStatic _ _ | MRandom _ | MRoundRobin _ _ | MOptimal _ => Ok m
  | MDatasetMap n _ => let '(_, _, best) := ds_find_min d [] [] in Ok (MDatasetMap n best)
  | MTree n _ t explorer =>
      let '(features, responses, _) := ds_find_min d [] [] in
      let* t' := dt_train (p_sort P) t features responses in
      Ok (MTree n false t' explorer)
  | MForest n _ f explorer =>
      let '(features, responses, _) := ds_find_min d [] [] in
      let* f' := f_train (p_sort P) (p_pick P) f features responses in
      Ok (MForest n false f' explorer)
  | MNet N => let* N' := pn_train (f64_arith (p_libm P)) (fun x => x) N d in Ok (MNet N')
  end.

(** PolicyModel::store: what the file contains afterwards; [None] when the model writes no file (Static.h line 26,
    Random.h line 25, RoundRobin.h line 25, Optimal.h line 27, DatasetMap.h line 25). DecisionTree.cpp line 127,
    RandomForest.cpp line 131, PolicyNet.cpp lines 598-655. *)
Definition m_store (m : model) : outcome (option bytes) :=
  match m with
  | MStatic _ _ | MRandom _ | MRoundRobin _ _ | MOptimal _ | MDatasetMap _ _ => Ok None
  | MTree _ _ t _ => let* s := dt_save t in Ok (Some s)
  | MForest _ _ f _ => let* s := f_save f in Ok (Some s)
  | MNet N => Ok (Some (pn_store N))
  end.

(** The pieces `std::getline(infile, s, ',')` returns until it fails, Optimal.cpp lines 21-22 and 46-47: up to each
    comma, and the rest unless it is empty. *)
Fixpoint split_commas (acc : bytes) (s : bytes) : list bytes :=
  match s with
  | [] => match acc with [] => [] | _ => [acc] end
  | c :: r => if Ascii.eqb c "," then acc :: split_commas [] r else split_commas (acc ++ [c]) r
  end.

(** `optimal_policy.push_back(std::stoi(policy_str))` for each piece, Optimal.cpp lines 21-22 and 46-47. *)
Fixpoint push_policies (queue : list Z) (pieces : list bytes) : outcome (list Z) :=
  match pieces with
  | [] => Ok queue
  | s :: r => let* (p, _) := stoi s in push_policies (queue ++ [p]) r
  end.

(** PolicyModel::load with the contents of the file ([None]: it cannot be opened). No-ops in Static.h line 25,
    Random.h line 24, RoundRobin.h line 24, DatasetMap.h line 24; Optimal.cpp lines 41-50; DecisionTree.cpp lines
    122-126 with DecisionTreeImpl.cpp lines 248-254; RandomForest.cpp lines 126-130 with RandomForestImpl.cpp
    lines 167-173; PolicyNet.cpp lines 657-685. *)
Definition m_load (m : model) (file : option bytes) : outcome model :=
  match m with
  | MStatic _ _ | MRandom _ | MRoundRobin _ _ | MDatasetMap _ _ => Ok m
  | MOptimal queue =>
      match file with
      | None => Ok m
      | Some s => let* q := push_policies queue (split_commas [] s) in Ok (MOptimal q)
      end
  | MTree n _ t explorer =>
      match file with
      | None => Throw
      | Some s => let* t' := dt_load t s in Ok (MTree n false t' explorer)
      end
  | MForest n _ f explorer =>
      match file with
      | None => Throw
      | Some s => let* f' := f_load f s in Ok (MForest n false f' explorer)
      end
  | MNet N => Ok (MNet (pn_load N file))
  end.

(** Optimal::Optimal(file), Optimal.cpp lines 16-25. *)
Definition new_optimal (file : option bytes) : outcome model :=
  match file with
  | None => Ok (MOptimal [])
  | Some s => let* q := push_policies [] (split_commas [] s) in Ok (MOptimal q)
  end.

(** DecisionTree::DecisionTree(num_policies, path), DecisionTree.cpp lines 35-54: max_depth comes from the file. *)
Definition load_tree_model (n : Z) (file : option bytes) : outcome model :=
  match file with
  | None => Abort
  | Some s => let* t := dt_load (new_dtree 0) s in Ok (MTree n false t None)
  end.

(** RandomForest::RandomForest(num_policies, path), RandomForest.cpp lines 36-54. *)
Definition load_forest_model (n : Z) (file : option bytes) : outcome model :=
  match file with
  | None => Abort
  | Some s => let* f := f_load (new_forest n 0 0) s in Ok (MForest n false f None)
  end.

(** ModelFactory::createPolicyModel(model_name, num_policies, path), ModelFactory.cpp lines 26-47. [file] is the
    contents of the file at the path. *)
Definition create_from_file (name : bytes) (num_policies : Z) (file : option bytes) : outcome model :=
  if bytes_eqb name ($"Static") || bytes_eqb name ($"Random") || bytes_eqb name ($"RoundRobin")
     || bytes_eqb name ($"DatasetMap") then Throw
  else if bytes_eqb name ($"Optimal") then new_optimal file
  else if bytes_eqb name ($"DecisionTree") then load_tree_model num_policies file
  else if bytes_eqb name ($"RandomForest") then load_forest_model num_policies file
  else if bytes_eqb name ($"PolicyNet") then Throw
  else Abort.

(** A parameter read by std::stoi, or its default (ModelFactory.cpp lines 57-58). *)
Definition param_int (key : bytes) (default : Z) (m : params) : outcome Z :=
  match param_find key m with
  | None => Ok default
  | Some v => let* (z, _) := stoi v in Ok z
  end.

(** A parameter read by std::stoul and stored in an unsigned, or its default (ModelFactory.cpp lines 77-79, 99-104). *)
Definition param_unsigned (key : bytes) (default : Z) (m : params) : outcome Z :=
  match param_find key m with
  | None => Ok default
  | Some v => let* (z, _) := stoul v in Ok (z mod 2 ^ 32)
  end.

(** A parameter read by std::stod, or its default (ModelFactory.cpp lines 132-141). *)
Definition param_double (key : bytes) (default : f64) (m : params) : outcome f64 :=
  match param_find key m with
  | None => Ok default
  | Some v => let* (x, _) := stod v in Ok x
  end.

(** The Static branch, ModelFactory.cpp lines 56-68. *)
Definition create_static (num_policies : Z) (m : params) : outcome model :=
  let* policy := param_int ($"policy") 0 m in
  if policy <? 0 then Throw
  else Ok (MStatic num_policies (if num_policies <=? policy then 0 else policy)).

(** The PolicyNet branch, ModelFactory.cpp lines 127-144. The literals 1e-2 and 0.9 are the nearest doubles. A
    negative size makes the array allocations invalid; overflow of the int products of sizes is not modelled. *)
Definition create_net (P : platform) (num_features num_policies : Z) (m : params) (init : nat -> nat -> f64) : outcome model :=
  let* lr := param_double ($"lr") (div64 one64 (f64_of_Z 100)) m in
  let* beta := param_double ($"beta") half64 m in
  let* beta1 := param_double ($"beta1") half64 m in
  let* beta2 := param_double ($"beta2") (div64 (f64_of_Z 9) (f64_of_Z 10)) m in
  let* threshold := param_double ($"threshold") zero64 m in
  if (num_features <? 0) || (num_policies <? 0) then UB
  else Ok (MNet (new_pnet (f64_arith (p_libm P)) (Z.to_nat num_policies) (Z.to_nat num_features)
                  lr beta beta1 beta2 threshold init)).

(** ModelFactory::createPolicyModel(model_name, num_features, num_policies, model_params), ModelFactory.cpp lines
    49-152. The explorer is created by the same function with no parameters (lines 83-94, 109-120), whose own
    explorer, if any, is RoundRobin: [fuel] 3 suffices. [init] are the random initial weights of a network. *)
Fixpoint create_fuel (P : platform) (fuel : nat) (name : bytes) (num_features num_policies : Z) (m : params)
  (init : nat -> nat -> f64) : outcome model :=
  match fuel with
  | O => Fuel
  | S fuel' =>
      let explorer :=
        match param_find ($"explore") m with
        | Some e => create_fuel P fuel' e num_features num_policies [] init
        | None => create_fuel P fuel' ($"RoundRobin") num_features num_policies [] init
        end in
      if bytes_eqb name ($"Static") then create_static num_policies m
      else if bytes_eqb name ($"DatasetMap") then Ok (MDatasetMap num_policies [])
      else if bytes_eqb name ($"Random") then new_random num_policies
      else if bytes_eqb name ($"RoundRobin") then Ok (MRoundRobin num_policies (-1))
      else if bytes_eqb name ($"DecisionTree") then
        let* max_depth := param_unsigned ($"max_depth") 2 m in
        let* e := explorer in
        Ok (MTree num_policies true (new_dtree max_depth) (Some e))
      else if bytes_eqb name ($"RandomForest") then
        let* num_trees := param_unsigned ($"num_trees") 10 m in
        let* max_depth := param_unsigned ($"max_depth") 2 m in
        let* e := explorer in
        Ok (MForest num_policies true (new_forest num_policies num_trees max_depth) (Some e))
      else if bytes_eqb name ($"PolicyNet") then create_net P num_features num_policies m init
      else if bytes_eqb name ($"Optimal") then Ok (MOptimal [])
      else Abort
  end.

(** See [create_fuel]. ModelFactory::createPolicyModel, src/ModelFactory.cpp lines 49-152. *)
Definition create_model (P : platform) (name : bytes) (num_features num_policies : Z) (m : params)
  (init : nat -> nat -> f64) : outcome model := create_fuel P 3 name num_features num_policies m init.
