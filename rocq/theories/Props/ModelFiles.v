(** C96-C97: models read from files. *)
From Coq Require Import ZArith Bool Ascii String List.
From Flocq Require Import BinarySingleNaN.
From Verif Require Import Model.Base Model.Float Model.DatasetM Model.TreeM Model.ForestM Model.ModelStringM Model.PolicyModelsM Model.ConfigM Model.RuntimeM
  Spec.PolicyModelsSpec Spec.ModelFileSpec Spec.RuntimeSpec Spec.StartupSpec Spec.ForestSpec
  Proofs.RuntimeExamples Proofs.RuntimePolicyExamples Proofs.ModelFileFacts Proofs.ModelFileExamples.
Import ListNotations.
Open Scope Z_scope.

(** C96: a tree or forest created from a file and one created with any parameters that then loads the file fail alike, or
    are both trained, are stored as the same file and answer alike for ever. *)
Theorem C96_two_ways : forall P name nf n ps init m s, name = $"DecisionTree" \/ name = $"RandomForest" -> create_model P name nf n ps init = Ok m ->
  same_outcome P (m_load m (Some s)) (create_from_file name n (Some s)).
Proof. exact two_ways. Qed.
Print Assumptions C96_two_ways.

(** A trained tree's file, read both ways. *)
Example C96_two_ways_example : exists w xs text m1 m2, run example_platform (start_world storing []) (three_policies "DecisionTree,explore=RoundRobin") = Ok (w, xs) /\
  (exists R, nth_error (w_regions w) 0 = Some R /\ m_store (r_model R) = Ok (Some text)) /\
  (let* m := create_model example_platform ($"DecisionTree") 1 3 [] no_init in m_load m (Some text)) = Ok m1 /\
  create_from_file ($"DecisionTree") 3 (Some text) = Ok m2 /\ replies example_platform m2 [(fair_draws, [f32_of_Z 3])] = Ok [2].
Proof. exact stored_text. Qed.

(** C96: without the file one way throws and the other aborts. *)
Theorem C96_no_file : forall P name nf n ps init m, name = $"DecisionTree" \/ name = $"RandomForest" -> create_model P name nf n ps init = Ok m ->
  m_load m None = Throw /\ create_from_file name n None = Abort.
Proof. exact no_file. Qed.
Print Assumptions C96_no_file.

(** C96: every other model than Optimal throws, although networks store files; unknown names abort. *)
Theorem C96_others : forall name n file, ~ In name [$"Optimal"; $"DecisionTree"; $"RandomForest"] ->
  create_from_file name n file = (if in_dec (list_eq_dec ascii_dec) name [$"Static"; $"Random"; $"RoundRobin"; $"DatasetMap"; $"PolicyNet"] then Throw else Abort).
Proof. exact others. Qed.
Print Assumptions C96_others.

(** C97: the number of policies plays no part in what a tree that loaded a file answers. *)
Theorem C97_any_policies : forall P nf nf' n n' ps ps' init init' m m' s, create_model P ($"DecisionTree") nf n ps init = Ok m -> create_model P ($"DecisionTree") nf' n' ps' init' = Ok m' ->
  same_outcome P (m_load m (Some s)) (m_load m' (Some s)).
Proof. exact any_policies. Qed.
Print Assumptions C97_any_policies.

(** C97: a tree trained for three policies and stored; a later process whose region of that name has two policies is
    answered policy 2. *)
Theorem C97_out_of_range : exists w xs w2 x y z R, run example_platform (start_world storing []) (three_policies "DecisionTree,explore=RoundRobin") = Ok (w, xs) /\
  run example_platform (start_world storing (w_files w)) (two_policies "DecisionTree,load") = Ok (w2, [x; y; z; GotPolicy 2]) /\
  nth_error (w_regions w2) 0 = Some R /\ r_num_policies R = 2.
Proof. exact three_then_two. Qed.
Print Assumptions C97_out_of_range.

(** C97: a forest checks: a file of a forest for another number of policies throws, both ways. *)
Theorem C97_forest_checked : forall P nf n ps init m k t e f text, create_model P ($"RandomForest") nf n ps init = Ok m -> writable_forest f -> f_num_classes f <> n ->
  m_store (MForest k t f e) = Ok (Some text) -> m_load m (Some text) = Throw /\ create_from_file ($"RandomForest") n (Some text) = Throw.
Proof. exact forest_checked. Qed.
Print Assumptions C97_forest_checked.

Example C97_forest_checked_example : exists f text m, writable_forest f /\ f_num_classes f = 3 /\ m_store (MForest 3 false f None) = Ok (Some text) /\
  create_model example_platform ($"RandomForest") 1 2 [] no_init = Ok m.
Proof. exact stored_forest. Qed.

Example C97_forest_run : exists w xs, run example_platform (start_world storing []) (three_policies "RandomForest,explore=RoundRobin") = Ok (w, xs) /\
  run example_platform (start_world storing (w_files w)) (two_policies "RandomForest,load") = Throw /\
  exists w2 x y z, run example_platform (start_world storing (w_files w)) (make "r" 3 0 "RandomForest,load" :: tl (two_policies "")) = Ok (w2, [x; y; z; GotPolicy 2]).
Proof. exact forest_refused. Qed.
