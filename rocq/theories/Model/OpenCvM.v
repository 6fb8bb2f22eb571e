(** The decision tree, random forest and time models of a build with ENABLE_OPENCV: src/models/DecisionTree.cpp,
    src/models/RandomForest.cpp, src/models/RegressionTree.cpp.

    Simplifications. OpenCV is a parameter: objects of a type [M] that can be created, trained on two matrices, asked,
    loaded and saved; its setters other than the depth, the number of trees and the categories are the same constants
    in every call and belong to that parameter. A matrix is its type, its width and its rows of 32-bit cells. Messages
    are left out. *)
From Coq Require Import ZArith Bool Ascii String List.
From Flocq Require Import BinarySingleNaN Bits.
From Verif Require Import Model.Base Model.Float Model.DatasetM Model.ModelStringM Model.PolicyModelsM Model.ConfigM Model.RuntimeM Model.MpiM.
Import ListNotations.
Open Scope Z_scope.

(** CV_32F and CV_32S, DecisionTree.cpp lines 100 and 105, RegressionTree.cpp lines 50 and 60. *)
Inductive celltype := Cell32F | Cell32S.
(** cv::Mat with one channel, as built at DecisionTree.cpp lines 98-105. *)
Record mat := mkMat { mt_type : celltype; mt_width : nat; mt_rows : list (list Z) }.

(** The 32 bits of an int, RegressionTree.cpp line 60. *)
Definition int_bits (z : Z) : Z := z mod 2 ^ 32.
(** The int with these 32 bits, as OpenCV reads a CV_32S cell, DecisionTree.cpp line 105. *)
Definition cell_int (z : Z) : Z := to_int z.
(** The float with these 32 bits, as OpenCV reads a CV_32F cell, DecisionTree.cpp line 100. *)
Definition cell_float (z : Z) : f32 := of_bits32 z.

(** An OpenCV library: DTrees::create with setMaxDepth and setMaxCategories (DecisionTree.cpp lines 64-75),
    RTrees::create with the number of trees too (RandomForest.cpp lines 65-80), RTrees::create as the time model does
    (RegressionTree.cpp lines 35-46), the static functions DTrees::load and RTrees::load of a file that exists
    (DecisionTree.cpp line 48, RandomForest.cpp line 49), train(fmat, ROW_SAMPLE, rmat) (DecisionTree.cpp line 107),
    predict (line 117), save (line 127). *)
Record library (M : Type) := mkLibrary {
  lib_tree : Z -> Z -> outcome M;
  lib_forest : Z -> Z -> Z -> outcome M;
  lib_regression : outcome M;
  lib_load_tree : option bytes -> outcome M;
  lib_load_forest : option bytes -> outcome M;
  lib_train : M -> mat -> mat -> outcome M;
  lib_predict : M -> list f32 -> outcome f32;
  lib_save : M -> outcome bytes
}.
Arguments lib_tree {M}. Arguments lib_forest {M}. Arguments lib_regression {M}. Arguments lib_load_tree {M}.
Arguments lib_load_forest {M}. Arguments lib_train {M}. Arguments lib_predict {M}. Arguments lib_save {M}.

(** ** The matrices *)

(** `fmat.push_back(tmp)`, DecisionTree.cpp line 101: an empty matrix becomes the row; otherwise the widths must agree. *)
Definition push_row (m : option mat) (row : list Z) : outcome (option mat) :=
  match m with
  | None => Ok (Some (mkMat Cell32F (List.length row) [row]))
  | Some m =>
      if Nat.eqb (List.length row) (mt_width m) then Ok (Some (mkMat (mt_type m) (mt_width m) (mt_rows m ++ [row])))
      else Throw
  end.

(** `for (auto &i : features) { Mat tmp(1, i.size(), CV_32F, &i[0]); fmat.push_back(tmp); }`, DecisionTree.cpp lines
    99-102, RandomForest.cpp lines 101-104, RegressionTree.cpp lines 49-52; &i[0] of an empty vector is undefined. *)
Fixpoint features_mat (m : option mat) (features : list (list f32)) : outcome (option mat) :=
  match features with
  | [] => Ok m
  | f :: rest =>
      match f with
      | [] => UB
      | _ => let* m' := push_row m (map bits32 f) in features_mat m' rest
      end
  end.

(** `Mat(fmat.rows, 1, type, &responses[0]).copyTo(rmat)`, DecisionTree.cpp lines 104-105, RandomForest.cpp lines
    106-107, RegressionTree.cpp lines 54-60: as many ints as there are rows, read out of the vector; &responses[0] of an
    empty vector and reading past its end are undefined. *)
Definition responses_mat (t : celltype) (rows : nat) (responses : list Z) : outcome mat :=
  match responses with
  | [] => UB
  | _ =>
      if Nat.leb rows (List.length responses)
      then Ok (mkMat t 1 (map (fun z => [int_bits z]) (firstn rows responses)))
      else UB
  end.

(** The rows of fmat, DecisionTree.cpp line 105. *)
Definition rows_of (m : option mat) : nat := match m with None => 0%nat | Some m => List.length (mt_rows m) end.

(** An empty cv::Mat, DecisionTree.cpp line 98. *)
Definition no_mat : mat := mkMat Cell32F 0 [].

(** findMinMetricPolicyByFeatures, the two matrices and train: DecisionTree.cpp lines 90-107, RandomForest.cpp lines
    93-109, RegressionTree.cpp lines 21-26, 48-60 and 75. *)
Definition train_on {M} (L : library M) (t : celltype) (x : M) (d : dataset) : outcome M :=
  let '(features, responses, _) := ds_find_min d [] [] in
  let* fm := features_mat None features in
  let* rm := responses_mat t (rows_of fm) responses in
  lib_train L x (match fm with None => no_mat | Some m => m end) rm.

(** ** The policy models *)

(** A DecisionTree or RandomForest with policy_count, trainable, dtree or rfc, and explorer (DecisionTree.h lines 42-49,
    RandomForest.h lines 44-51), or any other model. *)
Inductive cvmodel (M : Type) :=
| Other (m : model)
| CvTree (count : Z) (trainable : bool) (impl : M) (explorer : option (cvmodel M))
| CvForest (count : Z) (trainable : bool) (impl : M) (explorer : option (cvmodel M)).
Arguments Other {M}. Arguments CvTree {M}. Arguments CvForest {M}.

(** isTrainable, DecisionTree.cpp line 86, RandomForest.cpp line 88. *)
Definition cv_trainable {M} (m : cvmodel M) : bool :=
  match m with Other m => m_trainable m | CvTree _ t _ _ | CvForest _ t _ _ => t end.

(** `return dtree->predict(features)` from a function that returns int, DecisionTree.cpp line 117, RandomForest.cpp line
    121: undefined when the float does not fit. *)
Definition predict_int {M} (L : library M) (x : M) (features : list f32) : outcome Z :=
  let* y := lib_predict L x features in int_of_float y.

(** getIndex, DecisionTree.cpp lines 115-120, RandomForest.cpp lines 119-124. *)
Fixpoint cv_get_index {M} (P : platform) (L : library M) (D : draws) (m : cvmodel M) (features : list f32) : outcome (Z * cvmodel M) :=
  match m with
  | Other m => let* (c, m') := m_get_index P D m features in Ok (c, Other m')
  | CvTree n trainable x explorer =>
      if negb trainable then let* c := predict_int L x features in Ok (c, m)
      else match explorer with
           | None => UB
           | Some e => let* (c, e') := cv_get_index P L D e features in Ok (c, CvTree n trainable x (Some e'))
           end
  | CvForest n trainable x explorer =>
      if negb trainable then let* c := predict_int L x features in Ok (c, m)
      else match explorer with
           | None => UB
           | Some e => let* (c, e') := cv_get_index P L D e features in Ok (c, CvForest n trainable x (Some e'))
           end
  end.

(** train, DecisionTree.cpp lines 88-113, RandomForest.cpp lines 90-115. *)
Definition cv_train {M} (P : platform) (L : library M) (m : cvmodel M) (d : dataset) : outcome (cvmodel M) :=
  match m with
  | Other m => let* m' := m_train P m d in Ok (Other m')
  | CvTree n _ x e => let* x' := train_on L Cell32S x d in Ok (CvTree n false x' e)
  | CvForest n _ x e => let* x' := train_on L Cell32S x d in Ok (CvForest n false x' e)
  end.

(** load, DecisionTree.cpp lines 122-126, RandomForest.cpp lines 126-130: DTrees::load and RTrees::load are the static
    functions of the constructors (lines 48 and 49); what they return is dropped. *)
Definition cv_load {M} (L : library M) (m : cvmodel M) (file : option bytes) : outcome (cvmodel M) :=
  match m with
  | Other m => let* m' := m_load m file in Ok (Other m')
  | CvTree n _ x e => let* _ := lib_load_tree L file in Ok (CvTree n false x e)
  | CvForest n _ x e => let* _ := lib_load_forest L file in Ok (CvForest n false x e)
  end.

(** store, DecisionTree.cpp line 127, RandomForest.cpp line 131. *)
Definition cv_store {M} (L : library M) (m : cvmodel M) : outcome (option bytes) :=
  match m with
  | Other m => m_store m
  | CvTree _ _ x _ | CvForest _ _ x _ => let* s := lib_save L x in Ok (Some s)
  end.

(** The constructors, DecisionTree.cpp lines 56-82 and RandomForest.cpp lines 56-84; the depth, and the number of trees,
    are unsigned numbers converted to int. *)
Definition new_cv_tree {M} (L : library M) (num_policies max_depth : Z) (explorer : cvmodel M) : outcome (cvmodel M) :=
  let* x := lib_tree L (to_int max_depth) num_policies in Ok (CvTree num_policies true x (Some explorer)).
(** See [new_cv_tree]. RandomForest.cpp lines 56-84. *)
Definition new_cv_forest {M} (L : library M) (num_policies num_trees max_depth : Z) (explorer : cvmodel M) : outcome (cvmodel M) :=
  let* x := lib_forest L (to_int num_trees) (to_int max_depth) num_policies in Ok (CvForest num_policies true x (Some explorer)).

(** ** The time model *)

(** RegressionTree::RegressionTree(dataset), RegressionTree.cpp lines 18-92. *)
Definition new_time_model {M} (L : library M) (d : dataset) : outcome M :=
  let* x := lib_regression L in train_on L Cell32F x d.

(** RegressionTree::getTimePrediction, RegressionTree.cpp lines 96-122; a float is returned as a double. *)
Definition time_prediction {M} (L : library M) (x : M) (features : list f32) : outcome f64 :=
  let* y := lib_predict L x features in Ok (f64_of_f32 y).
