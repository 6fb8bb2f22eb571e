(** What OpenCV gets to see, and the life of a model built on it. *)
From Coq Require Import ZArith Bool Ascii String List.
From Flocq Require Import Core BinarySingleNaN.
From Verif Require Import Model.Base Model.Float Model.DatasetM Model.PolicyModelsM Model.RuntimeM Model.OpenCvM Spec.DatasetSpec Spec.DatasetClient Spec.TraceSpec.
Import ListNotations.
Open Scope Z_scope.

(** A matrix of these floats, or of one column of these ints, or of one column of these floats. *)
Definition floats (m : mat) (rows : list (list f32)) : Prop :=
  mt_type m = Cell32F /\ map (map cell_float) (mt_rows m) = rows /\ Forall (fun row => List.length row = mt_width m) (mt_rows m).
Definition int_column (m : mat) (l : list Z) : Prop :=
  mt_type m = Cell32S /\ mt_width m = 1%nat /\ map (map cell_int) (mt_rows m) = map (fun z => [z]) l.
Definition float_column (m : mat) (l : list f32) : Prop :=
  mt_type m = Cell32F /\ mt_width m = 1%nat /\ map (map cell_float) (mt_rows m) = map (fun z => [z]) l.

(** Data to train on: some measurements, none of them NaN, of policies that are ints. *)
Record sound_data (d : dataset) : Prop := {
  sd_reachable : exists ks, reachable d ks;
  sd_some : ds_to_vector d <> [];
  sd_metrics : forall f p m, In (f, p, m) (ds_to_vector d) -> is_nan m = false;
  sd_policies : forall f p m, In (f, p, m) (ds_to_vector d) -> - 2 ^ 31 <= p < 2 ^ 31
}.
(** Features all of one length. *)
Definition same_length (n : nat) (d : dataset) : Prop := forall f p m, In (f, p, m) (ds_to_vector d) -> List.length f = n.

(** The calls on a model. *)
Inductive cvop := Ask (D : draws) (features : list f32) | Train (d : dataset) | Load (file : option bytes) | Store.
Inductive cvres := Answer (z : Z) | Nothing | Text (s : option bytes).
Definition cv_step {M} (P : platform) (L : library M) (m : cvmodel M) (o : cvop) : outcome (cvmodel M * cvres) :=
  match o with
  | Ask D f => let* (c, m') := cv_get_index P L D m f in Ok (m', Answer c)
  | Train d => let* m' := cv_train P L m d in Ok (m', Nothing)
  | Load file => let* m' := cv_load L m file in Ok (m', Nothing)
  | Store => let* s := cv_store L m in Ok (m, Text s)
  end.
Fixpoint cv_run {M} (P : platform) (L : library M) (m : cvmodel M) (os : list cvop) : outcome (cvmodel M * list cvres) :=
  match os with
  | [] => Ok (m, [])
  | o :: rest => let* (m1, x) := cv_step P L m o in let* (m2, xs) := cv_run P L m1 rest in Ok (m2, x :: xs)
  end.

(** The object of OpenCV in a model that has one. *)
Definition object {M} (m : cvmodel M) : option M := match m with Other _ => None | CvTree _ _ x _ | CvForest _ _ x _ => Some x end.
(** A model that explores with another one. *)
Definition explorer_of {M} (m : cvmodel M) : option (cvmodel M) := match m with Other _ => None | CvTree _ _ _ e | CvForest _ _ _ e => e end.

(** The training calls alone, in order. *)
Inductive only_trained {M} (L : library M) : M -> list cvop -> M -> Prop :=
| ot_nil x : only_trained L x [] x
| ot_train x d fm rm x' os x'' : lib_train L x fm rm = Ok x' -> (sound_data d -> exists best, best_of d best /\ floats fm (map fst best) /\ int_column rm (map (fun b => fst (snd b)) best)) ->
    only_trained L x' os x'' -> only_trained L x (Train d :: os) x''
| ot_other x o os x' : (forall d, o <> Train d) -> only_trained L x os x' -> only_trained L x (o :: os) x'.

Definition settles (o : cvop) : bool := match o with Train _ | Load _ => true | _ => false end.
Definition settled (os : list cvop) : bool := existsb settles os.

Definition is_ask (o : cvop) : bool := match o with Ask _ _ => true | _ => false end.
Definition is_answer (x : cvres) : bool := match x with Answer _ => true | _ => false end.

(** A new tree or forest around a new object of the library, exploring with [e]. *)
Definition fresh_model {M} (L : library M) (x : M) (e m : cvmodel M) : Prop :=
  exists n, (exists depth, new_cv_tree L n depth e = Ok m /\ lib_tree L (to_int depth) n = Ok x) \/
            (exists trees depth, new_cv_forest L n trees depth e = Ok m /\ lib_forest L (to_int trees) (to_int depth) n = Ok x).

(** The same features and policies, with metrics in the same order but perhaps of other sizes. *)
Definition same_order (d d' : dataset) : Prop :=
  map fst (ds_to_vector d) = map fst (ds_to_vector d') /\
  forall i j x y x' y', nth_error (ds_to_vector d) i = Some x -> nth_error (ds_to_vector d) j = Some y ->
    nth_error (ds_to_vector d') i = Some x' -> nth_error (ds_to_vector d') j = Some y' -> Bltb (snd x) (snd y) = Bltb (snd x') (snd y').
