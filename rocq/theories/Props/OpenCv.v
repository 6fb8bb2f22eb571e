(** C93-C95: the models of a build with OpenCV. *)
From Coq Require Import ZArith Bool Ascii String Reals List.
From Flocq Require Import Core BinarySingleNaN.
From Verif Require Import Model.Base Model.Float Model.DatasetM Model.PolicyModelsM Model.RuntimeM Model.OpenCvM
  Spec.DatasetSpec Spec.DatasetClient Spec.TraceSpec Spec.OpenCvSpec
  Proofs.OpenCvFacts Proofs.OpenCvExamples Proofs.RuntimeExamples Proofs.SafeExamples.
Import ListNotations.
Open Scope Z_scope.

(** C93: whatever the library, training hands it one row per measured feature vector and, beside it as an int, the
    policy with the least metric there. *)
Theorem C93_training : forall M (L : library M) d n, sound_data d -> same_length (S n) d ->
  exists best fm rm, best_of d best /\ floats fm (map fst best) /\ int_column rm (map (fun b => fst (snd b)) best) /\
    forall P count trainable x explorer,
      cv_train P L (CvTree count trainable x explorer) d = (let* x' := lib_train L x fm rm in Ok (CvTree count false x' explorer)) /\
      cv_train P L (CvForest count trainable x explorer) d = (let* x' := lib_train L x fm rm in Ok (CvForest count false x' explorer)).
Proof. exact training. Qed.
Print Assumptions C93_training.

Example C93_training_example : exists d, sound_data d /\ same_length 1 d /\ (forall f p m, In (f, p, m) (ds_to_vector d) -> 0 <= p < 2 ^ 23).
Proof. exact some_sound. Qed.

(** C93: features of two lengths end the training with an exception, whatever the library. *)
Theorem C93_mixed_lengths : forall M (L : library M) P d, sound_data d -> (forall f p m, In (f, p, m) (ds_to_vector d) -> f <> []) ->
  (exists f p m g q y, In (f, p, m) (ds_to_vector d) /\ In (g, q, y) (ds_to_vector d) /\ List.length f <> List.length g) ->
  forall count trainable x explorer,
    cv_train P L (CvTree count trainable x explorer) d = Throw /\ cv_train P L (CvForest count trainable x explorer) d = Throw /\
    (forall y, lib_regression L = Ok y -> new_time_model L d = Throw).
Proof. exact mixed_lengths. Qed.
Print Assumptions C93_mixed_lengths.

Example C93_mixed_lengths_example : exists d, sound_data d /\ (forall f p m, In (f, p, m) (ds_to_vector d) -> f <> []) /\
  exists f p m g q y, In (f, p, m) (ds_to_vector d) /\ In (g, q, y) (ds_to_vector d) /\ List.length f <> List.length g.
Proof. exact mixed_data. Qed.

(** C93: over any calls, a new model holds the object it was created with after exactly its trainings; it explores, as
    the explorer alone would, until the first training or load, and from then on answers what the object predicts. *)
Theorem C93_life : forall M (L : library M) P x e m os m' xs, fresh_model L x e m -> cv_run P L m os = Ok (m', xs) ->
  exists x', object m' = Some x' /\ only_trained L x os x' /\ cv_trainable m' = negb (settled os) /\
    (settled os = true -> forall D f, cv_step P L m' (Ask D f) = (let* y := lib_predict L x' f in let* z := int_of_float y in Ok (m', Answer z))) /\
    (settled os = false -> exists e', explorer_of m' = Some e' /\ cv_run P L e (filter is_ask os) = Ok (e', filter is_answer xs)).
Proof. exact (fun M L P => life L P). Qed.
Print Assumptions C93_life.

Example C93_life_example : fresh_model by_heart None (Other (MRoundRobin 2 (-1))) new_tree /\
  exists d m' xs, sound_data d /\ cv_run example_platform by_heart new_tree (life_calls d) = Ok (m', xs) /\ map shown xs = [0; 1; -1; 1; 0; -2].
Proof. exact (conj new_tree_fresh tree_life). Qed.

(** C94: a model that loads a file and is not trained afterwards keeps the object it was created with, and answers from
    that. *)
Theorem C94_load_dropped : forall M (L : library M) P x e m os m' xs, fresh_model L x e m -> cv_run P L m os = Ok (m', xs) ->
  (exists file, In (Load file) os) -> (forall d, ~ In (Train d) os) ->
  object m' = Some x /\ forall D f, cv_step P L m' (Ask D f) = (let* y := lib_predict L x f in let* z := int_of_float y in Ok (m', Answer z)).
Proof. exact (fun M L P => load_lost L P). Qed.
Print Assumptions C94_load_dropped.

(** C94: a tree trained to answer policy 1, stored and loaded by a new tree: the new one counts as trained and cannot answer. *)
Theorem C94_stored_and_lost : exists d m1 text m2 xs, sound_data d /\
  cv_run example_platform by_heart new_tree [Train d; Ask some_draws feature_one; Store] = Ok (m1, [Nothing; Answer 1; Text (Some text)]) /\
  cv_run example_platform by_heart new_tree [Load (Some text)] = Ok (m2, xs) /\ cv_trainable m2 = false /\
  cv_step example_platform by_heart m2 (Ask some_draws feature_one) = Throw.
Proof. exact tree_lost. Qed.
Print Assumptions C94_stored_and_lost.

(** C95: the time model is trained on floats whose bits are the best policy's number: policy p is seen as p * 2^-149. *)
Theorem C95_times_not_given : forall M (L : library M) d n, sound_data d -> same_length (S n) d -> (forall f p m, In (f, p, m) (ds_to_vector d) -> 0 <= p < 2 ^ 23) ->
  exists best fm rm column, best_of d best /\ floats fm (map fst best) /\ float_column rm column /\
    Forall2 (fun b y => is_finite y = true /\ B2R y = (IZR (fst (snd b)) * bpow radix2 (-149))%R) best column /\
    new_time_model L d = (let* x := lib_regression L in lib_train L x fm rm).
Proof. exact (fun M L => time_model L). Qed.
Print Assumptions C95_times_not_given.

Example C95_times_not_given_example : exists d, sound_data d /\ same_length 1 d /\ (forall f p m, In (f, p, m) (ds_to_vector d) -> 0 <= p < 2 ^ 23).
Proof. exact some_sound. Qed.

(** C95: data sets that differ in the size of their metrics but not in their order give the same time model and the same
    predicted times. *)
Theorem C95_same_times : forall M (L : library M) d d', same_order d d' ->
  new_time_model L d = new_time_model L d' /\
  forall f, (let* x := new_time_model L d in time_prediction L x f) = (let* x := new_time_model L d' in time_prediction L x f).
Proof. exact same_times. Qed.
Print Assumptions C95_same_times.

Example C95_same_times_example : exists d d', sound_data d /\ sound_data d' /\ same_order d d' /\
  Forall2 (fun x x' => Bltb (mul64 (f64_of_Z 999) (snd x)) (snd x') = true) (ds_to_vector d) (ds_to_vector d').
Proof. exact longer_times. Qed.
