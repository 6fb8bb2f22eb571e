(** Vocabulary for the statements about PolicyNet. *)
From Coq Require Import List ZArith Reals Bool.
From Flocq Require Import Core BinarySingleNaN.
From Verif Require Import Model.Base Model.Float Model.DatasetM Model.NetM Model.PolicyNetM Spec.NetSpec.
Import ListNotations.

(** The same PolicyNet with nothing cached. *)
Definition no_cache {T} (P : pnet T) : pnet T :=
  mkPnet (pn_policies P) (pn_net P) [] (pn_avg P) (pn_beta P) (pn_threshold P) (pn_count P) (pn_trainable P).

(** What a client does with a PolicyNet between loads: ask for a policy (with some behaviour of the random
    sampling) or train. *)
Inductive use (T : Type) := Ask (draw : list T -> outcome Z) (features : list f32) | Learn (d : dataset).
Arguments Ask {T}. Arguments Learn {T}.

(** Running a history of uses; the answers are those of the [Ask]s. *)
Fixpoint run_uses {T} (A : arith T) (metric_in : f64 -> T) (us : list (use T)) (P : pnet T) : outcome (list Z * pnet T) :=
  match us with
  | [] => Ok ([], P)
  | Ask draw f :: r =>
    let* (i, P) := pn_get_index A draw P f in
    let* (l, P) := run_uses A metric_in r P in
    Ok (i :: l, P)
  | Learn d :: r =>
    let* P := pn_train A metric_in P d in run_uses A metric_in r P
  end.

(** The same history by a client who empties the cache before every use. *)
Fixpoint run_uncached {T} (A : arith T) (metric_in : f64 -> T) (us : list (use T)) (P : pnet T) : outcome (list Z * pnet T) :=
  match us with
  | [] => Ok ([], no_cache P)
  | Ask draw f :: r =>
    let* (i, P) := pn_get_index A draw (no_cache P) f in
    let* (l, P) := run_uncached A metric_in r P in
    Ok (i :: l, P)
  | Learn d :: r =>
    let* P := pn_train A metric_in (no_cache P) d in run_uncached A metric_in r P
  end.

(** A value whose integer part a 64-bit unsigned integer can hold. *)
Definition encodable (f : f32) : Prop := is_finite f = true /\ (-1 < B2R f < IZR (2 ^ 64))%R.

(** All parameters in the order of the file: weights and biases of the three layers, then the reward average. *)
Definition all_params (P : pnet f64) : list f64 :=
  let N := pn_net P in
  (l_w (layer1 N) ++ l_b (layer1 N) ++ l_w (layer2 N) ++ l_b (layer2 N) ++ l_w (layer3 N) ++ l_b (layer3 N) ++
   [pn_avg P])%list.

(** Two PolicyNets whose arrays have the same sizes. *)
Definition same_shape (P Q : pnet f64) : Prop :=
  exists n h m, shaped (pn_net P) n h m /\ shaped (pn_net Q) n h m.

(** An int. *)
Definition is_int (z : Z) : Prop := (- 2 ^ 31 <= z < 2 ^ 31)%Z.

(** Behaviours of std::exp that the statements rely on, where they do: exp(0) is 1, and exp(-1) is finite and
    between 1/4 and 1/2 (its true value is 0.3678...). *)
Definition sane_exp (M : libm) : Prop :=
  m_exp M zero64 = one64 /\
  is_finite (m_exp M (f64_of_Z (-1))) = true /\ (/ 4 <= B2R (m_exp M (f64_of_Z (-1))) <= / 2)%R.

Local Open Scope R_scope.

(** Mean of a list of numbers. *)
Definition mean (l : list R) : R := fold_right Rplus 0 l / INR (length l).

(** Successive training calls on a PolicyNet over the real numbers. *)
Definition batch := (list (list R) * list Z * list R)%type.
Definition batch_rewards (b : batch) : list R := snd b.
Definition batch_ok (b : batch) : Prop := length (fst (fst b)) = length (batch_rewards b) /\ fst (fst b) <> [].
Fixpoint train_all (bs : list batch) (P : pnet R) : outcome (pnet R) :=
  match bs with
  | [] => Ok P
  | (s, a, r) :: q => let* P := train_net real_arith P s a r in train_all q P
  end.
Local Close Scope R_scope.
Local Open Scope nat_scope.

(** [Q] with the weights, biases, reward average and training count of [P]; moments of the optimiser, step
    counters, cache and settings stay those of [Q]. *)
Definition with_params_of (Q P : pnet f64) : pnet f64 :=
  let L q p := mkLayer (l_in q) (l_out q) (l_w p) (l_b p) (l_wm q) (l_wv q) (l_bm q) (l_bv q) (l_step q) in
  let q := pn_net Q in let p := pn_net P in
  mkPnet (pn_policies Q)
    (mkNet (L (layer1 q) (layer1 p)) (L (layer2 q) (layer2 p)) (L (layer3 q) (layer3 p))
       (learn_rate q) (net_beta1 q) (net_beta2 q))
    (pn_cache Q) (pn_avg P) (pn_beta Q) (pn_threshold Q) (pn_count P) (pn_trainable Q).

(** Weight of the mean reward of call [i] of [k] in the debiased moving average. *)
Definition weight (beta : R) (k i : nat) : R := ((1 - beta) * beta ^ (k - 1 - i) / (1 - beta ^ k))%R.

(** Uses of a PolicyNet made for [features] features and [policies] policies that respect these numbers: each
    features vector has [features] encodable values, each measured policy is one of the [policies], and the
    sampling returns an index. *)
Definition features_ok (features : nat) (f : list f32) : Prop := length f = features /\ Forall encodable f.
Definition use_ok {T} (policies features : nat) (u : use T) : Prop :=
  match u with
  | Ask draw f => features_ok features f /\ forall p, length p = policies -> exists i, draw p = Ok i
  | Learn d => Forall (fun e => features_ok features (fst (fst e)) /\ (0 <= snd (fst e) < Z.of_nat policies)%Z) d
  end.

(** One Adam step from zero moments, over the reals. *)
Definition first_step (lr g : R) : R := (lr * g / (Rabs g + / 10 ^ 8))%R.
Definition step_params (lr : R) (G : params) : params := mkParams
  (fun j k => first_step lr (p_w1 G j k)) (fun j => first_step lr (p_b1 G j))
  (fun j k => first_step lr (p_w2 G j k)) (fun j => first_step lr (p_b2 G j))
  (fun j k => first_step lr (p_w3 G j k)) (fun j => first_step lr (p_b3 G j)).

(** Parameters equal within the sizes of a network. *)
Definition params_eq (n h m : nat) (P Q : params) : Prop :=
  (forall j k, j < h -> k < n -> p_w1 P j k = p_w1 Q j k) /\ (forall j, j < h -> p_b1 P j = p_b1 Q j) /\
  (forall j k, j < h -> k < h -> p_w2 P j k = p_w2 Q j k) /\ (forall j, j < h -> p_b2 P j = p_b2 Q j) /\
  (forall j k, j < m -> k < h -> p_w3 P j k = p_w3 Q j k) /\ (forall j, j < m -> p_b3 P j = p_b3 Q j).

(** A network no training step has touched. *)
Definition untrained_layer (L : layer R) : Prop :=
  Forall (fun x => x = 0%R) (l_wm L) /\ Forall (fun x => x = 0%R) (l_wv L) /\
  Forall (fun x => x = 0%R) (l_bm L) /\ Forall (fun x => x = 0%R) (l_bv L) /\ l_step L = 0.
Definition untrained (N : net R) : Prop :=
  untrained_layer (layer1 N) /\ untrained_layer (layer2 N) /\ untrained_layer (layer3 N).

(** Uses whose metrics, read as real numbers, are not negative. *)
Definition gentle {T} (u : use T) : Prop :=
  match u with Ask _ _ => True | Learn d => Forall (fun e => (0 <= B2R (snd e))%R) d end.

(** The integer parts of a features vector. *)
Definition integer_parts (f : list f32) : list Z := map (fun x : f32 => Ztrunc (B2R x)) f.

(** The Adam method (Kingma and Ba), over the reals: the [t]-th move divides the bias-corrected average of the
    gradients seen so far by the root of the bias-corrected average of their squares. *)
Definition average (b : R) (t : nat) (g : nat -> R) : R := sumf t (fun i => weight b t i * g i)%R.
Definition adam_move (lr b1 b2 : R) (t : nat) (g : nat -> R) : R :=
  (lr * average b1 t g / (sqrt (average b2 t (fun i => g i * g i)) + / 10 ^ 8))%R.
Definition adam_total (lr b1 b2 : R) (k : nat) (g : nat -> R) : R := sumf k (fun t => adam_move lr b1 b2 (S t) g).
(** The sum of the moves of every parameter, for successive gradients [Gs]. *)
Definition adam_params (lr b1 b2 : R) (Gs : list params) : params :=
  let tot := fun proj => adam_total lr b1 b2 (length Gs) (fun t => nth t (map proj Gs) 0%R) in
  mkParams (fun j k => tot (fun G => p_w1 G j k)) (fun j => tot (fun G => p_b1 G j))
    (fun j k => tot (fun G => p_w2 G j k)) (fun j => tot (fun G => p_b2 G j))
    (fun j k => tot (fun G => p_w3 G j k)) (fun j => tot (fun G => p_b3 G j)).

(** Successive training steps on batches (states, actions, rewards, size), with the gradients of each. *)
Definition sample_batch := (list R * list nat * list R * nat)%type.
Fixpoint trajectory (N : net R) (bs : list sample_batch) : outcome (list (grads R * grads R * grads R) * net R) :=
  match bs with
  | [] => Ok ([], N)
  | (s, a, r, B) :: q =>
    let* G := net_gradients real_arith N s a r B in
    let* N := train_step real_arith N s a r B in
    let* (Gs, N) := trajectory N q in
    Ok (G :: Gs, N)
  end.
(** A batch with one row of [n] inputs, one action below [m] and one reward per sample. *)
Definition sample_batch_ok (n m : nat) (b : sample_batch) : Prop :=
  let '(s, a, r, B) := b in
  length s = B * n /\ length a = B /\ length r = B /\ Forall (fun x => x < m) a.

(** No parameter of [Q] is further than [d] from the one of [P]. *)
Definition no_further (n h m : nat) (d : R) (P Q : params) : Prop :=
  (forall j k, j < h -> k < n -> (Rabs (p_w1 Q j k - p_w1 P j k) <= d)%R) /\ (forall j, j < h -> (Rabs (p_b1 Q j - p_b1 P j) <= d)%R) /\
  (forall j k, j < h -> k < h -> (Rabs (p_w2 Q j k - p_w2 P j k) <= d)%R) /\ (forall j, j < h -> (Rabs (p_b2 Q j - p_b2 P j) <= d)%R) /\
  (forall j k, j < m -> k < h -> (Rabs (p_w3 Q j k - p_w3 P j k) <= d)%R) /\ (forall j, j < m -> (Rabs (p_b3 Q j - p_b3 P j) <= d)%R).
(** How many learning rates the [t]-th move of the Adam method is at most. *)
Definition adam_reach (b1 b2 : R) (t : nat) : R := ((1 - b1) / sqrt ((1 - b2) * (1 - b1 * b1 / b2)) * sqrt (1 - b2 ^ t) / (1 - b1 ^ t))%R.
(** Whether a use trains. *)
Definition is_learn {T} (u : use T) : bool := match u with Learn _ => true | Ask _ _ => false end.
