(** Properties C42-C48 and C60-C64: the policy network model. *)
From Coq Require Import List ZArith Bool Reals Lia Lra.
From Flocq Require Import Core BinarySingleNaN.
From Coquelicot Require Import Hierarchy Derive.
From Verif Require Import Model.Base Model.Float Model.DatasetM Model.NetM Model.PolicyNetM
  Spec.NetSpec Spec.PolicyNetSpec
  Proofs.FloatConv Proofs.NetGradient Proofs.NetStep Proofs.PolicyNetAverage Proofs.PolicyNetSafety Proofs.PolicyNetStale Proofs.NetAdam Proofs.PolicyNetLearn Proofs.PolicyNetProps.
Import ListNotations.
Local Open Scope nat_scope.
Local Open Scope list_scope.

(** ** C42 *)
Theorem C42_outputs_are_a_distribution : forall N n h m B state, shaped N n h m -> 0 < m -> List.length state = B * n ->
  exists p, net_forward real_arith N state B = Ok p /\ List.length p = B * m /\
    forall i, i < B ->
      (forall j, j < m -> nth_error p (i * m + j) = Some (policy n h m (params_of N) (mat n state i) j) /\
                          (0 < policy n h m (params_of N) (mat n state i) j)%R) /\
      sumf m (policy n h m (params_of N) (mat n state i)) = 1%R.
Proof. exact outputs_distribution. Qed.
Print Assumptions C42_outputs_are_a_distribution.

(** One input, one unit in each hidden layer, two policies, all weights 1. *)
Example C42_nonvacuous : shaped small_net 1 1 2 /\ 0 < 2 /\ List.length [1%R; 2%R] = 2 * 1.
Proof. split; [|split]; [repeat constructor|lia|reflexivity]. Qed.

(** ** C43 *)
Theorem C43_policy_gradient : forall N n h m B state action reward,
  shaped N n h m -> 0 < m -> 0 < B -> List.length state = B * n -> List.length action = B -> List.length reward = B ->
  (forall i, i < B -> nth i action 0 < m) -> off_corner n h (params_of N) B (mat n state) ->
  exists G, net_gradients real_arith N state action reward B = Ok G /\
    forall D, is_derive (fun t => objective n h m (along (params_of N) D t) B (mat n state) (fun i => nth i action 0) (vec reward))
      0%R (pairing n h m (grads_params n h G) D).
Proof. exact gradient_correct. Qed.
Print Assumptions C43_policy_gradient.

(** In the small network every hidden unit has value 1 at input 1, and 2 at input 2. *)
Example C43_nonvacuous : shaped small_net 1 1 2 /\ off_corner 1 1 (params_of small_net) 2 (mat 1 [1%R; 2%R]).
Proof.
  split; [repeat constructor|]. intros i j I J. assert (j = 0) as -> by lia.
  destruct i as [|[|i]]; [| |lia]; unfold hidden2, relu, hidden1, affine, mat, vec, at2; cbn; split; try (rewrite Rmax_left by lra); lra.
Qed.

(** ** C44 *)
Theorem C44_baseline_is_a_weighted_average : forall bs P Q, List.Forall batch_ok bs -> bs <> [] ->
  pn_avg P = 0%R -> pn_count P = 0%Z -> (0 <= pn_beta P < 1)%R -> train_all bs P = Ok Q ->
  let k := List.length bs in
  baseline real_arith Q = sumf k (fun i => weight (pn_beta P) k i * mean (batch_rewards (nth i bs ([], [], []))))%R /\
  (forall i, i < k -> (0 <= weight (pn_beta P) k i)%R) /\ sumf k (weight (pn_beta P) k) = 1%R.
Proof. exact baseline_weighted. Qed.
Print Assumptions C44_baseline_is_a_weighted_average.

Theorem C44_baseline_between : forall bs P Q lo hi, List.Forall batch_ok bs -> bs <> [] ->
  pn_avg P = 0%R -> pn_count P = 0%Z -> (0 <= pn_beta P < 1)%R -> train_all bs P = Ok Q ->
  List.Forall (fun b => (lo <= mean (batch_rewards b) <= hi)%R) bs -> (lo <= baseline real_arith Q <= hi)%R.
Proof. exact baseline_between. Qed.
Print Assumptions C44_baseline_between.

(** A fresh network for one feature, two policies, beta = 1/2, trained twice. *)
Example C44_nonvacuous :
  let P := new_pnet real_arith 2 1 1%R (/ 2)%R 0%R 0%R 0%R (fun _ _ => 1%R) in
  let bs := [([repeat 0%R 64], [1%Z], [3%R]); ([repeat 1%R 64], [0%Z], [5%R])] in
  List.Forall batch_ok bs /\ exists Q, train_all bs P = Ok Q.
Proof.
  cbv zeta. split; [repeat constructor; cbn; congruence|].
  set (P := new_pnet real_arith 2 1 1%R (/ 2)%R 0%R 0%R 0%R (fun _ _ => 1%R)).
  assert (S : sized 2 1 P) by apply new_sized.
  cbn [train_all].
  destruct (train_net_sized real_arith 2 1 P [repeat 0%R 64] [1%Z] [3%R]) as (P1 & -> & S1 & C1);
    [lia|exact S|cbn; unfold int_max; lia|repeat constructor|reflexivity|reflexivity|repeat constructor; lia|]. cbn [bind].
  destruct (train_net_sized real_arith 2 1 P1 [repeat 1%R 64] [0%Z] [5%R]) as (P2 & -> & S2 & C2);
    [lia|exact S1|cbn in C1; unfold int_max; lia|repeat constructor|reflexivity|reflexivity|repeat constructor; lia|]. cbn [bind].
  now exists P2.
Qed.

(** ** C45 *)
Theorem C45_cache_is_unobservable : forall (T : Type) (A : arith T) metric_in us P, pn_cache P = [] ->
  match run_uses A metric_in us P, run_uncached A metric_in us P with
  | Ok (l, P'), Ok (l', Q') => l = l' /\ no_cache P' = Q'
  | Throw, Throw | Abort, Abort | UB, UB | Fuel, Fuel => True
  | _, _ => False
  end.
Proof. exact @cache_coherent. Qed.
Print Assumptions C45_cache_is_unobservable.

(** Asking, training, and asking the same again all succeed. *)
Example C45_nonvacuous : forall M init,
  exists l Q, run_uses (f64_arith M) (fun x => x) some_uses
    (new_pnet (f64_arith M) 2 1 half64 half64 half64 half64 zero64 init) = Ok (l, Q).
Proof. intros M init. apply within_arrays; [lia|apply some_uses_ok|cbn; unfold int_max; lia]. Qed.

(** ** C46 *)
Theorem C46_load_keeps_the_cache : forall M P P1 f probs file, lookup_probs (f64_arith M) P f = Ok (probs, P1) ->
  lookup_probs (f64_arith M) (pn_load P1 file) f = Ok (probs, pn_load P1 file).
Proof. exact stale_lookup. Qed.
Print Assumptions C46_load_keeps_the_cache.

Theorem C46_stale_probabilities : forall M features lr beta be1 be2 threshold init f,
  sane_exp M -> features_ok features f ->
  let A := f64_arith M in
  let P0 := new_pnet A 2 features lr beta be1 be2 threshold init in
  exists file1 file2 probs fresh P1 P2,
    lookup_probs A (pn_load P0 (Some file1)) f = Ok (probs, P1) /\
    lookup_probs A (no_cache (pn_load P1 (Some file2))) f = Ok (fresh, P2) /\
    map B2R probs = [/ 2; / 2]%R /\
    (exists a b, fresh = [a; b] /\ 5 / 8 <= B2R a)%R /\
    lookup_probs A (pn_load P1 (Some file2)) f = Ok (probs, pn_load P1 (Some file2)).
Proof. exact stale_after_load. Qed.
Print Assumptions C46_stale_probabilities.

(** A std::exp that is right at 0 and gives 0.5 elsewhere. *)
Example C46_nonvacuous :
  sane_exp {| m_exp := fun x => if Beqb x zero64 then one64 else half64; m_pow := fun x _ => x |} /\
  features_ok 1 [f32_of_Z 5].
Proof.
  destruct EmaBounds.half_value as [V F].
  split; [|split; [reflexivity|constructor; [apply five_encodable|constructor]]].
  unfold sane_exp. cbn [m_exp].
  change (Beqb zero64 zero64) with true. cbv iota.
  replace (Beqb (f64_of_Z (-1)) zero64) with false by (vm_compute; reflexivity). cbv iota.
  split; [reflexivity|]. split; [exact F|]. rewrite V. lra.
Qed.

(** ** C47 *)
Theorem C47_encoding_injective : forall (T : Type) (A : arith T) f g,
  bit A true <> bit A false -> List.Forall encodable f -> List.Forall encodable g ->
  exists zs ws, encode f = Ok zs /\ encode g = Ok ws /\
    (key_of zs = key_of ws <-> integer_parts f = integer_parts g) /\
    (input_of (bit A) zs = input_of (bit A) ws <-> integer_parts f = integer_parts g).
Proof. exact @encoding_injective. Qed.
Print Assumptions C47_encoding_injective.

Theorem C47_other_values_undefined : forall (T : Type) (A : arith T) metric_in P f d, ~ List.Forall encodable f ->
  lookup_probs A P f = UB /\ (In f (map (fun e => fst (fst e)) d) -> pn_train A metric_in P d = UB).
Proof. exact @not_encodable_ub. Qed.
Print Assumptions C47_other_values_undefined.

Example C47_nonvacuous : bit real_arith true <> bit real_arith false /\ List.Forall encodable [f32_of_Z 5; f32_of_Z 5] /\
  ~ List.Forall encodable [f32_of_Z 5; f32_of_Z (-3)].
Proof.
  split; [cbn; lra|]. split; [repeat constructor; apply five_encodable|].
  intros H. inversion H as [|? ? _ H']; subst. inversion H' as [|? ? H2 _]; subst.
  destruct H2 as (_ & L & _). destruct (f32_of_Z_spec (-3) ltac:(lia)) as [_ V].
  assert (L3 : (-1 < IZR (-3))%R) by (rewrite <- V; exact L). apply lt_IZR in L3. lia.
Qed.

(** ** C48 *)
Theorem C48_store_load : forall P Q, same_shape P Q -> is_int (pn_count P) -> is_int (pn_count Q) ->
  pn_load Q (Some (pn_store P)) = with_params_of Q P /\
  forall k, let R := pn_load Q (Some (firstn k (pn_store P))) in
    (forall i, i < List.length (all_params P) ->
      (8 * S i <= k -> nth_error (all_params R) i = nth_error (all_params P) i) /\
      (k <= 8 * i -> nth_error (all_params R) i = nth_error (all_params Q) i)) /\
    (k <= 8 * List.length (all_params P) -> pn_count R = pn_count Q).
Proof. exact store_load. Qed.
Print Assumptions C48_store_load.

Example C48_nonvacuous : forall M init init',
  let P := new_pnet (f64_arith M) 2 1 half64 half64 half64 half64 zero64 init in
  let Q := new_pnet (f64_arith M) 2 1 half64 half64 half64 half64 zero64 init' in
  same_shape P Q /\ is_int (pn_count P) /\ is_int (pn_count Q).
Proof.
  intros M init init'. cbv zeta. split; [|split; split; cbn; lia].
  exists 64, 33, 2. split; apply new_net_shaped.
Qed.

(** ** C60 *)
Theorem C60_feature_count_unchecked : forall (T : Type) (A : arith T) policies features lr beta be1 be2 threshold init draw f,
  0 < policies -> n_lt A (n_zero A) threshold = false -> List.Forall encodable f ->
  let P := new_pnet A policies features lr beta be1 be2 threshold init in
  (List.length f < features -> pn_get_index A draw P f = UB) /\
  (forall p, lookup_probs A P f = Ok p -> forall g, List.Forall encodable g -> List.length f = features ->
     exists Q, lookup_probs A P (f ++ g) = Ok (fst p, Q)).
Proof. exact @wrong_feature_count. Qed.
Print Assumptions C60_feature_count_unchecked.

Example C60_nonvacuous : 0 < 2 /\ n_lt real_arith (n_zero real_arith) 0%R = false /\ List.Forall encodable [f32_of_Z 5] /\
  List.length [f32_of_Z 5] < 2.
Proof.
  split; [lia|]. split; [cbn; apply Rlt_bool_false; lra|]. split; [constructor; [apply five_encodable|constructor]|cbn; lia].
Qed.

(** ** C61 *)
Theorem C61_threshold_above_one_never_learns : forall policies features lr beta beta1 beta2 threshold init us l Q,
  (0 <= beta < 1)%R -> (1 < threshold)%R -> List.Forall gentle us ->
  run_uses real_arith (fun x : f64 => B2R x) us (new_pnet real_arith policies features lr beta beta1 beta2 threshold init) = Ok (l, Q) ->
  List.Forall (fun i => i = 0%Z) l /\
  pn_net Q = pn_net (new_pnet real_arith policies features lr beta beta1 beta2 threshold init).
Proof. exact threshold_above_one. Qed.
Print Assumptions C61_threshold_above_one_never_learns.

Example C61_nonvacuous : List.Forall gentle (@some_uses R) /\
  exists l Q, run_uses real_arith (fun x : f64 => B2R x) some_uses
    (new_pnet real_arith 2 1 1%R (/ 2)%R 0%R 0%R 2%R (fun _ _ => 1%R)) = Ok (l, Q).
Proof.
  split.
  - repeat constructor. cbn [snd]. rewrite (proj1 one_value). lra.
  - apply within_arrays; [lia|apply some_uses_ok|cbn; unfold int_max; lia].
Qed.

(** ** C62 *)
Theorem C62_first_step : forall N n h m B state action reward N',
  shaped N n h m -> untrained N -> 0 < m -> 0 < B ->
  List.length state = B * n -> List.length action = B -> List.length reward = B -> (forall i, i < B -> nth i action 0 < m) ->
  (0 <= net_beta1 N < 1)%R -> (0 <= net_beta2 N < 1)%R ->
  train_step real_arith N state action reward B = Ok N' ->
  exists G, net_gradients real_arith N state action reward B = Ok G /\ shaped N' n h m /\
    params_eq n h m (params_of N') (along (params_of N) (step_params (learn_rate N) (grads_params n h G)) 1) /\
    (0 <= learn_rate N -> 0 <= pairing n h m (grads_params n h G) (step_params (learn_rate N) (grads_params n h G)))%R.
Proof. exact first_training_step. Qed.
Print Assumptions C62_first_step.

Example C62_nonvacuous : shaped small_net 1 1 2 /\ untrained small_net /\
  exists N', train_step real_arith small_net [1%R; 2%R] [0; 1] [3%R; 4%R] 2 = Ok N'.
Proof.
  split; [repeat constructor|]. split; [repeat constructor|].
  destruct (train_step_shaped real_arith 0%R small_net 1 1 2 2 [1%R; 2%R] [0; 1] [3%R; 4%R]) as (N' & E & _);
    [repeat constructor|lia|reflexivity|reflexivity|reflexivity| |now exists N'].
  intros [|[|i]] I; cbn; lia.
Qed.

(** ** C63 *)
Theorem C63_within_arrays : forall (T : Type) (A : arith T) metric_in policies features lr beta be1 be2 threshold init us,
  0 < policies -> List.Forall (use_ok policies features) us -> (Z.of_nat (List.length us) <= int_max)%Z ->
  exists l Q, run_uses A metric_in us (new_pnet A policies features lr beta be1 be2 threshold init) = Ok (l, Q).
Proof. exact @within_arrays. Qed.
Print Assumptions C63_within_arrays.

Example C63_nonvacuous : 0 < 2 /\ List.Forall (use_ok 2 1) (@some_uses f64) /\ (Z.of_nat (List.length (@some_uses f64)) <= int_max)%Z.
Proof. split; [lia|]. split; [apply some_uses_ok|cbn; unfold int_max; lia]. Qed.

(** ** C64 *)
Theorem C64_training_is_adam : forall N n h m bs Gs N', shaped N n h m -> untrained N -> 0 < m ->
  List.Forall (sample_batch_ok n m) bs -> trajectory N bs = Ok (Gs, N') ->
  List.length Gs = List.length bs /\ shaped N' n h m /\
  params_eq n h m (params_of N') (along (params_of N)
    (adam_params (learn_rate N) (net_beta1 N) (net_beta2 N) (map (grads_params n h) Gs)) 1).
Proof. exact training_is_adam. Qed.
Print Assumptions C64_training_is_adam.

Theorem C64_what_is_learnt : forall (T : Type) (A : arith T) metric_in policies features P d Q,
  use_ok policies features (Learn (T := T) d) -> (0 <= pn_count P < int_max)%Z -> pn_train A metric_in P d = Ok Q ->
  ((d = [] \/ n_lt A (baseline A Q) (pn_threshold P) = true) /\ pn_net Q = pn_net P) \/
  (d <> [] /\ n_lt A (baseline A Q) (pn_threshold P) = false /\
   train_step A (pn_net P) (List.concat (map (fun e => input_of (bit A) (integer_parts (fst (fst e)))) d))
     (map (fun e => Z.to_nat (snd (fst e))) d)
     (map (fun e => n_sub A (n_exp A (n_opp A (metric_in (snd e)))) (baseline A Q)) d)
     (List.length d) = Ok (pn_net Q)).
Proof. exact @learns. Qed.
Print Assumptions C64_what_is_learnt.

(** Three steps of the small network. *)
Example C64_nonvacuous :
  let bs := [([1%R; 2%R], [0; 1], [3%R; 4%R], 2); ([1%R], [1], [5%R], 1); ([2%R], [0], [(-1)%R], 1)] in
  shaped small_net 1 1 2 /\ untrained small_net /\ List.Forall (sample_batch_ok 1 2) bs /\
  exists Gs N', trajectory small_net bs = Ok (Gs, N').
Proof.
  cbv zeta. assert (S : shaped small_net 1 1 2) by repeat constructor.
  split; [exact S|]. split; [repeat constructor|].
  match goal with |- ?B /\ _ => assert (H : B) by repeat constructor end.
  split; [exact H|]. exact (trajectory_runs small_net 1 1 2 _ S ltac:(lia) H).
Qed.
