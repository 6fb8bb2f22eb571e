(** Final forms of the statements about PolicyNet. *)
From Coq Require Import List ZArith Bool Lia Reals Lra.
From Flocq Require Import Core BinarySingleNaN.
From Verif Require Import Model.Base Model.Float Model.DatasetM Model.NetM Model.PolicyNetM.
From Verif Require Import Spec.NetSpec Spec.PolicyNetSpec Proofs.NetFacts Proofs.NetReal Proofs.NetGradient Proofs.PolicyNetFacts Proofs.PolicyNetFiles Proofs.FloatConv.
Import ListNotations.
Local Open Scope nat_scope.

Lemma outputs_distribution N n h m B state : shaped N n h m -> 0 < m -> length state = B * n ->
  exists p, net_forward real_arith N state B = Ok p /\ length p = B * m /\
    forall i, i < B ->
      (forall j, j < m -> nth_error p (i * m + j) = Some (policy n h m (params_of N) (mat n state i) j) /\
                          (0 < policy n h m (params_of N) (mat n state i) j)%R) /\
      sumf m (policy n h m (params_of N) (mat n state i)) = 1%R.
Proof.
  intros S Hm L. eexists. split; [exact (forward_policy N n h m B state S Hm L)|]. split; [apply tab2_length|].
  intros i I. split.
  - intros j J. split; [|now apply softmax_pos]. exact (arr2_tab2 B m _ i j I J).
  - now apply softmax_sum.
Qed.

Lemma cache_coherent {T} (A : arith T) metric_in us P : pn_cache P = [] ->
  match run_uses A metric_in us P, run_uncached A metric_in us P with
  | Ok (l, P'), Ok (l', Q') => l = l' /\ no_cache P' = Q'
  | Throw, Throw | Abort, Abort | UB, UB | Fuel, Fuel => True
  | _, _ => False
  end.
Proof.
  intros E. assert (C : cache_ok A P) by (intros zs probs R F; rewrite E in F; discriminate F).
  pose proof (cache_unobservable A metric_in us P C) as H.
  destruct (run_uses A metric_in us P) as [[l P']| | | |]; destruct (run_uncached A metric_in us P) as [[l' Q']| | | |];
    try contradiction; try exact I. destruct H as (? & _ & ?). split; assumption.
Qed.

Lemma map_out_ub {X Y} (f : X -> outcome Y) l : (forall x, In x l -> f x = UB \/ exists y, f x = Ok y) ->
  (exists x, In x l /\ f x = UB) -> map_out f l = UB.
Proof.
  induction l as [|x l IH]; intros H (y & I & E); [destruct I|]. cbn [map_out].
  destruct (H x (or_introl eq_refl)) as [->|[q Q]]; [reflexivity|]. rewrite Q. cbn [bind].
  destruct I as [->|I]; [congruence|]. rewrite IH; [reflexivity| |exists y; split; assumption].
  intros z Z. apply H. right; exact Z.
Qed.

Lemma encode_cases f : encode f = UB \/ exists zs, encode f = Ok zs.
Proof.
  unfold encode. induction f as [|x f [IH|[zs IH]]]; cbn [map_out]; [right; now exists []| |];
    (assert (C : to_uint64 x = UB \/ exists z, to_uint64 x = Ok z);
      [unfold to_uint64; destruct (is_finite x); [destruct ((_ <=? _)%Z && _); [right; eexists; reflexivity|left; reflexivity]|left; reflexivity]
      |destruct C as [->|[z ->]]; [left; reflexivity|]]); cbn [bind]; rewrite IH; cbn [bind].
  - left; reflexivity.
  - right; eexists; reflexivity.
Qed.

Lemma encoding_injective {T} (A : arith T) f g : bit A true <> bit A false -> Forall encodable f -> Forall encodable g ->
  exists zs ws, encode f = Ok zs /\ encode g = Ok ws /\
    (key_of zs = key_of ws <-> integer_parts f = integer_parts g) /\
    (input_of (bit A) zs = input_of (bit A) ws <-> integer_parts f = integer_parts g).
Proof.
  intros D F G. exists (integer_parts f), (integer_parts g).
  assert (EF := encode_ok f F). assert (EG := encode_ok g G). split; [exact EF|]. split; [exact EG|].
  assert (RF := encode_range _ _ EF). assert (RG := encode_range _ _ EG).
  split; split; intros E.
  - exact (key_of_inj _ _ RF RG E).
  - now rewrite E.
  - exact (input_of_inj (bit A) _ _ D RF RG E).
  - now rewrite E.
Qed.

Lemma not_encodable_ub {T} (A : arith T) metric_in P f d : ~ Forall encodable f ->
  lookup_probs A P f = UB /\ (In f (map (fun e => fst (fst e)) d) -> pn_train A metric_in P d = UB).
Proof.
  intros N. pose proof (encode_bad f N) as E. split; [unfold lookup_probs; rewrite E; reflexivity|].
  intros I. unfold pn_train. rewrite map_out_ub; [reflexivity| |].
  - intros [[g p] x] _. destruct (encode_cases g) as [->|[zs ->]]; [left; reflexivity|right; eexists; reflexivity].
  - apply in_map_iff in I as (e & <- & I). exists (fst (fst e), snd (fst e), snd e). split; [|rewrite E; reflexivity].
    unfold ds_to_vector. apply in_map_iff. exists e. split; [reflexivity|exact I].
Qed.

Lemma store_load P Q : same_shape P Q -> is_int (pn_count P) -> is_int (pn_count Q) ->
  pn_load Q (Some (pn_store P)) = with_params_of Q P /\
  forall k, let R := pn_load Q (Some (firstn k (pn_store P))) in
    (forall i, i < length (all_params P) ->
      (8 * S i <= k -> nth_error (all_params R) i = nth_error (all_params P) i) /\
      (k <= 8 * i -> nth_error (all_params R) i = nth_error (all_params Q) i)) /\
    (k <= 8 * length (all_params P) -> pn_count R = pn_count Q).
Proof.
  intros S IP IQ. split; [now apply load_store|]. intros k R. split.
  - intros i L. now apply load_prefix_params.
  - now apply load_prefix_count.
Qed.

(** * Small cases for the examples *)
(** One input, one unit in each hidden layer, two policies, all weights 1. *)
Definition small_net : net R := new_net real_arith 1 1 2 1%R 0%R 0%R (fun _ _ => 1%R).

(** Asking, training, and asking the same again all succeed. *)
Lemma five_encodable : encodable (f32_of_Z 5).
Proof. destruct (f32_of_Z_spec 5 ltac:(lia)) as [F V]. split; [exact F|]. rewrite V. split; apply IZR_lt; reflexivity. Qed.
Definition some_uses {T} : list (use T) :=
  [Ask (fun _ => Ok 1%Z) [f32_of_Z 5]; Learn [([f32_of_Z 5], 1%Z, one64)]; Ask (fun _ => Ok 0%Z) [f32_of_Z 5]].
Lemma some_uses_ok {T} : List.Forall (use_ok 2 1) (@some_uses T).
Proof.
  assert (F : features_ok 1 [f32_of_Z 5]) by (split; [reflexivity|constructor; [apply five_encodable|constructor]]).
  unfold some_uses. constructor; [|constructor; [|constructor; [|constructor]]]; cbn [use_ok].
  - split; [exact F|]. intros p _; eexists; reflexivity.
  - constructor; [|constructor]. split; [exact F|cbn; lia].
  - split; [exact F|]. intros p _; eexists; reflexivity.
Qed.
