(** PolicyNet keeps within its arrays when the feature count is respected, and does not check it. *)
From Coq Require Import List ZArith Bool Lia.
From Flocq Require Import Core BinarySingleNaN.
From Verif Require Import Model.Base Model.Float Model.DatasetM Model.NetM Model.PolicyNetM.
From Verif Require Import Spec.NetSpec Spec.PolicyNetSpec Proofs.NetFacts Proofs.NetGradient Proofs.NetStep Proofs.PolicyNetFacts.
Import ListNotations.
Local Open Scope nat_scope.

Section Safety.
Context {T : Type} (A : arith T) (metric_in : f64 -> T).

Lemma input_length {X} (b : bool -> X) zs : length (input_of b zs) = 64 * length zs.
Proof.
  unfold input_of. induction zs as [|z zs IH]; [reflexivity|]. cbn [map List.concat].
  rewrite app_length, map_length, bit_list_length, IH. cbn [length]. lia.
Qed.

Record sized (policies features : nat) (P : pnet T) : Prop := {
  sz_policies : pn_policies P = policies;
  sz_net : exists h, shaped (pn_net P) (64 * features) h policies;
  sz_cache : forall k v, cache_find k (pn_cache P) = Some v -> length v = policies
}.

Lemma map_rd {X} (l : list X) : map_out (rd l) (seq 0 (length l)) = Ok l.
Proof.
  destruct l as [|x l]; [reflexivity|].
  rewrite (map_out_seq (length (x :: l)) _ (fun i => nth i (x :: l) x)) by (intros i I; exact (rd_arr1 (length (x :: l)) (x :: l) _ i (arr1_list x (x :: l)) I)).
  f_equal. generalize (x :: l) as q. intros q. unfold tab1. induction q as [|y q IH]; [reflexivity|].
  cbn [length seq map nth]. f_equal. rewrite <- seq_shift, map_map. exact IH.
Qed.

Lemma evaluate_sized policies features P zs : 0 < policies -> sized policies features P -> length zs = features ->
  exists p, evaluate_net A P zs = Ok p /\ length p = policies.
Proof.
  intros Hp [EP (h & S) _] L. unfold evaluate_net.
  destruct (forward_sizes A (n_zero A) (pn_net P) _ _ _ 1 (input_of (bit A) zs) S Hp) as (p & -> & LP).
  { rewrite input_length. lia. }
  cbn [bind]. rewrite EP. assert (LQ : length p = policies) by lia. exists p. split; [|exact LQ]. rewrite <- LQ at 1. apply map_rd.
Qed.

Lemma encode_features features f : features_ok features f -> exists zs, encode f = Ok zs /\ length zs = features.
Proof. intros [L E]. rewrite (encode_ok f E). eexists. split; [reflexivity|]. now rewrite map_length. Qed.

Lemma get_sized policies features P draw f : 0 < policies -> sized policies features P ->
  use_ok policies features (Ask draw f) -> exists i Q, pn_get_index A draw P f = Ok (i, Q) /\ sized policies features Q /\ pn_count Q = pn_count P.
Proof.
  intros Hp S [Hf Hd]. unfold pn_get_index. destruct (n_lt A (baseline A P) (pn_threshold P)).
  { exists 0%Z, P. repeat split; auto; apply S. }
  unfold lookup_probs. destruct (encode_features features f Hf) as (zs & -> & L). cbn [bind].
  destruct (cache_find (key_of zs) (pn_cache P)) as [p|] eqn:F.
  - cbn [bind]. destruct (Hd p) as [i ->]; [eapply sz_cache; eassumption|]. exists i, P. repeat split; auto; apply S.
  - destruct (evaluate_sized policies features P zs Hp S L) as (p & -> & LP). cbn [bind].
    destruct (Hd p LP) as [i ->]. cbn [bind]. do 2 eexists. split; [reflexivity|]. split; [|reflexivity].
    destruct S as [EP EN EC]. constructor; cbn [pn_policies pn_net pn_cache]; [exact EP|exact EN|].
    intros k v. cbn [cache_find]. destruct (bytes_eqb k (key_of zs)); [intros Q; now injection Q as <-|apply EC].
Qed.

Lemma map_out_ok {X Y} (f : X -> outcome Y) (R : Y -> Prop) l : Forall (fun x => exists y, f x = Ok y /\ R y) l ->
  exists q, map_out f l = Ok q /\ Forall R q /\ length q = length l.
Proof.
  induction 1 as [|x l (y & E & Ry) _ (q & IH & IR & IL)]; [exists []; repeat split; constructor|].
  cbn [map_out]. rewrite E; cbn [bind]. rewrite IH; cbn [bind]. exists (y :: q). repeat split; [now constructor|cbn; lia].
Qed.

Lemma concat_length {X} n (l : list (list X)) : Forall (fun s => length s = n) l -> length (List.concat l) = length l * n.
Proof. induction 1 as [|s l E _ IH]; [reflexivity|]. cbn [List.concat length]. rewrite app_length, IH. lia. Qed.

Lemma train_net_sized policies features P states actions rewards : 0 < policies -> sized policies features P ->
  (pn_count P < int_max)%Z -> Forall (fun s => length s = 64 * features) states ->
  length actions = length states -> length rewards = length states ->
  Forall (fun a => (0 <= a < Z.of_nat policies)%Z) actions ->
  exists Q, train_net A P states actions rewards = Ok Q /\ sized policies features Q /\ (pn_count Q <= pn_count P + 1)%Z.
Proof.
  intros Hp S C Ls La Lr Ra. unfold train_net. destruct states as [|s0 states]; [exists P; repeat split; auto; try apply S; lia|].
  rewrite (proj2 (Z.eqb_neq _ _)) by lia.
  match goal with |- context [n_lt A ?u ?v] => destruct (n_lt A u v) end.
  { eexists. split; [reflexivity|]. split; [|cbn; lia]. destruct S. constructor; assumption. }
  assert (L0 : length s0 = 64 * features) by now inversion Ls. rewrite L0.
  assert (ER : map_out (fun s => map_out (rd s) (seq 0 (64 * features))) (s0 :: states) = Ok (s0 :: states)).
  { clear -Ls. induction Ls as [|s l E _ IH]; [reflexivity|]. cbn [map_out]. rewrite <- E at 1. rewrite map_rd. cbn [bind].
    rewrite IH. reflexivity. }
  rewrite ER. cbn [bind]. clear ER.
  rewrite (map_out_seq (length (s0 :: states)) _ (fun i => Z.to_nat (nth i actions 0%Z))).
  2:{ intros i I. rewrite (rd_arr1 (length actions) actions (fun i => nth i actions 0%Z) i (arr1_list _ _)) by lia. cbn [bind].
      unfold action_index. rewrite Forall_forall in Ra. assert (H := Ra (nth i actions 0%Z) ltac:(apply nth_In; lia)).
      rewrite (proj2 (Z.ltb_ge _ _)) by lia. reflexivity. }
  cbn [bind]. match goal with |- context [n_sub A _ ?u] =>
    match u with n_div A _ _ => rewrite (map_out_seq (length (s0 :: states)) _ (fun i => n_sub A (nth i rewards (n_zero A)) u)) end end.
  2:{ intros i I. rewrite (rd_arr1 (length rewards) rewards (fun i => nth i rewards (n_zero A)) i (arr1_list _ _)) by lia. reflexivity. }
  cbn [bind]. destruct (sz_net _ _ _ S) as (h & SN).
  match goal with |- context [train_step A (pn_net P) ?s ?a ?r ?b] =>
    destruct (train_step_shaped A (n_zero A) (pn_net P) _ _ _ b s a r SN Hp) as (N' & -> & SN') end.
  - rewrite (concat_length (64 * features)) by exact Ls. lia.
  - now rewrite tab1_length.
  - now rewrite tab1_length.
  - intros i I. rewrite (nth_error_nth _ _ _ (arr1_tab1 _ _ i I)).
    rewrite Forall_forall in Ra. assert (H := Ra (nth i actions 0%Z) ltac:(apply nth_In; lia)). lia.
  - cbn [bind]. eexists. split; [reflexivity|]. split; [|cbn; lia]. destruct S as [EP EN EC].
    constructor; cbn [pn_policies pn_net pn_cache]; [exact EP|exists h; exact SN'|exact EC].
Qed.

Lemma learn_sized policies features P d : 0 < policies -> sized policies features P -> (pn_count P < int_max)%Z ->
  use_ok policies features (Learn (T := T) d) ->
  exists Q, pn_train A metric_in P d = Ok Q /\ sized policies features Q /\ (pn_count Q <= pn_count P + 1)%Z.
Proof.
  intros Hp S C U. unfold pn_train.
  match goal with |- context [map_out ?f (ds_to_vector d)] =>
    destruct (map_out_ok f (fun s => length s = 64 * features) (ds_to_vector d)) as (states & -> & Ls & LL) end.
  { cbn [use_ok] in U. unfold ds_to_vector. rewrite Forall_forall in U |- *. intros q I. apply in_map_iff in I as (e & <- & I).
    destruct (U e I) as [F _]. destruct (encode_features features _ F) as (zs & -> & L). cbn [bind]. eexists. split; [reflexivity|].
    rewrite input_length. lia. }
  cbn [bind].
  match goal with |- context [train_net A P states ?a ?r] =>
    destruct (train_net_sized policies features P states a r Hp S C Ls) as (Q & -> & SQ & CQ) end.
  - now rewrite map_length.
  - now rewrite map_length.
  - cbn [use_ok] in U. rewrite Forall_forall in U |- *. intros a I. apply in_map_iff in I as ([[f p] m] & <- & I).
    unfold ds_to_vector in I. apply in_map_iff in I as (e & E & I). injection E as _ <- _. now apply U.
  - cbn [bind]. eexists. split; [reflexivity|]. split; [|exact CQ]. destruct SQ as [EP EN EC].
    constructor; cbn [pn_policies pn_net pn_cache]; [exact EP|exact EN|]. intros k v H. discriminate H.
Qed.

Lemma uses_sized policies features us : 0 < policies -> Forall (use_ok policies features) us -> forall P,
  sized policies features P -> (pn_count P + Z.of_nat (length us) <= int_max)%Z ->
  exists l Q, run_uses A metric_in us P = Ok (l, Q).
Proof.
  intros Hp U. induction U as [|u us U _ IH]; intros P S C; [do 2 eexists; reflexivity|].
  cbn [length] in C. destruct u as [draw f|d]; cbn [run_uses].
  - destruct (get_sized policies features P draw f Hp S U) as (i & Q & -> & SQ & CQ). cbn [bind].
    destruct (IH Q SQ) as (l & R & ->); [lia|]. cbn [bind]. do 2 eexists; reflexivity.
  - destruct (learn_sized policies features P d Hp S) as (Q & -> & SQ & CQ); [lia|exact U|]. cbn [bind].
    apply IH; [exact SQ|lia].
Qed.

Lemma new_sized policies features lr beta be1 be2 threshold init :
  sized policies features (new_pnet A policies features lr beta be1 be2 threshold init).
Proof.
  constructor; [reflexivity| |].
  - eexists. apply new_net_shaped.
  - intros k v H. discriminate H.
Qed.

Lemma within_arrays policies features lr beta be1 be2 threshold init us :
  0 < policies -> Forall (use_ok policies features) us -> (Z.of_nat (length us) <= int_max)%Z ->
  exists l Q, run_uses A metric_in us (new_pnet A policies features lr beta be1 be2 threshold init) = Ok (l, Q).
Proof. intros Hp U L. eapply uses_sized; [exact Hp|exact U|apply new_sized|]. cbn [new_pnet pn_count]. lia. Qed.

(** * The number of features is not checked *)
Lemma fold_out_ub {X Y} (f : Y -> X -> outcome Y) g l1 x l2 b : (forall y z, In z l1 -> f y z = Ok (g y z)) ->
  (forall y, f y x = UB) -> fold_out f (l1 ++ x :: l2) b = UB.
Proof.
  revert b; induction l1 as [|z l1 IH]; intros b H U; cbn [app fold_out].
  - now rewrite U.
  - rewrite H by (left; reflexivity). cbn [bind]. apply IH; [intros; apply H; right; assumption|exact U].
Qed.

Lemma forward_short N n h m state : shaped N n h m -> 0 < h -> length state < n -> net_forward A N state 1 = UB.
Proof.
  intros SH Hh L. unfold net_forward, forward_pass.
  assert (E : fc_forward A (layer1 N) state 1 = UB); [|now rewrite E].
  destruct (sh_1 _ _ _ _ SH) as [I O W B _ _ _ _]. unfold fc_forward. rewrite O. unfold cells. destruct h as [|h]; [lia|].
  cbn [seq list_prod map app map_out fst snd].
  assert (E : fc_cell A (layer1 N) state 0 0 = UB); [|now rewrite E].
  unfold fc_cell. rewrite I.
  replace (seq 0 n) with (seq 0 (length state) ++ length state :: seq (S (length state)) (n - S (length state))).
  2:{ change (length state :: seq (S (length state)) (n - S (length state))) with (seq (0 + length state) (S (n - S (length state)))).
      rewrite <- seq_app. f_equal. lia. }
  rewrite (fold_out_ub _ (fun acc k => n_add A acc (n_mul A (nth k (l_w (layer1 N)) (n_zero A)) (nth k state (n_zero A))))).
  - reflexivity.
  - intros acc k K. apply in_seq0 in K. unfold at2. cbn [Nat.mul Nat.add].
    rewrite (rd_arr1 (length (l_w (layer1 N))) (l_w (layer1 N)) _ k (arr1_list (n_zero A) _)) by (rewrite W; lia).
    cbn [bind]. rewrite (rd_arr1 (length state) state _ k (arr1_list (n_zero A) _)) by lia. reflexivity.
  - intros acc. unfold at2. cbn [Nat.mul Nat.add].
    rewrite (rd_arr1 (length (l_w (layer1 N))) (l_w (layer1 N)) _ (length state) (arr1_list (n_zero A) _)) by (rewrite W; lia).
    cbn [bind]. unfold rd. rewrite (proj2 (nth_error_None _ _)) by lia. reflexivity.
Qed.

Lemma forward_long N n h m state extra : shaped N n h m -> 0 < m -> length state = n ->
  net_forward A N (state ++ extra) 1 = net_forward A N state 1.
Proof.
  intros S Hm L.
  pose proof (shaped_layer_ok (n_zero A) _ _ _ (sh_1 _ _ _ _ S)) as S1. pose proof (shaped_layer_ok (n_zero A) _ _ _ (sh_2 _ _ _ _ S)) as S2.
  pose proof (shaped_layer_ok (n_zero A) _ _ _ (sh_3 _ _ _ _ S)) as S3.
  assert (X : arr2 1 n state (fun i j => nth (at2 n i j) state (n_zero A))) by (apply arr2_list; lia).
  assert (X' : arr2 1 n (state ++ extra) (fun i j => nth (at2 n i j) state (n_zero A))).
  { intros i j I J. rewrite nth_error_app1 by (unfold at2; nia). now apply X. }
  rewrite (net_forward_ok A N n h m _ _ _ _ _ _ S1 S2 S3 Hm 1 _ _ X).
  rewrite (net_forward_ok A N n h m _ _ _ _ _ _ S1 S2 S3 Hm 1 _ _ X'). reflexivity.
Qed.

Lemma input_app {X} (b : bool -> X) zs extra : input_of b (zs ++ extra) = input_of b zs ++ input_of b extra.
Proof. unfold input_of. now rewrite map_app, concat_app. Qed.

(** A PolicyNet with nothing cached, made for [features] features. *)
Lemma wrong_feature_count policies features lr beta be1 be2 threshold init draw f :
  0 < policies -> n_lt A (n_zero A) threshold = false -> Forall encodable f ->
  let P := new_pnet A policies features lr beta be1 be2 threshold init in
  (length f < features -> pn_get_index A draw P f = UB) /\
  (forall p, lookup_probs A P f = Ok p -> forall g, Forall encodable g -> length f = features ->
     exists Q, lookup_probs A P (f ++ g) = Ok (fst p, Q)).
Proof.
  intros Hp Th E P.
  assert (SN : shaped (pn_net P) (64 * features) (Nat.div (64 * features + policies) 2) policies) by apply new_net_shaped.
  split.
  - intros L. unfold pn_get_index. change (baseline A P) with (n_zero A). change (pn_threshold P) with threshold. rewrite Th.
    unfold lookup_probs. rewrite (encode_ok f E). cbn [bind]. change (pn_cache P) with (@nil (bytes * list T)). cbn [cache_find].
    unfold evaluate_net. rewrite (forward_short (pn_net P) _ _ _ _ SN); [reflexivity| |].
    + apply Nat.div_str_pos. lia.
    + rewrite input_length, map_length. apply Nat.mul_lt_mono_pos_l; [lia|exact L]. 
  - intros p H g Eg L. unfold lookup_probs in *. rewrite (encode_ok f E) in H.
    rewrite (encode_ok (f ++ g)) by (apply Forall_app; split; assumption). rewrite map_app. cbn [bind] in *.
    change (pn_cache P) with (@nil (bytes * list T)) in *. cbn [cache_find] in *.
    unfold evaluate_net in *. rewrite input_app.
    rewrite (forward_long (pn_net P) _ _ _ _ _ SN Hp) by (rewrite input_length, map_length; lia).
    destruct (net_forward A (pn_net P) _ 1) as [q| | | |]; cbn [bind] in *; try discriminate.
    destruct (map_out (rd q) (seq 0 (pn_policies P))); cbn [bind] in *; try discriminate.
    injection H as <-. eexists. reflexivity.
Qed.
End Safety.
