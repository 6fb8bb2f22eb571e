(** A time that is not a number spoils a policy network for good. *)
From Coq Require Import List ZArith Bool Lia Reals.
From Flocq Require Import Core BinarySingleNaN.
From Verif Require Import Model.Base Model.Float Model.DatasetM Model.NetM Model.PolicyNetM.
From Verif Require Import Spec.NetSpec Spec.PolicyNetSpec Spec.PoisonSpec Proofs.TreeFacts Proofs.NetFacts Proofs.NetGradient Proofs.NetStep Proofs.NetAdam
  Proofs.PolicyNetAverage Proofs.PolicyNetFacts Proofs.PolicyNetSafety Proofs.PolicyNetLearn Proofs.NetBound Proofs.SoftmaxFloat.
Import ListNotations.
Local Open Scope nat_scope.

Notation nan := (@B754_nan 53 1024).
Definition nans (l : list f64) : Prop := List.Forall (fun x => x = nan) l.

Lemma mul_nan_r (x : f64) : mul64 x nan = nan.
Proof. destruct x; reflexivity. Qed.
Lemma mul_nan_l (x : f64) : mul64 nan x = nan.
Proof. destruct x; reflexivity. Qed.
Lemma div_nan_l (x : f64) : div64 nan x = nan.
Proof. destruct x; reflexivity. Qed.
Lemma sub_nan_r (x : f64) : sub64 x nan = nan.
Proof. destruct x; reflexivity. Qed.
Lemma sub_nan_l (x : f64) : sub64 nan x = nan.
Proof. destruct x; reflexivity. Qed.
Lemma lt_nan (x : f64) : lt64 nan x = false.
Proof. destruct x as [[|]|[|]| |[|]]; reflexivity. Qed.

Lemma nans_repeat l m : nans l -> length l = m -> l = repeat nan m.
Proof. intros N <-. induction N as [|x l -> _ IH]; [reflexivity|]. cbn. f_equal. exact IH. Qed.
Lemma nth_nan l i : nans l -> i < length l -> nth i l zero64 = nan.
Proof. intros N I. unfold nans in N. rewrite Forall_forall in N. apply N, nth_In, I. Qed.
Lemma nans_nth l m : length l = m -> (forall i, i < m -> nth i l zero64 = nan) -> nans l.
Proof. intros L H. apply Forall_forall. intros x I. apply (In_nth _ _ zero64) in I as (i & I & <-). apply H. lia. Qed.

Section Poison.
Context (M : libm) (E0 : m_exp M nan = nan).
Notation A := (f64_arith M).

Lemma adam_kept lr b1 b2 k m v g : snd (adam A lr b1 b2 k m v nan g) = nan.
Proof. unfold adam. cbn [snd n_add f64_arith]. apply add_nan_l. Qed.
Lemma adam_spoilt lr b1 b2 k m v p : snd (adam A lr b1 b2 k m v p nan) = nan.
Proof.
  unfold adam. cbn [snd n_add n_mul n_div n_sub n_one n_pow n_sqrt n_eps f64_arith]. rewrite mul_nan_r, add_nan_r, div_nan_l, mul_nan_r, div_nan_l, add_nan_r. reflexivity.
Qed.

Lemma total_nan k f : (exists i, i < k /\ f i = nan) -> total A k f = nan.
Proof.
  intros (i & I & F). rewrite <- (fold_left_tab1 A k f). apply fold_in_nan. unfold tab1. apply in_map_iff. exists i. split; [exact F|apply in_seq; lia].
Qed.

(** The output biases. *)
Definition drowned_net (n h m : nat) (N : net f64) : Prop := shaped N n h m /\ nans (l_b (layer3 N)).

Lemma train_biases N n h m B state action reward N' : shaped N n h m -> 0 < m -> 0 < B -> length state = B * n -> length action = B -> length reward = B ->
  (forall i, i < B -> nth i action O < m) -> (nans (l_b (layer3 N)) \/ In nan reward) -> train_step A N state action reward B = Ok N' -> drowned_net n h m N'.
Proof.
  intros S Hm HB Ls La Lr Ra C E.
  destruct (net_gradients_sizes A zero64 N n h m B state action reward S Hm Ls La Lr Ra) as (g1 & g2 & g3 & EG & W1 & Bb1 & W2 & Bb2 & W3 & Bb3).
  unfold train_step in E. rewrite EG in E. cbn [bind] in E.
  destruct (fc_step A (layer1 N) _ _ _ g1) as [L1| | | |] eqn:E1; cbn [bind] in E; try discriminate.
  destruct (fc_step A (layer2 N) _ _ _ g2) as [L2| | | |] eqn:E2; cbn [bind] in E; try discriminate.
  destruct (fc_step A (layer3 N) _ _ _ g3) as [L3| | | |] eqn:E3; cbn [bind] in E; try discriminate.
  injection E as <-.
  destruct (fc_step_full A _ _ _ _ _ _ _ zero64 _ (sh_1 _ _ _ _ S) W1 Bb1 E1) as (S1 & _). destruct (fc_step_full A _ _ _ _ _ _ _ zero64 _ (sh_2 _ _ _ _ S) W2 Bb2 E2) as (S2 & _).
  destruct (fc_step_full A _ _ _ _ _ _ _ zero64 _ (sh_3 _ _ _ _ S) W3 Bb3 E3) as (S3 & _ & _ & X).
  split; [constructor; assumption|]. cbn [layer3]. apply (nans_nth _ m); [apply (sl_b _ _ _ S3)|]. intros j J.
  specialize (X j J). apply (f_equal snd) in X. cbn [snd] in X. rewrite X. destruct C as [C|C].
  - rewrite (nth_nan (l_b (layer3 N))); [apply adam_kept|exact C|rewrite (sl_b _ _ _ (sh_3 _ _ _ _ S)); exact J].
  - replace (nth j (g_b g3) zero64) with nan; [apply adam_spoilt|]. symmetry.
    pose proof (shaped_layer_ok zero64 _ _ _ (sh_1 _ _ _ _ S)) as T1. pose proof (shaped_layer_ok zero64 _ _ _ (sh_2 _ _ _ _ S)) as T2.
    pose proof (shaped_layer_ok zero64 _ _ _ (sh_3 _ _ _ _ S)) as T3.
    assert (HA : arr1 B action (fun i => nth i action O)) by (rewrite <- La; apply arr1_list).
    assert (HR : arr1 B reward (fun i => nth i reward zero64)) by (rewrite <- Lr; apply arr1_list).
    rewrite (net_gradients_ok A N n h m _ _ _ _ _ _ T1 T2 T3 Hm B state _ (arr2_list zero64 _ _ _ Ls) action _ reward _ HA Ra HR) in EG.
    injection EG as _ _ <-. cbn [g_b]. apply nth_error_nth. rewrite (arr1_tab1 m _ j J). f_equal. apply total_nan. apply (In_nth _ _ zero64) in C as (i & I & C). exists i. split; [rewrite <- Lr; exact I|].
    unfold c3, loss_cell. cbn [n_opp n_mul n_div n_nat n_add f64_arith].
    match goal with |- context [Bopp ?r] => replace r with nan by (symmetry; exact C) end. change (Bopp nan) with nan. rewrite mul_nan_l, div_nan_l. destruct (Nat.eqb _ _); [apply add_nan_l|reflexivity].
Qed.

Lemma evaluate_drowned N n h m state p : drowned_net n h m N -> 0 < m -> length state = n -> net_forward A N state 1 = Ok p -> p = repeat nan m.
Proof.
  intros (S & NB) Hm Ls E.
  pose proof (shaped_layer_ok zero64 _ _ _ (sh_1 _ _ _ _ S)) as T1. pose proof (shaped_layer_ok zero64 _ _ _ (sh_2 _ _ _ _ S)) as T2.
  pose proof (shaped_layer_ok zero64 _ _ _ (sh_3 _ _ _ _ S)) as T3.
  unfold net_forward in E. rewrite (forward_pass_ok A N n h m _ _ _ _ _ _ T1 T2 T3 Hm 1 state _ (arr2_list zero64 1 n state ltac:(lia))) in E.
  cbn [bind aout3] in E. injection E as <-. apply nans_repeat; [|rewrite tab2_length; lia]. apply Forall_forall. intros x I. unfold tab2 in I. apply in_map_iff in I as ([i j] & <- & I).
  apply in_cells in I as [I J]. cbn [fst snd]. unfold soft. cbn [n_div f64_arith]. rewrite total_nan; [apply div_nan_r|]. exists 0. split; [exact Hm|].
  cbn [n_exp n_sub f64_arith]. unfold z3, lin. cbn [n_add f64_arith]. rewrite (nth_nan (l_b (layer3 N)) 0 NB) by (rewrite (sl_b _ _ _ (sh_3 _ _ _ _ S)); exact Hm).
  rewrite add_nan_r, sub_nan_l. exact E0.
Qed.

Record drowned (policies features : nat) (P : pnet f64) : Prop := {
  dr_policies : pn_policies P = policies;
  dr_net : exists h, drowned_net (64 * features) h policies (pn_net P);
  dr_avg : pn_avg P = nan;
  dr_count : (0 < pn_count P)%Z;
  dr_cache : forall k v, cache_find k (pn_cache P) = Some v -> v = repeat nan policies
}.

Lemma drowned_sized policies features P : drowned policies features P -> sized policies features P.
Proof.
  intros [DP (h & DS & _) _ _ DC]. constructor; [exact DP|exists h; exact DS|]. intros k v H. rewrite (DC k v H). apply repeat_length.
Qed.

Lemma drowned_baseline policies features P : drowned policies features P -> baseline A P = nan.
Proof. intros D. unfold baseline. rewrite (proj2 (Z.ltb_lt _ _) (dr_count _ _ _ D)), (dr_avg _ _ _ D). apply div_nan_l. Qed.

Lemma get_drowned policies features P draw f i Q : 0 < policies -> drowned policies features P -> features_ok features f -> pn_get_index A draw P f = Ok (i, Q) ->
  drowned policies features Q /\ pn_count Q = pn_count P /\ draw (repeat nan policies) = Ok i.
Proof.
  intros Hp D F H. unfold pn_get_index in H. rewrite (drowned_baseline _ _ _ D) in H. cbn [n_lt f64_arith] in H. rewrite lt_nan in H.
  unfold lookup_probs in H. destruct (encode_features features f F) as (zs & EZ & LZ). rewrite EZ in H. cbn [bind] in H.
  destruct (cache_find (key_of zs) (pn_cache P)) as [p|] eqn:CF; cbn [bind] in H.
  - rewrite (dr_cache _ _ _ D _ _ CF) in H. destruct (draw (repeat nan policies)) as [k| | | |]; cbn [bind] in H; try discriminate H. injection H as <- <-. auto.
  - destruct (evaluate_net A P zs) as [p| | | |] eqn:EV; cbn [bind] in H; try discriminate H.
    assert (EP : p = repeat nan policies).
    { unfold evaluate_net in EV. destruct (net_forward A (pn_net P) _ 1) as [q| | | |] eqn:NF; cbn [bind] in EV; try discriminate EV.
      destruct (dr_net _ _ _ D) as (h & DN). apply (evaluate_drowned _ _ _ _ _ _ DN Hp) in NF; [|rewrite input_length; lia]. rewrite (dr_policies _ _ _ D) in EV.
      assert (LQ : length q = policies) by (rewrite NF; apply repeat_length). rewrite <- LQ in EV at 1. rewrite map_rd in EV. congruence. }
    subst p. destruct (draw (repeat nan policies)) as [k| | | |]; cbn [bind] in H; try discriminate H. injection H as <- <-. split; [|auto].
    destruct D as [DP DN DA DC DK]. constructor; cbn [pn_policies pn_net pn_avg pn_count pn_cache]; auto.
    intros k0 v. cbn [cache_find]. destruct (bytes_eqb k0 (key_of zs)); [intros G; now injection G as <-|apply DK].
Qed.

Lemma train_fields P d Q : pn_train A (fun x => x) P d = Ok Q ->
  pn_policies Q = pn_policies P /\ pn_cache Q = [] /\ pn_threshold Q = pn_threshold P /\
  (d = [] /\ pn_avg Q = pn_avg P /\ pn_count Q = pn_count P \/
   d <> [] /\ pn_count Q = (pn_count P + 1)%Z /\
   pn_avg Q = add64 (mul64 (pn_beta P) (pn_avg P)) (mul64 (sub64 one64 (pn_beta P))
     (div64 (fold_left add64 (map (fun e => m_exp M (Bopp (snd e))) d) zero64) (f64_of_Z (Z.of_nat (length d)))))).
Proof.
  intros E. unfold pn_train in E.
  match type of E with context [map_out ?f ?l] => destruct (map_out f l) as [states| | | |] eqn:S end; cbn [bind] in E; try discriminate.
  apply PolicyNetAverage.map_out_length in S. unfold ds_to_vector in S. rewrite map_length in S.
  assert (RW : map (fun '(_, _, x) => n_exp A (n_opp A x)) (ds_to_vector d) = map (fun e => m_exp M (Bopp (snd e))) d).
  { unfold ds_to_vector. rewrite map_map. apply map_ext. intros [[f p] x]. reflexivity. }
  cbv beta in E. rewrite RW in E. clear RW.
  destruct states as [|s0 states].
  { cbn [train_net bind] in E. injection E as <-. destruct d; [|discriminate S]. repeat split; auto. }
  cbn [train_net] in E. destruct (pn_count P =? int_max)%Z; [discriminate E|]. rewrite S in E.
  assert (ND : d <> []) by (intros ->; discriminate S).
  match type of E with context [n_lt A ?u ?v] => destruct (n_lt A u v) end; cbn [bind] in E.
  - injection E as <-. repeat split; auto.
  - repeat match type of E with context [map_out ?f ?l] => destruct (map_out f l) as [?| | | |]; cbn [bind] in E; try discriminate E end.
    match type of E with context [train_step A ?a ?b ?c ?d ?e] => destruct (train_step A a b c d e) as [?| | | |]; cbn [bind] in E; try discriminate E end.
    injection E as <-. repeat split; auto.
Qed.

Lemma train_drowned policies features P d Q : 0 < policies -> sized policies features P -> use_ok policies features (Learn (T := f64) d) -> (0 <= pn_count P < int_max)%Z ->
  (drowned policies features P \/ exists e, In e d /\ snd e = nan) -> pn_train A (fun x => x) P d = Ok Q -> drowned policies features Q.
Proof.
  intros Hp SZ U C B E. destruct (train_fields P d Q E) as (F1 & F2 & F3 & F4).
  destruct F4 as [(-> & F5 & F6)|(ND & F5 & F6)].
  { destruct B as [[DP DN DA DC DK]|(e & [] & _)]. destruct (learns A (fun x => x) policies features P [] Q U C E) as [[_ N]|(X & _)]; [|congruence].
    constructor; [congruence|rewrite N; exact DN|congruence|lia|rewrite F2; discriminate]. }
  assert (AV : pn_avg Q = nan).
  { rewrite F6. destruct B as [D|(e & I & V)]; [rewrite (dr_avg _ _ _ D), mul_nan_r; apply add_nan_l|].
    rewrite fold_in_nan; [rewrite div_nan_l, mul_nan_r; apply add_nan_r|]. apply in_map_iff. exists e. split; [exact (eq_trans (f_equal (fun v : f64 => m_exp M (Bopp v)) V) E0)|exact I]. }
  assert (BL : baseline A Q = nan) by (unfold baseline; rewrite (proj2 (Z.ltb_lt _ _)) by lia; rewrite AV; apply div_nan_l).
  destruct (learns A (fun x => x) policies features P d Q U C E) as [[[X|X] _]|(_ & _ & N)]; [congruence| |].
  { rewrite BL in X. cbn [n_lt f64_arith] in X. rewrite lt_nan in X. discriminate X. }
  destruct (sz_net _ _ _ SZ) as (h & SN).
  destruct (batch_of policies features d (map (fun _ => 0%R) d) U (map_length _ _)) as (R1 & _ & _ & R2).
  constructor; [rewrite F1; apply SZ| |exact AV|lia|rewrite F2; discriminate]. exists h.
  refine (train_biases (pn_net P) _ _ _ (length d) _ _ _ _ SN Hp _ _ _ _ _ _ N).
  - destruct d; [congruence|cbn; lia].
  - rewrite (concat_length (64 * features)); [now rewrite map_length|]. apply Forall_forall. intros s I. apply in_map_iff in I as (e & <- & I).
    rewrite input_length. unfold integer_parts. rewrite map_length. cbn [use_ok] in U. rewrite Forall_forall in U. destruct (U e I) as ((-> & _) & _). reflexivity.
  - now rewrite map_length.
  - now rewrite map_length.
  - intros i I. rewrite Forall_forall in R2. apply R2. apply nth_In. rewrite map_length. exact I.
  - right. destruct d as [|e d]; [congruence|]. left. rewrite BL. cbn [n_sub f64_arith]. apply sub_nan_r.
Qed.

Lemma uses_drowned policies features us : 0 < policies -> List.Forall (use_ok policies features) us -> forall P l Q,
  drowned policies features P -> (pn_count P + Z.of_nat (length us) <= int_max)%Z -> run_uses A (fun x => x) us P = Ok (l, Q) ->
  all_drawn_from (repeat nan policies) us l /\ drowned policies features Q.
Proof.
  intros Hp U. induction U as [|u us U _ IH]; intros P l Q D C H; cbn [run_uses] in H.
  { injection H as <- <-. cbn. auto. }
  cbn [length] in C. destruct u as [draw f|d].
  - destruct (pn_get_index A draw P f) as [[i P1]| | | |] eqn:G; cbn [bind] in H; try discriminate H.
    destruct (run_uses A (fun x => x) us P1) as [[l1 Q1]| | | |] eqn:H1; cbn [bind] in H; try discriminate H. injection H as <- <-.
    destruct (get_drowned policies features P draw f i P1 Hp D (proj1 U) G) as (D1 & CP & DR).
    destruct (IH P1 l1 Q1 D1 ltac:(lia) H1) as (X & Y). cbn [all_drawn_from]. auto.
  - destruct (pn_train A (fun x => x) P d) as [P1| | | |] eqn:T; cbn [bind] in H; try discriminate H. pose proof (dr_count _ _ _ D) as CP.
    assert (D1 : drowned policies features P1) by (apply (train_drowned policies features P d P1 Hp (drowned_sized _ _ _ D) U); [lia|left; exact D|exact T]).
    destruct (train_fields P d P1 T) as (_ & _ & _ & F4).
    apply (IH P1 l Q D1); [destruct F4 as [(_ & _ & ->)|(_ & -> & _)]; lia|exact H].
Qed.

Lemma uses_sized_after policies features us : 0 < policies -> List.Forall (use_ok policies features) us -> forall P l Q,
  sized policies features P -> (0 <= pn_count P)%Z -> (pn_count P + Z.of_nat (length us) <= int_max)%Z -> run_uses A (fun x => x) us P = Ok (l, Q) ->
  sized policies features Q /\ (0 <= pn_count Q <= pn_count P + Z.of_nat (length us))%Z.
Proof.
  intros Hp U. induction U as [|u us U _ IH]; intros P l Q D C0 C H; cbn [run_uses] in H.
  { injection H as <- <-. cbn. split; [exact D|lia]. }
  cbn [length] in C. destruct u as [draw f|d].
  - destruct (get_sized A policies features P draw f Hp D U) as (i & P1 & G & S1 & C1). rewrite G in H. cbn [bind] in H.
    destruct (run_uses A (fun x => x) us P1) as [[l1 Q1]| | | |] eqn:H1; cbn [bind] in H; try discriminate H. injection H as <- <-.
    destruct (IH P1 l1 Q1 S1 ltac:(lia) ltac:(lia) H1). split; [assumption|]. cbn [length]. lia.
  - destruct (learn_sized A (fun x => x) policies features P d Hp D ltac:(lia) U) as (P1 & T & S1 & C1). rewrite T in H. cbn [bind] in H.
    assert (C2 : (0 <= pn_count P1)%Z) by (destruct (train_fields P d P1 T) as (_ & _ & _ & [(_ & _ & ->)|(_ & -> & _)]); lia).
    destruct (IH P1 l Q S1 C2 ltac:(lia) H). split; [assumption|]. cbn [length]. lia.
Qed.

Lemma poisoned policies features lr beta beta1 beta2 threshold init us1 d us2 l1 l2 P Q Q' : 0 < policies ->
  List.Forall (use_ok policies features) (us1 ++ Learn d :: us2) -> (Z.of_nat (length (us1 ++ Learn (T := f64) d :: us2)) <= int_max)%Z ->
  (exists e, In e d /\ snd e = nan) ->
  run_uses A (fun x => x) us1 (new_pnet A policies features lr beta beta1 beta2 threshold init) = Ok (l1, P) ->
  pn_train A (fun x => x) P d = Ok Q -> run_uses A (fun x => x) us2 Q = Ok (l2, Q') ->
  all_drawn_from (repeat nan policies) us2 l2 /\ l_b (layer3 (pn_net Q')) = repeat nan policies /\ pn_avg Q' = nan.
Proof.
  intros Hp U C B H1 T H2. apply Forall_app in U as (U1 & U2). inversion U2 as [|? ? UD U3]; subst. rewrite app_length in C. cbn [length] in C.
  destruct (uses_sized_after policies features us1 Hp U1 _ _ _ (new_sized A policies features lr beta beta1 beta2 threshold init) ltac:(cbn; lia) ltac:(cbn; lia) H1) as (S1 & C1).
  change (pn_count (new_pnet A policies features lr beta beta1 beta2 threshold init)) with 0%Z in C1.
  assert (D : drowned policies features Q) by (apply (train_drowned policies features P d Q Hp S1 UD ltac:(lia)); [right; exact B|exact T]).
  destruct (train_fields P d Q T) as (_ & _ & _ & F4).
  destruct (uses_drowned policies features us2 Hp U3 Q l2 Q' D ltac:(destruct F4 as [(_ & _ & ->)|(_ & -> & _)]; lia) H2) as (X & D').
  split; [exact X|]. split; [|apply (dr_avg _ _ _ D')]. destruct (dr_net _ _ _ D') as (h & SN & NB). apply nans_repeat; [exact NB|apply (sl_b _ _ _ (sh_3 _ _ _ _ SN))].
Qed.
End Poison.
