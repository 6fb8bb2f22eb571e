(** A network whose measured times are all equal, and one with two measurements. *)
From Coq Require Import List ZArith Bool Lia Reals Lra.
From Flocq Require Import Core BinarySingleNaN.
From Verif Require Import Model.Base Model.Float Model.DatasetM Model.NetM Model.PolicyNetM.
From Verif Require Import Spec.NetSpec Spec.PolicyNetSpec Spec.NetStillSpec Proofs.TreeFacts Proofs.NetFacts Proofs.NetReal Proofs.NetGradient Proofs.NetStep Proofs.NetAdam
  Proofs.PolicyNetAverage Proofs.PolicyNetSafety Proofs.PolicyNetLearn Proofs.NetBound.
Import ListNotations.
Local Open Scope R_scope.

Definition zeros (l : list R) : Prop := List.Forall (fun x => x = 0) l.

Lemma total_zero k f : (forall i, (i < k)%nat -> f i = 0) -> total real_arith k f = 0.
Proof. intros H. rewrite total_sumf. rewrite (sumf_ext k f (fun _ => 0)) by exact H. apply sumf_zero. Qed.

Lemma tab2_zeros r c f : (forall i j, (i < r)%nat -> (j < c)%nat -> f i j = 0) -> zeros (tab2 r c f).
Proof.
  intros H. apply Forall_forall. intros x I. unfold tab2 in I. apply in_map_iff in I as ([i j] & <- & I). apply in_cells in I. apply H; apply I.
Qed.
Lemma tab1_zeros r f : (forall i, (i < r)%nat -> f i = 0) -> zeros (tab1 r f).
Proof. intros H. apply Forall_forall. intros x I. unfold tab1 in I. apply in_map_iff in I as (i & <- & I). apply in_seq0 in I. apply H, I. Qed.

Lemma ok_same {X} (a b : X) : Ok a = Ok b -> a = b.
Proof. congruence. Qed.

(** Rewards of 0 give gradients of 0. *)
Lemma zero_gradients N n h m B state action reward G : shaped N n h m -> (0 < m)%nat -> length state = (B * n)%nat -> length action = B -> length reward = B ->
  (forall i, (i < B)%nat -> (nth i action O < m)%nat) -> zeros reward -> net_gradients real_arith N state action reward B = Ok G ->
  let '(g1, g2, g3) := G in (zeros (g_w g1) /\ zeros (g_b g1)) /\ (zeros (g_w g2) /\ zeros (g_b g2)) /\ (zeros (g_w g3) /\ zeros (g_b g3)).
Proof.
  intros S Hm Ls La Lr Ra Z E.
  pose proof (shaped_layer_ok 0 _ _ _ (sh_1 _ _ _ _ S)) as S1. pose proof (shaped_layer_ok 0 _ _ _ (sh_2 _ _ _ _ S)) as S2.
  pose proof (shaped_layer_ok 0 _ _ _ (sh_3 _ _ _ _ S)) as S3.
  assert (HA : arr1 B action (fun i => nth i action O)) by (rewrite <- La; apply arr1_list).
  assert (HR : arr1 B reward (fun i => nth i reward 0)) by (rewrite <- Lr; apply arr1_list).
  rewrite (net_gradients_ok real_arith N n h m _ _ _ _ _ _ S1 S2 S3 Hm B state _ (arr2_list 0 _ _ _ Ls) action _ reward _ HA Ra HR) in E.
  apply ok_same in E. subst G. cbv zeta. cbn [g_w g_b].
  match goal with |- context [c3 real_arith ?n ?h ?m ?W1 ?W2 ?W3 ?b1 ?b2 ?b3 ?B ?x ?a ?r] => set (k3 := c3 real_arith n h m W1 W2 W3 b1 b2 b3 B x a r) in * end.
  match goal with |- context [c2 real_arith ?n ?h ?m ?W1 ?W2 ?W3 ?b1 ?b2 ?b3 ?B ?x ?a ?r] => set (k2 := c2 real_arith n h m W1 W2 W3 b1 b2 b3 B x a r) in * end.
  match goal with |- context [c1 real_arith ?n ?h ?m ?W1 ?W2 ?W3 ?b1 ?b2 ?b3 ?B ?x ?a ?r] => set (k1 := c1 real_arith n h m W1 W2 W3 b1 b2 b3 B x a r) in * end.
  assert (Z3 : forall i j, k3 i j = 0).
  { intros i j. unfold k3, c3, loss_cell. cbn [n_opp n_mul n_div n_nat n_add real_arith]. rewrite (nth_zero _ i Z). unfold Rdiv. destruct (Nat.eqb _ _); ring. }
  assert (Z2 : forall i j, k2 i j = 0).
  { intros i j. unfold k2, c2. fold k3. cbn [n_mul real_arith]. rewrite total_zero; [ring|]. intros q _. cbn [n_mul real_arith]. rewrite Z3. ring. }
  assert (Z1 : forall i j, k1 i j = 0).
  { intros i j. unfold k1, c1. fold k2. cbn [n_mul real_arith]. rewrite total_zero; [ring|]. intros q _. cbn [n_mul real_arith]. rewrite Z2. ring. }
  repeat split; first [apply tab2_zeros|apply tab1_zeros]; intros; apply total_zero; intros; cbn [n_mul real_arith]; rewrite ?Z1, ?Z2, ?Z3; ring.
Qed.

Definition still (L0 L : layer R) : Prop :=
  l_w L = l_w L0 /\ l_b L = l_b L0 /\ zeros (l_wm L) /\ zeros (l_wv L) /\ zeros (l_bm L) /\ zeros (l_bv L).

Lemma adam_still lr b1 b2 k p : adam real_arith lr b1 b2 k 0 0 p 0 = (0, 0, p).
Proof.
  unfold adam. cbn [n_add n_sub n_mul n_div n_pow n_sqrt n_eps n_one real_arith].
  assert (P2 : powerRZ 0 2 = 0) by (unfold powerRZ; cbn [Pos.to_nat Pos.iter_op Init.Nat.add pow]; simpl; lra). rewrite P2. rewrite !Rmult_0_r, !Rplus_0_r.
  f_equal. unfold Rdiv. rewrite !Rmult_0_l, Rmult_0_r, Rmult_0_l. ring.
Qed.

Lemma still_step L0 L n m lr b1 b2 g L' : shaped_layer L n m -> still L0 L -> length (g_w g) = (m * n)%nat -> length (g_b g) = m -> zeros (g_w g) -> zeros (g_b g) ->
  fc_step real_arith L lr b1 b2 g = Ok L' -> shaped_layer L' n m /\ still L0 L'.
Proof.
  intros S (W & B & WM & WV & BM & BV) GW GB ZW ZB E.
  destruct (fc_step_full real_arith L n m lr b1 b2 g 0 L' S GW GB E) as (S' & _ & X & Y). split; [exact S'|].
  assert (X' : forall i, (i < m * n)%nat -> nth i (l_wm L') 0 = 0 /\ nth i (l_wv L') 0 = 0 /\ nth i (l_w L') 0 = nth i (l_w L) 0).
  { intros i I. specialize (X i I). rewrite (nth_zero _ i WM), (nth_zero _ i WV), (nth_zero _ i ZW), adam_still in X. injection X as -> -> ->. auto. }
  assert (Y' : forall i, (i < m)%nat -> nth i (l_bm L') 0 = 0 /\ nth i (l_bv L') 0 = 0 /\ nth i (l_b L') 0 = nth i (l_b L) 0).
  { intros i I. specialize (Y i I). rewrite (nth_zero _ i BM), (nth_zero _ i BV), (nth_zero _ i ZB), adam_still in Y. injection Y as -> -> ->. auto. }
  assert (Q : forall l k, length l = k -> (forall i, (i < k)%nat -> nth i l 0 = 0) -> zeros l).
  { intros l k L1 H. apply Forall_forall. intros x I. apply (In_nth _ _ 0) in I as (i & I & <-). apply H. lia. }
  unfold still. rewrite <- W, <- B. repeat split.
  - apply (nth_ext _ _ 0 0); [rewrite (sl_w _ _ _ S'), (sl_w _ _ _ S); reflexivity|]. intros i I. rewrite (sl_w _ _ _ S') in I. apply X', I.
  - apply (nth_ext _ _ 0 0); [rewrite (sl_b _ _ _ S'), (sl_b _ _ _ S); reflexivity|]. intros i I. rewrite (sl_b _ _ _ S') in I. apply Y', I.
  - apply (Q _ _ (sl_wm _ _ _ S')). intros i I. apply X', I.
  - apply (Q _ _ (sl_wv _ _ _ S')). intros i I. apply X', I.
  - apply (Q _ _ (sl_bm _ _ _ S')). intros i I. apply Y', I.
  - apply (Q _ _ (sl_bv _ _ _ S')). intros i I. apply Y', I.
Qed.

Definition still_net (n h m : nat) (N0 N : net R) : Prop :=
  shaped N n h m /\ still (layer1 N0) (layer1 N) /\ still (layer2 N0) (layer2 N) /\ still (layer3 N0) (layer3 N).

Lemma still_train N0 N n h m B state action reward N' : still_net n h m N0 N -> (0 < m)%nat -> length state = (B * n)%nat -> length action = B -> length reward = B ->
  (forall i, (i < B)%nat -> (nth i action O < m)%nat) -> zeros reward -> train_step real_arith N state action reward B = Ok N' -> still_net n h m N0 N'.
Proof.
  intros (S & T1 & T2 & T3) Hm Ls La Lr Ra Z E.
  destruct (net_gradients_sizes real_arith 0 N n h m B state action reward S Hm Ls La Lr Ra) as (g1 & g2 & g3 & EG & W1 & Bb1 & W2 & Bb2 & W3 & Bb3).
  destruct (zero_gradients N n h m B state action reward _ S Hm Ls La Lr Ra Z EG) as ((Z1 & Y1) & (Z2 & Y2) & (Z3 & Y3)).
  unfold train_step in E. rewrite EG in E. cbn [bind] in E.
  destruct (fc_step real_arith (layer1 N) _ _ _ g1) as [L1| | | |] eqn:E1; cbn [bind] in E; try discriminate.
  destruct (fc_step real_arith (layer2 N) _ _ _ g2) as [L2| | | |] eqn:E2; cbn [bind] in E; try discriminate.
  destruct (fc_step real_arith (layer3 N) _ _ _ g3) as [L3| | | |] eqn:E3; cbn [bind] in E; try discriminate.
  injection E as <-.
  destruct (still_step _ _ _ _ _ _ _ _ _ (sh_1 _ _ _ _ S) T1 W1 Bb1 Z1 Y1 E1) as [A1 A2].
  destruct (still_step _ _ _ _ _ _ _ _ _ (sh_2 _ _ _ _ S) T2 W2 Bb2 Z2 Y2 E2) as [A3 A4].
  destruct (still_step _ _ _ _ _ _ _ _ _ (sh_3 _ _ _ _ S) T3 W3 Bb3 Z3 Y3 E3) as [A5 A6].
  split; [constructor; assumption|]. auto.
Qed.

(** The baseline is the reward, if all rewards are equal. *)
Definition level (r : R) (P : pnet R) : Prop :=
  0 <= pn_beta P < 1 /\ (0 <= pn_count P)%Z /\ pn_avg P = (1 - pn_beta P ^ Z.to_nat (pn_count P)) * r.

Lemma mean_same r l : l <> [] -> List.Forall (eq r) l -> mean l = r.
Proof.
  intros N F. unfold mean. assert (X : fold_right Rplus 0 l = INR (length l) * r).
  { clear N. induction F as [|x l <- F IH]; [cbn; ring|]. cbn [fold_right]. rewrite IH. change (length (r :: l)) with (S (length l)). rewrite S_INR. ring. }
  assert (0 < INR (length l)) by (apply lt_0_INR; destruct l; [congruence|cbn; lia]). rewrite X. field. lra.
Qed.

Lemma train_average metric_in P d Q : pn_train real_arith metric_in P d = Ok Q -> d <> [] ->
  pn_avg Q = pn_beta P * pn_avg P + (1 - pn_beta P) * mean (map (fun e => exp (- metric_in (snd e))) d) /\
  pn_count Q = (pn_count P + 1)%Z /\ pn_beta Q = pn_beta P /\ pn_threshold Q = pn_threshold P.
Proof.
  intros E N. unfold pn_train in E.
  match type of E with context [map_out ?f ?l] => destruct (map_out f l) as [states| | | |] eqn:S end; cbn [bind] in E; try discriminate.
  apply PolicyNetAverage.map_out_length in S.
  match type of E with context [train_net real_arith P states ?a ?r] => destruct (train_net real_arith P states a r) as [Q'| | | |] eqn:T end;
    cbn [bind] in E; try discriminate.
  assert (NE : states <> []) by (intros ->; unfold ds_to_vector in S; rewrite map_length in S; destruct d; [congruence|discriminate S]).
  assert (LE : length states = length (map (fun '(_, _, x) => n_exp real_arith (n_opp real_arith (metric_in x))) (ds_to_vector d))) by (rewrite map_length; exact S).
  destruct (train_net_average _ _ _ _ _ LE NE T) as (T1 & T2).
  injection E as <-. cbn [pn_avg pn_count pn_beta pn_threshold]. split; [|exact T2]. rewrite T1. unfold ds_to_vector. rewrite map_map. reflexivity.
Qed.

Lemma level_baseline r P : level r P -> (0 < pn_count P)%Z -> baseline real_arith P = r.
Proof.
  intros (B & C & A) L. unfold baseline. cbn [n_div n_sub n_one n_pow n_zero real_arith].
  destruct (Z.ltb_spec 0 (pn_count P)) as [_|X]; [|lia]. rewrite <- (Z2Nat.id (pn_count P)) at 1 by lia. rewrite <- pow_powerRZ.
  destruct (pow_lt_1 (pn_beta P) (Z.to_nat (pn_count P)) B ltac:(lia)) as [PL PU]. rewrite A. field. lra.
Qed.

Lemma level_train metric_in r P d Q : level r P -> List.Forall (fun e => exp (- metric_in (snd e)) = r) d -> pn_train real_arith metric_in P d = Ok Q -> d <> [] ->
  level r Q /\ (0 < pn_count Q)%Z.
Proof.
  intros (B & C & A) F E N. destruct (train_average metric_in P d Q E N) as (A1 & C1 & Be & _).
  rewrite (mean_same r) in A1.
  - unfold level. rewrite A1, C1, Be, A. split; [|lia]. split; [exact B|]. split; [lia|].
    replace (Z.to_nat (pn_count P + 1)) with (S (Z.to_nat (pn_count P))) by lia. cbn [pow]. ring.
  - destruct d; [congruence|discriminate].
  - apply Forall_forall. intros x I. apply in_map_iff in I as (e & <- & I). rewrite Forall_forall in F. symmetry. exact (F e I).
Qed.

Lemma empty_train metric_in P Q : pn_train real_arith metric_in P [] = Ok Q -> pn_net Q = pn_net P /\ pn_avg Q = pn_avg P /\ pn_count Q = pn_count P /\ pn_beta Q = pn_beta P.
Proof. cbn. intros E. injection E as <-. auto. Qed.

Lemma get_average draw P f i Q : pn_get_index real_arith draw P f = Ok (i, Q) ->
  pn_net Q = pn_net P /\ pn_avg Q = pn_avg P /\ pn_count Q = pn_count P /\ pn_beta Q = pn_beta P.
Proof.
  unfold pn_get_index. destruct (n_lt real_arith (baseline real_arith P) (pn_threshold P)); [intros E; injection E as _ <-; auto|].
  unfold lookup_probs. destruct (encode f) as [zs| | | |]; cbn [bind]; try discriminate.
  destruct (cache_find (key_of zs) (pn_cache P)) as [p|]; cbn [bind].
  - destruct (draw p); cbn [bind]; try discriminate. intros E; injection E as _ <-; auto.
  - destruct (evaluate_net real_arith P zs) as [p| | | |]; cbn [bind]; try discriminate. destruct (draw p); cbn [bind]; try discriminate. intros E; injection E as _ <-; auto.
Qed.

Lemma batch_rows policies features (d : dataset) : use_ok policies features (Learn (T := R) d) ->
  length (List.concat (map (fun e => input_of (bit real_arith) (integer_parts (fst (fst e)))) d)) = (length d * (64 * features))%nat /\
  (forall i, (i < length d)%nat -> (nth i (map (fun e => Z.to_nat (snd (fst e))) d) O < policies)%nat).
Proof.
  intros U. destruct (batch_of policies features d (map (fun _ => 0) d) U (map_length _ _)) as (A & _ & _ & B). split; [exact A|].
  intros i I. rewrite Forall_forall in B. apply B. apply nth_In. rewrite map_length. exact I.
Qed.

Lemma still_uses metric_in r policies features N0 us : (0 < policies)%nat -> List.Forall (use_ok policies features) us ->
  List.Forall (fun u => match u with Ask _ _ => True | Learn d => List.Forall (fun e => exp (- metric_in (snd e)) = r) d end) us -> forall P l Q,
  level r P -> still_net (64 * features) (Nat.div (64 * features + policies) 2) policies N0 (pn_net P) -> (pn_count P + Z.of_nat (length us) <= int_max)%Z ->
  run_uses real_arith metric_in us P = Ok (l, Q) -> still_net (64 * features) (Nat.div (64 * features + policies) 2) policies N0 (pn_net Q).
Proof.
  intros Hp U. induction U as [|u us U _ IH]; intros V P l Q LV ST C H; cbn [run_uses] in H.
  { injection H as _ <-. exact ST. }
  inversion V as [|? ? V0 V']; subst. cbn [length] in C. destruct u as [draw f|d].
  - destruct (pn_get_index real_arith draw P f) as [[i P1]| | | |] eqn:G; cbn [bind] in H; try discriminate H.
    destruct (run_uses real_arith metric_in us P1) as [[l1 Q1]| | | |] eqn:H1; cbn [bind] in H; try discriminate H. injection H as _ <-.
    destruct (get_average _ _ _ _ _ G) as (K1 & K2 & K3 & K4). apply (IH V' P1 l1 Q1); [unfold level; rewrite K2, K3, K4; exact LV|rewrite K1; exact ST|lia|exact H1].
  - destruct (pn_train real_arith metric_in P d) as [P1| | | |] eqn:T; cbn [bind] in H; try discriminate H.
    destruct LV as (B & C0 & A). assert (K := train_counts _ _ _ _ _ T).
    destruct d as [|e d].
    + destruct (empty_train metric_in P P1 T) as (K1 & K2 & K3 & K4). apply (IH V' P1 l Q); [unfold level; rewrite K2, K3, K4; repeat split; try assumption; apply B|rewrite K1; exact ST|lia|exact H].
    + destruct (level_train metric_in r P (e :: d) P1 (conj B (conj C0 A)) V0 T ltac:(discriminate)) as [LV1 CP]. apply (IH V' P1 l Q LV1); [|lia|exact H].
      destruct (learns real_arith metric_in policies features P (e :: d) P1 U ltac:(lia) T) as [[_ N]|(_ & _ & N)]; [rewrite N; exact ST|].
      destruct (batch_rows policies features (e :: d) U) as [R1 R2].
      refine (still_train N0 (pn_net P) _ _ _ _ _ _ _ _ ST Hp R1 _ _ R2 _ N); [now rewrite map_length|now rewrite map_length|].
      apply Forall_forall. intros x I. apply in_map_iff in I as (e1 & <- & I). cbn [n_sub n_exp n_opp real_arith]. rewrite (level_baseline r P1 LV1 CP).
      rewrite Forall_forall in V0. rewrite (V0 e1 I). ring.
Qed.

Lemma equal_times_still policies features lr beta beta1 beta2 threshold init t us l Q : (0 < policies)%nat -> 0 <= beta < 1 -> List.Forall (use_ok policies features) us ->
  List.Forall (timed t) us -> (Z.of_nat (length us) <= int_max)%Z ->
  run_uses real_arith (fun x : f64 => B2R x) us (new_pnet real_arith policies features lr beta beta1 beta2 threshold init) = Ok (l, Q) ->
  same_parameters (pn_net Q) (pn_net (new_pnet real_arith policies features lr beta beta1 beta2 threshold init)).
Proof.
  intros Hp HB U TI C H. set (P := new_pnet real_arith policies features lr beta beta1 beta2 threshold init) in *.
  assert (ST : still_net (64 * features) (Nat.div (64 * features + policies) 2) policies (pn_net P) (pn_net P)).
  { destruct (new_untrained (64 * features) (Nat.div (64 * features + policies) 2) policies lr beta1 beta2 init) as (A1 & A2 & A3).
    split; [apply new_net_shaped|]. unfold still. split; [|split]; (split; [reflexivity|]); (split; [reflexivity|]);
      [destruct A1 as (a & b & c & d & _)|destruct A2 as (a & b & c & d & _)|destruct A3 as (a & b & c & d & _)]; repeat split; assumption. }
  assert (X : still_net (64 * features) (Nat.div (64 * features + policies) 2) policies (pn_net P) (pn_net Q)).
  { apply (still_uses (fun x : f64 => B2R x) (exp (- t)) policies features (pn_net P) us Hp U) with (P := P) (l := l); auto.
    - revert TI. apply Forall_impl. intros [draw f|d] T; [exact Logic.I|]. revert T. cbn. apply Forall_impl. intros e X. exact (f_equal (fun y => exp (- y)) X).
    - unfold level, P, new_pnet. cbn [pn_beta pn_count pn_avg n_zero real_arith]. split; [exact HB|]. split; [lia|]. cbn [Z.to_nat pow]. ring. }
  destruct X as (_ & (a1 & a2 & _) & (b1 & b2 & _) & (d1 & d2 & _)). unfold same_parameters. repeat split; assumption.
Qed.

(** ** Two measurements of the same features. *)
Lemma total_two f : total real_arith 2 f = f O + f 1%nat.
Proof. unfold total. cbn. ring. Qed.

Lemma first_step_opp lr g : first_step lr (- g) = - first_step lr g.
Proof. unfold first_step. rewrite Rabs_Ropp. unfold Rdiv. ring. Qed.
Lemma first_step_zero lr : first_step lr 0 = 0.
Proof. unfold first_step. unfold Rdiv. ring. Qed.
Lemma first_step_up lr g : 0 <= lr -> 0 <= g -> 0 <= first_step lr g.
Proof.
  intros L G. unfold first_step. apply Rmult_le_pos; [now apply Rmult_le_pos|]. apply Rlt_le, Rinv_0_lt_compat.
  assert (0 < / 10 ^ 8) by (apply Rinv_0_lt_compat, pow_lt; lra). pose proof (Rabs_pos g). lra.
Qed.

Lemma tab1_at r (f : nat -> R) i : (i < r)%nat -> nth i (tab1 r f) 0 = f i.
Proof. intros I. apply nth_error_nth. apply (arr1_tab1 r f i I). Qed.
Lemma tab2_at r c (f : nat -> nat -> R) i j : (i < r)%nat -> (j < c)%nat -> nth (at2 c i j) (tab2 r c f) 0 = f i j.
Proof. intros I J. apply nth_error_nth. apply (arr2_tab2 r c f i j I J). Qed.

(** Gradients of the output layer for two equal rows with rewards [e] and [-e]. *)
Lemma pair_gradients N n h m row a b e G : shaped N n h m -> (0 < m)%nat -> length row = n -> (a < m)%nat -> (b < m)%nat -> a <> b ->
  net_gradients real_arith N (row ++ row) [a; b] [e; - e] 2 = Ok G ->
  exists y, (forall k, 0 <= y k) /\
    (forall j, (j < m)%nat -> p_b3 (grads_params n h G) j = (if Nat.eqb j a then e / 2 else 0) - (if Nat.eqb j b then e / 2 else 0)) /\
    (forall j k, (j < m)%nat -> (k < h)%nat -> p_w3 (grads_params n h G) j k = p_b3 (grads_params n h G) j * y k).
Proof.
  intros S Hm Lr A B AB E.
  pose proof (shaped_layer_ok 0 _ _ _ (sh_1 _ _ _ _ S)) as S1. pose proof (shaped_layer_ok 0 _ _ _ (sh_2 _ _ _ _ S)) as S2.
  pose proof (shaped_layer_ok 0 _ _ _ (sh_3 _ _ _ _ S)) as S3.
  assert (HS : arr2 2 n (row ++ row) (fun i k => nth k row 0)).
  { intros i k I K. unfold at2. destruct i as [|[|i]]; [| |lia].
    - cbn [Nat.mul Nat.add]. rewrite nth_error_app1 by lia. apply nth_error_nth'. lia.
    - rewrite Nat.mul_1_l, nth_error_app2 by lia. rewrite Lr. replace (n + k - n)%nat with k by lia. apply nth_error_nth'. lia. }
  assert (HA : arr1 2 [a; b] (fun i => nth i [a; b] O)) by exact (arr1_list O [a; b]).
  assert (HR : arr1 2 [e; - e] (fun i => nth i [e; - e] 0)) by exact (arr1_list 0 [e; - e]).
  assert (Ra : forall i, (i < 2)%nat -> (nth i [a; b] O < m)%nat) by (intros [|[|i]] I; cbn; lia).
  rewrite (net_gradients_ok real_arith N n h m _ _ _ _ _ _ S1 S2 S3 Hm 2 (row ++ row) _ HS [a; b] _ [e; - e] _ HA Ra HR) in E.
  apply ok_same in E. subst G. cbn [grads_params p_b3 p_w3].
  set (y := fun k => rect real_arith (z2 real_arith n h (fun j k => nth (at2 n j k) (l_w (layer1 N)) 0) (fun j k => nth (at2 h j k) (l_w (layer2 N)) 0)
      (fun j => nth j (l_b (layer1 N)) 0) (fun j => nth j (l_b (layer2 N)) 0) (fun i k => nth k row 0) 0) k).
  exists y. split; [|split].
  - intros k. unfold y, rect, NetM.max. cbn [n_lt n_zero real_arith]. destruct (Rlt_bool_spec (z2 real_arith n h (fun j k => nth (at2 n j k) (l_w (layer1 N)) 0) (fun j k => nth (at2 h j k) (l_w (layer2 N)) 0)
      (fun j => nth j (l_b (layer1 N)) 0) (fun j => nth j (l_b (layer2 N)) 0) (fun i k => nth k row 0) 0 k) 0); lra.
  - intros j J. unfold vec. cbn [g_b]. rewrite tab1_at by exact J. rewrite total_two. unfold c3, loss_cell. cbn [nth n_opp n_mul n_div n_add n_nat real_arith].
    change (soft real_arith m (z3 _ _ _ _ _ _ _ _ _ _ 1) j) with (soft real_arith m (z3 real_arith n h (fun j k => nth (at2 n j k) (l_w (layer1 N)) 0) (fun j k => nth (at2 h j k) (l_w (layer2 N)) 0)
      (fun j k => nth (at2 h j k) (l_w (layer3 N)) 0) (fun j => nth j (l_b (layer1 N)) 0) (fun j => nth j (l_b (layer2 N)) 0) (fun j => nth j (l_b (layer3 N)) 0) (fun i k => nth k row 0) 0) j).
    replace (INR 2) with 2 by (cbn; lra). destruct (Nat.eqb j a), (Nat.eqb j b); field.
  - intros j k J K. unfold mat, vec. cbn [g_w g_b]. rewrite tab2_at, tab1_at by assumption. rewrite !total_two. cbn [n_mul real_arith].
    change (rect real_arith (z2 _ _ _ _ _ _ _ _ 1) k) with (y k). change (rect real_arith (z2 _ _ _ _ _ _ _ _ 0) k) with (y k). ring.
Qed.

Lemma two_times policies features lr beta beta1 beta2 threshold init f (a b : Z) (x y : f64) Q :
  features_ok features f -> (0 <= a < Z.of_nat policies)%Z -> (0 <= b < Z.of_nat policies)%Z -> a <> b ->
  0 <= lr -> 0 <= beta < 1 -> 0 <= beta1 < 1 -> 0 <= beta2 < 1 -> threshold <= 0 -> B2R x < B2R y ->
  pn_train real_arith (fun z : f64 => B2R z) (new_pnet real_arith policies features lr beta beta1 beta2 threshold init) [(f, a, x); (f, b, y)] = Ok Q ->
  favours (Nat.div (64 * features + policies) 2) lr (exp (- B2R x) - exp (- B2R y)) (Z.to_nat a) (Z.to_nat b)
    (layer3 (pn_net (new_pnet real_arith policies features lr beta beta1 beta2 threshold init))) (layer3 (pn_net Q)).
Proof.
  intros F A B AB L HB H1 H2 TH XY E. set (P := new_pnet real_arith policies features lr beta beta1 beta2 threshold init) in *.
  set (n := (64 * features)%nat) in *. set (h := Nat.div (n + policies) 2) in *. set (d := exp (- B2R x) - exp (- B2R y)).
  assert (D : 0 < d) by (unfold d; pose proof (exp_increasing (- B2R y) (- B2R x) ltac:(lra)); lra).
  assert (U : use_ok policies features (Learn (T := R) [(f, a, x); (f, b, y)])) by (repeat constructor; cbn; try apply F; lia).
  destruct (train_average (fun z : f64 => B2R z) P _ Q E ltac:(discriminate)) as (AV & CT & BE & _).
  assert (MN : baseline real_arith Q = (exp (- B2R x) + exp (- B2R y)) / 2).
  { unfold baseline. rewrite CT, BE, AV. cbn [n_div n_sub n_one n_pow n_zero real_arith]. change (pn_count P) with 0%Z. change (pn_beta P) with beta. change (pn_avg P) with 0.
    cbn [Z.add Z.ltb Z.compare]. rewrite powerRZ_1. unfold mean. cbn [map snd fold_right length INR]. field. lra. }
  assert (PX := exp_pos (- B2R x)). assert (PY := exp_pos (- B2R y)).
  destruct (learns real_arith (fun z : f64 => B2R z) policies features P _ Q U ltac:(change (pn_count P) with 0%Z; unfold int_max; lia) E) as [[[X|X] _]|(_ & _ & TS)].
  { discriminate X. }
  { exfalso. revert X. rewrite MN. change (pn_threshold P) with threshold. cbn [n_lt real_arith]. intros X. destruct (Rlt_bool_spec ((exp (- B2R x) + exp (- B2R y)) / 2) threshold); [lra|discriminate X]. }
  cbn [map fst snd List.concat length] in TS. rewrite MN in TS. cbn [n_sub n_exp n_opp real_arith] in TS. rewrite app_nil_r in TS.
  replace (exp (- B2R x) - (exp (- B2R x) + exp (- B2R y)) / 2) with (d / 2) in TS by (unfold d; field).
  replace (exp (- B2R y) - (exp (- B2R x) + exp (- B2R y)) / 2) with (- (d / 2)) in TS by (unfold d; field).
  set (row := input_of (bit real_arith) (integer_parts f)) in *.
  assert (S : shaped (pn_net P) n h policies) by (apply new_net_shaped).
  assert (LR : length row = n).
  { destruct (batch_rows policies features [(f, a, x)] ltac:(repeat constructor; cbn; try apply F; lia)) as [LR _]. cbn [map fst snd List.concat length] in LR.
    rewrite app_nil_r in LR. fold row in LR. rewrite LR. unfold n. lia. }
  assert (Ra : forall i, (i < 2)%nat -> (nth i [Z.to_nat a; Z.to_nat b] O < policies)%nat) by (intros [|[|i]] I; cbn; lia).
  destruct (first_training_step (pn_net P) n h policies 2 (row ++ row) [Z.to_nat a; Z.to_nat b] [d / 2; - (d / 2)] (pn_net Q)) as (G & EG & S' & PE & _);
    try assumption; try reflexivity; try lia.
  { apply new_untrained. }
  { rewrite app_length, LR. lia. }
  destruct (pair_gradients (pn_net P) n h policies row (Z.to_nat a) (Z.to_nat b) (d / 2) G S ltac:(lia) LR ltac:(lia) ltac:(lia) ltac:(lia) EG) as (z & Z0 & GB & GW).
  destruct PE as (_ & _ & _ & _ & PW & PB). cbn [p_w3 p_b3 along params_of step_params] in PW, PB. change (learn_rate (pn_net P)) with lr in *.
  rewrite (sl_in _ _ _ (sh_3 _ _ _ _ S')), (sl_in _ _ _ (sh_3 _ _ _ _ S)) in PW. unfold mat, vec in PW, PB.
  assert (GA : p_b3 (grads_params n h G) (Z.to_nat a) = d / 4).
  { rewrite GB by lia. rewrite Nat.eqb_refl. destruct (Nat.eqb_spec (Z.to_nat a) (Z.to_nat b)); [lia|]. field. }
  assert (GBb : p_b3 (grads_params n h G) (Z.to_nat b) = - (d / 4)).
  { rewrite GB by lia. rewrite Nat.eqb_refl. destruct (Nat.eqb_spec (Z.to_nat b) (Z.to_nat a)); [lia|]. field. }
  assert (GO : forall j, (j < policies)%nat -> j <> Z.to_nat a -> j <> Z.to_nat b -> p_b3 (grads_params n h G) j = 0).
  { intros j J Ja Jb. rewrite GB by exact J. destruct (Nat.eqb_spec j (Z.to_nat a)); [congruence|]. destruct (Nat.eqb_spec j (Z.to_nat b)); [congruence|]. ring. }
  unfold favours. rewrite (sl_b _ _ _ (sh_3 _ _ _ _ S')), (sl_b _ _ _ (sh_3 _ _ _ _ S)), (sl_w _ _ _ (sh_3 _ _ _ _ S')), (sl_w _ _ _ (sh_3 _ _ _ _ S)).
  split; [reflexivity|]. split; [reflexivity|]. split; [|split; [|split; [|split]]].
  - rewrite PB by lia. rewrite GA. ring.
  - rewrite PB by lia. rewrite GBb, first_step_opp. ring.
  - intros j J Ja Jb. rewrite PB by exact J. rewrite (GO j J Ja Jb), first_step_zero. ring.
  - intros k K. change (Z.to_nat a * h + k)%nat with (at2 h (Z.to_nat a) k). change (Z.to_nat b * h + k)%nat with (at2 h (Z.to_nat b) k).
    rewrite !PW by lia. rewrite !GW by lia. rewrite GA, GBb.
    pose proof (first_step_up lr (d / 4 * z k) L ltac:(apply Rmult_le_pos; [lra|apply Z0])) as UP.
    replace (- (d / 4) * z k) with (- (d / 4 * z k)) by ring. rewrite first_step_opp. lra.
  - intros j k J K Ja Jb. change (j * h + k)%nat with (at2 h j k). rewrite PW by assumption. rewrite GW by assumption. rewrite (GO j J Ja Jb), Rmult_0_l, first_step_zero. ring.
Qed.
