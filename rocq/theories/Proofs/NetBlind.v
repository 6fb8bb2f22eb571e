(** Input bits that are never set, and features without any bit. *)
From Coq Require Import List ZArith Bool Lia Reals Lra.
From Flocq Require Import Core BinarySingleNaN.
From Verif Require Import Model.Base Model.Float Model.DatasetM Model.NetM Model.PolicyNetM.
From Verif Require Import Spec.NetSpec Spec.PolicyNetSpec Spec.BlindSpec Proofs.TreeFacts Proofs.FloatConv Proofs.KokkosDoubles Proofs.NetFacts Proofs.NetReal Proofs.NetGradient Proofs.NetStep Proofs.NetAdam
  Proofs.PolicyNetAverage Proofs.PolicyNetFacts Proofs.PolicyNetProps Proofs.PolicyNetSafety Proofs.PolicyNetLearn Proofs.NetBound Proofs.NetStill Proofs.PolicyNetStale Proofs.SoftmaxFloat.
Import ListNotations.
Local Open Scope nat_scope.

(** ** Reading the inputs *)
Lemma nth_concat {X} (d : X) n (rows : list (list X)) i q : Forall (fun r => length r = n) rows -> q < n ->
  nth (i * n + q) (List.concat rows) d = nth q (nth i rows []) d.
Proof.
  intros F Q. revert i. induction F as [|r rows L F IH]; intros i; cbn [List.concat].
  { destruct i, q; destruct (_ * _ + _); reflexivity. }
  destruct i as [|i].
  - cbn [Nat.mul Nat.add nth]. apply app_nth1. lia.
  - rewrite app_nth2 by (cbn; lia). replace (S i * n + q - length r) with (i * n + q) by (cbn; lia). cbn [nth]. apply IH.
Qed.

Lemma input_at {X} (bt : bool -> X) (d : X) zs k b : k < length zs -> b < 64 ->
  nth (64 * k + b) (input_of bt zs) d = bt (Z.testbit (nth k zs 0%Z) (Z.of_nat b)).
Proof.
  intros K B. unfold input_of. rewrite Nat.mul_comm. rewrite nth_concat; [|apply Forall_forall; intros r I; apply in_map_iff in I as (z & <- & _); unfold bit_list; now rewrite !map_length, seq_length|exact B].
  rewrite (nth_indep _ [] (map bt (bit_list 0%Z))) by (rewrite map_length; exact K). rewrite (map_nth (fun z => map bt (bit_list z))).
  rewrite (nth_indep _ d (bt false)) by (unfold bit_list; rewrite !map_length, seq_length; exact B). rewrite map_nth. f_equal.
  unfold bit_list. rewrite (nth_indep _ false (Z.testbit (nth k zs 0%Z) (Z.of_nat 0))) by (rewrite map_length, seq_length; exact B).
  rewrite (map_nth (fun i => Z.testbit (nth k zs 0%Z) (Z.of_nat i)) (seq 0 64) 0 b). rewrite seq_nth by exact B. reflexivity.
Qed.

(** ** Bits that are never set *)
Section Bits.
Local Open Scope R_scope.
Variables (policies features k b : nat) (init : nat -> R).
Hypothesis Hk : (k < features)%nat.
Hypothesis Hb : (b < 64)%nat.
Let n := (64 * features)%nat.
Let q := (64 * k + b)%nat.
Let h := Nat.div (64 * features + policies) 2.

Definition untouched (N : net R) : Prop :=
  shaped N n h policies /\ forall j, (j < h)%nat ->
    nth (at2 n j q) (l_w (layer1 N)) 0 = init (at2 n j q) /\ nth (at2 n j q) (l_wm (layer1 N)) 0 = 0 /\ nth (at2 n j q) (l_wv (layer1 N)) 0 = 0.

Lemma q_below : (q < n)%nat.
Proof. unfold q, n. nia. Qed.

Lemma untouched_step N B state action reward N' : untouched N -> (0 < policies)%nat -> length state = (B * n)%nat -> length action = B -> length reward = B ->
  (forall i, (i < B)%nat -> (nth i action O < policies)%nat) -> (forall i, (i < B)%nat -> nth (at2 n i q) state 0 = 0) ->
  train_step real_arith N state action reward B = Ok N' -> untouched N'.
Proof.
  intros (S & K) Hm Ls La Lr Ra Z E. pose proof q_below as QB.
  destruct (net_gradients_sizes real_arith 0 N n h policies B state action reward S Hm Ls La Lr Ra) as (g1 & g2 & g3 & EG & W1 & Bb1 & W2 & Bb2 & W3 & Bb3).
  unfold train_step in E. rewrite EG in E. cbn [bind] in E.
  destruct (fc_step real_arith (layer1 N) _ _ _ g1) as [L1| | | |] eqn:E1; cbn [bind] in E; try discriminate.
  destruct (fc_step real_arith (layer2 N) _ _ _ g2) as [L2| | | |] eqn:E2; cbn [bind] in E; try discriminate.
  destruct (fc_step real_arith (layer3 N) _ _ _ g3) as [L3| | | |] eqn:E3; cbn [bind] in E; try discriminate.
  apply ok_same in E. subst N'.
  destruct (fc_step_full real_arith _ _ _ _ _ _ _ 0 _ (sh_1 _ _ _ _ S) W1 Bb1 E1) as (S1 & _ & X & _).
  destruct (fc_step_full real_arith _ _ _ _ _ _ _ 0 _ (sh_2 _ _ _ _ S) W2 Bb2 E2) as (S2 & _). destruct (fc_step_full real_arith _ _ _ _ _ _ _ 0 _ (sh_3 _ _ _ _ S) W3 Bb3 E3) as (S3 & _).
  split; [constructor; assumption|]. intros j J. cbn [layer1].
  assert (G : nth (at2 n j q) (g_w g1) 0 = 0).
  { pose proof (shaped_layer_ok 0 _ _ _ (sh_1 _ _ _ _ S)) as T1. pose proof (shaped_layer_ok 0 _ _ _ (sh_2 _ _ _ _ S)) as T2.
    pose proof (shaped_layer_ok 0 _ _ _ (sh_3 _ _ _ _ S)) as T3.
    assert (HA : arr1 B action (fun i => nth i action O)) by (rewrite <- La; apply arr1_list).
    assert (HR : arr1 B reward (fun i => nth i reward 0)) by (rewrite <- Lr; apply arr1_list).
    rewrite (net_gradients_ok real_arith N n h policies _ _ _ _ _ _ T1 T2 T3 Hm B state _ (arr2_list 0 _ _ _ Ls) action _ reward _ HA Ra HR) in EG.
    apply ok_same in EG. apply (f_equal (fun t => g_w (fst (fst t)))) in EG. cbn [fst g_w] in EG. rewrite <- EG.
    rewrite tab2_at by assumption. apply NetStill.total_zero. intros i I. cbn [n_mul real_arith]. rewrite (Z i I). apply Rmult_0_r. }
  assert (I : (at2 n j q < h * n)%nat) by (unfold at2; nia).
  specialize (X _ I). destruct (K j J) as (K1 & K2 & K3). rewrite G, K2, K3, adam_still, K1 in X. injection X as -> -> ->. auto.
Qed.

Lemma state_bit (d : dataset) i : use_ok policies features (Learn (T := R) d) -> never_set k b (Learn (T := R) d) -> (i < length d)%nat ->
  nth (at2 n i q) (List.concat (map (fun e => input_of (bit real_arith) (integer_parts (fst (fst e)))) d)) 0 = 0.
Proof.
  intros U V I. cbn [use_ok never_set] in U, V. pose proof q_below as QB. unfold at2. rewrite nth_concat; [| |exact QB].
  2:{ apply Forall_forall. intros r R. apply in_map_iff in R as (e & <- & R). rewrite input_length. unfold integer_parts. rewrite map_length. rewrite Forall_forall in U.
      destruct (U e R) as ((L & _) & _). unfold n. rewrite L. reflexivity. }
  destruct (nth_error d i) as [e|] eqn:D; [|exfalso; revert I; apply Nat.le_ngt, nth_error_None, D]. apply nth_error_In in D as IN.
  erewrite (nth_error_nth (map _ d)); [|rewrite nth_error_map, D; reflexivity].
  rewrite Forall_forall in U, V. destruct (U e IN) as ((L & _) & _).
  unfold q. rewrite input_at; [|unfold integer_parts; rewrite map_length, L; exact Hk|exact Hb].
  destruct (nth_error (fst (fst e)) k) as [x|] eqn:F; [|exfalso; apply nth_error_None in F; apply (Nat.lt_irrefl k); eapply Nat.lt_le_trans; [exact Hk|]; rewrite <- L; exact F].
  assert (NX : nth k (integer_parts (fst (fst e))) 0%Z = Ztrunc (B2R x)).
  { apply nth_error_nth. unfold integer_parts. rewrite nth_error_map. exact (f_equal (option_map (fun y : f32 => Ztrunc (B2R y))) F). }
  refine (eq_trans (f_equal (fun z => bit real_arith (Z.testbit z (Z.of_nat b))) NX) _). rewrite (V e IN x F). reflexivity.
Qed.

Lemma untouched_uses metric_in us : (0 < policies)%nat -> Forall (use_ok policies features) us -> Forall (never_set k b) us -> forall P l Q,
  (0 <= pn_count P)%Z -> untouched (pn_net P) -> (pn_count P + Z.of_nat (length us) <= int_max)%Z ->
  run_uses real_arith metric_in us P = Ok (l, Q) -> untouched (pn_net Q).
Proof.
  intros Hp U. induction U as [|u us U _ IH]; intros V P l Q C0 ST C H; cbn [run_uses] in H.
  { injection H as _ <-. exact ST. }
  inversion V as [|? ? V0 V']; subst. cbn [length] in C. destruct u as [draw f|d].
  - destruct (pn_get_index real_arith draw P f) as [[i P1]| | | |] eqn:G; cbn [bind] in H; try discriminate H.
    destruct (run_uses real_arith metric_in us P1) as [[l1 Q1]| | | |] eqn:H1; cbn [bind] in H; try discriminate H. injection H as _ <-.
    destruct (get_average _ _ _ _ _ G) as (K1 & K2 & K3 & K4). apply (IH V' P1 l1 Q1); [lia|rewrite K1; exact ST|lia|exact H1].
  - destruct (pn_train real_arith metric_in P d) as [P1| | | |] eqn:T; cbn [bind] in H; try discriminate H.
    assert (K := train_counts _ _ _ _ _ T). apply (IH V' P1 l Q); [lia| |lia|exact H].
    destruct (learns real_arith metric_in policies features P d P1 U ltac:(lia) T) as [[_ N]|(_ & _ & N)]; [rewrite N; exact ST|].
    destruct (batch_rows policies features d U) as [R1 R2].
    refine (untouched_step (pn_net P) _ _ _ _ _ ST Hp R1 _ _ R2 _ N); [now rewrite map_length|now rewrite map_length|].
    intros i I. apply state_bit; assumption.
Qed.
End Bits.

Lemma unseen_bits policies features lr beta beta1 beta2 threshold init us l Q k b : 0 < policies -> Forall (use_ok policies features) us ->
  (Z.of_nat (length us) <= int_max)%Z -> k < features -> b < 64 -> Forall (never_set k b) us ->
  run_uses real_arith (fun x : f64 => B2R x) us (new_pnet real_arith policies features lr beta beta1 beta2 threshold init) = Ok (l, Q) ->
  forall j, j < (64 * features + policies) / 2 ->
    nth_error (l_w (layer1 (pn_net Q))) (j * (64 * features) + (64 * k + b)) = Some (init 1 (j * (64 * features) + (64 * k + b))).
Proof.
  intros Hp U C Hk Hb V H j J. set (h := (64 * features + policies) / 2) in *.
  assert (W : untouched policies features k b (init 1) (pn_net (new_pnet real_arith policies features lr beta beta1 beta2 threshold init))).
  { split; [apply new_net_shaped|]. intros i I. assert (QB : 64 * k + b < 64 * features) by nia.
    assert (A : at2 (64 * features) i (64 * k + b) < h * (64 * features)) by (unfold at2; nia).
    cbn [pn_net new_pnet layer1 new_net new_layer l_w l_wm l_wv n_zero real_arith]. fold h. rewrite !nth_repeat. split; [|auto].
    apply nth_error_nth. rewrite nth_error_map. rewrite (nth_error_nth' (seq 0 (h * (64 * features))) 0) by (rewrite seq_length; exact A). rewrite seq_nth by exact A. reflexivity. }
  destruct (untouched_uses policies features k b (init 1) Hk Hb (fun x : f64 => B2R x) us Hp U V (new_pnet real_arith policies features lr beta beta1 beta2 threshold init) l Q (Z.le_refl 0) W C H) as (S & K).
  destruct (K j J) as (K1 & _). assert (QB : 64 * k + b < 64 * features) by nia. fold h in S.
  rewrite (nth_error_nth' _ 0%R) by (rewrite (sl_w _ _ _ (sh_1 _ _ _ _ S)); nia). f_equal. exact K1.
Qed.

(** ** No bit set *)
Section Even.
Variable M : libm.
Hypothesis E0 : m_exp M zero64 = one64.
Notation A := (f64_arith M).

Lemma times_zero (w : f64) : is_finite w = true -> exists s, mul64 w zero64 = B754_zero s.
Proof. intros F. destruct w as [s|s| |s m e B]; try discriminate F; eexists; reflexivity. Qed.
Lemma total_zeros k f : (forall i, i < k -> exists s, f i = B754_zero s) -> total A k f = zero64.
Proof.
  intros H. unfold total. assert (G : forall l, (forall i, In i l -> exists s, f i = B754_zero s) -> fold_left (fun acc i => n_add A acc (f i)) l (n_zero A) = zero64).
  { induction l as [|i l IH]; intros L; [reflexivity|]. cbn [fold_left]. destruct (L i (or_introl eq_refl)) as (s & ->).
    replace (n_add A (n_zero A) (B754_zero s)) with (n_zero A) by (destruct s; reflexivity). apply IH. intros q Q. apply L. right. exact Q. }
  apply G. intros i I. apply H, in_seq0, I.
Qed.

Lemma ones_sum k : (Z.of_nat k <= 2 ^ 52)%Z -> is_finite (total A k (fun _ => one64)) = true /\ B2R (total A k (fun _ => one64)) = INR k.
Proof.
  induction k as [|k IH]; intros L; [split; reflexivity|]. destruct (IH ltac:(lia)) as (F & V). unfold total in *. rewrite seq_S, fold_left_app. cbn [fold_left Nat.add].
  set (t := fold_left (fun acc _ => n_add A acc one64) (seq 0 k) (n_zero A)) in *. cbn [n_add f64_arith]. destruct one_value as [V1 F1].
  assert (R : rnd64 (B2R t + B2R one64) = INR (S k)).
  { rewrite V, V1, <- S_INR. unfold rnd64. apply round_generic; [typeclasses eauto|]. apply fmt_nat. exact L. }
  destruct (add64_spec t one64 F F1) as (FA & VA); [rewrite R, INR_IZR_INZ; apply below_1024; lia|]. split; [exact FA|]. rewrite VA. exact R.
Qed.

Lemma even_soft m z : 0 < m -> (Z.of_nat m <= 2 ^ 52)%Z -> (forall j, j < m -> z j = zero64) -> BlindSpec.even_odds m (tab1 m (soft A m z)).
Proof.
  intros Hm L H. assert (T : top A m z = zero64).
  { unfold top. rewrite (H 0 Hm). assert (G : forall l, (forall j, In j l -> z j = zero64) -> fold_left (fun a j => NetM.max A a (z j)) l zero64 = zero64).
    { induction l as [|j l IH]; intros K; [reflexivity|]. cbn [fold_left]. rewrite (K j (or_introl eq_refl)). change (NetM.max A zero64 zero64) with zero64. apply IH. intros q Q. apply K. right. exact Q. }
    apply G. intros j J. apply H, in_seq0, J. }
  assert (X : forall j, j < m -> n_exp A (n_sub A (z j) (top A m z)) = one64).
  { intros j J. rewrite T, (H j J). change (n_sub A zero64 zero64) with zero64. exact E0. }
  assert (D : total A m (fun j => n_exp A (n_sub A (z j) (top A m z))) = total A m (fun _ => one64)).
  { unfold total. assert (G : forall l a, (forall j, In j l -> j < m) -> fold_left (fun acc j => n_add A acc (n_exp A (n_sub A (z j) (top A m z)))) l a = fold_left (fun acc _ => n_add A acc one64) l a).
    { induction l as [|j l IH]; intros a K; [reflexivity|]. cbn [fold_left]. rewrite (X j (K j (or_introl eq_refl))). apply IH. intros q Q. apply K. right. exact Q. }
    apply G. intros j J. apply in_seq0, J. }
  destruct (ones_sum m L) as (F & V). destruct one_value as [V1 F1]. assert (P : (1 <= INR m)%R) by (apply (le_INR 1); lia).
  exists (div64 one64 (total A m (fun _ => one64))). split.
  - unfold tab1, soft. rewrite D. rewrite (map_ext_in _ (fun _ => div64 one64 (total A m (fun _ => one64)))).
    + generalize (div64 one64 (total A m (fun _ => one64))). intros w. rewrite <- (seq_length m 0) at 2. generalize (seq 0 m). intros l. induction l; cbn; congruence.
    + intros j J. rewrite (X j) by (apply in_seq0, J). reflexivity.
  - assert (Q : (0 <= 1 / INR m <= 1)%R).
    { unfold Rdiv. rewrite Rmult_1_l. split; [apply Rlt_le, Rinv_0_lt_compat; lra|]. rewrite <- Rinv_1. apply Rinv_le; lra. }
    destruct (div64_spec one64 (total A m (fun _ => one64)) F1) as (FD & VD); [rewrite V; lra| |split; [exact FD|rewrite VD, V, V1; reflexivity]].
    rewrite V, V1. apply Rle_lt_trans with 1%R; [|apply (bpow_lt radix2 0 1024); lia].
    assert (B : (0 <= rnd64 (1 / INR m) <= 1)%R).
    { unfold rnd64. split; [apply round_ge_generic; [typeclasses eauto|typeclasses eauto|apply generic_format_0|lra]|].
      apply round_le_generic; [typeclasses eauto|typeclasses eauto|apply (fmt_nat 1); lia|lra]. }
    rewrite Rabs_pos_eq; lra.
Qed.

Lemma even_forward N n h m state p : shaped N n h m -> 0 < m -> (Z.of_nat m <= 2 ^ 52)%Z -> length state = n ->
  (forall i, i < n -> nth i state zero64 = zero64) ->
  Forall (fun w => is_finite w = true) (l_w (layer1 N)) -> Forall (fun w => is_finite w = true) (l_w (layer2 N)) -> Forall (fun w => is_finite w = true) (l_w (layer3 N)) ->
  (forall j, nth j (l_b (layer1 N)) zero64 = zero64) -> (forall j, nth j (l_b (layer2 N)) zero64 = zero64) -> (forall j, nth j (l_b (layer3 N)) zero64 = zero64) ->
  net_forward A N state 1 = Ok p -> BlindSpec.even_odds m p.
Proof.
  intros S Hm L Ls Z W1 W2 W3 B1 B2 B3 E.
  pose proof (shaped_layer_ok zero64 _ _ _ (sh_1 _ _ _ _ S)) as T1. pose proof (shaped_layer_ok zero64 _ _ _ (sh_2 _ _ _ _ S)) as T2.
  pose proof (shaped_layer_ok zero64 _ _ _ (sh_3 _ _ _ _ S)) as T3.
  unfold net_forward in E. rewrite (forward_pass_ok A N n h m _ _ _ _ _ _ T1 T2 T3 Hm 1 state _ (arr2_list zero64 1 n state ltac:(lia))) in E.
  cbn [bind aout3] in E. apply ok_same in E. subst p.
  assert (FN : forall l i, Forall (fun w : f64 => is_finite w = true) l -> is_finite (nth i l zero64) = true).
  { intros l i F. destruct (nth_in_or_default i l zero64) as [I| ->]; [|reflexivity]. rewrite Forall_forall in F. exact (F _ I). }
  match goal with |- context [z3 A n h ?w1 ?w2 ?w3 ?b1 ?b2 ?b3 ?x] => set (x0 := x); set (V1 := w1); set (V2 := w2); set (V3 := w3); set (c1 := b1); set (c2 := b2); set (c3 := b3) end.
  assert (Z1 : forall j, rect A (z1 A n V1 c1 x0 0) j = zero64).
  { intros j. unfold rect, z1, lin, c1. rewrite B1, total_zeros; [reflexivity|]. intros k K. unfold x0, at2. cbn [Nat.mul Nat.add]. rewrite (Z k K). apply times_zero, FN, W1. }
  assert (Z2 : forall j, rect A (z2 A n h V1 V2 c1 c2 x0 0) j = zero64).
  { intros j. unfold rect at 1. unfold z2, lin, c2. rewrite B2, total_zeros; [reflexivity|]. intros k K. fold (rect A (z1 A n V1 c1 x0 0) k). rewrite Z1. apply times_zero, FN, W2. }
  assert (Z3 : forall j, z3 A n h V1 V2 V3 c1 c2 c3 x0 0 j = zero64).
  { intros j. unfold z3, lin, c3. rewrite B3, total_zeros; [reflexivity|]. intros k K. rewrite Z2. apply times_zero, FN, W3. }
  replace (tab2 1 m _) with (tab1 m (soft A m (z3 A n h V1 V2 V3 c1 c2 c3 x0 0))); [apply even_soft; auto|].
  unfold tab2, tab1, cells. cbn [seq list_prod]. rewrite app_nil_r, !map_map. reflexivity.
Qed.

Lemma below_one_parts f : below_one f -> integer_parts f = repeat 0%Z (length f).
Proof.
  intros B. induction B as [|x f H B IH]; [reflexivity|]. cbn [integer_parts map length repeat]. f_equal; [|exact IH].
  destruct (Rle_or_lt 0 (B2R x)) as [P|P]; [rewrite Rabs_pos_eq in H by exact P; rewrite Ztrunc_floor by exact P; apply Zfloor_imp; cbn; lra|].
  rewrite Rabs_left in H by exact P. rewrite Ztrunc_ceil by lra. apply Zceil_imp. cbn. lra.
Qed.

Lemma asks_even policies features lr beta beta1 beta2 threshold init us : 0 < policies -> (Z.of_nat policies <= 2 ^ 52)%Z ->
  (forall l i, is_finite (init l i) = true) -> lt64 zero64 threshold = false -> Forall (use_ok policies features) us -> only_asks us ->
  exists w, BlindSpec.even_odds policies w /\ forall l Q,
    run_uses A (fun x => x) us (new_pnet A policies features lr beta beta1 beta2 threshold init) = Ok (l, Q) -> drawn_below_one w us l.
Proof.
  intros Hp L FI TH U O. set (P0 := new_pnet A policies features lr beta beta1 beta2 threshold init).
  destruct (evaluate_sized A policies features P0 (repeat 0%Z features) Hp (new_sized _ _ _ _ _ _ _ _ _) (repeat_length _ _)) as (w & EV & LW).
  assert (EW : BlindSpec.even_odds policies w).
  { unfold evaluate_net in EV. destruct (net_forward A (pn_net P0) (input_of (bit A) (repeat 0%Z features)) 1) as [p| | | |] eqn:NF; cbn [bind] in EV; try discriminate EV.
    assert (X : BlindSpec.even_odds policies p).
    { apply (even_forward (pn_net P0) (64 * features) (Nat.div (64 * features + policies) 2) policies (input_of (bit A) (repeat 0%Z features)) p); try assumption.
      - apply new_net_shaped.
      - rewrite input_length, repeat_length. reflexivity.
      - intros i I. rewrite (Nat.div_mod_eq i 64). assert (i / 64 < features) by (apply Nat.div_lt_upper_bound; lia). assert (i mod 64 < 64) by (apply Nat.mod_upper_bound; lia).
        rewrite input_at by (rewrite ?repeat_length; assumption). rewrite nth_repeat, Z.testbit_0_l. reflexivity.
      - apply Forall_forall. intros x I. cbn in I. apply in_map_iff in I as (i & <- & _). apply FI.
      - apply Forall_forall. intros x I. cbn in I. apply in_map_iff in I as (i & <- & _). apply FI.
      - apply Forall_forall. intros x I. cbn in I. apply in_map_iff in I as (i & <- & _). apply FI.
      - intros j. apply nth_repeat.
      - intros j. apply nth_repeat.
      - intros j. apply nth_repeat. }
    replace w with p; [exact X|]. destruct X as (r & -> & _). change (pn_policies P0) with policies in EV.
    pose proof (map_rd (repeat r policies)) as MR. rewrite repeat_length in MR. rewrite MR in EV. congruence. }
  exists w. split; [exact EW|].
  assert (G : forall P l Q, pn_net P = pn_net P0 -> pn_policies P = policies -> pn_count P = 0%Z -> pn_threshold P = threshold ->
    run_uncached A (fun x => x) us P = Ok (l, Q) -> drawn_below_one w us l).
  { clear EW. induction us as [|u us IH]; intros P l Q N PP C T R; cbn [run_uncached] in R.
    - apply ok_same in R. injection R as <- _. exact Logic.I.
    - assert (U0 := Forall_inv U). assert (U1 := Forall_inv_tail U). assert (O0 := Forall_inv O). assert (O1 := Forall_inv_tail O). destruct u as [draw f|d]; [|destruct O0].
      destruct (pn_get_index A draw (no_cache P) f) as [[i P1]| | | |] eqn:G; cbn [bind] in R; try discriminate R.
      destruct (run_uncached A (fun x => x) us P1) as [[l1 Q1]| | | |] eqn:R1; cbn [bind] in R; try discriminate R.
      apply ok_same in R. injection R as <- _. cbn [drawn_below_one].
      unfold pn_get_index in G. unfold baseline in G. cbn [no_cache pn_count pn_threshold] in G. rewrite C, T in G. cbn [Z.ltb Z.compare n_lt n_zero f64_arith] in G. rewrite TH in G.
      unfold lookup_probs in G. destruct U0 as ((LF & EF) & _). rewrite (encode_ok f EF) in G. cbn [bind no_cache pn_cache cache_find] in G.
      match type of G with context [map ?g f] => set (zs := map g f) in G; assert (ZS : zs = integer_parts f) by reflexivity; clearbody zs; subst zs end.
      destruct (evaluate_net A (no_cache P) (integer_parts f)) as [pr| | | |] eqn:EE; cbn [bind] in G; try discriminate G.
      destruct (draw pr) as [i'| | | |] eqn:DR; cbn [bind] in G; try discriminate G. apply ok_same in G.
      assert (G2 := f_equal snd G). cbn [snd] in G2. apply (f_equal fst) in G. cbn [fst] in G. subst i'. split.
      + intros BL. rewrite (below_one_parts f BL), LF in EE. unfold evaluate_net in EE, EV. cbn [no_cache pn_net pn_policies] in EE. rewrite N, PP in EE.
        change (pn_policies P0) with policies in EV. rewrite EV in EE. apply ok_same in EE. subst pr. exact DR.
      + apply (IH U1 O1 P1 l1 Q1); try exact R1; rewrite <- G2; cbn; assumption || reflexivity. }
  intros l Q R. pose proof (cache_coherent A (fun x => x) us P0 eq_refl) as K. rewrite R in K.
  destruct (run_uncached A (fun x => x) us P0) as [[l' Q']| | | |] eqn:RU; try contradiction. destruct K as (<- & _).
  apply (G P0 l Q'); auto.
Qed.
End Even.
