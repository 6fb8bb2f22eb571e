(** No training step moves a parameter by more than a fixed number of learning rates. *)
From Coq Require Import List ZArith Bool Lia Reals Lra Psatz.
From Verif Require Import Model.Base Model.Float Model.DatasetM Model.NetM Model.PolicyNetM.
From Verif Require Import Spec.NetSpec Spec.PolicyNetSpec Proofs.NetFacts Proofs.NetReal Proofs.NetGradient Proofs.NetStep Proofs.NetAdam Proofs.PolicyNetFacts Proofs.PolicyNetSafety Proofs.PolicyNetLearn.
From Verif Require Import Proofs.TreeFacts.
Import ListNotations.
Local Open Scope R_scope.

Section Moves.
Variables (lr b1 b2 : R).
Hypothesis LR : 0 <= lr.
Hypothesis B1 : 0 <= b1 < 1.
Hypothesis B2 : 0 < b2 < 1.
Hypothesis BB : b1 * b1 < b2.

Definition spread : R := (1 - b1) * (1 - b1) / ((1 - b2) * (1 - b1 * b1 / b2)).

Lemma ratio_ok : 0 <= b1 * b1 / b2 < 1.
Proof.
  split.
  - apply Rmult_le_pos; [nra|]. apply Rlt_le, Rinv_0_lt_compat; lra.
  - apply (Rmult_lt_reg_r b2); [lra|]. unfold Rdiv. rewrite Rmult_assoc, Rinv_l by lra. lra.
Qed.
Lemma spread_den : 0 < (1 - b2) * (1 - b1 * b1 / b2).
Proof. assert (Q := ratio_ok). apply Rmult_lt_0_compat; lra. Qed.
Lemma spread_pos : 0 < spread.
Proof. unfold spread, Rdiv. apply Rmult_lt_0_compat; [nra|]. apply Rinv_0_lt_compat, spread_den. Qed.

(** The square of the average is at most [spread] times the average of the squares. *)
Lemma moments_spread k g : Rsqr (moment b1 k g) <= spread * moment b2 k (fun i => g i * g i).
Proof.
  induction k as [|k IH].
  - unfold moment. cbn [sumf]. rewrite Rsqr_0. lra.
  - rewrite !moment_S. set (M := moment b1 k g) in *. set (V := moment b2 k (fun i => g i * g i)) in *. set (x := g k).
    assert (D := spread_den). assert (Q := ratio_ok). set (p := b1 * b1 / b2) in *.
    assert (P2 : b1 * b1 = p * b2) by (unfold p; field; lra).
    assert (C : spread * ((1 - b2) * (1 - p)) = (1 - b1) * (1 - b1)) by (unfold spread; fold p; field; split; lra).
    assert (K : Rsqr (b1 * M + (1 - b1) * x) <= b2 * Rsqr M + spread * (1 - b2) * (x * x)).
    { destruct (Req_dec b1 0) as [Z|NZ].
      - assert (p = 0) by (unfold p; rewrite Z; field; lra). unfold Rsqr. rewrite Z in *. rewrite H in C.
        assert (spread * (1 - b2) = 1) by lra. rewrite H0. assert (0 <= M * M) by nra. nra.
      - assert (PP : 0 < p) by (unfold p, Rdiv; apply Rmult_lt_0_compat; [nra|apply Rinv_0_lt_compat; lra]).
        assert (E : spread * (1 - b2) = (1 - b1) * (1 - b1) / (1 - p)) by (rewrite <- C; field; lra). rewrite E.
        assert (F : b2 = b1 * b1 / p) by (rewrite P2; field; lra). rewrite F. unfold Rsqr.
        assert (G : b1 * b1 / p * (M * M) + (1 - b1) * (1 - b1) / (1 - p) * (x * x) - (b1 * M + (1 - b1) * x) * (b1 * M + (1 - b1) * x) =
          (((1 - p) * (b1 * M) - p * ((1 - b1) * x)) * ((1 - p) * (b1 * M) - p * ((1 - b1) * x))) / (p * (1 - p))) by (field; split; lra).
        assert (H : 0 <= (((1 - p) * (b1 * M) - p * ((1 - b1) * x)) * ((1 - p) * (b1 * M) - p * ((1 - b1) * x))) / (p * (1 - p))).
        { apply Rmult_le_pos; [apply Rle_0_sqr|]. apply Rlt_le, Rinv_0_lt_compat. apply Rmult_lt_0_compat; lra. }
        lra. }
    assert (b2 * Rsqr M <= b2 * (spread * V)) by (apply Rmult_le_compat_l; lra). lra.
Qed.

Lemma moment_nonneg b k g : 0 <= b <= 1 -> (forall i, 0 <= g i) -> 0 <= moment b k g.
Proof. intros B G. induction k as [|k IH]; [unfold moment; cbn [sumf]; lra|]. rewrite moment_S. specialize (G k). nra. Qed.

Lemma pow_below b t : 0 <= b < 1 -> 0 <= b ^ S t < 1.
Proof. intros B. induction t as [|t IH]; cbn [pow]; [lra|]. cbn [pow] in IH. nra. Qed.

Lemma sqrt_spread : sqrt spread = (1 - b1) / sqrt ((1 - b2) * (1 - b1 * b1 / b2)).
Proof. unfold spread. rewrite sqrt_div_alt by exact spread_den. rewrite sqrt_square by lra. reflexivity. Qed.

Lemma move_reach t g : Rabs (adam_move lr b1 b2 (S t) g) <= lr * adam_reach b1 b2 (S t).
Proof.
  unfold adam_move, adam_reach. rewrite <- !moment_average, <- sqrt_spread.
  assert (P1 := pow_below b1 t B1). assert (P2 := pow_below b2 t ltac:(lra)).
  set (M := moment b1 (S t) g). set (V := moment b2 (S t) (fun i => g i * g i)).
  assert (V0 : 0 <= V) by (apply moment_nonneg; [lra|]; intros; apply Rle_0_sqr).
  assert (MV := moments_spread (S t) g). fold M V in MV.
  assert (AM : Rabs M <= sqrt spread * sqrt V).
  { rewrite <- sqrt_mult_alt by (left; apply spread_pos). rewrite <- sqrt_Rsqr_abs. apply sqrt_le_1_alt. exact MV. }
  assert (D2 : 0 < 1 - b2 ^ S t) by lra. assert (D1 : 0 < 1 - b1 ^ S t) by lra.
  assert (SD : 0 < sqrt (1 - b2 ^ S t)) by (apply sqrt_lt_R0; exact D2).
  rewrite (sqrt_div_alt V) by exact D2.
  set (q := sqrt V / sqrt (1 - b2 ^ S t)). assert (EPS : 0 < / 10 ^ 8) by (apply Rinv_0_lt_compat, pow_lt; lra).
  assert (Q0 : 0 <= q) by (unfold q, Rdiv; apply Rmult_le_pos; [apply sqrt_pos|left; apply Rinv_0_lt_compat; exact SD]).
  assert (QV : sqrt V = q * sqrt (1 - b2 ^ S t)) by (unfold q; field; lra).
  unfold Rdiv at 1. rewrite !Rabs_mult. rewrite (Rabs_pos_eq lr) by exact LR. rewrite (Rabs_pos_eq (/ (q + _))) by (left; apply Rinv_0_lt_compat; lra).
  unfold Rdiv at 1. rewrite Rabs_mult. rewrite (Rabs_pos_eq (/ (1 - b1 ^ S t))) by (left; apply Rinv_0_lt_compat; exact D1).
  rewrite Rmult_assoc. apply Rmult_le_compat_l; [exact LR|]. unfold Rdiv.
  apply (Rmult_le_reg_r (1 - b1 ^ S t)); [exact D1|]. replace (sqrt (spread) * sqrt (1 - b2 ^ S t) * / (1 - b1 ^ S t) * (1 - b1 ^ S t)) with (sqrt (spread) * sqrt (1 - b2 ^ S t)) by (field; lra).
  replace (Rabs M * / (1 - b1 ^ S t) * / (q + / 10 ^ 8) * (1 - b1 ^ S t)) with (Rabs M * / (q + / 10 ^ 8)) by (field; split; lra).
  apply (Rmult_le_reg_r (q + / 10 ^ 8)); [lra|]. rewrite Rmult_assoc, Rinv_l by lra. rewrite Rmult_1_r.
  eapply Rle_trans; [exact AM|]. rewrite QV.
  assert (0 <= sqrt spread * sqrt (1 - b2 ^ S t)) by (apply Rmult_le_pos; apply sqrt_pos).
  replace (sqrt spread * (q * sqrt (1 - b2 ^ S t))) with (sqrt spread * sqrt (1 - b2 ^ S t) * q) by ring. apply Rmult_le_compat_l; lra.
Qed.
End Moves.

(** With the documented averages a move is less than 1.87 learning rates. *)
Lemma default_reach t : adam_reach (/ 2) (9 / 10) (S t) <= 187 / 100.
Proof.
  unfold adam_reach. replace ((1 - 9 / 10) * (1 - / 2 * / 2 / (9 / 10))) with (13 / 180) by field.
  assert (A : 0 < (/ 2) ^ S t <= / 2 /\ 2 * (/ 2) ^ S t - (/ 2) ^ S t * (/ 2) ^ S t <= (9 / 10) ^ S t).
  { induction t as [|t [IH1 IH2]]; [cbn [pow]; lra|]. change ((/ 2) ^ S (S t)) with (/ 2 * (/ 2) ^ S t). change ((9 / 10) ^ S (S t)) with (9 / 10 * (9 / 10) ^ S t).
    set (a := (/ 2) ^ S t) in *. set (b := (9 / 10) ^ S t) in *. split; [lra|]. nra. }
  destruct A as [A1 A2]. set (a := (/ 2) ^ S t) in *. set (b := (9 / 10) ^ S t) in *.
  assert (S1 : sqrt (1 - b) <= 1 - a).
  { rewrite <- (sqrt_square (1 - a)) by lra. apply sqrt_le_1_alt. nra. }
  assert (S2 : 2 / 10 < sqrt (13 / 180)) by (rewrite <- (sqrt_square (2 / 10)) by lra; apply sqrt_lt_1_alt; lra).
  assert (S3 : 1 / 2 <= 187 / 100 * sqrt (13 / 180)).
  { assert (SS := sqrt_sqrt (13 / 180) ltac:(lra)). set (s := sqrt (13 / 180)) in *. nra. }
  set (s := sqrt (13 / 180)) in *. assert (0 <= sqrt (1 - b)) by apply sqrt_pos.
  replace (1 - / 2) with (1 / 2) by field.
  apply Rle_trans with (1 / 2 / s).
  - unfold Rdiv at 1. apply (Rmult_le_reg_r (1 - a)); [lra|]. rewrite Rmult_assoc, Rinv_l by lra. rewrite Rmult_1_r.
    apply Rmult_le_compat_l; [|exact S1]. unfold Rdiv. apply Rmult_le_pos; [lra|]. left. apply Rinv_0_lt_compat. lra.
  - apply (Rmult_le_reg_r s); [lra|]. unfold Rdiv at 1. rewrite Rmult_assoc, Rinv_l by lra. lra.
Qed.

(** ** Trajectories *)

Lemma adam_total_ext lr b1 b2 k f g : (forall t, (t < k)%nat -> f t = g t) -> adam_total lr b1 b2 k f = adam_total lr b1 b2 k g.
Proof.
  intros Q. unfold adam_total. apply sumf_ext. intros t T. unfold adam_move, average.
  rewrite (sumf_ext _ (fun i => weight b1 (S t) i * f i) (fun i => weight b1 (S t) i * g i)) by (intros i I; now rewrite Q by lia).
  rewrite (sumf_ext _ (fun i => weight b2 (S t) i * (f i * f i)) (fun i => weight b2 (S t) i * (g i * g i))) by (intros i I; now rewrite Q by lia). reflexivity.
Qed.

Lemma trajectory_app bs : forall N Gs N1 s a r B N2, trajectory N bs = Ok (Gs, N1) -> train_step real_arith N1 s a r B = Ok N2 ->
  exists G, trajectory N (bs ++ [(s, a, r, B)]) = Ok (Gs ++ [G], N2).
Proof.
  induction bs as [|[[[s0 a0] r0] B0] bs IH]; intros N Gs N1 s a r B N2 E T; cbn [trajectory app] in *.
  - injection E as <- <-. unfold train_step in T. destruct (net_gradients real_arith N s a r B) as [[[g1 g2] g3]| | | |] eqn:EG; try discriminate T.
    exists (g1, g2, g3). unfold train_step. rewrite EG. cbn [bind] in *. rewrite T. reflexivity.
  - destruct (net_gradients real_arith N s0 a0 r0 B0) as [G0| | | |]; try discriminate E. cbn [bind] in *.
    destruct (train_step real_arith N s0 a0 r0 B0) as [N0| | | |]; try discriminate E. cbn [bind] in *.
    destruct (trajectory N0 bs) as [[Gs0 N']| | | |] eqn:E0; try discriminate E. cbn [bind] in E. injection E as <- <-.
    destruct (IH N0 Gs0 N' s a r B N2 E0 T) as [G X]. exists G. rewrite X. reflexivity.
Qed.

Lemma total_one_more lr b1 b2 (Gs : list params) G (q : params -> R) :
  adam_total lr b1 b2 (length (Gs ++ [G])) (fun t => nth t (map q (Gs ++ [G])) 0) =
  adam_total lr b1 b2 (length Gs) (fun t => nth t (map q Gs) 0) + adam_move lr b1 b2 (S (length Gs)) (fun t => nth t (map q (Gs ++ [G])) 0).
Proof.
  rewrite app_length. cbn [length]. rewrite Nat.add_1_r. unfold adam_total at 1. cbn [sumf]. f_equal.
  change (adam_total lr b1 b2 (length Gs) (fun t => nth t (map q (Gs ++ [G])) 0) = adam_total lr b1 b2 (length Gs) (fun t => nth t (map q Gs) 0)).
  apply adam_total_ext. intros t T. rewrite map_app, app_nth1; [reflexivity|]. rewrite map_length. exact T.
Qed.

Lemma step_reach N n h m bs Gs N1 s a r B N2 : shaped N n h m -> untrained N -> (0 < m)%nat -> List.Forall (sample_batch_ok n m) bs -> sample_batch_ok n m (s, a, r, B) ->
  0 <= learn_rate N -> 0 <= net_beta1 N < 1 -> 0 < net_beta2 N < 1 -> net_beta1 N * net_beta1 N < net_beta2 N ->
  trajectory N bs = Ok (Gs, N1) -> train_step real_arith N1 s a r B = Ok N2 ->
  no_further n h m (learn_rate N * adam_reach (net_beta1 N) (net_beta2 N) (S (length bs))) (params_of N1) (params_of N2).
Proof.
  intros SH U Hm F OK LR B1 B2 BB E T. destruct (trajectory_app _ _ _ _ _ _ _ _ _ E T) as [G E2].
  assert (F2 : List.Forall (sample_batch_ok n m) (bs ++ [(s, a, r, B)])) by (apply Forall_app; split; [exact F|constructor; [exact OK|constructor]]).
  destruct (training_is_adam N n h m _ _ _ SH U Hm F E) as (L1 & _ & A). destruct (training_is_adam N n h m _ _ _ SH U Hm F2 E2) as (_ & _ & A').
  rewrite map_app in A'. cbn [map] in A'.
  assert (K : forall q, Rabs (adam_move (learn_rate N) (net_beta1 N) (net_beta2 N) (S (length (map (grads_params n h) Gs))) q) <=
    learn_rate N * adam_reach (net_beta1 N) (net_beta2 N) (S (length bs))).
  { intros q. rewrite map_length, L1. apply move_reach; assumption. }
  assert (X : forall p (q : params -> R), Rabs (p + 1 * adam_total (learn_rate N) (net_beta1 N) (net_beta2 N) (length (map (grads_params n h) Gs ++ [grads_params n h G]))
      (fun t => nth t (map q (map (grads_params n h) Gs ++ [grads_params n h G])) 0) -
      (p + 1 * adam_total (learn_rate N) (net_beta1 N) (net_beta2 N) (length (map (grads_params n h) Gs)) (fun t => nth t (map q (map (grads_params n h) Gs)) 0))) <=
      learn_rate N * adam_reach (net_beta1 N) (net_beta2 N) (S (length bs))).
  { intros p q. rewrite total_one_more. match goal with |- Rabs (p + 1 * (?x + ?y) - _) <= _ => replace (p + 1 * (x + y) - (p + 1 * x)) with y by ring end. apply K. }
  unfold params_eq, along, adam_params in A, A'. cbn [p_w1 p_b1 p_w2 p_b2 p_w3 p_b3] in A, A'.
  destruct A as (a1 & a2 & a3 & a4 & a5 & a6), A' as (c1 & c2 & c3 & c4 & c5 & c6). unfold no_further.
  split; [|split; [|split; [|split; [|split]]]]; intros; [rewrite a1, c1 by assumption|rewrite a2, c2 by assumption|rewrite a3, c3 by assumption|rewrite a4, c4 by assumption|rewrite a5, c5 by assumption|rewrite a6, c6 by assumption]; apply X.
Qed.

Lemma total_reach lr b1 b2 d g k : (forall t, Rabs (adam_move lr b1 b2 (S t) g) <= d) -> Rabs (adam_total lr b1 b2 k g) <= INR k * d.
Proof.
  intros H. induction k as [|k IH]; [unfold adam_total; cbn [sumf INR]; rewrite Rabs_R0; lra|]. unfold adam_total in *. cbn [sumf]. rewrite S_INR.
  eapply Rle_trans; [apply Rabs_triang|]. specialize (H k). lra.
Qed.

Lemma default_total_reach N n h m bs Gs N' : shaped N n h m -> untrained N -> (0 < m)%nat -> List.Forall (sample_batch_ok n m) bs ->
  0 <= learn_rate N -> net_beta1 N = / 2 -> net_beta2 N = 9 / 10 -> trajectory N bs = Ok (Gs, N') ->
  no_further n h m (INR (length bs) * (learn_rate N * (187 / 100))) (params_of N) (params_of N').
Proof.
  intros SH U Hm F LR B1 B2 E. destruct (training_is_adam N n h m _ _ _ SH U Hm F E) as (L1 & _ & A). rewrite B1, B2 in A.
  assert (X : forall p g, Rabs (p + 1 * adam_total (learn_rate N) (/ 2) (9 / 10) (length (map (grads_params n h) Gs)) g - p) <= INR (length bs) * (learn_rate N * (187 / 100))).
  { intros p g. replace (p + 1 * adam_total (learn_rate N) (/ 2) (9 / 10) (length (map (grads_params n h) Gs)) g - p) with (adam_total (learn_rate N) (/ 2) (9 / 10) (length (map (grads_params n h) Gs)) g) by ring.
    rewrite map_length, L1. apply total_reach. intros t. eapply Rle_trans; [apply move_reach; try lra|]. apply Rmult_le_compat_l; [exact LR|]. apply default_reach. }
  unfold params_eq, along, adam_params in A. cbn [p_w1 p_b1 p_w2 p_b2 p_w3 p_b3] in A.
  destruct A as (a1 & a2 & a3 & a4 & a5 & a6). unfold no_further.
  split; [|split; [|split; [|split; [|split]]]]; intros; [rewrite a1 by assumption|rewrite a2 by assumption|rewrite a3 by assumption|rewrite a4 by assumption|rewrite a5 by assumption|rewrite a6 by assumption]; apply X.
Qed.

(** ** Uses of a PolicyNet *)

Lemma get_keeps {T} (A : arith T) draw P f i Q : pn_get_index A draw P f = Ok (i, Q) -> pn_net Q = pn_net P /\ pn_count Q = pn_count P.
Proof.
  unfold pn_get_index. destruct (n_lt A (baseline A P) (pn_threshold P)); [intros E; injection E as _ <-; auto|].
  unfold lookup_probs. destruct (encode f) as [zs| | | |]; cbn [bind]; try discriminate.
  destruct (cache_find (key_of zs) (pn_cache P)) as [p|]; cbn [bind].
  - destruct (draw p); cbn [bind]; try discriminate. intros E; injection E as _ <-; auto.
  - destruct (evaluate_net A P zs) as [p| | | |]; cbn [bind]; try discriminate. destruct (draw p); cbn [bind]; try discriminate. intros E; injection E as _ <-; auto.
Qed.

Lemma train_counts {T} (A : arith T) metric_in P d Q : pn_train A metric_in P d = Ok Q -> pn_count Q = pn_count P \/ pn_count Q = (pn_count P + 1)%Z.
Proof.
  unfold pn_train. destruct (map_out _ (ds_to_vector d)) as [st| | | |]; cbn [bind]; try discriminate.
  unfold train_net. destruct st as [|s0 st]; cbn [bind]; [intros E; injection E as <-; left; reflexivity|].
  destruct (pn_count P =? int_max)%Z; cbn [bind]; [discriminate|].
  match goal with |- context [if n_lt A ?u ?v then _ else _] => destruct (n_lt A u v) end; cbn [bind]; [intros E; injection E as <-; right; reflexivity|].
  intros E. apply bind_inv in E as (P1 & E & E'). injection E' as <-. repeat (apply bind_inv in E as (? & _ & E)). injection E as <-. right; reflexivity.
Qed.

Lemma batch_of policies features (d : dataset) (rews : list R) : use_ok policies features (Learn (T := R) d) -> length rews = length d ->
  sample_batch_ok (64 * features) policies
    (List.concat (map (fun e => input_of (bit real_arith) (integer_parts (fst (fst e)))) d), map (fun e => Z.to_nat (snd (fst e))) d, rews, length d).
Proof.
  intros U L. cbn [use_ok] in U. split; [|split; [|split]].
  - rewrite (concat_length (64 * features)); [now rewrite map_length|]. apply Forall_forall. intros s I. apply in_map_iff in I as (e & <- & I). rewrite Forall_forall in U.
    destruct (U e I) as [[F _] _]. rewrite input_length. unfold integer_parts. rewrite map_length. lia.
  - now rewrite map_length.
  - exact L.
  - apply Forall_forall. intros a I. apply in_map_iff in I as (e & <- & I). rewrite Forall_forall in U. destruct (U e I) as [_ B]. lia.
Qed.

Lemma uses_trajectory metric_in policies features N0 us : List.Forall (use_ok policies features) us -> forall P bs Gs l Q,
  List.Forall (sample_batch_ok (64 * features) policies) bs -> trajectory N0 bs = Ok (Gs, pn_net P) -> (0 <= pn_count P)%Z -> (pn_count P + Z.of_nat (length us) <= int_max)%Z ->
  run_uses real_arith metric_in us P = Ok (l, Q) ->
  exists bs' Gs', List.Forall (sample_batch_ok (64 * features) policies) bs' /\ trajectory N0 bs' = Ok (Gs', pn_net Q) /\ (length bs' <= length bs + length (filter is_learn us))%nat.
Proof.
  intros U. induction U as [|u us U _ IH]; intros P bs Gs l Q F E C0 C H; cbn [run_uses] in H.
  { injection H as _ <-. exists bs, Gs. split; [exact F|]. split; [exact E|]. cbn. lia. }
  cbn [length] in C. destruct u as [draw f|d].
  - destruct (pn_get_index real_arith draw P f) as [[i P1]| | | |] eqn:G; cbn [bind] in H; try discriminate H. destruct (run_uses real_arith metric_in us P1) as [[l1 Q1]| | | |] eqn:H1; cbn [bind] in H; try discriminate H.
    injection H as _ <-. destruct (get_keeps _ _ _ _ _ _ G) as [K1 K2]. cbn [filter is_learn]. apply (IH P1 bs Gs l1 Q1 F); [rewrite K1; exact E|lia|lia|exact H1].
  - destruct (pn_train real_arith metric_in P d) as [P1| | | |] eqn:T; cbn [bind] in H; try discriminate H. assert (K := train_counts _ _ _ _ _ T). cbn [filter is_learn length].
    destruct (learns real_arith metric_in policies features P d P1 U ltac:(lia) T) as [[_ N]|(_ & _ & N)].
    + destruct (IH P1 bs Gs l Q F) as (bs' & Gs' & A1 & A2 & A3); [rewrite N; exact E|lia|lia|exact H|]. exists bs', Gs'. split; [exact A1|]. split; [exact A2|]. lia.
    + destruct (trajectory_app _ _ _ _ _ _ _ _ _ E N) as [G E2].
      match type of E2 with trajectory _ (_ ++ [?b]) = _ => assert (BO : sample_batch_ok (64 * features) policies b) by (apply batch_of; [exact U|now rewrite map_length]); set (b0 := b) in * end.
      destruct (fun F' => IH P1 (bs ++ [b0]) (Gs ++ [G]) l Q F' E2) as (bs' & Gs' & A1 & A2 & A3); [apply Forall_app; split; [exact F|constructor; [exact BO|constructor]]|lia|lia|exact H|].
      exists bs', Gs'. split; [exact A1|]. split; [exact A2|]. rewrite app_length in A3. cbn [length] in A3. lia.
Qed.

Lemma new_untrained n h m lr b1 b2 init : untrained (new_net real_arith n h m lr b1 b2 init).
Proof.
  assert (Z : forall k, List.Forall (fun x : R => x = 0) (repeat 0 k)) by (intros k; apply Forall_forall; intros x I; exact (repeat_spec _ _ _ I)).
  unfold untrained, new_net, untrained_layer, new_layer. cbn [layer1 layer2 layer3 l_wm l_wv l_bm l_bv l_step n_zero real_arith]. repeat split; apply Z.
Qed.

Lemma uses_reach metric_in policies features lr beta threshold init us l Q : (0 < policies)%nat -> List.Forall (use_ok policies features) us -> (Z.of_nat (length us) <= int_max)%Z -> 0 <= lr ->
  run_uses real_arith metric_in us (new_pnet real_arith policies features lr beta (/ 2) (9 / 10) threshold init) = Ok (l, Q) ->
  no_further (64 * features) (Nat.div (64 * features + policies) 2) policies (INR (length (filter is_learn us)) * (lr * (187 / 100)))
    (params_of (pn_net (new_pnet real_arith policies features lr beta (/ 2) (9 / 10) threshold init))) (params_of (pn_net Q)).
Proof.
  intros Hp U C LR H. set (P := new_pnet real_arith policies features lr beta (/ 2) (9 / 10) threshold init) in *.
  destruct (uses_trajectory metric_in policies features (pn_net P) us U P [] [] l Q) as (bs & Gs & F & E & L); [constructor|reflexivity|cbn; lia|cbn; lia|exact H|].
  assert (X := default_total_reach (pn_net P) (64 * features) (Nat.div (64 * features + policies) 2) policies bs Gs (pn_net Q) (new_net_shaped _ _ _ _ _ _ _ _) (new_untrained _ _ _ _ _ _ _) Hp F LR eq_refl eq_refl E).
  change (learn_rate (pn_net P)) with lr in X. cbn [length] in L. apply le_INR in L. rewrite Nat.add_0_l in L.
  assert (INR (length bs) * (lr * (187 / 100)) <= INR (length (filter is_learn us)) * (lr * (187 / 100))) by (apply Rmult_le_compat_r; [lra|exact L]).
  destruct X as (a1 & a2 & a3 & a4 & a5 & a6). unfold no_further.
  split; [|split; [|split; [|split; [|split]]]]; intros; (eapply Rle_trans; [first [apply a1|apply a2|apply a3|apply a4|apply a5|apply a6]; assumption|assumption]).
Qed.
