(** Training steps: sizes are kept, and the first step over the real numbers. *)
From Coq Require Import List ZArith Bool Lia Reals Lra.
From Coquelicot Require Import Coquelicot.
From Flocq Require Import Core.Raux.
From Verif Require Import Model.Base Model.Float Model.DatasetM Model.NetM Model.PolicyNetM.
From Verif Require Import Spec.NetSpec Spec.PolicyNetSpec Proofs.NetFacts Proofs.NetReal Proofs.NetGradient.
Import ListNotations.
Local Open Scope nat_scope.

Section Generic.
Context {T : Type} (A : arith T).

Lemma adam_all_ok lr be1 be2 step m v p g n fm fv fp fg :
  length p = n -> arr1 n m fm -> arr1 n v fv -> arr1 n p fp -> arr1 n g fg ->
  adam_all A lr be1 be2 step m v p g = Ok (tab1 n (fun i => adam A lr be1 be2 step (fm i) (fv i) (fp i) (fg i))).
Proof.
  intros L M V P G. unfold adam_all. rewrite L. apply map_out_seq. intros i I.
  rewrite (rd_arr1 _ _ _ _ M I), (rd_arr1 _ _ _ _ V I), (rd_arr1 _ _ _ _ P I), (rd_arr1 _ _ _ _ G I). reflexivity.
Qed.

Lemma arr1_of (d : T) l n : length l = n -> arr1 n l (fun i => nth i l d).
Proof. intros <-. apply arr1_list. Qed.

Lemma fc_step_ok L n m lr be1 be2 g (d : T) : shaped_layer L n m -> length (g_w g) = m * n -> length (g_b g) = m ->
  exists L', fc_step A L lr be1 be2 g = Ok L' /\ shaped_layer L' n m /\
    l_w L' = tab1 (m * n) (fun i => snd (adam A lr be1 be2 (S (l_step L)) (nth i (l_wm L) d) (nth i (l_wv L) d) (nth i (l_w L) d) (nth i (g_w g) d))) /\
    l_b L' = tab1 m (fun i => snd (adam A lr be1 be2 (S (l_step L)) (nth i (l_bm L) d) (nth i (l_bv L) d) (nth i (l_b L) d) (nth i (g_b g) d))).
Proof.
  intros [I O W B WM WV BM BV] GW GB. unfold fc_step.
  rewrite (adam_all_ok lr be1 be2 (S (l_step L)) (l_wm L) (l_wv L) (l_w L) (g_w g) (m * n) _ _ _ _ W
             (arr1_of d _ _ WM) (arr1_of d _ _ WV) (arr1_of d _ _ W) (arr1_of d _ _ GW)). cbn [bind].
  rewrite (adam_all_ok lr be1 be2 (S (l_step L)) (l_bm L) (l_bv L) (l_b L) (g_b g) m _ _ _ _ B
             (arr1_of d _ _ BM) (arr1_of d _ _ BV) (arr1_of d _ _ B) (arr1_of d _ _ GB)). cbn [bind].
  eexists. split; [reflexivity|]. split; [|split].
  - constructor; cbn [l_in l_out l_w l_b l_wm l_wv l_bm l_bv]; rewrite ?map_length, ?tab1_length; auto.
  - cbn [l_w]. unfold tab1. rewrite map_map. reflexivity.
  - cbn [l_b]. unfold tab1. rewrite map_map. reflexivity.
Qed.

Lemma new_layer_shaped n m init : shaped_layer (new_layer A n m init) n m.
Proof. constructor; cbn; rewrite ?map_length, ?seq_length, ?repeat_length; reflexivity. Qed.

Lemma new_net_shaped n h m lr be1 be2 init : shaped (new_net A n h m lr be1 be2 init) n h m.
Proof. constructor; apply new_layer_shaped. Qed.

Variable d : T.

Lemma net_gradients_sizes N n h m B state action reward :
  shaped N n h m -> 0 < m -> length state = B * n -> length action = B -> length reward = B ->
  (forall i, i < B -> nth i action 0 < m) ->
  exists g1 g2 g3, net_gradients A N state action reward B = Ok (g1, g2, g3) /\
    length (g_w g1) = h * n /\ length (g_b g1) = h /\ length (g_w g2) = h * h /\ length (g_b g2) = h /\
    length (g_w g3) = m * h /\ length (g_b g3) = m.
Proof.
  intros S Hm Ls La Lr Ra.
  pose proof (shaped_layer_ok d _ _ _ (sh_1 _ _ _ _ S)) as S1. pose proof (shaped_layer_ok d _ _ _ (sh_2 _ _ _ _ S)) as S2.
  pose proof (shaped_layer_ok d _ _ _ (sh_3 _ _ _ _ S)) as S3.
  do 3 eexists. split.
  - eapply (net_gradients_ok A N n h m _ _ _ _ _ _ S1 S2 S3 Hm B state (fun i j => nth (at2 n i j) state d)
              (arr2_list d _ _ _ Ls) action (fun i => nth i action 0) reward (fun i => nth i reward d)).
    + rewrite <- La. apply arr1_list.
    + exact Ra.
    + rewrite <- Lr. apply arr1_list.
  - cbn [g_w g_b]. rewrite !tab2_length, !tab1_length. repeat split; reflexivity.
Qed.

Lemma train_step_shaped N n h m B state action reward :
  shaped N n h m -> 0 < m -> length state = B * n -> length action = B -> length reward = B ->
  (forall i, i < B -> nth i action 0 < m) ->
  exists N', train_step A N state action reward B = Ok N' /\ shaped N' n h m.
Proof.
  intros S Hm Ls La Lr Ra.
  destruct (net_gradients_sizes N n h m B state action reward S Hm Ls La Lr Ra)
    as (g1 & g2 & g3 & E & W1 & B1 & W2 & B2 & W3 & B3).
  unfold train_step. rewrite E. cbn [bind].
  destruct (fc_step_ok _ _ _ (learn_rate N) (net_beta1 N) (net_beta2 N) g1 d (sh_1 _ _ _ _ S) W1 B1) as (L1 & -> & S1 & _).
  cbn [bind].
  destruct (fc_step_ok _ _ _ (learn_rate N) (net_beta1 N) (net_beta2 N) g2 d (sh_2 _ _ _ _ S) W2 B2) as (L2 & -> & S2 & _).
  cbn [bind].
  destruct (fc_step_ok _ _ _ (learn_rate N) (net_beta1 N) (net_beta2 N) g3 d (sh_3 _ _ _ _ S) W3 B3) as (L3 & -> & S3 & _).
  cbn [bind]. eexists. split; [reflexivity|]. constructor; assumption.
Qed.

Lemma forward_sizes N n h m B state : shaped N n h m -> 0 < m -> length state = B * n ->
  exists p, net_forward A N state B = Ok p /\ length p = B * m.
Proof.
  intros S Hm Ls.
  pose proof (shaped_layer_ok d _ _ _ (sh_1 _ _ _ _ S)) as S1. pose proof (shaped_layer_ok d _ _ _ (sh_2 _ _ _ _ S)) as S2.
  pose proof (shaped_layer_ok d _ _ _ (sh_3 _ _ _ _ S)) as S3.
  eexists. split.
  - apply (net_forward_ok A N n h m _ _ _ _ _ _ S1 S2 S3 Hm B state _ (arr2_list d _ _ _ Ls)).
  - apply tab2_length.
Qed.
End Generic.

Local Open Scope R_scope.

Lemma adam_first lr be1 be2 p g : 0 <= be1 < 1 -> 0 <= be2 < 1 ->
  snd (adam real_arith lr be1 be2 1 0 0 p g) = p + first_step lr g.
Proof.
  intros B1 B2. unfold adam. cbn [snd n_add n_sub n_mul n_div n_pow n_sqrt n_eps n_one real_arith].
  unfold first_step. rewrite !Rmult_0_r, !Rplus_0_l.
  change (Z.of_nat 1) with 1%Z. rewrite !powerRZ_1.
  replace ((1 - be1) * g / (1 - be1)) with g by (field; lra).
  replace (powerRZ g 2) with (Rsqr g) by (change 2%Z with (Z.of_nat 2); rewrite <- pow_powerRZ; unfold Rsqr; ring).
  replace ((1 - be2) * Rsqr g / (1 - be2)) with (Rsqr g) by (field; lra).
  rewrite sqrt_Rsqr_abs. reflexivity.
Qed.

Lemma nth_zero l i : List.Forall (fun x => x = 0) l -> nth i l 0 = 0.
Proof.
  intros H. destruct (Nat.lt_ge_cases i (length l)) as [L|L]; [|now apply nth_overflow].
  rewrite List.Forall_forall in H. apply H, nth_In, L.
Qed.

Lemma first_layer L L' n m lr be1 be2 g : 0 <= be1 < 1 -> 0 <= be2 < 1 -> shaped_layer L n m -> untrained_layer L ->
  length (g_w g) = (m * n)%nat -> length (g_b g) = m -> fc_step real_arith L lr be1 be2 g = Ok L' ->
  shaped_layer L' n m /\
  (forall j k, (j < m)%nat -> (k < n)%nat -> mat n (l_w L') j k = mat n (l_w L) j k + first_step lr (mat n (g_w g) j k)) /\
  (forall j, (j < m)%nat -> vec (l_b L') j = vec (l_b L) j + first_step lr (vec (g_b g) j)).
Proof.
  intros B1 B2 S (WM & WV & BM & BV & ST) GW GB E.
  destruct (fc_step_ok real_arith L n m lr be1 be2 g 0 S GW GB) as (L2 & E2 & S2 & W2 & Bb2).
  rewrite E in E2. injection E2 as <-. split; [exact S2|]. rewrite ST in W2, Bb2. split.
  - intros j k J K. unfold mat. rewrite W2. rewrite (nth_error_nth _ _ _ (arr1_tab1 (m * n) _ (at2 n j k) ltac:(unfold at2; nia))).
    rewrite (nth_zero _ _ WM), (nth_zero _ _ WV). now apply adam_first.
  - intros j J. unfold vec. rewrite Bb2. rewrite (nth_error_nth _ _ _ (arr1_tab1 m _ j J)).
    rewrite (nth_zero _ _ BM), (nth_zero _ _ BV). now apply adam_first.
Qed.

Lemma sumf_nonneg n f : (forall k, (k < n)%nat -> 0 <= f k) -> 0 <= sumf n f.
Proof.
  intros H; induction n as [|n IH]; cbn; [lra|]. assert (0 <= f n) by (apply H; lia).
  assert (0 <= sumf n f) by (apply IH; intros; apply H; lia). lra.
Qed.

Lemma first_step_up lr g : 0 <= lr -> 0 <= g * first_step lr g.
Proof.
  intros L. unfold first_step. replace (g * (lr * g / (Rabs g + / 10 ^ 8))) with (lr * (g * g) * / (Rabs g + / 10 ^ 8)) by (unfold Rdiv; ring).
  apply Rmult_le_pos; [apply Rmult_le_pos; [exact L|nra]|]. left. apply Rinv_0_lt_compat.
  pose proof (Rabs_pos g). assert (0 < / 10 ^ 8) by (apply Rinv_0_lt_compat, pow_lt; lra). lra.
Qed.

Lemma pairing_up n h m lr G : 0 <= lr -> 0 <= pairing n h m G (step_params lr G).
Proof.
  intros L. unfold pairing, dot1, dot2, step_params. cbn [p_w1 p_b1 p_w2 p_b2 p_w3 p_b3].
  repeat apply Rplus_le_le_0_compat; repeat (apply sumf_nonneg; intros); now apply first_step_up.
Qed.

Lemma first_training_step N n h m B state action reward N' :
  shaped N n h m -> untrained N -> (0 < m)%nat -> (0 < B)%nat ->
  length state = (B * n)%nat -> length action = B -> length reward = B -> (forall i, (i < B)%nat -> (nth i action O < m)%nat) ->
  0 <= net_beta1 N < 1 -> 0 <= net_beta2 N < 1 ->
  train_step real_arith N state action reward B = Ok N' ->
  exists G, net_gradients real_arith N state action reward B = Ok G /\ shaped N' n h m /\
    params_eq n h m (params_of N') (along (params_of N) (step_params (learn_rate N) (grads_params n h G)) 1) /\
    (0 <= learn_rate N -> 0 <= pairing n h m (grads_params n h G) (step_params (learn_rate N) (grads_params n h G))).
Proof.
  intros S (U1 & U2 & U3) Hm HB Ls La Lr Ra B1 B2 E.
  destruct (net_gradients_sizes real_arith 0 N n h m B state action reward S Hm Ls La Lr Ra)
    as (g1 & g2 & g3 & EG & W1 & Bb1 & W2 & Bb2 & W3 & Bb3).
  exists (g1, g2, g3). split; [exact EG|]. unfold train_step in E. rewrite EG in E. cbn [bind] in E.
  destruct (fc_step real_arith (layer1 N) _ _ _ g1) as [L1| | | |] eqn:E1; cbn [bind] in E; try discriminate.
  destruct (fc_step real_arith (layer2 N) _ _ _ g2) as [L2| | | |] eqn:E2; cbn [bind] in E; try discriminate.
  destruct (fc_step real_arith (layer3 N) _ _ _ g3) as [L3| | | |] eqn:E3; cbn [bind] in E; try discriminate.
  injection E as <-.
  destruct (first_layer _ _ _ _ _ _ _ _ B1 B2 (sh_1 _ _ _ _ S) U1 W1 Bb1 E1) as (S1 & A1 & C1).
  destruct (first_layer _ _ _ _ _ _ _ _ B1 B2 (sh_2 _ _ _ _ S) U2 W2 Bb2 E2) as (S2 & A2 & C2).
  destruct (first_layer _ _ _ _ _ _ _ _ B1 B2 (sh_3 _ _ _ _ S) U3 W3 Bb3 E3) as (S3 & A3 & C3).
  split; [constructor; assumption|]. split; [|intros L; now apply pairing_up].
  unfold params_eq, params_of, along, step_params, grads_params. cbn [p_w1 p_b1 p_w2 p_b2 p_w3 p_b3 layer1 layer2 layer3].
  rewrite (sl_in _ _ _ S1), (sl_in _ _ _ S2), (sl_in _ _ _ S3).
  rewrite (sl_in _ _ _ (sh_1 _ _ _ _ S)), (sl_in _ _ _ (sh_2 _ _ _ _ S)), (sl_in _ _ _ (sh_3 _ _ _ _ S)).
  repeat split; intros; rewrite Rmult_1_l; auto.
Qed.
