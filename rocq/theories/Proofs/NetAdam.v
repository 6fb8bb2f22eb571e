(** Successive training steps over the real numbers are the Adam method. *)
From Coq Require Import List ZArith Bool Lia Reals Lra.
From Verif Require Import Model.Base Model.NetM.
From Verif Require Import Spec.NetSpec Spec.PolicyNetSpec Proofs.NetFacts Proofs.NetReal Proofs.NetGradient Proofs.NetStep.
Import ListNotations.
Local Open Scope nat_scope.

Lemma fc_step_full {T} (A : arith T) L n m lr be1 be2 g (d : T) L' : shaped_layer L n m -> length (g_w g) = m * n -> length (g_b g) = m ->
  fc_step A L lr be1 be2 g = Ok L' ->
  shaped_layer L' n m /\ l_step L' = S (l_step L) /\
  (forall i, i < m * n -> (nth i (l_wm L') d, nth i (l_wv L') d, nth i (l_w L') d) =
     adam A lr be1 be2 (S (l_step L)) (nth i (l_wm L) d) (nth i (l_wv L) d) (nth i (l_w L) d) (nth i (g_w g) d)) /\
  (forall i, i < m -> (nth i (l_bm L') d, nth i (l_bv L') d, nth i (l_b L') d) =
     adam A lr be1 be2 (S (l_step L)) (nth i (l_bm L) d) (nth i (l_bv L) d) (nth i (l_b L) d) (nth i (g_b g) d)).
Proof.
  intros [I O W B WM WV BM BV] GW GB. unfold fc_step.
  rewrite (adam_all_ok A lr be1 be2 (S (l_step L)) (l_wm L) (l_wv L) (l_w L) (g_w g) (m * n) _ _ _ _ W
             (arr1_of d _ _ WM) (arr1_of d _ _ WV) (arr1_of d _ _ W) (arr1_of d _ _ GW)). cbn [bind].
  rewrite (adam_all_ok A lr be1 be2 (S (l_step L)) (l_bm L) (l_bv L) (l_b L) (g_b g) m _ _ _ _ B
             (arr1_of d _ _ BM) (arr1_of d _ _ BV) (arr1_of d _ _ B) (arr1_of d _ _ GB)). cbn [bind].
  intros E. injection E as <-. cbn [l_in l_out l_w l_b l_wm l_wv l_bm l_bv l_step].
  split; [constructor; cbn [l_in l_out l_w l_b l_wm l_wv l_bm l_bv]; rewrite ?map_length, ?tab1_length; auto|].
  split; [reflexivity|].
  assert (G : forall X (f : nat -> X) (p : X -> T) k i, i < k -> nth i (map p (tab1 k f)) d = p (f i)).
  { intros X f p k i H. apply nth_error_nth. unfold tab1. rewrite map_map. exact (arr1_tab1 k (fun i => p (f i)) i H). }
  split; intros i H; rewrite !G by exact H; match goal with |- _ = ?u => now destruct u as [[? ?] ?] end.
Qed.

Local Open Scope R_scope.
(** The uncorrected averages the program keeps. *)
Definition moment (b : R) (k : nat) (g : nat -> R) : R := sumf k (fun i => (1 - b) * b ^ (k - 1 - i) * g i).

Lemma moment_S b k g : moment b (S k) g = b * moment b k g + (1 - b) * g k.
Proof.
  unfold moment. cbn [sumf]. replace (S k - 1 - k)%nat with O by lia. cbn [pow]. rewrite <- sumf_scal.
  f_equal; [|ring]. apply sumf_ext; intros i I. replace (S k - 1 - i)%nat with (S (k - 1 - i)) by lia. cbn [pow]. ring.
Qed.
Lemma moment_average b k g : moment b k g / (1 - b ^ k) = average b k g.
Proof.
  unfold moment, average, Rdiv. rewrite Rmult_comm, <- sumf_scal. apply sumf_ext; intros i I. unfold weight, Rdiv. ring.
Qed.

Definition adam_inv lr b1 b2 k p0 g (m v p : R) : Prop :=
  m = moment b1 k g /\ v = moment b2 k (fun i => g i * g i) /\ p = p0 + adam_total lr b1 b2 k g.

Lemma adam_inv_step lr b1 b2 k p0 g m v p m' v' p' : adam_inv lr b1 b2 k p0 g m v p ->
  (m', v', p') = adam real_arith lr b1 b2 (S k) m v p (g k) -> adam_inv lr b1 b2 (S k) p0 g m' v' p'.
Proof.
  intros (-> & -> & ->) E. unfold adam in E. cbn [n_add n_sub n_mul n_div n_pow n_sqrt n_eps n_one real_arith] in E.
  rewrite <- !pow_powerRZ in E.
  assert (SQ : powerRZ (g k) 2 = g k * g k). { change 2%Z with (Z.of_nat 2). rewrite <- pow_powerRZ. ring. }
  rewrite SQ in E. rewrite <- (moment_S b1 k g) in E. rewrite <- (moment_S b2 k (fun i => g i * g i)) in E.
  rewrite !moment_average in E. injection E as -> -> ->. split; [reflexivity|]. split; [reflexivity|].
  unfold adam_total. cbn [sumf]. rewrite Rplus_assoc. reflexivity.
Qed.

Section Layers.
Variables (lr b1 b2 : R).

Definition layer_inv (L L0 : layer R) (n m k : nat) (gs : nat -> grads R) : Prop :=
  shaped_layer L n m /\ l_step L = k /\
  (forall i, (i < m * n)%nat -> adam_inv lr b1 b2 k (nth i (l_w L0) 0) (fun t => nth i (g_w (gs t)) 0)
     (nth i (l_wm L) 0) (nth i (l_wv L) 0) (nth i (l_w L) 0)) /\
  (forall i, (i < m)%nat -> adam_inv lr b1 b2 k (nth i (l_b L0) 0) (fun t => nth i (g_b (gs t)) 0)
     (nth i (l_bm L) 0) (nth i (l_bv L) 0) (nth i (l_b L) 0)).

Lemma layer_inv_step L L0 n m k gs L' : layer_inv L L0 n m k gs ->
  length (g_w (gs k)) = (m * n)%nat -> length (g_b (gs k)) = m ->
  fc_step real_arith L lr b1 b2 (gs k) = Ok L' -> layer_inv L' L0 n m (S k) gs.
Proof.
  intros (S & C & W & B) GW GB E.
  destruct (fc_step_full real_arith L n m lr b1 b2 (gs k) 0 L' S GW GB E) as (S' & C' & W' & B').
  rewrite C in C', W', B'. split; [exact S'|]. split; [exact C'|]. split; intros i I.
  - eapply adam_inv_step; [exact (W i I)|]. exact (W' i I).
  - eapply adam_inv_step; [exact (B i I)|]. exact (B' i I).
Qed.

Lemma layer_inv_0 L n m gs : shaped_layer L n m -> untrained_layer L -> layer_inv L L n m 0 gs.
Proof.
  intros S (WM & WV & BM & BV & ST). split; [exact S|]. split; [exact ST|].
  split; intros i I; unfold adam_inv; rewrite !nth_zero by assumption; unfold moment, adam_total; cbn [sumf]; repeat split; ring.
Qed.
End Layers.

Definition get1 (Gs : list (grads R * grads R * grads R)) (t : nat) := fst (fst (nth t Gs (mkGrads [] [], mkGrads [] [], mkGrads [] []))).
Definition get2 (Gs : list (grads R * grads R * grads R)) (t : nat) := snd (fst (nth t Gs (mkGrads [] [], mkGrads [] [], mkGrads [] []))).
Definition get3 (Gs : list (grads R * grads R * grads R)) (t : nat) := snd (nth t Gs (mkGrads [] [], mkGrads [] [], mkGrads [] [])).

Definition net_inv (N0 N : net R) n h m k Gs : Prop :=
  let lr := learn_rate N0 in let b1 := net_beta1 N0 in let b2 := net_beta2 N0 in
  learn_rate N = lr /\ net_beta1 N = b1 /\ net_beta2 N = b2 /\
  layer_inv lr b1 b2 (layer1 N) (layer1 N0) n h k (get1 Gs) /\
  layer_inv lr b1 b2 (layer2 N) (layer2 N0) h h k (get2 Gs) /\
  layer_inv lr b1 b2 (layer3 N) (layer3 N0) h m k (get3 Gs).

Lemma trajectory_inv N0 n h m bs : (0 < m)%nat -> List.Forall (sample_batch_ok n m) bs -> forall N pre Gs N',
  net_inv N0 N n h m (length pre) (pre ++ Gs) -> trajectory N bs = Ok (Gs, N') ->
  length Gs = length bs /\ net_inv N0 N' n h m (length pre + length bs) (pre ++ Gs).
Proof.
  intros Hm H. induction H as [|[[[s a] r] B] bs (Ls & La & Lr & Ra) _ IH]; intros N pre Gs N' I E; cbn [trajectory] in E.
  { injection E as <- <-. rewrite Nat.add_0_r. split; [reflexivity|exact I]. }
  destruct I as (E1 & E2 & E3 & I1 & I2 & I3).
  assert (S : shaped N n h m) by (constructor; [apply I1|apply I2|apply I3]).
  assert (Ra' : forall i, (i < B)%nat -> (nth i a O < m)%nat).
  { intros i I. rewrite List.Forall_forall in Ra. apply Ra, nth_In. lia. }
  destruct (net_gradients_sizes real_arith 0 N n h m B s a r S Hm Ls La Lr Ra')
    as (g1 & g2 & g3 & EG & W1 & Bb1 & W2 & Bb2 & W3 & Bb3).
  rewrite EG in E. cbn [bind] in E. unfold train_step in E. rewrite EG in E. cbn [bind] in E. rewrite E1, E2, E3 in E.
  destruct (fc_step real_arith (layer1 N) _ _ _ g1) as [L1| | | |] eqn:F1; cbn [bind] in E; try discriminate.
  destruct (fc_step real_arith (layer2 N) _ _ _ g2) as [L2| | | |] eqn:F2; cbn [bind] in E; try discriminate.
  destruct (fc_step real_arith (layer3 N) _ _ _ g3) as [L3| | | |] eqn:F3; cbn [bind] in E; try discriminate.
  match type of E with context [trajectory ?X bs] => set (NX := X) in E end.
  destruct (trajectory NX bs) as [[Gs' N'']| | | |] eqn:T; cbn [bind] in E; try discriminate. injection E as <- <-.
  assert (K : nth (length pre) (pre ++ (g1, g2, g3) :: Gs') (mkGrads [] [], mkGrads [] [], mkGrads [] []) = (g1, g2, g3)).
  { rewrite app_nth2 by lia. now rewrite Nat.sub_diag. }
  assert (AP : pre ++ (g1, g2, g3) :: Gs' = (pre ++ [(g1, g2, g3)]) ++ Gs') by now rewrite <- app_assoc.
  destruct (IH NX (pre ++ [(g1, g2, g3)]) Gs' N'') as [LG I'].
  - rewrite <- AP, app_length. cbn [length]. rewrite Nat.add_1_r.
    assert (G1 : get1 (pre ++ (g1, g2, g3) :: Gs') (length pre) = g1) by (unfold get1; now rewrite K).
    assert (G2 : get2 (pre ++ (g1, g2, g3) :: Gs') (length pre) = g2) by (unfold get2; now rewrite K).
    assert (G3 : get3 (pre ++ (g1, g2, g3) :: Gs') (length pre) = g3) by (unfold get3; now rewrite K).
    split; [reflexivity|]. split; [reflexivity|]. split; [reflexivity|].
    unfold NX; cbn [layer1 layer2 layer3]. split; [|split].
    + eapply layer_inv_step; [exact I1| | |]; rewrite G1; assumption.
    + eapply layer_inv_step; [exact I2| | |]; rewrite G2; assumption.
    + eapply layer_inv_step; [exact I3| | |]; rewrite G3; assumption.
  - exact T.
  - rewrite AP. rewrite app_length in I'. cbn [length] in *. split; [now rewrite LG|].
    replace (length pre + Datatypes.S (length bs))%nat with (length pre + 1 + length bs)%nat by lia. exact I'.
Qed.

Lemma nth_map_get {X} (f : X -> R) l t d : f d = 0 -> nth t (map f l) 0 = f (nth t l d).
Proof. intros D. rewrite <- D at 1. apply map_nth. Qed.

Lemma training_is_adam N n h m bs Gs N' : shaped N n h m -> untrained N -> (0 < m)%nat -> List.Forall (sample_batch_ok n m) bs ->
  trajectory N bs = Ok (Gs, N') ->
  length Gs = length bs /\ shaped N' n h m /\
  params_eq n h m (params_of N') (along (params_of N)
    (adam_params (learn_rate N) (net_beta1 N) (net_beta2 N) (map (grads_params n h) Gs)) 1).
Proof.
  intros S (U1 & U2 & U3) Hm H E.
  destruct (trajectory_inv N n h m bs Hm H N [] Gs N') as [L (_ & _ & _ & I1 & I2 & I3)]; [|exact E|].
  { split; [reflexivity|]. split; [reflexivity|]. split; [reflexivity|]. cbn [length].
    split; [|split]; apply layer_inv_0; try assumption; apply S. }
  cbn [length app] in I1, I2, I3. rewrite Nat.add_0_l in I1, I2, I3.
  split; [exact L|]. split; [constructor; [apply I1|apply I2|apply I3]|].
  set (d := (mkGrads [] [], mkGrads [] [], mkGrads [] []) : grads R * grads R * grads R).
  assert (D : forall i : nat, nth i (@nil R) 0 = 0) by (intros [|i]; reflexivity).
  destruct I1 as (S1 & _ & W1 & B1), I2 as (S2 & _ & W2 & B2), I3 as (S3 & _ & W3 & B3).
  unfold params_eq, params_of, along, adam_params. cbn [p_w1 p_b1 p_w2 p_b2 p_w3 p_b3].
  rewrite (sl_in _ _ _ S1), (sl_in _ _ _ S2), (sl_in _ _ _ S3).
  rewrite (sl_in _ _ _ (sh_1 _ _ _ _ S)), (sl_in _ _ _ (sh_2 _ _ _ _ S)), (sl_in _ _ _ (sh_3 _ _ _ _ S)).
  rewrite map_length, L.
  assert (X : forall k f g, (forall t, f t = g t) -> adam_total (learn_rate N) (net_beta1 N) (net_beta2 N) k f =
    adam_total (learn_rate N) (net_beta1 N) (net_beta2 N) k g).
  { intros k f g Q. unfold adam_total. apply sumf_ext; intros t _. unfold adam_move, average.
    rewrite (sumf_ext _ _ (fun i => weight (net_beta1 N) (Datatypes.S t) i * g i)) by (intros; now rewrite Q).
    rewrite (sumf_ext _ (fun i => weight (net_beta2 N) (Datatypes.S t) i * (f i * f i)) (fun i => weight (net_beta2 N) (Datatypes.S t) i * (g i * g i)))
      by (intros; now rewrite Q). reflexivity. }
  assert (M : forall (q : params -> R) (w : nat -> R), (forall t, q (grads_params n h (nth t Gs d)) = w t) -> q (grads_params n h d) = 0 ->
    adam_total (learn_rate N) (net_beta1 N) (net_beta2 N) (length bs) (fun t => nth t (map q (map (grads_params n h) Gs)) 0) =
    adam_total (learn_rate N) (net_beta1 N) (net_beta2 N) (length bs) w).
  { intros q w Q Z. apply X. intros t. rewrite map_map. rewrite (nth_map_get (fun G => q (grads_params n h G)) Gs t d Z). apply Q. }
  unfold mat, vec. split; [|split; [|split; [|split; [|split]]]].
  - intros j k J K. rewrite Rmult_1_l. rewrite (M _ (fun t => nth (at2 n j k) (g_w (get1 Gs t)) 0)).
    + apply W1. unfold at2; nia.
    + intros t. unfold get1. fold d. now destruct (nth t Gs d) as [[? ?] ?].
    + apply D.
  - intros j J. rewrite Rmult_1_l. rewrite (M _ (fun t => nth j (g_b (get1 Gs t)) 0)).
    + now apply B1.
    + intros t. unfold get1. fold d. now destruct (nth t Gs d) as [[? ?] ?].
    + apply D.
  - intros j k J K. rewrite Rmult_1_l. rewrite (M _ (fun t => nth (at2 h j k) (g_w (get2 Gs t)) 0)).
    + apply W2. unfold at2; nia.
    + intros t. unfold get2. fold d. now destruct (nth t Gs d) as [[? ?] ?].
    + apply D.
  - intros j J. rewrite Rmult_1_l. rewrite (M _ (fun t => nth j (g_b (get2 Gs t)) 0)).
    + now apply B2.
    + intros t. unfold get2. fold d. now destruct (nth t Gs d) as [[? ?] ?].
    + apply D.
  - intros j k J K. rewrite Rmult_1_l. rewrite (M _ (fun t => nth (at2 h j k) (g_w (get3 Gs t)) 0)).
    + apply W3. unfold at2; nia.
    + intros t. unfold get3. fold d. now destruct (nth t Gs d) as [[? ?] ?].
    + apply D.
  - intros j J. rewrite Rmult_1_l. rewrite (M _ (fun t => nth j (g_b (get3 Gs t)) 0)).
    + now apply B3.
    + intros t. unfold get3. fold d. now destruct (nth t Gs d) as [[? ?] ?].
    + apply D.
Qed.

Lemma trajectory_runs N n h m bs : shaped N n h m -> (0 < m)%nat -> List.Forall (sample_batch_ok n m) bs ->
  exists Gs N', trajectory N bs = Ok (Gs, N').
Proof.
  intros S Hm H. revert N S. induction H as [|[[[s a] r] B] bs (Ls & La & Lr & Ra) _ IH]; intros N S; cbn [trajectory].
  { now exists [], N. }
  assert (Ra' : forall i, (i < B)%nat -> (nth i a O < m)%nat).
  { intros i I. rewrite List.Forall_forall in Ra. apply Ra, nth_In. lia. }
  destruct (net_gradients_sizes real_arith 0 N n h m B s a r S Hm Ls La Lr Ra') as (g1 & g2 & g3 & -> & _). cbn [bind].
  destruct (train_step_shaped real_arith 0 N n h m B s a r S Hm Ls La Lr Ra') as (N1 & -> & S1). cbn [bind].
  destruct (IH N1 S1) as (Gs & N' & ->). cbn [bind]. now do 2 eexists.
Qed.
