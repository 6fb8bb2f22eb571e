(** The reward baseline over the real numbers. *)
From Coq Require Import List ZArith Bool Lia Reals Lra.
From Flocq Require Import Core BinarySingleNaN.
From Verif Require Import Model.Base Model.Float Model.DatasetM Model.NetM Model.PolicyNetM.
From Verif Require Import Spec.NetSpec Spec.PolicyNetSpec Proofs.NetFacts Proofs.NetReal.
Import ListNotations.
Local Open Scope R_scope.

Lemma fold_left_sum l a : fold_left (fun s r => s + r) l a = a + fold_right Rplus 0 l.
Proof. revert a; induction l as [|x l IH]; intros a; cbn; [lra|]. rewrite IH; lra. Qed.

Lemma sumf_first n f : sumf (S n) f = f O + sumf n (fun i => f (S i)).
Proof. induction n as [|n IH]; [cbn; lra|]. cbn [sumf] in *. rewrite IH. lra. Qed.

Lemma train_net_average P s a r Q : length s = length r -> s <> [] -> train_net real_arith P s a r = Ok Q ->
  pn_avg Q = pn_beta P * pn_avg P + (1 - pn_beta P) * mean r /\
  pn_count Q = (pn_count P + 1)%Z /\ pn_beta Q = pn_beta P /\ pn_threshold Q = pn_threshold P.
Proof.
  intros L N H. unfold train_net in H. destruct s as [|s0 s]; [congruence|].
  cbn [n_zero n_one n_add n_sub n_mul n_div n_nat n_lt n_pow real_arith] in H.
  rewrite fold_left_sum in H. rewrite L in H.
  destruct (pn_count P =? int_max)%Z; [discriminate|].
  replace (0 + fold_right Rplus 0 r) with (fold_right Rplus 0 r) in H by ring. fold (mean r) in H.
  match type of H with context [Rlt_bool ?u ?v] => destruct (Rlt_bool u v) end.
  { injection H as <-. repeat split; reflexivity. }
  match type of H with context [bind ?u _] => destruct u end; cbn [bind] in H; try discriminate.
  match type of H with context [bind ?u _] => destruct u end; cbn [bind] in H; try discriminate.
  match type of H with context [bind ?u _] => destruct u end; cbn [bind] in H; try discriminate.
  match type of H with context [bind ?u _] => destruct u end; cbn [bind] in H; try discriminate.
  injection H as <-. repeat split; reflexivity.
Qed.

Lemma average_after bs : forall P Q, Forall batch_ok bs -> train_all bs P = Ok Q ->
  pn_avg Q = pn_beta P ^ length bs * pn_avg P +
    sumf (length bs) (fun i => (1 - pn_beta P) * pn_beta P ^ (length bs - 1 - i) * mean (batch_rewards (nth i bs ([], [], [])))) /\
  pn_count Q = (pn_count P + Z.of_nat (length bs))%Z /\ pn_beta Q = pn_beta P.
Proof.
  induction bs as [|[[s a] r] bs IH]; intros P Q B H.
  - cbn in H. injection H as <-. cbn. split; [lra|]. split; [lia|reflexivity].
  - cbn [train_all] in H. destruct (train_net real_arith P s a r) as [P1| | | |] eqn:E; cbn [bind] in H; try discriminate.
    inversion B as [|? ? [L N] B']; subst. cbn [fst snd batch_rewards] in L, N.
    destruct (train_net_average P s a r P1 L N E) as (A1 & C1 & Be & _).
    destruct (IH P1 Q B' H) as (A & C & BQ). rewrite Be in *. split; [|split; [cbn [length]; lia|exact BQ]].
    rewrite A, A1. cbn [length]. rewrite sumf_first. cbn [nth batch_rewards snd].
    replace (S (length bs) - 1 - 0)%nat with (length bs) by lia. cbn [pow].
    match goal with |- _ = _ + (_ + sumf _ ?f) => rewrite (sumf_ext (length bs) f
      (fun i => (1 - pn_beta P) * pn_beta P ^ (length bs - 1 - i) * mean (batch_rewards (nth i bs ([], [], []))))) end.
    2:{ intros k K. replace (S (length bs) - 1 - S k)%nat with (length bs - 1 - k)%nat by lia. reflexivity. }
    ring.
Qed.

Lemma geometric beta k : sumf k (fun i => (1 - beta) * beta ^ (k - 1 - i)) = 1 - beta ^ k.
Proof.
  induction k as [|k IH]; [cbn; lra|]. rewrite sumf_first. replace (S k - 1 - 0)%nat with k by lia.
  rewrite (sumf_ext k _ (fun i => (1 - beta) * beta ^ (k - 1 - i))).
  2:{ intros i I. replace (S k - 1 - S i)%nat with (k - 1 - i)%nat by lia. reflexivity. }
  rewrite IH. cbn [pow]. ring.
Qed.

Lemma pow_lt_1 beta k : 0 <= beta < 1 -> (0 < k)%nat -> 0 <= beta ^ k < 1.
Proof.
  intros [L U] K. split; [now apply pow_le|]. destruct k as [|k]; [lia|]. cbn [pow].
  assert (beta ^ k <= 1) by (rewrite <- (pow1 k); apply pow_incr; lra).
  assert (0 <= beta ^ k) by now apply pow_le. nra.
Qed.

Lemma baseline_weighted bs P Q : Forall batch_ok bs -> bs <> [] ->
  pn_avg P = 0 -> pn_count P = 0%Z -> 0 <= pn_beta P < 1 -> train_all bs P = Ok Q ->
  let k := length bs in
  baseline real_arith Q = sumf k (fun i => weight (pn_beta P) k i * mean (batch_rewards (nth i bs ([], [], [])))) /\
  (forall i, (i < k)%nat -> 0 <= weight (pn_beta P) k i) /\ sumf k (weight (pn_beta P) k) = 1.
Proof.
  intros B N A0 C0 Be H k. destruct (average_after bs P Q B H) as (A & C & BQ). fold k in A, C.
  assert (K : (0 < k)%nat) by (unfold k; destruct bs; [congruence|cbn; lia]).
  destruct (pow_lt_1 (pn_beta P) k Be K) as [PL PU].
  split; [|split].
  - unfold baseline. rewrite C, C0, BQ. rewrite Z.add_0_l.
    replace (0 <? Z.of_nat k)%Z with true by (symmetry; apply Z.ltb_lt; lia).
    cbn [n_div n_sub n_one n_pow real_arith]. rewrite <- pow_powerRZ. rewrite A, A0, Rmult_0_r, Rplus_0_l.
    unfold Rdiv. rewrite <- sumf_scal_r. apply sumf_ext; intros i I. unfold weight. field. lra.
  - intros i I. unfold weight. apply Rmult_le_pos; [apply Rmult_le_pos; [lra|now apply pow_le]|].
    left. apply Rinv_0_lt_compat. lra.
  - unfold weight. rewrite (sumf_ext k _ (fun i => (1 - pn_beta P) * pn_beta P ^ (k - 1 - i) * / (1 - pn_beta P ^ k))) by reflexivity.
    rewrite sumf_scal_r, geometric. field. lra.
Qed.

Lemma sumf_le n f g : (forall k, (k < n)%nat -> f k <= g k) -> sumf n f <= sumf n g.
Proof. intros H; induction n as [|n IH]; cbn; [lra|]. assert (f n <= g n) by (apply H; lia). assert (sumf n f <= sumf n g) by (apply IH; intros; apply H; lia). lra. Qed.

Lemma baseline_between bs P Q lo hi : Forall batch_ok bs -> bs <> [] ->
  pn_avg P = 0 -> pn_count P = 0%Z -> 0 <= pn_beta P < 1 -> train_all bs P = Ok Q ->
  Forall (fun b => lo <= mean (batch_rewards b) <= hi) bs -> lo <= baseline real_arith Q <= hi.
Proof.
  intros B N A0 C0 Be H Bd. destruct (baseline_weighted bs P Q B N A0 C0 Be H) as (E & W & S).
  assert (M : forall i, (i < length bs)%nat -> lo <= mean (batch_rewards (nth i bs ([], [], []))) <= hi).
  { intros i I. rewrite Forall_forall in Bd. apply Bd, nth_In, I. }
  rewrite E. split.
  - replace lo with (sumf (length bs) (weight (pn_beta P) (length bs)) * lo) by (rewrite S; ring).
    rewrite <- sumf_scal_r. apply sumf_le; intros i I. apply Rmult_le_compat_l; [now apply W|]. now apply M.
  - replace hi with (sumf (length bs) (weight (pn_beta P) (length bs)) * hi) by (rewrite S; ring).
    rewrite <- sumf_scal_r. apply sumf_le; intros i I. apply Rmult_le_compat_l; [now apply W|]. now apply M.
Qed.

(** * A threshold above 1 *)
Definition quiet (P : pnet R) : Prop :=
  0 <= pn_beta P < 1 /\ 1 < pn_threshold P /\ (0 <= pn_count P)%Z /\ pn_avg P <= 1 - pn_beta P ^ Z.to_nat (pn_count P).

Lemma quiet_baseline P : quiet P -> Rlt_bool (baseline real_arith P) (pn_threshold P) = true.
Proof.
  intros (B & T & C & A). apply Rlt_bool_true. unfold baseline.
  cbn [n_div n_sub n_one n_pow n_zero real_arith].
  destruct (Z.ltb_spec 0 (pn_count P)) as [L|L]; [|lra].
  rewrite <- (Z2Nat.id (pn_count P)) by lia. rewrite <- pow_powerRZ.
  destruct (pow_lt_1 (pn_beta P) (Z.to_nat (pn_count P)) B ltac:(lia)) as [PL PU].
  apply Rle_lt_trans with 1; [|exact T]. apply Rmult_le_reg_r with (1 - pn_beta P ^ Z.to_nat (pn_count P)); [lra|].
  unfold Rdiv. rewrite Rmult_assoc, Rinv_l by lra. lra.
Qed.

Lemma quiet_train P s a r Q : quiet P -> length s = length r -> Forall (fun x => x <= 1) r ->
  train_net real_arith P s a r = Ok Q -> quiet Q /\ pn_net Q = pn_net P.
Proof.
  intros H L R E. destruct s as [|s0 s]; [cbn in E; injection E as <-; split; [exact H|reflexivity]|].
  assert (N : s0 :: s <> []) by discriminate.
  assert (M : mean r <= 1).
  { unfold mean. assert (LR : (0 < length r)%nat) by (rewrite <- L; cbn; lia). assert (0 < INR (length r)) by (apply lt_0_INR; exact LR).
    apply Rmult_le_reg_r with (INR (length r)); [assumption|]. unfold Rdiv. rewrite Rmult_assoc, Rinv_l, Rmult_1_l, Rmult_1_r by lra.
    clear -R. induction R as [|x r X R IH]; [cbn; lra|]. cbn [fold_right]. change (length (x :: r)) with (S (length r)). rewrite S_INR. lra. }
  destruct (train_net_average P _ a r Q L N E) as (A1 & C1 & Be & Th).
  destruct H as (B & T & C & A).
  assert (QQ : quiet Q).
  { unfold quiet. rewrite A1, C1, Be, Th. repeat split; try lra; [lia|].
    replace (Z.to_nat (pn_count P + 1)) with (S (Z.to_nat (pn_count P))) by lia. cbn [pow]. nra. }
  split; [exact QQ|].
  pose proof (quiet_baseline Q QQ) as BQ. unfold baseline in BQ. rewrite C1, Be, Th in BQ.
  replace (0 <? pn_count P + 1)%Z with true in BQ by (symmetry; apply Z.ltb_lt; lia). rewrite A1 in BQ.
  unfold train_net in E. cbn [n_zero n_one n_add n_sub n_mul n_div n_nat n_lt n_pow real_arith] in E, BQ.
  rewrite fold_left_sum, L in E. destruct (pn_count P =? int_max)%Z; [discriminate|].
  replace (0 + fold_right Rplus 0 r) with (fold_right Rplus 0 r) in E by ring. fold (mean r) in E.
  rewrite BQ in E. injection E as <-. reflexivity.
Qed.

Lemma quiet_get draw P f : quiet P -> pn_get_index real_arith draw P f = Ok (0%Z, P).
Proof. intros H. unfold pn_get_index. cbn [n_lt real_arith]. now rewrite quiet_baseline. Qed.

Lemma map_out_length {X Y} (f : X -> outcome Y) l q : map_out f l = Ok q -> length q = length l.
Proof.
  revert q; induction l as [|x l IH]; intros q H; cbn [map_out] in H; [now injection H as <-|].
  destruct (f x); cbn [bind] in H; try discriminate. destruct (map_out f l); cbn [bind] in H; try discriminate.
  injection H as <-. cbn. now rewrite (IH a0).
Qed.

Lemma quiet_learn P d Q : quiet P -> Forall (fun e => 0 <= B2R (snd e)) d ->
  pn_train real_arith (fun x : f64 => B2R x) P d = Ok Q -> quiet Q /\ pn_net Q = pn_net P.
Proof.
  intros H D E. unfold pn_train in E.
  match type of E with context [map_out ?f ?l] => destruct (map_out f l) as [states| | | |] eqn:S end; cbn [bind] in E; try discriminate.
  apply map_out_length in S.
  match type of E with context [train_net real_arith P states ?a ?r] => destruct (train_net real_arith P states a r) as [Q'| | | |] eqn:T end;
    cbn [bind] in E; try discriminate.
  apply quiet_train in T as [(QB & QT & QC & QA) QN]; [|exact H|rewrite map_length; exact S|].
  - injection E as <-. split; [|exact QN]. repeat split; assumption || apply QB.
  - apply Forall_forall. intros x I. apply in_map_iff in I as ([[f p] m] & <- & I).
    unfold ds_to_vector in I. apply in_map_iff in I as (e & E1 & I). injection E1 as _ _ <-.
    cbn [n_exp n_opp real_arith]. rewrite <- exp_0. rewrite Forall_forall in D. specialize (D e I).
    destruct D as [D|D]; [left; apply exp_increasing; rewrite <- Ropp_0; apply Ropp_lt_contravar; exact D|].
    replace (B2R (snd e)) with 0 by exact D. rewrite Ropp_0. apply Rle_refl.
Qed.

Lemma quiet_forever us : forall P l Q, quiet P -> Forall gentle us ->
  run_uses real_arith (fun x : f64 => B2R x) us P = Ok (l, Q) -> Forall (fun i => i = 0%Z) l /\ pn_net Q = pn_net P.
Proof.
  induction us as [|[draw f|d] us IH]; intros P l Q H G E; cbn [run_uses] in E.
  - injection E as <- <-. split; [constructor|reflexivity].
  - rewrite quiet_get in E by exact H. cbn [bind] in E.
    destruct (run_uses real_arith _ us P) as [[l' Q']| | | |] eqn:R; cbn [bind] in E; try discriminate. injection E as <- <-.
    inversion G as [|? ? _ G']; subst. destruct (IH P l' Q' H G' R) as [A B]. split; [constructor; [reflexivity|exact A]|exact B].
  - destruct (pn_train real_arith _ P d) as [P1| | | |] eqn:T; cbn [bind] in E; try discriminate.
    inversion G as [|? ? GD G']; subst. destruct (quiet_learn P d P1 H GD T) as [Q1 N1].
    destruct (IH P1 l Q Q1 G' E) as [A B]. split; [exact A|congruence].
Qed.

Lemma threshold_above_one policies features lr beta beta1 beta2 threshold init us l Q :
  0 <= beta < 1 -> 1 < threshold -> Forall gentle us ->
  run_uses real_arith (fun x : f64 => B2R x) us (new_pnet real_arith policies features lr beta beta1 beta2 threshold init) = Ok (l, Q) ->
  Forall (fun i => i = 0%Z) l /\
  pn_net Q = pn_net (new_pnet real_arith policies features lr beta beta1 beta2 threshold init).
Proof.
  intros B T G E. eapply quiet_forever; [|exact G|exact E]. repeat split; cbn; lra || lia.
Qed.
