(** What PolicyNet::train hands to the network. *)
From Coq Require Import List ZArith Bool Lia Reals Lra.
From Flocq Require Import Core BinarySingleNaN.
From Verif Require Import Model.Base Model.Float Model.DatasetM Model.NetM Model.PolicyNetM.
From Verif Require Import Spec.NetSpec Spec.PolicyNetSpec Proofs.NetFacts Proofs.PolicyNetFacts Proofs.PolicyNetSafety.
Import ListNotations.
Local Open Scope nat_scope.

Lemma tab1_nth {X Y} (l : list X) (f : X -> Y) d : tab1 (length l) (fun i => f (nth i l d)) = map f l.
Proof.
  unfold tab1. induction l as [|x l IH]; [reflexivity|]. cbn [length seq map nth]. f_equal.
  rewrite <- seq_shift, map_map. exact IH.
Qed.

Section Learn.
Context {T : Type} (A : arith T) (metric_in : f64 -> T).

Lemma states_of (d : dataset) features : Forall (fun e => features_ok features (fst (fst e))) d ->
  map_out (fun q => let '(f, _, _) := q in let* zs := encode f in Ok (input_of (bit A) zs)) (ds_to_vector d) =
  Ok (map (fun e => input_of (bit A) (integer_parts (fst (fst e)))) d).
Proof.
  intros H. unfold ds_to_vector. induction H as [|e d [L E] _ IH]; [reflexivity|]. cbn [map map_out].
  rewrite (encode_ok _ E). cbn [bind]. rewrite IH. reflexivity.
Qed.

Lemma train_net_cases policies features P states acts rews Q : states <> [] ->
  Forall (fun s => length s = 64 * features) states -> length acts = length states -> length rews = length states ->
  Forall (fun a => (0 <= a < Z.of_nat policies)%Z) acts -> (0 <= pn_count P < int_max)%Z ->
  train_net A P states acts rews = Ok Q ->
  pn_threshold Q = pn_threshold P /\
  ((n_lt A (baseline A Q) (pn_threshold P) = true /\ pn_net Q = pn_net P) \/
   (n_lt A (baseline A Q) (pn_threshold P) = false /\
    train_step A (pn_net P) (List.concat states) (map Z.to_nat acts) (map (fun r => n_sub A r (baseline A Q)) rews)
      (length states) = Ok (pn_net Q))).
Proof.
  intros NE Ls La Lr Ra C E. unfold train_net in E. destruct states as [|s0 states]; [now destruct NE|].
  rewrite (proj2 (Z.eqb_neq _ _)) in E by lia.
  match type of E with context [n_lt A ?u (pn_threshold P)] => set (bl := u) in E end.
  match type of bl with T => idtac end.
  destruct (n_lt A bl (pn_threshold P)) eqn:LT.
  { injection E as <-. split; [reflexivity|]. left. split; [|reflexivity].
    unfold baseline. cbn [pn_avg pn_beta pn_count]. rewrite (proj2 (Z.ltb_lt _ _)) by lia. exact LT. }
  assert (L0 : length s0 = 64 * features) by now inversion Ls. rewrite L0 in E.
  assert (ER : map_out (fun s => map_out (rd s) (seq 0 (64 * features))) (s0 :: states) = Ok (s0 :: states)).
  { clear -Ls. induction Ls as [|s l E _ IH]; [reflexivity|]. cbn [map_out]. rewrite <- E at 1. rewrite map_rd. cbn [bind].
    rewrite IH. reflexivity. }
  rewrite ER in E. cbn [bind] in E. clear ER.
  rewrite (map_out_seq (length (s0 :: states)) _ (fun i => Z.to_nat (nth i acts 0%Z))) in E.
  2:{ intros i I. rewrite (rd_arr1 (length acts) acts (fun i => nth i acts 0%Z) i (arr1_list _ _)) by lia. cbn [bind].
      unfold action_index. rewrite Forall_forall in Ra. assert (H := Ra (nth i acts 0%Z) ltac:(apply nth_In; lia)).
      rewrite (proj2 (Z.ltb_ge _ _)) by lia. reflexivity. }
  cbn [bind] in E.
  rewrite (map_out_seq (length (s0 :: states)) _ (fun i => n_sub A (nth i rews (n_zero A)) bl)) in E.
  2:{ intros i I. rewrite (rd_arr1 (length rews) rews (fun i => nth i rews (n_zero A)) i (arr1_list _ _)) by lia. reflexivity. }
  cbn [bind] in E.
  destruct (train_step A (pn_net P) _ _ _ _) as [N'| | | |] eqn:TS; cbn [bind] in E; try discriminate. injection E as <-.
  split; [reflexivity|]. right.
  match goal with |- n_lt A (baseline A ?q) _ = _ /\ _ => assert (B : baseline A q = bl) end.
  { unfold baseline. cbn [pn_avg pn_beta pn_count]. rewrite (proj2 (Z.ltb_lt _ _)) by lia. reflexivity. }
  rewrite B. split; [exact LT|]. cbn [pn_net]. rewrite <- TS. f_equal.
  - rewrite <- La. symmetry. apply (tab1_nth acts Z.to_nat 0%Z).
  - rewrite <- Lr. symmetry. apply (tab1_nth rews (fun r => n_sub A r bl) (n_zero A)).
Qed.

Lemma learns policies features P d Q : use_ok policies features (Learn (T := T) d) -> (0 <= pn_count P < int_max)%Z ->
  pn_train A metric_in P d = Ok Q ->
  ((d = [] \/ n_lt A (baseline A Q) (pn_threshold P) = true) /\ pn_net Q = pn_net P) \/
  (d <> [] /\ n_lt A (baseline A Q) (pn_threshold P) = false /\
   train_step A (pn_net P) (List.concat (map (fun e => input_of (bit A) (integer_parts (fst (fst e)))) d))
     (map (fun e => Z.to_nat (snd (fst e))) d)
     (map (fun e => n_sub A (n_exp A (n_opp A (metric_in (snd e)))) (baseline A Q)) d)
     (length d) = Ok (pn_net Q)).
Proof.
  intros U C E. cbn [use_ok] in U. unfold pn_train in E. rewrite (states_of d features) in E.
  2:{ eapply Forall_impl; [|exact U]. intros e [F _]; exact F. }
  cbn [bind] in E.
  match type of E with context [train_net A P ?st ?a ?r] => destruct (train_net A P st a r) as [Q'| | | |] eqn:TN; cbn [bind] in E; try discriminate end.
  injection E as <-. change (baseline A _) with (baseline A Q'). cbn [pn_net].
  destruct (list_eq_dec Nat.eq_dec (map (fun _ => 0) d) []) as [Z|NE].
  { destruct d; [|discriminate Z]. cbn in TN. injection TN as <-. left. split; [left|]; reflexivity. }
  assert (Hd : d <> []) by (intros ->; now apply NE).
  apply train_net_cases with (policies := policies) (features := features) in TN.
  - destruct TN as [_ [[H1 H2]|[H1 H2]]].
    + left. split; [right; exact H1|exact H2].
    + right. split; [exact Hd|]. split; [exact H1|]. rewrite <- H2. unfold ds_to_vector. rewrite !map_map, map_length. f_equal; apply map_ext; intros [[? ?] ?]; reflexivity.
  - intros Z; apply map_eq_nil in Z; exact (Hd Z).
  - apply Forall_forall. intros s I. apply in_map_iff in I as (e & <- & I). rewrite Forall_forall in U.
    destruct (U e I) as [[F _] _]. rewrite input_length. unfold integer_parts. rewrite map_length. lia.
  - unfold ds_to_vector. now rewrite !map_length.
  - unfold ds_to_vector. now rewrite !map_length.
  - apply Forall_forall. intros a I. apply in_map_iff in I as ([[f q] x] & <- & I). unfold ds_to_vector in I.
    apply in_map_iff in I as (e & E & I). injection E as _ <- _. rewrite Forall_forall in U. now apply U.
  - exact C.
Qed.
End Learn.
