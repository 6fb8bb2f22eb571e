(** The trees of a trained forest and the samples they are grown from. *)
From Coq Require Import List ZArith Bool Lia Permutation Arith.
From Verif Require Import Model.Base Model.Float Model.TreeM Model.ForestM Spec.DatasetSpec Spec.TreeSpec Spec.ForestSpec Spec.GreedySpec
  Proofs.TreeFacts Proofs.TreeTraining Proofs.ForestFacts Proofs.TreeGreedy.
Import ListNotations.
Open Scope Z_scope.

Lemma nth_error_combine {A B} (l : list A) (r : list B) : forall i a b, nth_error l i = Some a -> nth_error r i = Some b -> nth_error (combine l r) i = Some (a, b).
Proof. revert r. induction l as [|x l IH]; intros [|y r] [|i] a b; cbn; try discriminate; [congruence|apply IH]. Qed.

Lemma vec_get_nth {A} (l : list A) i a : vec_get l (Z.of_nat i) = Ok a -> nth_error l i = Some a.
Proof. unfold vec_get. destruct (_ <? 0) eqn:E; [discriminate|]. rewrite Nat2Z.id. destruct (nth_error l i); [congruence|discriminate]. Qed.

Lemma sample_drawn pick n features responses : forall todo k fs rs, sample_loop pick n todo k features responses = Ok (fs, rs) ->
  map Some (combine fs rs) = map (fun i => nth_error (combine features responses) (pick n (k + i)%nat)) (seq 0 todo) /\ length fs = todo /\ length rs = todo.
Proof.
  induction todo as [|todo IH]; intros k fs rs H; cbn [sample_loop] in H.
  - injection H as <- <-. split; [reflexivity|split; reflexivity].
  - apply bind_inv in H. destruct H as (f & E1 & H). apply bind_inv in H. destruct H as (r & E2 & H). apply bind_inv in H. destruct H as ([fs' rs'] & E3 & H). injection H as <- <-.
    destruct (IH _ _ _ E3) as (M & L1 & L2). cbn [combine map length seq]. rewrite Nat.add_0_r. rewrite (nth_error_combine _ _ _ _ _ (vec_get_nth _ _ _ E1) (vec_get_nth _ _ _ E2)).
    split; [|split; f_equal; assumption]. f_equal. rewrite M. rewrite <- seq_shift, map_map. apply map_ext. intros i. f_equal. f_equal. lia.
Qed.

Lemma trees_grown srt pick md features responses k : sorter_ok srt -> length responses = length features -> uniform_samples k (combine features responses) ->
  Z.of_nat (length features) <= 2 ^ 24 -> Z.of_nat (length (nodup Z.eq_dec responses)) <= 2 ^ 20 ->
  forall todo d ts, train_loop srt pick md todo d features responses = Ok ts ->
  forall j t, nth_error ts j = Some t -> exists l, map Some l = map (fun i => nth_error (combine features responses) (pick (length features) (d + j * length features + i)))%nat (seq 0 (length features)) /\
    greedy (slack (length (nodup Z.eq_dec (map snd l)))) md l (t_root t).
Proof.
  intros HS L U N K. induction todo as [|todo IH]; intros d ts H j t J; cbn [train_loop] in H; [injection H as <-; destruct j; discriminate J|].
  apply bind_inv in H. destruct H as ([fs rs] & E1 & H). apply bind_inv in H. destruct H as (t0 & E2 & H). apply bind_inv in H. destruct H as (ts' & E3 & H). injection H as <-.
  destruct j as [|j]; cbn [nth_error] in J.
  - injection J as <-. destruct (sample_drawn _ _ _ _ _ _ _ _ E1) as (M & L1 & L2). exists (combine fs rs). rewrite Nat.mul_0_l, Nat.add_0_r. split; [exact M|].
    assert (IN : forall s, In s (combine fs rs) -> In s (combine features responses)).
    { intros s I. apply (in_map Some) in I. rewrite M in I. apply in_map_iff in I. destruct I as (i & Q & _). exact (nth_error_In _ _ Q). }
    assert (SR : map snd (combine fs rs) = rs). { assert (Q : length fs = length rs) by lia. clear - Q. revert rs Q. induction fs as [|f fs IH]; intros [|r rs] Q; try discriminate Q; [reflexivity|]. cbn [combine map snd]. f_equal. apply IH. cbn in Q. lia. }
    rewrite SR. refine (train_greedy srt md [] (new_dtree md) k fs rs t0 HS (trained_new _ _) _ (uniform_incl k _ _ U IN) _ _ E2); [lia|lia|].
    cbn [map List.concat app]. apply Z.le_trans with (Z.of_nat (length (nodup Z.eq_dec responses))); [|exact K]. apply inj_le. apply NoDup_incl_length; [apply NoDup_nodup|].
    intros c I. apply nodup_In in I. apply nodup_In. rewrite <- SR in I. apply in_map_iff in I. destruct I as (s & <- & I). exact (in_combine_snd _ _ _ (IN s I)).
  - destruct (IH _ _ E3 j t J) as (l & M & G). exists l. split; [|exact G]. rewrite M. apply map_ext. intros i. f_equal. f_equal. lia.
Qed.

Lemma forest_greedy srt pick f features responses k f' : sorter_ok srt -> length responses = length features -> uniform_samples k (combine features responses) ->
  Z.of_nat (length features) <= 2 ^ 24 -> Z.of_nat (length (nodup Z.eq_dec responses)) <= 2 ^ 20 -> f_train srt pick f features responses = Ok f' ->
  exists ts, f_trees f' = f_trees f ++ ts /\ length ts = Z.to_nat (f_num_trees f) /\
  forall j t, nth_error ts j = Some t -> exists l, map Some l = map (fun i => nth_error (combine features responses) (pick (length features) (j * length features + i)))%nat (seq 0 (length features)) /\
    greedy (slack (length (nodup Z.eq_dec (map snd l)))) (f_max_depth f) l (t_root t).
Proof.
  intros HS L U N K H. unfold f_train in H. apply bind_inv in H. destruct H as (ts & E & H). injection H as <-. exists ts. split; [reflexivity|]. split; [exact (train_loop_length _ _ _ _ _ _ _ _ E)|].
  exact (trees_grown srt pick _ features responses k HS L U N K _ _ _ E).
Qed.
