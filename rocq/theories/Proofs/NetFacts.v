(** The network functions as plain functions of indices, for arrays of the right sizes, over any arithmetic. *)
From Coq Require Import List Bool Lia.
From Verif Require Import Model.Base Model.NetM.
Import ListNotations.

(** Arrays as functions of their indices. *)
Definition arr1 {X} (n : nat) (a : list X) (f : nat -> X) : Prop :=
  forall i, i < n -> nth_error a i = Some (f i).
Definition arr2 {X} (r c : nat) (a : list X) (f : nat -> nat -> X) : Prop :=
  forall i j, i < r -> j < c -> nth_error a (at2 c i j) = Some (f i j).
Definition tab1 {X} (n : nat) (f : nat -> X) : list X := map f (seq 0 n).
Definition tab2 {X} (r c : nat) (f : nat -> nat -> X) : list X := map (fun p => f (fst p) (snd p)) (cells r c).

Lemma rd_arr1 {X} n (a : list X) f i : arr1 n a f -> i < n -> rd a i = Ok (f i).
Proof. intros H L; unfold rd; now rewrite (H i L). Qed.
Lemma rd_arr2 {X} r c (a : list X) f i j : arr2 r c a f -> i < r -> j < c -> rd a (at2 c i j) = Ok (f i j).
Proof. intros H L M; unfold rd; now rewrite (H i j L M). Qed.

Lemma map_out_map {X Y} (f : X -> outcome Y) g l :
  (forall x, In x l -> f x = Ok (g x)) -> map_out f l = Ok (map g l).
Proof.
  induction l as [|x l IH]; intros H; [reflexivity|].
  cbn [map_out map]; rewrite (H x) by (left; reflexivity); cbn [bind].
  rewrite IH by (intros y I; apply H; right; exact I). reflexivity.
Qed.

Lemma fold_out_fold {X Y} (f : Y -> X -> outcome Y) g l b :
  (forall y x, In x l -> f y x = Ok (g y x)) -> fold_out f l b = Ok (fold_left g l b).
Proof.
  revert b; induction l as [|x l IH]; intros b H; [reflexivity|].
  cbn [fold_out fold_left]; rewrite (H b x) by (left; reflexivity); cbn [bind].
  apply IH; intros y z I; apply H; right; exact I.
Qed.

Lemma in_seq0 i n : In i (seq 0 n) -> i < n.
Proof. intros I; apply in_seq in I; lia. Qed.

Lemma in_cells i j r c : In (i, j) (cells r c) -> i < r /\ j < c.
Proof. intros I; apply in_prod_iff in I as [I J]; split; now apply in_seq0. Qed.

Lemma map_out_cells {Y} r c (f : nat * nat -> outcome Y) g :
  (forall i j, i < r -> j < c -> f (i, j) = Ok (g i j)) -> map_out f (cells r c) = Ok (tab2 r c g).
Proof.
  intros H; unfold tab2; apply map_out_map; intros [i j] I; apply in_cells in I as [I J]; cbn [fst snd]; auto.
Qed.

Lemma map_out_seq {Y} n (f : nat -> outcome Y) g :
  (forall i, i < n -> f i = Ok (g i)) -> map_out f (seq 0 n) = Ok (tab1 n g).
Proof. intros H; unfold tab1; apply map_out_map; intros i I; apply H, in_seq0, I. Qed.

Lemma fold_out_seq {Y} n (f : Y -> nat -> outcome Y) g b :
  (forall y i, i < n -> f y i = Ok (g y i)) -> fold_out f (seq 0 n) b = Ok (fold_left g (seq 0 n) b).
Proof. intros H; apply fold_out_fold; intros y i I; apply H, in_seq0, I. Qed.

Lemma map_add_seq q b n : map (fun k => q + k) (seq b n) = seq (q + b) n.
Proof.
  revert b; induction n as [|n IH]; intros b; [reflexivity|]. cbn [seq map]. rewrite IH.
  replace (q + S b) with (S (q + b)) by lia. reflexivity.
Qed.

Lemma seq_cells_at r c a :
  map (fun p => at2 c (fst p) (snd p)) (list_prod (seq a r) (seq 0 c)) = seq (a * c) (r * c).
Proof.
  revert a; induction r as [|r IH]; intros a; [reflexivity|].
  cbn [seq list_prod]; rewrite map_app, IH, map_map; cbn [fst snd].
  replace (S r * c) with (c + r * c) by lia. rewrite seq_app. f_equal.
  - unfold at2. rewrite map_add_seq. f_equal. lia.
  - f_equal. lia.
Qed.

Lemma seq_cells r c : map (fun p => at2 c (fst p) (snd p)) (cells r c) = seq 0 (r * c).
Proof. unfold cells; rewrite seq_cells_at; reflexivity. Qed.

Lemma cells_length r c : length (cells r c) = r * c.
Proof. unfold cells; rewrite prod_length, !seq_length; reflexivity. Qed.

Lemma cells_nth r c i j : i < r -> j < c -> nth_error (cells r c) (at2 c i j) = Some (i, j).
Proof.
  intros I J. assert (B : at2 c i j < r * c) by (unfold at2; nia).
  destruct (nth_error (cells r c) (at2 c i j)) as [[i' j']|] eqn:E;
    [|apply nth_error_None in E; rewrite cells_length in E; lia].
  pose proof (nth_error_In _ _ E) as I'. apply in_cells in I' as [I' J'].
  pose proof (f_equal (fun l => nth_error l (at2 c i j)) (seq_cells r c)) as Q. cbn beta in Q.
  rewrite nth_error_map, E in Q. cbn [option_map fst snd] in Q.
  rewrite (nth_error_nth' _ 0) in Q by (rewrite seq_length; exact B). rewrite seq_nth in Q by exact B.
  injection Q as Q. unfold at2 in Q.
  destruct (PeanoNat.Nat.div_mod_unique c i' i j' j J' J) as [-> ->]; [lia|reflexivity].
Qed.

Lemma tab2_length {X} r c (f : nat -> nat -> X) : length (tab2 r c f) = r * c.
Proof. unfold tab2; rewrite map_length; apply cells_length. Qed.
Lemma tab1_length {X} n (f : nat -> X) : length (tab1 n f) = n.
Proof. unfold tab1; rewrite map_length; apply seq_length. Qed.

Lemma arr2_tab2 {X} r c (f : nat -> nat -> X) : arr2 r c (tab2 r c f) f.
Proof. intros i j I J; unfold tab2; rewrite nth_error_map, cells_nth by assumption; reflexivity. Qed.
Lemma arr1_tab1 {X} n (f : nat -> X) : arr1 n (tab1 n f) f.
Proof.
  intros i I; unfold tab1; rewrite nth_error_map, (nth_error_nth' _ 0) by (rewrite seq_length; exact I).
  rewrite seq_nth by exact I; reflexivity.
Qed.

Lemma arr1_list {X} (d : X) a : arr1 (length a) a (fun i => nth i a d).
Proof. intros i I; now apply nth_error_nth'. Qed.
Lemma arr2_list {X} (d : X) r c a : length a = r * c -> arr2 r c a (fun i j => nth (at2 c i j) a d).
Proof. intros L i j I J; apply nth_error_nth'; unfold at2; nia. Qed.

Lemma arr2_ext {X} r c (a : list X) f g : (forall i j, i < r -> j < c -> f i j = g i j) -> arr2 r c a f -> arr2 r c a g.
Proof. intros E H i j I J; rewrite <- E by assumption; now apply H. Qed.

Lemma tab2_ext {X} r c (f g : nat -> nat -> X) : (forall i j, i < r -> j < c -> f i j = g i j) -> tab2 r c f = tab2 r c g.
Proof.
  intros E; unfold tab2; apply map_ext_in; intros [i j] I; apply in_cells in I as [I J]; cbn [fst snd]; auto.
Qed.
Lemma tab1_ext {X} n (f g : nat -> X) : (forall i, i < n -> f i = g i) -> tab1 n f = tab1 n g.
Proof. intros E; unfold tab1; apply map_ext_in; intros i I; apply E, in_seq0, I. Qed.

Lemma map_out_flat {Y} r c (f : nat -> outcome Y) g :
  (forall i j, i < r -> j < c -> f (at2 c i j) = Ok (g i j)) -> map_out f (seq 0 (r * c)) = Ok (tab2 r c g).
Proof.
  intros H. rewrite <- seq_cells. unfold tab2.
  assert (G : forall l, (forall i j, In (i, j) l -> i < r /\ j < c) ->
            map_out f (map (fun p => at2 c (fst p) (snd p)) l) = Ok (map (fun p => g (fst p) (snd p)) l)).
  { induction l as [|[i j] l IH]; intros L; [reflexivity|]. cbn [map map_out fst snd].
    destruct (L i j (or_introl eq_refl)) as [I J]. rewrite (H i j I J); cbn [bind].
    rewrite IH by (intros; apply L; right; assumption). reflexivity. }
  apply G; intros i j I; now apply in_cells.
Qed.

Lemma concat_rows {X} r c (f : nat -> nat -> X) : List.concat (map (fun i => tab1 c (f i)) (seq 0 r)) = tab2 r c f.
Proof.
  unfold tab2, cells. generalize (seq 0 r) as l. induction l as [|a l IH]; [reflexivity|].
  cbn [map List.concat list_prod]. rewrite IH, map_app, map_map. reflexivity.
Qed.

Section Generic.
Context {T : Type} (A : arith T).
Local Notation "x + y" := (n_add A x y).
Local Notation "x - y" := (n_sub A x y).
Local Notation "x * y" := (n_mul A x y).
Local Notation "x / y" := (n_div A x y).

(** Sums in loop order. *)
Definition total (n : nat) (f : nat -> T) : T := fold_left (fun acc k => acc + f k) (seq 0 n) (n_zero A).

Lemma total_ok n (g : T -> nat -> outcome T) f :
  (forall acc k, k < n -> g acc k = Ok (acc + f k)) -> fold_out g (seq 0 n) (n_zero A) = Ok (total n f).
Proof. intros H; unfold total; now apply fold_out_seq. Qed.

(** A layer whose arrays have the sizes it was built with. *)
Record layer_ok (L : layer T) (n m : nat) (W : nat -> nat -> T) (b : nat -> T) : Prop := {
  lo_in : l_in L = n;
  lo_out : l_out L = m;
  lo_w : arr2 m n (l_w L) W;
  lo_b : arr1 m (l_b L) b
}.

Lemma fc_forward_ok L n m W b inputs x batch : layer_ok L n m W b -> arr2 batch n inputs x ->
  fc_forward A L inputs batch = Ok (tab2 batch m (fun i j => total n (fun k => W j k * x i k) + b j)).
Proof.
  intros [I O HW Hb] X. unfold fc_forward. rewrite O. apply map_out_cells; intros i j Hi Hj.
  cbn [fst snd]. unfold fc_cell. rewrite I.
  rewrite (total_ok n _ (fun k => W j k * x i k)).
  2:{ intros acc k Hk. rewrite (rd_arr2 _ _ _ _ _ _ HW Hj Hk), (rd_arr2 _ _ _ _ _ _ X Hi Hk). reflexivity. }
  cbn [bind]. rewrite (rd_arr1 _ _ _ _ Hb Hj). reflexivity.
Qed.

Lemma fc_backward_ok L n m W b inputs x chain c batch : layer_ok L n m W b -> arr2 batch n inputs x -> arr2 batch m chain c ->
  fc_backward A L inputs chain batch =
  Ok (mkGrads (tab2 m n (fun j k => total batch (fun i => c i j * x i k))) (tab1 m (fun j => total batch (fun i => c i j))),
      tab2 batch n (fun i k => total m (fun j => c i j * W j k))).
Proof.
  intros [I O HW Hb] X C. unfold fc_backward. rewrite I, O.
  rewrite (map_out_cells m n _ (fun j k => total batch (fun i => c i j * x i k))).
  2:{ intros j k Hj Hk; cbn [fst snd]. apply total_ok; intros acc i Hi.
      rewrite (rd_arr2 _ _ _ _ _ _ C Hi Hj), (rd_arr2 _ _ _ _ _ _ X Hi Hk). reflexivity. }
  cbn [bind]. rewrite (map_out_seq m _ (fun j => total batch (fun i => c i j))).
  2:{ intros j Hj. apply total_ok; intros acc i Hi. rewrite (rd_arr2 _ _ _ _ _ _ C Hi Hj). reflexivity. }
  cbn [bind]. rewrite (map_out_cells batch n _ (fun i k => total m (fun j => c i j * W j k))).
  2:{ intros i k Hi Hk; cbn [fst snd]. apply total_ok; intros acc j Hj.
      rewrite (rd_arr2 _ _ _ _ _ _ C Hi Hj), (rd_arr2 _ _ _ _ _ _ HW Hj Hk). reflexivity. }
  reflexivity.
Qed.

Lemma relu_forward_ok batch h inputs x : arr2 batch h inputs x ->
  relu_forward A inputs (Nat.mul batch h) = Ok (tab2 batch h (fun i j => NetM.max A (x i j) (n_zero A))).
Proof.
  intros X. unfold relu_forward. apply map_out_flat; intros i j I J. rewrite (rd_arr2 _ _ _ _ _ _ X I J). reflexivity.
Qed.

(** The factor of ReLU::backward. *)
Definition gate (x : T) : T := if n_signbit A (n_opp A x) then n_one A else n_zero A.

Lemma relu_backward_ok batch h inputs x chain c : arr2 batch h inputs x -> arr2 batch h chain c ->
  relu_backward A inputs chain (Nat.mul batch h) = Ok (tab2 batch h (fun i j => c i j * gate (x i j))).
Proof.
  intros X C. unfold relu_backward. apply map_out_flat; intros i j I J.
  rewrite (rd_arr2 _ _ _ _ _ _ C I J), (rd_arr2 _ _ _ _ _ _ X I J). reflexivity.
Qed.

(** The row maximum and the softmax of a row. *)
Definition top (m : nat) (z : nat -> T) : T := fold_left (fun a j => NetM.max A a (z j)) (seq 0 m) (z 0).
Definition soft (m : nat) (z : nat -> T) (j : nat) : T :=
  n_exp A (z j - top m z) / total m (fun k => n_exp A (z k - top m z)).

Lemma fold_left_tab1 n (f : nat -> T) :
  fold_left (fun s e => s + e) (tab1 n f) (n_zero A) = total n f.
Proof.
  unfold total, tab1. generalize (n_zero A) as a. induction (seq 0 n) as [|k l IH]; intros a; [reflexivity|].
  cbn [map fold_left]. apply IH.
Qed.

Lemma softmax_row_ok batch m inputs z i : 0 < m -> arr2 batch m inputs z -> i < batch ->
  softmax_row A inputs m i = Ok (tab1 m (soft m (z i))).
Proof.
  intros M Z I. unfold softmax_row, row_max. rewrite (rd_arr2 _ _ _ _ _ _ Z I M). cbn [bind].
  rewrite (fold_out_seq m _ (fun a j => NetM.max A a (z i j))).
  2:{ intros a j J. rewrite (rd_arr2 _ _ _ _ _ _ Z I J). reflexivity. }
  cbn [bind]. fold (top m (z i)).
  rewrite (map_out_seq m _ (fun j => n_exp A (z i j - top m (z i)))).
  2:{ intros j J. rewrite (rd_arr2 _ _ _ _ _ _ Z I J). reflexivity. }
  cbn [bind]. rewrite fold_left_tab1. f_equal. unfold tab1. rewrite map_map. reflexivity.
Qed.

Lemma softmax_forward_ok batch m inputs z : 0 < m -> arr2 batch m inputs z ->
  softmax_forward A inputs batch m = Ok (tab2 batch m (fun i => soft m (z i))).
Proof.
  intros M Z. unfold softmax_forward. rewrite (map_out_seq batch _ (fun i => tab1 m (soft m (z i)))).
  2:{ intros i I. eapply softmax_row_ok; eassumption. }
  cbn [bind]. unfold tab1 at 1. rewrite concat_rows. reflexivity.
Qed.

Definition loss_cell (r p : T) (batch : nat) (here : bool) : T :=
  let g := (n_opp A r * p) / n_nat A batch in if here then g + r / n_nat A batch else g.

Lemma loss_grad_ok batch m action a probs p reward r :
  arr1 batch action a -> (forall i, i < batch -> a i < m) -> arr2 batch m probs p -> arr1 batch reward r ->
  loss_grad A action probs reward batch m = Ok (tab2 batch m (fun i j => loss_cell (r i) (p i j) batch (Nat.eqb j (a i)))).
Proof.
  intros Ha La P R. unfold loss_grad.
  rewrite (map_out_seq batch _ (fun i => tab1 m (fun j => loss_cell (r i) (p i j) batch (Nat.eqb j (a i))))).
  2:{ intros i I. rewrite (rd_arr1 _ _ _ _ R I), (rd_arr1 _ _ _ _ Ha I). cbn [bind].
      rewrite (proj2 (PeanoNat.Nat.ltb_lt _ _) (La i I)). cbn [negb].
      apply map_out_seq; intros j J. rewrite (rd_arr2 _ _ _ _ _ _ P I J). reflexivity. }
  cbn [bind]. unfold tab1 at 1. rewrite concat_rows. reflexivity.
Qed.

(** The passes of the whole network. *)
Definition lin (n : nat) (W : nat -> nat -> T) (b : nat -> T) (x : nat -> T) (j : nat) : T :=
  total n (fun k => W j k * x k) + b j.
Definition rect (x : nat -> T) (j : nat) : T := NetM.max A (x j) (n_zero A).

Section Passes.
Variables (N : net T) (n h m : nat) (W1 W2 W3 : nat -> nat -> T) (b1 b2 b3 : nat -> T).
Hypothesis L1 : layer_ok (layer1 N) n h W1 b1.
Hypothesis L2 : layer_ok (layer2 N) h h W2 b2.
Hypothesis L3 : layer_ok (layer3 N) h m W3 b3.
Hypothesis Hm : 0 < m.
Variables (batch : nat) (state : list T) (x : nat -> nat -> T).
Hypothesis X : arr2 batch n state x.

Definition z1 i := lin n W1 b1 (x i).
Definition z2 i := lin h W2 b2 (rect (z1 i)).
Definition z3 i := lin h W3 b3 (rect (z2 i)).

Lemma forward_pass_ok : forward_pass A N state batch =
  Ok (mkPass (tab2 batch h z1) (tab2 batch h (fun i => rect (z1 i))) (tab2 batch h z2) (tab2 batch h (fun i => rect (z2 i)))
        (tab2 batch m z3) (tab2 batch m (fun i => soft m (z3 i)))).
Proof.
  unfold forward_pass. rewrite (lo_out _ _ _ _ _ L1), (lo_out _ _ _ _ _ L3).
  rewrite (fc_forward_ok _ _ _ _ _ _ _ _ L1 X). cbn [bind].
  rewrite (relu_forward_ok _ _ _ _ (arr2_tab2 _ _ _)). cbn [bind].
  rewrite (fc_forward_ok _ _ _ _ _ _ _ _ L2 (arr2_tab2 _ _ _)). cbn [bind].
  rewrite (relu_forward_ok _ _ _ _ (arr2_tab2 _ _ _)). cbn [bind].
  rewrite (fc_forward_ok _ _ _ _ _ _ _ _ L3 (arr2_tab2 _ _ _)). cbn [bind].
  rewrite (softmax_forward_ok _ _ _ _ Hm (arr2_tab2 _ _ _)). reflexivity.
Qed.

Lemma net_forward_ok : net_forward A N state batch = Ok (tab2 batch m (fun i => soft m (z3 i))).
Proof. unfold net_forward; rewrite forward_pass_ok; reflexivity. Qed.

Variables (action : list nat) (a : nat -> nat) (reward : list T) (r : nat -> T).
Hypothesis Ha : arr1 batch action a.
Hypothesis La : forall i, i < batch -> a i < m.
Hypothesis R : arr1 batch reward r.

Definition c3 i j := loss_cell (r i) (soft m (z3 i) j) batch (Nat.eqb j (a i)).
Definition c2 i j := total m (fun q => c3 i q * W3 q j) * gate (z2 i j).
Definition c1 i j := total h (fun q => c2 i q * W2 q j) * gate (z1 i j).

Lemma net_gradients_ok : net_gradients A N state action reward batch =
  Ok (mkGrads (tab2 h n (fun j k => total batch (fun i => c1 i j * x i k))) (tab1 h (fun j => total batch (fun i => c1 i j))),
      mkGrads (tab2 h h (fun j k => total batch (fun i => c2 i j * rect (z1 i) k))) (tab1 h (fun j => total batch (fun i => c2 i j))),
      mkGrads (tab2 m h (fun j k => total batch (fun i => c3 i j * rect (z2 i) k))) (tab1 m (fun j => total batch (fun i => c3 i j)))).
Proof.
  unfold net_gradients. rewrite (lo_out _ _ _ _ _ L1), (lo_out _ _ _ _ _ L3).
  rewrite forward_pass_ok. cbn [bind out1 aout1 out2 aout2 out3 aout3].
  rewrite (loss_grad_ok _ _ _ _ _ _ _ _ Ha La (arr2_tab2 _ _ _) R). cbn [bind].
  change (fun i j => loss_cell (r i) (soft m (z3 i) j) batch (Nat.eqb j (a i))) with c3.
  rewrite (fc_backward_ok _ _ _ _ _ _ _ _ _ _ L3 (arr2_tab2 _ _ _) (arr2_tab2 _ _ _)). cbn [bind].
  rewrite (relu_backward_ok _ _ _ _ _ _ (arr2_tab2 _ _ _) (arr2_tab2 _ _ _)). cbn [bind].
  change (fun i j => total m (fun q => c3 i q * W3 q j) * gate (z2 i j)) with c2.
  rewrite (fc_backward_ok _ _ _ _ _ _ _ _ _ _ L2 (arr2_tab2 _ _ _) (arr2_tab2 _ _ _)). cbn [bind].
  rewrite (relu_backward_ok _ _ _ _ _ _ (arr2_tab2 _ _ _) (arr2_tab2 _ _ _)). cbn [bind].
  change (fun i j => total h (fun q => c2 i q * W2 q j) * gate (z1 i j)) with c1.
  rewrite (fc_backward_ok _ _ _ _ _ _ _ _ _ _ L1 X (arr2_tab2 _ _ _)). reflexivity.
Qed.
End Passes.
End Generic.
