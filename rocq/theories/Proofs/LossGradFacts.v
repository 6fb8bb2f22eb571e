(** The gradient of the softmax layer for actions of any value. *)
From Coq Require Import List Bool ZArith Lia.
From Verif Require Import Model.Base Model.NetM Model.LossGradM Spec.LossGradSpec Proofs.NetFacts.
Import ListNotations.

Lemma wr_at_in {B} (a : list B) k x : (0 <= k < Z.of_nat (List.length a))%Z -> exists a', wr_at a k x = Ok a' /\ List.length a' = List.length a /\
  forall q, nth_error a' q = if (Z.of_nat q =? k)%Z then Some x else nth_error a q.
Proof.
  intros K. unfold wr_at. destruct (k <? 0)%Z eqn:E1; [apply Z.ltb_lt in E1; lia|]. destruct (Z.of_nat (List.length a) <=? k)%Z eqn:E2; [apply Z.leb_le in E2; lia|]. cbn [orb].
  eexists. split; [reflexivity|]. assert (L : List.length (firstn (Z.to_nat k) a) = Z.to_nat k) by (rewrite firstn_length; lia). split.
  - rewrite app_length, L. cbn [List.length]. rewrite skipn_length. lia.
  - intros q. destruct (Z.eqb_spec (Z.of_nat q) k) as [Q|Q].
    + rewrite nth_error_app2 by lia. replace (q - _)%nat with O by lia. reflexivity.
    + destruct (Nat.lt_ge_cases q (Z.to_nat k)) as [H|H].
      * rewrite nth_error_app1 by lia. rewrite <- (firstn_skipn (Z.to_nat k) a) at 2. rewrite nth_error_app1 by lia. reflexivity.
      * rewrite nth_error_app2 by lia. rewrite L. replace (q - Z.to_nat k)%nat with (S (q - S (Z.to_nat k))) by lia. cbn [nth_error].
        rewrite <- (firstn_skipn (S (Z.to_nat k)) a) at 2. rewrite nth_error_app2; rewrite firstn_length; [|lia]. f_equal. lia.
Qed.

Lemma fold_out_app {B C} (f : C -> B -> outcome C) l : forall l' b, fold_out f (l ++ l') b = bind (fold_out f l b) (fold_out f l').
Proof. induction l as [|x l IH]; intros l' b; cbn; auto. destruct (f b x); cbn; auto. Qed.

Lemma same_entries {B} (l l' : list B) : (forall q, nth_error l q = nth_error l' q) -> l = l'.
Proof.
  revert l'. induction l as [|x l IH]; intros [|y l'] H; auto; try (specialize (H 0); discriminate).
  f_equal; [specialize (H 0); cbn in H; congruence|]. apply IH. intros q. exact (H (S q)).
Qed.

Section LossGrad.
Context {T : Type} (A : arith T).
Variables (action : list Z) (probs reward : list T) (batch m : nat).
Variables (a : nat -> Z) (p : nat -> nat -> T) (r : nat -> T).
Hypothesis Ha : forall i, i < batch -> nth_error action i = Some (a i).
Hypothesis Hp : forall i j, i < batch -> j < m -> nth_error probs (i * m + j) = Some (p i j).
Hypothesis Hr : forall i, i < batch -> nth_error reward i = Some (r i).
Variable cap : nat.
Hypothesis Hcap : batch * m <= cap.

Notation own := (own_part A r p batch).
Notation share := (share A r batch).
Notation target := (target a m).

Definition shows (g : list T) (G : nat -> T) : Prop := List.length g = cap /\ forall q, q < cap -> nth_error g q = Some (G q).

Definition own_row (i n : nat) (G : nat -> T) (q : nat) : T := if (i * m <=? q) && (q <? i * m + n) then own i (q - i * m) else G q.
Definition row_result (i : nat) (G : nat -> T) (q : nat) : T :=
  let x := own_row i m G q in if (Z.of_nat q =? target i)%Z then n_add A x (share i) else x.

Lemma row_fits i : i < batch -> i * m + m <= cap.
Proof. intros I. assert (S i * m <= batch * m) by (apply Nat.mul_le_mono_r; lia). lia. Qed.

Lemma row_loop i g G : i < batch -> shows g G -> forall n, n <= m -> exists g',
  fold_out (fun grad j => let* q := rd probs (at2 m i j) in wr_at grad (Z.of_nat (at2 m i j)) (n_div A (n_mul A (n_opp A (r i)) q) (n_nat A batch))) (seq 0 n) g = Ok g' /\ shows g' (own_row i n G).
Proof.
  intros I S0. pose proof (row_fits i I) as RF. induction n as [|n IH]; intros N.
  - exists g. split; auto. destruct S0 as [L S0]. split; auto. intros q Q. rewrite S0 by auto. unfold own_row. destruct (i * m <=? q) eqn:E1; auto. destruct (q <? i * m + 0) eqn:E2; auto.
    apply Nat.leb_le in E1. apply Nat.ltb_lt in E2. lia.
  - destruct IH as (g1 & E1 & L1 & S1); [lia|]. rewrite seq_S, fold_out_app, E1. cbn [bind fold_out Nat.add]. unfold at2, rd. rewrite Hp by lia. cbn [bind].
    destruct (wr_at_in g1 (Z.of_nat (i * m + n)) (n_div A (n_mul A (n_opp A (r i)) (p i n)) (n_nat A batch))) as (g2 & E2 & L2 & S2); [lia|]. rewrite E2. cbn [bind]. exists g2. split; auto. split; [congruence|].
    intros q Q. rewrite S2, S1 by auto. unfold own_row. destruct (Z.eqb_spec (Z.of_nat q) (Z.of_nat (i * m + n))) as [X|X].
    + assert (q = i * m + n) by lia. subst q. rewrite (proj2 (Nat.leb_le _ _)), (proj2 (Nat.ltb_lt _ _)) by lia. cbn [andb]. replace (i * m + n - i * m) with n by lia. reflexivity.
    + destruct (i * m <=? q) eqn:B1; auto. cbn [andb]. destruct (q <? i * m + n) eqn:B2, (q <? i * m + S n) eqn:B3; auto; repeat match goal with H : (_ <? _) = true |- _ => apply Nat.ltb_lt in H | H : (_ <? _) = false |- _ => apply Nat.ltb_ge in H | H : (_ <=? _) = true |- _ => apply Nat.leb_le in H end; lia.
Qed.

Lemma row_step i g G : i < batch -> shows g G -> (0 <= target i < Z.of_nat cap)%Z -> exists g', loss_row A action probs reward batch m g i = Ok g' /\ shows g' (row_result i G).
Proof.
  intros I S0 K. destruct (row_loop i g G I S0 m (le_n m)) as (g1 & E1 & L1 & S1). unfold loss_row. unfold rd at 1. rewrite Hr by auto. cbn [bind]. rewrite E1. cbn [bind]. unfold rd at 1. rewrite Ha by auto. cbn [bind].
  fold (target i). change (Z.of_nat (i * m) + a i)%Z with (target i). unfold rd_at. destruct (target i <? 0)%Z eqn:N; [apply Z.ltb_lt in N; lia|]. unfold rd. rewrite S1 by lia. cbn [bind].
  match goal with |- context [wr_at g1 ?k ?x] => destruct (wr_at_in g1 k x) as (g2 & E2 & L2 & S2); [unfold LossGradSpec.target in *; lia|]; rewrite E2 end. exists g2. split; auto. split; [congruence|].
  intros q Q. rewrite S2, S1 by auto. unfold row_result. destruct (Z.eqb_spec (Z.of_nat q) (target i)) as [X|X]; auto. replace (Z.to_nat (target i)) with q by lia. reflexivity.
Qed.

Lemma row_outside i g G : i < batch -> shows g G -> ~ (0 <= target i < Z.of_nat cap)%Z -> loss_row A action probs reward batch m g i = UB.
Proof.
  intros I S0 K. destruct (row_loop i g G I S0 m (le_n m)) as (g1 & E1 & L1 & S1). unfold loss_row. unfold rd at 1. rewrite Hr by auto. cbn [bind]. rewrite E1. cbn [bind]. unfold rd at 1. rewrite Ha by auto. cbn [bind].
  change (Z.of_nat (i * m) + a i)%Z with (target i). unfold rd_at. destruct (target i <? 0)%Z eqn:N; [reflexivity|]. apply Z.ltb_ge in N. unfold rd. rewrite (proj2 (nth_error_None _ _)) by lia. reflexivity.
Qed.

Lemma shows_some g : List.length g = cap -> exists G, shows g G.
Proof.
  intros L. destruct g as [|x g].
  - exists (fun _ => n_zero A). split; auto. cbn in L. intros q Q. lia.
  - exists (fun q => nth q (x :: g) x). split; auto. intros q Q. apply nth_error_nth'. lia.
Qed.

Theorem outside_is_undefined g i : List.length g = cap -> i < batch -> ~ (0 <= target i < Z.of_nat cap)%Z -> loss_array A action probs reward batch m g = UB.
Proof.
  intros L I K. unfold loss_array.
  assert (H : forall n s g, s + n = batch -> s <= i -> List.length g = cap -> fold_out (loss_row A action probs reward batch m) (seq s n) g = UB).
  { induction n as [|n IH]; intros s h Q Z LH; [lia|]. cbn [seq fold_out]. destruct (shows_some h LH) as (G & S0).
    destruct (Z_le_dec 0 (target s)) as [K1|K1], (Z_lt_dec (target s) (Z.of_nat cap)) as [K2|K2].
    1:{ destruct (row_step s h G ltac:(lia) S0 ltac:(lia)) as (h' & E & L' & _). rewrite E. cbn [bind]. apply IH; auto; [lia|].
        destruct (Nat.eq_dec s i) as [->|]; [lia|lia]. }
    all: rewrite (row_outside s h G ltac:(lia) S0 ltac:(lia)); reflexivity. }
  apply H; auto; lia.
Qed.

Fixpoint rows_result (n : nat) (G : nat -> T) : nat -> T := match n with O => G | S n => row_result n (rows_result n G) end.

Lemma rows_step g G : shows g G -> (forall i, i < batch -> (0 <= target i < Z.of_nat cap)%Z) -> forall n, n <= batch ->
  exists g', fold_out (loss_row A action probs reward batch m) (seq 0 n) g = Ok g' /\ shows g' (rows_result n G).
Proof.
  intros S0 K. induction n as [|n IH]; intros N; [exists g; auto|]. destruct IH as (g1 & E1 & S1); [lia|]. rewrite seq_S, fold_out_app, E1. cbn [bind fold_out Nat.add].
  destruct (row_step n g1 _ ltac:(lia) S1 (K n ltac:(lia))) as (g2 & E2 & S2). rewrite E2. exists g2. auto.
Qed.

Lemma rows_entry G i j : j < m -> forall n, i < n -> rows_result n G (i * m + j) =
  fold_left (fun x k => if (target k =? Z.of_nat (i * m + j))%Z then n_add A x (share k) else x) (seq i (n - i)) (own i j).
Proof.
  intros J. induction n as [|n IH]; intros N; [lia|]. cbn [rows_result]. unfold row_result at 1. rewrite (Z.eqb_sym (Z.of_nat (i * m + j)) (target n)). destruct (Nat.eq_dec n i) as [->|D].
  - replace (S i - i) with 1 by lia. cbn [seq fold_left]. unfold own_row. rewrite (proj2 (Nat.leb_le _ _)), (proj2 (Nat.ltb_lt _ _)) by lia. cbn [andb]. replace (i * m + j - i * m) with j by lia. reflexivity.
  - replace (S n - i) with (S (n - i)) by lia. rewrite seq_S, fold_left_app. cbn [fold_left]. replace (i + (n - i)) with n by lia. rewrite <- IH by lia.
    assert (O : own_row n m (rows_result n G) (i * m + j) = rows_result n G (i * m + j)).
    { unfold own_row. destruct (n * m <=? i * m + j) eqn:Q; auto. apply Nat.leb_le in Q. assert (S i * m <= n * m) by (apply Nat.mul_le_mono_r; lia). lia. }
    rewrite O. reflexivity.
Qed.

Theorem gradient_entries g : List.length g = cap -> (forall i, i < batch -> (0 <= target i < Z.of_nat cap)%Z) ->
  exists g', loss_array A action probs reward batch m g = Ok g' /\ List.length g' = cap /\
    forall i j, i < batch -> j < m -> nth_error g' (i * m + j) =
      Some (fold_left (fun x k => if (target k =? Z.of_nat (i * m + j))%Z then n_add A x (share k) else x) (seq i (batch - i)) (own i j)).
Proof.
  intros L K. destruct (shows_some g L) as (G & S0). destruct (rows_step g G S0 K batch (le_n _)) as (g' & E & L' & S'). exists g'. split; [exact E|]. split; auto. intros i j I J.
  rewrite S'; [f_equal; apply rows_entry; auto|]. pose proof (row_fits i I). lia.
Qed.

(** One sample whose action is not of its row. *)
Lemma aimed_row k i j : j < m -> (0 <= a k < Z.of_nat m)%Z -> (target k =? Z.of_nat (i * m + j))%Z = (Nat.eqb k i && (a k =? Z.of_nat j)%Z).
Proof.
  intros J K. unfold LossGradSpec.target. destruct (Nat.eqb_spec k i) as [->|D]; cbn [andb].
  - destruct (Z.eqb_spec (a i) (Z.of_nat j)), (Z.eqb_spec (Z.of_nat (i * m) + a i) (Z.of_nat (i * m + j))); auto; lia.
  - apply Z.eqb_neq. intros E. assert (k < i \/ i < k) as [Q|Q] by lia.
    + assert (S k * m <= i * m) by (apply Nat.mul_le_mono_r; lia). lia.
    + assert (S i * m <= k * m) by (apply Nat.mul_le_mono_r; lia). lia.
Qed.

Lemma fold_skip (f : nat -> bool) l : (forall k, In k l -> f k = false) -> forall x, fold_left (fun x k => if f k then n_add A x (share k) else x) l x = x.
Proof. induction l as [|k l IH]; intros H x; cbn; auto. rewrite (H k) by (now left). apply IH. intros; apply H; now right. Qed.

Lemma seq_split i k n : i <= k -> k < i + n -> seq i n = seq i (k - i) ++ k :: seq (S k) (i + n - S k).
Proof. intros I K. replace n with ((k - i) + S (i + n - S k)) at 1 by lia. rewrite seq_app. f_equal. cbn [seq]. replace (i + (k - i)) with k by lia. reflexivity. Qed.

(** All actions in their rows. *)
Theorem gradient_inside g : List.length g = cap -> (forall i, i < batch -> (0 <= a i < Z.of_nat m)%Z) ->
  exists g', loss_array A action probs reward batch m g = Ok g' /\ loss_grad A (map Z.to_nat action) probs reward batch m = Ok (firstn (batch * m) g').
Proof.
  intros L K. destruct (gradient_entries g L) as (g' & E & L' & S').
  { intros i I. specialize (K i I). pose proof (row_fits i I). unfold LossGradSpec.target. lia. }
  exists g'. split; [exact E|]. rewrite (loss_grad_ok A batch m (map Z.to_nat action) (fun i => Z.to_nat (a i)) probs p reward r).
  - f_equal. apply same_entries. intros q. destruct (Nat.lt_ge_cases q (batch * m)) as [Q|Q].
    + assert (M : m <> 0) by (intros ->; lia). pose proof (Nat.div_mod q m M) as DM. pose proof (Nat.mod_upper_bound q m M) as MU. set (i := q / m) in *. set (j := q mod m) in *.
      assert (I : i < batch) by (unfold i; apply Nat.div_lt_upper_bound; lia). replace q with (i * m + j) by lia.
      assert (N : nth_error (firstn (batch * m) g') (i * m + j) = nth_error g' (i * m + j)) by (rewrite <- (firstn_skipn (batch * m) g') at 2; rewrite nth_error_app1; auto; rewrite firstn_length; lia).
      rewrite N, S' by auto. etransitivity; [exact (arr2_tab2 batch m _ i j I MU)|]. f_equal. unfold loss_cell.
      replace (batch - i) with (S (batch - S i)) by lia. cbn [seq fold_left].
      rewrite (fold_skip (fun k => (target k =? Z.of_nat (i * m + j))%Z)); [|intros k H; apply in_seq in H; rewrite aimed_row by (auto; apply K; lia); destruct (Nat.eqb_spec k i); [lia|reflexivity]].
      rewrite aimed_row by auto. rewrite Nat.eqb_refl. cbn [andb].
      specialize (K i I). destruct (Z.eqb_spec (a i) (Z.of_nat j)), (Nat.eqb_spec j (Z.to_nat (a i))); auto; lia.
    + rewrite !(proj2 (nth_error_None _ _)); auto; [rewrite firstn_length; lia|]. unfold tab2, cells. rewrite map_length, prod_length, !seq_length. lia.
  - intros i I. rewrite nth_error_map, Ha by auto. reflexivity.
  - intros i I. specialize (K i I). lia.
  - intros i j I J. apply Hp; auto.
  - intros i I. apply Hr; auto.
Qed.

(** One action above its row. *)
Theorem gradient_above g s : List.length g = cap -> s < batch -> (Z.of_nat m <= a s)%Z -> (target s < Z.of_nat cap)%Z -> (forall i, i < batch -> i <> s -> (0 <= a i < Z.of_nat m)%Z) ->
  exists g', loss_array A action probs reward batch m g = Ok g' /\ forall i j, i < batch -> j < m ->
    nth_error g' (i * m + j) = Some (if Nat.eqb i s then own i j else if (a i =? Z.of_nat j)%Z then n_add A (own i j) (share i) else own i j).
Proof.
  intros L S0 AB TS K. destruct (gradient_entries g L) as (g' & E & L' & S').
  { intros i I. destruct (Nat.eq_dec i s) as [->|D]; [unfold LossGradSpec.target in *; lia|]. specialize (K i I D). pose proof (row_fits i I). unfold LossGradSpec.target. lia. }
  exists g'. split; [exact E|]. intros i j I J. rewrite S' by auto. f_equal. replace (batch - i) with (S (batch - S i)) by lia. cbn [seq fold_left].
  rewrite (fold_skip (fun k => (target k =? Z.of_nat (i * m + j))%Z)).
  - destruct (Nat.eqb_spec i s) as [->|D].
    + destruct (Z.eqb_spec (target s) (Z.of_nat (s * m + j))) as [X|X]; auto. unfold LossGradSpec.target in X. lia.
    + rewrite aimed_row by auto. rewrite Nat.eqb_refl. reflexivity.
  - intros k H. apply in_seq in H. destruct (Nat.eq_dec k s) as [->|D]; [|rewrite aimed_row by (auto; apply K; lia); destruct (Nat.eqb_spec k i); [lia|reflexivity]].
    apply Z.eqb_neq. unfold LossGradSpec.target. assert (S i * m <= s * m) by (apply Nat.mul_le_mono_r; lia). lia.
Qed.

(** One action below its row. *)
Theorem gradient_below g s : List.length g = cap -> s < batch -> (a s < 0)%Z -> (0 <= target s)%Z -> (forall i, i < batch -> i <> s -> (0 <= a i < Z.of_nat m)%Z) ->
  exists g', loss_array A action probs reward batch m g = Ok g' /\ forall i j, i < batch -> j < m ->
    nth_error g' (i * m + j) = Some (let x := if Nat.eqb i s then own i j else if (a i =? Z.of_nat j)%Z then n_add A (own i j) (share i) else own i j in
      if (target s =? Z.of_nat (i * m + j))%Z then n_add A x (share s) else x).
Proof.
  intros L S0 AB TS K. destruct (gradient_entries g L) as (g' & E & L' & S').
  { intros i I. destruct (Nat.eq_dec i s) as [->|D]; [pose proof (row_fits s I); unfold LossGradSpec.target in *; lia|]. specialize (K i I D). pose proof (row_fits i I). unfold LossGradSpec.target. lia. }
  exists g'. split; [exact E|]. intros i j I J. rewrite S' by auto. f_equal. cbn zeta.
  assert (OT : forall k, i < k -> k < batch -> k <> s -> (target k =? Z.of_nat (i * m + j))%Z = false).
  { intros k K1 K2 K3. rewrite aimed_row by (auto; apply K; lia). destruct (Nat.eqb_spec k i); [lia|reflexivity]. }
  destruct (Nat.lt_ge_cases i s) as [C|C].
  - replace (batch - i) with (S (batch - S i)) by lia. cbn [seq fold_left]. rewrite aimed_row by (auto; apply K; lia). rewrite Nat.eqb_refl. cbn [andb].
    destruct (Nat.eqb_spec i s) as [X|X]; [lia|]. rewrite (seq_split (S i) s) by lia. rewrite fold_left_app.
    rewrite (fold_skip (fun k => (target k =? Z.of_nat (i * m + j))%Z) (seq (S i) (s - S i))); [|intros k H; apply in_seq in H; apply OT; lia]. cbn [fold_left].
    rewrite (fold_skip (fun k => (target k =? Z.of_nat (i * m + j))%Z)); [|intros k H; apply in_seq in H; apply OT; lia]. reflexivity.
  - assert (N : (target s =? Z.of_nat (i * m + j))%Z = false).
    { apply Z.eqb_neq. unfold LossGradSpec.target. assert (s * m <= i * m) by (apply Nat.mul_le_mono_r; lia). lia. }
    rewrite N. replace (batch - i) with (S (batch - S i)) by lia. cbn [seq fold_left].
    rewrite (fold_skip (fun k => (target k =? Z.of_nat (i * m + j))%Z)); [|intros k H; apply in_seq in H; apply OT; lia].
    destruct (Nat.eqb_spec i s) as [->|X]; [now rewrite N|]. rewrite aimed_row by (auto; apply K; lia). rewrite Nat.eqb_refl. reflexivity.
Qed.
End LossGrad.
