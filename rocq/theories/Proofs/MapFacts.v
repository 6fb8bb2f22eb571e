(** Facts about the ordered-list model of std::map, for any comparator that is a strict weak
    order on the keys satisfying a predicate. *)
From Coq Require Import List ZArith Bool Sorted Permutation.
From Verif Require Import Model.DatasetM.
Import ListNotations.

Section Map.
Context {K V : Type} (lt : K -> K -> bool) (P : K -> Prop).
Definition eqv (a b : K) : bool := (negb (lt a b) && negb (lt b a))%bool.
Hypothesis lt_irrefl : forall a, P a -> lt a a = false.
Hypothesis lt_trans : forall a b c, P a -> P b -> P c -> lt a b = true -> lt b c = true -> lt a c = true.
Hypothesis eqv_trans : forall a b c, P a -> P b -> P c -> eqv a b = true -> eqv b c = true -> eqv a c = true.

Implicit Types (m : list (K * V)) (v w : V).

Definition wfmap (m : list (K * V)) : Prop :=
  Forall (fun e => P (fst e)) m /\ StronglySorted (fun a b => lt (fst a) (fst b) = true) m.

Lemma eqv_sym a b : eqv a b = eqv b a.
Proof. unfold eqv. apply andb_comm. Qed.
Lemma eqv_refl a : P a -> eqv a a = true.
Proof. intros H. unfold eqv. now rewrite lt_irrefl. Qed.
Lemma lt_asym a b : P a -> P b -> lt a b = true -> lt b a = false.
Proof.
  intros Pa Pb H. destruct (lt b a) eqn:E; auto.
  rewrite <- (lt_irrefl a Pa). symmetry. eapply lt_trans with b; auto.
Qed.
Lemma lt_not_eqv a b : lt a b = true -> eqv a b = false.
Proof. intros H. unfold eqv. now rewrite H. Qed.
Lemma gt_not_eqv a b : lt b a = true -> eqv a b = false.
Proof. intros H. unfold eqv. rewrite H. now rewrite andb_false_r. Qed.
Lemma eqv_cases a b : eqv a b = true \/ lt a b = true \/ lt b a = true.
Proof. unfold eqv. destruct (lt a b), (lt b a); auto. Qed.

Lemma eqv_lt_l a b c : P a -> P b -> P c -> eqv a b = true -> lt b c = true -> lt a c = true.
Proof.
  intros Pa Pb Pc E L.
  destruct (eqv_cases a c) as [H|[H|H]]; auto.
  - rewrite eqv_sym in E. assert (X := eqv_trans b a c Pb Pa Pc E H).
    rewrite lt_not_eqv in X; [discriminate|auto].
  - assert (X := lt_trans b c a Pb Pc Pa L H). rewrite gt_not_eqv in E; [discriminate|auto].
Qed.
Lemma eqv_lt_r a b c : P a -> P b -> P c -> lt a b = true -> eqv b c = true -> lt a c = true.
Proof.
  intros Pa Pb Pc L E.
  destruct (eqv_cases a c) as [H|[H|H]]; auto.
  - rewrite eqv_sym in E. assert (X := eqv_trans a c b Pa Pc Pb H E).
    rewrite lt_not_eqv in X; [discriminate|auto].
  - assert (X := lt_trans c a b Pc Pa Pb H L). rewrite gt_not_eqv in E; [discriminate|auto].
Qed.

Lemma wf_nil : wfmap [].
Proof. split; constructor. Qed.
Lemma wf_cons_inv e m : wfmap (e :: m) ->
  P (fst e) /\ wfmap m /\ Forall (fun b => lt (fst e) (fst b) = true) m.
Proof. intros [A B]. inversion A; inversion B; subst. repeat split; auto. Qed.
Lemma wf_cons e m : P (fst e) -> wfmap m -> Forall (fun b => lt (fst e) (fst b) = true) m -> wfmap (e :: m).
Proof. intros A [B C] D. split; constructor; auto. Qed.

Lemma find_lt k m : P k -> wfmap m -> Forall (fun b => lt k (fst b) = true) m -> map_find lt k m = None.
Proof.
  intros Pk W F. induction m as [|[k' v] m IH]; cbn; auto.
  inversion F; subst. cbn in *. rewrite H1. cbn. apply IH; auto.
  now apply wf_cons_inv in W as (_ & W & _).
Qed.

Lemma find_In k m v : map_find lt k m = Some v -> exists k', In (k', v) m /\ eqv k k' = true.
Proof.
  induction m as [|[k' w] m IH]; cbn; [discriminate|].
  destruct (_ && _)%bool eqn:E; intros H.
  - inversion H; subst. exists k'. split; [left|]; auto.
  - destruct (IH H) as (x & A & B). exists x. split; auto.
Qed.
Lemma find_None k m : map_find lt k m = None <-> Forall (fun e => eqv k (fst e) = false) m.
Proof.
  induction m as [|[k' w] m IH]; cbn; [split; auto|].
  change (negb (lt k k') && negb (lt k' k))%bool with (eqv k k').
  destruct (eqv k k') eqn:E; split; intros H.
  - discriminate.
  - inversion H; subst; cbn in *. congruence.
  - constructor; [auto|apply IH, H].
  - inversion H; subst. apply IH; auto.
Qed.
Lemma In_find k v m : wfmap m -> In (k, v) m -> map_find lt k m = Some v.
Proof.
  induction m as [|[k' w] m IH]; cbn; [easy|]. intros W [E|I].
  - inversion E; subst. apply wf_cons_inv in W as (Pk & _ & _). cbn in Pk.
    now rewrite lt_irrefl.
  - apply wf_cons_inv in W as (Pk & W & F). cbn in *.
    rewrite Forall_forall in F. specialize (F _ I). cbn in F.
    rewrite F. rewrite andb_false_r. now apply IH.
Qed.

Lemma find_eqv k k' m : P k -> P k' -> wfmap m -> eqv k k' = true -> map_find lt k m = map_find lt k' m.
Proof.
  intros Pk Pk' W E. induction m as [|[k2 w] m IH]; cbn; auto.
  apply wf_cons_inv in W as (P2 & W & _). cbn in P2.
  change (negb (lt k k2) && negb (lt k2 k))%bool with (eqv k k2).
  change (negb (lt k' k2) && negb (lt k2 k'))%bool with (eqv k' k2).
  destruct (eqv k k2) eqn:A, (eqv k' k2) eqn:B; auto.
  - rewrite eqv_sym in E. rewrite (eqv_trans k' k k2) in B; auto; discriminate.
  - rewrite (eqv_trans k k' k2) in A; auto; discriminate.
Qed.

Lemma Forall_add (Q : K * V -> Prop) k v m : Q (k, v) -> Forall Q m -> Forall Q (map_add lt k v m).
Proof.
  intros A B. induction m as [|[k' w] m IH]; cbn; auto.
  destruct (lt k k'); auto. inversion B; subst. auto.
Qed.
Lemma Forall_update (Q : K * V -> Prop) k v m :
  (forall k' w, In (k', w) m -> eqv k k' = true -> Q (k', v)) -> Forall Q m -> Forall Q (map_update lt k v m).
Proof.
  intros A B. induction m as [|[k' w] m IH]; cbn; auto.
  inversion B; subst.
  destruct (_ && _)%bool eqn:E.
  - constructor; auto. apply (A k' w); [left|]; auto.
  - constructor; auto. apply IH; auto. intros k2 w2 I. apply A with w2. now right.
Qed.

Lemma wf_add k v m : P k -> wfmap m -> map_find lt k m = None -> wfmap (map_add lt k v m).
Proof.
  intros Pk W N. induction m as [|[k' w] m IH]; cbn.
  - apply wf_cons; auto using wf_nil.
  - cbn in N. change (negb (lt k k') && negb (lt k' k))%bool with (eqv k k') in N.
    destruct (eqv k k') eqn:E; [discriminate|].
    destruct (wf_cons_inv _ _ W) as (P' & W' & F). cbn in *.
    destruct (lt k k') eqn:L.
    + apply wf_cons; auto. cbn. constructor; auto.
      destruct W' as [PA _]. rewrite Forall_forall in *. intros e I. eapply lt_trans with k'; auto.
    + apply wf_cons; auto. cbn.
      apply Forall_add; auto. cbn. destruct (eqv_cases k k') as [X|[X|X]]; congruence.
Qed.

Lemma wf_update k v m : wfmap m -> wfmap (map_update lt k v m).
Proof.
  intros W. induction m as [|[k' w] m IH]; cbn; auto.
  destruct (wf_cons_inv _ _ W) as (P' & W' & F). cbn in *.
  destruct (_ && _)%bool eqn:E.
  - apply wf_cons; auto.
  - apply wf_cons; auto. cbn. apply Forall_update; auto.
    intros k2 w2 I _. rewrite Forall_forall in F. now apply (F _ I).
Qed.

Lemma find_add_same k k0 v m : P k -> P k0 -> wfmap m -> map_find lt k m = None ->
  eqv k0 k = true -> map_find lt k0 (map_add lt k v m) = Some v.
Proof.
  intros Pk Pk0 W N E. rewrite (find_eqv k0 k); auto using wf_add.
  clear E. induction m as [|[k' w] m IH]; cbn.
  - now rewrite lt_irrefl.
  - cbn in N. change (negb (lt k k') && negb (lt k' k))%bool with (eqv k k') in N.
    destruct (eqv k k') eqn:E; [discriminate|].
    destruct (wf_cons_inv _ _ W) as (P' & W' & F).
    destruct (lt k k') eqn:L; cbn.
    + now rewrite lt_irrefl.
    + change (negb (lt k k') && negb (lt k' k))%bool with (eqv k k'). rewrite E. auto.
Qed.
Lemma find_add_other k k0 v m : eqv k0 k = false -> map_find lt k0 (map_add lt k v m) = map_find lt k0 m.
Proof.
  intros E. induction m as [|[k' w] m IH]; cbn.
  - change (negb (lt k0 k) && negb (lt k k0))%bool with (eqv k0 k). now rewrite E.
  - destruct (lt k k') eqn:L; cbn.
    + change (negb (lt k0 k) && negb (lt k k0))%bool with (eqv k0 k). now rewrite E.
    + now rewrite IH.
Qed.
Lemma find_update_same k k0 v m : P k -> P k0 -> wfmap m -> map_find lt k m <> None ->
  eqv k0 k = true -> map_find lt k0 (map_update lt k v m) = Some v.
Proof.
  intros Pk Pk0 W N E. rewrite (find_eqv k0 k); auto using wf_update.
  clear E. induction m as [|[k' w] m IH]; cbn in *; [congruence|].
  destruct (wf_cons_inv _ _ W) as (P' & W' & F).
  change (negb (lt k k') && negb (lt k' k))%bool with (eqv k k') in *.
  destruct (eqv k k') eqn:E; cbn;
  change (negb (lt k k') && negb (lt k' k))%bool with (eqv k k'); rewrite E; auto.
Qed.
Lemma find_update_other k k0 v m : P k -> P k0 -> wfmap m -> eqv k0 k = false ->
  map_find lt k0 (map_update lt k v m) = map_find lt k0 m.
Proof.
  intros Pk Pk0 W E. induction m as [|[k' w] m IH]; cbn; auto.
  destruct (wf_cons_inv _ _ W) as (P' & W' & F). cbn in P'.
  change (negb (lt k k') && negb (lt k' k))%bool with (eqv k k').
  destruct (eqv k k') eqn:A; cbn.
  - change (negb (lt k0 k') && negb (lt k' k0))%bool with (eqv k0 k').
    destruct (eqv k0 k') eqn:B; auto.
    rewrite eqv_sym in A. rewrite (eqv_trans k0 k' k) in E; auto; discriminate.
  - now rewrite IH.
Qed.

Lemma length_add k v m : length (map_add lt k v m) = S (length m).
Proof. induction m as [|[k' w] m IH]; cbn; auto. destruct (lt k k'); cbn; auto. Qed.
Lemma length_update k v m : length (map_update lt k v m) = length m.
Proof. induction m as [|[k' w] m IH]; cbn; auto. destruct (_ && _)%bool; cbn; auto. Qed.
Lemma keys_update k v m : map fst (map_update lt k v m) = map fst m.
Proof. induction m as [|[k' w] m IH]; cbn; auto. destruct (_ && _)%bool; cbn; congruence. Qed.
Lemma add_perm k v m : Permutation (map_add lt k v m) ((k, v) :: m).
Proof.
  induction m as [|[k' w] m IH]; cbn; auto. destruct (lt k k'); auto.
  rewrite IH. apply perm_swap.
Qed.
(** Appending at the end is what adding does when every key is smaller. *)
Lemma add_last k v m : Forall (fun e => lt k (fst e) = false) m -> map_add lt k v m = m ++ [(k, v)].
Proof.
  induction m as [|[k' w] m IH]; cbn; auto. intros F. inversion F; subst. cbn in *.
  rewrite H1. now rewrite IH.
Qed.
Lemma wf_In_P m e : wfmap m -> In e m -> P (fst e).
Proof. intros [A _] I. rewrite Forall_forall in A. auto. Qed.
End Map.

Arguments wfmap {K V} lt P m.
