From Coq Require Import List ZArith Bool Sorted Permutation.
From Flocq Require Import BinarySingleNaN.
From Verif Require Import Model.Base Model.Float Model.TreeM Spec.DatasetSpec Spec.TreeSpec Spec.InsertionSort.
Import ListNotations.

Lemma insert_before_perm cmp x l : Permutation (x :: l) (insert_before cmp x l).
Proof.
  induction l as [|y r IH]; cbn; auto. destruct (cmp y x); auto.
  eapply Permutation_trans; [apply perm_swap|]. constructor. auto.
Qed.

Lemma isort_perm cmp l : Permutation l (fold_right (insert_before cmp) [] l).
Proof.
  induction l as [|x l IH]; cbn; auto. eapply Permutation_trans; [|apply insert_before_perm]. auto.
Qed.

Lemma strict_weak_incl {A} (cmp : A -> A -> bool) l l' : strict_weak_on cmp l -> (forall x, In x l' -> In x l) -> strict_weak_on cmp l'.
Proof.
  intros (A1 & A2 & A3) H. repeat split; eauto.
Qed.

Lemma insert_before_sorted cmp x l : strict_weak_on cmp (x :: l) ->
  StronglySorted (fun x y => cmp y x = false) l -> StronglySorted (fun x y => cmp y x = false) (insert_before cmp x l).
Proof.
  intros W S. induction S as [|y r S IH F]; cbn [insert_before]; [repeat constructor|].
  destruct (cmp y x) eqn:E.
  - constructor.
    + apply IH. eapply strict_weak_incl; [exact W|]. intros z [->|Hz]; [left|right; right]; auto.
    + rewrite Forall_forall in *. intros z Hz.
      apply (Permutation_in _ (Permutation_sym (insert_before_perm cmp x r))) in Hz.
      destruct Hz as [<-|Hz]; auto. destruct W as (W1 & W2 & W3).
      destruct (cmp x y) eqn:E2; auto. rewrite <- (W1 y); [|right; left; auto]. symmetry.
      apply (W2 y x y); auto; cbn; auto.
  - repeat constructor; auto.
    rewrite Forall_forall in *. intros z Hz. destruct W as (W1 & W2 & W3).
    destruct (cmp z x) eqn:E2; auto. destruct (W3 z x y) as [X|X]; cbn; auto.
    + rewrite (F z Hz) in X. discriminate.
    + congruence.
Qed.

Lemma isort_sorted cmp l : strict_weak_on cmp l ->
  StronglySorted (fun x y => cmp y x = false) (fold_right (insert_before cmp) [] l).
Proof.
  induction l as [|x l IH]; intros W; cbn; [constructor|]. apply insert_before_sorted.
  - eapply strict_weak_incl; [exact W|]. intros z [->|Hz]; [left; auto|right].
    eapply Permutation_in; [apply Permutation_sym, isort_perm|eauto].
  - apply IH. eapply strict_weak_incl; [exact W|]. intros; right; auto.
Qed.

Lemma insertion_sort_ok : sorter_ok insertion_sort.
Proof. intros cmp l W. split; [apply isort_perm|now apply isort_sorted]. Qed.

Lemma reverse_sort_ok : sorter_ok reverse_sort.
Proof.
  intros cmp l W. unfold reverse_sort. split.
  - eapply Permutation_trans; [apply Permutation_rev|apply isort_perm].
  - apply isort_sorted. eapply strict_weak_incl; [exact W|]. intros x Hx. now apply in_rev.
Qed.

(** Reads a result off a computation. *)
Lemma ok_holds {A} (o : outcome A) (p : A -> bool) :
  match o with Ok a => p a | _ => false end = true -> exists a, o = Ok a /\ p a = true.
Proof. destruct o; try discriminate. eauto. Qed.

(** Decides the hypotheses on training sets by computation. *)
Lemma consistent_b l : forallb (fun s : sample => forallb (fun s' : sample =>
    negb (same_features (fst s) (fst s')) || (snd s =? snd s')%Z)%bool l) l = true -> consistent l.
Proof.
  rewrite forallb_forall. intros H s s' Hs Hs' E. specialize (H s Hs). rewrite forallb_forall in H.
  specialize (H s' Hs'). rewrite E in H. now apply Z.eqb_eq.
Qed.

Lemma uniform_b k l : forallb (fun s : sample => (length (fst s) =? k)%nat &&
    forallb (fun x : f32 => negb (is_nan x)) (fst s))%bool l = true -> uniform_samples k l.
Proof.
  rewrite forallb_forall. intros H. apply Forall_forall. intros s Hs. specialize (H s Hs).
  apply andb_prop in H. destruct H as [H1 H2]. split; [now apply Nat.eqb_eq|].
  rewrite forallb_forall in H2. apply Forall_forall. intros x Hx. specialize (H2 x Hx). now apply negb_true_iff.
Qed.

Lemma ok_is (o : outcome Z) v : match o with Ok w => (w =? v)%Z | _ => false end = true -> o = Ok v.
Proof. destruct o; try discriminate. intros H. apply Z.eqb_eq in H. congruence. Qed.
