(** Lemmas on the registry of regions. *)
From Coq Require Import ZArith Bool Ascii String Lia List Sorted.
From Verif Require Import Model.Base Model.Float Model.DatasetM Model.ModelStringM Model.PolicyModelsM Model.ConfigM Model.RuntimeM
  Spec.RuntimeSpec.
Import ListNotations.
Open Scope Z_scope.

Lemma ascii_inj a b : N_of_ascii a = N_of_ascii b -> a = b.
Proof. intros H. rewrite <- (ascii_N_embedding a), <- (ascii_N_embedding b). f_equal. auto. Qed.

Lemma bytes_lt_irrefl a : bytes_lt a a = false.
Proof. induction a; cbn; auto. rewrite N.ltb_irrefl. auto. Qed.

Lemma bytes_lt_trans : forall a b c, bytes_lt a b = true -> bytes_lt b c = true -> bytes_lt a c = true.
Proof.
  induction a as [|x a IH]; destruct b as [|y b], c as [|z c]; cbn; try discriminate; auto.
  repeat match goal with |- context [(?u <? ?v)%N] => destruct (N.ltb_spec u v) end; try lia; try discriminate; auto. apply IH.
Qed.

Lemma bytes_lt_total : forall a b, bytes_lt a b = false -> bytes_lt b a = false -> a = b.
Proof.
  induction a as [|x a IH]; destruct b as [|y b]; cbn; try discriminate; auto.
  repeat match goal with |- context [(?u <? ?v)%N] => destruct (N.ltb_spec u v) end; try lia; try discriminate.
  intros H1 H2. rewrite (IH b) by auto. f_equal. apply ascii_inj. lia.
Qed.

Definition by_name (a b : bytes * nat) : Prop := bytes_lt (fst a) (fst b) = true.

Lemma register_in name r m : StronglySorted by_name m -> forall n x,
  In (n, x) (register name r m) <-> In (n, x) m \/ (n = name /\ x = r /\ ~ In name (map fst m)).
Proof.
  induction m as [|[k y] m IH]; cbn; intros S n x.
  - split; [intros [E|[]]; inversion E; auto|intros [[]|(-> & -> & _)]; auto].
  - inversion S as [|? ? S' F]; subst. destruct (bytes_lt name k) eqn:L1.
    + cbn. split.
      * intros [E|H]; [|auto]. inversion E; subst. right. split; auto. split; auto. intros [E1|IN].
        { subst. rewrite bytes_lt_irrefl in L1. discriminate. }
        { apply in_map_iff in IN. destruct IN as ([a b] & E1 & IN). cbn in E1. subst a. rewrite Forall_forall in F.
          specialize (F _ IN). unfold by_name in F. cbn in F.
          assert (X := bytes_lt_trans _ _ _ L1 F). rewrite bytes_lt_irrefl in X. discriminate. }
      * intros [H|(-> & -> & _)]; auto.
    + destruct (bytes_lt k name) eqn:L2.
      * cbn. rewrite IH by auto. split; [intros [E|[H|(-> & -> & N)]]; auto|intros [[E|H]|(-> & -> & N)]; auto].
        right. split; auto. split; auto. intros [E|H]; auto. subst. rewrite bytes_lt_irrefl in L2. discriminate.
        right. right. split; auto.
      * assert (k = name) by (apply bytes_lt_total; auto). subst k. cbn. split; [auto|]. intros [H|(-> & -> & N)]; auto. exfalso. auto.
Qed.

Lemma register_sorted name r m : StronglySorted by_name m -> StronglySorted by_name (register name r m).
Proof.
  induction m as [|[k y] m IH]; cbn; intros S; [repeat constructor|].
  inversion S as [|? ? S' F]; subst. destruct (bytes_lt name k) eqn:L1.
  - constructor; auto. constructor; auto. eapply Forall_impl; [|exact F]. intros [a b] H. unfold by_name in *. cbn in *. eapply bytes_lt_trans; eauto.
  - destruct (bytes_lt k name) eqn:L2; auto. constructor; auto. apply Forall_forall. intros [a b] IN.
    apply register_in in IN; auto. destruct IN as [IN|(-> & -> & _)]; [|exact L2]. rewrite Forall_forall in F. apply F; auto.
Qed.

(** The registry holds the first region of every name, in the order of the names. *)
Definition registry_ok (w : world) : Prop :=
  StronglySorted by_name (w_registry w) /\ forall n r, In (n, r) (w_registry w) <-> first_named (region_names w) n r.

Lemma registry_same w w' : w_registry w' = w_registry w -> region_names w' = region_names w -> registry_ok w -> registry_ok w'.
Proof. intros E N [S H]. unfold registry_ok. rewrite E, N. auto. Qed.

Lemma names_same w w' : List.length (w_regions w') = List.length (w_regions w) ->
  (forall i R, nth_error (w_regions w) i = Some R -> exists R', nth_error (w_regions w') i = Some R' /\ r_name R' = r_name R) ->
  region_names w' = region_names w.
Proof.
  intros L H. unfold region_names. apply nth_ext with (d := []) (d' := []); rewrite !map_length; auto. intros i LI.
  assert (X : nth_error (map r_name (w_regions w')) i = nth_error (map r_name (w_regions w)) i).
  { destruct (nth_error (w_regions w) i) as [R|] eqn:E; [|apply nth_error_None in E; lia].
    destruct (H _ _ E) as (R' & E' & N). rewrite (map_nth_error r_name _ _ E), (map_nth_error r_name _ _ E'). congruence. }
  rewrite <- (map_length r_name) in LI.
  assert (X2 := nth_error_nth' (map r_name (w_regions w')) [] LI). rewrite X in X2. apply (nth_error_nth _ _ []) in X2. auto.
Qed.

Lemma first_named_app names n m r : first_named (names ++ [m]) n r <->
  first_named names n r \/ (n = m /\ r = List.length names /\ ~ In n names).
Proof.
  unfold first_named. split.
  - intros [H K]. destruct (Nat.ltb_spec r (List.length names)).
    + left. rewrite nth_error_app1 in H by auto. split; auto. intros k L. specialize (K k L). rewrite nth_error_app1 in K by lia. auto.
    + right. rewrite nth_error_app2 in H by auto. destruct (r - List.length names)%nat as [|d] eqn:D; cbn in H; [|destruct d; discriminate].
      inversion H; subst. split; auto. split; [lia|]. intros IN. apply In_nth_error in IN. destruct IN as (k & IN).
      assert (k < List.length names)%nat by (apply nth_error_Some; congruence).
      apply (K k); [lia|]. rewrite nth_error_app1 by auto. auto.
  - intros [[H K]|(-> & -> & N)].
    + assert (r < List.length names)%nat by (apply nth_error_Some; congruence). rewrite nth_error_app1 by auto. split; auto.
      intros k L. rewrite nth_error_app1 by lia. auto.
    + rewrite nth_error_app2, Nat.sub_diag by auto. split; auto. intros k L E. rewrite nth_error_app1 in E by auto.
      apply N. eapply nth_error_In; eauto.
Qed.

Lemma first_exists names n : In n names -> exists r, first_named names n r.
Proof.
  induction names as [|m names IH] using rev_ind; [intros []|]. intros H.
  destruct (in_dec (list_eq_dec ascii_dec) n names) as [D|D].
  - destruct (IH D) as (r & F). exists r. apply first_named_app. auto.
  - apply in_app_or in H. destruct H as [H|[->|[]]]; [contradiction|]. exists (List.length names). apply first_named_app. auto.
Qed.

Lemma first_unique names n r r' : first_named names n r -> first_named names n r' -> r = r'.
Proof.
  intros [H K] [H' K']. destruct (Nat.lt_trichotomy r r') as [L|[L|L]]; auto; exfalso; [apply (K' r)|apply (K r')]; auto.
Qed.

Lemma registry_register w w' name r : r = List.length (w_regions w) -> w_registry w' = register name r (w_registry w) ->
  region_names w' = region_names w ++ [name] -> registry_ok w -> registry_ok w'.
Proof.
  intros -> E N [S H]. split; [rewrite E; apply register_sorted; auto|]. intros n x. rewrite E, N, register_in by auto.
  rewrite first_named_app, H. unfold region_names. rewrite map_length.
  assert (X : In name (map fst (w_registry w)) <-> In name (map r_name (w_regions w))).
  { split; intros IN.
    - apply in_map_iff in IN. destruct IN as ([a b] & E1 & IN). cbn in E1. subst a. apply H in IN. destruct IN as [IN _]. eapply nth_error_In; eauto.
    - destruct (first_exists _ _ IN) as (k & F). apply H in F. apply in_map_iff. exists (name, k). auto. }
  split; (intros [A|(-> & -> & B)]; [auto|right; split; auto; split; auto; rewrite ?X in *; auto]).
Qed.

Lemma registry_nodup w : registry_ok w -> NoDup (map snd (w_registry w)) /\ NoDup (map fst (w_registry w)).
Proof.
  intros [S H]. assert (ND : NoDup (map fst (w_registry w))).
  { clear H. induction S as [|[k y] m S IH F]; cbn; constructor; auto. intros IN. apply in_map_iff in IN. destruct IN as ([a b] & E & IN). cbn in E. subst a.
    rewrite Forall_forall in F. specialize (F _ IN). unfold by_name in F. cbn in F. rewrite bytes_lt_irrefl in F. discriminate. }
  split; auto.
  assert (U : forall n1 n2 r, In (n1, r) (w_registry w) -> In (n2, r) (w_registry w) -> n1 = n2).
  { intros n1 n2 r A B. apply H in A. apply H in B. destruct A as [A _], B as [B _]. congruence. }
  clear S H. induction (w_registry w) as [|[k y] m IH]; cbn; constructor.
  - intros IN. apply in_map_iff in IN. destruct IN as ([a b] & E & IN). cbn in E. subst b.
    inversion ND as [|? ? N _]; subst. apply N. rewrite (U k a y); [|left; auto|right; auto]. apply in_map_iff. exists (a, y). auto.
  - inversion ND; subst. apply IH; auto. intros n1 n2 r A B. apply (U n1 n2 r); right; auto.
Qed.
