(** The comparator of the dataset map is a strict weak order on NaN-free keys, and its
    equivalence is the specification's [same_features]. *)
From Coq Require Import List ZArith Bool Sorted Reals Lra Lia.
From Flocq Require Import Core BinarySingleNaN.
From Verif Require Import Model.Base Model.Float Model.DatasetM Spec.DatasetSpec Proofs.FloatFacts Proofs.MapFacts.
Import ListNotations.
Open Scope Z_scope.

Definition fok (f : list f32) : Prop := nan_free f = true.
Definition kok (k : key) : Prop := fok (fst k).

Lemma fok_cons x f : fok (x :: f) <-> is_nan x = false /\ fok f.
Proof. unfold fok, nan_free. cbn. rewrite andb_true_iff, negb_true_iff. tauto. Qed.

Lemma fok_Forall f : fok f <-> Forall (fun x : f32 => is_nan x = false) f.
Proof.
  induction f as [|x f IH]; [split; [constructor|reflexivity]|].
  rewrite fok_cons, IH. split; [intros []; now constructor|intros H; inversion H; auto].
Qed.

Lemma beqb_lt (x y : f32) : is_nan x = false -> is_nan y = false ->
  Beqb x y = (negb (lt32 x y) && negb (lt32 y x))%bool.
Proof.
  intros Hx Hy. unfold lt32. rewrite Beqb_xval, !Bltb_xval by (auto; typeclasses eauto).
  case Req_bool_spec; case Rlt_bool_spec; case Rlt_bool_spec; intros; cbn; auto; lra.
Qed.

Lemma vec_eqv f g : fok f -> fok g -> eqv vec_lt f g = same_features f g.
Proof.
  revert g. induction f as [|x f IH]; intros [|y g]; try reflexivity.
  rewrite !fok_cons. intros [Nx Ff] [Ny Fg]. cbn [same_features].
  rewrite <- (IH g Ff Fg), beqb_lt by assumption. unfold eqv. cbn [vec_lt].
  destruct (lt32 x y) eqn:A, (lt32 y x) eqn:B; cbn; try reflexivity.
Qed.

Lemma vec_lt_irrefl f : fok f -> vec_lt f f = false.
Proof.
  induction f as [|x f IH]; cbn; auto. rewrite fok_cons. intros [N F].
  unfold lt32. rewrite Bltb_irrefl by typeclasses eauto. auto.
Qed.

Lemma f32_cmp (x y : f32) : is_nan x = false -> is_nan y = false ->
  (lt32 x y = true /\ lt32 y x = false /\ (xval x < xval y)%R) \/
  (lt32 x y = false /\ lt32 y x = true /\ (xval y < xval x)%R) \/
  (lt32 x y = false /\ lt32 y x = false /\ (xval x = xval y)%R).
Proof.
  intros. unfold lt32. rewrite !Bltb_xval by (auto; typeclasses eauto).
  case Rlt_bool_spec; case Rlt_bool_spec; intros; try lra; auto.
Qed.

Ltac cmp x y :=
  match goal with Hx : is_nan x = false, Hy : is_nan y = false |- _ =>
    let A := fresh in let B := fresh in
    destruct (f32_cmp x y Hx Hy) as [(A & B & ?)|[(A & B & ?)|(A & B & ?)]]; rewrite ?A, ?B end.

Lemma vec_lt_trans f g h : fok f -> fok g -> fok h ->
  vec_lt f g = true -> vec_lt g h = true -> vec_lt f h = true.
Proof.
  revert g h. induction f as [|x f IH]; intros [|y g] [|z h]; try discriminate; auto.
  rewrite !fok_cons. intros [Nx F] [Ny G] [Nz H]. cbn [vec_lt].
  cmp x y; cmp y z; cmp x z; try discriminate; auto; try lra. apply IH; auto.
Qed.

Lemma vec_eqv_trans f g h : fok f -> fok g -> fok h ->
  eqv vec_lt f g = true -> eqv vec_lt g h = true -> eqv vec_lt f h = true.
Proof.
  intros F G H. rewrite !vec_eqv by assumption.
  revert g h F G H. induction f as [|x f IH]; intros [|y g] [|z h]; try discriminate; auto.
  rewrite !fok_cons. intros [Nx F] [Ny G] [Nz H]. cbn.
  rewrite !andb_true_iff. rewrite !Beqb_xval by (auto; typeclasses eauto).
  intros [A B] [C D]. split; [rbool; congruence|]. eapply IH with g; auto.
Qed.

Lemma key_eqv a b : kok a -> kok b ->
  eqv key_lt a b = (same_features (fst a) (fst b) && (snd a =? snd b))%bool.
Proof.
  unfold kok. intros A B. rewrite <- vec_eqv by assumption. unfold eqv, key_lt.
  destruct (vec_lt (fst a) (fst b)) eqn:L1, (vec_lt (fst b) (fst a)) eqn:L2; cbn; auto.
  - destruct (Z.ltb_spec (snd a) (snd b)), (Z.ltb_spec (snd b) (snd a)), (Z.eqb_spec (snd a) (snd b)); cbn; lia.
Qed.

Lemma key_lt_irrefl a : kok a -> key_lt a a = false.
Proof. intros H. unfold key_lt. rewrite vec_lt_irrefl by apply H. cbn. apply Z.ltb_irrefl. Qed.

Lemma vec_eqv_lt_l f g h : fok f -> fok g -> fok h -> eqv vec_lt f g = true -> vec_lt g h = true -> vec_lt f h = true.
Proof. apply (eqv_lt_l vec_lt fok vec_lt_trans vec_eqv_trans). Qed.
Lemma vec_eqv_lt_r f g h : fok f -> fok g -> fok h -> vec_lt f g = true -> eqv vec_lt g h = true -> vec_lt f h = true.
Proof. apply (eqv_lt_r vec_lt fok vec_lt_trans vec_eqv_trans). Qed.

Lemma vec_le_eqv f g : vec_lt f g = false -> vec_lt g f = false -> eqv vec_lt f g = true.
Proof. unfold eqv. intros -> ->. reflexivity. Qed.

Lemma key_lt_iff a b : key_lt a b = true <->
  vec_lt (fst a) (fst b) = true \/ (vec_lt (fst b) (fst a) = false /\ snd a < snd b).
Proof.
  unfold key_lt. rewrite orb_true_iff, andb_true_iff, negb_true_iff, Z.ltb_lt. tauto.
Qed.

Lemma vec_lt_asym f g : fok f -> fok g -> vec_lt f g = true -> vec_lt g f = false.
Proof. apply (lt_asym vec_lt fok vec_lt_irrefl vec_lt_trans). Qed.

Lemma vec_nlt_lt_trans f g h : fok f -> fok g -> fok h -> vec_lt g f = false -> vec_lt g h = true -> vec_lt f h = true.
Proof.
  intros F G H A B. destruct (vec_lt f g) eqn:C.
  - eapply vec_lt_trans with g; auto.
  - eapply vec_eqv_lt_l with g; auto. now apply vec_le_eqv.
Qed.
Lemma vec_lt_nlt_trans f g h : fok f -> fok g -> fok h -> vec_lt f g = true -> vec_lt h g = false -> vec_lt f h = true.
Proof.
  intros F G H A B. destruct (vec_lt g h) eqn:C.
  - eapply vec_lt_trans with g; auto.
  - eapply vec_eqv_lt_r with g; auto. now apply vec_le_eqv.
Qed.

Lemma key_lt_trans a b c : kok a -> kok b -> kok c ->
  key_lt a b = true -> key_lt b c = true -> key_lt a c = true.
Proof.
  unfold kok. rewrite !key_lt_iff. intros A B C [H1|[H1 H2]] [H3|[H3 H4]].
  - left. eapply vec_lt_trans with (fst b); auto.
  - left. eapply vec_lt_nlt_trans with (fst b); auto.
  - left. eapply vec_nlt_lt_trans with (fst b); auto.
  - destruct (vec_lt (fst a) (fst c)) eqn:E; [now left|right]. split; [|lia].
    destruct (vec_lt (fst c) (fst a)) eqn:E2; auto.
    assert (X : vec_lt (fst b) (fst a) = true).
    { eapply vec_nlt_lt_trans with (fst c); auto. }
    congruence.
Qed.

Lemma key_eqv_trans a b c : kok a -> kok b -> kok c ->
  eqv key_lt a b = true -> eqv key_lt b c = true -> eqv key_lt a c = true.
Proof.
  intros A B C. rewrite !key_eqv by assumption. rewrite !andb_true_iff, !Z.eqb_eq.
  unfold kok in *. rewrite <- !vec_eqv by assumption.
  intros [H1 H2] [H3 H4]. split; [eapply vec_eqv_trans with (fst b); auto|congruence].
Qed.

(** The specification's order. *)
Lemma vec_lt_before f g : fok f -> fok g -> vec_lt f g = true -> features_before f g.
Proof.
  revert g. induction f as [|x f IH]; intros [|y g]; try discriminate.
  - intros _ _ _. exists 0%nat. cbn. repeat split; auto; try lia.
  - rewrite !fok_cons. intros [Nx F] [Ny G]. cbn [vec_lt].
    destruct (lt32 x y) eqn:A.
    + intros _. exists 0%nat. cbn. repeat split; auto; try lia.
      right. exists x, y. auto.
    + destruct (lt32 y x) eqn:B; [discriminate|]. intros L.
      destruct (IH g F G L) as (n & H1 & H2 & H3 & H4).
      exists (S n). cbn. repeat split; try lia.
      * intros [|i] u v Hi; cbn.
        -- intros E1 E2. inversion E1; inversion E2; subst. rewrite beqb_lt by assumption. now rewrite A, B.
        -- intros. eapply (H3 i); eauto. lia.
      * destruct H4 as [->|H4]; auto.
Qed.

Lemma features_before_cons x f y g : features_before (x :: f) (y :: g) ->
  Bltb x y = true \/ (Beqb x y = true /\ features_before f g).
Proof.
  intros (n & H1 & H2 & H3 & H4). destruct n as [|n].
  - destruct H4 as [H4|(u & v & E1 & E2 & L)]; [discriminate|]. cbn in *. inversion E1; inversion E2; subst. auto.
  - right. split; [apply (H3 0%nat); cbn; auto; lia|]. exists n. cbn in *. repeat split; try lia.
    + intros i u v Hi. apply (H3 (S i)). lia.
    + destruct H4 as [H4|H4]; [left; lia|right; auto].
Qed.

Lemma before_vec_lt f g : fok f -> fok g -> features_before f g -> vec_lt f g = true.
Proof.
  revert g. induction f as [|x f IH]; intros [|y g].
  - intros _ _ (n & H1 & H2 & _). cbn in *. lia.
  - reflexivity.
  - intros _ _ (n & H1 & H2 & _). cbn in *. lia.
  - rewrite !fok_cons. intros [Nx F] [Ny G] B. cbn [vec_lt].
    apply features_before_cons in B as [B|[B1 B2]].
    + unfold lt32. now rewrite B.
    + rewrite beqb_lt in B1 by assumption. apply andb_true_iff in B1 as [C D].
      apply negb_true_iff in C, D. rewrite C, D. auto.
Qed.

Lemma same_features_refl f : fok f -> same_features f f = true.
Proof. intros H. rewrite <- vec_eqv by assumption. apply (eqv_refl vec_lt fok vec_lt_irrefl). auto. Qed.
Lemma same_features_sym f g : fok f -> fok g -> same_features f g = same_features g f.
Proof. intros. rewrite <- !vec_eqv by assumption. apply eqv_sym. Qed.
Lemma same_features_trans f g h : fok f -> fok g -> fok h ->
  same_features f g = true -> same_features g h = true -> same_features f h = true.
Proof. intros F G H. rewrite <- !vec_eqv by assumption. now apply vec_eqv_trans. Qed.
Lemma same_features_length f g : same_features f g = true -> length f = length g.
Proof.
  revert g. induction f as [|x f IH]; intros [|y g]; cbn; try discriminate; auto.
  rewrite andb_true_iff. intros [_ H]. f_equal. auto.
Qed.
