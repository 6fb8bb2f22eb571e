(** Lemmas about findMinMetricPolicyByFeatures. *)
From Coq Require Import List ZArith Bool Sorted Permutation Lia Reals Lra.
From Flocq Require Import Core BinarySingleNaN.
From Verif Require Import Model.Base Model.Float Model.DatasetM Spec.DatasetSpec Spec.DatasetClient
  Proofs.FloatFacts Proofs.MapFacts Proofs.KeyOrder Proofs.DatasetFacts.
Import ListNotations.
Open Scope Z_scope.

Definition wfb (b : best_map) : Prop := wfmap vec_lt fok b.

(** One reduction step on the best pair of one features vector. *)
Definition best_upd (o : option (Z * f64)) (p : Z) (m : f64) : option (Z * f64) :=
  match o with
  | None => Some (p, m)
  | Some (q, n) => if lt64 m n then Some (p, m) else Some (q, n)
  end.

Lemma min_step_spec b f p m : wfb b -> fok f ->
  wfb (min_step b ((f, p), m)) /\
  (forall g, fok g -> map_find vec_lt g (min_step b ((f, p), m)) =
     if same_features g f then best_upd (map_find vec_lt f b) p m else map_find vec_lt g b).
Proof.
  intros W F. unfold min_step. destruct (map_find vec_lt f b) as [[q n]|] eqn:E; cbn.
  - destruct (lt64 m n) eqn:L.
    + split; [now apply wf_update|]. intros g G. rewrite <- vec_eqv by assumption.
      destruct (eqv vec_lt g f) eqn:Q.
      * eapply (find_update_same vec_lt fok vec_eqv_trans); eauto. congruence.
      * eapply (find_update_other vec_lt fok vec_eqv_trans); eauto.
    + split; auto. intros g G. rewrite <- vec_eqv by assumption.
      destruct (eqv vec_lt g f) eqn:Q; auto.
      rewrite <- E. eapply (find_eqv vec_lt fok vec_eqv_trans); eauto.
  - split; [eapply (wf_add vec_lt fok vec_lt_trans); eauto|]. intros g G. rewrite <- vec_eqv by assumption.
    destruct (eqv vec_lt g f) eqn:Q.
    + eapply (find_add_same vec_lt fok vec_lt_irrefl vec_lt_trans vec_eqv_trans); eauto.
    + now apply find_add_other.
Qed.

(** Entries of one features vector, as (policy, metric) pairs. *)
Definition entries_of (g : list f32) (d : dataset) : list (Z * f64) :=
  map (fun e => (snd (fst e), snd e)) (filter (fun e => same_features g (fst (fst e))) d).

Lemma min_fold_spec d : forall b, Forall (fun e => kok (fst e)) d -> wfb b ->
  wfb (fold_left min_step d b) /\
  forall g, fok g -> map_find vec_lt g (fold_left min_step d b) =
    fold_left (fun o e => best_upd o (fst e) (snd e)) (entries_of g d) (map_find vec_lt g b).
Proof.
  induction d as [|[[f p] m] d IH]; intros b F W; cbn [fold_left]; auto.
  inversion F; subst. destruct (min_step_spec b f p m W H1) as [W' S].
  destruct (IH _ H2 W') as [W2 S2]. split; auto. intros g G. rewrite S2 by assumption.
  rewrite S by assumption. unfold entries_of. cbn. destruct (same_features g f) eqn:Q; auto.
  cbn. rewrite (find_eqv vec_lt fok vec_eqv_trans g f); auto. now rewrite vec_eqv.
Qed.

Definition best_fold (l : list (Z * f64)) (o : option (Z * f64)) :=
  fold_left (fun o e => best_upd o (fst e) (snd e)) l o.

Lemma best_fold_Some l : forall p m, exists q n, best_fold l (Some (p, m)) = Some (q, n).
Proof.
  induction l as [|[p' m'] l IH]; intros p m; cbn; [eauto|].
  destruct (lt64 m' m); apply IH.
Qed.
Lemma best_fold_None l : best_fold l None = None <-> l = [].
Proof.
  destruct l as [|[p m] l]; cbn; [tauto|]. destruct (best_fold_Some l p m) as (q & n & E).
  unfold best_fold in E. rewrite E. split; discriminate.
Qed.

Definition policies_up (l : list (Z * f64)) := StronglySorted (fun a b => fst a < fst b) l.

(** The kept pair is minimal, with the lowest policy among equals. *)
Lemma best_fold_min l : forall p m q n,
  is_nan m = false -> Forall (fun e => is_nan (snd e) = false) l ->
  policies_up ((p, m) :: l) ->
  best_fold l (Some (p, m)) = Some (q, n) ->
  In (q, n) ((p, m) :: l) /\
  forall p' m', In (p', m') ((p, m) :: l) -> Bleb n m' = true /\ (Beqb n m' = true -> q <= p').
Proof.
  induction l as [|[p1 m1] l IH]; intros p m q n Nm F U E.
  - cbn in E. inversion E; subst. split; [now left|].
    intros p' m' [X|[]]. inversion X; subst. split; [|lia].
    rewrite Bleb_xval by (auto; typeclasses eauto). rbool. lra.
  - inversion F as [|? ? N1 F']; subst. cbn in N1. cbn in E.
    inversion U as [|? ? U1 U2]; subst. inversion U1 as [|? ? U3 U4]; subst.
    inversion U2 as [|? ? U5 U6]; subst. cbn in U5.
    unfold lt64 in E. rewrite Bltb_xval in E by (auto; typeclasses eauto).
    revert E. case Rlt_bool_spec; intros L E.
    + destruct (IH _ _ _ _ N1 F' U1 E) as [I A]. split; [now right|].
      intros p' m' [X|X].
      * inversion X; subst p' m'. destruct (A p1 m1 (or_introl eq_refl)) as [A1 A2].
        assert (Nn : is_nan n = false).
        { destruct I as [I|I]; [inversion I; subst; auto|]. rewrite Forall_forall in F'. apply (F' _ I). }
        rewrite Bleb_xval in * by (auto; typeclasses eauto). rewrite Beqb_xval in * by (auto; typeclasses eauto).
        rbool. split; [rbool; lra|]. intros Q. rbool. lra.
      * apply A; auto.
    + assert (U' : policies_up ((p, m) :: l)) by (constructor; auto).
      destruct (IH _ _ _ _ Nm F' U' E) as [I A]. split; [destruct I; [now left|now right; right]|].
      assert (Nn : is_nan n = false).
      { destruct I as [I|I]; [inversion I; subst; auto|]. rewrite Forall_forall in F'. apply (F' _ I). }
      intros p' m' [X|[X|X]].
      * apply A. now left.
      * inversion X; subst p' m'. destruct (A p m (or_introl eq_refl)) as [A1 A2].
        rewrite Bleb_xval in * by (auto; typeclasses eauto). rewrite Beqb_xval in * by (auto; typeclasses eauto).
        rbool. split; [rbool; lra|]. intros Q. rbool.
        assert (xval n = xval m) by lra. 
        assert (q <= p); [|lia]. apply A2. rbool. lra.
      * apply A. now right.
Qed.

Lemma entries_up g d : fok g -> wfd d -> policies_up (entries_of g d).
Proof.
  intros G. unfold policies_up, entries_of. induction d as [|[[f p] m] d IH]; intros W; cbn; [constructor|].
  destruct (wf_cons_inv _ _ _ _ W) as (P' & W' & A). cbn in *.
  destruct (same_features g f) eqn:Q; cbn; auto. constructor; auto.
  rewrite Forall_map. rewrite Forall_forall in A |- *. intros [[f' p'] m'] I. cbn.
  apply filter_In in I as [I Q']. cbn in Q'. specialize (A _ I). cbn in A.
  assert (F' : fok f') by (destruct W' as [PA _]; rewrite Forall_forall in PA; apply (PA _ I)).
  apply key_lt_iff in A. cbn in A. destruct A as [A|[_ A]]; auto. exfalso.
  assert (X : same_features f f' = true).
  { apply same_features_trans with g; auto. rewrite same_features_sym; auto. }
  rewrite <- vec_eqv in X by assumption. unfold eqv in X. rewrite A in X. discriminate.
Qed.

Lemma In_entries g d p m : In (p, m) (entries_of g d) <->
  exists f, In ((f, p), m) d /\ same_features g f = true.
Proof.
  unfold entries_of. rewrite in_map_iff. split.
  - intros ([[f q] n] & E & I). cbn in E. inversion E; subst. apply filter_In in I as [I Q]. exists f. auto.
  - intros (f & I & Q). exists ((f, p), m). split; auto. apply filter_In. auto.
Qed.

Lemma In_to_vector f p m d : In (f, p, m) (ds_to_vector d) <-> In ((f, p), m) d.
Proof.
  unfold ds_to_vector. rewrite in_map_iff. split.
  - intros ([[g q] n] & E & I). cbn in E. now inversion E; subst.
  - intros I. exists ((f, p), m). auto.
Qed.

Lemma best_of_wf d : wfd d -> wfb (fold_left min_step d []) /\
  forall g, fok g -> map_find vec_lt g (fold_left min_step d []) = best_fold (entries_of g d) None.
Proof.
  intros [A B]. destruct (min_fold_spec d [] A (wf_nil vec_lt fok)) as [W S]. auto.
Qed.

Lemma wfb_sorted b : wfb b -> StronglySorted features_before (map fst b).
Proof.
  induction b as [|[f x] b IH]; cbn; [constructor|]. intros W.
  destruct (wf_cons_inv _ _ _ _ W) as (P' & W' & A). cbn in *. constructor; auto.
  rewrite Forall_map. destruct W' as [PA _]. rewrite Forall_forall in *. intros e I.
  apply vec_lt_before; auto. 
Qed.

(** The specification of findMinMetricPolicyByFeatures. *)
Lemma find_min_spec d fs ps : wfd d -> Forall (fun e => is_nan (snd e) = false) d ->
  exists best,
    ds_find_min d fs ps = (fs ++ map fst best, ps ++ map (fun b => fst (snd b)) best, best) /\
    StronglySorted features_before (map fst best) /\
    Forall (fun b => fok (fst b)) best /\
    (forall f p m, In (f, p, m) (ds_to_vector d) -> existsb (same_features f) (map fst best) = true) /\
    (forall f p m, In (f, (p, m)) best ->
       (exists f', In (f', p, m) (ds_to_vector d) /\ same_features f f' = true) /\
       forall f' p' m', In (f', p', m') (ds_to_vector d) -> same_features f f' = true ->
         Bleb m m' = true /\ (Beqb m m' = true -> p <= p')).
Proof.
  intros W N. exists (fold_left min_step d []). split; [reflexivity|].
  destruct (best_of_wf d W) as [Wb S]. split; [now apply wfb_sorted|].
  split; [apply Wb|]. split.
  - intros f p m I. apply -> In_to_vector in I.
    assert (F : fok f) by (apply (wf_In_P _ _ _ _ W I)).
    destruct (map_find vec_lt f (fold_left min_step d [])) as [[q n]|] eqn:E.
    + apply find_In in E as (f' & I' & Q). apply existsb_exists. exists f'. split.
      * apply in_map_iff. exists (f', (q, n)). auto.
      * rewrite <- vec_eqv; auto. apply (wf_In_P _ _ _ _ Wb I').
    + rewrite S in E by assumption. apply best_fold_None in E.
      assert (X : In (p, m) (entries_of f d)).
      { apply In_entries. exists f. split; auto. now apply same_features_refl. }
      rewrite E in X. destruct X.
  - intros f p m I. assert (F : fok f) by (apply (wf_In_P _ _ _ _ Wb I)).
    assert (E := In_find vec_lt fok vec_lt_irrefl _ _ _ Wb I).
    rewrite S in E by assumption.
    assert (U := entries_up f d F W).
    assert (NE : Forall (fun e => is_nan (snd e) = false) (entries_of f d)).
    { unfold entries_of. rewrite Forall_map. cbn. now apply Forall_filter. }
    destruct (entries_of f d) as [|[p0 m0] l] eqn:EL; [discriminate|].
    cbn in E. inversion NE; subst. destruct (best_fold_min l p0 m0 p m H1 H2 U E) as [A B].
    assert (A' : In (p, m) (entries_of f d)) by (rewrite EL; exact A). clear A. rename A' into A. split.
    + apply In_entries in A as (f' & I' & Q). exists f'. split; auto. now apply <- In_to_vector.
    + intros f' p' m' I' Q. apply B. change (In (p', m') ((p0, m0) :: l)). rewrite <- EL. apply In_entries. exists f'. split; auto. now apply -> In_to_vector.
Qed.

(** The map lookup used by clients of the best-policy map. *)
Lemma find_min_policies_in d f p m fs ps : wfd d ->
  In (f, (p, m)) (snd (ds_find_min d fs ps)) -> exists f', In (f', p, m) (ds_to_vector d).
Proof.
  intros W. cbn. destruct (best_of_wf d W) as [Wb S]. intros I.
  assert (F : fok f) by (apply (wf_In_P _ _ _ _ Wb I)).
  assert (E := In_find vec_lt fok vec_lt_irrefl _ _ _ Wb I). rewrite S in E by assumption.
  assert (G : forall l o, best_fold l o = Some (p, m) -> o = Some (p, m) \/ In (p, m) l).
  { induction l as [|[a b] l IHl]; cbn; auto. intros o H. apply IHl in H as [H|H]; auto.
    destruct o as [[a0 b0]|]; cbn in H.
    - destruct (lt64 b b0); inversion H; subst; auto.
    - inversion H; subst; auto. }
  apply G in E as [E|E]; [discriminate|]. apply In_entries in E as (f' & I' & _).
  exists f'. now apply <- In_to_vector.
Qed.
