(** Lemmas on the runtime: the traces that convert features to int. *)
From Coq Require Import ZArith Bool Ascii String Reals Lra Lia List.
From Flocq Require Import Core BinarySingleNaN.
From Verif Require Import Model.Base Model.Decimal Model.Float Model.DatasetM Model.ModelStringM Model.PolicyModelsM Model.ConfigM Model.RuntimeM
  Spec.DatasetSpec Spec.RuntimeSpec
  Proofs.TreeFacts Proofs.FloatFacts Proofs.MapFacts Proofs.KeyOrder Proofs.DatasetFacts Proofs.BestPolicy Proofs.RuntimeFacts Proofs.RuntimePending Proofs.RuntimeSettled Proofs.RuntimeAccount
  Proofs.RuntimeOps Proofs.RuntimeClient Proofs.RuntimeData.
Import ListNotations.
Open Scope Z_scope.

Lemma trunc_value (x : f32) : Btrunc x = Ztrunc (B2R x).
Proof. apply eq_IZR. rewrite Btrunc_correct by reflexivity. unfold round, scaled_mantissa, cexp, FIX_exp, F2R; cbn. now rewrite !Rmult_1_r. Qed.

Lemma unprintable_undefined x : unprintable x <-> int_of_float x = UB.
Proof.
  unfold unprintable, int_of_float. rewrite trunc_value. destruct (is_finite x); [|split; auto]. change (2 ^ 31) with 2147483648.
  assert (A : (2147483648 <= B2R x)%R <-> 2147483648 <= Ztrunc (B2R x)).
  { split; intros H.
    - rewrite Ztrunc_floor by lra. apply Zfloor_lub. exact H.
    - destruct (Rlt_or_le (B2R x) 0) as [N|N].
      + rewrite Ztrunc_ceil in H by lra. assert (Zceil (B2R x) <= 0) by (apply Zceil_glb; cbn; lra). lia.
      + rewrite Ztrunc_floor in H by exact N. apply IZR_le in H. assert (B := Zfloor_lb (B2R x)). lra. }
  assert (B : (B2R x <= -2147483649)%R <-> Ztrunc (B2R x) <= -2147483649).
  { split; intros H.
    - rewrite Ztrunc_ceil by lra. apply Zceil_glb. exact H.
    - destruct (Rlt_or_le 0 (B2R x)) as [N|N].
      + rewrite Ztrunc_floor in H by lra. assert (0 <= Zfloor (B2R x)) by (apply Zfloor_lub; cbn; lra). lia.
      + rewrite Ztrunc_ceil in H by exact N. apply IZR_le in H. assert (C := Zceil_ub (B2R x)). lra. }
  rewrite A, B. change (- (2147483648)) with (-2147483648). destruct (Z.leb_spec (-2147483648) (Ztrunc (B2R x))); destruct (Z.ltb_spec (Ztrunc (B2R x)) 2147483648); cbn [andb].
  - split; [intros [X|[X|X]]; [discriminate X|lia|lia]|intros X; discriminate X].
  - split; [reflexivity|]. intros _. right. left. lia.
  - split; [reflexivity|]. intros _. right. right. lia.
  - lia.
Qed.

Lemma unprintable_equal x y : Beqb x y = true -> unprintable x -> unprintable y.
Proof.
  destruct (is_finite x) eqn:FX.
  - destruct (is_finite y) eqn:FY.
    + intros E. rewrite Beqb_correct in E by assumption. unfold unprintable. rewrite FX, FY. destruct (Req_bool_spec (B2R x) (B2R y)) as [->|]; [auto|discriminate].
    + intros _ _. left. exact FY.
  - destruct (is_finite y) eqn:FY; [|intros _ _; left; exact FY]. unfold Beqb. destruct x as [s|s| |s m e b], y as [s'|s'| |s' m' e' b']; cbn in *; try discriminate; destruct s; try discriminate.
Qed.

Lemma int_cases x : (exists z, int_of_float x = Ok z) \/ int_of_float x = UB.
Proof. unfold int_of_float. destruct (is_finite x); [|auto]. destruct (_ && _); eauto. Qed.

Lemma traced_undefined f : Exists unprintable f -> trace_features f = UB.
Proof.
  intros H. induction f as [|x f IH]; [inversion H|]. cbn. destruct (int_cases x) as [(z & E)|E]; rewrite E; [|reflexivity]. cbn [bind].
  inversion H as [? ? U|? ? U]; subst; [apply unprintable_undefined in U; congruence|]. rewrite IH by exact U. reflexivity.
Qed.

Lemma traced_cases f : (exists s, trace_features f = Ok s) \/ trace_features f = UB.
Proof.
  induction f as [|x f IH]; cbn; [eauto|]. destruct (int_cases x) as [(z & ->)| ->]; [|auto]. cbn [bind]. destruct IH as [(s & ->)| ->]; cbn; eauto.
Qed.

Lemma lines_undefined b f y : In (f, y) b -> Exists unprintable f -> trace_best_lines b = UB.
Proof.
  intros IN U. induction b as [|[g [p x]] b IH]; [destruct IN|]. cbn. destruct IN as [E|IN].
  - inversion E; subst. rewrite (traced_undefined _ U). reflexivity.
  - destruct (traced_cases g) as [(s & ->)| ->]; [|reflexivity]. cbn [bind]. rewrite (IH IN). reflexivity.
Qed.

Lemma unprintable_same f g : same_features f g = true -> Exists unprintable f -> Exists unprintable g.
Proof.
  revert g. induction f as [|x f IH]; intros [|y g] S U; cbn in S; try discriminate; [exact U|]. apply andb_prop in S. destruct S as [E S].
  inversion U; subst; [left; eapply unprintable_equal; eauto|right; auto].
Qed.

(** The trace of the best policies of data with such a feature. *)
Lemma best_undefined d f p m fs rs best : wfd d -> In ((f, p), m) d -> Exists unprintable f -> ds_find_min d [] [] = (fs, rs, best) -> trace_best_lines best = UB.
Proof.
  intros W IN U E. unfold ds_find_min in E. assert (EB : best = fold_left min_step d []) by congruence. clear E. destruct (best_of_wf d W) as [WB S].
  assert (FK : fok f). { destruct W as [A _]. rewrite Forall_forall in A. exact (A _ IN). }
  assert (X := S f FK). destruct (best_fold (entries_of f d) None) as [v|] eqn:BF.
  - apply find_In in X. destruct X as (g & IG & EQ). rewrite <- EB in IG. eapply lines_undefined; [exact IG|]. eapply unprintable_same; [|exact U].
    rewrite <- vec_eqv; [exact EQ|exact FK|]. destruct WB as [A _]. rewrite Forall_forall in A. rewrite EB in IG. exact (A _ IG).
  - exfalso. apply best_fold_None in BF. assert (In (p, m) (entries_of f d)) as K by (apply In_entries; exists f; split; [exact IN|apply same_features_refl; exact FK]). rewrite BF in K. destruct K.
Qed.

Section Platform.
Variable P : platform.
Variable c : config.
Variable files : list (bytes * bytes).

Lemma best_trace_undefined os w xs r R f p m :
  run P (start_world c files) os = Ok (w, xs) -> forallb explicit os = true -> nth_error (w_regions w) r = Some R -> r_alive R = true ->
  cf_trace_best c <> 0 -> cf_region_model c <> 0 -> In (f, p, m) (ds_to_vector (r_dataset R)) -> Exists unprintable f ->
  forall st (force : bool), force = true \/ m_trainable (r_model R) = true -> step P w (OpTrain r st false force) = UB.
Proof.
  intros H EX ER AL TB RM IN U st force TR. destruct (inv_run P (start_world c files) eq_refl eq_refl eq_refl _ _ _ EX H) as (log & I). assert (C := i_config _ _ _ _ _ I). cbn in C.
  assert (W := wf_started P _ _ _ _ _ H _ _ ER). apply (proj1 (In_to_vector _ _ _ _)) in IN.
  assert (G : get_region w r = Ok R) by (unfold get_region; rewrite ER, AL; reflexivity).
  cbn [step]. unfold region_train. rewrite G. cbn [bind].
  assert (TT : negb force && negb (m_trainable (r_model R)) = false) by (destruct TR as [->|T]; [reflexivity|rewrite T, andb_false_r; reflexivity]).
  rewrite TT. cbn [bind]. unfold train_body. rewrite G. cbn [bind].
  assert (SZ : ds_size (r_dataset R) <=? 0 = false) by (apply Z.leb_gt; unfold ds_size; destruct (r_dataset R); [destruct IN|cbn [List.length]; lia]). rewrite SZ.
  rewrite (same_config_field cf_region_model _ _ (fun _ => eq_refl) C). unfold truthy at 1. apply Z.eqb_neq in RM. rewrite RM. cbn [negb].
  unfold trace_best. rewrite (same_config_field cf_trace_best _ _ (fun _ => eq_refl) C). unfold truthy at 1. apply Z.eqb_neq in TB. rewrite TB. cbn [negb].
  destruct (ds_find_min (r_dataset R) [] []) as [[fs rs] best] eqn:E. rewrite (best_undefined _ _ _ _ _ _ _ W IN U E). reflexivity.
Qed.

Lemma policy_trace_undefined os w xs r p :
  run P (start_world c files) os = Ok (w, xs) -> forallb explicit os = true -> cf_trace_policy c <> 0 -> Exists unprintable (call_features w r (Some p)) ->
  forall D, (forall w' y, step P w (OpGetPolicy r (Some p) D) <> Ok (w', y)) /\
    (forall R k m, nth_error (w_regions w) r = Some R -> r_alive R = true -> (exists cx, get_context w p = Ok cx) ->
       m_get_index P D (r_model R) (call_features w r (Some p)) = Ok (k, m) -> step P w (OpGetPolicy r (Some p) D) = UB).
Proof.
  intros H EX TP U D. destruct (inv_run P (start_world c files) eq_refl eq_refl eq_refl _ _ _ EX H) as (log & I). assert (C := i_config _ _ _ _ _ I). cbn in C.
  assert (V : forall cx, get_context w p = Ok cx -> call_features w r (Some p) = c_features cx) by (intros cx GC; unfold call_features; cbn [resolve]; rewrite GC; reflexivity). apply Z.eqb_neq in TP. split.
  - intros w' y E. cbn [step resolve bind] in E. apply bind_inv in E. destruct E as ([w1 ch] & E & _). unfold get_policy_index in E.
    apply bind_inv in E. destruct E as (R & G & E). apply bind_inv in E. destruct E as (cx & GC & E). apply bind_inv in E. destruct E as ([k m] & _ & E).
    apply bind_inv in E. destruct E as (w2 & E & _). unfold trace_policy in E. rewrite (same_config_field cf_trace_policy _ _ (fun _ => eq_refl) C) in E. unfold truthy in E. rewrite TP in E. cbn [negb] in E.
    rewrite (V _ GC) in U. rewrite (traced_undefined _ U) in E. discriminate.
  - intros R k m ER AL (cx & GC) MG. assert (G : get_region w r = Ok R) by (unfold get_region; rewrite ER, AL; reflexivity).
    cbn [step resolve bind]. unfold get_policy_index. rewrite G. cbn [bind]. rewrite GC. cbn [bind]. rewrite (V _ GC) in U, MG. rewrite MG. cbn [bind].
    unfold trace_policy. rewrite (same_config_field cf_trace_policy _ _ (fun _ => eq_refl) C). unfold truthy. rewrite TP. cbn [negb]. rewrite (traced_undefined _ U). reflexivity.
Qed.
End Platform.
