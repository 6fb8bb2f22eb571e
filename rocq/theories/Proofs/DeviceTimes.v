(** The times of asynchronous executions. *)
From Coq Require Import ZArith Bool Reals Lia Lra SpecFloat String List.
From Flocq Require Import Core BinarySingleNaN Relative.
From Verif Require Import Model.Base Model.Float Model.RuntimeM Spec.RuntimeSpec Spec.TimerSpec
  Proofs.FloatFacts Proofs.FloatConv Proofs.KokkosDoubles Proofs.TimerFacts Proofs.RuntimeRecords Proofs.RuntimeExamples.
Import ListNotations.
Open Scope R_scope.

Definition device_seconds (ms : f32) : f64 := div64 (f64_of_f32 ms) (f64_of_Z 1000).

(** ** One report *)

Lemma tiny_f32 (x : f32) : B2R x <> 0 -> bpow radix2 (-149) <= Rabs (B2R x).
Proof.
  intros N. destruct x as [s|s| |s m e H]; cbn [B2R] in *; try (exfalso; apply N; reflexivity).
  rewrite <- F2R_Zabs. cbn [Fnum Fexp]. rewrite abs_cond_Zopp. cbn [Z.abs].
  apply (Rle_trans _ (bpow radix2 e)).
  - apply bpow_le. unfold bounded in H. apply andb_prop in H as [H _]. unfold canonical_mantissa in H. apply Zeq_bool_eq in H.
    unfold fexp, emin in H. lia.
  - unfold F2R. cbn [Fnum Fexp]. rewrite <- (Rmult_1_l (bpow radix2 e)) at 1. apply Rmult_le_compat_r; [apply bpow_ge_0|]. apply IZR_le. lia.
Qed.

Lemma quotient_error (x : f32) : Rabs (rnd64 (B2R x / 1000) - B2R x / 1000) <= bpow radix2 (-53) * Rabs (B2R x / 1000).
Proof.
  destruct (Req_dec (B2R x) 0) as [E|N].
  - rewrite E. replace (0 / 1000) with 0 by lra. rewrite round_0 by typeclasses eauto. rewrite Rminus_0_r, Rabs_R0, Rmult_0_r. lra.
  - assert (B : bpow radix2 (-1074 + 53 - 1) <= Rabs (B2R x / 1000)).
    { assert (T := tiny_f32 x N). unfold Rdiv. rewrite Rabs_mult. rewrite (Rabs_pos_eq (/ 1000)) by lra.
      assert (bpow radix2 (-1074 + 53 - 1) <= bpow radix2 (-149) * bpow radix2 (-10)) by (rewrite <- bpow_plus; apply bpow_le; lia).
      assert (bpow radix2 (-10) <= / 1000) by (cbn; lra).
      eapply Rle_trans; [eassumption|]. apply Rmult_le_compat; auto using bpow_ge_0. }
    generalize (relative_error_N_FLT radix2 (-1074) 53 eq_refl (fun z => negb (Z.even z)) (B2R x / 1000) B).
    assert (V : / 2 * bpow radix2 (- (53) + 1) = bpow radix2 (-53)) by (change (/ 2) with (bpow radix2 (-1)); rewrite <- bpow_plus; reflexivity).
    rewrite V. intros H. exact H.
Qed.

Lemma device_spec ms : is_finite ms = true -> in_seconds ms (device_seconds ms) /\ B2R (device_seconds ms) = rnd64 (B2R ms / 1000).
Proof.
  intros F. destruct (f64_of_f32_spec ms F) as [F1 V1]. destruct (f64_of_Z_spec 1000) as [F2 V2]; [reflexivity|].
  assert (Q := quotient_error ms). assert (A := abs_B2R_lt_emax 24 128 ms).
  assert (S : Rabs (rnd64 (B2R ms / 1000)) < bpow radix2 1024).
  { assert (A1 : Rabs (B2R ms / 1000) <= bpow radix2 128).
    { unfold Rdiv. rewrite Rabs_mult, (Rabs_pos_eq (/ 1000)) by lra. assert (P := Rabs_pos (B2R ms)). lra. }
    apply (small_1024 128); [lia|]. apply abs_round_le_generic; auto; [typeclasses eauto|typeclasses eauto|apply bpow_fmt; lia]. }
  destruct (div64_spec (f64_of_f32 ms) (f64_of_Z 1000) F1) as [F3 V3].
  - rewrite V2. lra.
  - rewrite V1, V2. exact S.
  - rewrite V1, V2 in V3. unfold device_seconds, in_seconds. rewrite V3. auto.
Qed.

Lemma next_f32 (a b : f32) : 0 <= B2R a -> B2R a < B2R b -> B2R a * bpow radix2 (-24) <= B2R b - B2R a.
Proof.
  intros A L. assert (S : succ radix2 (fexp 24 128) (B2R a) <= B2R b) by (apply succ_le_lt; auto using fmt32_B2R; typeclasses eauto).
  rewrite succ_eq_pos in S by exact A.
  assert (U := ulp_FLT_gt radix2 (-149) 24 (B2R a)). rewrite Rabs_pos_eq in U by exact A. change (ulp radix2 (FLT_exp (-149) 24)) with (ulp radix2 (fexp 24 128)) in U. 
  change (bpow radix2 (-(24))) with (bpow radix2 (-24)) in U. lra.
Qed.

Lemma device_order a b : is_finite a = true -> is_finite b = true -> 0 <= B2R a -> B2R a < B2R b ->
  0 <= B2R (device_seconds a) < B2R (device_seconds b).
Proof.
  intros FA FB A L. destruct (device_spec a FA) as [(_ & EA) VA]. destruct (device_spec b FB) as [(_ & EB) _].
  split.
  - rewrite VA. apply round_ge_generic; [typeclasses eauto|typeclasses eauto|apply generic_format_0|]. lra.
  - assert (N := next_f32 a b A L). rewrite (Rabs_pos_eq (B2R a / 1000)) in EA by lra. rewrite (Rabs_pos_eq (B2R b / 1000)) in EB by lra.
    apply Rabs_le_inv in EA. apply Rabs_le_inv in EB.
    change (bpow radix2 (-53)) with (/ 9007199254740992) in *. change (bpow radix2 (-24)) with (/ 16777216) in N.
    lra.
Qed.

Lemma device_accurate ms : is_finite ms = true -> exists x, timer_done (Events true (Some ms)) = Ok (Some x) /\ in_seconds ms x.
Proof. intros F. exists (device_seconds ms). split; [reflexivity|]. apply device_spec; exact F. Qed.

Lemma device_longer a b x y : is_finite a = true -> is_finite b = true -> 0 <= B2R a -> B2R a < B2R b ->
  timer_done (Events true (Some a)) = Ok (Some x) -> timer_done (Events true (Some b)) = Ok (Some y) -> 0 <= B2R x < B2R y.
Proof. intros FA FB A L X Y. cbn [timer_done] in X, Y. injection X as <-. injection Y as <-. apply device_order; assumption. Qed.

(** ** Runs *)

Lemma report_from p l s b ms : fold_left (report p) l s = (b, Some ms) -> snd s = Some ms \/ In ms (map snd l).
Proof.
  revert s. induction l as [|[q m] l IH]; intros s H; cbn [fold_left] in H; [left; rewrite H; reflexivity|].
  apply IH in H as [H|H]; [|right; cbn; auto]. unfold report in H. cbn [fst snd] in H. destruct (ctx_eqb q p); [|auto].
  destruct s as [[|] [m'|]]; cbn [snd] in *; auto. injection H as ->. right. left. reflexivity.
Qed.

Lemma device_from p os : forall xs s b ms, fold_left (device_step p) (combine os xs) s = (b, Some ms) -> snd s = Some ms \/ In ms (reported os).
Proof.
  induction os as [|o os IH]; intros [|x xs] s b m H; cbn [combine fold_left] in H; try (left; rewrite H; reflexivity).
  unfold reported. cbn [flat_map]. apply IH in H as [H|H]; [|right; apply in_or_app; right; exact H].
  destruct (device_step p s (o, x)) as [b' y] eqn:E. cbn [snd] in H. subst y. unfold device_step in E. cbn [fst] in E.
  destruct o; try (left; rewrite E; reflexivity).
  - destruct p0 as [q|]; [|left; rewrite E; reflexivity]. destruct (ctx_eqb q p); [|left; rewrite E; reflexivity].
    injection E as _ ->. right. left. reflexivity.
  - apply report_from in E as [E|E]; [left; exact E|]. right. apply in_or_app. left. exact E.
  - change (fold_left (report p) [(p0, ms)] s = (b', Some m)) in E. apply report_from in E as [E|E]; [left; exact E|].
    right. apply in_or_app. left. exact E.
Qed.

(** A context's device time was reported; or its execution was ended with a metric of the client. *)
Definition measured_time (os : list op) (e : entry) : Prop :=
  (exists ms, In ms (reported os) /\ e_metric e = device_seconds ms) \/
  In (OpEndMetric (e_region e) (Some (e_context e)) (e_metric e)) os.

Lemma records_times P w0 h log w : records P w0 h log w -> Forall (fun e => on_heap (e_context e) = true ->
  (exists h1 h2 ms, h = h1 ++ h2 /\ device_of h1 (e_context e) = (true, Some ms) /\ e_metric e = device_seconds ms) \/
  In (OpEndMetric (e_region e) (Some (e_context e)) (e_metric e)) (map fst h)) log.
Proof.
  induction 1 as [|h log w o x l w' R IH S T ST]; [constructor|]. apply Forall_app. split.
  - eapply Forall_impl; [|exact IH]. intros e E O. destruct (E O) as [(h1 & h2 & ms & -> & D & M)|I].
    + left. exists h1, (h2 ++ [(o, x)]), ms. rewrite app_assoc. auto.
    + right. rewrite map_app. apply in_or_app. auto.
  - assert (ASY : forall r e, asynchronous (h ++ [(o, x)]) log r e -> on_heap (e_context e) = true ->
      (exists h1 h2 ms, h ++ [(o, x)] = h1 ++ h2 /\ device_of h1 (e_context e) = (true, Some ms) /\ e_metric e = device_seconds ms) \/
      In (OpEndMetric (e_region e) (Some (e_context e)) (e_metric e)) (map fst (h ++ [(o, x)]))).
    { intros r e (_ & _ & q & k & ms & _ & D & M) _. left. exists (h ++ [(o, x)]), [], ms. rewrite app_nil_r. auto. }
    destruct o; cbn [taken] in T; try (subst l; constructor).
    + destruct p as [[q [|k]]|]; [|eapply Forall_impl; [|exact T]; intros e; apply ASY|subst l; constructor].
      destruct T as (e & t & _ & -> & _ & C & _). constructor; [|constructor]. intros O. rewrite C in O. discriminate O.
    + destruct p as [p|]; [|subst l; constructor]. destruct T as (e & rest & -> & RG & C & M & _ & F). constructor.
      * intros _. right. rewrite map_app. apply in_or_app. right. left. cbn [fst]. now rewrite RG, C, M.
      * eapply Forall_impl; [|exact F]. intros e'; apply ASY.
    + destruct collect; [|subst l; constructor]. eapply Forall_impl; [|exact T]. intros e; apply ASY.
    + destruct collect; [|subst l; constructor]. eapply Forall_impl; [|exact T]. intros e; apply ASY.
    + eapply Forall_impl; [|exact T]. intros e; apply ASY.
    + eapply Forall_impl; [|exact T]. intros e; apply ASY.
Qed.

Lemma combine_prefix {A B} (os : list A) : forall (xs : list B) h1 h2, combine os xs = h1 ++ h2 -> exists os1 os2 xs1, os = os1 ++ os2 /\ h1 = combine os1 xs1.
Proof.
  induction os as [|o os IH]; intros xs h1 h2 H.
  - destruct h1; [|discriminate H]. exists [], [], []. auto.
  - destruct h1 as [|e h1]; [exists [], (o :: os), []; auto|]. destruct xs as [|x xs]; [discriminate H|]. cbn in H. injection H as <- H.
    destruct (IH _ _ _ H) as (os1 & os2 & xs1 & -> & ->). exists (o :: os1), os2, (x :: xs1). auto.
Qed.

Lemma run_times P c files os w xs : run P (start_world c files) os = Ok (w, xs) -> forallb explicit os = true ->
  exists log, records P (start_world c files) (combine os xs) log w /\
    Forall (fun e => on_heap (e_context e) = true -> measured_time os e) log.
Proof.
  intros H EX. destruct (recorded_once P c files os w xs H EX) as (log & R & _). exists log. split; [exact R|].
  eapply Forall_impl; [|exact (records_times _ _ _ _ _ R)]. intros e E O. destruct (E O) as [(h1 & h2 & ms & EQ & D & M)|I].
  - left. exists ms. split; [|exact M]. destruct (combine_prefix _ _ _ _ EQ) as (os1 & os2 & xs1 & -> & ->).
    unfold device_of in D. apply device_from in D as [D|D]; [discriminate D|]. unfold reported. rewrite flat_map_app. apply in_or_app. left. exact D.
  - right. apply in_map_iff in I as ([o x] & E1 & I). cbn [fst] in E1. subst o. exact (in_combine_l _ _ _ _ I).
Qed.

Lemma run_accurate P c files os w xs : run P (start_world c files) os = Ok (w, xs) -> forallb explicit os = true ->
  Forall (fun ms : f32 => is_finite ms = true) (reported os) ->
  exists log, records P (start_world c files) (combine os xs) log w /\
    Forall (fun e => on_heap (e_context e) = true ->
      (exists ms, In ms (reported os) /\ in_seconds ms (e_metric e)) \/ In (OpEndMetric (e_region e) (Some (e_context e)) (e_metric e)) os) log.
Proof.
  intros H EX F. destruct (run_times P c files os w xs H EX) as (log & R & T). exists log. split; [exact R|].
  eapply Forall_impl; [|exact T]. intros e E O. destruct (E O) as [(ms & I & M)|I]; [left|right; exact I].
  exists ms. split; [exact I|]. rewrite M. rewrite Forall_forall in F. apply device_spec. auto.
Qed.

(** ** Example *)

Lemma reported_once : reported two_async = [f32_of_Z 2000].
Proof. reflexivity. Qed.

Lemma close_reports : exists a b : f32, is_finite a = true /\ is_finite b = true /\ B2R a = 16777215 /\ B2R b = 16777216.
Proof.
  destruct (f32_of_Z_spec 16777215) as [FA VA]; [lia|]. destruct (f32_of_Z_spec 16777216) as [FB VB]; [lia|].
  exists (f32_of_Z 16777215), (f32_of_Z 16777216). auto.
Qed.

Lemma device_example : exists w xs, run example_platform (start_world (settings "Static,policy=0" 0 0 0) []) two_async = Ok (w, xs) /\
  forallb explicit two_async = true /\ Forall (fun ms : f32 => is_finite ms = true) (reported two_async) /\ reported two_async <> [] /\ w_executions w = 2%Z.
Proof.
  destruct two_async_run as (w & xs & E & EX & _ & _ & N & _). exists w, xs. split; [exact E|]. split; [exact EX|]. rewrite reported_once.
  split; [constructor; [apply f32_of_Z_spec; lia|constructor]|]. split; [discriminate|exact N].
Qed.
