(** The C interface. *)
From Coq Require Import ZArith Bool Ascii String Lia List Permutation.
From Verif Require Import Model.Base Model.Float Model.DatasetM Model.PolicyModelsM Model.ConfigM Model.RuntimeM Model.CInterfaceM
  Spec.RuntimeSpec
  Proofs.TreeFacts Proofs.RuntimeFacts Proofs.RuntimePending Proofs.RuntimeSettled Proofs.RuntimeAccount Proofs.RuntimeClient Proofs.RuntimeNew Proofs.RuntimeTraining Proofs.RuntimeCurrent Proofs.KokkosTrain
  Spec.TreeSpec Spec.ForestSpec Spec.SafeClient Spec.CClient Proofs.SafeSteps.
Import ListNotations.
Open Scope Z_scope.

Lemma opened_snoc calls o r : opened (calls ++ [o]) r = open_step r (opened calls r) o.
Proof. unfold opened. rewrite fold_left_app. reflexivity. Qed.
Lemma made_snoc c calls o : made c (calls ++ [o]) = made c calls ++ match o with CCreate nf _ _ _ info _ => [(nf, model_string c info)] | _ => [] end.
Proof. unfold made. rewrite flat_map_app. cbn. rewrite app_nil_r. reflexivity. Qed.

Lemma named_explicit calls : forallb explicit (map c_named calls) = true.
Proof. induction calls as [|[] calls IH]; cbn; auto. Qed.

Lemma c_device calls : forall xs o k, device_of (combine (map c_named calls) xs) (o, Heap k) = (false, None).
Proof.
  intros xs o k. unfold device_of. assert (G : forall s, fold_left (device_step (o, Heap k)) (combine (map c_named calls) xs) s = s); [|apply G].
  revert xs. induction calls as [|a calls IH]; intros [|x xs] s; cbn; try reflexivity. rewrite IH. destruct a; cbn; try reflexivity. unfold ctx_eqb. cbn. rewrite andb_false_r. reflexivity.
Qed.

Lemma c_ended calls : forall xs r p, In p (ended_on (combine (map c_named calls) xs) r) -> p = (r, Sync).
Proof.
  intros xs r p H. unfold ended_on in H. apply in_map_iff in H. destruct H as ([q p'] & E & H). cbn in E. subst p'. apply filter_In in H. destruct H as [H E]. cbn in E. apply Nat.eqb_eq in E. subst q.
  unfold ended in H. apply in_concat in H. destruct H as (l & Hl & H). apply in_map_iff in Hl. destruct Hl as ([a x] & <- & Ha). apply in_combine_l in Ha. apply in_map_iff in Ha. destruct Ha as (o & <- & _).
  destruct o; cbn in H; try contradiction. destruct H as [H|[]]. inversion H. reflexivity.
Qed.

Lemma combine_snoc {A B} (a : list A) (b : list B) x y : List.length a = List.length b -> combine (a ++ [x]) (b ++ [y]) = combine a b ++ [(x, y)].
Proof. revert b. induction a as [|u a IH]; intros [|v b] E; cbn in *; try discriminate; [reflexivity|]. rewrite IH by lia. reflexivity. Qed.

Lemma combine_map_fst {A B} (l : list A) : forall m : list B, List.length l = List.length m -> map fst (combine l m) = l.
Proof. induction l as [|x l IH]; intros [|y m] E; cbn in *; try discriminate; [reflexivity|]. rewrite IH by lia. reflexivity. Qed.

Lemma opened_begun calls : forall xs r, List.length calls = List.length xs -> opened calls r <> None -> 0 < count_begins (combine (map c_named calls) xs) r.
Proof.
  induction calls as [|o calls IH] using rev_ind; intros xs r L H; [contradiction H; reflexivity|]. rewrite app_length in L. cbn in L.
  destruct xs as [|x xs _] using rev_ind; [cbn in L; lia|]. rewrite app_length in L. cbn in L. rewrite map_app. cbn [map].
  assert (LE : List.length (map c_named calls) = List.length xs) by (rewrite map_length; lia).
  rewrite (combine_snoc _ _ _ _ LE). unfold count_begins. rewrite filter_app, app_length, Nat2Z.inj_add. fold (count_begins (combine (map c_named calls) xs) r).
  assert (N : 0 <= count_begins (combine (map c_named calls) xs) r) by (unfold count_begins; lia).
  rewrite opened_snoc in H. specialize (IH xs r ltac:(lia)).
  destruct o as [nf id np mt info init|q now|q now|q y|q D|q st]; cbn [open_step c_named filter is_begin_of begins fst snd] in *.
  - specialize (IH H). cbn. lia.
  - unfold is_begin_of. cbn [begins fst]. destruct (Nat.eqb q r); cbn; [lia|]. specialize (IH H). lia.
  - destruct (Nat.eqb q r); [contradiction H; reflexivity|]. specialize (IH H). cbn. lia.
  - assert (opened calls r <> None) by (destruct (Nat.eqb q r); [destruct (opened calls r); [discriminate|exact H]|exact H]). specialize (IH H0). cbn. lia.
  - specialize (IH H). cbn. lia.
  - specialize (IH H). cbn. lia.
Qed.

Section Platform.
Variable P : platform.
Variable c : config.
Variable files : list (bytes * bytes).

Lemma run_len os : forall w w' xs, run P w os = Ok (w', xs) -> List.length os = List.length xs.
Proof.
  induction os as [|o os IH]; intros w w' xs H; cbn in H; [inversion H; reflexivity|]. apply bind_inv in H. destruct H as ([w1 x] & _ & H). apply bind_inv in H. destruct H as ([w2 ys] & E & H).
  inversion H; subst. cbn. erewrite IH by eauto. reflexivity.
Qed.

(** Nothing is ever pending. *)
Lemma c_idle calls w xs : run P (start_world c files) (map c_named calls) = Ok (w, xs) -> forall r, pending_of w r = [].
Proof.
  intros H r. destruct (inv_run P (start_world c files) eq_refl eq_refl eq_refl _ _ _ (named_explicit calls) H) as (log & I).
  change (pending_of w r) with (pending w r). destruct (pending w r) as [|p l] eqn:E; [reflexivity|]. exfalso.
  assert (IN : In p (pending w r)) by (rewrite E; left; reflexivity). apply (i_heap _ _ _ _ _ I _ _ IN). 
  assert (J : In p (ended_on (combine (map c_named calls) xs) r)).
  { eapply Permutation_in; [symmetry; apply (i_count _ _ _ _ _ I)|]. apply in_or_app. right. exact IN. }
  apply c_ended in J. subst p. reflexivity.
Qed.

(** The current context is the synchronous one from begin to end. *)
Lemma c_current calls : forall w xs, run P (start_world c files) (map c_named calls) = Ok (w, xs) ->
  forall r R, nth_error (w_regions w) r = Some R -> r_current R = match opened calls r with Some _ => Some (r, Sync) | None => None end.
Proof.
  induction calls as [|o calls IH] using rev_ind; intros w xs H r R ER.
  - cbn in H. inversion H; subst. destruct r; discriminate ER.
  - destruct (inv_run P (start_world c files) eq_refl eq_refl eq_refl _ _ _ (named_explicit _) H) as (L & I). rewrite map_app in *. cbn [map] in *.
    destruct (run_snoc_inv P _ _ _ _ _ H) as (w1 & xs1 & x & H1 & ST & ->). specialize (IH _ _ H1).
    assert (LE := run_len _ _ _ _ H1). rewrite (combine_snoc _ _ _ _ LE) in I.
    destruct (records_snoc_inv P _ _ _ _ _ _ (i_records _ _ _ _ _ I)) as (log & l & w1' & EL & RC & ST' & TK & SD).
    assert (w1' = w1).
    { assert (X := records_run _ _ _ _ _ RC). rewrite combine_map_fst, H1 in X by lia. inversion X. reflexivity. }
    subst w1'. rewrite opened_snoc. destruct SD as [_ SD]. destruct (nth_error (w_regions w1) r) as [R1|] eqn:ER1.
    + destruct (SD _ _ _ ER1 ER) as (_ & _ & _ & ->). rewrite (IH _ _ ER1). unfold current_after, is_begin_of. cbn [fst snd].
      assert (AS : forall e q, In e l -> ~ asynchronous (combine (map c_named calls) xs1 ++ [(c_named o, x)]) log q e).
      { intros e q _ (_ & _ & k & j & ms & EC & ED & _). rewrite EC, <- (combine_snoc _ _ _ _ LE) in ED. change [c_named o] with (map c_named [o]) in ED. rewrite <- map_app, c_device in ED. discriminate ED. }
      destruct o as [nf id np mt info init|q now|q now|q y|q D|q st]; cbn [c_named begins open_step taken] in *.
      * subst l. reflexivity.
      * assert (x = GotContext (q, Sync)).
        { cbn [step] in ST. apply bind_inv in ST. destruct ST as ([v p] & EB & X). inversion X; subst. apply begin_context_spec in EB. destruct EB as (R0 & _ & -> & _). reflexivity. }
        subst x l. destruct (Nat.eqb_spec q r) as [->|]; reflexivity.
      * destruct TK as (e & s0 & _ & -> & ER0 & _). cbn [taken_for filter]. rewrite ER0. destruct (Nat.eqb q r); reflexivity.
      * subst l. cbn. destruct (Nat.eqb q r); [|reflexivity]. destruct (opened calls r); reflexivity.
      * subst l. reflexivity.
      * destruct l as [|e l]; [reflexivity|]. exfalso. inversion TK as [|? ? A B]; subst. eapply AS; [left; reflexivity|exact A].
    + destruct (inv_run P (start_world c files) eq_refl eq_refl eq_refl _ _ _ (named_explicit calls) H1) as (log1 & I1).
      assert (N : opened calls r = None).
      { destruct (i_fresh_region _ _ _ _ _ I1 _ ER1) as [_ CB]. destruct (opened calls r) eqn:EO; [|reflexivity].
        assert (X := opened_begun calls xs1 r). rewrite map_length in LE. rewrite EO in X. specialize (X LE ltac:(discriminate)). lia. }
      assert (LR : List.length (w_regions w) = (List.length (w_regions w1) + List.length (creates (c_named o)))%nat).
      { assert (A := i_names _ _ _ _ _ I). assert (B := i_names _ _ _ _ _ I1). rewrite map_app, (combine_map_fst _ _ LE) in A. rewrite (combine_map_fst _ _ LE) in B.
        apply (f_equal (@List.length _)) in A. apply (f_equal (@List.length _)) in B. unfold region_names, created_names in A, B. rewrite map_length in A, B.
        rewrite A, B, map_app, concat_app, app_length. cbn [map concat fst]. rewrite app_nil_r. reflexivity. }
      apply nth_error_None in ER1. assert (LT : (r < List.length (w_regions w))%nat) by (apply nth_error_Some; congruence).
      destruct o as [nf id np mt info init|q now|q now|q y|q D|q st]; cbn [c_named creates List.length] in LR; try lia.
      cbn [open_step]. rewrite N. cbn [c_named step] in ST. apply bind_inv in ST. destruct ST as ([v i] & ST & X). inversion X; subst v x. clear X.
      apply new_region_spec in ST. destruct ST as (_ & v & mn0 & ps0 & mn & ps & info' & m0 & _ & _ & _ & (_ & ws & R0 & EW & F & BL & _) & EV & _).
      rewrite EV, EW in ER. assert (LW := Forall2_length' _ _ _ F). rewrite nth_error_app2 in ER by lia. destruct (r - List.length ws)%nat as [|[|k]]; [|discriminate ER|discriminate ER].
      inversion ER; subst R0. apply BL.
Qed.

Lemma resolve_current w r R : get_region w r = Ok R -> r_current R = Some (r, Sync) -> resolve w r None = Ok (r, Sync).
Proof. intros E C. unfold resolve. rewrite E. cbn [bind]. rewrite C. reflexivity. Qed.

(** A call means the synchronous context of its region. *)
Lemma c_step w o : (forall r, inside o = Some r -> forall R, nth_error (w_regions w) r = Some R -> r_current R = Some (r, Sync)) ->
  step P w (c_call o) = step P w (c_named o).
Proof.
  intros H. assert (G : forall r, inside o = Some r -> resolve w r None = resolve w r (Some (r, Sync)) \/ get_region w r = UB).
  { intros r E. destruct (get_region w r) as [R| | | |] eqn:ER; auto; try (exfalso; unfold get_region in ER; destruct (nth_error _ _) as [R|]; [destruct (r_alive R)|]; discriminate ER).
    left. rewrite (resolve_current w r R ER); [reflexivity|]. eapply H; eauto. apply get_region_ok in ER. apply ER. }
  destruct o as [nf id np mt info init|q now|q now|q y|q D|q st]; cbn [c_call c_named step]; try reflexivity; destruct (G _ eq_refl) as [E|E].
  - destruct (get_region w q); [|reflexivity..]. cbn [bind]. rewrite E. reflexivity.
  - rewrite E. reflexivity.
  - destruct (get_region w q); [|reflexivity..]. cbn [bind]. rewrite E. reflexivity.
  - rewrite E. reflexivity.
  - rewrite E. reflexivity.
  - unfold resolve, get_policy_index. rewrite E. reflexivity.
Qed.

(** The runs are those of the calls with the contexts named. *)
Lemma c_run_named calls : forall w xs, run P (start_world c files) (map c_call calls) = Ok (w, xs) -> run P (start_world c files) (map c_named calls) = Ok (w, xs).
Proof.
  induction calls as [|o calls IH] using rev_ind; intros w xs H; [exact H|]. rewrite map_app in *. cbn [map] in *.
  destruct (run_snoc_inv P _ _ _ _ _ H) as (w1 & xs1 & x & H1 & ST & ->). specialize (IH _ _ H1). eapply run_snoc; [exact IH|]. rewrite <- c_step; [exact ST|].
  intros r EI R ER. assert (C := c_current _ _ _ IH r R ER). destruct (opened calls r) as [fs|] eqn:EO; [exact C|]. exfalso.
  rewrite (context_free_undefined P r w1 (c_call o)) in ST; [discriminate ST| |].
  - intros R' ER'. congruence.
  - destruct o; try discriminate EI; cbn in EI; inversion EI; subst; cbn; apply Nat.eqb_refl.
Qed.

Lemma c_run_back calls : (forall pre o post, calls = pre ++ o :: post -> forall r, inside o = Some r -> opened pre r <> None) ->
  forall w xs, run P (start_world c files) (map c_named calls) = Ok (w, xs) -> run P (start_world c files) (map c_call calls) = Ok (w, xs).
Proof.
  induction calls as [|o calls IH] using rev_ind; intros B w xs H; [exact H|]. rewrite map_app in *. cbn [map] in *.
  destruct (run_snoc_inv P _ _ _ _ _ H) as (w1 & xs1 & x & H1 & ST & ->). eapply run_snoc; [apply IH; [|exact H1]|].
  - intros pre o' post -> r. apply (B pre o' (post ++ [o])). rewrite <- app_assoc. reflexivity.
  - rewrite c_step; [exact ST|]. intros r EI R ER. assert (C := c_current _ _ _ H1 r R ER). assert (N := B calls o [] eq_refl r EI). destruct (opened calls r); [exact C|contradiction N; reflexivity].
Qed.

(** What the client of the named calls knows. *)
Lemma c_knows calls : forall w xs, run P (start_world c files) (map c_named calls) = Ok (w, xs) ->
  let v := view_of c (combine (map c_named calls) xs) in v_regions v = made c calls /\ forall r, v_open v (r, Sync) = opened calls r.
Proof.
  induction calls as [|o calls IH] using rev_ind; intros w xs H; [cbn in *; split; reflexivity|]. rewrite map_app in *. cbn [map] in *.
  destruct (run_snoc_inv P _ _ _ _ _ H) as (w1 & xs1 & x & H1 & ST & ->). destruct (IH _ _ H1) as [V1 V2]. rewrite (combine_snoc _ _ _ _ (run_len _ _ _ _ H1)).
  unfold view_of in *. rewrite fold_left_app. cbn [fold_left]. set (v := fold_left _ _ _) in *. rewrite made_snoc.
  assert (CE : forall q r, ctx_eqb (r, Sync) (q, Sync) = Nat.eqb q r) by (intros; unfold ctx_eqb; cbn; rewrite andb_true_r; apply Nat.eqb_sym).
  destruct o as [nf id np mt info init|q now|q now|q y|q D|q st]; cbn [c_named] in *.
  - cbn. rewrite V1. split; [reflexivity|]. intros r. rewrite opened_snoc, V2. reflexivity.
  - assert (x = GotContext (q, Sync)).
    { cbn [step] in ST. apply bind_inv in ST. destruct ST as ([u p] & EB & X). inversion X; subst. apply begin_context_spec in EB. destruct EB as (R0 & _ & -> & _). reflexivity. }
    subst x. cbn [view_step]. unfold SafeClient.with_current, with_open. cbn [v_regions v_open]. rewrite app_nil_r. split; [exact V1|]. intros r. rewrite opened_snoc, CE, V2. reflexivity.
  - cbn [view_step close meant]. unfold close, SafeClient.with_current, with_open. cbn [meant v_regions v_open]. rewrite app_nil_r. split; [exact V1|]. intros r. rewrite opened_snoc, CE, V2. reflexivity.
  - cbn [view_step meant]. rewrite app_nil_r, V2. split; [destruct (opened calls q); exact V1|]. intros r. rewrite opened_snoc. cbn [open_step].
    destruct (opened calls q) as [fs|] eqn:EO; unfold with_open; cbn [v_open].
    + rewrite CE, V2. destruct (Nat.eqb_spec q r) as [->|]; [rewrite EO; reflexivity|reflexivity].
    + rewrite V2. destruct (Nat.eqb_spec q r) as [->|]; [rewrite EO; reflexivity|reflexivity].
  - cbn [view_step]. rewrite app_nil_r. split; [exact V1|]. intros r. rewrite opened_snoc, V2. reflexivity.
  - cbn [view_step]. unfold SafeClient.with_current. cbn [v_regions v_open]. rewrite app_nil_r. split; [exact V1|]. intros r. rewrite opened_snoc, V2. reflexivity.
Qed.

Lemma c_open_on pre r fs : open_on (c_view c pre) r None fs -> opened pre r = Some fs.
Proof.
  intros (q & E & E1 & E2). cbn in E, E2. destruct (opened pre r) as [gs|] eqn:EO; [|discriminate E]. inversion E; subst q. cbn in E2. congruence.
Qed.

Lemma c_allowed pre v o : v_regions v = made c pre -> (forall r, v_open v (r, Sync) = opened pre r) -> allowed c (c_view c pre) (c_call o) -> allowed c v (c_named o).
Proof.
  intros V1 V2 A. assert (O : forall r fs, open_on (c_view c pre) r None fs -> open_on v r (Some (r, Sync)) fs).
  { intros r fs H. apply c_open_on in H. exists (r, Sync). split; [reflexivity|]. split; [reflexivity|]. rewrite V2. exact H. }
  destruct o as [nf id np mt info init|q now|q now|q y|q D|q st]; cbn [c_call c_named allowed] in *; unfold usable, sampling_ok in *; cbn [c_view v_regions] in A; rewrite ?V1.
  - exact A.
  - exact A.
  - destruct A as (fs & H & U). exists fs. auto.
  - destruct A as (fs & H). exists fs. auto.
  - destruct A as (fs & H & U). exists fs. auto.
  - exact A.
Qed.

Lemma c_inside calls : c_well_behaved c calls -> forall pre o post, calls = pre ++ o :: post -> forall r, inside o = Some r -> opened pre r <> None.
Proof.
  intros W pre o post E r EI. specialize (W _ _ _ E). destruct o; try discriminate EI; cbn in EI; inversion EI; subst; cbn [c_call allowed] in W.
  - destruct W as (fs & H & _). apply c_open_on in H. congruence.
  - destruct W as (fs & H). apply c_open_on in H. congruence.
  - destruct W as (fs & H & _). apply c_open_on in H. congruence.
Qed.

(** A call outside begin and end is undefined. *)
Lemma c_outside calls w xs o r : run P (start_world c files) (map c_call calls) = Ok (w, xs) -> inside o = Some r -> opened calls r = None -> step P w (c_call o) = UB.
Proof.
  intros H EI EO. apply (context_free_undefined P r w (c_call o)).
  - intros R ER. assert (C := c_current _ _ _ (c_run_named _ _ _ H) r R ER). rewrite EO in C. exact C.
  - destruct o; try discriminate EI; cbn in EI; inversion EI; subst; cbn; apply Nat.eqb_refl.
Qed.

Lemma c_idle_world calls w xs : run P (start_world c files) (map c_call calls) = Ok (w, xs) -> idle w.
Proof. intros H r R ER. assert (X := c_idle calls w xs (c_run_named _ _ _ H) r). unfold pending_of in X. rewrite ER in X. exact X. Qed.

(** Training through the C interface. *)
Lemma c_train calls w xs r st w' x : run P (start_world c files) (map c_call calls) = Ok (w, xs) -> step P w (c_call (CTrain r st)) = Ok (w', x) ->
  List.length (w_regions w') = List.length (w_regions w) /\
  forall i R, nth_error (w_regions w) i = Some R -> exists m, nth_error (w_regions w') i = Some (with_model R m) /\
    (i = r -> m_trainable (r_model R) = true -> trained_with P (r_model R) (r_dataset R) m) /\ (i <> r \/ m_trainable (r_model R) = false -> m = r_model R).
Proof.
  intros H ST. cbn [c_call step] in ST. apply bind_inv in ST. destruct ST as (w1 & ST & X). inversion X; subst w1 x. clear X.
  rewrite train_idle in ST by (eapply c_idle_world; exact H). apply train_quietly_exact in ST. destruct ST as (_ & L & E). split; [exact L|].
  intros i R ER. destruct (E _ _ ER) as (m & Em & Q). exists m. split; [exact Em|]. destruct (Nat.eqb_spec i r) as [->|NE].
  - cbn [andb] in Q. split; [intros _ T; rewrite T in Q; exact Q|]. intros [N|T]; [contradiction N; reflexivity|]. rewrite T in Q. exact Q.
  - cbn [andb] in Q. split; [intros E2; contradiction|]. intros _. exact Q.
Qed.

Hypothesis HS : sorter_ok (p_sort P).
Hypothesis HP : picker_ok (p_pick P).
Hypothesis PL : SafeClient.plain c.

Theorem c_client calls : Z.of_nat (List.length calls) < 2 ^ 24 -> c_well_behaved c calls ->
  exists w xs, run P (start_world c files) (map c_call calls) = Ok (w, xs) /\ forall waits, exists w', step P w (OpShutdown waits) = Ok (w', Done).
Proof.
  intros L W. destruct (safe_runs P c HS HP PL files (map c_named calls)) as (w & xs & RUN & SH).
  - rewrite map_length. exact L.
  - intros pre o post w xs E RUN. apply map_eq_app in E. destruct E as (pre' & post' & -> & <- & E). apply map_eq_cons in E. destruct E as (o' & post'' & -> & <- & _).
    destruct (c_knows _ _ _ RUN) as [V1 V2]. eapply c_allowed; [exact V1|exact V2|]. eapply W. reflexivity.
  - exists w, xs. split; [exact (c_run_back calls (c_inside calls W) w xs RUN)|]. apply SH. exact (c_idle calls w xs RUN).
Qed.
End Platform.
