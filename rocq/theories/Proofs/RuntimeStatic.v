(** Runs in which every region has a static model. *)
From Coq Require Import ZArith Bool Ascii String Lia List.
From Verif Require Import Model.Base Model.Float Model.Decimal Model.DatasetM Model.ParserM Model.DatasetIO Model.ForestM Model.ModelStringM Model.PolicyModelsM Model.ConfigM Model.RuntimeM
  Spec.ModelStringSpec Spec.PolicyModelsSpec Spec.RuntimeSpec Proofs.TreeFacts Proofs.ModelStringFacts Proofs.PolicyModelsFacts Proofs.RuntimeFacts Proofs.RuntimePreserve Proofs.RuntimeSettled Proofs.RuntimeRange Proofs.RuntimeFiles.
Import ListNotations.
Open Scope Z_scope.

Lemma static_keys z : exists ps, parse_policy_model ($"Static,policy=" ++ print_Z z) = Ok ($"Static", ps) /\ param_find ($"policy") ps = Some (print_Z z) /\
  param_find ($"load") ps = None /\ param_find ($"load-dataset") ps = None.
Proof.
  destruct (parse_gives_items ($"Static") [($"policy", Some (print_Z z))]) as (m & E & F).
  - intros I. cbn in I. repeat destruct I as [I|I]; try discriminate; contradiction.
  - constructor; [|constructor]. repeat split; cbn.
    + intros I. repeat destruct I as [I|I]; try discriminate; contradiction.
    + intros I. repeat destruct I as [I|I]; try discriminate; contradiction.
    + apply print_Z_free_comma.
  - intros i [<-|[]]. constructor.
  - exists m. split; [rewrite <- E; f_equal; unfold model_text, item_text; cbn; now rewrite app_nil_r|].
    split; [apply F; constructor|]. split; apply F; constructor; try discriminate; constructor.
Qed.

Section Static.
Variable P : platform.
Variable p : Z.

Definition fixed (R : region) : Prop := r_model R = MStatic (r_num_policies R) (if r_num_policies R <=? p then 0 else p).
Definition kept_fixed (w0 : world) (i : nat) (R : region) : Prop := fixed R /\ as_many w0 i R.
Definition any_ptr (_ : nat) (_ : ctxptr) : Prop := True.

Lemma fixed_train R d m : fixed R -> m_train P (r_model R) d = Ok m -> with_model R m = R.
Proof. intros F H. rewrite F in H. cbn in H. injection H as <-. destruct R; cbn in *. rewrite F. reflexivity. Qed.

Lemma static_preserved w0 single persistent len : preserved P (kept_fixed w0) any_ptr single persistent true len.
Proof.
  constructor; unfold any_ptr, kept_fixed; try (intros; exact Logic.I); try (intros i R t [F S]; split; [exact F|exact S]).
  - intros i R k c0 c [F S] _ _. split; [exact F|exact S].
  - intros i R0 R m _ [F S] _ T. rewrite (fixed_train _ _ _ F T). auto.
  - intros i R d m _ [F S] T. rewrite (fixed_train _ _ _ F T). auto.
  - intros w i R q c x d H ER _ _ _ _. destruct (proj1 H _ _ ER) as [F S]. split; [exact F|exact S].
Qed.

Definition all_fixed (c : config) (w : world) : Prop := (forall i R, nth_error (w_regions w) i = Some R -> fixed R) /\ cf_policy_model (w_config w) = cf_policy_model c.

Lemma fixed_now w : (forall i R, nth_error (w_regions w) i = Some R -> fixed R) ->
  holds (kept_fixed w) (cf_single_model (w_config w)) (cf_persistent (w_config w)) (List.length (w_regions w)) w.
Proof. intros A. split; [|auto]. intros i R E. split; [eauto|]. intros R0 E0. congruence. Qed.

Definition same_count (w w' : world) : Prop := forall i R, nth_error (w_regions w) i = Some R -> exists R', nth_error (w_regions w') i = Some R' /\ r_num_policies R' = r_num_policies R.

Lemma fixed_then w0 single persistent w : holds (kept_fixed w0) single persistent (List.length (w_regions w0)) w ->
  (forall i R, nth_error (w_regions w) i = Some R -> fixed R) /\ same_count w0 w.
Proof.
  intros (A & _ & _ & L). split; [intros i R E; apply (A _ _ E)|]. intros i R E.
  destruct (nth_error (w_regions w) i) as [R'|] eqn:E'.
  - exists R'. split; auto. apply (proj2 (A _ _ E')). exact E.
  - exfalso. apply nth_error_None in E'. assert (X : nth_error (w_regions w0) i <> None) by congruence. apply nth_error_Some in X. lia.
Qed.

Lemma get_policy_fixed w r q D w' k : (forall i R, nth_error (w_regions w) i = Some R -> fixed R) -> get_policy_index P w r q D = Ok (w', k) ->
  (forall i R, nth_error (w_regions w') i = Some R -> fixed R) /\ same_count w w' /\
  exists R, nth_error (w_regions w) r = Some R /\ k = if r_num_policies R <=? p then 0 else p.
Proof.
  intros A E. unfold get_policy_index in E. apply bind_inv in E. destruct E as (R & ER & E). apply get_region_ok in ER. destruct ER as [ER AL].
  apply bind_inv in E. destruct E as (c & EC & E). apply bind_inv in E. destruct E as ([ch m] & EM & E). apply bind_inv in E. destruct E as (w1 & E1 & E).
  rewrite (A _ _ ER) in EM. cbn in EM. injection EM as <- <-.
  assert (W1 : w_regions w1 = w_regions w).
  { unfold trace_policy in E1. destruct (negb _); [inversion E1; subst; auto|]. apply bind_inv in E1. destruct E1 as (? & _ & E1). inversion E1; subst. auto. }
  rewrite <- (A _ _ ER) in E. rewrite with_model_same in E.
  assert (W2 : set_region w1 r R = w1). { unfold set_region. replace (set_nth (w_regions w1) r R) with (w_regions w1); [destruct w1; reflexivity|]. rewrite W1. clear - ER. revert r ER. induction (w_regions w) as [|y l IH]; intros [|n] H; cbn in *; try discriminate; [congruence|]. f_equal. auto. }
  rewrite W2 in E. apply bind_inv in E. destruct E as (c' & EC' & E). injection E as <- <-.
  assert (C := static_preserved w (cf_single_model (w_config w1)) (cf_persistent (w_config w1)) (List.length (w_regions w))).
  set (k := if r_num_policies R <=? p then 0 else p) in *.
  assert (X : forall i Q, nth_error (w_regions (set_context w1 q (mkContext (c_features c') k (c_idx c') (c_timer c')))) i = Some Q -> exists Q0, nth_error (w_regions w) i = Some Q0 /\ r_model Q = r_model Q0 /\ r_num_policies Q = r_num_policies Q0).
  { intros i Q. unfold set_context. rewrite W1. destruct (nth_error (w_regions w) (fst q)) as [Rq|] eqn:EQ; [|rewrite W1; eauto].
    destruct (snd q); cbn; rewrite nth_set_nth, W1, EQ; destruct (Nat.eqb_spec i (fst q)) as [->|]; eauto; intros Y; injection Y as <-; eexists; split; try exact EQ; auto. }
  split; [|split].
  - intros i Q EQ. destruct (X _ _ EQ) as (Q0 & E0 & Y1 & Y2). unfold fixed. rewrite Y1, Y2. eapply A; eauto.
  - intros i Q EQ. assert (L : List.length (w_regions (set_context w1 q (mkContext (c_features c') k (c_idx c') (c_timer c')))) = List.length (w_regions w)).
    { unfold set_context. rewrite W1. destruct (nth_error (w_regions w) (fst q)); [|congruence]. destruct (snd q); cbn; rewrite set_nth_length; congruence. }
    destruct (nth_error (w_regions (set_context w1 q (mkContext (c_features c') k (c_idx c') (c_timer c')))) i) as [Q'|] eqn:EQ'.
    + destruct (X _ _ EQ') as (Q0 & E0 & _ & Y2). exists Q'. split; [reflexivity|]. congruence.
    + exfalso. apply nth_error_None in EQ'. assert (Y : nth_error (w_regions w) i <> None) by congruence. apply nth_error_Some in Y. lia.
  - exists R. auto.
Qed.


Lemma new_region_fixed w nf nm np mt yaml init w' r : (forall i R, nth_error (w_regions w) i = Some R -> fixed R) ->
  cf_policy_model (w_config w) = $"Static,policy=" ++ print_Z p -> 0 <= p <= 2147483647 ->
  new_region P w nf nm np mt [] yaml init = Ok (w', r) ->
  (forall i R, nth_error (w_regions w') i = Some R -> fixed R) /\ same_count w w' /\ exists R, nth_error (w_regions w') r = Some R /\ r_num_policies R = np.
Proof.
  intros A PM B H. unfold new_region in H. rewrite PM in H.
  destruct (static_keys p) as (ps & EP & EK & N1 & N2). rewrite EP in H. cbn [bind] in H.
  unfold resolve_static_region in H. change (bytes_eqb ($"Static") ($"StaticRegion")) with false in H. cbn [bind] in H.
  rewrite static_created in H. unfold create_static, param_int in H. rewrite EK, stoi_whole in H by lia. cbn [bind] in H.
  destruct (p <? 0) eqn:L; [lia|]. cbn [bind] in H. apply bind_inv in H. destruct H as (m1 & EL & H).
  unfold load_models in EL. rewrite N1 in EL.
  assert (m1 = MStatic np (if np <=? p then 0 else p)) as -> by (destruct yaml; cbn in EL; injection EL as <-; reflexivity). clear EL.
  set (R0 := mkRegion true _ nf np mt _ _ _ [] 0 None _ [] [] []) in *. set (w1 := mkWorld _ _ (w_regions w ++ [R0]) _ _ _) in *.
  assert (A1 : forall i R, nth_error (w_regions w1) i = Some R -> fixed R).
  { intros i R E. cbn in E. apply nth_snoc in E. destruct E as [E|[-> ->]]; [eauto|]. reflexivity. }
  assert (C := static_preserved w1 (cf_single_model (w_config w1)) (cf_persistent (w_config w1)) (List.length (w_regions w1))).
  assert (H1 := fixed_now w1 A1).
  apply bind_inv in H. destruct H as (w2 & EPD & H).
  assert (H2 : holds (kept_fixed w1) (cf_single_model (w_config w1)) (cf_persistent (w_config w1)) (List.length (w_regions w1)) w2).
  { unfold load_persistent in EPD. destruct (truthy (cf_persistent (w_config w1))); [|inversion EPD; subst; auto].
    apply bind_inv in EPD. destruct EPD as (w3 & E5 & EPD).
    assert (H3 : holds (kept_fixed w1) (cf_single_model (w_config w1)) (cf_persistent (w_config w1)) (List.length (w_regions w1)) w3).
    { destruct (file_find _ _); [|inversion E5; subst; auto]. unfold load_dataset in E5. apply bind_inv in E5. destruct E5 as (R & ER & E5). apply bind_inv in E5. destruct E5 as ([d t] & _ & E5). injection E5 as <-.
      eapply holds_set; [exact C|exact H1|]. destruct (proj1 H1 _ _ (proj1 (proj1 (get_region_ok _ _ _) ER))) as [F S]. split; [exact F|exact S]. }
    eapply holds_auto_train; [exact C|exact H3|exact EPD]. }
  unfold load_and_train in H. rewrite N2 in H. cbn [bind] in H. unfold load_optimal, load_dataset_map in H.
  change (bytes_eqb ($"Static") ($"Optimal")) with false in H. change (bytes_eqb ($"Static") ($"DatasetMap")) with false in H. cbn [bind] in H.
  apply bind_inv in H. destruct H as (w3 & E6 & H).
  assert (H3 : holds (kept_fixed w1) (cf_single_model (w_config w1)) (cf_persistent (w_config w1)) (List.length (w_regions w1)) w3).
  { destruct (truthy (cf_trace_csv (w_config w2))); [|inversion E6; subst; auto]. apply bind_inv in E6. destruct E6 as (R & ER & E6). inversion E6; subst.
    eapply holds_set; [exact C|exact H2|]. destruct (proj1 H2 _ _ (proj1 (proj1 (get_region_ok _ _ _) ER))) as [F S]. split; [exact F|exact S]. }
  inversion H; subst. clear H. apply fixed_then in H3. destruct H3 as [A3 ST]. split; [exact A3|]. split.
  - intros i R E. apply ST. cbn. rewrite nth_error_app1; auto. apply nth_error_Some. congruence.
  - destruct (ST (List.length (w_regions w)) R0) as (R' & ER' & EN); [cbn; rewrite nth_error_app2, Nat.sub_diag by auto; reflexivity|].
    exists R'. split; [exact ER'|exact EN].
Qed.

Lemma fixed_step w o w' x : (forall i R, nth_error (w_regions w) i = Some R -> fixed R) -> cf_policy_model (w_config w) = $"Static,policy=" ++ print_Z p -> 0 <= p <= 2147483647 ->
  default_model o -> step P w o = Ok (w', x) ->
  (forall i R, nth_error (w_regions w') i = Some R -> fixed R) /\ same_count w w' /\
  match o, x with
  | OpGetPolicy r _ _, GotPolicy k => exists R, nth_error (w_regions w) r = Some R /\ k = if r_num_policies R <=? p then 0 else p
  | OpRegion _ _ np _ _ _ _, GotRegion r => exists R, nth_error (w_regions w') r = Some R /\ r_num_policies R = np
  | _, _ => True
  end.
Proof.
  intros A PM B SR H.
  assert (ORD : ordinary any_ptr true o -> (forall i R, nth_error (w_regions w') i = Some R -> fixed R) /\ same_count w w').
  { intros O. eapply fixed_then. eapply holds_step; [apply static_preserved|apply fixed_now; exact A|exact O|exact H]. }
  destruct o as [nf nm np mt info yaml init|r async now|r fs now|r q y|r q D|r q now early|r q y|r st collect force|st collect|r|r waits|waits|q ms];
    try (destruct ORD as [K1 K2]; [cbn; try exact Logic.I; try (destruct q; exact Logic.I); auto|split; [exact K1|split; [exact K2|exact Logic.I]]]; fail).
  - cbn in SR. subst info. cbn in H. apply bind_inv in H. destruct H as ([w1 r] & E1 & H). inversion H; subst. eapply new_region_fixed; eauto.
  - cbn in H. apply bind_inv in H. destruct H as (q1 & EQ & H). apply bind_inv in H. destruct H as ([w1 k] & E1 & H). inversion H; subst. eapply get_policy_fixed; eauto.
Qed.

Lemma fixed_run c : 0 <= p <= 2147483647 -> cf_policy_model c = $"Static,policy=" ++ print_Z p -> forall os w w' xs,
  (forall i R, nth_error (w_regions w) i = Some R -> fixed R) -> cf_policy_model (w_config w) = cf_policy_model c -> run P w os = Ok (w', xs) -> Forall default_model os ->
  (forall i R, nth_error (w_regions w') i = Some R -> fixed R) /\ same_count w w' /\
  (forall r q D k, In (OpGetPolicy r q D, GotPolicy k) (combine os xs) -> exists R, nth_error (w_regions w') r = Some R /\ k = if r_num_policies R <=? p then 0 else p) /\
  (forall nf nm np mt info yaml init r, In (OpRegion nf nm np mt info yaml init, GotRegion r) (combine os xs) -> exists R, nth_error (w_regions w') r = Some R /\ r_num_policies R = np).
Proof.
  intros B PM. induction os as [|o os IH]; intros w w' xs A CW H FS.
  - cbn in H. inversion H; subst. split; [exact A|]. split; [intros i R E; eauto|]. split; cbn; contradiction.
  - cbn [run] in H. apply bind_inv in H. destruct H as ([w1 x] & E1 & H). apply bind_inv in H. destruct H as ([w2 xs2] & E2 & H). inversion H; subst. clear H.
    inversion FS; subst. destruct (fixed_step w o w1 x A) as (A1 & ST1 & K1); auto; [congruence|].
    assert (CW1 : cf_policy_model (w_config w1) = cf_policy_model c).
    { assert (X := f_equal cf_policy_model (proj1 (own_step P _ _ _ _ E1))). cbn in X. congruence. }
    destruct (IH w1 w' xs2 A1 CW1 E2) as (A2 & ST2 & K2 & K3); auto.
    split; [exact A2|]. split; [|split].
    + intros i R E. destruct (ST1 _ _ E) as (R1 & F1 & G1). destruct (ST2 _ _ F1) as (R2 & F2 & G2). exists R2. split; [auto|congruence].
    + cbn. intros r q D k [E|IN]; [|eauto]. inversion E; subst. destruct K1 as (R & ER & K1). destruct (ST1 _ _ ER) as (R1 & F1 & G1). destruct (ST2 _ _ F1) as (R2 & F2 & G2).
      exists R2. split; [auto|]. replace (r_num_policies R2) with (r_num_policies R) by congruence. exact K1.
    + cbn. intros nf nm np mt info yaml init r [E|IN]; [|eauto]. inversion E; subst. destruct K1 as (R & ER & K1). destruct (ST2 _ _ ER) as (R2 & F2 & G2).
      exists R2. split; [auto|congruence].
Qed.

(** With a static model for every region each region gets one policy. *)
Lemma static_run c files os w xs r nf nm np mt info yaml init : 0 <= p <= 2147483647 -> cf_policy_model c = $"Static,policy=" ++ print_Z p ->
  run P (start_world c files) os = Ok (w, xs) -> Forall default_model os ->
  In (OpRegion nf nm np mt info yaml init, GotRegion r) (combine os xs) ->
  forall q D k, In (OpGetPolicy r q D, GotPolicy k) (combine os xs) -> k = if p <? np then p else 0.
Proof.
  intros B PM H FS IN q D k IN2.
  destruct (fixed_run c B PM os (start_world c files) w xs) as (_ & _ & K2 & K3); auto.
  { intros [|i] R E; discriminate. }
  destruct (K2 _ _ _ _ IN2) as (R & ER & ->). destruct (K3 _ _ _ _ _ _ _ _ IN) as (R' & ER' & <-). rewrite ER in ER'. injection ER' as <-.
  destruct (r_num_policies R <=? p) eqn:X, (p <? r_num_policies R) eqn:Y; try reflexivity; lia.
Qed.
End Static.
