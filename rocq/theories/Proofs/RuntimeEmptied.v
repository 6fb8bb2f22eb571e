(** Lemmas on the runtime: a kept measurement takes the features of its context. *)
From Coq Require Import ZArith Bool Ascii String Lia List Permutation.
From Verif Require Import Model.Base Model.Float Model.Decimal Model.DatasetM Model.PolicyModelsM Model.ConfigM Model.RuntimeM
  Spec.RuntimeSpec Spec.EmptiedSpec
  Proofs.TreeFacts Proofs.RuntimeFacts Proofs.RuntimeCollect Proofs.RuntimeMoves Proofs.RuntimePending Proofs.RuntimeOps
  Proofs.RuntimeSettled Proofs.RuntimeAccount Proofs.RuntimeClient Proofs.KokkosMeasured.
Import ListNotations.
Open Scope Z_scope.

Section Platform.
Variable P : platform.

(** The end of a synchronous execution. *)
Lemma collect_empties w r x w' R : collect_context P w r (r, Sync) x = Ok w' -> nth_error (w_regions w) r = Some R ->
  exists R', nth_error (w_regions w') r = Some R' /\
    c_features (r_sync R') = (if keeps (w_config w) R then [] else c_features (r_sync R)) /\ c_policy (r_sync R') = c_policy (r_sync R).
Proof.
  intros H ER. apply collect_context_collects in H. destruct H as (R1 & c & d & t & G & _ & _ & _ & _ & _ & _ & _ & _ & _ & HI).
  apply get_region_ok in G. destruct G as [G _]. rewrite ER in G. injection G as <-. destruct (HI _ _ ER) as (R' & ER' & _ & _ & _ & Y & _).
  exists R'. split; [exact ER'|]. rewrite Y. unfold keeps. cbn [is_sync_of]. rewrite Nat.eqb_refl, andb_true_r. destruct (_ || _); split; reflexivity.
Qed.

Lemma end_empties w r now early w' x R : step P w (OpEnd r (Some (r, Sync)) now early) = Ok (w', x) -> nth_error (w_regions w) r = Some R ->
  exists R', nth_error (w_regions w') r = Some R' /\
    c_features (r_sync R') = (if keeps (w_config w) R then [] else c_features (r_sync R)) /\ c_policy (r_sync R') = c_policy (r_sync R).
Proof.
  intros ST ER. cbn in ST. apply bind_inv in ST. destruct ST as (R0 & G0 & ST). apply bind_inv in ST. destruct ST as (v & HE & E). inversion E; subst v x. clear E.
  unfold end_context in HE. apply bind_inv in HE. destruct HE as (cx & EC & HE). cbn [is_sync_of] in HE. rewrite Nat.eqb_refl in HE.
  apply bind_inv in HE. destruct HE as (d & ED & HE). destruct d as [m|]; [|discriminate HE]. unfold get_context in EC. cbn [fst snd] in EC. rewrite ER in EC.
  destruct (r_alive R); [|discriminate EC]. injection EC as <-.
  assert (ES : forall k, nth_error (w_regions (set_context w (r, Sync) k)) r = Some (with_sync R k)).
  { intros k. unfold set_context. cbn [fst snd]. rewrite ER. cbn [set_region w_regions]. eapply nth_set_nth_eq. exact ER. }
  destruct (collect_empties _ _ _ _ _ HE (ES _)) as (R' & ER' & F & Q). exists R'. split; [exact ER'|].
  unfold set_context in F. cbn [fst snd] in F. rewrite ER in F. split; [exact F|exact Q].
Qed.

Lemma end_metric_empties w0 h log w r y w' x R : inv P w0 h log w -> step P w (OpEndMetric r (Some (r, Sync)) y) = Ok (w', x) -> nth_error (w_regions w) r = Some R ->
  exists R', nth_error (w_regions w') r = Some R' /\
    c_features (r_sync R') = (if keeps (w_config w) R then [] else c_features (r_sync R)) /\ c_policy (r_sync R') = c_policy (r_sync R).
Proof.
  intros I ST ER. cbn in ST. apply bind_inv in ST. destruct ST as (w2 & H & E). inversion E; subst w2 x. clear E. unfold end_metric in H. apply bind_inv in H. destruct H as (w1 & H1 & H2).
  destruct (collect_empties _ _ _ _ _ H1 ER) as (R1 & ER1 & F1 & Q1).
  apply collect_context_collects in H1. destruct (moves_collect P nothing _ _ _ _ _ H1) as (e & EE & M1).
  set (o := OpEndMetric r (Some (r, Sync)) y) in *. assert (BL := i_balanced _ _ _ _ _ I).
  assert (V1 : views (h ++ [(o, Done)]) (log ++ [e]) (device_of h) w1).
  { eapply ended_views; [exact BL|apply (i_views _ _ _ _ _ I)|exact H1|exact EE|reflexivity|intros; reflexivity]. }
  assert (PE : forall i, pending w1 i = pending w i) by (eapply collects_pending_same; eauto).
  assert (NS : forall p, In p (pending w1 r) -> is_sync_of r p = false).
  { intros p IN. rewrite PE in IN. assert (N := i_heap _ _ _ _ _ I _ _ IN). destruct p as [q [|k]]; [|reflexivity]. exfalso. apply N. reflexivity. }
  destruct (collect_pending_spec P nothing _ _ _ _ _ _ H2 V1 NS) as (l & kept & MV & F & _).
  assert (AH := async_heap _ _ _ _ _ F). apply moves_moved in MV. destruct MV as (_ & _ & _ & _ & _ & HI).
  destruct (HI _ _ ER1) as (R' & ER' & _ & _ & _ & Y & _). rewrite (all_heap_rest l) in Y by exact AH. exists R'. rewrite Y. auto.
Qed.

(** ** What follows *)

Lemma inv_run_from w0 os2 : forall h log w w2 xs2, inv P w0 h log w -> run P w os2 = Ok (w2, xs2) -> forallb explicit os2 = true ->
  exists log2, inv P w0 (h ++ combine os2 xs2) log2 w2.
Proof.
  induction os2 as [|o os2 IH]; intros h log w w2 xs2 I H EX; cbn in H.
  - inversion H; subst. exists log. cbn. rewrite app_nil_r. auto.
  - apply bind_inv in H. destruct H as ([w1 x] & ST & H). apply bind_inv in H. destruct H as ([w3 xs3] & RU & H). inversion H; subst. clear H.
    cbn in EX. apply andb_prop in EX. destruct EX as [EX1 EX2].
    destruct (inv_step P w0 _ _ _ _ _ _ I EX1 ST) as (l & I1). destruct (IH _ _ _ _ _ I1 RU EX2) as (log2 & I2).
    exists log2. cbn [combine]. change ((o, x) :: combine os2 xs3) with ([(o, x)] ++ combine os2 xs3). rewrite app_assoc. exact I2.
Qed.

Lemma nothing_given w0 os2 : forall h log w r w2 xs2, inv P w0 h log w -> run P w os2 = Ok (w2, xs2) -> forallb explicit os2 = true -> Forall (gives_nothing r) os2 ->
  features_of h log (r, Sync) = [] -> exists log2, inv P w0 (h ++ combine os2 xs2) log2 w2 /\ features_of (h ++ combine os2 xs2) log2 (r, Sync) = [].
Proof.
  induction os2 as [|o os2 IH]; intros h log w r w2 xs2 I H EX F E; cbn in H.
  - inversion H; subst. exists log. cbn. rewrite app_nil_r. auto.
  - apply bind_inv in H. destruct H as ([w1 x] & ST & H). apply bind_inv in H. destruct H as ([w3 xs3] & RU & H). inversion H; subst. clear H.
    cbn in EX. apply andb_prop in EX. destruct EX as [EX1 EX2]. inversion F as [|o' os' [G1 G2] F']; subst.
    destruct (inv_step P w0 _ _ _ _ _ _ I EX1 ST) as (l & I1).
    destruct (IH _ _ _ r _ _ I1 RU EX2 F') as (log2 & I2 & E2).
    + rewrite features_next by apply (i_balanced _ _ _ _ _ I). rewrite E. assert (SC := step_context P w o w1).
      destruct o as [nf nm np mt info yaml init|r' async now|r' gs now|r' q y|r' q D|r' q now early|r' q y|r' st collect force|st collect|r'|r' ws|ws|q ms]; cbn [add_features]; try reflexivity.
      * destruct x as [| |p|]; try reflexivity. destruct (ctx_eqb p (r, Sync)); reflexivity.
      * destruct x as [| |p|]; try reflexivity. destruct (ctx_eqb p (r, Sync)) eqn:EQ; [|reflexivity]. apply ctx_eqb_eq in EQ. subst p. specialize (SC _ ST). cbn in SC, G1. congruence.
      * destruct q as [q|]; [|reflexivity]. rewrite G2. reflexivity.
      * destruct q as [q|]; [|reflexivity]. destruct (ctx_eqb q (r, Sync)); [|reflexivity]. destruct (kept_flags l (r, Sync)) as [|[] ?]; reflexivity.
      * destruct q as [q|]; [|reflexivity]. destruct (ctx_eqb q (r, Sync)); [|reflexivity]. destruct (kept_flags l (r, Sync)) as [|[] ?]; reflexivity.
    + exists log2. cbn [combine]. change ((o, x) :: combine os2 xs3) with ([(o, x)] ++ combine os2 xs3). rewrite app_assoc. auto.
Qed.

Variable c : config.
Variable files : list (bytes * bytes).

Lemma kept_config os w xs : run P (start_world c files) os = Ok (w, xs) -> forallb explicit os = true -> forall R, keeps (w_config w) R = keeps c R.
Proof.
  intros H EX R. destruct (inv_run P (start_world c files) eq_refl eq_refl eq_refl _ _ _ EX H) as (log & J).
  assert (C := i_config _ _ _ _ _ J). cbn in C. unfold keeps. rewrite (same_config_field cf_persistent _ _ (fun _ => eq_refl) C). reflexivity.
Qed.

Lemma ended_empties os w xs r R o w' x : run P (start_world c files) os = Ok (w, xs) -> forallb explicit os = true -> nth_error (w_regions w) r = Some R ->
  (exists now early, o = OpEnd r (Some (r, Sync)) now early) \/ (exists y, o = OpEndMetric r (Some (r, Sync)) y) -> step P w o = Ok (w', x) ->
  exists R', nth_error (w_regions w') r = Some R' /\
    c_features (r_sync R') = (if keeps c R then [] else c_features (r_sync R)) /\ c_policy (r_sync R') = c_policy (r_sync R).
Proof.
  intros H EX ER O ST. rewrite <- (kept_config _ _ _ H EX R). destruct O as [(now & early & ->)|(y & ->)].
  - eapply end_empties; eauto.
  - destruct (inv_run P (start_world c files) eq_refl eq_refl eq_refl _ _ _ EX H) as (log & J). eapply end_metric_empties; eauto.
Qed.

Lemma empty_until_begun os w xs r R o w1 x os2 w2 xs2 R2 : run P (start_world c files) os = Ok (w, xs) -> forallb explicit os = true ->
  nth_error (w_regions w) r = Some R -> keeps c R = true ->
  (exists now early, o = OpEnd r (Some (r, Sync)) now early) \/ (exists y, o = OpEndMetric r (Some (r, Sync)) y) -> step P w o = Ok (w1, x) ->
  run P w1 os2 = Ok (w2, xs2) -> forallb explicit os2 = true -> Forall (gives_nothing r) os2 -> nth_error (w_regions w2) r = Some R2 -> r_alive R2 = true ->
  c_features (r_sync R2) = [].
Proof.
  intros H EX ER KE O ST RU EX2 F ER2 AL. destruct (ended_empties _ _ _ _ _ _ _ _ H EX ER O ST) as (R1 & ER1 & F1 & _). rewrite KE in F1.
  destruct (inv_run P (start_world c files) eq_refl eq_refl eq_refl _ _ _ EX H) as (log & J).
  assert (EO : explicit o = true) by (destruct O as [(? & ? & ->)|(? & ->)]; reflexivity).
  destruct (inv_step P _ _ _ _ _ _ _ J EO ST) as (l & J1).
  assert (C1 : exists k, get_context w1 (r, Sync) = Ok k /\ c_features k = []).
  { exists (r_sync R1). split; [|exact F1]. unfold get_context. cbn [fst snd]. rewrite ER1.
    assert (AL1 : r_alive R1 = true).
    { assert (RG : exists Q, get_region w r = Ok Q).
      { destruct O as [(? & ? & ->)|(? & ->)]; cbn in ST; apply bind_inv in ST; destruct ST as (? & G & ST); [eauto|].
        unfold end_metric in G. apply bind_inv in G. destruct G as (? & G & _). unfold collect_context in G. apply bind_inv in G. destruct G as (Q & G & _). eauto. }
      destruct RG as (Q & G). destruct (r_alive R1) eqn:AL1; [reflexivity|]. exfalso.
      assert (X : live w1 (r, Sync) \/ ~ live w1 (r, Sync)) by (unfold live, get_context; cbn [fst snd]; rewrite ER1, AL1; right; intros (? & X); discriminate X).
      apply get_region_ok in G. destruct G as [G AG]. rewrite ER in G. injection G as <-.
      destruct O as [(now & early & ->)|(y & ->)].
      - cbn in ST. apply bind_inv in ST. destruct ST as (R0 & G0 & ST). apply bind_inv in ST. destruct ST as (v & HE & E). inversion E; subst v x. clear E.
        unfold end_context in HE. apply bind_inv in HE. destruct HE as (cx & EC & HE). cbn [is_sync_of] in HE. rewrite Nat.eqb_refl in HE.
        apply bind_inv in HE. destruct HE as (d & ED & HE). destruct d as [m|]; [|discriminate HE].
        apply collect_context_collects in HE. destruct HE as (R3 & c3 & d3 & t3 & G3 & _ & _ & _ & _ & _ & _ & _ & _ & _ & HI).
        apply get_region_ok in G3. destruct G3 as [G3 A3]. destruct (HI _ _ G3) as (R4 & E4 & _ & A4 & _). congruence.
      - cbn in ST. apply bind_inv in ST. destruct ST as (v & HE & E). inversion E; subst v x. clear E. unfold end_metric in HE. apply bind_inv in HE. destruct HE as (w3 & HE & HC).
        apply collect_context_collects in HE. destruct HE as (R3 & c3 & d3 & t3 & G3 & _ & _ & _ & _ & _ & _ & _ & _ & _ & HI).
        destruct (HI _ _ ER) as (R4 & E4 & _ & A4 & _).
        unfold collect_pending in HC. apply bind_inv in HC. destruct HC as (R5 & G5 & HC). apply get_region_ok in G5. destruct G5 as [G5 A5].
        apply bind_inv in HC. destruct HC as ([w6 ps] & HC & HX). apply bind_inv in HX. destruct HX as (R6 & G6 & HX). apply get_region_ok in G6. destruct G6 as [G6 A6].
        inversion HX; subst w1. clear HX. cbn [set_region w_regions] in ER1. rewrite (nth_set_nth_eq _ _ _ R6 G6) in ER1. injection ER1 as <-. cbn in AL1. congruence. }
    rewrite AL1. reflexivity. }
  destruct C1 as (k & GK & FK). assert (V := i_views _ _ _ _ _ J1 _ _ GK). destruct V as (V & _). rewrite FK in V. symmetry in V.
  destruct (nothing_given _ _ _ _ _ _ _ _ J1 RU EX2 F V) as (log2 & J2 & E2).
  assert (G2 : get_context w2 (r, Sync) = Ok (r_sync R2)) by (unfold get_context; cbn [fst snd]; rewrite ER2, AL; reflexivity).
  destruct (i_views _ _ _ _ _ J2 _ _ G2) as (V2 & _). congruence.
Qed.

Lemma ends_sync_inv r o : ends_sync r o -> (exists now early, o = OpEnd r (Some (r, Sync)) now early) \/ (exists y, o = OpEndMetric r (Some (r, Sync)) y).
Proof. destruct o as [| | | | |? [p|] ? ?|? [p|] ?| | | | | |]; cbn; try contradiction; intros [-> ->]; [left|right]; eauto. Qed.

Lemma end_records w r now early w' x R : step P w (OpEnd r (Some (r, Sync)) now early) = Ok (w', x) -> nth_error (w_regions w) r = Some R ->
  exists R' t, nth_error (w_regions w') r = Some R' /\
    if keeps (w_config w) R then ds_insert (r_dataset R) (c_features (r_sync R)) (c_policy (r_sync R)) t = Ok (r_dataset R') else r_dataset R' = r_dataset R.
Proof.
  intros ST ER. cbn in ST. apply bind_inv in ST. destruct ST as (R0 & G0 & ST). apply bind_inv in ST. destruct ST as (v & HE & E). inversion E; subst v x. clear E.
  unfold end_context in HE. apply bind_inv in HE. destruct HE as (cx & EC & HE). cbn [is_sync_of] in HE. rewrite Nat.eqb_refl in HE.
  apply bind_inv in HE. destruct HE as (d & ED & HE). destruct d as [m|]; [|discriminate HE]. unfold get_context in EC. cbn [fst snd] in EC. rewrite ER in EC.
  destruct (r_alive R) eqn:AL; [|discriminate EC]. injection EC as <-.
  set (k := mkContext _ _ _ _) in *.
  assert (ES : nth_error (w_regions (set_context w (r, Sync) k)) r = Some (with_sync R k)).
  { unfold set_context. cbn [fst snd]. rewrite ER. cbn [set_region w_regions]. eapply nth_set_nth_eq. exact ER. }
  assert (EG : w_config (set_context w (r, Sync) k) = w_config w) by (unfold set_context; cbn [fst snd]; rewrite ER; reflexivity).
  apply collect_context_collects in HE. destruct HE as (R1 & c1 & d & t & G & GC & D & _ & _ & _ & _ & _ & _ & _ & HI).
  apply get_region_ok in G. destruct G as [G _]. rewrite ES in G. injection G as <-. destruct (HI _ _ ES) as (R' & ER' & CR).
  unfold get_context in GC. cbn [fst snd] in GC. rewrite ES in GC. cbn [r_alive with_sync] in GC. rewrite AL in GC. injection GC as <-. cbn [r_sync with_sync c_features c_policy k r_dataset r_model] in D.
  rewrite EG in D. exists R', m. split; [exact ER'|]. destruct CR as (_ & _ & _ & _ & _ & CR & _). rewrite Nat.eqb_refl in CR. subst d. exact D.
Qed.

Lemma moved_out os w xs r R o w' x : run P (start_world c files) os = Ok (w, xs) -> forallb explicit os = true -> nth_error (w_regions w) r = Some R ->
  ends_sync r o -> step P w o = Ok (w', x) ->
  exists R', nth_error (w_regions w') r = Some R' /\
    c_features (r_sync R') = (if keeps c R then [] else c_features (r_sync R)) /\ c_policy (r_sync R') = c_policy (r_sync R).
Proof. intros H EX ER O ST. exact (ended_empties _ _ _ _ _ _ _ _ H EX ER (ends_sync_inv _ _ O) ST). Qed.

Lemma nothing_left os w xs r R o w1 x os2 w2 xs2 R2 now early w3 y : run P (start_world c files) os = Ok (w, xs) -> forallb explicit os = true ->
  nth_error (w_regions w) r = Some R -> keeps c R = true -> ends_sync r o -> step P w o = Ok (w1, x) ->
  run P w1 os2 = Ok (w2, xs2) -> forallb explicit os2 = true -> Forall (gives_nothing r) os2 -> nth_error (w_regions w2) r = Some R2 ->
  step P w2 (OpEnd r (Some (r, Sync)) now early) = Ok (w3, y) ->
  c_features (r_sync R2) = [] /\
  exists R3 t, nth_error (w_regions w3) r = Some R3 /\
    if keeps c R2 then ds_insert (r_dataset R2) [] (c_policy (r_sync R2)) t = Ok (r_dataset R3) else r_dataset R3 = r_dataset R2.
Proof.
  intros H EX ER KE O ST RU EX2 F ER2 ST3.
  assert (AL : r_alive R2 = true).
  { cbn in ST3. apply bind_inv in ST3. destruct ST3 as (Q & G & _). apply get_region_ok in G. destruct G as [G A]. congruence. }
  assert (E0 : c_features (r_sync R2) = []) by (exact (empty_until_begun _ _ _ _ _ _ _ _ _ _ _ _ H EX ER KE (ends_sync_inv _ _ O) ST RU EX2 F ER2 AL)).
  split; [exact E0|]. destruct (end_records _ _ _ _ _ _ _ ST3 ER2) as (R3 & t & ER3 & D). rewrite E0 in D. exists R3, t. split; [exact ER3|].
  assert (K2 : keeps (w_config w2) R2 = keeps c R2).
  { assert (EO : explicit o = true) by (destruct (ends_sync_inv _ _ O) as [(? & ? & ->)|(? & ->)]; reflexivity).
    destruct (inv_run P (start_world c files) eq_refl eq_refl eq_refl _ _ _ EX H) as (log & J).
    destruct (inv_step P _ _ _ _ _ _ _ J EO ST) as (l & J1).
    destruct (inv_run_from _ _ _ _ _ _ _ J1 RU EX2) as (log2 & J2).
    assert (C := i_config _ _ _ _ _ J2). cbn in C. unfold keeps. rewrite (same_config_field cf_persistent _ _ (fun _ => eq_refl) C). reflexivity. }
  rewrite K2 in D. exact D.
Qed.
End Platform.
