(** Lemmas on the runtime: calls of a synchronous client that are defined. *)
From Coq Require Import ZArith Bool Ascii String Lia List Permutation.
From Verif Require Import Model.Base Model.Float Model.Decimal Model.DatasetM Model.ParserM Model.DatasetIO
  Model.NetM Model.PolicyNetM Model.ModelStringM Model.PolicyModelsM Model.ConfigM Model.RuntimeM
  Spec.DatasetSpec Spec.DatasetClient Spec.RuntimeSpec
  Proofs.TreeFacts Proofs.RuntimeFacts Proofs.RuntimeCollect Proofs.RuntimeMoves Proofs.RuntimePending Proofs.RuntimeOps
  Proofs.RuntimeSettled Proofs.RuntimeNew Proofs.RuntimeAccount Proofs.RuntimeRecords Proofs.RuntimeClient Proofs.RuntimeCurrent.
Import ListNotations.
Open Scope Z_scope.

Section Runs.
Variable P : platform.

Lemma alive_get w r R : nth_error (w_regions w) r = Some R -> r_alive R = true -> get_region w r = Ok R.
Proof. intros E A. unfold get_region. rewrite E, A. reflexivity. Qed.

Lemma alive_context w r R : nth_error (w_regions w) r = Some R -> r_alive R = true -> get_context w (r, Sync) = Ok (r_sync R).
Proof. intros E A. unfold get_context. cbn. rewrite E, A. reflexivity. Qed.

Lemma set_region_at w r R R' : nth_error (w_regions w) r = Some R -> nth_error (w_regions (set_region w r R')) r = Some R'.
Proof. intros E. unfold set_region. cbn. eapply nth_set_nth_eq; eauto. Qed.

Lemma begin_defined w r R now : get_region w r = Ok R -> r_idx R <> idx_max -> exists w', begin_context w r false now = Ok (w', (r, Sync)).
Proof.
  intros E N. unfold begin_context. rewrite E. cbn [bind]. destruct (Z.eqb_spec (r_idx R) idx_max); [congruence|].
  apply get_region_ok in E. destruct E as [E A]. cbn [r_idx with_sync].
  destruct (Z.eqb_spec (r_idx R) idx_max); [congruence|].
  erewrite alive_context; [|eapply set_region_at; eauto|auto]. cbn. eauto.
Qed.

(** The training an ended execution may cause is switched off. *)
Lemma auto_train_off w r R : get_region w r = Ok R ->
  m_trainable (r_model R) = false \/ (cf_global_period (w_config w) = 0 /\ cf_region_period (w_config w) = 0 /\ r_min_training R <= 0) ->
  auto_train P w r = Ok w.
Proof.
  intros E H. unfold auto_train. rewrite E. cbn [bind]. destruct (m_trainable (r_model R)); auto. cbn [negb].
  destruct H as [H|(H1 & H2 & H3)]; [discriminate|]. rewrite H1, H2. cbn [truthy negb Z.eqb andb].
  destruct (Z.ltb_spec 0 (r_min_training R)); [lia|]. reflexivity.
Qed.

Lemma collect_defined w r R x : nth_error (w_regions w) r = Some R -> r_alive R = true -> nan_free (c_features (r_sync R)) = true ->
  m_trainable (r_model R) = false \/ (cf_global_period (w_config w) = 0 /\ cf_region_period (w_config w) = 0 /\ r_min_training R <= 0) ->
  exists w', collect_context P w r (r, Sync) x = Ok w'.
Proof.
  intros E A N H. unfold collect_context. rewrite (alive_get _ _ _ E A), (alive_context _ _ _ E A). cbn [bind].
  set (R1 := if truthy _ then _ else R).
  assert (K1 : r_alive R1 = true /\ r_model R1 = r_model R /\ r_min_training R1 = r_min_training R) by (unfold R1; destruct (truthy _); auto).
  destruct K1 as (K1 & K2 & K3).
  assert (exists R2, (if truthy (cf_persistent (w_config w)) || m_trainable (r_model R1)
    then let* d := ds_insert (r_dataset R1) (c_features (r_sync R)) (c_policy (r_sync R)) x in Ok (with_dataset (moved_features r (r, Sync) (r_sync R) R1) d) else Ok R1) = Ok R2 /\
    r_alive R2 = true /\ r_model R2 = r_model R /\ r_min_training R2 = r_min_training R) as (R2 & -> & L1 & L2 & L3).
  { destruct (_ || _); [|eauto]. unfold ds_insert. rewrite N. cbn [negb]. unfold moved_features. destruct (map_find _ _ _); cbn [bind]; (eexists; split; [reflexivity|]); destruct (is_sync_of r (r, Sync)); cbn; auto. }
  cbn [bind]. rewrite auto_train_off with (R := R2).
  - cbn [bind]. unfold is_sync_of. cbn. rewrite Nat.eqb_refl. cbn [bind].
    erewrite alive_get; [cbn; eauto|unfold count_execution; cbn; eapply nth_set_nth_eq; eauto|auto].
  - eapply alive_get; auto. unfold count_execution; cbn; eapply nth_set_nth_eq; eauto.
  - rewrite L2, L3. exact H.
Qed.

Lemma calls_defined c files os w xs r R ph ms :
  run P (start_world c files) os = Ok (w, xs) -> forallb explicit os = true ->
  followed r (combine os xs) = Some (ph, ms) -> nth_error (w_regions w) r = Some R -> r_alive R = true ->
  match ph with
  | Idle => count_begins (combine os xs) r < 2 ^ 31 - 1 -> forall now,
      (exists w', step P w (OpBegin r false now) = Ok (w', GotContext (r, Sync))) /\
      forall fs, exists w', step P w (OpBeginFeatures r fs now) = Ok (w', GotContext (r, Sync))
  | Running _ fs chosen =>
      (forall x, exists w', step P w (OpSetFeature r (Some (r, Sync)) x) = Ok (w', Done)) /\
      (forall D choice m, cf_trace_policy (w_config w) = 0 -> m_get_index P D (r_model R) fs = Ok (choice, m) ->
         exists w', step P w (OpGetPolicy r (Some (r, Sync)) D) = Ok (w', GotPolicy choice)) /\
      (nan_free fs = true -> m_trainable (r_model R) = false \/
           (cf_global_period (w_config w) = 0 /\ cf_region_period (w_config w) = 0 /\ r_min_training R <= 0) ->
         forall now early, exists w', step P w (OpEnd r (Some (r, Sync)) now early) = Ok (w', Done))
  end.
Proof.
  intros H EX F ER AR. destruct (inv_run P (start_world c files) eq_refl eq_refl eq_refl _ _ _ EX H) as (log & I).
  assert (CT : forall e, In e log -> e_region e = r -> e_context e = (r, Sync)).
  { intros e IE RE. eapply followed_ends; [exact F|]. eapply Permutation_in; [symmetry; apply (i_count _ _ _ _ _ I)|].
    apply in_or_app. left. apply in_map. apply filter_In. split; auto. apply Nat.eqb_eq; auto. }
  destruct (client_log P _ _ _ _ _ (i_records _ _ _ _ _ I) CT _ _ F) as [IP _].
  assert (G := alive_get _ _ _ ER AR). assert (GC := alive_context _ _ _ ER AR).
  assert (IX := i_idx _ _ _ _ _ I _ _ ER). destruct (i_views _ _ _ _ _ I _ _ GC) as (V1 & V2 & V3 & e & V4).
  destruct ph as [|start fs chosen].
  - intros B now. assert (NI : r_idx R <> idx_max) by (rewrite IX; unfold idx_max; lia).
    destruct (begin_defined w r R now G NI) as (w' & HB). split.
    + exists w'. cbn. rewrite HB. reflexivity.
    + intros fs. cbn. unfold begin_features. rewrite HB. cbn [bind]. apply begin_context_begun in HB.
      destruct HB as (R0 & _ & _ & _ & _ & _ & _ & _ & HC). rewrite HC. cbn [bind]. eauto.
  - cbn in IP. destruct IP as (I1 & I2 & _). split; [|split].
    + intros x. cbn [step]. rewrite G. cbn [bind resolve]. unfold set_feature. rewrite GC. cbn [bind]. eauto.
    + intros D choice m TP EM. cbn [step resolve bind]. unfold get_policy_index. rewrite G, GC. cbn [bind].
      rewrite V1, I1, EM. cbn [bind]. unfold trace_policy. rewrite TP. cbn [truthy negb Z.eqb bind].
      erewrite alive_context; [|eapply set_region_at; eauto|auto]. cbn [bind]. eauto.
    + intros NF HT now early. cbn [step]. rewrite G. cbn [bind resolve]. unfold end_context. rewrite GC. cbn [bind].
      unfold is_sync_of. cbn [fst snd]. rewrite Nat.eqb_refl. cbn [andb].
      rewrite V4. cbn [fst]. rewrite I2. cbn [option_map timer_stop timer_done bind].
      set (c1 := mkContext _ _ _ _).
      destruct (collect_defined (set_context w (r, Sync) c1) r (with_sync R c1) (sub64 (clock_seconds now) (clock_seconds start))) as (w' & ->); eauto.
      * unfold set_context. cbn. rewrite ER. eapply set_region_at; eauto.
      * cbn. rewrite V1, I1. exact NF.
      * replace (w_config (set_context w (r, Sync) c1)) with (w_config w); [exact HT|]. unfold set_context. cbn. rewrite ER. reflexivity.
      * cbn. eauto.
Qed.
End Runs.
