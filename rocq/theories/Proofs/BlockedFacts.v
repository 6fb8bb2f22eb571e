(** Regions do not train under [blocked] settings. *)
From Coq Require Import ZArith Bool List Lia.
From Verif Require Import Model.Base Model.Float Model.DatasetM Model.TreeM Model.ForestM Model.PolicyModelsM Model.ConfigM Model.RuntimeM
  Spec.RuntimeSpec Spec.BlockedSpec Proofs.TreeFacts Proofs.RuntimeFacts Proofs.RuntimeCollect Proofs.RuntimeNew Proofs.RuntimeSettled Proofs.RuntimeAccount
  Proofs.RuntimeRegistry Proofs.RuntimeTraining.
Import ListNotations.
Open Scope Z_scope.

Section Platform.
Context (P : platform).

Lemma truthy_iff z : truthy z = true <-> z <> 0.
Proof. unfold truthy. rewrite negb_true_iff, Z.eqb_neq. tauto. Qed.

Lemma body_blocked w r st w' R : train_body P w r st = Ok w' -> blocked (w_config w) -> get_region w r = Ok R ->
  w' = w /\ ds_size (r_dataset R) <= 0.
Proof.
  unfold train_body. intros H B ER. rewrite ER in H. cbn [bind] in H. destruct (Z.leb_spec (ds_size (r_dataset R)) 0) as [L|L].
  - inversion H. auto.
  - exfalso. destruct (truthy (cf_region_model (w_config w))) eqn:M; cbn [negb] in H; [|discriminate H].
    apply truthy_iff in M. destruct B as [B|B]; [contradiction|].
    apply bind_inv in H as (w1 & E1 & H). destruct (trace_best_training P (fun _ _ _ => True) _ _ _ _ E1) as [[G _] _].
    apply bind_inv in H as (m & Em & H). cbn [w_config set_region] in H.
    assert (C : w_config w1 = w_config w) by (destruct G as (G & _); exact G). rewrite C in H.
    apply truthy_iff in B. rewrite B in H. discriminate H.
Qed.

Lemma quietly_blocked w r st w' R : train_quietly P w r st = Ok w' -> blocked (w_config w) -> get_region w r = Ok R ->
  w' = w /\ (m_trainable (r_model R) = true -> ds_size (r_dataset R) <= 0).
Proof.
  unfold train_quietly. intros H B ER. rewrite ER in H. cbn [bind] in H. destruct (m_trainable (r_model R)); cbn [negb] in H.
  - destruct (body_blocked _ _ _ _ _ H B ER) as [-> L]. auto.
  - inversion H. split; [reflexivity|discriminate].
Qed.

Lemma each_blocked f rs : forall w w', each_region f w rs = Ok w' -> 
  (forall r w1, f w r = Ok w1 -> w1 = w /\ exists R, nth_error (w_regions w) r = Some R /\ (m_trainable (r_model R) = true -> ds_size (r_dataset R) <= 0)) ->
  w' = w /\ forall r, In r rs -> exists R, nth_error (w_regions w) r = Some R /\ (m_trainable (r_model R) = true -> ds_size (r_dataset R) <= 0).
Proof.
  induction rs as [|r rs IH]; cbn; intros w w' H F; [inversion H; split; [reflexivity|tauto]|].
  apply bind_inv in H as (w1 & E1 & H). destruct (F _ _ E1) as [-> Q]. destruct (IH _ _ H F) as [-> X].
  split; [reflexivity|]. intros i [<-|IN]; auto.
Qed.

Lemma region_train_blocked w r st force w' : region_train P w r st false force = Ok w' -> blocked (w_config w) ->
  w' = w /\ exists R, nth_error (w_regions w) r = Some R /\ (force = true \/ m_trainable (r_model R) = true -> ds_size (r_dataset R) <= 0).
Proof.
  unfold region_train. intros H B. apply bind_inv in H as (R & ER & H). assert (ER' := ER). apply get_region_ok in ER' as [ER' _].
  destruct (negb force && negb (m_trainable (r_model R))) eqn:F.
  - injection H as <-. split; [reflexivity|]. exists R. split; [assumption|]. apply andb_prop in F as [F1 F2]. apply negb_true_iff in F1, F2.
    intros [K|K]; congruence.
  - cbn [bind] in H. destruct (body_blocked _ _ _ _ _ H B ER) as [-> L]. split; [reflexivity|]. exists R. auto.
Qed.

(** Collecting a measurement: no training is due. *)
Lemma collect_blocked w r p x w' : collect_context P w r p x = Ok w' -> blocked (w_config w) -> NoDup (map snd (w_registry w)) ->
  exists R R', nth_error (w_regions w) r = Some R /\ nth_error (w_regions w') r = Some R' /\
    (m_trainable (r_model R) = true -> ~ global_due (w_config w) ((w_executions w + 1) mod 2 ^ 64) ->
      ~ region_due (w_config w) (r_idx R) /\ ~ enough R') /\
    (m_trainable (r_model R) = true -> global_due (w_config w) ((w_executions w + 1) mod 2 ^ 64) -> cf_single_model (w_config w) = 0 ->
      ~ In r (map snd (w_registry w))).
Proof.
  intros H B ND. destruct (collect_auto P _ _ _ _ _ H ND) as (R & R' & ER & ER' & RG & CG & LN & X). destruct (X _ _ ER) as (R1' & ER1' & _ & AT).
  rewrite ER' in ER1'. inversion ER1'; subst R1'. exists R, R'. split; [assumption|]. split; [assumption|]. clear X.
  unfold collect_context in H.
  apply bind_inv in H as (R0 & ER0 & H). apply bind_inv in H as (c & EC & H).
  apply bind_inv in H as (R1 & ER1 & H). apply bind_inv in H as (w1 & E1 & H).
  assert (G0 := ER0). apply get_region_ok in G0 as [G0 A0]. rewrite ER in G0. inversion G0; subst R0. clear G0.
  assert (HR1 : r_model R1 = r_model R /\ r_idx R1 = r_idx R /\ r_alive R1 = r_alive R /\ (m_trainable (r_model R) = true -> 0 < ds_size (r_dataset R1))).
  { destruct (truthy (cf_trace_csv _)); cbn [r_model with_trace r_dataset] in ER1;
      (destruct (m_trainable (r_model R)); [rewrite orb_true_r in ER1|]);
      try (destruct (truthy (cf_persistent _)); cbn [orb] in ER1);
      try (apply bind_inv in ER1; destruct ER1 as (d & ED & ER1)); inversion ER1; subst R1; unfold moved_features; try (destruct (is_sync_of r p)); cbn; repeat split; auto; try discriminate;
      intros _; eapply insert_nonempty; eauto. }
  destruct HR1 as (M1 & M2 & M3 & M4).
  set (w0 := count_execution (set_region w r R1)) in *.
  assert (G1 : get_region w0 r = Ok R1). { apply get_region_ok. cbn. rewrite nth_set_nth, Nat.eqb_refl, ER. split; congruence. }
  assert (B0 : blocked (w_config w0)) by exact B.
  split.
  - intros T NG. specialize (M4 T).
    assert (N1 : forall st v, train_quietly P w0 r st = Ok v -> False).
    { intros st v E. destruct (quietly_blocked _ _ _ _ _ E B0 G1) as [_ L]. rewrite M1 in L. specialize (L T). lia. }
    assert (A : ~ region_due (w_config w) (r_idx R) /\ ~ enough R1).
    { unfold auto_train in E1. rewrite G1 in E1. cbn [bind] in E1. rewrite M1, T in E1. cbn [negb] in E1.
      destruct (truthy (cf_global_period (w_config w0)) && _) eqn:EG; [apply global_due_b in EG; contradiction|].
      destruct (truthy (cf_region_period (w_config w0)) && _) eqn:EP; [destruct (N1 _ _ E1)|].
      split; [intros D; apply region_due_b in D; rewrite M2 in EP; cbn [w0 count_execution set_region w_config] in EP; congruence|].
      destruct ((0 <? r_min_training R1) && (r_min_training R1 <=? ds_size (r_dataset R1))) eqn:EM; [destruct (N1 _ _ E1)|].
      intros [E2 E3]. apply andb_false_iff in EM as [EM|EM]; [apply Z.ltb_ge in EM|apply Z.leb_gt in EM]; lia. }
    destruct A as [A1 A2]. split; [exact A1|]. intros E2. apply A2.
    (* the region is not changed by what follows *)
    unfold auto_train in E1. rewrite G1 in E1. cbn [bind] in E1. rewrite M1, T in E1. cbn [negb] in E1.
    destruct (truthy (cf_global_period (w_config w0)) && _) eqn:EG; [apply global_due_b in EG; contradiction|].
    destruct (truthy (cf_region_period (w_config w0)) && _) eqn:EP; [destruct (N1 _ _ E1)|].
    destruct ((0 <? r_min_training R1) && (r_min_training R1 <=? ds_size (r_dataset R1))) eqn:EM; [destruct (N1 _ _ E1)|].
    inversion E1; subst w1. clear E1.
    apply bind_inv in H as (w2 & E3 & H). apply bind_inv in H as (R2 & ER2 & H). inversion H; subst w'. clear H.
    cbn in ER'. apply get_region_ok in ER2 as [ER2 _]. rewrite nth_set_nth, Nat.eqb_refl, ER2 in ER'. inversion ER'; subst R'. clear ER'.
    assert (S : r_dataset R2 = r_dataset R1 /\ r_min_training R2 = r_min_training R1).
    { apply get_region_ok in G1 as [G1 _]. destruct (is_sync_of r p).
      - inversion E3; subst w2. rewrite G1 in ER2. inversion ER2. auto.
      - apply delete_context_inv in E3. destruct E3 as (o & k & Ro & c' & -> & EO & EK & ->). cbn in ER2. rewrite nth_set_nth in ER2.
        destruct (Nat.eqb_spec r o) as [<-|].
        + cbn in EO, G1. rewrite G1 in EO. inversion EO; subst Ro. cbn in G1. rewrite G1 in ER2. inversion ER2. auto.
        + cbn in G1. rewrite G1 in ER2. inversion ER2. auto. }
    destruct S as [S1 S2]. unfold enough in *. cbn in E2. rewrite S1, S2 in E2. exact E2.
  - intros T GD S IN. specialize (M4 T).
    unfold auto_train in E1. rewrite G1 in E1. cbn [bind] in E1. rewrite M1, T in E1. cbn [negb] in E1.
    apply global_due_b in GD. change (w_config w) with (w_config w0) in GD. change ((w_executions w + 1) mod 2 ^ 64) with (w_executions w0) in GD. rewrite GD in E1.
    unfold train_all_by, train_regions_by in E1. destruct (truthy (cf_collective (w_config w0))); [discriminate E1|].
    change (cf_single_model (w_config w0)) with (cf_single_model (w_config w)) in E1. rewrite S in E1. cbn [truthy Z.eqb negb] in E1.
    change (w_registry w0) with (w_registry w) in E1.
    destruct (each_blocked _ _ _ _ E1) as [_ X].
    { intros i v E. assert (EE := E). unfold train_quietly in EE. apply bind_inv in EE as (Ri & Ei & _).
      destruct (quietly_blocked _ _ _ _ _ E B0 Ei) as [-> L]. split; [reflexivity|]. exists Ri. apply get_region_ok in Ei. tauto. }
    destruct (X _ IN) as (Rr & Er & L). apply get_region_ok in G1 as [G1 _]. rewrite G1 in Er. inversion Er; subst Rr. rewrite M1 in L. specialize (L T). lia.
Qed.

(** ** Calls *)

Section Run.
Context (c : config) (files : list (bytes * bytes)) (os : list op) (w : world) (xs : list result).
Hypothesis H : run P (start_world c files) os = Ok (w, xs).
Hypothesis EX : forallb explicit os = true.

Lemma config_kept {A} (f : config -> A) : (forall c, f (with_period c 0) = f c) -> f (w_config w) = f c.
Proof.
  intros F. destruct (inv_run P (start_world c files) eq_refl eq_refl eq_refl _ _ _ EX H) as (log & I). assert (C := i_config _ _ _ _ _ I).
  exact (same_config_field f _ _ F C).
Qed.
Lemma blocked_kept : blocked c -> blocked (w_config w).
Proof. unfold blocked. rewrite (config_kept cf_region_model), (config_kept cf_retrain) by reflexivity. auto. Qed.

Lemma train_throws r st force R : cf_region_model c = 0 -> nth_error (w_regions w) r = Some R -> r_alive R = true ->
  force = true \/ m_trainable (r_model R) = true -> 0 < ds_size (r_dataset R) -> step P w (OpTrain r st false force) = Throw.
Proof.
  intros M ER A F D. cbn [step]. unfold region_train, train_body.
  assert (G : get_region w r = Ok R) by (apply get_region_ok; auto). rewrite G. cbn [bind].
  replace (negb force && negb (m_trainable (r_model R))) with false by (destruct F as [-> | ->]; [reflexivity|symmetry; apply andb_false_r]).
  cbn [bind]. rewrite G. cbn [bind]. destruct (Z.leb_spec (ds_size (r_dataset R)) 0); [lia|].
  rewrite (config_kept cf_region_model), M by reflexivity. reflexivity.
Qed.

Lemma train_blocked r st force w' y : blocked c -> step P w (OpTrain r st false force) = Ok (w', y) ->
  w' = w /\ exists R, nth_error (w_regions w) r = Some R /\ (force = true \/ m_trainable (r_model R) = true -> ds_size (r_dataset R) <= 0).
Proof.
  intros B E. cbn [step] in E. apply bind_inv in E as (v & E & K). inversion K; subst v. exact (region_train_blocked _ _ _ _ _ E (blocked_kept B)).
Qed.

Lemma all_blocked st w' y : blocked c -> cf_single_model c = 0 -> step P w (OpTrainAll st false) = Ok (w', y) ->
  w' = w /\ forall r, In r (map snd (w_registry w)) -> exists R, nth_error (w_regions w) r = Some R /\ (m_trainable (r_model R) = true -> ds_size (r_dataset R) <= 0).
Proof.
  intros B S E. cbn [step] in E. apply bind_inv in E as (v & E & K). inversion K; subst v. unfold apollo_train, train_all_by, train_regions_by in E.
  destruct (truthy (cf_collective _)); [discriminate E|]. rewrite (config_kept cf_single_model), S in E by reflexivity. cbn [truthy Z.eqb negb] in E.
  apply (each_blocked _ _ _ _ E). intros r v E1. destruct (region_train_blocked _ _ _ _ _ E1 (blocked_kept B)) as [-> (R & ER & L)]. split; [reflexivity|].
  exists R. auto.
Qed.

Lemma end_blocked r now early w' y : blocked c -> step P w (OpEnd r (Some (r, Sync)) now early) = Ok (w', y) ->
  exists R R', nth_error (w_regions w) r = Some R /\ nth_error (w_regions w') r = Some R' /\
    (m_trainable (r_model R) = true -> ~ global_due (w_config w) ((w_executions w + 1) mod 2 ^ 64) ->
      ~ region_due (w_config w) (count_begins (combine os xs) r) /\ ~ enough R') /\
    (m_trainable (r_model R) = true -> global_due (w_config w) ((w_executions w + 1) mod 2 ^ 64) -> cf_single_model c = 0 ->
      ~ In r (map snd (w_registry w))).
Proof.
  intros B ST. destruct (inv_run P (start_world c files) eq_refl eq_refl eq_refl _ _ _ EX H) as (log & I).
  cbn in ST. apply bind_inv in ST as (R0 & ER0 & ST). apply bind_inv in ST as (v & HE & E). inversion E; subst v. clear E.
  unfold end_context in HE. apply bind_inv in HE as (cx & EC & HE). cbn [is_sync_of] in HE. rewrite Nat.eqb_refl in HE.
  apply bind_inv in HE as (d & ED & HE). destruct d as [x|]; [|discriminate HE].
  apply get_region_ok in ER0 as [ER0 A0]. unfold set_context in HE. cbn [fst snd] in HE. rewrite ER0 in HE.
  match type of HE with collect_context P (set_region w r ?v) r _ _ = _ => set (R1 := v) in * end.
  destruct (registry_nodup _ (i_reg _ _ _ _ _ I)) as [ND _].
  destruct (collect_blocked _ _ _ _ _ HE (blocked_kept B) ND) as (R & R' & ER & ER' & X & Y). cbn in ER. rewrite nth_set_nth, Nat.eqb_refl, ER0 in ER. inversion ER; subst R. clear ER.
  exists R0, R'. split; [assumption|]. split; [assumption|]. rewrite <- (i_idx _ _ _ _ _ I _ _ ER0).
  split; [exact X|]. rewrite <- (config_kept cf_single_model) by reflexivity. exact Y.
Qed.
End Run.

(** ** One model for all regions and no measurement *)

(** Trees, and forests of at least one tree. *)
Lemma train_on_nothing m m' : needs_data m -> m_train P m [] = Ok m' -> False.
Proof.
  destruct m as [| | | | |n b t e|n b f e|N]; cbn; try tauto; [discriminate|]. intros F E.
  unfold f_train in E. destruct (Z.to_nat (f_num_trees f)) as [|k] eqn:K; [lia|]. discriminate E.
Qed.

Lemma each_needs w rs : forall w', train_each_on P w rs [] = Ok w' -> NoDup rs ->
  forall r R, In r rs -> nth_error (w_regions w) r = Some R -> needs_data (r_model R) -> False.
Proof.
  revert w. induction rs as [|i rs IH]; cbn; intros w w' E ND r R IN ER M; [contradiction|].
  apply bind_inv in E as (Ri & Ei & E). apply bind_inv in E as (m & Em & E). apply get_region_ok in Ei as [Ei _]. inversion ND; subst.
  destruct IN as [->|IN].
  - rewrite Ei in ER. inversion ER; subst. exact (train_on_nothing _ _ M Em).
  - apply (IH _ _ E ltac:(assumption) r R IN); [|exact M]. cbn. rewrite nth_set_nth.
    destruct (Nat.eqb_spec r i) as [->|]; [contradiction|exact ER].
Qed.

Lemma all_needs_data c files os w xs st collect r R : run P (start_world c files) os = Ok (w, xs) -> forallb explicit os = true ->
  cf_single_model c <> 0 -> (forall i Ri, nth_error (w_regions w) i = Some Ri -> ds_size (r_dataset Ri) <= 0) ->
  In r (map snd (w_registry w)) -> nth_error (w_regions w) r = Some R -> needs_data (r_model R) ->
  forall w' y, step P w (OpTrainAll st collect) <> Ok (w', y).
Proof.
  intros H EX S N IN ER M w' y E. cbn [step] in E. apply bind_inv in E as (v & E & _). unfold apollo_train, train_all_by, train_regions_by in E.
  destruct (truthy (cf_collective _)); [discriminate E|]. rewrite (config_kept _ _ _ _ _ H EX cf_single_model) in E by reflexivity.
  apply truthy_iff in S. rewrite S in E. apply bind_inv in E as (d & ED & E).
  destruct (inv_run P (start_world c files) eq_refl eq_refl eq_refl _ _ _ EX H) as (log & I). destruct (registry_nodup _ (i_reg _ _ _ _ _ I)) as [ND _].
  assert (d = []); [|subst d; exact (each_needs _ _ _ E ND _ _ IN ER M)].
  assert (F : forall rs d0, merge_datasets w rs [] = Ok d0 -> d0 = []).
  { clear - N. induction rs as [|i rs IH]; cbn; intros d0 E; [inversion E; reflexivity|].
    apply bind_inv in E as (Ri & Ei & E). apply get_region_ok in Ei as [Ei _]. specialize (N _ _ Ei). unfold ds_size in N.
    destruct (r_dataset Ri); [|cbn in N; lia]. cbn in E. auto. }
  exact (F _ _ ED).
Qed.

(** ** One model for all regions and executions still to be collected *)

Lemma pending_left c files os w xs st collect : run P (start_world c files) os = Ok (w, xs) -> forallb explicit os = true -> cf_single_model c <> 0 ->
  step P w (OpTrainAll st collect) = step P w (OpTrainAll st false) /\
  forall w' y, step P w (OpTrainAll st collect) = Ok (w', y) -> forall i R, nth_error (w_regions w) i = Some R ->
    exists R', nth_error (w_regions w') i = Some R' /\ r_pending R' = r_pending R /\ r_dataset R' = r_dataset R.
Proof.
  intros H EX S. destruct (inv_run P (start_world c files) eq_refl eq_refl eq_refl _ _ _ EX H) as (log & I).
  destruct (registry_nodup _ (i_reg _ _ _ _ _ I)) as [ND _].
  assert (T : truthy (cf_single_model (w_config w)) = true) by (rewrite (config_kept _ _ _ _ _ H EX cf_single_model) by reflexivity; apply truthy_iff; exact S).
  cbn [step]. unfold apollo_train, train_all_by, train_regions_by. rewrite T. split; [reflexivity|].
  intros w' y E i R Ei. apply bind_inv in E as (v & E & K). inversion K; subst v. destruct (truthy (cf_collective _)); [discriminate E|].
  apply bind_inv in E as (d & _ & E). destruct (train_each_on_exact P _ _ ND _ _ E) as (_ & _ & X). destruct (X _ _ Ei) as (m & Em & _).
  exists (with_model R m). auto.
Qed.
End Platform.
