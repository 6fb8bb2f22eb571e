(** What a region that finds kept measurements is created with. *)
From Coq Require Import ZArith Bool Ascii String Lia List.
From Verif Require Import Model.Base Model.Float Model.DatasetM Model.ParserM Model.DatasetIO Model.TreeM Model.ForestM Model.ModelStringM Model.PolicyModelsM Model.ConfigM Model.RuntimeM
  Spec.DatasetSpec Spec.RuntimeSpec Proofs.TreeFacts Proofs.ModelStringFacts Proofs.RuntimeFacts Proofs.RuntimeSettled Proofs.RuntimeNew Proofs.RuntimeRegistry Proofs.RuntimeNames Proofs.RuntimeTraining Proofs.RuntimePersist Proofs.RuntimeFiles.
Import ListNotations.
Open Scope Z_scope.

Section Platform.
Variable P : platform.

Lemma learner_created mn nf np ps init m : mn = $"DecisionTree" \/ mn = $"RandomForest" -> create_model P mn nf np ps init = Ok m -> m_trainable m = true.
Proof.
  intros MN EM. unfold create_model in EM. remember 2%nat as two. destruct MN as [->| ->]; cbn [create_fuel] in EM.
    - change (bytes_eqb ($"DecisionTree") ($"Static")) with false in EM. change (bytes_eqb ($"DecisionTree") ($"DatasetMap")) with false in EM.
      change (bytes_eqb ($"DecisionTree") ($"Random")) with false in EM. change (bytes_eqb ($"DecisionTree") ($"RoundRobin")) with false in EM.
      change (bytes_eqb ($"DecisionTree") ($"DecisionTree")) with true in EM. cbv iota in EM. apply bind_inv in EM as (md & _ & EM). apply bind_inv in EM as (e & _ & EM). injection EM as <-. reflexivity.
    - change (bytes_eqb ($"RandomForest") ($"Static")) with false in EM. change (bytes_eqb ($"RandomForest") ($"DatasetMap")) with false in EM.
      change (bytes_eqb ($"RandomForest") ($"Random")) with false in EM. change (bytes_eqb ($"RandomForest") ($"RoundRobin")) with false in EM.
      change (bytes_eqb ($"RandomForest") ($"DecisionTree")) with false in EM. change (bytes_eqb ($"RandomForest") ($"RandomForest")) with true in EM. cbv iota in EM.
      apply bind_inv in EM as (nt & _ & EM). apply bind_inv in EM as (md & _ & EM). apply bind_inv in EM as (e & _ & EM). injection EM as <-. reflexivity.
Qed.

(** C116. *)
Lemma kept_data_trains w nf nm np mt info init w' r mn ps text d rest :
  names_ok w -> step P w (OpRegion nf nm np mt info [] init) = Ok (w', GotRegion r) ->
  cf_persistent (w_config w) <> 0 ->
  parse_policy_model (match info with [] => cf_policy_model (w_config w) | _ => info end) = Ok (mn, ps) ->
  mn = $"DecisionTree" \/ mn = $"RandomForest" -> param_find ($"load") ps = None -> param_find ($"load-dataset") ps = None ->
  file_find (dataset_file (w_config w) (region_name nm)) (w_files w) = Some text -> ds_load [] text = Ok (d, rest) ->
  exists m R', create_model P mn nf np ps init = Ok m /\ m_trainable m = true /\ nth_error (w_regions w') r = Some R' /\ r_dataset R' = d /\
    (global_due (w_config w) (w_executions w) -> r_model R' = m) /\
    (~ global_due (w_config w) (w_executions w) -> cf_region_period (w_config w) <> 0 \/ 0 < mt <= ds_size d -> trained_with P m d (r_model R')) /\
    (~ global_due (w_config w) (w_executions w) -> cf_region_period (w_config w) = 0 -> ~ 0 < mt <= ds_size d -> r_model R' = m).
Proof.
  intros NO H PE EP MN L1 L2 EF EL. cbn [step] in H. apply bind_inv in H as ([w1 r1] & H & EQ). injection EQ as <- <-.
  unfold new_region in H. rewrite EP in H. cbn [bind] in H.
  assert (RS : resolve_static_region (region_name nm) (match info with [] => cf_policy_model (w_config w) | _ => info end) mn ps = Ok (mn, ps, match info with [] => cf_policy_model (w_config w) | _ => info end)).
  { unfold resolve_static_region. destruct MN as [->| ->]; reflexivity. }
  rewrite RS in H. cbn [bind] in H. apply bind_inv in H as (m & EM & H).
  unfold load_models in H. cbn [bind] in H. rewrite L1 in H. cbn [bind] in H.
  assert (TM : m_trainable m = true).
  { eapply learner_created; eauto. }
  set (n := List.length (w_regions w)) in *.
  match type of H with context [w_regions w ++ [?R]] => set (R0 := R) in * end.
  set (v0 := mkWorld (w_config w) (w_rank w) (w_regions w ++ [R0]) (w_registry w) (w_executions w) (w_files w)) in *.
  apply bind_inv in H as (v1 & LP & H). unfold load_persistent in LP. change (w_config v0) with (w_config w) in LP. change (w_files v0) with (w_files w) in LP.
  unfold truthy at 1 in LP. apply Z.eqb_neq in PE. rewrite PE in LP. cbn [negb] in LP. rewrite EF in LP. unfold load_dataset in LP.
  assert (E0 : nth_error (w_regions v0) n = Some R0) by (apply nth_last; reflexivity).
  assert (G0 : get_region v0 n = Ok R0) by (unfold get_region; rewrite E0; reflexivity).
  rewrite G0 in LP. cbn [bind] in LP. cbn [r_dataset R0] in LP. rewrite EL in LP. cbn [bind] in LP.
  set (R1 := with_dataset R0 d) in *. set (v2 := set_region v0 n R1) in *.
  assert (E2 : nth_error (w_regions v2) n = Some R1). { unfold v2. cbn [set_region w_regions]. rewrite nth_set_nth, Nat.eqb_refl, E0. reflexivity. }
  assert (G2 : get_region v2 n = Ok R1) by (unfold get_region; rewrite E2; reflexivity).
  destruct (registry_nodup _ (proj1 NO)) as [ND _].
  destruct (auto_train_exact P _ _ _ _ LP G2 ND) as (SG & LL & X). destruct (X _ _ E2) as (m' & E3 & (C1 & C2 & C3 & C4 & C5)).
  change (w_config v2) with (w_config w) in *. change (w_executions v2) with (w_executions w) in *. change (w_registry v2) with (w_registry w) in *. change (r_model R1) with m in *. change (r_dataset R1) with d in *.
  change (r_idx R1) with 0 in *.
  assert (NI : ~ In n (map snd (w_registry w))).
  { intros I. apply in_map_iff in I as ([nm' x] & Ex & I). cbn in Ex. subst x. destruct NO as [[_ NO] _]. apply NO in I as [I _]. unfold region_names in I.
    assert (Z0 : nth_error (map r_name (w_regions w)) n <> None) by congruence. apply nth_error_Some in Z0. rewrite map_length in Z0. unfold n in Z0. lia. }
  unfold load_and_train in H. rewrite L2 in H. cbn [bind] in H.
  assert (LO : load_optimal v1 n (region_name nm) mn = Ok v1) by (unfold load_optimal; destruct MN as [->| ->]; reflexivity).
  assert (LD : load_dataset_map P v1 n (region_name nm) mn = Ok v1) by (unfold load_dataset_map; destruct MN as [->| ->]; reflexivity).
  rewrite LO in H. cbn [bind] in H. rewrite LD in H. cbn [bind] in H. apply bind_inv in H as (v3 & ET & H). injection H as <- <-.
  assert (K : exists R', nth_error (w_regions v3) n = Some R' /\ r_dataset R' = d /\ r_model R' = m').
  { destruct (truthy _); [|injection ET as <-; exists (with_model R1 m'); auto]. apply bind_inv in ET as (Q & EQ & ET). apply get_region_ok in EQ as [EQ _]. rewrite E3 in EQ. injection EQ as <-.
    injection ET as <-. eexists. cbn [set_region w_regions]. rewrite nth_set_nth, Nat.eqb_refl, E3. split; [reflexivity|]. auto. }
  destruct K as (R' & K1 & K2 & K3). exists m, R'. split; [exact EM|]. split; [exact TM|]. split; [exact K1|]. split; [exact K2|]. rewrite K3.
  assert (RD : region_due (w_config w) 0 <-> cf_region_period (w_config w) <> 0). { unfold region_due. split; [tauto|]. intros A. split; [exact A|apply Z.divide_0_r]. }
  split; [|split].
  - intros GD. destruct (Z.eq_dec (cf_single_model (w_config w)) 0) as [SM|SM].
    + apply (C2 TM GD SM). tauto.
    + apply (C3 TM GD SM). exact NI.
  - intros GD A. apply (C4 TM GD); [|reflexivity]. destruct A as [A|A]; [left; apply RD; exact A|right; exact A].
  - intros GD A B. apply (C5 GD). intros [D|D]; [apply RD in D; auto|apply B; exact D].
Qed.

Lemma kept_data_reached c files os w xs nf nm np mt info init w' r mn ps text d rest :
  run P (start_world c files) os = Ok (w, xs) -> step P w (OpRegion nf nm np mt info [] init) = Ok (w', GotRegion r) ->
  cf_persistent c <> 0 ->
  parse_policy_model (match info with [] => cf_policy_model c | _ => info end) = Ok (mn, ps) ->
  mn = $"DecisionTree" \/ mn = $"RandomForest" -> param_find ($"load") ps = None -> param_find ($"load-dataset") ps = None ->
  file_find (dataset_file c (region_name nm)) (w_files w) = Some text -> ds_load [] text = Ok (d, rest) ->
  exists m R', create_model P mn nf np ps init = Ok m /\ m_trainable m = true /\ nth_error (w_regions w') r = Some R' /\ r_dataset R' = d /\
    (global_due (w_config w) (w_executions w) -> r_model R' = m) /\
    (~ global_due (w_config w) (w_executions w) -> cf_region_period c <> 0 \/ 0 < mt <= ds_size d -> trained_with P m d (r_model R')) /\
    (~ global_due (w_config w) (w_executions w) -> cf_region_period c = 0 -> ~ 0 < mt <= ds_size d -> r_model R' = m).
Proof.
  intros H S. assert (N := names_run P _ _ _ _ (start_names c files) H). assert (WR := own_run P _ _ _ _ H). destruct WR as (CF & _). cbn [w_config start_world] in CF.
  destruct (same_file _ _ (region_name nm) CF) as [F1 F2].
  assert (F3 : cf_policy_model (w_config w) = cf_policy_model c) by (change (cf_policy_model (with_period (w_config w) 0) = cf_policy_model (with_period c 0)); rewrite CF; reflexivity).
  assert (F4 : cf_region_period (w_config w) = cf_region_period c) by (change (cf_region_period (with_period (w_config w) 0) = cf_region_period (with_period c 0)); rewrite CF; reflexivity).
  rewrite <- F1, <- F2, <- F3, <- F4. intros. eapply kept_data_trains; eauto.
Qed.

Lemma kept_data_first c files nf nm np mt info init w' r mn ps text d rest :
  step P (start_world c files) (OpRegion nf nm np mt info [] init) = Ok (w', GotRegion r) -> cf_persistent c <> 0 -> cf_global_period c <> 0 ->
  parse_policy_model (match info with [] => cf_policy_model c | _ => info end) = Ok (mn, ps) ->
  mn = $"DecisionTree" \/ mn = $"RandomForest" -> param_find ($"load") ps = None -> param_find ($"load-dataset") ps = None ->
  file_find (dataset_file c (region_name nm)) files = Some text -> ds_load [] text = Ok (d, rest) ->
  exists R', nth_error (w_regions w') r = Some R' /\ r_dataset R' = d /\ m_trainable (r_model R') = true.
Proof.
  intros S PE GP EP MN L1 L2 EF EL. destruct (kept_data_trains _ _ _ _ _ _ _ _ _ _ _ _ _ _ (start_names c files) S PE EP MN L1 L2 EF EL) as (m & R' & _ & TM & E & D & G & _).
  exists R'. split; [exact E|]. split; [exact D|]. rewrite G; [exact TM|]. split; [exact GP|apply Z.divide_0_r].
Qed.

Lemma load_dataset_trains w nf nm np mt info init w' r mn ps v text d rest :
  step P w (OpRegion nf nm np mt info [] init) = Ok (w', GotRegion r) -> cf_persistent (w_config w) = 0 ->
  parse_policy_model (match info with [] => cf_policy_model (w_config w) | _ => info end) = Ok (mn, ps) ->
  mn = $"DecisionTree" \/ mn = $"RandomForest" -> param_find ($"load") ps = None -> param_find ($"load-dataset") ps = Some v ->
  file_find (dataset_file (w_config w) (region_name nm)) (w_files w) = Some text -> ds_load [] text = Ok (d, rest) ->
  exists m R', create_model P mn nf np ps init = Ok m /\ nth_error (w_regions w') r = Some R' /\ r_dataset R' = d /\ 0 < ds_size d /\ m_train P m d = Ok (r_model R').
Proof.
  intros H PE EP MN L1 L2 EF EL. cbn [step] in H. apply bind_inv in H as ([w1 r1] & H & EQ). injection EQ as <- <-.
  unfold new_region in H. rewrite EP in H. cbn [bind] in H.
  assert (RS : resolve_static_region (region_name nm) (match info with [] => cf_policy_model (w_config w) | _ => info end) mn ps = Ok (mn, ps, match info with [] => cf_policy_model (w_config w) | _ => info end)).
  { unfold resolve_static_region. destruct MN as [->| ->]; reflexivity. }
  rewrite RS in H. cbn [bind] in H. apply bind_inv in H as (m & EM & H).
  unfold load_models in H. cbn [bind] in H. rewrite L1 in H. cbn [bind] in H.
  assert (TM := learner_created _ _ _ _ _ _ MN EM).
  set (n := List.length (w_regions w)) in *.
  match type of H with context [w_regions w ++ [?R]] => set (R0 := R) in * end.
  set (v0 := mkWorld (w_config w) (w_rank w) (w_regions w ++ [R0]) (w_registry w) (w_executions w) (w_files w)) in *.
  unfold load_persistent in H. change (w_config v0) with (w_config w) in H. rewrite PE in H. cbn [truthy Z.eqb negb bind] in H.
  apply bind_inv in H as (v1 & LP & H). unfold load_and_train in LP. change (w_config v0) with (w_config w) in LP. change (w_files v0) with (w_files w) in LP.
  rewrite L2, EF in LP. unfold load_dataset in LP.
  assert (E0 : nth_error (w_regions v0) n = Some R0) by (apply nth_last; reflexivity).
  assert (G0 : get_region v0 n = Ok R0) by (unfold get_region; rewrite E0; reflexivity).
  rewrite G0 in LP. cbn [bind] in LP. cbn [r_dataset R0] in LP. rewrite EL in LP. cbn [bind] in LP.
  set (R1 := with_dataset R0 d) in *. set (v2 := set_region v0 n R1) in *.
  assert (E2 : nth_error (w_regions v2) n = Some R1). { unfold v2. cbn [set_region w_regions]. rewrite nth_set_nth, Nat.eqb_refl, E0. reflexivity. }
  assert (G2 : get_region v2 n = Ok R1) by (unfold get_region; rewrite E2; reflexivity).
  rewrite G2 in LP. cbn [bind] in LP. change (r_dataset R1) with d in LP. destruct (Z.leb_spec (ds_size d) 0) as [|SZ]; [discriminate LP|].
  unfold region_train in LP. rewrite G2 in LP. cbn [bind] in LP. change (r_model R1) with m in LP. rewrite TM in LP. cbn [negb andb] in LP. unfold collect_pending in LP. rewrite G2 in LP. cbn [bind] in LP.
  change (r_pending R1) with (@nil ctxptr) in LP. cbn [collect_loop bind] in LP. rewrite G2 in LP. cbn [bind] in LP.
  set (R2 := with_pending R1 []) in *. set (v3 := set_region v2 n R2) in *.
  assert (E4 : nth_error (w_regions v3) n = Some R2). { unfold v3. cbn [set_region w_regions]. rewrite nth_set_nth, Nat.eqb_refl, E2. reflexivity. }
  destruct (train_body_exact P _ _ _ _ LP) as (_ & _ & X). destruct (X _ _ E4) as (m' & E3 & T). rewrite Nat.eqb_refl in T. change (r_model R2) with m in T. change (r_dataset R2) with d in T.
  assert (LO : load_optimal v1 n (region_name nm) mn = Ok v1) by (unfold load_optimal; destruct MN as [->| ->]; reflexivity).
  assert (LD : load_dataset_map P v1 n (region_name nm) mn = Ok v1) by (unfold load_dataset_map; destruct MN as [->| ->]; reflexivity).
  rewrite LO in H. cbn [bind] in H. rewrite LD in H. cbn [bind] in H. apply bind_inv in H as (v4 & ET & H). injection H as <- <-.
  assert (K : exists R', nth_error (w_regions v4) n = Some R' /\ r_dataset R' = d /\ r_model R' = m').
  { destruct (truthy _); [|injection ET as <-; exists (with_model R2 m'); auto]. apply bind_inv in ET as (Q & EQ & ET). apply get_region_ok in EQ as [EQ _]. rewrite E3 in EQ. injection EQ as <-.
    injection ET as <-. eexists. cbn [set_region w_regions]. rewrite nth_set_nth, Nat.eqb_refl, E3. split; [reflexivity|]. auto. }
  destruct K as (R' & K1 & K2 & K3). exists m, R'. split; [exact EM|]. split; [exact K1|]. split; [exact K2|]. split; [exact SZ|]. rewrite K3. apply T. exact SZ.
Qed.
End Platform.
