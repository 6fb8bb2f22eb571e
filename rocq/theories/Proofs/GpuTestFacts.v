(** The bundled device programs. *)
From Coq Require Import ZArith Bool Ascii String Lia Reals Lra List.
From Flocq Require Import Core BinarySingleNaN.
From Verif Require Import Model.Base Model.Float Model.DatasetM Model.ModelStringM Model.PolicyModelsM Model.ConfigM Model.RuntimeM Model.GpuTestM
  Proofs.FloatFacts Proofs.TreeFacts Proofs.RuntimeFacts Proofs.OverheadFacts Spec.SafeClient Spec.OverheadSpec.
Import ListNotations.
Open Scope Z_scope.

(** ** The end of a context whose timer was replaced *)

Lemma sync_self r : is_sync_of r (r, Sync) = true.
Proof. apply Nat.eqb_refl. Qed.

Section End.
Variable P : platform.
Variable w : world.
Variable r : nat.
Variable R : region.
Hypothesis N : nth_error (w_regions w) r = Some R.
Hypothesis A : r_alive R = true.

Lemma get_sync : get_context w (r, Sync) = Ok (r_sync R).
Proof. unfold get_context. cbn [fst snd]. rewrite N, A. reflexivity. Qed.
Lemma set_sync k : set_context w (r, Sync) k = set_region w r (with_sync R k).
Proof. unfold set_context. cbn [fst snd]. rewrite N. reflexivity. Qed.
Lemma nth_sync k : nth_error (w_regions (set_context w (r, Sync) k)) r = Some (with_sync R k).
Proof. rewrite set_sync. unfold set_region. cbn [w_regions]. eapply nth_set_nth_eq. exact N. Qed.
End End.

Lemma get_set_sync w r R k : nth_error (w_regions w) r = Some R -> r_alive R = true -> get_context (set_context w (r, Sync) k) (r, Sync) = Ok k.
Proof. intros N A. rewrite (get_sync _ r (with_sync R k)); [reflexivity|apply nth_sync; exact N|exact A]. Qed.

Lemma late_end P w r R b e now : nth_error (w_regions w) r = Some R -> r_alive R = true -> c_timer (r_sync R) = Events b e ->
  end_installed P w r (r, Sync) now None = UB.
Proof.
  intros N A T. unfold end_installed. rewrite sync_self, (get_sync w r R N A). cbn [bind].
  rewrite (get_set_sync w r R _ N A). cbn [bind c_timer]. rewrite T. reflexivity.
Qed.

Lemma own_end P w r R b e now early : nth_error (w_regions w) r = Some R -> r_alive R = true -> c_timer (r_sync R) = Clock b e ->
  end_installed P w r (r, Sync) now early = end_context P w r (r, Sync) now early.
Proof.
  intros N A T. unfold end_installed, end_context. rewrite sync_self, (get_sync w r R N A). cbn [bind]. rewrite T. cbn [timer_stop].
  destruct early as [ms|]; cbv zeta; [unfold complete; cbn [fst snd]; rewrite (get_set_sync w r R _ N A); cbn [c_timer]|]; rewrite (get_set_sync w r R _ N A); reflexivity.
Qed.

Lemma other_end P w r p now early : is_sync_of r p = false -> end_installed P w r p now early = end_context P w r p now early.
Proof. intros E. unfold end_installed. rewrite E. reflexivity. Qed.

(** In time, the elapsed time is collected. *)
Lemma early_end P w r R b e now ms : nth_error (w_regions w) r = Some R -> r_alive R = true -> c_timer (r_sync R) = Events b e ->
  end_installed P w r (r, Sync) now (Some ms) =
  collect_context P (set_context w (r, Sync) (mkContext (c_features (r_sync R)) (c_policy (r_sync R)) (c_idx (r_sync R)) (Events true (Some ms)))) r (r, Sync)
    (div64 (f64_of_f32 ms) (f64_of_Z 1000)).
Proof.
  intros N A T. unfold end_installed. rewrite sync_self, (get_sync w r R N A). cbn [bind]. rewrite T. cbn [timer_stop].
  unfold complete. cbn [fst snd]. rewrite (get_set_sync w r R _ N A). cbn [c_timer c_features c_policy c_idx].
  set (k := mkContext (c_features (r_sync R)) (c_policy (r_sync R)) (c_idx (r_sync R)) (Events true None)).
  set (k' := mkContext (c_features (r_sync R)) (c_policy (r_sync R)) (c_idx (r_sync R)) (Events true (Some ms))).
  assert (E : set_context (set_context w (r, Sync) k) (r, Sync) k' = set_context w (r, Sync) k').
  { rewrite (set_sync _ r (with_sync R k)) by (apply nth_sync; exact N). rewrite !(set_sync w r R N). unfold set_region. cbn [w_regions w_config w_rank w_registry w_executions w_files].
    assert (X : forall (l : list region) n x y, set_nth (set_nth l n x) n y = set_nth l n y).
    { induction l as [|z l IH]; intros [|n] x y; cbn [set_nth]; [reflexivity|reflexivity|reflexivity|]. rewrite IH. reflexivity. }
    rewrite X. reflexivity. }
  rewrite E, (get_set_sync w r R _ N A). reflexivity.
Qed.

Lemma truthy_cases c : bare c -> truthy (cf_region_model c) = true /\ truthy (cf_collective c) = false.
Proof.
  intros B. split; [apply region_models; exact B|]. apply cold. apply B.
Qed.

(** What is recorded. *)
Lemma early_recorded P w r R b e now ms w' : bare (w_config w) -> nth_error (w_regions w) r = Some R -> r_alive R = true -> c_timer (r_sync R) = Events b e ->
  m_trainable (r_model R) = true -> r_min_training R <= 0 ->
  end_installed P w r (r, Sync) now (Some ms) = Ok w' ->
  exists R', nth_error (w_regions w') r = Some R' /\
    ds_insert (r_dataset R) (c_features (r_sync R)) (c_policy (r_sync R)) (div64 (f64_of_f32 ms) (f64_of_Z 1000)) = Ok (r_dataset R') /\
    r_model R' = r_model R /\ r_current R' = None.
Proof.
  intros BA N A T TR MT. rewrite (early_end P w r R b e now ms N A T). set (k := mkContext _ _ _ _). set (x := div64 _ _).
  unfold collect_context. assert (NS := nth_sync w r R N k). unfold get_region at 1. rewrite NS. cbn [with_sync r_alive]. rewrite A. cbn [bind].
  rewrite (get_set_sync w r R _ N A). cbn [bind].
  assert (EC : w_config (set_context w (r, Sync) k) = w_config w) by (rewrite (set_sync w r R N); reflexivity).
  rewrite EC, (cold (cf_trace_csv (w_config w))), (cold (cf_persistent (w_config w))) by apply BA. cbn [orb r_model with_sync]. rewrite TR.
  cbn [r_dataset with_sync c_features c_policy k]. destruct (ds_insert _ _ _ _) as [d| | | |] eqn:I; try discriminate. cbn [bind].
  unfold moved_features. rewrite sync_self. unfold auto_train, get_region. cbn [count_execution set_region w_regions]. erewrite nth_set_nth_eq by exact NS. cbn [with_dataset with_sync r_alive]. rewrite A. cbn [bind r_model with_sync with_dataset]. rewrite TR. cbn [negb].
  cbv zeta. cbn [w_config count_execution set_region]. rewrite EC, (cold (cf_global_period (w_config w))), (cold (cf_region_period (w_config w))) by apply BA. cbn [andb].
  cbn [r_min_training with_sync with_dataset]. destruct (Z.ltb_spec 0 (r_min_training R)) as [X|X]; [lia|]. cbn [andb bind]. unfold get_region. cbn [bind w_regions count_execution set_region]. erewrite nth_set_nth_eq by exact NS.
  cbn [r_alive with_sync with_dataset]. rewrite A. cbn [bind]. intros K. injection K as <-. eexists. split; [cbn [set_region w_regions]; eapply nth_set_nth_eq; eapply nth_set_nth_eq; exact NS|]. cbn. auto.
Qed.

(** ** The programs *)

Section Programs.
Variable P : platform.
Variable c : config.
Variable files : list (bytes * bytes).
Variable started ended : nat -> Z * Z.
Variable D : nat -> draws.
Variable early : nat -> option f32.
Variable init : nat -> nat -> f64.
Hypothesis BA : bare c.
Hypothesis PM : cf_policy_model c = $"Static,policy=0".

Variable name : bytes.
Variable np : Z.
Hypothesis NAME : name = $"cuda-region" /\ np = 2 \/ name = $"hip-region" /\ np = 3.

Definition dev (idx : Z) (cur : option ctxptr) (sync : context) (n : Z) : world :=
  mkWorld c 0 [mkRegion true name 1 np 0 ($"Static,policy=0") ($"Static") (MStatic np 0) [] idx cur sync [] [] []] [(name, 0%nat)] n files.

Lemma dev_created : step P (start_world c files) (OpRegion 1 name np 0 [] [] init) = Ok (dev 0 None (mkContext [] 0 0 (Clock None None)) 0, GotRegion 0).
Proof.
  cbn [step]. unfold new_region. cbn [w_config start_world]. rewrite PM.
  assert (EP : parse_policy_model ($"Static,policy=0") = Ok ($"Static", [($"policy", $"0")])) by (vm_compute; reflexivity).
  rewrite EP. cbn [bind].
  assert (ER : resolve_static_region (region_name name) ($"Static,policy=0") ($"Static") [($"policy", $"0")] = Ok ($"Static", [($"policy", $"0")], $"Static,policy=0")) by (vm_compute; reflexivity).
  rewrite ER. cbn [bind].
  assert (EC : create_model P ($"Static") 1 np [($"policy", $"0")] init = Ok (MStatic np 0)) by (destruct NAME as [(_ & ->)|(_ & ->)]; vm_compute; reflexivity).
  rewrite EC. cbn [bind]. unfold load_models. cbn [bind].
  change (param_find ($"load") [($"policy", $"0")]) with (@None bytes). cbn [bind].
  unfold load_persistent. cbn [w_config start_world]. rewrite (cold (cf_persistent c)) by apply BA. cbn [bind].
  unfold load_and_train. change (param_find ($"load-dataset") [($"policy", $"0")]) with (@None bytes). cbn [bind].
  unfold load_optimal. change (bytes_eqb ($"Static") ($"Optimal")) with false. cbn [bind].
  unfold load_dataset_map. change (bytes_eqb ($"Static") ($"DatasetMap")) with false. cbn [bind w_config].
  rewrite (cold (cf_trace_csv c)) by apply BA. cbn [bind w_config w_rank w_regions w_registry w_executions w_files start_world app length].
  unfold dev. destruct NAME as [(-> & ->)|(-> & ->)]; reflexivity.
Qed.


Lemma dev_train idx cur sync n : step P (dev idx cur sync n) (OpTrainAll 0 true) = Ok (dev idx cur sync n, Done).
Proof.
  cbn [step]. unfold apollo_train, train_all_by. cbn [w_config dev]. rewrite (proj2 (truthy_cases c BA)).
  unfold train_regions_by. cbn [w_config dev]. rewrite (cold (cf_single_model c)) by apply BA. reflexivity.
Qed.

Lemma dev_begin idx cur fs k i t n fs' now : idx <> idx_max ->
  begin_features (dev idx cur (mkContext fs k i t) n) 0 fs' now = Ok (dev (idx + 1) (Some (0%nat, Sync)) (mkContext fs' k idx (timer_start now t)) n, (0%nat, Sync)).
Proof.
  intros NE. apply Z.eqb_neq in NE. unfold begin_features, begin_context, get_region, dev.
  cbn [w_regions nth_error r_alive bind with_sync r_sync r_idx c_policy c_idx c_timer]. rewrite NE. reflexivity.
Qed.

Lemma dev_ask idx fs k i t n A :
  step P (dev idx (Some (0%nat, Sync)) (mkContext fs k i t) n) (OpGetPolicy 0 None A) =
  Ok (dev idx (Some (0%nat, Sync)) (mkContext fs 0 i t) n, GotPolicy 0).
Proof.
  cbn [step]. unfold resolve, get_region, dev. cbn [w_regions nth_error r_alive bind r_current]. unfold get_policy_index, get_region, get_context.
  cbn [w_regions nth_error r_alive bind fst snd r_sync r_model c_features m_get_index]. unfold trace_policy. cbn [w_config].
  rewrite (cold (cf_trace_policy c)) by apply BA. reflexivity.
Qed.

Lemma dev_install idx fs k i t n : install_timer (dev idx (Some (0%nat, Sync)) (mkContext fs k i t) n) (0%nat, Sync) = Ok (dev idx (Some (0%nat, Sync)) (mkContext fs k i (Events false None)) n).
Proof. reflexivity. Qed.

Lemma dev_late idx fs k i n now : end_current P (dev idx (Some (0%nat, Sync)) (mkContext fs k i (Events false None)) n) 0 now None = UB.
Proof. reflexivity. Qed.

Lemma dev_early idx fs k i n now ms : end_current P (dev idx (Some (0%nat, Sync)) (mkContext fs k i (Events false None)) n) 0 now (Some ms) =
  Ok (dev idx None (mkContext fs k i (Events true (Some ms))) ((n + 1) mod 2 ^ 64)).
Proof.
  unfold end_current, resolve, get_region, dev. cbn [w_regions nth_error r_alive bind r_current].
  erewrite early_end by reflexivity. cbn [r_sync c_features c_policy c_idx].
  unfold collect_context, set_context, get_region, get_context. cbn [fst snd w_regions nth_error set_region set_nth r_alive bind w_config].
  rewrite (cold (cf_trace_csv c)), (cold (cf_persistent c)) by apply BA. reflexivity.
Qed.

Lemma dev_execution idx cur sync n x j : idx <> idx_max ->
  match early j with
  | None => gpu_execution P started ended D early np x j (dev idx cur sync n) = UB
  | Some _ => exists sync', gpu_execution P started ended D early np x j (dev idx cur sync n) = Ok (dev (idx + 1) None sync' ((n + 1) mod 2 ^ 64), 0)
  end.
Proof.
  intros NE. destruct sync as [fs k i t]. unfold gpu_execution. rewrite dev_begin by exact NE. cbn [bind]. rewrite dev_ask. cbn [bind]. rewrite dev_install. cbn [bind].
  assert (B : negb ((0 <=? 0) && (0 <? np)) = false) by (destruct NAME as [(_ & ->)|(_ & ->)]; reflexivity). rewrite B.
  destruct (early j) as [ms|]; [|rewrite dev_late; reflexivity]. rewrite dev_early. cbn [bind]. eexists. destruct (Nat.eqb j 10); [rewrite dev_train; reflexivity|reflexivity].
Qed.

Lemma dev_loop x todo : forall j idx cur sync n, 0 <= idx -> idx + Z.of_nat todo <= idx_max ->
  (Forall (fun j => early j <> None) (seq j todo) -> exists w, gpu_loop P started ended D early np x todo j (dev idx cur sync n) = Ok (w, repeat 0 todo)) /\
  (Exists (fun j => early j = None) (seq j todo) -> gpu_loop P started ended D early np x todo j (dev idx cur sync n) = UB).
Proof.
  induction todo as [|todo IH]; intros j idx cur sync n A B.
  - cbn [gpu_loop seq repeat]. split; [eauto|]. intros X. inversion X.
  - assert (NE : idx <> idx_max) by lia. assert (E := dev_execution idx cur sync n x j NE). cbn [gpu_loop seq repeat]. destruct (early j) as [ms|] eqn:EJ.
    + destruct E as (sync' & ->). cbn [bind]. destruct (IH (S j) (idx + 1) None sync' ((n + 1) mod 2 ^ 64) ltac:(lia) ltac:(lia)) as [G L]. split; intros X.
      * inversion X; subst. destruct (G H2) as (w & ->). cbn [bind]. eauto.
      * inversion X as [? ? Y|? ? Y]; subst; [congruence|]. rewrite (L Y). reflexivity.
    + rewrite E. split; [|reflexivity]. intros X. inversion X; subst. congruence.
Qed.

Lemma dev_main x :
  ((forall j, (j < 20)%nat -> early j <> None) -> exists w, gpu_main P started ended D early init name np x (start_world c files) = Ok (w, repeat 0 20)) /\
  ((exists j, (j < 20)%nat /\ early j = None) -> gpu_main P started ended D early init name np x (start_world c files) = UB).
Proof.
  unfold gpu_main. rewrite dev_created. cbn [bind]. destruct (dev_loop x 20 0 0 None (mkContext [] 0 0 (Clock None None)) 0) as [G L]; [lia|unfold idx_max; lia|]. split; intros X.
  - apply G. apply Forall_forall. intros j I. apply in_seq in I. apply X. lia.
  - apply L. apply Exists_exists. destruct X as (j & J & E). exists j. split; [apply in_seq; lia|exact E].
Qed.
End Programs.

Lemma programs_end P c files started ended D early init : bare c -> cf_policy_model c = $"Static,policy=0" -> (forall j, (j < 20)%nat -> early j <> None) ->
  (exists w, cuda_main P started ended D early init (start_world c files) = Ok (w, repeat 0 20)) /\
  (exists w, hip_main P started ended D early init (start_world c files) = Ok (w, repeat 0 20)).
Proof.
  intros BA PM E. unfold cuda_main, hip_main. split.
  - exact (proj1 (dev_main P c files started ended D early init BA PM _ 2 (or_introl (conj eq_refl eq_refl)) 100000) E).
  - exact (proj1 (dev_main P c files started ended D early init BA PM _ 3 (or_intror (conj eq_refl eq_refl)) 1000000) E).
Qed.
Lemma programs_late P c files started ended D early init : bare c -> cf_policy_model c = $"Static,policy=0" -> (exists j, (j < 20)%nat /\ early j = None) ->
  cuda_main P started ended D early init (start_world c files) = UB /\ hip_main P started ended D early init (start_world c files) = UB.
Proof.
  intros BA PM E. unfold cuda_main, hip_main. split.
  - exact (proj2 (dev_main P c files started ended D early init BA PM _ 2 (or_introl (conj eq_refl eq_refl)) 100000) E).
  - exact (proj2 (dev_main P c files started ended D early init BA PM _ 3 (or_intror (conj eq_refl eq_refl)) 1000000) E).
Qed.
