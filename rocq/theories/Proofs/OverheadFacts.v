(** The bundled benchmark. *)
From Coq Require Import ZArith Bool Ascii String Lia Permutation Sorted Reals Lra List.
From Flocq Require Import Core BinarySingleNaN.
From Verif Require Import Model.Base Model.Float Model.DatasetM Model.TreeM Model.ModelStringM Model.PolicyModelsM Model.ConfigM Model.RuntimeM Model.OverheadM
  Spec.DatasetSpec Spec.TreeSpec Spec.ForestSpec Spec.GreedySpec Proofs.FloatFacts Proofs.FloatConv Proofs.TreeFacts Proofs.MapFacts Proofs.KeyOrder Proofs.TreeTraining Proofs.TreeGreedy Spec.SafeClient Spec.OverheadSpec.
Import ListNotations.
Open Scope Z_scope.

Section Bench.
Variable P : platform.
Variable c : config.
Variable files : list (bytes * bytes).
Variable started ended : nat -> Z * Z.
Variable D : nat -> draws.
Variable init : nat -> nat -> f64.
Hypothesis HS : sorter_ok (p_sort P).
Hypothesis BA : bare c.

Lemma cold z : z = 0 -> truthy z = false.
Proof. intros ->. reflexivity. Qed.
Lemma region_models : truthy (cf_region_model c) = true.
Proof. unfold truthy. destruct (Z.eqb_spec (cf_region_model c) 0) as [E|]; [|reflexivity]. destruct BA. destruct ba_plain. contradiction. Qed.

(** The process while the benchmark runs. *)
Definition bench (nf np : Z) (m : model) (d : dataset) (idx : Z) (cur : option ctxptr) (sync : context) (n : Z) : world :=
  mkWorld c 0 [mkRegion true ($"test-overhead") nf np 0 ($"DecisionTree,max_depth=2") ($"DecisionTree") m d idx cur sync [] [] []] [($"test-overhead", 0%nat)] n files.

Definition fresh (np last : Z) : model := MTree np true (new_dtree 2) (Some (MRoundRobin np last)).

Lemma bench_created nf np : step P (start_world c files) (OpRegion nf ($"test-overhead") np 0 ($"DecisionTree,max_depth=2") [] init) =
  Ok (bench nf np (fresh np (-1)) [] 0 None (mkContext [] 0 0 (Clock None None)) 0, GotRegion 0).
Proof.
  cbn [step]. unfold new_region.
  assert (EP : parse_policy_model ($"DecisionTree,max_depth=2") = Ok ($"DecisionTree", [($"max_depth", $"2")])) by (vm_compute; reflexivity).
  change (match $"DecisionTree,max_depth=2" with [] => cf_policy_model (w_config (start_world c files)) | _ => $"DecisionTree,max_depth=2" end) with ($"DecisionTree,max_depth=2").
  rewrite EP. cbn [bind].
  assert (ER : resolve_static_region (region_name ($"test-overhead")) ($"DecisionTree,max_depth=2") ($"DecisionTree") [($"max_depth", $"2")] = Ok ($"DecisionTree", [($"max_depth", $"2")], $"DecisionTree,max_depth=2")) by (vm_compute; reflexivity).
  rewrite ER. cbn [bind].
  assert (EC : create_model P ($"DecisionTree") nf np [($"max_depth", $"2")] init = Ok (fresh np (-1))) by (vm_compute; reflexivity).
  rewrite EC. cbn [bind]. unfold load_models. cbn [bind]. 
  change (param_find ($"load") [($"max_depth", $"2")]) with (@None bytes). cbn [bind].
  unfold load_persistent. cbn [w_config start_world]. rewrite (cold (cf_persistent c)) by apply BA. cbn [bind].
  unfold load_and_train. change (param_find ($"load-dataset") [($"max_depth", $"2")]) with (@None bytes). cbn [bind].
  unfold load_optimal. change (bytes_eqb ($"DecisionTree") ($"Optimal")) with false. cbn [bind].
  unfold load_dataset_map. change (bytes_eqb ($"DecisionTree") ($"DatasetMap")) with false. cbn [bind w_config].
  rewrite (cold (cf_trace_csv c)) by apply BA. cbn [bind w_config w_rank w_regions w_registry w_executions w_files start_world app length].
  reflexivity.
Qed.

Lemma bench_begin nf np m d idx cur fs k i b e n now : idx <> idx_max ->
  step P (bench nf np m d idx cur (mkContext fs k i (Clock b e)) n) (OpBegin 0 false now) =
  Ok (bench nf np m d (idx + 1) (Some (0%nat, Sync)) (mkContext [] k idx (Clock (Some (clock_seconds now)) e)) n, GotContext (0%nat, Sync)).
Proof.
  intros NE. apply Z.eqb_neq in NE. cbn [step]. unfold begin_context, get_region, bench.
  cbn [w_regions nth_error r_alive bind with_sync r_sync r_idx c_policy c_idx c_timer]. rewrite NE. reflexivity.
Qed.

Lemma bench_feature nf np m d idx fs k i t n x :
  step P (bench nf np m d idx (Some (0%nat, Sync)) (mkContext fs k i t) n) (OpSetFeature 0 None x) =
  Ok (bench nf np m d idx (Some (0%nat, Sync)) (mkContext (fs ++ [x]) k i t) n, Done).
Proof. reflexivity. Qed.

Lemma bench_features nf np m d idx k i t n T j : T <> 0 -> forall q a fs,
  loop (fun _ w => overhead_feature P T j w) q a (bench nf np m d idx (Some (0%nat, Sync)) (mkContext fs k i t) n) =
  Ok (bench nf np m d idx (Some (0%nat, Sync)) (mkContext (fs ++ repeat (f32_of_Z (Z.of_nat j mod T)) q) k i t) n).
Proof.
  intros NT. induction q as [|q IH]; intros a fs; cbn [loop repeat]; [rewrite app_nil_r; reflexivity|].
  unfold overhead_feature at 1. rewrite (proj2 (Z.eqb_neq _ _) NT), bench_feature. cbn [bind]. rewrite IH, <- app_assoc. reflexivity.
Qed.

Lemma bench_ask nf np m d idx fs k i t n A choice m' : m_get_index P A m fs = Ok (choice, m') ->
  step P (bench nf np m d idx (Some (0%nat, Sync)) (mkContext fs k i t) n) (OpGetPolicy 0 None A) =
  Ok (bench nf np m' d idx (Some (0%nat, Sync)) (mkContext fs choice i t) n, GotPolicy choice).
Proof.
  intros E. cbn [step]. unfold resolve, get_region, bench. cbn [w_regions nth_error r_alive bind r_current]. unfold get_policy_index, get_region, get_context.
  cbn [w_regions nth_error r_alive bind fst snd r_sync r_model c_features]. rewrite E. cbn [bind]. unfold trace_policy. cbn [w_config].
  rewrite (cold (cf_trace_policy c)) by apply BA. reflexivity.
Qed.

Lemma bench_end nf np m d idx fs k i b e n now :
  step P (bench nf np m d idx (Some (0%nat, Sync)) (mkContext fs k i (Clock (Some b) e)) n) (OpEnd 0 None now None) =
  let* w := collect_context P (bench nf np m d idx (Some (0%nat, Sync)) (mkContext fs k i (Clock (Some b) (Some (clock_seconds now)))) n) 0 (0%nat, Sync) (sub64 (clock_seconds now) b) in Ok (w, Done).
Proof. reflexivity. Qed.

Lemma bench_end_trained nf np m d idx fs k i b e n now : m_trainable m = false ->
  step P (bench nf np m d idx (Some (0%nat, Sync)) (mkContext fs k i (Clock (Some b) e)) n) (OpEnd 0 None now None) =
  Ok (bench nf np m d idx None (mkContext fs k i (Clock (Some b) (Some (clock_seconds now)))) ((n + 1) mod 2 ^ 64), Done).
Proof.
  intros T. rewrite bench_end. unfold collect_context, bench, get_region, get_context. cbn [w_regions nth_error r_alive bind fst snd r_sync w_config].
  rewrite (cold (cf_trace_csv c)), (cold (cf_persistent c)) by apply BA. cbn [orb r_model]. rewrite T. cbn [bind].
  unfold auto_train, get_region. cbn [count_execution set_region w_regions set_nth nth_error r_alive bind r_model]. rewrite T. reflexivity.
Qed.

Lemma bench_end_exploring nf np m d idx fs k i b e n now d' : m_trainable m = true -> ds_insert d fs k (sub64 (clock_seconds now) b) = Ok d' ->
  step P (bench nf np m d idx (Some (0%nat, Sync)) (mkContext fs k i (Clock (Some b) e)) n) (OpEnd 0 None now None) =
  Ok (bench nf np m d' idx None (mkContext [] k i (Clock (Some b) (Some (clock_seconds now)))) ((n + 1) mod 2 ^ 64), Done).
Proof.
  intros T I. rewrite bench_end. unfold collect_context, bench, get_region, get_context. cbn [w_regions nth_error r_alive bind fst snd r_sync w_config].
  rewrite (cold (cf_trace_csv c)), (cold (cf_persistent c)) by apply BA. cbn [orb r_model]. rewrite T. cbn [r_dataset c_features c_policy]. rewrite I. cbn [bind].
  unfold moved_features. change (is_sync_of 0 (0%nat, Sync)) with true. unfold auto_train, get_region. cbn [count_execution set_region w_regions set_nth nth_error r_alive bind r_model with_dataset with_sync]. rewrite T. cbn [negb].
  cbv zeta. cbn [w_config count_execution set_region]. rewrite (cold (cf_global_period c)), (cold (cf_region_period c)) by apply BA. reflexivity.
Qed.

Lemma bench_train nf np m d idx cur sync n m' : d <> [] -> m_train P m d = Ok m' ->
  overhead_train P 0 (bench nf np m d idx cur sync n) = Ok (bench nf np m' d idx cur sync n).
Proof.
  intros NE E. unfold overhead_train. cbn [step]. unfold region_train, get_region, bench. cbn [w_regions nth_error r_alive bind negb andb]. unfold collect_pending, get_region.
  cbn [w_regions nth_error r_alive bind r_pending collect_loop]. unfold train_body, get_region. cbn [set_region w_regions set_nth nth_error with_pending r_alive bind r_dataset].
  destruct d as [|x d]; [congruence|]. unfold ds_size. destruct (Z.leb_spec (Z.of_nat (length (x :: d))) 0) as [X|X]; [cbn in X; lia|].
  cbn [w_config set_region]. rewrite region_models. cbn [negb]. unfold trace_best. cbn [w_config set_region]. rewrite (cold (cf_trace_best c)) by apply BA. cbn [negb bind r_model r_dataset with_pending].
  rewrite E. cbn [bind w_config set_region]. rewrite (cold (cf_retrain c)), (cold (cf_store_models c)) by apply BA. reflexivity.
Qed.

(** ** What is measured *)

Definition vec (nf : nat) (v : Z) : list f32 := repeat (f32_of_Z v) nf.

Lemma find_above {K V} (lt : K -> K -> bool) k (m : list (K * V)) : Forall (fun e => lt (fst e) k = true) m -> map_find lt k m = None.
Proof. induction 1 as [|[k' v] m E _ IH]; [reflexivity|]. cbn [map_find]. cbn [fst] in E. rewrite E, andb_false_r. exact IH. Qed.
Lemma add_above {K V} (lt : K -> K -> bool) k v (m : list (K * V)) : Forall (fun e => lt k (fst e) = false) m -> map_add lt k v m = m ++ [(k, v)].
Proof. induction 1 as [|[k' v'] m E _ IH]; [reflexivity|]. cbn [map_add app]. cbn [fst] in E. rewrite E, IH. reflexivity. Qed.
Lemma update_keys {K V} (lt : K -> K -> bool) k v (m : list (K * V)) : map fst (map_update lt k v m) = map fst m.
Proof. induction m as [|[k' v'] m IH]; [reflexivity|]. cbn [map_update]. destruct (_ && _); cbn [map fst]; [|rewrite IH]; reflexivity. Qed.
Lemma find_there {K V} (lt : K -> K -> bool) k (m : list (K * V)) : lt k k = false -> In k (map fst m) -> exists v, map_find lt k m = Some v.
Proof.
  intros E. induction m as [|[k' v'] m IH]; intros I; [destruct I|]. cbn [map_find]. destruct (_ && _) eqn:B; [eauto|].
  destruct I as [I|I]; [|apply IH; exact I]. cbn [fst] in I. subst k'. rewrite E in B. discriminate B.
Qed.

Lemma small_finite v : 0 <= v <= 2 ^ 24 -> is_nan (f32_of_Z v) = false.
Proof. intros B. destruct (f32_of_Z_spec v) as [F _]; [lia|]. destruct (f32_of_Z v); [reflexivity|reflexivity|discriminate F|reflexivity]. Qed.
Lemma vec_number nf v : 0 <= v <= 2 ^ 24 -> Forall (fun x => is_nan x = false) (vec nf v).
Proof. intros B. apply Forall_forall. intros x I. apply repeat_spec in I. subst x. apply small_finite. exact B. Qed.
Lemma vec_fok nf v : 0 <= v <= 2 ^ 24 -> fok (vec nf v).
Proof. intros B. apply fok_Forall. apply vec_number. exact B. Qed.
Lemma int_lt v w : 0 <= v -> v < w -> w <= 2 ^ 24 -> lt32 (f32_of_Z v) (f32_of_Z w) = true.
Proof.
  intros A B C. destruct (f32_of_Z_spec v) as [F E]; [lia|]. destruct (f32_of_Z_spec w) as [F' E']; [lia|].
  unfold lt32. rewrite Bltb_correct by assumption. apply Rlt_bool_true. rewrite E, E'. apply IZR_lt. exact B.
Qed.
Lemma vec_increasing nf v w : (nf <> 0)%nat -> 0 <= v -> v < w -> w <= 2 ^ 24 -> vec_lt (vec nf v) (vec nf w) = true.
Proof. intros N A B C. destruct nf as [|nf]; [congruence|]. unfold vec. cbn [repeat vec_lt]. rewrite int_lt by assumption. reflexivity. Qed.

Definition row (nf : nat) (np v : Z) : key := (vec nf v, v mod np).
Definition rows (nf : nat) (np : Z) (n : nat) : list key := map (fun j => row nf np (Z.of_nat j)) (seq 0 n).

Lemma row_lt nf np v w : (nf <> 0)%nat -> 0 <= v -> v < w -> w <= 2 ^ 24 -> key_lt (row nf np v) (row nf np w) = true /\ key_lt (row nf np w) (row nf np v) = false.
Proof.
  intros N A B C. assert (L := vec_increasing nf v w N A B C). unfold key_lt. cbn [row fst snd]. rewrite L. cbn [orb negb andb]. rewrite orb_false_r. split; [reflexivity|].
  apply vec_lt_asym; [apply vec_fok; lia|apply vec_fok; lia|exact L].
Qed.

Lemma insert_next nf np n d x : (nf <> 0)%nat -> Z.of_nat n <= 2 ^ 24 -> map fst d = rows nf np n ->
  exists d', ds_insert d (vec nf (Z.of_nat n)) (Z.of_nat n mod np) x = Ok d' /\ map fst d' = rows nf np (S n).
Proof.
  intros N B E. assert (F : Forall (fun e : key * f64 => key_lt (fst e) (row nf np (Z.of_nat n)) = true /\ key_lt (row nf np (Z.of_nat n)) (fst e) = false) d).
  { apply Forall_forall. intros e I. assert (I' : In (fst e) (rows nf np n)) by (rewrite <- E; apply in_map; exact I).
    apply in_map_iff in I'. destruct I' as (j & <- & Ij). apply in_seq in Ij. apply row_lt; lia. }
  unfold ds_insert. assert (NF := vec_fok nf (Z.of_nat n) ltac:(lia)). unfold fok in NF. rewrite NF. cbn [negb]. change (vec nf (Z.of_nat n), Z.of_nat n mod np) with (row nf np (Z.of_nat n)).
  rewrite find_above by (eapply Forall_impl; [|exact F]; intros e [H _]; exact H).
  rewrite add_above by (eapply Forall_impl; [|exact F]; intros e [_ H]; exact H).
  eexists. split; [reflexivity|]. rewrite map_app, E. unfold rows. rewrite seq_S, map_app. reflexivity.
Qed.

Lemma insert_again nf np n j d x : (j < n)%nat -> Z.of_nat n <= 2 ^ 24 -> map fst d = rows nf np n ->
  exists d', ds_insert d (vec nf (Z.of_nat j)) (Z.of_nat j mod np) x = Ok d' /\ map fst d' = rows nf np n.
Proof.
  intros L B E. unfold ds_insert. assert (NF := vec_fok nf (Z.of_nat j) ltac:(lia)). unfold fok in NF. rewrite NF. cbn [negb].
  destruct (find_there key_lt (vec nf (Z.of_nat j), Z.of_nat j mod np) d) as (v & EV).
  - apply key_lt_irrefl. exact NF.
  - rewrite E. apply in_map_iff. exists j. split; [reflexivity|]. apply in_seq. lia.
  - rewrite EV. eexists. split; [reflexivity|]. rewrite update_keys. exact E.
Qed.

(** ** The first loop *)

Lemma robin_next np last i : 1 <= np -> -1 <= last -> (last + 1) mod np = Z.of_nat i mod np ->
  Z.rem (last + 1) np = Z.of_nat i mod np /\ -1 <= Z.of_nat i mod np /\ (Z.of_nat i mod np + 1) mod np = Z.of_nat (S i) mod np.
Proof.
  intros A B E. rewrite Z.rem_mod_nonneg by lia. split; [exact E|]. assert (M := Z.mod_pos_bound (Z.of_nat i) np ltac:(lia)). split; [lia|].
  rewrite Nat2Z.inj_succ, <- Z.add_1_r. rewrite Zplus_mod_idemp_l. reflexivity.
Qed.

(** One execution, whatever the data set makes of it. *)
Lemma execution_ok nf np T j d idx cur fs k i b e n last d' : T <> 0 -> np <> 0 -> 0 <= idx < idx_max ->
  ds_insert d (vec (Z.to_nat nf) (Z.of_nat j mod T)) (Z.rem (last + 1) np) (sub64 (clock_seconds (ended j)) (clock_seconds (started j))) = Ok d' ->
  exists s, overhead_execution P started ended D nf T j (bench (to_int nf) (to_int np) (fresh np last) d idx cur (mkContext fs k i (Clock b e)) n) =
    Ok (bench (to_int nf) (to_int np) (fresh np (Z.rem (last + 1) np)) d' (idx + 1) None (mkContext [] (Z.rem (last + 1) np) idx s) ((n + 1) mod 2 ^ 64)) /\
    exists b' e', s = Clock b' e'.
Proof.
  intros NT NP B I. eexists. split; [|eauto]. unfold overhead_execution. rewrite bench_begin by (unfold idx_max in *; lia). cbn [bind].
  rewrite bench_features by exact NT. cbn [bind app]. erewrite bench_ask; [|cbn [fresh m_get_index negb]; rewrite (proj2 (Z.eqb_neq _ _) NP); cbn [bind]; reflexivity].
  cbn [bind]. erewrite bench_end_exploring; [|reflexivity|exact I]. cbn [bind]. reflexivity.
Qed.

Lemma executions_ok nf np T reps (Q : nat -> dataset -> Prop) (HR : Z.of_nat reps <= idx_max) (HQ : forall j d x, (j < reps)%nat -> Q j d -> exists d', ds_insert d (vec (Z.to_nat nf) (Z.of_nat j mod T)) (Z.of_nat j mod np) x = Ok d' /\ Q (S j) d') :
  T <> 0 -> 1 <= np -> forall q j d cur fs k i b e n last, (j + q <= reps)%nat -> Q j d -> -1 <= last -> (last + 1) mod np = Z.of_nat j mod np ->
  exists d' cur' fs' k' i' b' e' n' last', loop (overhead_execution P started ended D nf T) q j (bench (to_int nf) (to_int np) (fresh np last) d (Z.of_nat j) cur (mkContext fs k i (Clock b e)) n) =
    Ok (bench (to_int nf) (to_int np) (fresh np last') d' (Z.of_nat (j + q)) cur' (mkContext fs' k' i' (Clock b' e')) n') /\ Q (j + q)%nat d'.
Proof.
  intros NT NP. induction q as [|q IH]; intros j d cur fs k i b e n last B I LB LE.
  - rewrite Nat.add_0_r. cbn [loop]. do 9 eexists. split; [reflexivity|exact I].
  - cbn [loop]. destruct (robin_next np last j NP LB LE) as (E1 & E2 & E3).
    destruct (HQ j d (sub64 (clock_seconds (ended j)) (clock_seconds (started j))) ltac:(lia) I) as (d' & ED & I').
    destruct (execution_ok nf np T j d (Z.of_nat j) cur fs k i b e n last d' NT ltac:(lia) ltac:(lia)) as (s & EX & b' & e' & ->); [rewrite E1; exact ED|].
    rewrite EX. cbn [bind]. rewrite E1. replace (Z.of_nat j + 1) with (Z.of_nat (S j)) by lia. replace (j + S q)%nat with (S j + q)%nat by lia.
    apply IH; [replace (S j + q)%nat with (j + S q)%nat by lia; exact B|exact I'|exact E2|exact E3].
Qed.

(** ** What is learned from *)

Definition listed (e : key * f64) : list f32 * (Z * f64) := (fst (fst e), (snd (fst e), snd e)).

Lemma min_increasing d : forall b, (forall e e', In e b -> In e' d -> vec_lt (fst e) (fst (fst e')) = true /\ vec_lt (fst (fst e')) (fst e) = false) ->
  StronglySorted (fun e e' : key * f64 => vec_lt (fst (fst e)) (fst (fst e')) = true /\ vec_lt (fst (fst e')) (fst (fst e)) = false) d ->
  fold_left min_step d b = b ++ map listed d.
Proof.
  induction d as [|[[f p] x] d IH]; intros b A S; cbn [fold_left map]; [rewrite app_nil_r; reflexivity|]. inversion S as [|? ? S' F]; subst.
  unfold min_step at 2. rewrite find_above by (apply Forall_forall; intros e I; exact (proj1 (A e _ I (or_introl eq_refl)))).
  rewrite add_above by (apply Forall_forall; intros e I; exact (proj2 (A e _ I (or_introl eq_refl)))).
  rewrite IH; [rewrite <- app_assoc; reflexivity| |exact S'].
  intros e e' I I'. apply in_app_or in I. destruct I as [I|[<-|[]]]; [apply A; [exact I|right; exact I']|].
  rewrite Forall_forall in F. exact (F e' I').
Qed.

Lemma rows_sorted nf np T : (nf <> 0)%nat -> Z.of_nat T <= 2 ^ 24 -> forall d, map fst d = rows nf np T ->
  StronglySorted (fun e e' : key * f64 => vec_lt (fst (fst e)) (fst (fst e')) = true /\ vec_lt (fst (fst e')) (fst (fst e)) = false) d.
Proof.
  intros N B. unfold rows. assert (G : forall q a d, (a + q <= T)%nat -> map fst d = map (fun j => row nf np (Z.of_nat j)) (seq a q) ->
    StronglySorted (fun e e' : key * f64 => vec_lt (fst (fst e)) (fst (fst e')) = true /\ vec_lt (fst (fst e')) (fst (fst e)) = false) d).
  { induction q as [|q IH]; intros a d L E; (destruct d as [|e d]; [try constructor|]); try discriminate E. constructor; [|].
    - cbn [seq map] in E. injection E as _ E. exact (IH (S a) d ltac:(lia) E).
    - cbn [seq map] in E. injection E as E0 E. apply Forall_forall. intros e' I. assert (I' : In (fst e') (map (fun j => row nf np (Z.of_nat j)) (seq (S a) q))) by (rewrite <- E; apply in_map; exact I).
      apply in_map_iff in I'. destruct I' as (j & <- & Ij). apply in_seq in Ij. rewrite E0. cbn [row fst].
      assert (L' := vec_increasing nf (Z.of_nat a) (Z.of_nat j) N ltac:(lia) ltac:(lia) ltac:(lia)). split; [exact L'|].
      apply vec_lt_asym; [apply vec_fok; lia|apply vec_fok; lia|exact L']. }
  intros d E. exact (G T 0%nat d ltac:(lia) E).
Qed.

Definition bench_features_of (nf : nat) (T : nat) : list (list f32) := map (fun j => vec nf (Z.of_nat j)) (seq 0 T).
Definition bench_responses (np : Z) (T : nat) : list Z := map (fun j => Z.of_nat j mod np) (seq 0 T).

Lemma rows_min nf np T d : (nf <> 0)%nat -> Z.of_nat T <= 2 ^ 24 -> map fst d = rows nf np T ->
  exists best, ds_find_min d [] [] = (bench_features_of nf T, bench_responses np T, best).
Proof.
  intros N B E. unfold ds_find_min. rewrite (min_increasing d []); [|intros ? ? []|exact (rows_sorted nf np T N B d E)]. cbn [app]. eexists. f_equal. f_equal.
  - rewrite map_map. transitivity (map fst (map fst d)); [rewrite map_map; reflexivity|]. rewrite E. unfold rows. rewrite map_map. reflexivity.
  - rewrite map_map. transitivity (map snd (map fst d)); [rewrite map_map; reflexivity|]. rewrite E. unfold rows. rewrite map_map. reflexivity.
Qed.

(** The same vector every time. *)
Lemma same_min f d : fok f -> d <> [] -> Forall (fun e : key * f64 => fst (fst e) = f) d -> exists p best, ds_find_min d [] [] = ([f], [p], best) /\ In p (map (fun e => snd (fst e)) d).
Proof.
  intros F NE A. assert (G : forall l p x, Forall (fun e : key * f64 => fst (fst e) = f) l -> exists q y, fold_left min_step l [(f, (p, x))] = [(f, (q, y))] /\ (q = p \/ In q (map (fun e : key * f64 => snd (fst e)) l))).
  { induction l as [|[[g r] y] l IH]; intros p x H; cbn [fold_left map]; [eauto 6|]. inversion H as [|? ? E H']; subst. cbn [fst] in *.
    unfold min_step at 2. cbn [map_find]. rewrite (vec_lt_irrefl g F). cbn [negb andb]. destruct (lt64 y x).
    - cbn [map_update]. rewrite (vec_lt_irrefl g F). cbn [negb andb]. destruct (IH r y H') as (q & z & E & K). exists q, z. split; [exact E|]. destruct K as [->|K]; right; [left; reflexivity|right; exact K].
    - destruct (IH p x H') as (q & z & E & K). exists q, z. split; [exact E|]. destruct K as [->|K]; [left; reflexivity|right; right; exact K]. }
  destruct d as [|[[g r] y] d]; [congruence|]. inversion A as [|? ? E A']; subst. cbn [fst] in *.
  destruct (G d r y A') as (q & z & E & K). unfold ds_find_min. cbn [fold_left]. unfold min_step at 2 4 6. cbn [map_find map_add]. rewrite E. exists q, [(g, (q, z))].
  split; [reflexivity|]. destruct K as [->|K]; [left; reflexivity|right; exact K].
Qed.

(** ** Building the model *)

Lemma retrain nf np d fs rs best idx cur sync n e : d <> [] -> ds_find_min d [] [] = (fs, rs, best) ->
  (forall h t, trained (p_sort P) 2 h t -> (exists j, h = repeat (fs, rs) j) -> exists t', dt_train (p_sort P) t fs rs = Ok t') ->
  forall q i j t b, trained (p_sort P) 2 (repeat (fs, rs) j) t ->
  exists t' b', loop (overhead_train P) q i (bench nf np (MTree np b t e) d idx cur sync n) = Ok (bench nf np (MTree np b' t' e) d idx cur sync n) /\
    trained (p_sort P) 2 (repeat (fs, rs) (j + q)) t' /\ ((0 < q)%nat -> b' = false).
Proof.
  intros NE EM TT. induction q as [|q IH]; intros i j t b HT.
  - rewrite Nat.add_0_r. exists t, b. split; [reflexivity|]. split; [exact HT|lia].
  - destruct (TT _ t HT ltac:(eauto)) as (t1 & E1). cbn [loop].
    assert (HT1 : trained (p_sort P) 2 (repeat (fs, rs) (S j)) t1) by (replace (S j) with (j + 1)%nat by lia; rewrite repeat_app; exact (trained_more _ _ _ _ _ _ _ HT E1)).
    change (overhead_train P i) with (overhead_train P 0). rewrite (bench_train nf np (MTree np b t e) d idx cur sync n (MTree np false t1 e)); [|exact NE|cbn [m_train]; rewrite EM, E1; reflexivity].
    cbn [bind]. destruct (IH (S i) (S j) t1 false HT1) as (t' & b' & EL & HT' & K). exists t', b'. split; [exact EL|]. replace (j + S q)%nat with (S j + q)%nat by lia. split; [exact HT'|].
    intros _. destruct q as [|q]; [|apply K; lia]. cbn [loop] in EL. injection EL as <- _. reflexivity.
Qed.

(** ** Two policies cannot be told apart without a split *)

Lemma alternating np x : 2 <= np -> forall n a, (2 * count_occ Z.eq_dec (map (fun j => (Z.of_nat j mod np)%Z) (seq a n)) x <= n + 1)%nat /\
  (Z.of_nat a mod np <> x -> (2 * count_occ Z.eq_dec (map (fun j => (Z.of_nat j mod np)%Z) (seq a n)) x <= n)%nat).
Proof.
  intros N. assert (NX : forall a, Z.of_nat a mod np = x -> Z.of_nat (S a) mod np <> x).
  { intros a E E'. assert (X := Z.div_mod (Z.of_nat a) np ltac:(lia)). assert (X' := Z.div_mod (Z.of_nat (S a)) np ltac:(lia)). rewrite E in X. rewrite E' in X'.
    assert (np * (Z.of_nat (S a) / np - Z.of_nat a / np) = 1) by lia.
    assert (DV : (np | 1)) by (exists (Z.of_nat (S a) / np - Z.of_nat a / np); lia). apply Z.divide_1_r_nonneg in DV; lia. }
  induction n as [|n IH]; intros a; cbn [seq map]; [cbn; lia|].
  destruct (IH (S a)) as [A B]. destruct (Z.eq_dec (Z.of_nat a mod np) x) as [E|E].
  - rewrite count_occ_cons_eq by exact E. specialize (B (NX a E)). split; [lia|congruence].
  - rewrite count_occ_cons_neq by exact E. split; [lia|intros _; lia].
Qed.

Open Scope R_scope.
Lemma squares_below M cs (l : list sample) : l <> [] -> (forall x, share x l <= M) ->
  sum_squares cs l <= M * (IZR (fold_right (fun x a => (Z.of_nat (count_occ Z.eq_dec (map snd l) x) + a)%Z) 0%Z cs) / INR (length l)).
Proof.
  intros NE B. assert (N : 0 < INR (length l)) by (apply lt_0_INR; destruct l; [contradiction NE; reflexivity|cbn; lia]).
  induction cs as [|x cs IH]; cbn [sum_squares fold_right]; [unfold Rdiv; rewrite Rmult_0_l, Rmult_0_r; apply Rle_refl|].
  fold (sum_squares cs l). rewrite plus_IZR, <- INR_IZR_INZ. unfold Rdiv in *. rewrite Rmult_plus_distr_r, Rmult_plus_distr_l. apply Rplus_le_compat; [|exact IH].
  fold (share x l). assert (S := share_bound x l NE). change (INR (count_occ Z.eq_dec (map snd l) x) * / INR (length l)) with (share x l). apply Rmult_le_compat_r; [apply S|apply B].
Qed.

Lemma spread (l : list sample) : (2 <= length l)%nat -> (forall x, (2 * count_occ Z.eq_dec (map snd l) x <= length l + 1)%nat) -> 1 / 4 <= impurity l.
Proof.
  intros L B. assert (NE : l <> []) by (intros X; rewrite X in L; cbn in L; lia). assert (N : 2 <= INR (length l)) by (change 2 with (INR 2); apply le_INR; exact L).
  unfold impurity. assert (K : forall x, share x l <= 3 / 4).
  { intros x. unfold share. apply Rmult_le_reg_r with (INR (length l)); [lra|]. unfold Rdiv at 1. rewrite Rmult_assoc, Rinv_l, Rmult_1_r by lra.
    specialize (B x). apply le_INR in B. rewrite mult_INR, plus_INR in B. change (INR 2) with 2 in B. change (INR 1) with 1 in B. lra. }
  assert (S := squares_below (3 / 4) (nodup Z.eq_dec (map snd l)) l NE K). assert (C := counts_le (nodup Z.eq_dec (map snd l)) l (NoDup_nodup _ _)). apply IZR_le in C. rewrite <- INR_IZR_INZ in C.
  assert (Q : IZR (fold_right (fun x a => (Z.of_nat (count_occ Z.eq_dec (map snd l) x) + a)%Z) 0%Z (nodup Z.eq_dec (map snd l))) / INR (length l) <= 1).
  { apply Rmult_le_reg_r with (INR (length l)); [lra|]. unfold Rdiv. rewrite Rmult_assoc, Rinv_l, Rmult_1_r, Rmult_1_l by lra. exact C. }
  nra.
Qed.
Open Scope Z_scope.

Lemma greedy_splits eps d l t : greedy eps d l t -> 0 < d -> (eps < impurity l)%R -> forall X, evaluate t X = UB \/ X <> [].
Proof.
  intros G PD E X. destruct X as [|x X]; [left|right; discriminate]. destruct G as [d l g n cl thr counts _ [Z|Z]|]; [lia|lra|].
  cbn [evaluate]. destruct (Z.eqb_spec (Z.of_nat f) (-1)); [lia|]. unfold vec_get. destruct (Z.ltb_spec (Z.of_nat f) 0); [reflexivity|]. destruct (Z.to_nat (Z.of_nat f)); reflexivity.
Qed.

Lemma combine_snd {A B} (a : list A) : forall b : list B, length b = length a -> map snd (combine a b) = b.
Proof. induction a as [|x a IH]; intros [|y b] L; cbn in *; try lia; [reflexivity|]. rewrite IH by lia. reflexivity. Qed.

Lemma few_classes np (rs : list Z) : 0 <= np -> (forall x, In x rs -> 0 <= x < np) -> Z.of_nat (length (nodup Z.eq_dec rs)) <= np.
Proof.
  intros N B. assert (L : (length (nodup Z.eq_dec rs) <= length (map Z.of_nat (seq 0 (Z.to_nat np))))%nat).
  { apply NoDup_incl_length; [apply NoDup_nodup|]. intros x I. apply nodup_In in I. specialize (B x I). apply in_map_iff. exists (Z.to_nat x). split; [lia|]. apply in_seq. lia. }
  rewrite map_length, seq_length in L. lia.
Qed.

Lemma repeated_history (fs : list (list f32)) (rs : list Z) j x : In x (List.concat (map snd (repeat (fs, rs) j)) ++ rs) -> In x rs.
Proof.
  intros I. apply in_app_or in I. destruct I as [I|I]; [|exact I]. apply in_concat in I. destruct I as (l & I & Ix). apply in_map_iff in I. destruct I as ([f r] & <- & I). apply repeat_spec in I. injection I as _ ->. exact Ix.
Qed.

(** The vectors 0 .. T - 1, each under one policy. *)
Lemma bench_uniform nf np T : Z.of_nat T <= 2 ^ 24 -> uniform_samples nf (combine (bench_features_of nf T) (bench_responses np T)).
Proof.
  intros B. apply Forall_forall. intros [f r] I. apply in_combine_l in I. apply in_map_iff in I. destruct I as (j & <- & I). apply in_seq in I. cbn [fst].
  split; [apply repeat_length|apply vec_number; lia].
Qed.
Lemma bench_consistent nf np T : (nf <> 0)%nat -> Z.of_nat T <= 2 ^ 24 -> consistent (combine (bench_features_of nf T) (bench_responses np T)).
Proof.
  intros N B. assert (G : forall s, In s (combine (bench_features_of nf T) (bench_responses np T)) -> exists j, (j < T)%nat /\ s = (vec nf (Z.of_nat j), Z.of_nat j mod np)).
  { unfold bench_features_of, bench_responses. intros s I. assert (X : forall l, combine (map (fun j => vec nf (Z.of_nat j)) l) (map (fun j => Z.of_nat j mod np) l) = map (fun j => (vec nf (Z.of_nat j), Z.of_nat j mod np)) l) by (induction l as [|a l IH]; cbn; [reflexivity|rewrite IH; reflexivity]).
    rewrite X in I. apply in_map_iff in I. destruct I as (j & <- & I). apply in_seq in I. exists j. split; [lia|reflexivity]. }
  intros s s' I I' E. destruct (G s I) as (j & L & ->). destruct (G s' I') as (j' & L' & ->). cbn [fst snd] in *.
  rewrite <- vec_eqv in E by (apply vec_fok; lia). unfold eqv in E. apply andb_prop in E. destruct E as [E1 E2]. apply negb_true_iff in E1. apply negb_true_iff in E2.
  destruct (Nat.lt_trichotomy j j') as [X|[->|X]]; [|reflexivity|].
  - rewrite vec_increasing in E1 by lia. discriminate E1.
  - rewrite vec_increasing in E2 by lia. discriminate E2.
Qed.

Lemma to_int_same z : 0 <= z < 2 ^ 31 -> to_int z = z.
Proof. intros B. unfold to_int. rewrite Z.mod_small by lia. destruct (Z.ltb_spec z (2 ^ 31)); lia. Qed.
Lemma as_unsigned_same z : 0 <= z < 2 ^ 32 -> as_unsigned z = z.
Proof. intros B. unfold as_unsigned. apply Z.mod_small. exact B. Qed.

Lemma benchmark_undefined nf np T reps : 1 <= nf < 2 ^ 31 -> 2 <= np <= 1024 -> 2 <= T <= 2 ^ 24 -> T <= reps < idx_max -> reps = T \/ (np | T) ->
  exists w, overhead_build P started ended D init nf np T reps (start_world c files) = Ok w /\ overhead_evaluate P started ended D reps w = UB.
Proof.
  intros BF BP BT BR ONE. unfold overhead_build, overhead_region. rewrite bench_created. cbn [bind].
  assert (N0 : (Z.to_nat nf <> 0)%nat) by lia.
  assert (TN : T = Z.of_nat (Z.to_nat T)) by lia. assert (RN : reps = Z.of_nat (Z.to_nat reps)) by lia. set (t := Z.to_nat T) in *. set (r := Z.to_nat reps) in *.
  assert (HQ : forall j d x, (j < r)%nat -> map fst d = rows (Z.to_nat nf) np (Nat.min j t) ->
    exists d', ds_insert d (vec (Z.to_nat nf) (Z.of_nat j mod T)) (Z.of_nat j mod np) x = Ok d' /\ map fst d' = rows (Z.to_nat nf) np (Nat.min (S j) t)).
  { intros j d x L E. destruct (Nat.lt_ge_cases j t) as [X|X].
    - rewrite Z.mod_small by lia. rewrite Nat.min_l in * by lia. apply insert_next; [exact N0|lia|exact E].
    - rewrite Nat.min_r in * by lia. assert (M := Z.mod_pos_bound (Z.of_nat j) T ltac:(lia)). assert (EJ : Z.of_nat (Z.to_nat (Z.of_nat j mod T)) = Z.of_nat j mod T) by lia.
      destruct ONE as [ONE|ONE]; [lia|]. rewrite (Znumtheory.Zmod_div_mod np T (Z.of_nat j)) by (lia || exact ONE). rewrite <- EJ. apply insert_again; [lia|lia|exact E]. }
  destruct (executions_ok nf np T r _ ltac:(lia) HQ ltac:(lia) ltac:(lia) r 0%nat [] None [] 0 0 None None 0 (-1) ltac:(lia) eq_refl ltac:(lia) eq_refl)
    as (d & cur & fs & k & i & b & e & n & last & EL & Q).
  rewrite (to_int_same nf), (to_int_same np) in * by lia. change (Z.of_nat 0) with 0 in EL. rewrite EL. cbn [bind]. rewrite Nat.add_0_l, Nat.min_r in * by lia.
  destruct (rows_min (Z.to_nat nf) np t d N0 ltac:(lia) Q) as (best & EM).
  set (F := bench_features_of (Z.to_nat nf) t) in *. set (R := bench_responses np t) in *.
  assert (LF : length F = t) by (unfold F, bench_features_of; rewrite map_length, seq_length; reflexivity).
  assert (LR : length R = t) by (unfold R, bench_responses; rewrite map_length, seq_length; reflexivity).
  assert (ND : d <> []). { intros X. apply (f_equal (@length _)) in Q. rewrite X in Q. unfold rows in Q. rewrite !map_length, seq_length in Q. cbn in Q. lia. }
  assert (U : uniform_samples (Z.to_nat nf) (combine F R)) by (apply bench_uniform; lia).
  assert (CN : consistent (combine F R)) by (apply bench_consistent; [exact N0|lia]).
  assert (FEW : forall j, Z.of_nat (length (nodup Z.eq_dec (List.concat (map snd (repeat (F, R) j)) ++ R))) <= np).
  { intros j. apply few_classes; [lia|]. intros x I. apply repeated_history in I. unfold R, bench_responses in I. apply in_map_iff in I. destruct I as (a & <- & _). apply Z.mod_pos_bound. lia. }
  destruct (retrain nf np d F R best (Z.of_nat r) cur (mkContext fs k i (Clock b e)) n (Some (MRoundRobin np last)) ND EM) with (q := r) (i := 0%nat) (j := 0%nat) (t := new_dtree 2) (b := true) as (t' & b' & ER & HT & K).
  - intros h t0 HT (j & ->). apply (training_succeeds (p_sort P) 2 (repeat (F, R) j) t0 (Z.to_nat nf)); [exact HS|exact HT| | |exact U|exact CN|lia|specialize (FEW j); lia].
    + intros X. rewrite X in LF. cbn in LF. lia.
    + lia.
  - apply trained_new.
  - unfold fresh. eexists. split; [exact ER|]. assert (b' = false) as -> by (apply K; lia).
    unfold overhead_evaluate. fold r. rewrite bench_begin by lia. cbn [bind]. destruct r as [|q] eqn:ER'; [lia|]. cbn [loop]. unfold overhead_ask at 1.
    cbn [step]. unfold resolve, get_region, bench. cbn [w_regions nth_error r_alive bind r_current]. unfold get_policy_index, get_region, get_context.
    cbn [w_regions nth_error r_alive bind fst snd r_sync r_model c_features m_get_index negb]. unfold dt_predict.
    inversion HT as [|h t0 fs0 rs0 t1 HT0 E0 EH].
    assert (EH' : repeat (F, R) (S q) = repeat (F, R) q ++ [(F, R)]) by (replace (S q) with (q + 1)%nat by lia; apply repeat_app).
    change ((F, R) :: repeat (F, R) q) with (repeat (F, R) (S q)) in EH. rewrite EH' in EH. apply app_inj_tail in EH. destruct EH as [-> EH]. injection EH as -> ->.
    assert (G := train_greedy (p_sort P) 2 (repeat (F, R) q) t0 (Z.to_nat nf) F R t' HS HT0 ltac:(lia) U ltac:(lia) ltac:(specialize (FEW q); lia) E0).
    destruct (greedy_splits _ _ _ _ G ltac:(lia)) with (X := @nil f32) as [X|X]; [| |contradiction X; reflexivity].
    + assert (S := spread (combine F R)). rewrite combine_snd in S by lia. assert (LC : length (combine F R) = t) by (rewrite combine_length; lia). unfold sample in S. rewrite LC in S.
      specialize (S ltac:(lia) (fun x => proj1 (alternating np x ltac:(lia) t 0%nat))). unfold slack. assert (FQ := FEW q). apply IZR_le in FQ. rewrite <- INR_IZR_INZ in FQ. assert (NQ : (IZR np <= 1024)%R) by (apply IZR_le; lia).
      unfold sample in *. lra.
    + rewrite X. reflexivity.
Qed.

(** ** One vector *)

Lemma add_forall {K V} (Q : K * V -> Prop) lt k v m : Q (k, v) -> Forall Q m -> Forall Q (map_add lt k v m) /\ map_add lt k v m <> [].
Proof.
  intros A. induction 1 as [|[k' v'] m E H IH]; cbn [map_add]; [split; [repeat constructor; exact A|discriminate]|].
  destruct (lt k k'); (split; [|discriminate]); repeat constructor; try assumption. apply IH.
Qed.
Lemma update_forall {K V} (Q : K -> Prop) lt k v (m : list (K * V)) : Forall (fun e => Q (fst e)) m -> Forall (fun e => Q (fst e)) (map_update lt k v m).
Proof.
  induction 1 as [|[k' v'] m E H IH]; cbn [map_update]; [constructor|]. destruct (_ && _); constructor; assumption.
Qed.

Definition one_vector (f : list f32) (np : Z) (e : key * f64) : Prop := fst (fst e) = f /\ 0 <= snd (fst e) < np.

Lemma insert_same f np d k x : fok f -> 0 <= k < np -> Forall (one_vector f np) d ->
  exists d', ds_insert d f k x = Ok d' /\ Forall (one_vector f np) d' /\ d' <> [].
Proof.
  intros F B A. unfold ds_insert. assert (N := F). unfold fok in N. rewrite N. cbn [negb]. destruct (map_find key_lt (f, k) d) as [v|] eqn:E; (eexists; split; [reflexivity|]).
  - split; [exact (update_forall (fun k => fst k = f /\ 0 <= snd k < np) key_lt (f, k) _ d A)|]. destruct d as [|[k' v'] d]; [discriminate E|]. cbn [map_update]. destruct (_ && _); discriminate.
  - apply add_forall; [split; [reflexivity|exact B]|exact A].
Qed.

Lemma asking q : forall i nf np d idx fs k ix t n cl tr e, (forall X, evaluate (t_root tr) X = Ok cl) ->
  exists k', loop (overhead_ask P D) q i (bench nf np (MTree np false tr e) d idx (Some (0%nat, Sync)) (mkContext fs k ix t) n) =
    Ok (bench nf np (MTree np false tr e) d idx (Some (0%nat, Sync)) (mkContext fs k' ix t) n).
Proof.
  induction q as [|q IH]; intros i nf np d idx fs k ix t n cl tr e E; cbn [loop]; [eauto|]. unfold overhead_ask at 1.
  rewrite (bench_ask nf np (MTree np false tr e) d idx fs k ix t n (D i) cl (MTree np false tr e)) by (cbn [m_get_index negb]; unfold dt_predict; rewrite E; reflexivity).
  cbn [bind]. eapply IH. exact E.
Qed.

Lemma benchmark_completes nf np T reps : 0 <= nf < 2 ^ 31 -> 1 <= np <= 1024 -> 1 <= T -> 1 <= reps < idx_max -> nf = 0 \/ T = 1 ->
  exists w w', overhead_build P started ended D init nf np T reps (start_world c files) = Ok w /\ overhead_evaluate P started ended D reps w = Ok w'.
Proof.
  intros BF BP BT BR ONE. unfold overhead_build, overhead_region. rewrite bench_created. cbn [bind]. assert (RN : reps = Z.of_nat (Z.to_nat reps)) by lia. set (r := Z.to_nat reps) in *.
  set (f := vec (Z.to_nat nf) 0). assert (FF : fok f) by (apply vec_fok; lia).
  assert (SAME : forall j, vec (Z.to_nat nf) (Z.of_nat j mod T) = f) by (intros j; destruct ONE as [->| ->]; [reflexivity|rewrite Z.mod_1_r; reflexivity]).
  assert (HQ : forall j d x, (j < r)%nat -> Forall (one_vector f np) d /\ ((0 < j)%nat -> d <> []) ->
    exists d', ds_insert d (vec (Z.to_nat nf) (Z.of_nat j mod T)) (Z.of_nat j mod np) x = Ok d' /\ Forall (one_vector f np) d' /\ ((0 < S j)%nat -> d' <> [])).
  { intros j d x L [A _]. rewrite SAME. destruct (insert_same f np d (Z.of_nat j mod np) x FF) as (d' & E & A' & NE); [apply Z.mod_pos_bound; lia|exact A|]. exists d'. auto. }
  destruct (executions_ok nf np T r _ ltac:(lia) HQ ltac:(lia) ltac:(lia) r 0%nat [] None [] 0 0 None None 0 (-1) ltac:(lia) ltac:(split; [constructor|lia]) ltac:(lia) eq_refl)
    as (d & cur & fs & k & i & b & e & n & last & EL & Q & ND).
  rewrite (to_int_same nf), (to_int_same np) in * by lia. change (Z.of_nat 0) with 0 in EL. rewrite EL. cbn [bind]. rewrite Nat.add_0_l in *. specialize (ND ltac:(lia)).
  destruct (same_min f d FF ND) as (p & best & EM & IP); [eapply Forall_impl; [|exact Q]; intros x [A _]; exact A|].
  assert (BPP : 0 <= p < np). { apply in_map_iff in IP. destruct IP as (x & <- & I). rewrite Forall_forall in Q. exact (proj2 (Q x I)). }
  assert (U : uniform_samples (Z.to_nat nf) (combine [f] [p])) by (repeat constructor; cbn [fst]; [apply repeat_length|apply vec_number; lia]).
  assert (CN : consistent (combine [f] [p])) by (intros s s' [<-|[]] [<-|[]] _; reflexivity).
  assert (FEW : forall j, Z.of_nat (length (nodup Z.eq_dec (List.concat (map snd (repeat ([f], [p]) j)) ++ [p]))) <= np).
  { intros j. apply few_classes; [lia|]. intros x I. apply repeated_history in I. destruct I as [<-|[]]. exact BPP. }
  destruct (retrain nf np d [f] [p] best (Z.of_nat r) cur (mkContext fs k i (Clock b e)) n (Some (MRoundRobin np last)) ND EM) with (q := r) (i := 0%nat) (j := 0%nat) (t := new_dtree 2) (b := true) as (t' & b' & ER & HT & K).
  - intros h t0 HT (j & ->). apply (training_succeeds (p_sort P) 2 (repeat ([f], [p]) j) t0 (Z.to_nat nf)); [exact HS|exact HT|discriminate|reflexivity|exact U|exact CN|cbn; lia|specialize (FEW j); lia].
  - apply trained_new.
  - unfold fresh. eexists. assert (b' = false) as -> by (apply K; lia). assert (LEAF : exists cl, forall X, evaluate (t_root t') X = Ok cl).
    { destruct r as [|q]; [lia|]. inversion HT as [|h t0 fs0 rs0 t1 HT0 E0 EH]. assert (EH' : repeat ([f], [p]) (S q) = repeat ([f], [p]) q ++ [([f], [p])]) by (replace (S q) with (q + 1)%nat by lia; apply repeat_app).
      change (([f], [p]) :: repeat ([f], [p]) q) with (repeat ([f], [p]) (S q)) in EH. rewrite EH' in EH. apply app_inj_tail in EH. destruct EH as [-> EH]. injection EH as -> ->.
      assert (G := train_greedy (p_sort P) 2 (repeat ([f], [p]) q) t0 (Z.to_nat nf) [f] [p] t' HS HT0 eq_refl U ltac:(cbn; lia) ltac:(specialize (FEW q); lia) E0).
      revert G. generalize (slack (length (nodup Z.eq_dec (List.concat (map snd (repeat ([f], [p]) q)) ++ [p])))), (t_root t'). intros eps root G. clear - G.
      remember (combine [f] [p]) as l eqn:EL. destruct G as [dd l g0 n0 c0 thr0 counts0 _ _|dd l ll lr g0 n0 c0 f0 thr0 lt rt counts0 x y a b _ _ (s & s' & I & I' & NS)]; [exists c0; reflexivity|].
      exfalso. rewrite EL in I, I'. destruct I as [<-|[]]. destruct I' as [<-|[]]. apply NS. reflexivity. }
    destruct LEAF as (cl & LEAF). destruct (asking r r nf np d (Z.of_nat r + 1) [] k (Z.of_nat r) (Clock (Some (clock_seconds (started r))) e) n cl t' (Some (MRoundRobin np last)) LEAF) as (k' & EA).
    eexists. split; [exact ER|]. unfold overhead_evaluate. fold r. rewrite bench_begin by lia. cbn [bind]. rewrite EA. cbn [bind]. rewrite bench_end_trained by reflexivity. reflexivity.
Qed.

(** No data. *)
Lemma benchmark_no_data nf np reps : 1 <= nf -> 1 <= reps -> overhead_build P started ended D init nf np 0 reps (start_world c files) = UB.
Proof.
  intros BF BR. unfold overhead_build, overhead_region. rewrite bench_created. cbn [bind]. destruct (Z.to_nat reps) as [|q] eqn:ER; [lia|]. cbn [loop]. unfold overhead_execution at 1.
  rewrite bench_begin by (unfold idx_max; lia). cbn [bind]. destruct (Z.to_nat nf) as [|m] eqn:EF; [lia|]. reflexivity.
Qed.

(** ** The program *)

Lemma benchmark_main argc a1 a2 a3 a4 w : 5 <= argc -> 0 <= a1 < 2 ^ 31 -> 0 <= a2 < 2 ^ 31 -> 0 <= a3 <= a4 -> a4 < 2 ^ 31 ->
  overhead_main P started ended D init argc a1 a2 a3 a4 w =
  let* w := overhead_build P started ended D init a1 a2 a3 a4 w in let* w := overhead_evaluate P started ended D a4 w in Ok (0, w).
Proof.
  intros A B1 B2 B3 B4. unfold overhead_main. destruct (Z.ltb_spec argc 5); [lia|]. rewrite !as_unsigned_same by lia. destruct (Z.ltb_spec a4 a3); [lia|]. reflexivity.
Qed.

Lemma benchmark_wrong argc features policies data reps : 5 <= argc -> 1 <= features < 2 ^ 31 -> 2 <= policies <= 1024 -> 2 <= data <= 2 ^ 24 -> data <= reps < 2 ^ 31 - 1 -> reps = data \/ (policies | data) ->
  (exists w, overhead_build P started ended D init features policies data reps (start_world c files) = Ok w) /\
  overhead_main P started ended D init argc features policies data reps (start_world c files) = UB.
Proof.
  intros A B1 B2 B3 B4 ONE. destruct (benchmark_undefined features policies data reps B1 B2 B3) as (w & E & U); [unfold idx_max; lia|exact ONE|]. split; [eauto|].
  rewrite benchmark_main by lia. rewrite E. cbn [bind]. rewrite U. reflexivity.
Qed.
Lemma benchmark_right argc features policies data reps : 5 <= argc -> 0 <= features < 2 ^ 31 -> 1 <= policies <= 1024 -> 1 <= data <= reps -> reps < 2 ^ 31 - 1 -> features = 0 \/ data = 1 ->
  exists w, overhead_main P started ended D init argc features policies data reps (start_world c files) = Ok (0, w).
Proof.
  intros A B1 B2 B3 B4 ONE. destruct (benchmark_completes features policies data reps B1 B2) as (w & w' & E & E'); [lia|unfold idx_max; lia|exact ONE|]. exists w'.
  rewrite benchmark_main by lia. rewrite E. cbn [bind]. rewrite E'. reflexivity.
Qed.
Lemma benchmark_zero argc features policies reps : 5 <= argc -> 1 <= features < 2 ^ 31 -> 0 <= policies < 2 ^ 31 -> 1 <= reps < 2 ^ 31 ->
  overhead_main P started ended D init argc features policies 0 reps (start_world c files) = UB.
Proof. intros A B1 B2 B3. rewrite benchmark_main by lia. rewrite benchmark_no_data by lia. reflexivity. Qed.
Lemma benchmark_refuses argc a1 a2 a3 a4 w : argc < 5 \/ 0 <= a4 < a3 /\ a3 < 2 ^ 31 -> overhead_main P started ended D init argc a1 a2 a3 a4 w = Ok (1, w).
Proof.
  intros B. unfold overhead_main. destruct (Z.ltb_spec argc 5); [reflexivity|]. destruct B as [B|[B B']]; [lia|]. rewrite (as_unsigned_same a3), (as_unsigned_same a4) by lia.
  destruct (Z.ltb_spec a4 a3); [reflexivity|lia].
Qed.
End Bench.
