(** Lemmas on the runtime: what a region starts with, indices, traces. *)
From Coq Require Import ZArith Bool Ascii String Lia List Permutation Sorted.
From Verif Require Import Model.Base Model.Float Model.Decimal Model.DatasetM Model.ParserM Model.DatasetIO
  Model.NetM Model.PolicyNetM Model.ModelStringM Model.PolicyModelsM Model.ConfigM Model.RuntimeM
  Spec.DatasetSpec Spec.DatasetClient Spec.RuntimeSpec
  Proofs.TreeFacts Proofs.RuntimeFacts Proofs.RuntimeCollect Proofs.RuntimeMoves Proofs.RuntimePending Proofs.RuntimeOps
  Proofs.RuntimeSettled Proofs.RuntimeNew Proofs.RuntimeRegistry Proofs.RuntimeAccount Proofs.RuntimeRecords Proofs.RuntimeClient
  Proofs.RuntimeCurrent Proofs.ModelStringFacts.
Import ListNotations.
Open Scope Z_scope.

Lemma resolved_same name info mn0 ps0 mn ps info' : resolve_static_region name info mn0 ps0 = Ok (mn, ps, info') ->
  (mn = mn0 /\ ps = ps0 /\ info' = info) \/ (mn = $"Static" /\ exists v, ps = [($"policy", v)]).
Proof.
  unfold resolve_static_region. destruct (bytes_eqb mn0 _).
  - destruct (param_find name ps0) as [v|]; [|discriminate]. intros H. inversion H. right. eauto.
  - intros H. inversion H. auto.
Qed.

Lemma combine_fst_snd {A B} (l : list (A * B)) : combine (map fst l) (map snd l) = l.
Proof. induction l as [|[a b] l IH]; cbn; congruence. Qed.

Section Platform.
Variable P : platform.

(** A region created without loading data. *)
Lemma new_region_empty w nf nm np mt info yaml init w' r : new_region P w nf nm np mt info yaml init = Ok (w', r) ->
  starts_empty (w_config w) info ->
  exists mn0 ps0 mn ps info' m0 m1 m R,
    parse_policy_model (match info with [] => cf_policy_model (w_config w) | _ => info end) = Ok (mn0, ps0) /\
    resolve_static_region (region_name nm) (match info with [] => cf_policy_model (w_config w) | _ => info end) mn0 ps0 = Ok (mn, ps, info') /\
    create_model P mn nf np ps init = Ok m0 /\ load_models w (region_name nm) yaml mn ps m0 = Ok m1 /\
    (mn <> $"Optimal" -> m = m1) /\
    R = mkRegion true (region_name nm) nf np mt info' mn m [] 0 None (mkContext [] 0 0 (Clock None None)) [] []
      (if truthy (cf_trace_csv (w_config w)) then trace_header nf else []) /\
    r = List.length (w_regions w) /\
    w' = mkWorld (w_config w) (w_rank w) (w_regions w ++ [R]) (register (region_name nm) r (w_registry w)) (w_executions w) (w_files w).
Proof.
  unfold new_region. intros H [SE1 SE2].
  apply bind_inv in H. destruct H as ([mn0 ps0] & E1 & H).
  apply bind_inv in H. destruct H as ([[mn ps] info'] & E2 & H).
  apply bind_inv in H. destruct H as (m0 & E3 & H). apply bind_inv in H. destruct H as (m1 & E4 & H).
  set (n := List.length (w_regions w)) in *.
  match type of H with context [load_persistent P ?v _ _] => set (v0 := v) in * end.
  destruct (SE2 _ _ E1) as [N1 N2].
  assert (N3 : mn <> $"DatasetMap" /\ param_find ($"load-dataset") ps = None).
  { destruct (resolved_same _ _ _ _ _ _ _ E2) as [(-> & -> & _)|(-> & v & ->)]; [auto|]. split; [discriminate|reflexivity]. }
  destruct N3 as [N3 N4].
  unfold load_persistent in H. cbn [w_config v0] in H. rewrite SE1 in H. cbn [truthy negb Z.eqb bind] in H.
  unfold load_and_train in H. rewrite N4 in H. cbn [bind] in H.
  assert (LDM : forall v, load_dataset_map P v n (region_name nm) mn = Ok v).
  { intros v. unfold load_dataset_map. destruct (bytes_eqb mn ($"DatasetMap")) eqn:E; auto. apply bytes_eqb_eq in E. contradiction. }
  apply bind_inv in H. destruct H as (v1 & E5 & H). rewrite LDM in H. cbn [bind] in H.
  set (R0 m := mkRegion true (region_name nm) nf np mt info' mn m [] 0 None (mkContext [] 0 0 (Clock None None)) [] [] []).
  assert (G1 : exists m, (mn <> $"Optimal" -> m = m1) /\ v1 = mkWorld (w_config w) (w_rank w) (w_regions w ++ [R0 m]) (w_registry w) (w_executions w) (w_files w)).
  { unfold load_optimal in E5. destruct (bytes_eqb mn ($"Optimal")) eqn:EO.
    - apply bytes_eqb_eq in EO. destruct (file_find _ _); [|discriminate]. apply bind_inv in E5. destruct E5 as (R & ER & E5).
      apply bind_inv in E5. destruct E5 as (m & EM & E5). exists m. split; [contradiction|].
      apply get_region_ok in ER. destruct ER as [ER _]. cbn in ER. unfold n in ER. rewrite nth_last in ER by auto. inversion ER; subst R.
      inversion E5; subst v1. unfold set_region. cbn. unfold n. rewrite set_nth_last by auto. reflexivity.
    - exists m1. split; auto. inversion E5. reflexivity. }
  destruct G1 as (m & HM & ->). cbn [w_config] in H.
  exists mn0, ps0, mn, ps, info', m0, m1, m. eexists. do 5 (split; [eassumption|]). split; [reflexivity|].
  destruct (truthy (cf_trace_csv (w_config w))).
  - unfold get_region in H. cbn [w_regions] in H. unfold n in H. rewrite nth_last in H by auto. cbn in H. inversion H; subst w' r. split; auto.
    rewrite set_nth_last by auto. reflexivity.
  - cbn in H. inversion H; subst w' r. auto.
Qed.

(** ** Indices *)

Lemma begin_index c files os w xs o r w' p :
  run P (start_world c files) os = Ok (w, xs) -> forallb explicit os = true -> begins o = Some r -> step P w o = Ok (w', GotContext p) ->
  exists x, get_context w' p = Ok x /\ c_idx x = count_begins (combine os xs) r.
Proof.
  intros H EX B ST. destruct (inv_run P (start_world c files) eq_refl eq_refl eq_refl _ _ _ EX H) as (log & I).
  assert (K : exists async fs now, begun w r async fs now w' p).
  { destruct o; try discriminate; cbn in B; inversion B; subst; cbn in ST; apply bind_inv in ST; destruct ST as ([w1 q] & HB & E); inversion E; subst.
    - eexists _, _, _. apply begin_context_begun; eauto.
    - eexists _, _, _. apply begin_features_begun; eauto. }
  destruct K as (async & fs & now & R & ER & _ & _ & _ & _ & _ & _ & HC). rewrite HC. eexists. split; [reflexivity|]. cbn.
  apply get_region_ok in ER. apply (i_idx _ _ _ _ _ I). apply ER.
Qed.

(** The counter of begin calls is an int. *)
Lemma begin_overflows c files os w xs o r :
  run P (start_world c files) os = Ok (w, xs) -> forallb explicit os = true -> begins o = Some r ->
  count_begins (combine os xs) r = 2 ^ 31 - 1 -> step P w o = UB.
Proof.
  intros H EX B CB. destruct (inv_run P (start_world c files) eq_refl eq_refl eq_refl _ _ _ EX H) as (log & I).
  assert (K : forall async now, begin_context w r async now = UB).
  { intros async now. unfold begin_context. destruct (get_region w r) as [R| | | |] eqn:G.
    - cbn [bind]. assert (G' := G). apply get_region_ok in G'. destruct G' as [G' _]. assert (IX := i_idx _ _ _ _ _ I _ _ G').
      destruct async; cbn [r_idx with_heap with_sync]; rewrite IX, CB; reflexivity.
    - unfold get_region in G. destruct (nth_error _ _) as [R|]; [destruct (r_alive R)|]; discriminate.
    - unfold get_region in G. destruct (nth_error _ _) as [R|]; [destruct (r_alive R)|]; discriminate.
    - reflexivity.
    - unfold get_region in G. destruct (nth_error _ _) as [R|]; [destruct (r_alive R)|]; discriminate. }
  destruct o; try discriminate; cbn in B; inversion B; subst; cbn; unfold begin_features; rewrite K; reflexivity.
Qed.

Lemma exec_info_text h log w0 w : inv P w0 h log w -> forall rs s,
  exec_info_lines w rs = Ok s -> (forall r, In r rs -> exists n, In (n, r) (w_registry w)) ->
  exists ns, Forall2 (fun n r => In (n, r) (w_registry w)) ns rs /\
    s = List.concat (map (fun x => fst x ++ $", " ++ print_Z (count_begins h (snd x)) ++ [nl]) (combine ns rs)).
Proof.
  intros I. induction rs as [|r rs IH]; cbn; intros s H A.
  - inversion H. exists []. split; [constructor|reflexivity].
  - apply bind_inv in H. destruct H as (R & ER & H). apply bind_inv in H. destruct H as (s' & ES & H). inversion H; subst s.
    destruct (IH _ ES) as (ns & F & ->); auto. destruct (A r) as (n & IN); auto. exists (n :: ns). split; [constructor; auto|].
    cbn. apply get_region_ok in ER. destruct ER as [ER _]. rewrite (i_idx _ _ _ _ _ I _ _ ER).
    destruct (i_reg _ _ _ _ _ I) as [_ RG]. apply RG in IN. destruct IN as [IN _]. unfold region_names in IN. rewrite (map_nth_error r_name _ _ ER) in IN.
    inversion IN. rewrite <- !app_assoc. cbn [app]. rewrite <- !app_assoc. reflexivity.
Qed.

Lemma exec_info c files os w xs waits w' :
  run P (start_world c files) os = Ok (w, xs) -> forallb explicit os = true -> step P w (OpShutdown waits) = Ok (w', Done) ->
  exists fs, run P (set_files w fs) (map (fun r => OpDestroy r (waits r)) (map snd (w_registry w))) = Ok (w', repeat Done (List.length (w_registry w))) /\
    fs = if truthy (cf_exec_info c)
         then file_write (in_dir (cf_output_dir c) ($"apollo_exec_info.csv"))
           (List.concat (map (fun x => fst x ++ $", " ++ print_Z (count_begins (combine os xs) (snd x)) ++ [nl]) (w_registry w))) (w_files w)
         else w_files w.
Proof.
  intros H EX ST. destruct (inv_run P (start_world c files) eq_refl eq_refl eq_refl _ _ _ EX H) as (log & I).
  assert (C := i_config _ _ _ _ _ I). cbn in C.
  cbn in ST. apply bind_inv in ST. destruct ST as (w1 & SD & E). inversion E; subst w1. clear E. unfold shutdown in SD. apply bind_inv in SD. destruct SD as (w1 & E1 & E2).
  apply destroy_all_run in E2. rewrite !map_length in E2.
  rewrite (same_config_field cf_exec_info _ _ (fun _ => eq_refl) C), (same_config_field cf_output_dir _ _ (fun _ => eq_refl) C) in E1.
  destruct (truthy (cf_exec_info c)).
  - apply bind_inv in E1. destruct E1 as (s & ES & E1). inversion E1; subst w1. eexists. split; [exact E2|]. f_equal.
    destruct (exec_info_text _ _ _ _ I _ _ ES) as (ns & F & ->).
    { intros r IN. apply in_map_iff in IN. destruct IN as ([n x] & <- & IN). eauto. }
    f_equal. f_equal. assert (RG := i_reg _ _ _ _ _ I). destruct (registry_nodup _ RG) as [ND _]. clear - F ND.
    assert (U : forall n1 n2 r, In (n1, r) (w_registry w) -> In (n2, r) (w_registry w) -> n1 = n2).
    { clear F. induction (w_registry w) as [|[a b] m IH]; [intros ? ? ? []|]. inversion ND; subst. intros n1 n2 r [A|A] [B|B].
      - congruence.
      - inversion A; subst. exfalso. apply H1. apply in_map_iff. exists (n2, r). auto.
      - inversion B; subst. exfalso. apply H1. apply in_map_iff. exists (n1, r). auto.
      - eapply IH; eauto. }
    assert (G : forall m ns, (forall x, In x m -> In x (w_registry w)) -> Forall2 (fun n r => In (n, r) (w_registry w)) ns (map snd m) -> combine ns (map snd m) = m).
    { induction m as [|[a b] m IH]; intros l S' F'; inversion F'; subst; auto. cbn. f_equal; [|apply IH; auto; intros; apply S'; right; auto].
      f_equal. eapply U; eauto. apply S'. left; auto. }
    apply G; auto.
  - inversion E1; subst w1. exists (w_files w). split; auto. destruct w; exact E2.
Qed.

(** ** Traces *)

Lemma spaced_concat x l : spaced (x :: l) = x ++ List.concat (map (fun y => $" " ++ y) l).
Proof. revert x. induction l as [|y l IH]; intros x; [cbn; rewrite app_nil_r; reflexivity|]. change (spaced (x :: y :: l)) with (x ++ $" " ++ spaced (y :: l)). rewrite IH. cbn. reflexivity. Qed.

Lemma header_columns nf : trace_header nf = spaced (trace_columns (Z.to_nat nf)) ++ [nl].
Proof.
  unfold trace_header, trace_columns.
  change ([$"rankid"; $"training"; $"region"; $"idx"] ++ ?l) with ($"rankid" :: [$"training"; $"region"; $"idx"] ++ l).
  rewrite spaced_concat, !map_app, !concat_app, map_map. cbn. rewrite <- !app_assoc. reflexivity.
Qed.

Lemma step_region w o w' r : step P w o = Ok (w', GotRegion r) -> exists nf nm np mt info yaml init, o = OpRegion nf nm np mt info yaml init.
Proof.
  intros H. destruct o; [eauto 10|..]; exfalso; cbn in H; repeat (apply bind_inv in H; let x := fresh in destruct H as (x & _ & H));
    try discriminate; match type of H with context [let (_, _) := ?x in _] => destruct x end; discriminate.
Qed.

(** How a region came about. *)
Lemma region_origin c files os w xs log r R :
  forallb explicit os = true -> inv P (start_world c files) (combine os xs) log w -> nth_error (w_regions w) r = Some R ->
  exists h1 nf nm np mt info yaml init h2 log1 wb w1 R1,
    combine os xs = h1 ++ (OpRegion nf nm np mt info yaml init, GotRegion r) :: h2 /\
    inv P (start_world c files) h1 log1 wb /\ new_region P wb nf nm np mt info yaml init = Ok (w1, r) /\ nth_error (w_regions w1) r = Some R1 /\
    insert_all (r_dataset R1) (kept_for r log) = Ok (r_dataset R) /\
    same_static R1 R /\ m_name (r_model R) = m_name (r_model R1) /\ r_trace R = r_trace R1 ++ trace_lines (start_world c files) r R1 log.
Proof.
  intros EX I ER. destruct (i_data _ _ _ _ _ I _ _ ER) as (h1 & o & h2 & w1 & R1 & EH & RU & ER1 & DI & ST1 & NM & TR).
  rewrite map_app in RU. cbn in RU. rewrite map_app in RU. cbn in RU.
  destruct (run_snoc_inv P _ _ _ _ _ RU) as (wb & xs' & x & RB & SB & EX').
  apply app_inj_tail in EX'. destruct EX' as [<- <-].
  destruct (step_region _ _ _ _ SB) as (nf & nm & np & mt & info & yaml & init & ->).
  cbn in SB. apply bind_inv in SB. destruct SB as ([w2 r2] & HN & E). inversion E; subst w2 r2. clear E.
  assert (EX1 : forallb explicit (map fst h1) = true).
  { assert (X : forallb explicit (map fst (combine os xs)) = true).
    { clear - EX. revert xs. induction os; intros [|]; cbn in *; auto. apply andb_prop in EX. destruct EX as [-> EX]. cbn. auto. }
    rewrite EH, map_app, forallb_app in X. apply andb_prop in X. apply X. }
  destruct (inv_run P (start_world c files) eq_refl eq_refl eq_refl _ _ _ EX1 RB) as (log1 & I1).
  rewrite combine_fst_snd in I1.
  exists h1, nf, nm, np, mt, info, yaml, init, h2, log1, wb, w1, R1. auto 12.
Qed.

Lemma trace_rows c files os w xs r R :
  run P (start_world c files) os = Ok (w, xs) -> forallb explicit os = true -> nth_error (w_regions w) r = Some R ->
  exists log, records P (start_world c files) (combine os xs) log w /\
    r_trace R = if truthy (cf_trace_csv c)
                then spaced (trace_columns (Z.to_nat (r_num_features R))) ++ [nl] ++
                     List.concat (map (fun e => trace_line 0 (m_name (r_model R)) (r_name R) e) (taken_for r log))
                else [].
Proof.
  intros H EX ER. destruct (inv_run P (start_world c files) eq_refl eq_refl eq_refl _ _ _ EX H) as (log & I).
  exists log. split; [apply (i_records _ _ _ _ _ I)|].
  destruct (region_origin _ _ _ _ _ _ _ _ EX I ER) as (h1 & nf & nm & np & mt & info & yaml & init & h2 & log1 & wb & w1 & R1 & _ & I1 & HN & ER1 & _ & ST1 & NM & ->).
  unfold trace_lines. cbn [w_config start_world w_rank]. destruct ST1 as (S1 & S2 & _). rewrite S1, S2, NM.
  destruct (new_region_spec P _ _ _ _ _ _ _ _ _ _ HN) as (-> & v & mn0 & ps0 & mn & ps & info' & m0 & _ & _ & _ & (GL & ws & R2 & EV & FW & BL & NA) & EW & CW & RW & XW & RG).
  rewrite EW, EV, nth_last in ER1 by (eapply Forall2_length'; eauto). inversion ER1; subst R2. destruct NA as (_ & NMM & ->).
  rewrite (same_config_field cf_trace_csv _ _ (fun _ => eq_refl) (i_config _ _ _ _ _ I1)). cbn [w_config start_world].
  destruct (truthy (cf_trace_csv c)); auto. rewrite app_assoc. f_equal.
  destruct BL as (_ & _ & -> & _). apply header_columns.
Qed.

(** ** Synchronous clients *)

Lemma client_dataset c files os w xs r R ph ms :
  run P (start_world c files) os = Ok (w, xs) -> forallb explicit os = true ->
  followed r (combine os xs) = Some (ph, ms) -> nth_error (w_regions w) r = Some R ->
  (forall nf nm np mt info yaml init, In (OpRegion nf nm np mt info yaml init, GotRegion r) (combine os xs) -> starts_empty c info) ->
  exists log k, records P (start_world c files) (combine os xs) log w /\ map e_meas (taken_for r log) = ms /\
    kept_for r log = firstn k ms /\ insert_all [] (firstn k ms) = Ok (r_dataset R) /\
    (k <= List.length ms)%nat /\ (keeps c R = true -> k = List.length ms).
Proof.
  intros H EX F ER SE.
  destruct (client_attributed P _ _ _ _ _ _ _ _ _ H EX F ER) as (log & h1 & o & h2 & w1 & R1 & k & RC & M & KF & EH & RU & ER1 & DI & LK & KK).
  exists log, k. split; auto. split; auto. split; auto. split; [|auto].
  rewrite map_app in RU. cbn in RU. rewrite map_app in RU. cbn in RU.
  destruct (run_snoc_inv P _ _ _ _ _ RU) as (wb & xs' & x & RB & SB & EX').
  apply app_inj_tail in EX'. destruct EX' as [<- <-].
  destruct (step_region _ _ _ _ SB) as (nf & nm & np & mt & info & yaml & init & ->).
  cbn in SB. apply bind_inv in SB. destruct SB as ([w2 r2] & HN & E). inversion E; subst w2 r2. clear E.
  assert (EX1 : forallb explicit (map fst h1) = true).
  { assert (X : forallb explicit (map fst (combine os xs)) = true).
    { clear - EX. revert xs. induction os; intros [|]; cbn in *; auto. apply andb_prop in EX. destruct EX as [-> EX]. cbn. auto. }
    rewrite EH, map_app, forallb_app in X. apply andb_prop in X. apply X. }
  destruct (inv_run P (start_world c files) eq_refl eq_refl eq_refl _ _ _ EX1 RB) as (log1 & I1).
  assert (SE' : starts_empty (w_config wb) info).
  { destruct (SE nf nm np mt info yaml init) as [A B]; [rewrite EH; apply in_or_app; right; left; reflexivity|].
    assert (C := i_config _ _ _ _ _ I1). cbn in C. unfold starts_empty.
    rewrite (same_config_field cf_persistent _ _ (fun _ => eq_refl) C), (same_config_field cf_policy_model _ _ (fun _ => eq_refl) C). auto. }
  destruct (new_region_empty _ _ _ _ _ _ _ _ _ _ HN SE') as (mn0 & ps0 & mn & ps & info' & m0 & m1 & m & R2 & _ & _ & _ & _ & _ & -> & -> & ->).
  cbn in ER1. rewrite nth_last in ER1 by auto. inversion ER1; subst R1. exact DI.
Qed.
End Platform.
