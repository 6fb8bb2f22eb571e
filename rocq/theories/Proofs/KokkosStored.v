(** Models the connector stores, and the runs that find them. *)
From Coq Require Import ZArith Bool Ascii String Lia List.
From Verif Require Import Model.Base Model.Decimal Model.Float Model.DatasetM Model.ModelStringM Model.PolicyModelsM Model.ConfigM Model.RuntimeM Model.KokkosM
  Spec.RuntimeSpec Spec.KokkosSpec
  Proofs.TreeFacts Proofs.ModelStringFacts Proofs.RuntimeFacts Proofs.RuntimeSettled Proofs.RuntimeAccount Proofs.RuntimeRegistry Proofs.RuntimeOps Proofs.RuntimeTraining Proofs.RuntimeStored
  Proofs.RuntimeFiles Proofs.RuntimeClient Proofs.KokkosCandidates Proofs.KokkosRuns Proofs.KokkosClient Proofs.KokkosTrain.
Import ListNotations.
Open Scope Z_scope.

Lemma declared_found before K ids vars : (forall id, find_variable id (k_variables K) = match declared before id with Some v => Ok v | None => UB end) ->
  all_declared before ids vars -> find_variables (k_variables K) ids = Ok vars.
Proof. intros V A. induction A as [|id v ids vars E A IH]; cbn; [reflexivity|]. rewrite V, E, IH. reflexivity. Qed.

Lemma joined_name vars names : Forall2 (fun v s => v_name v = Some s) vars names -> problem_name vars = Ok (joined names).
Proof.
  induction 1 as [|v s vars names E F IH]; [reflexivity|]. cbn [problem_name]. rewrite E, IH. cbn [bind]. destruct F; cbn [joined]; [rewrite app_nil_r|]; reflexivity.
Qed.

Section Platform.
Variable P : platform.
Variable hash : bytes -> Z.

(** The first request of a problem whose model is stored does not return. *)
Lemma known_aborts c files flush os K vss context cs tuning now D init vars name :
  krun P hash (started c files flush) os = Ok (K, vss) -> tuning <> [] -> ~ In (map fst cs ++ tuning) (problems os) ->
  all_declared os tuning vars -> Forall complete_variable vars -> product (map v_size vars) < 2 ^ 63 ->
  (List.length cs + List.length tuning <= 50)%nat -> named os (map fst cs ++ tuning) name ->
  file_find (stored_model_file name) (w_files (k_world K)) <> None ->
  kstep P hash K (KRequest context cs tuning now D init) = Abort.
Proof.
  intros H NT NI AD CV PR LE NM FF. destruct (krun_inv P hash c files flush os _ _ _ _ _ (kinv_start P c files flush) H) as (hs & _ & _ & _ & I). cbn [app] in I.
  assert (V := ki_variables _ _ _ _ _ _ _ I). cbn [kstep]. unfold request_values. destruct tuning as [|t ts]; [congruence|].
  rewrite (declared_found _ _ _ _ V AD). cbn [bind]. rewrite choice_space_product by (try assumption; try lia; rewrite Z.mul_1_l; assumption). cbn [bind].
  rewrite map_length. assert (L : (max_variables <? List.length cs + List.length (t :: ts))%nat = false) by (apply Nat.ltb_ge; exact LE). rewrite L.
  destruct NM as (names & F & ->).
  assert (SP : exists cvars, all_declared os (map fst cs) cvars /\ Forall2 (fun v s => v_name v = Some s) (cvars ++ vars) names).
  { clear FF. revert AD F. generalize (map fst cs) as l. generalize (t :: ts) as u. intros u l AD. revert names. induction l as [|id l IH]; intros names F.
    - exists []. split; [constructor|]. cbn in *. clear - AD F. revert names F. induction AD as [|id v u vars E A IH]; intros names F; inversion F as [|? s ? ns X Y]; subst; constructor.
      + destruct X as (v' & E' & N). congruence.
      + auto.
    - inversion F as [|? s ? ns (v & E & N) Y]; subst. destruct (IH _ Y) as (cvars & A & B). exists (v :: cvars). split; constructor; auto. }
  destruct SP as (cvars & AC & FN). rewrite (declared_found _ _ _ _ V AC). cbn [bind]. unfold region_for. rewrite (ki_problems _ _ _ _ _ _ _ I).
  rewrite place_none.
  2:{ destruct (existsb (same_ids (map fst cs ++ t :: ts)) (problems os)) eqn:X; [|reflexivity]. exfalso. apply existsb_exists in X. destruct X as (y & IN & SY).
      apply same_ids_true in SY. subst y. contradiction. }
  rewrite (joined_name _ _ FN). cbn [bind]. destruct (file_find _ _) as [text|]; [|congruence]. rewrite dotted_new_region by apply stored_model_dotted. reflexivity.
Qed.

Lemma wrote_krun c files flush os K vss : krun P hash (started c files flush) os = Ok (K, vss) -> only_own_files c 0 files (w_files (k_world K)).
Proof.
  intros H. destruct (krun_inv P hash c files flush os _ _ _ _ _ (kinv_start P c files flush) H) as (hs & _ & _ & _ & I).
  eapply files_run. exact (ki_run _ _ _ _ _ _ _ I).
Qed.

Lemma forest_trained m d m' : m_name m = $"RandomForest" -> m_train P m d = Ok m' -> m_name m' = $"RandomForest".
Proof.
  destruct m; cbn [m_name m_train]; try (intros X; discriminate X). intros _ H. destruct (ds_find_min d [] []) as [[? ?] ?]. apply bind_inv in H. destruct H as (f & _ & H). inversion H. reflexivity.
Qed.
Lemma forest_stored m s : m_name m = $"RandomForest" -> m_store m = Ok s -> s <> None.
Proof. destruct m; cbn [m_name m_store]; try (intros X; discriminate X). intros _ H. apply bind_inv in H. destruct H as (t & _ & H). inversion H. discriminate. Qed.

Lemma wrote_kept w w' path : wrote w w' -> file_find path (w_files w) <> None -> file_find path (w_files w') <> None.
Proof. intros (_ & _ & X) H. exact (proj1 (X path) H). Qed.

(** Training stores a forest with its step. *)
Lemma train_stores w r st w' R : train_quietly P w r st = Ok w' -> get_region w r = Ok R -> m_trainable (r_model R) = true -> 0 < ds_size (r_dataset R) ->
  m_name (r_model R) = $"RandomForest" -> cf_store_models (w_config w) <> 0 ->
  file_find (model_step_file (w_config w) (w_rank w) st ($"RandomForest") (r_name R)) (w_files w') <> None.
Proof.
  unfold train_quietly. intros H G T SZ NM ST. rewrite G in H. cbn [bind] in H. rewrite T in H. cbn [negb] in H. unfold train_body in H. rewrite G in H. cbn [bind] in H.
  destruct (Z.leb_spec (ds_size (r_dataset R)) 0); [lia|]. destruct (negb _); [discriminate|]. apply bind_inv in H. destruct H as (w1 & E1 & H).
  destruct (trace_best_training P (fun _ _ _ => True) _ _ _ _ E1) as [[(G1 & G2 & _) _] S1].
  apply bind_inv in H. destruct H as (m & Em & H). destruct (truthy (cf_retrain _)); [discriminate|]. cbn [w_config set_region w_rank] in H. rewrite G1, G2 in H.
  unfold truthy in H. apply Z.eqb_neq in ST. rewrite ST in H. cbn [negb] in H. apply bind_inv in H. destruct H as (w2 & E2 & H).
  assert (NM' := forest_trained _ _ _ NM Em). rewrite NM' in E2, H.
  eapply wrote_kept; [eapply wrote_store; [exact H|]|].
  - right. left. apply store_model_same in E2. destruct E2 as [(C1 & C2 & _) _]. rewrite C1, C2. cbn [w_config w_rank set_region]. rewrite G1, G2. do 2 eexists. reflexivity.
  - unfold store_model in E2. apply bind_inv in E2. destruct E2 as (s & Es & E2). assert (N := forest_stored _ _ NM' Es). destruct s as [text|]; [|congruence].
    injection E2 as <-. cbn [w_files set_files]. rewrite find_write. discriminate.
Qed.

Lemma each_stores st rs : forall w w', each_region (fun w r => train_quietly P w r st) w rs = Ok w' -> NoDup rs -> forall r R, In r rs -> nth_error (w_regions w) r = Some R ->
  m_trainable (r_model R) = true -> 0 < ds_size (r_dataset R) -> m_name (r_model R) = $"RandomForest" -> cf_store_models (w_config w) <> 0 ->
  file_find (model_step_file (w_config w) (w_rank w) st ($"RandomForest") (r_name R)) (w_files w') <> None.
Proof.
  induction rs as [|x rs IH]; intros w w' H ND r R IN ER T SZ NM ST; [destruct IN|]. cbn [each_region] in H. apply bind_inv in H. destruct H as (w1 & E & H).
  inversion ND as [|? ? N1 N2]; subst. assert (TR := train_quietly_exact P _ _ _ _ E). destruct TR as ((G1 & G2 & _) & _ & X).
  destruct (Nat.eq_dec x r) as [->|NE].
  - assert (G : get_region w r = Ok R).
    { unfold train_quietly in E. apply bind_inv in E. destruct E as (R0 & G & _). assert (G0 := G). apply get_region_ok in G0. destruct G0 as [E0 _]. congruence. }
    eapply wrote_kept; [eapply wrote_each; [|exact H]; intros w0 r0 w2 E2; eapply wrote_quietly; exact E2|]. eapply train_stores; eauto.
  - destruct IN as [->|IN]; [congruence|]. destruct (X _ _ ER) as (m & Em & Q). assert (M : m = r_model R).
    { destruct (Nat.eqb r x) eqn:B; [apply Nat.eqb_eq in B; congruence|]. exact Q. }
    subst m. rewrite <- G1, <- G2 in *. change (r_name R) with (r_name (with_model R (r_model R))). eapply IH; eauto.
Qed.

Section Run.
Variable c : config.
Variable files : list (bytes * bytes).
Variable flush : Z.

(** After a flush the stored file of a forest is there. *)
Lemma flush_stores os K vss context now K' vs i R R' : krun P hash (started c files flush) os = Ok (K, vss) -> kstep P hash K (KEnd context now) = Ok (K', vs) ->
  flushes flush os (KEnd context now) -> cf_single_model c = 0 -> no_periods c -> stores_there c ->
  nth_error (w_regions (k_world K)) i = Some R -> first_named (region_names (k_world K)) (r_name R) i ->
  m_trainable (r_model R) = true -> m_name (r_model R) = $"RandomForest" ->
  nth_error (w_regions (k_world K')) i = Some R' -> 0 < ds_size (r_dataset R') ->
  file_find (stored_model_file (r_name R)) (w_files (k_world K')) <> None.
Proof.
  intros H E FL S NP (S1 & S2 & S3) Ei FN T NM Ei' SZ. destruct (krun_kind P hash c files flush _ _ _ H) as (h & I & KO).
  destruct (flush_steps P hash c files flush _ _ _ _ _ _ _ I KO E FL S) as (r & w1 & E1 & ID & ER & R1).
  destruct (end_quiet P c files _ _ _ _ _ (ki_run _ _ _ _ _ _ _ I) (ki_explicit _ _ _ _ _ _ _ I) E1 R1 NP) as [RG EQ].
  destruct (inv_run P (start_world c files) eq_refl eq_refl eq_refl _ _ _ (ki_explicit _ _ _ _ _ _ _ I) (ki_run _ _ _ _ _ _ _ I)) as (log & J).
  assert (ND := proj1 (registry_nodup _ (i_reg _ _ _ _ _ J))). destruct R1 as (R1 & X1 & _).
  destruct (inv_run P (start_world c files) eq_refl eq_refl eq_refl _ _ _ X1 R1) as (log1 & J1). assert (C := i_config _ _ _ _ _ J1). cbn in C.
  assert (RK : w_rank w1 = 0) by exact (i_rank _ _ _ _ _ J1).
  destruct (EQ _ _ Ei) as (Ri & Ei1 & EM). rewrite RG in ER.
  assert (X := each_region_exact P (fun w r => train_quietly P w r 0) _ (fun w r w1 E => ex_intro _ _ E) ND _ _ ER). destruct X as (_ & _ & X).
  destruct (X _ _ Ei1) as (m & Em & _). rewrite Ei' in Em. inversion Em; subst R'. cbn [r_dataset with_model] in SZ.
  assert (NME : r_name Ri = r_name R).
  { assert (A := i_names _ _ _ _ _ J1). assert (B := i_names _ _ _ _ _ J). rewrite !combine_fst_snd in *. rewrite map_app in A. cbn [map fst] in A.
    rewrite created_app in A. cbn [created_names flat_map app] in A. rewrite app_nil_r in A. assert (Q := eq_trans A (eq_sym B)). unfold region_names in Q.
    assert (QA : nth_error (map r_name (w_regions w1)) i = nth_error (map r_name (w_regions (k_world K))) i) by (rewrite Q; reflexivity).
    rewrite !nth_error_map, Ei1, Ei in QA. cbn in QA. congruence. }
  assert (IN : In i (map snd (w_registry (k_world K)))).
  { destruct (i_reg _ _ _ _ _ J) as [_ IFF]. apply IFF in FN. apply in_map_iff. exists (r_name R, i). auto. }
  assert (Y := each_stores 0 _ _ _ ER ND i Ri IN Ei1). rewrite EM in Y. specialize (Y T SZ NM).
  rewrite (same_config_field cf_store_models _ _ (fun _ => eq_refl) C) in Y. specialize (Y S1). unfold model_step_file in Y.
  rewrite (same_config_field cf_output_dir _ _ (fun _ => eq_refl) C), (same_config_field cf_models_dir _ _ (fun _ => eq_refl) C), S2, S3, RK, NME in Y.
  unfold stored_model_file. exact Y.
Qed.

(** A later process that meets the problem aborts. *)
Lemma later_run_aborts os K vss context now K' vs i R R' : krun P hash (started c files flush) os = Ok (K, vss) -> kstep P hash K (KEnd context now) = Ok (K', vs) ->
  flushes flush os (KEnd context now) -> cf_single_model c = 0 -> no_periods c -> stores_there c ->
  nth_error (w_regions (k_world K)) i = Some R -> first_named (region_names (k_world K)) (r_name R) i ->
  m_trainable (r_model R) = true -> m_name (r_model R) = $"RandomForest" ->
  nth_error (w_regions (k_world K')) i = Some R' -> 0 < ds_size (r_dataset R') ->
  forall c2 flush2 os2 K2 vss2 context2 cs tuning now2 D init vars,
    krun P hash (started c2 (w_files (k_world K')) flush2) os2 = Ok (K2, vss2) -> tuning <> [] -> ~ In (map fst cs ++ tuning) (problems os2) ->
    all_declared os2 tuning vars -> Forall complete_variable vars -> product (map v_size vars) < 2 ^ 63 ->
    (List.length cs + List.length tuning <= 50)%nat -> named os2 (map fst cs ++ tuning) (r_name R) ->
    kstep P hash K2 (KRequest context2 cs tuning now2 D init) = Abort.
Proof.
  intros H E FL S NP ST Ei FN T NM Ei' SZ c2 flush2 os2 K2 vss2 context2 cs tuning now2 D init vars H2 NT NI AD CV PR LE NA.
  eapply known_aborts; eauto. apply (proj1 (wrote_krun _ _ _ _ _ _ H2 _)). eapply flush_stores; eauto.
Qed.
End Run.
End Platform.
