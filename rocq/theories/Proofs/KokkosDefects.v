(** Lemmas on the Kokkos connector: starting, requests that are undefined, flushes that are undefined, fixed choices. *)
From Coq Require Import ZArith Bool Ascii String Lia List.
From Flocq Require Import BinarySingleNaN.
From Verif Require Import Model.Base Model.Decimal Model.Float Model.DatasetM Model.ModelStringM Model.PolicyModelsM Model.ConfigM Model.RuntimeM Model.KokkosM
  Spec.DatasetSpec Spec.StartupSpec Spec.RuntimeSpec Spec.KokkosSpec
  Proofs.TreeFacts Proofs.FloatFacts Proofs.MapFacts Proofs.KeyOrder Proofs.DatasetFacts Proofs.BestPolicy Proofs.ModelStringFacts Proofs.StartupFacts
  Proofs.RuntimeFacts Proofs.RuntimePending Proofs.RuntimeSettled Proofs.RuntimeAccount Proofs.RuntimeRegistry Proofs.RuntimeOps Proofs.RuntimeClient Proofs.RuntimeTraining Proofs.RuntimeStored
  Proofs.RuntimeData Proofs.RuntimeTraceDefects Proofs.RuntimeStatic
  Proofs.KokkosCandidates Proofs.KokkosRuns Proofs.KokkosClient Proofs.KokkosTrain Proofs.KokkosStored Proofs.KokkosMeasured.
Import ListNotations.
Open Scope Z_scope.

(** ** Starting *)

Lemma setenv_get name v env n : setenv name v env n = (if match name with [] => false | _ => match find_char "=" name with Some _ => false | None => bytes_eqb n name end end then Some v else env n).
Proof. unfold setenv. destruct name; [reflexivity|]. destruct (find_char _ _); [reflexivity|]. reflexivity. Qed.

Lemma stoi_one z t : stoi ($"1") = Ok (z, t) -> z = 1.
Proof. intros H. vm_compute in H. congruence. Qed.
Lemma stoi_zero z t : stoi ($"0") = Ok (z, t) -> z = 0.
Proof. intros H. vm_compute in H. congruence. Qed.

Lemma start_settings mpi env mkdir open_trace flush files K : init_library mpi env mkdir open_trace flush files = Ok K ->
  exists c, K = started c files flush /\
    cf_store_models c = 1 /\ cf_retrain c = 0 /\ cf_region_model c = 1 /\ cf_local c = 1 /\ cf_collective c = 0 /\ cf_trace_best c = 1 /\ cf_single_model c = 0 /\
    text_setting env ($"APOLLO_POLICY_MODEL") ($"Static,policy=0") (cf_policy_model c) /\
    text_setting env ($"APOLLO_OUTPUT_DIR") ($".apollo") (cf_output_dir c) /\
    text_setting env ($"APOLLO_MODELS_DIR") ($"models") (cf_models_dir c) /\
    int_setting env ($"APOLLO_GLOBAL_TRAIN_PERIOD") 0 (cf_global_period c) /\
    int_setting env ($"APOLLO_PER_REGION_TRAIN_PERIOD") 0 (cf_region_period c) /\
    int_setting env ($"APOLLO_PERSISTENT_DATASETS") 0 (cf_persistent c).
Proof.
  unfold init_library. intros H. apply bind_inv in H. destruct H as (c & E & H). injection H as <-. exists c. split; [reflexivity|].
  apply startup_iff in E. destruct E as (S & C & _). unfold settings_from in S. unfold text_setting, int_setting in S. rewrite !setenv_get in S. cbn in S.
  destruct S as (S1 & S2 & S3 & S4 & S5 & S6 & S7 & S8 & S9 & S10 & S11 & S12 & S13 & _ & _ & _ & S17 & _ & S19 & _ & _ & S22).
  destruct S2 as (t2 & S2). destruct S3 as (t3 & S3). destruct S5 as (t5 & S5). destruct S9 as (t9 & S9). destruct S12 as (t12 & S12). destruct S13 as (t13 & S13).
  apply stoi_zero in S2, S13. apply stoi_one in S3, S5, S9, S12.
  destruct C as (_ & [[_ C]|[C _]] & _); [lia|]. repeat split; auto.
Qed.

Lemma parse_loop_set args : forall o flush o' flush', parse_loop args o flush = Ok (o', flush') ->
  (o_disable_retrain o' = if existsb (bytes_eqb ($"--disable_retrain")) args then Some true else o_disable_retrain o) /\
  (o_distributed o' = if existsb (bytes_eqb ($"--distributed-training")) args then Some true else o_distributed o) /\
  (o_trace o' = if existsb (bytes_eqb ($"--trace")) args then Some true else o_trace o).
Proof.
  induction args as [|arg args IH]; intros o flush o' flush' H; [injection H as <- <-; auto|]. cbn [parse_loop] in H. cbn [existsb].
  destruct (bytes_eqb arg ($"--disable_retrain")) eqn:A.
  { apply bytes_eqb_eq in A. subst arg. apply IH in H. cbn [o_disable_retrain o_distributed o_trace] in H. rewrite bytes_eqb_refl. cbn [orb].
    change (bytes_eqb ($"--distributed-training") ($"--disable_retrain")) with false. change (bytes_eqb ($"--trace") ($"--disable_retrain")) with false. cbn [orb].
    destruct H as (H1 & H2 & H3). split; [|split]; auto. rewrite H1.
    match goal with |- (if ?b then _ else _) = _ => now destruct b end. }
  assert (A' : bytes_eqb ($"--disable_retrain") arg = false).
  { destruct (bytes_eqb ($"--disable_retrain") arg) eqn:X; [|reflexivity]. apply bytes_eqb_eq in X. subst arg. rewrite bytes_eqb_refl in A. discriminate A. }
  rewrite A'. cbn [orb].
  destruct (bytes_eqb arg ($"--distributed-training")) eqn:B.
  { apply bytes_eqb_eq in B. subst arg. apply IH in H. cbn [o_disable_retrain o_distributed o_trace] in H. rewrite bytes_eqb_refl. cbn [orb].
    change (bytes_eqb ($"--trace") ($"--distributed-training")) with false. cbn [orb].
    destruct H as (H1 & H2 & H3). split; [|split]; auto. rewrite H2.
    match goal with |- (if ?b then _ else _) = _ => now destruct b end. }
  assert (B' : bytes_eqb ($"--distributed-training") arg = false).
  { destruct (bytes_eqb ($"--distributed-training") arg) eqn:X; [|reflexivity]. apply bytes_eqb_eq in X. subst arg. rewrite bytes_eqb_refl in B. discriminate B. }
  rewrite B'. cbn [orb].
  destruct (bytes_eqb arg ($"--trace")) eqn:C.
  { apply bytes_eqb_eq in C. subst arg. apply IH in H. cbn [o_disable_retrain o_distributed o_trace] in H. rewrite bytes_eqb_refl. cbn [orb].
    destruct H as (H1 & H2 & H3). split; [|split]; auto. rewrite H3. match goal with |- (if ?b then _ else _) = _ => now destruct b end. }
  assert (C' : bytes_eqb ($"--trace") arg = false).
  { destruct (bytes_eqb ($"--trace") arg) eqn:X; [|reflexivity]. apply bytes_eqb_eq in X. subst arg. rewrite bytes_eqb_refl in C. discriminate C. }
  rewrite C'. cbn [orb]. destruct (contains _ arg); [apply bind_inv in H; destruct H as (z & _ & H)|]; eapply IH; exact H.
Qed.

Lemma atoi_cases s : (exists z, atoi s = Ok z) \/ atoi s = UB.
Proof. unfold atoi. destruct (take_sign _) as [neg s1]. destruct (span_digits _) as [ds rest]. destruct ds; [eauto|]. destruct (_ && _); eauto. Qed.
Lemma parse_loop_cases args : forall o flush, (exists x, parse_loop args o flush = Ok x) \/ parse_loop args o flush = UB.
Proof.
  induction args as [|arg args IH]; intros o flush; cbn [parse_loop]; [eauto|].
  destruct (bytes_eqb arg _); [apply IH|]. destruct (bytes_eqb arg _); [apply IH|]. destruct (bytes_eqb arg _); [apply IH|]. destruct (contains _ _); [|apply IH].
  destruct (atoi_cases (substr_from_next arg (find_char "=" arg))) as [(z & ->)| ->]; cbn [bind]; auto.
Qed.

(** The options. *)
Lemma all_three args env flush :
  (In ($"--disable_retrain") args /\ In ($"--distributed-training") args /\ In ($"--trace") args) \/ parse_args args env flush = UB.
Proof.
  unfold parse_args. destruct (parse_loop_cases args (mkOptions None None None) flush) as [((o & fl) & E)|E]; rewrite E; [|right; reflexivity]. cbn [bind].
  destruct (parse_loop_set _ _ _ _ _ E) as (H1 & H2 & H3). cbn [o_disable_retrain o_distributed o_trace] in H1, H2, H3.
  rewrite H1, H2, H3. destruct (existsb (bytes_eqb ($"--disable_retrain")) args) eqn:A; [|right; reflexivity].
  destruct (existsb (bytes_eqb ($"--distributed-training")) args) eqn:B; [|right; reflexivity].
  destruct (existsb (bytes_eqb ($"--trace")) args) eqn:C; [|right; reflexivity]. left.
  apply existsb_exists in A. apply existsb_exists in B. apply existsb_exists in C.
  destruct A as (a & A1 & A2). destruct B as (b & B1 & B2). destruct C as (d & C1 & C2). apply bytes_eqb_eq in A2, B2, C2. subst. auto.
Qed.

Lemma parsed_environment args env flush env' flush' : parse_args args env flush = Ok (env', flush') ->
  forall n, env' n = (if bytes_eqb n ($"APOLLO_POLICY_MODEL") then Some ($"RandomForest,explore=RoundRobin")
                      else if bytes_eqb n ($"APOLLO_REGION_MODEL") || bytes_eqb n ($"APOLLO_STORE_MODELS") then Some ($"1") else env n).
Proof.
  unfold parse_args. intros H n. apply bind_inv in H. destruct H as ([o fl] & _ & H). apply bind_inv in H. destruct H as (x & _ & H). apply bind_inv in H. destruct H as (y & _ & H).
  apply bind_inv in H. destruct H as (z & _ & H). cbv zeta in H. assert (OKE : forall (A B : Type) (a a' : A) (b b' : B), Ok (a, b) = Ok (a', b') -> a = a') by congruence. apply OKE in H. rewrite <- H. rewrite !setenv_get.
  change (find_char "=" ($"APOLLO_STORE_MODELS")) with (@None nat). change (find_char "=" ($"APOLLO_REGION_MODEL")) with (@None nat). change (find_char "=" ($"APOLLO_POLICY_MODEL")) with (@None nat).
  change (find_char "=" ($"APOLLO_TRACE_BEST_POLICIES=")) with (Some 26%nat). change (find_char "=" ($"APOLLO_RETRAIN_ENABLE=")) with (Some 21%nat).
  change (find_char "=" ($"APOLLO_LOCAL_TRAINING=")) with (Some 21%nat). change (find_char "=" ($"APOLLO_COLLECTIVE_TRAINING=")) with (Some 26%nat). cbn [list_ascii_of_string].
  destruct (bytes_eqb n ($"APOLLO_STORE_MODELS")) eqn:A; destruct (bytes_eqb n ($"APOLLO_POLICY_MODEL")) eqn:B; destruct (bytes_eqb n ($"APOLLO_REGION_MODEL")) eqn:C; try reflexivity;
    try (apply bytes_eqb_eq in A); try (apply bytes_eqb_eq in B); try (apply bytes_eqb_eq in C); try congruence; subst; try discriminate B; try discriminate C.
Qed.

(** ** Requests *)

Section Platform.
Variable P : platform.
Variable hash : bytes -> Z.
Variable c : config.
Variable files : list (bytes * bytes).
Variable flush : Z.

Lemma choice_space_cases vars : forall acc, (exists z, choice_space vars acc = Ok z) \/ choice_space vars acc = UB.
Proof.
  induction vars as [|v vars IH]; intros acc; cbn [choice_space]; [eauto|]. destruct (v_size v =? 0); [auto|].
  unfold i64. destruct (_ && _); cbn [bind]; auto.
Qed.
Lemma choice_space_empty vars v : In v vars -> v_size v = 0 -> forall acc, choice_space vars acc = UB.
Proof.
  intros IN Z. induction vars as [|u vars IH]; intros acc; [destruct IN|]. cbn [choice_space]. destruct (v_size u =? 0) eqn:E; [reflexivity|].
  unfold i64. destruct (_ && _); [|reflexivity]. cbn [bind]. apply IH. destruct IN as [->|IN]; [lia|exact IN].
Qed.

(** A tuning variable without candidates. *)
Lemma no_candidates os K vss context cs tuning now D init vars v : krun P hash (started c files flush) os = Ok (K, vss) ->
  all_declared os tuning vars -> In v vars -> v_size v = 0 -> kstep P hash K (KRequest context cs tuning now D init) = UB.
Proof.
  intros H AD IN Z. destruct (krun_inv P hash c files flush os _ _ _ _ _ (kinv_start P c files flush) H) as (hs & _ & _ & _ & I). cbn [app] in I.
  assert (V := ki_variables _ _ _ _ _ _ _ I). cbn [kstep]. unfold request_values. destruct tuning as [|t ts]; [inversion AD; subst; destruct IN|].
  rewrite (declared_found _ _ _ _ V AD). cbn [bind]. rewrite (choice_space_empty _ _ IN Z). reflexivity.
Qed.

(** The same for declarations. *)
Lemma declared_app os o os' id : (forall o', In o' os' -> ~ declares id o') -> declared (os ++ o :: os') id = declare_step id (declared os id) o.
Proof.
  intros N. unfold declared. rewrite fold_left_app. cbn [fold_left]. generalize (declare_step id (fold_left (declare_step id) os None) o) as s.
  induction os' as [|o' os' IH]; intros s; [reflexivity|]. cbn [fold_left].
  assert (X : declare_step id s o' = s).
  { assert (Q := N o' (or_introl eq_refl)). destruct o'; cbn in Q |- *; try reflexivity; destruct (Z.eqb_spec id0 id); try reflexivity; contradiction. }
  rewrite X. apply IH. intros q I. apply N. right. exact I.
Qed.

Lemma find_variables_cases l ids : (exists vs, find_variables l ids = Ok vs) \/ find_variables l ids = UB.
Proof.
  assert (F : forall id m, (exists v, find_variable id m = Ok v) \/ find_variable id m = UB).
  { intros id m. induction m as [|[i v] m IH]; cbn; [auto|]. destruct (i =? id); eauto. }
  induction ids as [|id ids IH]; cbn [find_variables]; [eauto|]. destruct (F id l) as [(v & ->)| ->]; [|auto]. cbn [bind].
  destruct IH as [(vs & ->)| ->]; cbn [bind]; eauto.
Qed.

Lemma all_declared_in os ids vars id : all_declared os ids vars -> In id ids -> exists v, In v vars /\ declared os id = Some v.
Proof.
  intros A. induction A as [|i v ids vars X A IH]; intros I; [destruct I|]. destruct I as [->|I]; [exists v; split; [left; reflexivity|exact X]|].
  destruct (IH I) as (u & IU & Y). exists u. split; [right; exact IU|exact Y].
Qed.

Lemma empty_declaration os o os' K vss id context cs tuning now D init : krun P hash (started c files flush) (os ++ o :: os') = Ok (K, vss) ->
  divides_by_zero id o -> (forall o', In o' os' -> ~ declares id o') -> In id tuning -> kstep P hash K (KRequest context cs tuning now D init) = UB.
Proof.
  intros H O N IT. destruct (krun_inv P hash c files flush _ _ _ _ _ _ (kinv_start P c files flush) H) as (hs & _ & _ & _ & I). cbn [app] in I.
  assert (V := ki_variables _ _ _ _ _ _ _ I). destruct (find_variables_cases (k_variables K) tuning) as [(vars & F)|F].
  - assert (AD := find_variables_declared _ _ _ _ V F). destruct (all_declared_in _ _ _ _ AD IT) as (v & IV & X).
    apply (no_candidates _ _ _ context cs tuning now D init _ v H AD IV). rewrite declared_app in X by exact N.
    destruct o; cbn in O; try contradiction.
    + destruct O as [-> [-> | ->]]; cbn in X; rewrite Z.eqb_refl in X; inversion X; reflexivity.
    + subst. cbn in X. rewrite Z.eqb_refl in X. inversion X. reflexivity.
  - cbn [kstep]. unfold request_values. destruct tuning as [|t ts]; [destruct IT|]. rewrite F. reflexivity.
Qed.

Lemma nothing_offered x : offers_nothing x -> forall n vs, associate_candidates x = Ok (n, vs) -> vs = [].
Proof.
  intros O n vs A. destruct x; cbn in O, A; try contradiction; try (inversion A; reflexivity).
  - subst. inversion A. reflexivity.
  - destruct O as [S U]. apply bind_inv in A. destruct A as (m & C & A). unfold count_int_slices in C.
    apply bind_inv in C. destruct C as (hi & C1 & C). apply bind_inv in C. destruct C as (lo & C2 & C). apply bind_inv in C. destruct C as (d & C3 & C).
    destruct (Z.eqb_spec step 0); [lia|]. apply bind_inv in C. destruct C as (q & C4 & C5).
    assert (W : forall z w, i64 z = Ok w -> w = z) by (intros z w; unfold i64; destruct (_ && _); intros J1; inversion J1; reflexivity).
    apply W in C3, C4, C5. subst m q d.
    assert (hi <= upper) by (destruct open_upper; [apply W in C1; lia|inversion C1; lia]).
    assert (lower <= lo) by (destruct open_lower; [apply W in C2; lia|inversion C2; lia]).
    assert (Z.quot (hi - lo) step <= -1).
    { replace (hi - lo) with (- (lo - hi)) by lia. rewrite Z.quot_opp_l by lia. enough (1 <= Z.quot (lo - hi) step) by lia. apply Z.quot_le_lower_bound; lia. }
    destruct (Z.leb_spec (1 + Z.quot (hi - lo) step) 0); [inversion A; reflexivity|lia].
Qed.

Lemma decode_nothing vars v : In v vars -> v_values v = [] -> forall policy vs, decode vars policy <> Ok vs.
Proof.
  intros IN E. induction vars as [|u vars IH]; intros policy vs; [destruct IN|]. cbn [decode]. destruct (_ =? 0); [discriminate|].
  intros H. apply bind_inv in H. destruct H as (x & X & H). apply bind_inv in H. destruct H as (xs & Y & _).
  destruct IN as [->|IN]; [|exact (IH IN _ _ Y)]. rewrite E in X. unfold vec_get in X.
  destruct (_ <? 0); [discriminate|]. destruct (Z.to_nat _); discriminate.
Qed.

Lemma offered_nothing os name id x os' K vss context cs tuning now D init K' vs : krun P hash (started c files flush) (os ++ KOutput name id x :: os') = Ok (K, vss) ->
  offers_nothing x -> (forall o', In o' os' -> ~ declares id o') -> In id tuning -> kstep P hash K (KRequest context cs tuning now D init) <> Ok (K', vs).
Proof.
  intros H O N IT R. destruct (krun_inv P hash c files flush _ _ _ _ _ _ (kinv_start P c files flush) H) as (hs & _ & _ & _ & I). cbn [app] in I.
  assert (V := ki_variables _ _ _ _ _ _ _ I). cbn [kstep] in R. unfold request_values in R. destruct tuning as [|t ts]; [destruct IT|].
  apply bind_inv in R. destruct R as (vars & F & R). assert (AD := find_variables_declared _ _ _ _ V F). destruct (all_declared_in _ _ _ _ AD IT) as (v & IV & X).
  rewrite declared_app in X by exact N. cbn in X. rewrite Z.eqb_refl in X.
  destruct (associate_candidates x) as [[n us]| | | |] eqn:A; try discriminate. assert (E0 := nothing_offered _ O _ _ A). subst us. inversion X; subst v. clear X.
  apply bind_inv in R. destruct R as (ch & _ & R). destruct (_ <? _)%nat; [discriminate|]. apply bind_inv in R. destruct R as (cv & _ & R).
  apply bind_inv in R. destruct R as ([K1 r] & _ & R). apply bind_inv in R. destruct R as ([w1 y] & _ & R). destruct y; try discriminate.
  apply bind_inv in R. destruct R as (w2 & _ & R). apply bind_inv in R. destruct R as ([w3 y] & _ & R). destruct y; try discriminate.
  apply bind_inv in R. destruct R as (us & DD & _). exact (decode_nothing _ _ IV eq_refl _ _ DD).
Qed.

(** Too many variables. *)
Lemma too_many os K vss context cs tuning now D init vars : krun P hash (started c files flush) os = Ok (K, vss) ->
  all_declared os tuning vars -> tuning <> [] -> (50 < List.length cs + List.length tuning)%nat -> kstep P hash K (KRequest context cs tuning now D init) = UB.
Proof.
  intros H AD NT LT. destruct (krun_inv P hash c files flush os _ _ _ _ _ (kinv_start P c files flush) H) as (hs & _ & _ & _ & I). cbn [app] in I.
  assert (V := ki_variables _ _ _ _ _ _ _ I). cbn [kstep]. unfold request_values. destruct tuning as [|t ts]; [congruence|].
  rewrite (declared_found _ _ _ _ V AD). cbn [bind]. destruct (choice_space_cases vars 1) as [(z & ->)| ->]; [|reflexivity]. cbn [bind].
  rewrite map_length. assert (L : (max_variables <? List.length cs + List.length (t :: ts))%nat = true) by (apply Nat.ltb_lt; exact LT). rewrite L. reflexivity.
Qed.

Lemma unnamed_name vars v : In v vars -> v_name v = None -> problem_name vars = UB.
Proof.
  intros IN N. induction vars as [|u vars IH]; [destruct IN|]. cbn [problem_name]. destruct (v_name u) as [s|] eqn:E; [|reflexivity].
  destruct IN as [->|IN]; [congruence|]. rewrite (IH IN). reflexivity.
Qed.

(** A variable whose name does not fit. *)
Lemma long_name os K vss context cs tuning now D init id v : krun P hash (started c files flush) os = Ok (K, vss) ->
  tuning <> [] -> ~ In (map fst cs ++ tuning) (problems os) ->
  (forall i, In i (map fst cs ++ tuning) -> declared os i <> None) -> In id (map fst cs ++ tuning) -> declared os id = Some v -> v_name v = None ->
  kstep P hash K (KRequest context cs tuning now D init) = UB.
Proof.
  intros H NT NI AD IN DV NV. destruct (krun_inv P hash c files flush os _ _ _ _ _ (kinv_start P c files flush) H) as (hs & _ & _ & _ & I). cbn [app] in I.
  assert (V := ki_variables _ _ _ _ _ _ _ I). cbn [kstep]. unfold request_values.
  assert (ALL : forall l, (forall i, In i l -> declared os i <> None) -> exists vars, all_declared os l vars).
  { induction l as [|i l IH]; intros A; [exists []; constructor|]. destruct IH as (vars & F); [intros; apply A; now right|].
    destruct (declared os i) as [u|] eqn:E; [|exfalso; exact (A i (or_introl eq_refl) E)]. exists (u :: vars). constructor; assumption. }
  destruct (ALL (map fst cs)) as (cvars & AC); [intros; apply AD, in_or_app; now left|].
  destruct (ALL tuning) as (tvars & AT); [intros; apply AD, in_or_app; now right|].
  destruct tuning as [|t ts]; [congruence|]. rewrite (declared_found _ _ _ _ V AT). cbn [bind]. destruct (choice_space_cases tvars 1) as [(z & ->)| ->]; [|reflexivity]. cbn [bind].
  destruct (_ <? _)%nat; [reflexivity|]. rewrite (declared_found _ _ _ _ V AC). cbn [bind]. unfold region_for. rewrite (ki_problems _ _ _ _ _ _ _ I).
  rewrite place_none.
  2:{ destruct (existsb (same_ids (map fst cs ++ t :: ts)) (problems os)) eqn:X; [|reflexivity]. exfalso. apply existsb_exists in X. destruct X as (y & IY & SY).
      apply same_ids_true in SY. subst y. contradiction. }
  assert (IV : In v (cvars ++ tvars)).
  { assert (AL : all_declared os (map fst cs ++ t :: ts) (cvars ++ tvars)) by (apply Forall2_app; assumption).
    clear - AL IN DV. induction AL as [|i u ids vars E A IH]; [destruct IN|]. destruct IN as [->|IN]; [left; congruence|right; auto]. }
  rewrite (unnamed_name _ _ IV NV). reflexivity.
Qed.

(** A flush rate of zero. *)
Lemma flush_zero os K vss context now : krun P hash (started c files 0) os = Ok (K, vss) -> open_problem os context <> None ->
  forall K' vs, kstep P hash K (KEnd context now) <> Ok (K', vs).
Proof.
  intros H OP K' vs E. destruct (krun_inv P hash c files 0 os _ _ _ _ _ (kinv_start P c files 0) H) as (hs & _ & _ & _ & I). cbn [app] in I.
  cbn [kstep] in E. apply bind_inv in E. destruct E as (K1 & E & _). unfold end_kokkos_context in E. rewrite (ki_contexts _ _ _ _ _ _ _ I) in E.
  unfold context_view in E. destruct (open_problem os context) as [ids|] eqn:O; [|congruence].
  assert (X := ki_open _ _ _ _ _ _ _ I _ _ O). destruct (place_some _ _ X) as (r & PL). rewrite PL in E. apply bind_inv in E. destruct E as ([w x] & _ & E).
  rewrite (ki_flush _ _ _ _ _ _ _ I) in E. destruct (int_max <? _); discriminate E.
Qed.

(** ** Flushes *)

Lemma each_printable st rs : forall w w', each_region (fun w r => train_quietly P w r st) w rs = Ok w' -> NoDup rs -> forall r R, In r rs -> nth_error (w_regions w) r = Some R ->
  m_trainable (r_model R) = true -> wfd (r_dataset R) -> cf_trace_best (w_config w) <> 0 ->
  forall f p m, In ((f, p), m) (r_dataset R) -> ~ Exists unprintable f.
Proof.
  induction rs as [|x rs IH]; intros w w' H ND r R IN ER T W TB f p m IF U; [destruct IN|]. cbn [each_region] in H. apply bind_inv in H. destruct H as (w1 & E & H).
  inversion ND as [|? ? N1 N2]; subst. assert (TR := train_quietly_exact P _ _ _ _ E). destruct TR as ((G1 & G2 & _) & _ & X).
  destruct (Nat.eq_dec x r) as [->|NE].
  - assert (G : get_region w r = Ok R).
    { unfold train_quietly in E. apply bind_inv in E. destruct E as (R0 & G & _). assert (G0 := G). apply get_region_ok in G0. destruct G0 as [E0 _]. congruence. }
    unfold train_quietly in E. rewrite G in E. cbn [bind] in E. rewrite T in E. cbn [negb] in E. unfold train_body in E. rewrite G in E. cbn [bind] in E.
    destruct (Z.leb_spec (ds_size (r_dataset R)) 0) as [L|L].
    { unfold ds_size in L. destruct (r_dataset R); [destruct IF|cbn [List.length] in L; lia]. }
    destruct (negb _); [discriminate E|]. apply bind_inv in E. destruct E as (w2 & E & _). unfold trace_best in E. unfold truthy in E.
    apply Z.eqb_neq in TB. rewrite TB in E. cbn [negb] in E. destruct (ds_find_min (r_dataset R) [] []) as [[fs rs'] best] eqn:B.
    rewrite (best_undefined _ _ _ _ _ _ _ W IF U B) in E. discriminate E.
  - destruct IN as [->|IN]; [congruence|]. destruct (X _ _ ER) as (mm & Em & Q). assert (M : mm = r_model R).
    { destruct (Nat.eqb r x) eqn:B; [apply Nat.eqb_eq in B; congruence|]. exact Q. }
    subst mm. rewrite <- G1 in TB. exact (IH _ _ H N2 r _ IN Em T W TB f p m IF U).
Qed.

(** The data a flush trains has no features that do not fit in an int. *)
Lemma flush_printable os K vss context now K' vs i R R' : krun P hash (started c files flush) os = Ok (K, vss) -> kstep P hash K (KEnd context now) = Ok (K', vs) ->
  flushes flush os (KEnd context now) -> cf_single_model c = 0 -> no_periods c -> cf_trace_best c <> 0 ->
  nth_error (w_regions (k_world K)) i = Some R -> first_named (region_names (k_world K)) (r_name R) i ->
  m_trainable (r_model R) = true -> nth_error (w_regions (k_world K')) i = Some R' ->
  wfd (r_dataset R') /\ forall f p m, In ((f, p), m) (r_dataset R') -> ~ Exists unprintable f.
Proof.
  intros H E FL S NP TB Ei FN T Ei'. destruct (krun_kind P hash c files flush _ _ _ H) as (h & I & KO).
  destruct (flush_steps P hash c files flush _ _ _ _ _ _ _ I KO E FL S) as (r & w1 & E1 & ID & ER & R1).
  destruct (end_quiet P c files _ _ _ _ _ (ki_run _ _ _ _ _ _ _ I) (ki_explicit _ _ _ _ _ _ _ I) E1 R1 NP) as [RG EQ].
  destruct (inv_run P (start_world c files) eq_refl eq_refl eq_refl _ _ _ (ki_explicit _ _ _ _ _ _ _ I) (ki_run _ _ _ _ _ _ _ I)) as (log & J).
  assert (ND := proj1 (registry_nodup _ (i_reg _ _ _ _ _ J))). destruct R1 as (R1 & X1 & _).
  destruct (inv_run P (start_world c files) eq_refl eq_refl eq_refl _ _ _ X1 R1) as (log1 & J1). assert (C := i_config _ _ _ _ _ J1). cbn in C.
  destruct (EQ _ _ Ei) as (Ri & Ei1 & EM). rewrite RG in ER.
  assert (X := each_region_exact P (fun w r => train_quietly P w r 0) _ (fun w r w1 E => ex_intro _ _ E) ND _ _ ER). destruct X as (_ & _ & X).
  destruct (X _ _ Ei1) as (m & Em & _). rewrite Ei' in Em. inversion Em; subst R'. cbn [r_dataset with_model].
  assert (IN : In i (map snd (w_registry (k_world K)))).
  { destruct (i_reg _ _ _ _ _ J) as [_ IFF]. apply IFF in FN. apply in_map_iff. exists (r_name R, i). auto. }
  assert (W := wf_started P _ _ _ _ _ R1 _ _ Ei1). split; [exact W|].
  assert (Y := each_printable 0 _ _ _ ER ND i Ri IN Ei1). rewrite EM in Y. specialize (Y T W).
  rewrite (same_config_field cf_trace_best _ _ (fun _ => eq_refl) C) in Y. exact (Y TB).
Qed.

(** A flush after a request whose context holds a value that does not fit in an int. *)
Lemma flush_undefined os K vss context now ids i context' cs tuning start D init r R : krun P hash (started c files flush) os = Ok (K, vss) ->
  open_problem os context = Some ids -> Z.rem (ends os + 1) flush = 0 -> cf_single_model c = 0 -> no_periods c -> cf_trace_best c <> 0 ->
  last_request os ids i -> ~ ended_since os ids i -> nth_error os i = Some (KRequest context' cs tuning start D init) ->
  place ids (problems os) = Some r -> nth_error (w_regions (k_world K)) r = Some R -> first_named (region_names (k_world K)) (r_name R) r ->
  m_trainable (r_model R) = true ->
  (exists v, In v (map snd cs) /\ forall x, feature_of hash v x -> unprintable x) ->
  forall K' vs, kstep P hash K (KEnd context now) <> Ok (K', vs).
Proof.
  intros H O RM S NP TB LR NE Ei PL ER FN T (v & IV & UV) K' vs E.
  destruct (measured P hash c files flush _ _ _ _ _ _ _ _ H E O) as (i2 & context2 & cs2 & tuning2 & start2 & D2 & init2 & vs2 & r2 & xs & policy & vars & LR2 & Ei2 & _ & PL2 & FE & _ & _ & fs & _ & FX & DATA).
  assert (i2 = i) as ->.
  { destruct LR as [(o1 & A1 & B1) C1]. destruct LR2 as [(o2 & A2 & B2) C2]. destruct (Nat.lt_trichotomy i i2) as [L|[L|L]]; [|congruence|].
    - exfalso. exact (C1 _ _ L A2 B2).
    - exfalso. exact (C2 _ _ L A1 B1). }
  specialize (FX NE). subst fs. rewrite Ei in Ei2. injection Ei2 as -> -> -> -> -> ->. rewrite PL in PL2. injection PL2 as <-.
  destruct (DATA _ _ ER) as (R' & ER' & INS). rewrite Nat.eqb_refl in INS. unfold keeps in INS. rewrite T, orb_true_r in INS. cbn [andb] in INS.
  destruct (krun_kind P hash c files flush _ _ _ H) as (h & I & _).
  assert (W := wf_started P _ _ _ _ _ (ki_run _ _ _ _ _ _ _ I) _ _ ER). destruct (insert_wf _ _ _ _ _ W INS) as [_ FK].
  destruct (insert_spec _ _ policy (sub64 (clock_seconds now) (clock_seconds start2)) FK W) as (d' & ED & WD & FD & _). rewrite INS in ED. injection ED as <-.
  specialize (FD (xs, policy) FK). rewrite keqb_refl in FD by exact FK. apply find_In in FD. destruct FD as ((g & q) & IG & EQ).
  destruct (flush_printable os K vss context now K' vs r R R') as [WR PR]; auto.
  { split; [congruence|exact RM]. }
  refine (PR _ _ _ IG _). apply (unprintable_same xs).
  - rewrite <- keqb_eqv in EQ.
    + unfold keqb in EQ. apply andb_prop in EQ. exact (proj1 EQ).
    + exact FK.
    + destruct WD as [A _]. rewrite Forall_forall in A. exact (A _ IG).
  - apply Exists_exists. clear - FE IV UV. induction FE as [|v' x vs xs E F IH]; [destruct IV|]. destruct IV as [->|IV].
    + exists x. split; [left; reflexivity|exact (UV _ E)].
    + destruct (IH IV) as (y & A & B). exists y. split; [right; exact A|exact B].
Qed.

(** ** The default model *)

Lemma decode_first vars : Forall complete_variable vars -> product (map v_size vars) <= int_max -> exists vs, decode vars 0 = Ok vs /\
  Forall2 (fun v x => nth_error (v_values v) 0 = Some x) vars vs.
Proof.
  induction vars as [|v vars IH]; intros CV PB; [exists []; split; [reflexivity|constructor]|]. inversion CV as [|? ? [A B] CV']; subst.
  assert (P1 : 1 <= product (map v_size vars)). { apply product_ge1. rewrite Forall_map. eapply Forall_impl; [|exact CV']. intros u [Q _]. exact Q. }
  cbn [map product fold_right] in PB. fold (product (map v_size vars)) in PB. unfold int_max in *.
  destruct IH as (vs & DE & F); [assumption|nia|]. cbn [decode]. assert (TI : to_int (v_size v) = v_size v) by (apply to_int_small; unfold int_max; nia). rewrite TI.
  destruct (Z.eqb_spec (v_size v) 0); [lia|]. rewrite Z.rem_0_l, Z.quot_0_l by lia. destruct (v_values v) as [|x l] eqn:EV; [cbn in B; lia|].
  exists (x :: vs). split; [|constructor; [rewrite EV; reflexivity|exact F]]. unfold vec_get. cbn. rewrite DE. reflexivity.
Qed.

Lemma kokkos_default o : kokkos_op o -> default_model o.
Proof. destruct o; cbn; auto. intros (_ & X & _). exact X. Qed.

(** Without options given, every request gets the first candidates. *)
Lemma first_candidates os K vss : krun P hash (started c files flush) os = Ok (K, vss) -> cf_policy_model c = $"Static,policy=0" ->
  forall i context cs tuning now D init vs vars,
    nth_error os i = Some (KRequest context cs tuning now D init) -> tuning <> [] -> nth_error vss i = Some vs ->
    all_declared (firstn i os) tuning vars -> Forall complete_variable vars -> product (map v_size vars) <= int_max ->
    Forall2 (fun v x => nth_error (v_values v) 0 = Some x) vars vs.
Proof.
  intros H PM i context cs tuning now D init vs vars Ei NT Ev AD CV PB.
  destruct (krun_inv P hash c files flush os _ _ _ _ _ (kinv_start P c files flush) H) as (hs & L1 & L2 & PF & I). cbn [app] in I, PF.
  assert (LI : (i < List.length hs)%nat) by (rewrite L1; apply (nth_error_Some os i); congruence).
  destruct (nth_error hs i) as [l|] eqn:El; [|apply nth_error_None in El; lia].
  destruct tuning as [|t ts]; [congruence|]. set (tuning := t :: ts) in *. assert (PFi := PF _ _ _ _ Ei El Ev).
  set (req := KRequest context cs tuning now D init) in *. unfold req, tuning in PFi. rewrite performs_request in PFi. cbv zeta in PFi. fold tuning in PFi. fold req in PFi.
  destruct PFi as (r & create & xs & policy & vars' & PL & AD' & CR & FE & EL & DE).
  assert (vars' = vars) as -> by (eapply all_declared_unique; eauto).
  assert (Q : policy = 0).
  2:{ subst policy. destruct (decode_first vars CV PB) as (vs' & DE' & F). rewrite DE in DE'. injection DE' as <-. exact F. }
  rewrite <- (firstn_next _ _ _ Ei) in PL.
  assert (EXI : existsb (same_ids (map fst cs ++ tuning)) (problems (firstn (S i) os)) = true).
  { destruct (existsb (same_ids (map fst cs ++ tuning)) (problems (firstn (S i) os))) eqn:X; [reflexivity|]. rewrite (place_none _ _ X) in PL. discriminate PL. }
  destruct (first_request _ _ EXI) as (j & oj & Ej & Pj & Fj).
  assert (Lj : (j <= i)%nat).
  { assert (LL : (j < List.length (firstn (S i) os))%nat) by (apply nth_error_Some; congruence). rewrite firstn_length in LL. lia. }
  assert (Ej' : nth_error os j = Some oj).
  { clear - Ej Lj. rewrite <- (firstn_skipn (S i) os). rewrite nth_error_app1; [exact Ej|]. apply nth_error_Some. congruence. }
  rewrite firstn_firstn in Fj. replace (Nat.min j (S i)) with j in Fj by lia.
  assert (LJ : (j < List.length os)%nat) by (apply (nth_error_Some os j); congruence).
  destruct (nth_error hs j) as [lj|] eqn:Elj; [|apply nth_error_None in Elj; lia].
  destruct (nth_error vss j) as [vsj|] eqn:Evj; [|apply nth_error_None in Evj; lia].
  assert (PFj := PF _ _ _ _ Ej' Elj Evj).
  destruct oj as [| |context' cs' [|t' ts'] now' D' init'|]; try discriminate Pj. set (tuning' := t' :: ts') in *. cbn [problem] in Pj. unfold tuning' in Pj. fold tuning' in Pj.
  set (req' := KRequest context' cs' tuning' now' D' init') in *. unfold req', tuning' in PFj. rewrite performs_request in PFj. cbv zeta in PFj. fold tuning' in PFj. fold req' in PFj.
  destruct PFj as (r' & create' & xs' & policy' & vars' & PL' & ADj & CR' & _ & EL' & _).
  rewrite <- (firstn_next _ _ _ Ej') in PL'. injection Pj as Pj. rewrite Pj in *. rewrite Fj in CR'. destruct CR' as (name & _ & CR').
  assert (r' = r) as ->. { assert (X := place_firstn os (S i) (S j) _ _ ltac:(lia) PL'). congruence. }
  assert (IN1 : In (OpRegion (Z.of_nat (List.length cs')) name (to_int (product (map v_size vars'))) 0 [] [] init', GotRegion r) (concat hs)).
  { eapply in_concat_nth; [exact Elj|]. rewrite EL', CR'. left. reflexivity. }
  assert (IN2 : In (OpGetPolicy r (Some (r, Sync)) D, GotPolicy policy) (concat hs)).
  { eapply in_concat_nth; [exact El|]. rewrite EL. apply in_or_app. right. right. apply in_or_app. right. left. reflexivity. }
  assert (ALL : Forall default_model (map fst (concat hs))).
  { rewrite Forall_map. apply Forall_concat. rewrite Forall_forall. intros x IN. apply In_nth_error in IN. destruct IN as (k & Ek).
    assert (Lk : (k < List.length hs)%nat) by (apply (nth_error_Some hs k); intros X; assert (Y := eq_trans (eq_sym X) Ek); discriminate Y).
    destruct (nth_error os k) as [ok|] eqn:Eok; [|apply nth_error_None in Eok; lia]. destruct (nth_error vss k) as [vk|] eqn:Evk; [|apply nth_error_None in Evk; lia].
    eapply Forall_impl; [|eapply performs_kind; exact (PF _ _ _ _ Eok Ek Evk)]. intros e. apply kokkos_default. }
  rewrite (static_run P 0 c files _ _ _ r (Z.of_nat (List.length cs')) name (to_int (product (map v_size vars'))) 0 [] [] init' ltac:(lia) PM (ki_run _ _ _ _ _ _ _ I) ALL) with (q := Some (r, Sync)) (D := D) (k := policy);
    [destruct (_ <? _); reflexivity|rewrite combine_fst_snd; exact IN1|rewrite combine_fst_snd; exact IN2].
Qed.
End Platform.
