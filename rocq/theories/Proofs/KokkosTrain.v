(** What the connector's training does. *)
From Coq Require Import ZArith Bool Ascii String Lia Reals Lra List Permutation.
From Flocq Require Import Core BinarySingleNaN.
From Verif Require Import Model.Base Model.Float Model.DatasetM Model.ModelStringM Model.PolicyModelsM Model.ConfigM Model.RuntimeM Model.KokkosM
  Spec.DatasetSpec Spec.DatasetClient Spec.RuntimeSpec Spec.KokkosSpec
  Proofs.TreeFacts Proofs.FloatFacts Proofs.MapFacts Proofs.KeyOrder Proofs.DatasetFacts Proofs.BestPolicy Proofs.ModelStringFacts Proofs.RuntimeFacts Proofs.RuntimeCollect Proofs.RuntimePending Proofs.RuntimeMoves Proofs.RuntimeOps
  Proofs.RuntimeNew Proofs.RuntimeRegistry Proofs.RuntimeAccount Proofs.RuntimeClient Proofs.RuntimeCreate Proofs.RuntimeTraining Proofs.RuntimeStored
  Proofs.RuntimeSettled Proofs.KokkosCandidates Proofs.KokkosRuns Proofs.KokkosClient.
Import ListNotations.
Open Scope Z_scope.

(** The calls the connector makes. *)
Definition kokkos_op (o : op) : Prop :=
  match o with
  | OpRegion _ _ _ mt info yaml _ => mt = 0 /\ info = [] /\ yaml = []
  | OpBegin _ async _ => async = false
  | OpSetFeature r p _ | OpGetPolicy r p _ | OpEnd r p _ _ => p = Some (r, Sync)
  | OpTrainAll st collect => st = 0 /\ collect = true
  | _ => False
  end.

Lemma performs_kind hash flush before o l vs : performs hash flush before o l vs -> Forall (fun e => kokkos_op (fst e)) l.
Proof.
  intros H. destruct o as [nm id cd|nm id|context cs [|t ts] now D init|context now].
  - destruct H as [-> _]. constructor.
  - destruct H as [-> _]. constructor.
  - destruct H as [-> _]. constructor.
  - rewrite performs_request in H. cbv zeta in H. destruct H as (r & create & xs & policy & vars & _ & _ & C & _ & -> & _).
    apply Forall_app. split.
    + destruct (existsb _ _); [subst; constructor|]. destruct C as (name & _ & ->). repeat constructor.
    + constructor; [reflexivity|]. apply Forall_app. split; [|repeat constructor]. rewrite Forall_map, Forall_forall. reflexivity.
  - cbn in H. destruct H as [_ H]. destruct (open_problem before context) as [ids|]; [|subst; constructor].
    destruct H as (r & _ & ->). constructor; [reflexivity|]. destruct (_ =? 0); repeat constructor.
Qed.

Section Platform.
Variable P : platform.
Variable hash : bytes -> Z.
Variable c : config.
Variable files : list (bytes * bytes).
Variable flush : Z.

Lemma krun_kind os K vss : krun P hash (started c files flush) os = Ok (K, vss) ->
  exists h, kinv P c files flush os h K /\ Forall (fun e => kokkos_op (fst e)) h.
Proof.
  intros H. destruct (krun_inv P hash c files flush os _ _ _ _ _ (kinv_start P c files flush) H) as (hs & L1 & L2 & PF & I). cbn [app] in I, PF.
  exists (concat hs). split; [exact I|]. apply Forall_concat. rewrite Forall_forall. intros l IN. apply In_nth_error in IN. destruct IN as (k & Ek).
  assert (Lk : (k < List.length hs)%nat) by (apply (nth_error_Some hs k); intros X; assert (Y := eq_trans (eq_sym X) Ek); discriminate Y).
  destruct (nth_error os k) as [ok|] eqn:Eok; [|apply nth_error_None in Eok; lia]. destruct (nth_error vss k) as [vk|] eqn:Evk; [|apply nth_error_None in Evk; lia].
  eapply performs_kind. exact (PF _ _ _ _ Eok Ek Evk).
Qed.

(** Nothing is ever pending. *)
Lemma none_pending h w : run P (start_world c files) (map fst h) = Ok (w, map snd h) -> forallb explicit (map fst h) = true ->
  Forall (fun e => kokkos_op (fst e)) h -> forall r R, nth_error (w_regions w) r = Some R -> r_pending R = [].
Proof.
  intros H EX KO r R ER. destruct (inv_run P (start_world c files) eq_refl eq_refl eq_refl _ _ _ EX H) as (log & I). rewrite combine_fst_snd in I.
  assert (C := i_count _ _ _ _ _ I r). assert (HP := i_heap _ _ _ _ _ I r). unfold pending in *. rewrite ER in *.
  destruct (r_pending R) as [|p ps]; [reflexivity|exfalso]. specialize (HP p (or_introl eq_refl)).
  assert (IN : In p (ended_on h r)) by (eapply Permutation_in; [apply Permutation_sym; exact C|]; apply in_or_app; right; left; reflexivity).
  unfold ended_on, ended in IN. apply in_map_iff in IN. destruct IN as ([r' q] & E & IN). cbn in E. subst q. apply filter_In in IN. destruct IN as [IN _].
  apply in_concat in IN. destruct IN as (l & IL & IP). apply in_map_iff in IL. destruct IL as (e & <- & IE).
  rewrite Forall_forall in KO. specialize (KO _ IE). unfold end_call in IP. destruct (fst e); cbn in KO; try (subst; cbn in IP); try contradiction.
  - destruct IP as [IP|[]]. inversion IP; subst. apply HP. reflexivity.
Qed.

Lemma no_minimum h w : run P (start_world c files) (map fst h) = Ok (w, map snd h) -> forallb explicit (map fst h) = true ->
  Forall (fun e => kokkos_op (fst e)) h -> forall r R, nth_error (w_regions w) r = Some R -> r_min_training R = 0.
Proof.
  intros H EX KO r R ER. destruct (inv_run P (start_world c files) eq_refl eq_refl eq_refl _ _ _ EX H) as (log & I).
  destruct (region_origin P _ _ _ _ _ _ _ _ EX I ER) as (h1 & nf & nm & np & mt & info & yaml & init & h2 & log1 & wb & w1 & R1 & EH & I1 & HN & ER1 & _ & ST1 & _).
  rewrite combine_fst_snd in EH. rewrite EH in KO. rewrite Forall_app in KO. destruct KO as [_ KO]. inversion KO as [|? ? KO1 _]; subst. destruct KO1 as [-> _].
  destruct (new_region_spec P _ _ _ _ _ _ _ _ _ _ HN) as (-> & v & mn0 & ps0 & mn & ps & info' & m0 & _ & _ & _ & (_ & ws & R2 & EV & FW & BL & _) & EW & _).
  rewrite EW, EV, nth_last in ER1 by (eapply Forall2_length'; eauto). inversion ER1; subst R2.
  destruct ST1 as (_ & _ & _ & S4 & _). destruct BL as (_ & _ & _ & _ & B & _). congruence.
Qed.

Lemma set_nth_same {A} (l : list A) n x : nth_error l n = Some x -> set_nth l n x = l.
Proof. revert n. induction l as [|y l IH]; intros [|n] H; cbn in *; try discriminate; [congruence|]. f_equal. auto. Qed.

Lemma set_region_same w r R : nth_error (w_regions w) r = Some R -> set_region w r R = w.
Proof. intros E. unfold set_region. rewrite set_nth_same by exact E. destruct w; reflexivity. Qed.

Definition idle (w : world) : Prop := forall r R, nth_error (w_regions w) r = Some R -> r_pending R = [].

(** Without pending contexts collecting changes nothing. *)
Lemma collect_idle w r R : idle w -> get_region w r = Ok R -> collect_pending P w r = Ok w.
Proof.
  intros ID G. assert (G0 := G). apply get_region_ok in G0. destruct G0 as [ER _]. unfold collect_pending. rewrite G. cbn [bind]. rewrite (ID _ _ ER). cbn [collect_loop bind].
  rewrite G. cbn [bind]. rewrite set_region_same; [reflexivity|]. rewrite ER. f_equal. assert (X := ID _ _ ER). destruct R; cbn in *; subst; reflexivity.
Qed.

Lemma train_idle w r st : idle w -> region_train P w r st true false = train_quietly P w r st.
Proof.
  intros ID. unfold region_train, train_quietly. destruct (get_region w r) as [R| | | |] eqn:G; try reflexivity. cbn [bind]. rewrite andb_true_l.
  destruct (negb (m_trainable (r_model R))); [reflexivity|]. rewrite (collect_idle _ _ _ ID G). reflexivity.
Qed.

Lemma idle_models Q w w' : models_by Q w w' -> idle w -> idle w'.
Proof.
  intros (_ & L & X) ID r R' E. destruct (nth_error (w_regions w) r) as [R|] eqn:ER.
  - destruct (X _ _ ER) as (m & Em & _). rewrite Em in E. inversion E; subst. cbn. eapply ID; eauto.
  - apply nth_error_None in ER. assert (Y : nth_error (w_regions w') r <> None) by congruence. apply nth_error_Some in Y. lia.
Qed.

Lemma each_idle st rs : forall w, idle w -> each_region (fun w r => region_train P w r st true false) w rs = each_region (fun w r => train_quietly P w r st) w rs.
Proof.
  induction rs as [|r rs IH]; intros w ID; [reflexivity|]. cbn [each_region]. rewrite train_idle by exact ID.
  destruct (train_quietly P w r st) as [w1| | | |] eqn:E; try reflexivity. cbn [bind]. apply IH. eapply idle_models; [eapply train_quietly_exact; eauto|exact ID].
Qed.

(** A call that flushes: the end, then training of every registered region. *)
Lemma flush_steps os h K context now K' vs : kinv P c files flush os h K -> Forall (fun e => kokkos_op (fst e)) h -> kstep P hash K (KEnd context now) = Ok (K', vs) ->
  flushes flush os (KEnd context now) -> cf_single_model c = 0 ->
  exists r w1, step P (k_world K) (OpEnd r (Some (r, Sync)) now None) = Ok (w1, Done) /\ idle w1 /\
    each_region (fun w r => train_quietly P w r 0) w1 (map snd (w_registry w1)) = Ok (k_world K') /\
    (let h1 := h ++ [(OpEnd r (Some (r, Sync)) now None, Done)] in
     run P (start_world c files) (map fst h1) = Ok (w1, map snd h1) /\ forallb explicit (map fst h1) = true /\ Forall (fun e => kokkos_op (fst e)) h1).
Proof.
  intros I KO E [OP DUE] S. destruct (kstep_inv P hash c files flush _ _ _ _ _ _ I E) as (l & PF & I'). cbn in PF. destruct PF as [_ PF].
  destruct (open_problem os context) as [ids|] eqn:OPE; [|congruence]. destruct PF as (r & PL & ->).
  assert (EN : ends (os ++ [KEnd context now]) = ends os + 1) by (rewrite ends_snoc, OPE; reflexivity). rewrite EN, DUE in I'. cbn [Z.eqb] in I'.
  assert (R := ki_run _ _ _ _ _ _ _ I'). rewrite map_app in R. destruct (run_app_inv P _ _ _ _ _ R) as (wa & xa & xb & RA & RB & EQ).
  rewrite map_app in EQ. assert (RA' := ki_run _ _ _ _ _ _ _ I). rewrite RA' in RA. inversion RA; subst wa xa. clear RA. apply app_inv_head in EQ. subst xb.
  cbn [map fst snd run] in RB. apply bind_inv in RB. destruct RB as ([w1 x1] & E1 & RB). apply bind_inv in RB. destruct RB as ([w2 xs2] & E2 & RB).
  inversion RB; subst x1 xs2 w2. clear RB. apply bind_inv in E2. destruct E2 as ([w3 x3] & E2 & E3). cbn in E3. inversion E3; subst w3 x3. clear E3.
  set (h1 := h ++ [(OpEnd r (Some (r, Sync)) now None, Done)]).
  assert (R1 : run P (start_world c files) (map fst h1) = Ok (w1, map snd h1)) by (eapply history_snoc; eauto).
  assert (X1 : forallb explicit (map fst h1) = true) by (unfold h1; rewrite map_app, forallb_app, (ki_explicit _ _ _ _ _ _ _ I); reflexivity).
  assert (K1 : Forall (fun e => kokkos_op (fst e)) h1) by (unfold h1; apply Forall_app; split; [exact KO|repeat constructor]).
  assert (ID : idle w1) by exact (none_pending _ _ R1 X1 K1).
  exists r, w1. split; [exact E1|]. split; [exact ID|]. split; [|auto].
  destruct (inv_run P (start_world c files) eq_refl eq_refl eq_refl _ _ _ X1 R1) as (log & J). assert (C := i_config _ _ _ _ _ J). cbn in C.
  cbn [step] in E2. apply bind_inv in E2. destruct E2 as (w3 & E2 & EQ). inversion EQ; subst w3. clear EQ. unfold apollo_train, train_all_by, train_regions_by in E2.
  destruct (truthy (cf_collective _)); [discriminate|]. rewrite (same_config_field cf_single_model _ _ (fun _ => eq_refl) C), S in E2. cbn [truthy Z.eqb negb] in E2.
  rewrite each_idle in E2 by exact ID. exact E2.
Qed.

(** The end alone trains nothing when the periods are off. *)
Lemma end_quiet h w r now w1 : run P (start_world c files) (map fst h) = Ok (w, map snd h) -> forallb explicit (map fst h) = true ->
  step P w (OpEnd r (Some (r, Sync)) now None) = Ok (w1, Done) ->
  (let h1 := h ++ [(OpEnd r (Some (r, Sync)) now None, Done)] in
     run P (start_world c files) (map fst h1) = Ok (w1, map snd h1) /\ forallb explicit (map fst h1) = true /\ Forall (fun e => kokkos_op (fst e)) h1) ->
  no_periods c -> w_registry w1 = w_registry w /\
  forall i R, nth_error (w_regions w) i = Some R -> exists R1, nth_error (w_regions w1) i = Some R1 /\ r_model R1 = r_model R.
Proof.
  intros H EX ST (R1 & X1 & K1) [N1 N2]. destruct (inv_run P (start_world c files) eq_refl eq_refl eq_refl _ _ _ EX H) as (log & J). assert (C := i_config _ _ _ _ _ J). cbn in C.
  assert (ND := proj1 (registry_nodup _ (i_reg _ _ _ _ _ J))).
  assert (RG : w_registry w1 = w_registry w).
  { cbn in ST. apply bind_inv in ST. destruct ST as (R0 & ER0 & ST). apply bind_inv in ST. destruct ST as (v & HE & E). inversion E; subst v. clear E.
    unfold end_context in HE. apply bind_inv in HE. destruct HE as (cx & EC & HE). cbn [is_sync_of] in HE. rewrite Nat.eqb_refl in HE.
    apply bind_inv in HE. destruct HE as (d & ED & HE). destruct d as [x|]; [|discriminate].
    apply get_region_ok in ER0. destruct ER0 as [ER0 A0].
    unfold set_context in HE. cbn [fst snd] in HE. rewrite ER0 in HE.
    destruct (collect_auto P _ _ _ _ _ HE ND) as (R & R' & ER & ER' & E1 & E2 & L & X). exact E1. }
  split; [exact RG|]. intros i Ri Ei.
  destruct (end_trains P c files _ _ _ _ _ _ _ _ H EX ST) as (R & R' & ER & ER' & L & X). destruct (X _ _ Ei) as (Ri' & Ei' & _ & (_ & _ & _ & _ & AT)).
  exists Ri'. split; [exact Ei'|]. apply AT.
  - unfold global_due. assert (G : cf_global_period (w_config w) = 0).
    { destruct C as [_ [C|C]]; rewrite C; [exact N1|reflexivity]. }
    rewrite G. intros [A _]. congruence.
  - unfold region_due. rewrite (same_config_field cf_region_period _ _ (fun _ => eq_refl) C), N2. unfold enough. rewrite (no_minimum _ _ R1 X1 K1 _ _ ER'). intros [[A _]|[A _]]; [congruence|lia].
Qed.

(** Training of a problem by the connector. *)
Lemma flush_trains os K vss context now K' vs : krun P hash (started c files flush) os = Ok (K, vss) -> kstep P hash K (KEnd context now) = Ok (K', vs) ->
  flushes flush os (KEnd context now) -> cf_single_model c = 0 -> no_periods c ->
  List.length (w_regions (k_world K')) = List.length (w_regions (k_world K)) /\
  forall i R, nth_error (w_regions (k_world K)) i = Some R -> exists R', nth_error (w_regions (k_world K')) i = Some R' /\
    (first_named (region_names (k_world K)) (r_name R) i /\ m_trainable (r_model R) = true -> trained_with P (r_model R) (r_dataset R') (r_model R')) /\
    (~ (first_named (region_names (k_world K)) (r_name R) i /\ m_trainable (r_model R) = true) -> r_model R' = r_model R).
Proof.
  intros H E FL S NP. destruct (krun_kind _ _ _ H) as (h & I & KO). destruct (flush_steps _ _ _ _ _ _ _ I KO E FL S) as (r & w1 & E1 & ID & ER & R1).
  destruct (end_quiet _ _ _ _ _ (ki_run _ _ _ _ _ _ _ I) (ki_explicit _ _ _ _ _ _ _ I) E1 R1 NP) as [RG EQ].
  destruct (inv_run P (start_world c files) eq_refl eq_refl eq_refl _ _ _ (ki_explicit _ _ _ _ _ _ _ I) (ki_run _ _ _ _ _ _ _ I)) as (log & J).
  assert (ND := proj1 (registry_nodup _ (i_reg _ _ _ _ _ J))). rewrite RG in ER.
  assert (X := each_region_exact P (fun w r => train_quietly P w r 0) _ (fun w r w1 E => ex_intro _ _ E) ND _ _ ER). destruct X as (G & L & X).
  assert (L1 : List.length (w_regions w1) = List.length (w_regions (k_world K))).
  { destruct (end_trains P c files _ _ _ _ _ _ _ _ (ki_run _ _ _ _ _ _ _ I) (ki_explicit _ _ _ _ _ _ _ I) E1) as (? & ? & _ & _ & L0 & _). exact L0. }
  split; [congruence|]. intros i R Ei. destruct (EQ _ _ Ei) as (Ri & Ei1 & EM). destruct (X _ _ Ei1) as (m & Em & Q). exists (with_model Ri m). split; [exact Em|].
  cbn [r_dataset r_model with_model]. rewrite EM in Q.
  assert (RGI : mem i (map snd (w_registry (k_world K))) = true <-> first_named (region_names (k_world K)) (r_name R) i).
  { rewrite mem_in. destruct (i_reg _ _ _ _ _ J) as [_ IFF]. split.
    - intros IN. apply in_map_iff in IN. destruct IN as ([n i'] & EI & IN). cbn in EI. subst i'. apply IFF in IN. assert (Y := proj1 IN).
      unfold region_names in Y. rewrite nth_error_map, Ei in Y. cbn in Y. inversion Y; subst n. exact IN.
    - intros FN. apply IFF in FN. apply in_map_iff. exists (r_name R, i). auto. }
  split.
  - intros [A B]. apply RGI in A. rewrite A, B in Q. exact Q.
  - intros N. destruct (mem i (map snd (w_registry (k_world K)))) eqn:M; [|exact Q]. destruct (m_trainable (r_model R)) eqn:T; [|exact Q].
    exfalso. apply N. split; [apply RGI; reflexivity|reflexivity].
Qed.
End Platform.
