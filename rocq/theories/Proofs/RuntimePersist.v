(** Lemmas on the runtime: data sets kept between runs. *)
From Coq Require Import ZArith Bool Ascii String Lia List.
From Verif Require Import Model.Base Model.Decimal Model.Float Model.DatasetM Model.ParserM Model.DatasetIO Model.ModelStringM Model.PolicyModelsM Model.ConfigM Model.RuntimeM
  Spec.ModelStringSpec Spec.DatasetSpec Spec.DatasetClient Spec.DecimalSpec Spec.DatasetFileSpec Spec.RuntimeSpec
  Proofs.TreeFacts Proofs.MapFacts Proofs.DatasetFacts Proofs.LoadFacts Proofs.DatasetFileProps Proofs.DatasetFileDefects Proofs.DatasetFileTheorems Proofs.ModelStringFacts Proofs.RuntimeFacts Proofs.RuntimeRegistry
  Proofs.RuntimeFiles Proofs.RuntimeSettled Proofs.RuntimeNames Proofs.RuntimeData Proofs.SafeModels Proofs.SafeWorld Spec.SafeClient Proofs.SafeSteps.
Import ListNotations.
Open Scope Z_scope.

Lemma find_written path text f : file_find path (file_write path text f) = Some text.
Proof.
  induction f as [|[p s] f IH]; cbn.
  - rewrite (proj2 (bytes_eqb_eq _ _) eq_refl). reflexivity.
  - destruct (bytes_eqb path p) eqn:E; cbn; rewrite E; [reflexivity|exact IH].
Qed.

Lemma dataset_file_inj c a b : dataset_file c a = dataset_file c b -> a = b.
Proof. unfold dataset_file. intros H. do 4 apply app_inv_head in H. apply app_inv_tail in H. exact H. Qed.

(** Settings but for the global period. *)
Lemma same_file c c' nm : with_period c' 0 = with_period c 0 -> dataset_file c' nm = dataset_file c nm /\ cf_persistent c' = cf_persistent c.
Proof. intros H. split; [change (dataset_file (with_period c' 0) nm = dataset_file (with_period c 0) nm)|change (cf_persistent (with_period c' 0) = cf_persistent (with_period c 0))]; rewrite H; reflexivity. Qed.

(** Names, data and pending executions stay; so do the files. *)
Definition still (w w' : world) : Prop := w_config w' = w_config w /\ w_files w' = w_files w /\ List.length (w_regions w') = List.length (w_regions w) /\
  forall i R, nth_error (w_regions w) i = Some R -> exists R', nth_error (w_regions w') i = Some R' /\ r_name R' = r_name R /\ r_dataset R' = r_dataset R /\ r_pending R' = r_pending R.

Lemma still_refl w : still w w.
Proof. do 3 (split; [reflexivity|]). intros i R E. exists R. auto. Qed.
Lemma still_trans a b d : still a b -> still b d -> still a d.
Proof.
  intros (A1 & A2 & A4 & A3) (B1 & B2 & B4 & B3). do 3 (split; [congruence|]). intros i R E. destruct (A3 i R E) as (R1 & E1 & X1 & Y1 & Z1).
  destruct (B3 i R1 E1) as (R2 & E2 & X2 & Y2 & Z2). exists R2. split; [exact E2|]. split; [congruence|]. split; congruence.
Qed.
Lemma still_set_context w p x : still w (set_context w p x).
Proof.
  unfold set_context. destruct (nth_error (w_regions w) (fst p)) as [R0|] eqn:E0; [|apply still_refl].
  split; [destruct (snd p); reflexivity|]. split; [destruct (snd p); reflexivity|]. split; [destruct (snd p); cbn; apply set_nth_length|]. intros i R E. destruct (Nat.eq_dec i (fst p)) as [->|N].
  - assert (R = R0) by congruence. subst R. destruct (snd p); cbn [set_region w_regions]; rewrite (nth_set_nth_eq _ _ _ _ E0); eexists; split; try reflexivity; auto.
  - exists R. split; [|auto]. destruct (snd p); cbn [set_region w_regions]; rewrite nth_set_nth_neq by congruence; exact E.
Qed.
Lemma still_complete w e : still w (complete w e).
Proof.
  unfold complete. destruct (get_context w (fst e)) as [x| | | |]; try apply still_refl. destruct (c_timer x) as [b|b o]; try apply still_refl.
  destruct b, o; first [apply still_set_context|apply still_refl].
Qed.
Lemma still_completes es : forall w, still w (fold_left complete es w).
Proof. induction es as [|e es IH]; intros w; [apply still_refl|]. cbn. eapply still_trans; [apply still_complete|apply IH]. Qed.

Section Persist.
Variable P : platform.

(** Destroying a region writes its data, those collected from pending executions included. *)
Lemma destroy_saves w r waits w' : destroy_region P w r waits = Ok w' -> cf_persistent (w_config w) <> 0 ->
  exists R', nth_error (w_regions w') r = Some R' /\ file_find (dataset_file (w_config w) (r_name R')) (w_files w') = Some (ds_store (r_dataset R')).
Proof.
  unfold destroy_region. intros H PE. apply bind_inv in H. destruct H as (w1 & E & H). apply bind_inv in H. destruct H as (R & G & H).
  assert (WR := wrote_drain P _ _ _ _ E). destruct WR as (W1 & _). apply get_region_ok in G. destruct G as [G _].
  assert (W2 : with_period (w_config w1) 0 = with_period (w_config w) 0) by (rewrite W1; destruct w as [[]]; reflexivity).
  destruct (same_file _ _ (r_name R) W2) as [F1 F2]. rewrite F2, (proj2 (truthy_nonzero _) PE) in H. inversion H; subst w'. exists (with_alive R false).
  split; [cbn; rewrite (nth_set_nth_eq _ _ _ _ G); reflexivity|]. cbn. rewrite F1. apply find_written.
Qed.

Definition quiet (w : world) : Prop := forall i R, nth_error (w_regions w) i = Some R -> r_pending R = [].

Lemma destroy_quiet w r waits w' R : destroy_region P w r waits = Ok w' -> cf_persistent (w_config w) <> 0 -> quiet w -> nth_error (w_regions w) r = Some R ->
  quiet w' /\ with_period (w_config w') 0 = with_period (w_config w) 0 /\
  w_files w' = file_write (dataset_file (w_config w) (r_name R)) (ds_store (r_dataset R)) (w_files w) /\
  forall i Ri, nth_error (w_regions w) i = Some Ri -> exists Ri', nth_error (w_regions w') i = Some Ri' /\ r_name Ri' = r_name Ri /\ r_dataset Ri' = r_dataset Ri.
Proof.
  unfold destroy_region. intros H PE Q E. set (v := disable_global_period w) in *. apply bind_inv in H. destruct H as (w1 & D & H).
  assert (EV : nth_error (w_regions v) r = Some R) by exact E.
  assert (D' : w1 = fold_left complete (List.concat waits) v).
  { destruct waits; cbn [drain] in D; apply bind_inv in D; destruct D as (R0 & G0 & D); apply get_region_ok in G0; destruct G0 as [G0 _];
      assert (R0 = R) by congruence; subst R0; rewrite (Q _ _ E) in D; inversion D; reflexivity. }
  assert (S : still v w1) by (subst w1; apply still_completes). clear D D'. destruct S as (S1 & S2 & S4 & S3). apply bind_inv in H. destruct H as (R1 & G1 & H).
  apply get_region_ok in G1. destruct G1 as [G1 _]. destruct (S3 r R EV) as (R1' & E1' & N1 & D1 & P1). assert (R1' = R1) by congruence. subst R1'.
  assert (W2 : with_period (w_config w1) 0 = with_period (w_config w) 0) by (rewrite S1; subst v; destruct w as [[]]; reflexivity).
  destruct (same_file _ _ (r_name R) W2) as [F1 F2]. rewrite F2, (proj2 (truthy_nonzero _) PE) in H. inversion H; subst w'. clear H.
  assert (BK : forall i Ri, nth_error (w_regions w) i = Some Ri -> exists Ri', nth_error (set_nth (w_regions w1) r (with_alive R1 false)) i = Some Ri' /\ r_name Ri' = r_name Ri /\ r_dataset Ri' = r_dataset Ri /\ r_pending Ri' = r_pending Ri).
  { intros i Ri Ei. destruct (S3 i Ri Ei) as (Ri' & Ei' & A1 & A2 & A3). destruct (Nat.eq_dec i r) as [->|NE].
    - rewrite (nth_set_nth_eq _ _ _ _ Ei'). assert (Ri' = R1) by congruence. subst Ri'. exists (with_alive R1 false). auto.
    - rewrite nth_set_nth_neq by congruence. exists Ri'. auto. }
  split; [|split; [|split]].
  - intros i Ri' Ei'. cbn in Ei'. assert (L : (i < List.length (w_regions w))%nat).
    { assert (X : nth_error (set_nth (w_regions w1) r (with_alive R1 false)) i <> None) by congruence. apply nth_error_Some in X. rewrite set_nth_length, S4 in X. exact X. }
    apply nth_error_Some in L. destruct (nth_error (w_regions w) i) as [Ri|] eqn:Ei; [|contradiction]. destruct (BK i Ri Ei) as (R2 & E2 & _ & _ & PP).
    assert (R2 = Ri') by congruence. subst R2. rewrite PP. exact (Q i Ri Ei).
  - exact W2.
  - cbn. rewrite N1, D1, F1, S2. reflexivity.
  - intros i Ri Ei. destruct (BK i Ri Ei) as (Ri' & X & Y & Z & _). exists Ri'. auto.
Qed.

Lemma destroy_all_saves rs : forall w waits w', destroy_all P w rs waits = Ok w' -> cf_persistent (w_config w) <> 0 -> quiet w ->
  (forall i j Ri Rj, In i rs -> In j rs -> nth_error (w_regions w) i = Some Ri -> nth_error (w_regions w) j = Some Rj -> r_name Ri = r_name Rj -> i = j) -> NoDup rs ->
  (forall i, In i rs -> exists R, nth_error (w_regions w) i = Some R) ->
  (forall path, (forall i R, In i rs -> nth_error (w_regions w) i = Some R -> path <> dataset_file (w_config w) (r_name R)) -> file_find path (w_files w') = file_find path (w_files w)) /\
  forall i R, In i rs -> nth_error (w_regions w) i = Some R -> file_find (dataset_file (w_config w) (r_name R)) (w_files w') = Some (ds_store (r_dataset R)).
Proof.
  induction rs as [|r rs IH]; intros w waits w' H PE Q U ND EX; cbn [destroy_all] in H.
  - inversion H; subst. split; [reflexivity|intros i R []].
  - apply bind_inv in H. destruct H as (w1 & D & H). destruct (EX r (or_introl eq_refl)) as (R & E). destruct (destroy_quiet _ _ _ _ _ D PE Q E) as (Q1 & C1 & F1 & B1).
    inversion ND as [|? ? NI ND']; subst.
    assert (SF : forall nm, dataset_file (w_config w1) nm = dataset_file (w_config w) nm) by (intros nm; apply (proj1 (same_file _ _ nm C1))).
    assert (BK : forall i Ri', In i rs -> nth_error (w_regions w1) i = Some Ri' -> exists Ri, nth_error (w_regions w) i = Some Ri /\ r_name Ri' = r_name Ri /\ r_dataset Ri' = r_dataset Ri).
    { intros i Ri' Ii Ei'. destruct (EX i (or_intror Ii)) as (Ri & Ei). destruct (B1 i Ri Ei) as (R2 & E2 & A1 & A2). assert (R2 = Ri') by congruence. subst R2. eauto. }
    destruct (IH w1 waits w' H) as (K1 & K2); [rewrite (proj2 (same_file _ _ [] C1)); exact PE|exact Q1| |exact ND'| |].
    + intros i j Ri Rj Ii Ij Ei Ej EN. destruct (BK i Ri Ii Ei) as (R1 & X1 & Y1 & _), (BK j Rj Ij Ej) as (R2 & X2 & Y2 & _).
      apply (U i j R1 R2); [right; exact Ii|right; exact Ij|exact X1|exact X2|congruence].
    + intros i Ii. destruct (EX i (or_intror Ii)) as (Ri & Ei). destruct (B1 i Ri Ei) as (Ri' & E' & _). eauto.
    + split.
      * intros path N. rewrite K1, F1.
        -- apply find_write_other. apply (N r R); [left; reflexivity|exact E].
        -- intros i Ri' Ii Ei'. destruct (BK i Ri' Ii Ei') as (Ri & Ei & EN & _). rewrite EN, SF. apply (N i Ri); [right; exact Ii|exact Ei].
      * intros i Ri [<-|Ii] Ei.
        -- assert (Ri = R) by congruence. subst Ri. rewrite K1, F1; [apply find_written|]. intros j Rj' Ij Ej' X. rewrite SF in X. apply dataset_file_inj in X.
           destruct (BK j Rj' Ij Ej') as (Rj & Ej & EN & _). assert (r = j) by (apply (U r j R Rj); [left; reflexivity|right; exact Ij|exact E|exact Ej|congruence]). subst j. contradiction.
        -- destruct (B1 i Ri Ei) as (Ri' & Ei' & EN & ED). rewrite <- EN, <- ED, <- SF. apply (K2 i Ri' Ii Ei').
Qed.

Lemma names_run os : forall w w' xs, names_ok w -> run P w os = Ok (w', xs) -> names_ok w'.
Proof.
  induction os as [|o os IH]; intros w w' xs N H; cbn in H; [inversion H; subst; exact N|]. apply bind_inv in H. destruct H as ([w1 x] & E & H).
  apply bind_inv in H. destruct H as ([w2 ys] & E2 & H). inversion H; subst. apply (IH w1 w' ys); [|exact E2]. exact (proj1 (names_step _ _ _ _ _ N E)).
Qed.

Lemma start_names c files : names_ok (start_world c files).
Proof. split; [|constructor]. split; [constructor|]. intros n r. split; [intros []|]. intros [X _]. destruct r; discriminate X. Qed.

Lemma saved c files os w xs waits w' x nm i R : run P (start_world c files) os = Ok (w, xs) -> cf_persistent c <> 0 -> (forall r, pending_of w r = []) ->
  step P w (OpShutdown waits) = Ok (w', x) -> first_named (region_names w) nm i -> nth_error (w_regions w) i = Some R ->
  file_find (dataset_file c nm) (w_files w') = Some (ds_store (r_dataset R)).
Proof.
  intros H PE Q S FN E. assert (N := names_run _ _ _ _ (start_names c files) H). destruct N as [RG _]. assert (WR := own_run P _ _ _ _ H). destruct WR as (CF & _).
  cbn [w_config start_world] in CF. destruct (same_file _ _ nm CF) as [F1 F2].
  assert (EN : r_name R = nm) by (destruct FN as [FN _]; unfold region_names in FN; rewrite nth_error_map, E in FN; cbn in FN; congruence).
  assert (II : In i (map snd (w_registry w))) by (apply (in_map snd _ (nm, i)); apply RG; exact FN).
  assert (QW : quiet w) by (intros j Rj Ej; specialize (Q j); unfold pending_of in Q; rewrite Ej in Q; exact Q).
  cbn [step] in S. apply bind_inv in S. destruct S as (w1 & S & X). inversion X; subst w1. clear X. unfold shutdown in S. apply bind_inv in S. destruct S as (u & EU & S).
  assert (HU : w_config u = w_config w /\ w_regions u = w_regions w).
  { destruct (truthy _); [|inversion EU; subst; auto]. apply bind_inv in EU. destruct EU as (s & _ & EU). inversion EU; subst. auto. }
  destruct HU as [U1 U2]. rewrite <- F1, <- U1, <- EN. rewrite <- U2 in E. refine (proj2 (destroy_all_saves _ u waits w' S _ _ _ _ _) i R II E).
  - rewrite U1, F2. exact PE.
  - intros j Rj Ej. rewrite U2 in Ej. exact (QW j Rj Ej).
  - rewrite U2. intros a b Ra Rb Ia Ib Ea Eb EQ. apply in_map_iff in Ia. destruct Ia as ([na a'] & Ea' & Ia). apply in_map_iff in Ib. destruct Ib as ([nb b'] & Eb' & Ib).
    cbn in Ea', Eb'. subst a' b'. apply RG in Ia. apply RG in Ib. destruct Ia as [A1 A2], Ib as [B1 B2]. unfold region_names in A1, B1. rewrite nth_error_map in A1, B1.
    rewrite Ea in A1. rewrite Eb in B1. cbn in A1, B1. destruct (Nat.lt_trichotomy a b) as [L|[L|L]]; [|exact L|].
    + exfalso. apply (B2 a L). unfold region_names. rewrite nth_error_map, Ea. cbn. congruence.
    + exfalso. apply (A2 b L). unfold region_names. rewrite nth_error_map, Eb. cbn. congruence.
  - apply (registry_nodup w RG).
  - intros j Ij. rewrite U2. apply in_map_iff in Ij. destruct Ij as ([nj j'] & X & Ij). cbn in X. subst j'. apply RG in Ij. destruct Ij as [A1 _]. unfold region_names in A1.
    rewrite nth_error_map in A1. destruct (nth_error (w_regions w) j) as [Rj|] eqn:X; [eauto|discriminate A1].
Qed.

(** Loading. *)
Lemma new_region_loads w nf nm np mt info yaml init w' r d : cf_persistent (w_config w) <> 0 ->
  file_find (dataset_file (w_config w) (region_name nm)) (w_files w) = Some d -> new_region P w nf nm np mt info yaml init = Ok (w', r) ->
  (forall name ps, parse_policy_model (model_string (w_config w) info) = Ok (name, ps) -> name <> $"DatasetMap" /\ param_find ($"load-dataset") ps = None) ->
  exists d' rest R', ds_load [] d = Ok (d', rest) /\ nth_error (w_regions w') r = Some R' /\ r_dataset R' = d'.
Proof.
  intros PE FF H NL. unfold new_region in H. change (match info with [] => cf_policy_model (w_config w) | _ => info end) with (model_string (w_config w) info) in H.
  apply bind_inv in H. destruct H as ([mn ps] & EP & H). specialize (NL _ _ EP). apply bind_inv in H. destruct H as ([[mn' ps'] info'] & ER & H).
  assert (NL' : mn' <> $"DatasetMap" /\ param_find ($"load-dataset") ps' = None).
  { unfold resolve_static_region in ER. destruct (bytes_eqb mn ($"StaticRegion")); [|inversion ER; subst; exact NL].
    destruct (param_find _ ps) as [pol|]; [|discriminate ER]. inversion ER; subst. split; [discriminate|reflexivity]. }
  clear NL EP ER. destruct NL' as [ND NL]. apply bind_inv in H. destruct H as (m & _ & H). apply bind_inv in H. destruct H as (m' & _ & H).
  set (R0 := mkRegion _ _ _ _ _ _ _ _ _ _ _ _ _ _ _) in H. set (w1 := mkWorld _ _ _ _ _ _) in H. set (k := List.length (w_regions w)) in H.
  assert (E1 : nth_error (w_regions w1) k = Some R0) by (cbn; rewrite nth_error_app2, Nat.sub_diag by lia; reflexivity).
  apply bind_inv in H. destruct H as (w2 & LP & H). apply bind_inv in H. destruct H as (w3 & LT & H). apply bind_inv in H. destruct H as (w4 & LO & H).
  apply bind_inv in H. destruct H as (w5 & LM & H). apply bind_inv in H. destruct H as (w6 & TC & H). inversion H; subst w' r. clear H. cbn [w_regions].
  unfold load_persistent in LP. cbn [w_config w_files w1] in LP. rewrite (proj2 (truthy_nonzero _) PE), FF in LP. apply bind_inv in LP. destruct LP as (wa & LD & AT).
  unfold load_dataset in LD. unfold get_region in LD. rewrite E1 in LD. cbn [bind r_alive R0] in LD. apply bind_inv in LD. destruct LD as ([d' rest] & DL & LD). cbn [r_dataset R0] in DL.
  inversion LD; subst wa. clear LD. exists d', rest.
  apply auto_train_training in AT. destruct AT as [_ AT]. cbn [set_region w_regions] in AT.
  assert (E2 : exists R2, nth_error (w_regions w2) k = Some R2 /\ r_dataset R2 = d').
  { assert (X : nth_error (set_nth (w_regions w1) k (with_dataset R0 d')) k = Some (with_dataset R0 d')) by (eapply nth_set_nth_eq; exact E1).
    destruct (Forall2_nth _ _ _ AT _ _ X) as (R2 & E2 & (m2 & -> & _)). eauto. }
  clear AT. destruct E2 as (R2 & E2 & D2). unfold load_and_train in LT. rewrite NL in LT. inversion LT; subst w3.
  assert (E4 : exists R4, nth_error (w_regions w4) k = Some R4 /\ r_dataset R4 = d').
  { unfold load_optimal in LO. destruct (bytes_eqb _ _); [|inversion LO; subst; eauto]. destruct (file_find (optimal_file (w_rank w2) (region_name nm)) (w_files w2)); [|discriminate LO]. apply bind_inv in LO. destruct LO as (R3 & G3 & LO).
    apply get_region_ok in G3. destruct G3 as [G3 _]. assert (R3 = R2) by congruence. subst R3. apply bind_inv in LO. destruct LO as (m4 & _ & LO). inversion LO; subst w4.
    exists (with_model R2 m4). split; [cbn; exact (nth_set_nth_eq _ _ _ _ E2)|exact D2]. }
  clear LO. destruct E4 as (R4 & E4 & D4). unfold load_dataset_map in LM. assert (X : bytes_eqb mn' ($"DatasetMap") = false) by (apply bytes_eqb_neq; exact ND). rewrite X in LM. inversion LM; subst w5.
  destruct (truthy _).
  - apply bind_inv in TC. destruct TC as (R5 & G5 & TC). apply get_region_ok in G5. destruct G5 as [G5 _]. assert (R5 = R4) by congruence. subst R5. inversion TC; subst w6.
    eexists. split; [exact DL|]. split; [cbn; exact (nth_set_nth_eq _ _ _ _ E4)|exact D4].
  - inversion TC; subst w6. exists R4. auto.
Qed.

(** The steps before and after the loading, for models that read no file. *)
Lemma new_region_plain w nf nm np mt info init : 0 <= nf -> 1 <= np <= 1024 -> model_string_ok (model_string (w_config w) info) -> cf_persistent (w_config w) <> 0 ->
  exists R0, r_alive R0 = true /\ r_dataset R0 = [] /\ r_min_training R0 = mt /\ r_idx R0 = 0 /\
  let k := List.length (w_regions w) in
  let w1 := mkWorld (w_config w) (w_rank w) (w_regions w ++ [R0]) (w_registry w) (w_executions w) (w_files w) in
  new_region P w nf nm np mt info [] init =
  let* w2 := load_persistent P w1 k (region_name nm) in
  let* w3 := if truthy (cf_trace_csv (w_config w2)) then let* R := get_region w2 k in Ok (set_region w2 k (with_trace R (r_trace R ++ trace_header nf))) else Ok w2 in
  Ok (mkWorld (w_config w3) (w_rank w3) (w_regions w3) (register (region_name nm) k (w_registry w3)) (w_executions w3) (w_files w3), k).
Proof.
  intros Hf Hn (mn & items & EI & MO) PE. destruct (name_facts mn (mo_name _ _ MO)) as (FN & NS & NO & ND).
  destruct (parse_gives_items mn items FN (mo_items _ _ MO) (mo_documented _ _ MO)) as (ps & EP & FV).
  destruct (create_fine P init mn items ps nf np FV MO Hf) as (m & EM & _); [lia|].
  assert (L1 := proj1 (FV _ _) (mo_load _ _ MO)). assert (L2 := proj1 (FV _ _) (mo_load_dataset _ _ MO)).
  exists (mkRegion true (region_name nm) nf np mt (model_text mn items) mn m [] 0 None (mkContext [] 0 0 (Clock None None)) [] [] []).
  do 4 (split; [reflexivity|]). intros k w1. unfold new_region. change (match info with [] => cf_policy_model (w_config w) | _ => info end) with (model_string (w_config w) info).
  rewrite EI, EP. cbn [bind]. unfold resolve_static_region. rewrite NS. cbn [bind]. rewrite EM. cbn [bind]. unfold load_models. cbn [bind]. rewrite L1. cbn [bind]. fold k. fold w1.
  destruct (load_persistent P w1 k (region_name nm)) as [w2| | | |]; cbn [bind]; try reflexivity. unfold load_and_train. rewrite L2. cbn [bind].
  unfold load_optimal. rewrite NO. cbn [bind]. unfold load_dataset_map. rewrite ND. reflexivity.
Qed.

Lemma saved_region_wf c files os w xs i R : run P (start_world c files) os = Ok (w, xs) -> nth_error (w_regions w) i = Some R -> wfd (r_dataset R).
Proof. intros H E. exact (wf_started P _ _ _ _ _ H i R E). Qed.
End Persist.

Lemma copies_insert d copies : wfd d -> Forall2 meas_copy (ds_to_vector d) copies -> exists d', insert_all [] copies = Ok d'.
Proof.
  intros W C. assert (NN : Forall no_nan_features copies).
  { rewrite to_vector_entry in C. clear - C W. destruct W as [K _]. remember (map entry_meas d) as l eqn:L.
    revert d K L. induction C; intros d K L; constructor.
    - destruct d as [|e d]; inversion L; subst. inversion K; subst. eapply meas_copy_no_nan; eauto. now apply no_nan_fok.
    - destruct d as [|e d]; inversion L; subst. inversion K; subst. eauto. }
  destruct (insert_all_spec copies [] wfd_nil NN) as (d' & E & _). eauto.
Qed.

Lemma reloaded P c files os w xs i R : run P (start_world c files) os = Ok (w, xs) -> nth_error (w_regions w) i = Some R ->
  ds_size (r_dataset R) <= 2147483648 ->
  Forall (fun m => (List.length (m_features m) <= 1)%nat /\ is_int (m_policy m) /\ meas_normal m) (ds_to_vector (r_dataset R)) ->
  exists copies d', Forall2 meas_copy (ds_to_vector (r_dataset R)) copies /\ insert_all [] copies = Ok d' /\
  forall P2 w2 nf nm np mt info yaml init, cf_persistent (w_config w2) <> 0 ->
    file_find (dataset_file (w_config w2) (firstn 63 (cstr nm))) (w_files w2) = Some (ds_store (r_dataset R)) ->
    (forall w3 r3, step P2 w2 (OpRegion nf nm np mt info yaml init) = Ok (w3, GotRegion r3) ->
       (forall name ps, parse_policy_model (model_string (w_config w2) info) = Ok (name, ps) -> name <> $"DatasetMap" /\ param_find ($"load-dataset") ps = None) ->
       exists R3, nth_error (w_regions w3) r3 = Some R3 /\ r_dataset R3 = d') /\
    (0 <= nf -> 1 <= np <= 1024 -> yaml = [] -> model_string_ok (model_string (w_config w2) info) ->
       cf_global_period (w_config w2) = 0 -> cf_region_period (w_config w2) = 0 -> mt <= 0 ->
       exists w3 r3, step P2 w2 (OpRegion nf nm np mt info yaml init) = Ok (w3, GotRegion r3)).
Proof.
  intros H E SZ F. assert (W := saved_region_wf _ _ _ _ _ _ _ _ H E). rewrite to_vector_entry in F. rewrite Forall_map in F.
  destruct (store_load (r_dataset R) [] SZ F) as (copies & C & L). destruct (copies_insert _ _ W C) as (d' & I). exists copies, d'. split; [exact C|]. split; [exact I|].
  rewrite I in L. cbn [bind] in L. intros P2 w2 nf nm np mt info yaml init PE FF. split.
  - intros w3 r3 S NL. cbn [step] in S. apply bind_inv in S. destruct S as ([wa k] & S & X). inversion X; subst. clear X.
    destruct (new_region_loads P2 _ _ _ _ _ _ _ _ _ _ _ PE FF S NL) as (d2 & rest & R3 & DL & E3 & D3). rewrite L in DL. inversion DL; subst. exists R3. auto.
  - intros Hf Hn -> MS G0 R0' MT. destruct (new_region_plain P2 w2 nf nm np mt info init Hf Hn MS PE) as (R0 & AL & D0 & M0 & _ & EQ). cbv zeta in EQ.
    set (k := List.length (w_regions w2)) in *. set (w1 := mkWorld _ _ (w_regions w2 ++ [R0]) _ _ _) in EQ.
    assert (E1 : nth_error (w_regions w1) k = Some R0) by (cbn; unfold k; rewrite nth_error_app2, Nat.sub_diag by lia; reflexivity).
    assert (LP : load_persistent P2 w1 k (region_name nm) = Ok (set_region w1 k (with_dataset R0 d'))).
    { unfold load_persistent. cbn [w_config w_files w1]. rewrite (proj2 (truthy_nonzero _) PE). unfold region_name. rewrite FF. unfold load_dataset, get_region. rewrite E1, AL. cbn [bind]. rewrite D0, L. cbn [bind].
      unfold auto_train, get_region. cbn [set_region w_regions w_config w1]. rewrite (nth_set_nth_eq _ _ _ _ E1). cbn [r_alive with_dataset]. rewrite AL. cbn [bind].
      destruct (negb _); [reflexivity|]. rewrite G0, R0'. cbn [truthy andb Z.eqb negb]. cbn [r_min_training with_dataset]. rewrite M0.
      destruct (0 <? mt) eqn:X; [lia|]. reflexivity. }
    cbn [step]. rewrite EQ, LP. cbn [bind]. destruct (truthy _); [|cbn [bind]; eauto].
    unfold get_region. cbn [set_region w_regions]. rewrite (nth_set_nth_eq _ _ _ _ E1). cbn [r_alive with_dataset]. rewrite AL. cbn [bind]. eauto.
Qed.

Lemma not_reloaded P c files os w xs i R : run P (start_world c files) os = Ok (w, xs) -> nth_error (w_regions w) i = Some R ->
  ds_size (r_dataset R) <= 2147483648 -> Forall (fun m => is_int (m_policy m)) (ds_to_vector (r_dataset R)) ->
  Exists (fun m => (2 <= List.length (m_features m))%nat) (ds_to_vector (r_dataset R)) ->
  forall P2 w2 nf nm np mt info yaml init, cf_persistent (w_config w2) <> 0 ->
    file_find (dataset_file (w_config w2) (firstn 63 (cstr nm))) (w_files w2) = Some (ds_store (r_dataset R)) ->
    (forall w3 x, step P2 w2 (OpRegion nf nm np mt info yaml init) <> Ok (w3, x)) /\
    (0 <= nf -> 1 <= np <= 1024 -> yaml = [] -> model_string_ok (model_string (w_config w2) info) -> Forall meas_normal (ds_to_vector (r_dataset R)) ->
       step P2 w2 (OpRegion nf nm np mt info yaml init) = Abort).
Proof.
  intros H E SZ IP EX. assert (W := saved_region_wf _ _ _ _ _ _ _ _ H E). assert (BAD : forall d0, ds_load d0 (ds_store (r_dataset R)) = Abort \/
    (ds_load d0 (ds_store (r_dataset R)) = Throw /\ Exists (fun m => ~ meas_normal m) (ds_to_vector (r_dataset R)))).
  { intros d0. rewrite to_vector_entry in *. rewrite Forall_map in IP. rewrite Exists_map in EX. rewrite Exists_map. apply ds_load_bad; auto. }
  intros P2 w2 nf nm np mt info yaml init PE FF. split.
  - intros w3 x S. cbn [step] in S. apply bind_inv in S. destruct S as ([wa k] & S & X). inversion X; subst. clear X. unfold new_region in S.
    apply bind_inv in S. destruct S as ([mn ps] & _ & S). apply bind_inv in S. destruct S as ([[mn' ps'] info'] & _ & S). apply bind_inv in S. destruct S as (m & _ & S).
    apply bind_inv in S. destruct S as (m' & _ & S). apply bind_inv in S. destruct S as (wb & LP & _). unfold load_persistent in LP. cbn [w_config w_files] in LP.
    rewrite (proj2 (truthy_nonzero _) PE) in LP. unfold region_name in LP. rewrite FF in LP. apply bind_inv in LP. destruct LP as (wc & LD & _). unfold load_dataset in LD.
    apply bind_inv in LD. destruct LD as (R1 & _ & LD). apply bind_inv in LD. destruct LD as ([d rest] & DL & _). destruct (BAD (r_dataset R1)) as [X|[X _]]; congruence.
  - intros Hf Hn -> MS NO. destruct (new_region_plain P2 w2 nf nm np mt info init Hf Hn MS PE) as (R0 & AL & D0 & _ & _ & EQ). cbv zeta in EQ.
    set (k := List.length (w_regions w2)) in *. set (w1 := mkWorld _ _ (w_regions w2 ++ [R0]) _ _ _) in EQ.
    assert (E1 : nth_error (w_regions w1) k = Some R0) by (cbn; unfold k; rewrite nth_error_app2, Nat.sub_diag by lia; reflexivity).
    cbn [step]. rewrite EQ. unfold load_persistent. cbn [w_config w_files w1]. rewrite (proj2 (truthy_nonzero _) PE). unfold region_name. rewrite FF. unfold load_dataset, get_region. rewrite E1, AL. cbn [bind].
    destruct (BAD (r_dataset R0)) as [X|[_ X]]; [rewrite X; reflexivity|]. exfalso. apply Exists_exists in X. destruct X as (m & Im & X). rewrite Forall_forall in NO. auto.
Qed.


Lemma destroyed_saves P w r waits w' x : step P w (OpDestroy r waits) = Ok (w', x) -> cf_persistent (w_config w) <> 0 ->
  exists R', nth_error (w_regions w') r = Some R' /\ file_find (dataset_file (w_config w) (r_name R')) (w_files w') = Some (ds_store (r_dataset R')).
Proof. cbn [step]. intros H. apply bind_inv in H. destruct H as (v & H & K). inversion K; subst. exact (destroy_saves P _ _ _ _ H). Qed.
