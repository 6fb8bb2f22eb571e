(** Lemmas on the runtime: the constructor of a region, begin(), getPolicyIndex(). *)
From Coq Require Import ZArith Bool Ascii String Lia List Permutation.
From Verif Require Import Model.Base Model.Float Model.Decimal Model.DatasetM Model.ParserM Model.DatasetIO
  Model.NetM Model.PolicyNetM Model.ModelStringM Model.PolicyModelsM Model.ConfigM Model.RuntimeM
  Spec.DatasetSpec Spec.DatasetClient Spec.RuntimeSpec
  Proofs.TreeFacts Proofs.RuntimeFacts Proofs.RuntimeCollect Proofs.RuntimeMoves Proofs.RuntimePending Proofs.RuntimeOps
  Proofs.RuntimeSettled.
Import ListNotations.
Open Scope Z_scope.

Section Platform.
Variable P : platform.

(** The members of a region nothing in its constructor changes once they are set. *)
Definition named_as (mn : bytes) (m : model) (t : bytes) (R : region) : Prop :=
  r_model_name R = mn /\ m_name (r_model R) = m_name m /\ r_trace R = t.
Definition blank (name : bytes) (nf np mt : Z) (R : region) : Prop :=
  r_alive R = true /\ r_name R = name /\ r_num_features R = nf /\ r_num_policies R = np /\ r_min_training R = mt /\
  r_idx R = 0 /\ r_current R = None /\ r_sync R = mkContext [] 0 0 (Clock None None) /\ r_heap R = [] /\ r_pending R = [].

(** [v] is [w] with one more region, and perhaps other models trained. *)
Definition grown (w : world) (B : region -> Prop) (v : world) : Prop :=
  same_globals w v /\ exists ws R, w_regions v = ws ++ [R] /\
    Forall2 (retrained P (auto_data (w_config w))) (w_regions w) ws /\ B R.

Lemma nth_last {A} (ws : list A) x n : List.length ws = n -> nth_error (ws ++ [x]) n = Some x.
Proof. intros <-. rewrite nth_error_app2 by lia. rewrite Nat.sub_diag. reflexivity. Qed.

Lemma set_nth_last {A} (ws : list A) x y n : List.length ws = n -> set_nth (ws ++ [x]) n y = ws ++ [y].
Proof. intros <-. induction ws; cbn; auto. f_equal. auto. Qed.

Lemma grown_get w B v R : grown w B v -> get_region v (List.length (w_regions w)) = Ok R -> B R /\ nth_error (w_regions v) (List.length (w_regions w)) = Some R.
Proof.
  intros (G & ws & R0 & E & F & HB) H. apply get_region_ok in H. destruct H as [H _].
  assert (L := Forall2_length' _ _ _ F). assert (H2 := H). rewrite E, nth_last in H by auto. inversion H; subst. auto.
Qed.

Lemma grown_set w B (B' : region -> Prop) v R' : grown w B v -> B' R' -> grown w B' (set_region v (List.length (w_regions w)) R').
Proof.
  intros (G & ws & R0 & E & F & HB) H'. split; [exact G|]. exists ws, R'. cbn.
  assert (L := Forall2_length' _ _ _ F). rewrite E, set_nth_last by auto. auto.
Qed.

Lemma grown_training w (B : region -> Prop) v v' : (forall R m, m_name m = m_name (r_model R) -> B R -> B (with_model R m)) -> grown w B v ->
  training P (auto_data (w_config w)) v v' -> grown w B v'.
Proof.
  intros HB (G & ws & R0 & E & F & H) [G' F']. split; [eapply same_globals_trans; eauto|].
  rewrite E in F'. apply Forall2_app_inv_l in F'. destruct F' as (ws' & l & F1 & F2 & E').
  inversion F2 as [|? R1 ? l' (m & -> & TB) F3]; subst. inversion F3; subst.
  exists ws', (with_model R0 m). split; auto. split; [|apply HB; auto; eapply trained_by_name; eauto]. eapply Forall2_trans; [apply retrained_trans|exact F|exact F1].
Qed.

Lemma grown_weaken w (B B' : region -> Prop) v : (forall R, B R -> B' R) -> grown w B v -> grown w B' v.
Proof. intros H (G & ws & R & E & F & HB). split; auto. exists ws, R. auto. Qed.

Lemma load_name m file m' : m_load m file = Ok m' -> m_name m' = m_name m.
Proof.
  destruct m; cbn; intros H; try (inversion H; subst; reflexivity).
  - destruct file; [apply bind_inv in H; destruct H as (q & _ & H)|]; inversion H; reflexivity.
  - destruct file; [apply bind_inv in H; destruct H as (q & _ & H)|]; inversion H; reflexivity.
  - destruct file; [apply bind_inv in H; destruct H as (q & _ & H)|]; inversion H; reflexivity.
Qed.

Lemma load_models_name w name yaml mn ps m m' : load_models w name yaml mn ps m = Ok m' -> m_name m' = m_name m.
Proof.
  unfold load_models. intros H. apply bind_inv in H. destruct H as (m1 & E & H).
  assert (N : m_name m1 = m_name m) by (destruct yaml; [inversion E; reflexivity|eapply load_name; eauto]).
  clear E. destruct (param_find _ _); [|inversion H; subst; auto]. destruct (file_find _ _); [|discriminate]. apply load_name in H. congruence.
Qed.

Lemma new_region_spec w nf nm np mt info yaml init w' r : new_region P w nf nm np mt info yaml init = Ok (w', r) ->
  r = List.length (w_regions w) /\
  exists v mn0 ps0 mn ps info' m0, parse_policy_model (match info with [] => cf_policy_model (w_config w) | _ => info end) = Ok (mn0, ps0) /\
    resolve_static_region (region_name nm) (match info with [] => cf_policy_model (w_config w) | _ => info end) mn0 ps0 = Ok (mn, ps, info') /\
    create_model P mn nf np ps init = Ok m0 /\
    grown w (fun R => blank (region_name nm) nf np mt R /\
      named_as mn m0 (if truthy (cf_trace_csv (w_config w)) then trace_header nf else []) R) v /\
    w_regions w' = w_regions v /\ w_config w' = w_config w /\ w_rank w' = w_rank w /\ w_executions w' = w_executions w /\
    w_registry w' = register (region_name nm) r (w_registry w).
Proof.
  unfold new_region. intros H.
  apply bind_inv in H. destruct H as ([mn ps] & E1 & H).
  apply bind_inv in H. destruct H as ([[mn2 ps2] info2] & E2 & H).
  apply bind_inv in H. destruct H as (m & E3 & H). apply bind_inv in H. destruct H as (m2 & E4 & H).
  assert (NM2 := load_models_name _ _ _ _ _ _ _ E4).
  set (n := List.length (w_regions w)) in *. set (B := fun R => blank (region_name nm) nf np mt R /\ named_as mn2 m [] R).
  match type of H with context [load_persistent P ?v _ _] => set (v0 := v) in * end.
  assert (BM : forall R m0, m_name m0 = m_name (r_model R) -> B R -> B (with_model R m0)).
  { intros R m0 N [X (Y1 & Y2 & Y3)]. split; [exact X|]. split; [exact Y1|]. split; [cbn; congruence|exact Y3]. }
  assert (BD : forall R d, B R -> B (with_dataset R d)) by (intros R m0 X; exact X).
  assert (BP : forall R, B R -> B (with_pending R [])).
  { intros R X. unfold B, blank, named_as in *. cbn. intuition. }
  assert (G0 : grown w B v0).
  { split; [repeat split|]. eexists (w_regions w), _. split; [reflexivity|]. split; [apply Forall2_refl, retrained_refl|].
    unfold B, blank, named_as; cbn; auto 20. }
  assert (LD : forall v text v', grown w B v -> load_dataset v n text = Ok v' -> grown w B v').
  { intros v text v' G E. unfold load_dataset in E. apply bind_inv in E. destruct E as (R & ER & E).
    apply bind_inv in E. destruct E as ([d ?] & _ & E). inversion E; subst. eapply grown_set; eauto. apply BD.
    eapply grown_get in ER; eauto. apply ER. }
  assert (cfg : forall v, grown w B v -> w_config v = w_config w) by (intros v [(X & _) _]; exact X).
  assert (AT : forall v v', grown w B v -> auto_train P v n = Ok v' -> grown w B v').
  { intros v v' G E. apply auto_train_training in E. rewrite (cfg v G) in E. eapply grown_training; eauto. }
  apply bind_inv in H. destruct H as (v1 & E5 & H).
  assert (G1 : grown w B v1).
  { unfold load_persistent in E5. destruct (truthy _); [|inversion E5; subst; auto].
    apply bind_inv in E5. destruct E5 as (v & E & E5). eapply AT; [|exact E5].
    destruct (file_find _ _); [eapply LD; eauto|inversion E; subst; auto]. }
  apply bind_inv in H. destruct H as (v2 & E6 & H).
  assert (G2 : grown w B v2).
  { unfold load_and_train in E6. destruct (param_find _ _); [|inversion E6; subst; auto].
    destruct (file_find _ _); [|discriminate]. apply bind_inv in E6. destruct E6 as (v & E & E6).
    assert (G := LD _ _ _ G1 E). apply bind_inv in E6. destruct E6 as (R & ER & E6).
    destruct (_ <=? _); [discriminate|]. destruct (grown_get _ _ _ _ G ER) as [BR NR].
    unfold region_train in E6. fold n in NR. rewrite ER in E6. cbn [bind] in E6. cbn [negb andb] in E6.
    destruct (negb (m_trainable (r_model R))) eqn:ET; [inversion E6; subst; auto|].
    apply bind_inv in E6. destruct E6 as (v3 & E7 & E6).
    unfold collect_pending in E7. rewrite ER in E7. cbn [bind] in E7.
    assert (PN : r_pending R = []) by apply BR. rewrite PN in E7. cbn in E7. rewrite ER in E7. cbn in E7. inversion E7; subst v3.
    assert (G3 : grown w B (set_region v n (with_pending R []))) by (eapply grown_set; eauto).
    eapply grown_training; [exact BM|exact G3|].
    eapply train_body_training; [exact E6|]. intros R3 ER3. destruct (grown_get _ _ _ _ G3 ER3) as [_ NR3].
    fold n in NR3. cbn in NR3. rewrite nth_set_nth, Nat.eqb_refl, NR in NR3. inversion NR3; subst R3.
    right. split; auto. apply negb_false_iff in ET. exact ET. }
  apply bind_inv in H. destruct H as (v3 & E7 & H).
  assert (G3 : grown w B v3).
  { unfold load_optimal in E7. destruct (bytes_eqb _ _); [|inversion E7; subst; auto].
    destruct (file_find _ _); [|discriminate]. apply bind_inv in E7. destruct E7 as (R & ER & E7).
    apply bind_inv in E7. destruct E7 as (m3 & EL & E7). inversion E7; subst. eapply grown_set; eauto. apply BM; [eapply load_name; eauto|].
    eapply grown_get in ER; eauto. apply ER. }
  apply bind_inv in H. destruct H as (v4 & E8 & H).
  assert (G4 : grown w B v4).
  { unfold load_dataset_map in E8. destruct (bytes_eqb _ _); [|inversion E8; subst; auto].
    destruct (file_find _ _); [|discriminate]. apply bind_inv in E8. destruct E8 as (v & E & E8).
    assert (G := LD _ _ _ G3 E). apply bind_inv in E8. destruct E8 as (R & ER & E8). destruct (_ <=? _); [discriminate|].
    apply bind_inv in E8. destruct E8 as (m3 & EL & E8). inversion E8; subst. eapply grown_set; eauto. apply BM; [eapply train_name; eauto|].
    eapply grown_get in ER; eauto. apply ER. }
  apply bind_inv in H. destruct H as (v5 & E9 & H).
  assert (G5 : grown w (fun R => blank (region_name nm) nf np mt R /\
      named_as mn2 m (if truthy (cf_trace_csv (w_config w)) then trace_header nf else []) R) v5).
  { rewrite (cfg _ G4) in E9. destruct (truthy (cf_trace_csv (w_config w))); [|inversion E9; subst; exact G4].
    apply bind_inv in E9. destruct E9 as (R & ER & E9).
    inversion E9; subst. eapply grown_set; eauto. eapply grown_get in ER; eauto. destruct ER as [[X (Y1 & Y2 & Y3)] _].
    split; [exact X|]. split; [exact Y1|]. split; [exact Y2|]. cbn. rewrite Y3. reflexivity. }
  inversion H; subst w' r. split; [reflexivity|]. exists v5, mn, ps, mn2, ps2, info2, m. split; auto. split; auto. split; auto. split; [exact G5|]. cbn. destruct G5 as [(X1 & X2 & X3 & X4) _].
  split; [reflexivity|]. split; [auto|]. split; [auto|]. split; [auto|]. rewrite X3. reflexivity.
Qed.

(** begin() *)
Lemma begin_context_spec w r async now w' p : begin_context w r async now = Ok (w', p) ->
  exists R, get_region w r = Ok R /\ p = (r, if async then Heap (List.length (r_heap R)) else Sync) /\
    same_globals w w' /\ List.length (w_regions w') = List.length (w_regions w) /\ (forall i, pending w' i = pending w i) /\
    (forall i Ri, nth_error (w_regions w) i = Some Ri -> exists Ri', nth_error (w_regions w') i = Some Ri' /\
      same_static Ri Ri' /\ r_alive Ri' = r_alive Ri /\ r_idx Ri' = (if Nat.eqb i r then r_idx Ri + 1 else r_idx Ri) /\
      r_dataset Ri' = r_dataset Ri /\ r_model Ri' = r_model Ri /\ r_current Ri' = (if Nat.eqb i r then Some p else r_current Ri) /\
      List.length (r_heap Ri') = (if Nat.eqb i r then if async then S (List.length (r_heap Ri)) else List.length (r_heap Ri) else List.length (r_heap Ri)) /\
      r_trace Ri' = r_trace Ri) /\
    (forall q, q <> p -> get_context w' q = get_context w q) /\
    get_context w' p = Ok (mkContext [] (if async then 0 else c_policy (r_sync R)) (r_idx R)
      (if async then Events false None else timer_start now (c_timer (r_sync R)))) /\
    r_idx R <> idx_max.
Proof.
  unfold begin_context. intros H. apply bind_inv in H. destruct H as (R & ER & H).
  assert (ER2 := ER). apply get_region_ok in ER2. destruct ER2 as [NR AR]. destruct async.
  - cbn [r_idx with_heap] in H. destruct (Z.eqb_spec (r_idx R) idx_max) as [|NI]; [discriminate|].
    apply bind_inv in H. destruct H as (c & EC & H). inversion H; subst w' p. clear H. exists R.
    split; [auto|]. split; [auto|].
    set (p := (r, Heap (List.length (r_heap R)))) in *.
    set (R1 := with_idx (with_current (with_heap R (r_heap R ++ [Some (mkContext [] 0 0 (Events false None))])) (Some p)) (r_idx R + 1)) in *.
    assert (EC2 : c = mkContext [] 0 0 (Events false None)).
    { revert EC. unfold get_context, p. cbn. rewrite nth_set_nth, Nat.eqb_refl, NR. cbn. rewrite nth_last by auto. congruence. }
    split; [eapply same_globals_trans; [|apply set_context_globals]; repeat split|].
    split; [rewrite set_context_length; cbn; apply set_nth_length|].
    split. { intros i. rewrite pending_set_context. unfold pending. cbn. rewrite nth_set_nth, NR.
      destruct (Nat.eqb_spec i r) as [->|N]; auto. rewrite NR. auto. }
    split. { intros i Ri Ei.
      destruct (set_context_regions (set_region w r R1) p (mkContext (c_features c) (c_policy c) (r_idx R) (timer_start now (c_timer c))) i
        (if Nat.eqb i r then R1 else Ri)) as (R' & E' & S & A & I & D & M & PE & CU & TR & L).
      - cbn. rewrite nth_set_nth, NR. destruct (Nat.eqb i r); auto.
      - congruence.
      - exists R'. split; [exact E'|]. destruct (Nat.eqb_spec i r) as [->|N].
        + assert (Ri = R) by congruence. subst Ri. repeat split; try apply S; auto.
          rewrite L. cbn. rewrite app_length. cbn. lia.
        + repeat split; try apply S; auto. }
    split. { intros q N. rewrite (get_set_context _ _ c) by auto. rewrite ctx_eqb_neq by auto.
      destruct q as [o x]. unfold get_context. cbn. rewrite nth_set_nth, NR. destruct (Nat.eqb_spec o r) as [->|N2]; auto. rewrite NR.
      destruct x as [|k]; cbn; auto. destruct (Nat.eq_dec k (List.length (r_heap R))) as [->|NK].
      - exfalso. apply N. reflexivity.
      - destruct (Nat.lt_ge_cases k (List.length (r_heap R))) as [KL|KG].
        + rewrite nth_error_app1 by auto. auto.
        + rewrite nth_error_app2 by auto. destruct (nth_error (r_heap R) k) eqn:EK.
          { exfalso. assert (k < List.length (r_heap R))%nat by (apply nth_error_Some; congruence). lia. }
          destruct (k - List.length (r_heap R))%nat as [|[|?]] eqn:EK2; try lia; reflexivity. }
    split; [|auto]. rewrite (get_set_context _ _ c) by auto. rewrite ctx_eqb_refl. subst c. reflexivity.
  - cbn [r_idx with_sync] in H. destruct (Z.eqb_spec (r_idx R) idx_max) as [|NI]; [discriminate|].
    apply bind_inv in H. destruct H as (c & EC & H). inversion H; subst w' p. clear H. exists R.
    split; [auto|]. split; [auto|].
    set (c1 := mkContext [] (c_policy (r_sync R)) (c_idx (r_sync R)) (c_timer (r_sync R))) in *.
    set (R1 := with_idx (with_current (with_sync R c1) (Some (r, Sync))) (r_idx R + 1)) in *.
    assert (EC2 : c = c1).
    { revert EC. unfold get_context. cbn. rewrite nth_set_nth, Nat.eqb_refl, NR. cbn. rewrite AR. congruence. }
    split; [eapply same_globals_trans; [|apply set_context_globals]; repeat split|].
    split; [rewrite set_context_length; cbn; apply set_nth_length|].
    split. { intros i. rewrite pending_set_context. unfold pending. cbn. rewrite nth_set_nth, NR.
      destruct (Nat.eqb_spec i r) as [->|N]; auto. rewrite NR. auto. }
    split. { intros i Ri Ei.
      destruct (set_context_regions (set_region w r R1) (r, Sync) (mkContext (c_features c) (c_policy c) (r_idx R) (timer_start now (c_timer c))) i
        (if Nat.eqb i r then R1 else Ri)) as (R' & E' & S & A & I & D & M & PE & CU & TR & L).
      - cbn. rewrite nth_set_nth, NR. destruct (Nat.eqb i r); auto.
      - congruence.
      - exists R'. split; [exact E'|]. destruct (Nat.eqb_spec i r) as [->|N].
        + assert (Ri = R) by congruence. subst Ri. repeat split; try apply S; auto.
        + repeat split; try apply S; auto. }
    split. { intros q N. rewrite (get_set_context _ _ c) by auto. rewrite ctx_eqb_neq by auto.
      destruct q as [o x]. unfold get_context. cbn. rewrite nth_set_nth, NR. destruct (Nat.eqb_spec o r) as [->|N2]; auto. rewrite NR.
      destruct x as [|k]; cbn; auto. exfalso. apply N. reflexivity. }
    split; [|auto]. rewrite (get_set_context _ _ c) by auto. rewrite ctx_eqb_refl. subst c. reflexivity.
Qed.

(** getPolicyIndex *)
Lemma get_index_trainable D m fs c m' : m_get_index P D m fs = Ok (c, m') -> m_trainable m' = m_trainable m.
Proof.
  destruct m; cbn; intros H.
  - inversion H; auto.
  - destruct (1 <? count); inversion H; auto.
  - destruct (count =? 0); inversion H; auto.
  - destruct queue; inversion H; auto.
  - destruct (negb _); [discriminate|]. destruct (map_find _ _ _) as [[? ?]|]; inversion H; auto.
  - destruct (negb trainable) eqn:E.
    + apply bind_inv in H. destruct H as (? & _ & H). inversion H; auto.
    + destruct explorer; [|discriminate]. apply bind_inv in H. destruct H as ([? ?] & _ & H). inversion H; auto.
  - destruct (negb trainable) eqn:E.
    + apply bind_inv in H. destruct H as (? & _ & H). inversion H; auto.
    + destruct explorer; [|discriminate]. apply bind_inv in H. destruct H as ([? ?] & _ & H). inversion H; auto.
  - apply bind_inv in H. destruct H as ([? N] & E & H). inversion H; subst. cbn. unfold pn_get_index in E.
    destruct (n_lt _ _ _); [inversion E; auto|]. apply bind_inv in E. destruct E as ([? N1] & E1 & E).
    apply bind_inv in E. destruct E as (? & _ & E). inversion E; subst. unfold lookup_probs in E1.
    apply bind_inv in E1. destruct E1 as (? & _ & E1). destruct (cache_find _ _); [inversion E1; auto|].
    apply bind_inv in E1. destruct E1 as (? & _ & E1). inversion E1; auto.
Qed.

Lemma get_index_name D m fs c m' : m_get_index P D m fs = Ok (c, m') -> m_name m' = m_name m.
Proof.
  destruct m; cbn; intros H.
  - inversion H; auto.
  - destruct (1 <? count); inversion H; auto.
  - destruct (count =? 0); inversion H; auto.
  - destruct queue; inversion H; auto.
  - destruct (negb _); [discriminate|]. destruct (map_find _ _ _) as [[? ?]|]; inversion H; auto.
  - destruct (negb trainable) eqn:E.
    + apply bind_inv in H. destruct H as (? & _ & H). inversion H; auto.
    + destruct explorer; [|discriminate]. apply bind_inv in H. destruct H as ([? ?] & _ & H). inversion H; auto.
  - destruct (negb trainable) eqn:E.
    + apply bind_inv in H. destruct H as (? & _ & H). inversion H; auto.
    + destruct explorer; [|discriminate]. apply bind_inv in H. destruct H as ([? ?] & _ & H). inversion H; auto.
  - apply bind_inv in H. destruct H as ([? N] & E & H). inversion H; subst. auto.
Qed.

Lemma set_model_touched w r R m : get_region w r = Ok R ->
  same_globals w (set_region w r (with_model R m)) /\
  List.length (w_regions (set_region w r (with_model R m))) = List.length (w_regions w) /\
  (forall i, pending (set_region w r (with_model R m)) i = pending w i) /\
  (forall i Ri, nth_error (w_regions w) i = Some Ri -> nth_error (w_regions (set_region w r (with_model R m))) i =
     Some (if Nat.eqb i r then with_model R m else Ri)) /\
  (forall q, get_context (set_region w r (with_model R m)) q = get_context w q).
Proof.
  intros E. apply get_region_ok in E. destruct E as [E A]. split; [repeat split|]. split; [apply set_nth_length|].
  split. { intros i. unfold pending. cbn. rewrite nth_set_nth, E. destruct (Nat.eqb_spec i r) as [->|N]; auto. rewrite E; auto. }
  split. { intros i Ri Ei. cbn. rewrite nth_set_nth, E. destruct (Nat.eqb_spec i r); auto. }
  intros q. unfold get_context. cbn. rewrite nth_set_nth, E. destruct (Nat.eqb_spec (fst q) r) as [->|N]; auto. rewrite E. auto.
Qed.

Lemma trace_policy_files w R c choice w' : trace_policy w R c choice = Ok w' -> exists f, w' = set_files w f.
Proof.
  unfold trace_policy. destruct (negb _).
  - intros H; inversion H; subst. exists (w_files w'). destruct w'; reflexivity.
  - intros H. apply bind_inv in H. destruct H as (s & _ & H). inversion H; subst. eexists. reflexivity.
Qed.

Lemma get_policy_index_spec w r p D w' choice : get_policy_index P w r p D = Ok (w', choice) ->
  exists R c m, get_region w r = Ok R /\ get_context w p = Ok c /\ m_get_index P D (r_model R) (c_features c) = Ok (choice, m) /\
    same_globals w w' /\ List.length (w_regions w') = List.length (w_regions w) /\ (forall i, pending w' i = pending w i) /\
    (forall i Ri, nth_error (w_regions w) i = Some Ri -> exists Ri', nth_error (w_regions w') i = Some Ri' /\
      same_static Ri Ri' /\ r_alive Ri' = r_alive Ri /\ r_idx Ri' = r_idx Ri /\ r_dataset Ri' = r_dataset Ri /\
      r_model Ri' = (if Nat.eqb i r then m else r_model Ri) /\ r_current Ri' = r_current Ri /\
      List.length (r_heap Ri') = List.length (r_heap Ri) /\ r_trace Ri' = r_trace Ri) /\
    (forall q, q <> p -> get_context w' q = get_context w q) /\
    get_context w' p = Ok (mkContext (c_features c) choice (c_idx c) (c_timer c)).
Proof.
  unfold get_policy_index. intros H. apply bind_inv in H. destruct H as (R & ER & H).
  apply bind_inv in H. destruct H as (c & EC & H). apply bind_inv in H. destruct H as ([ch m] & EM & H).
  apply bind_inv in H. destruct H as (w1 & E1 & H). apply bind_inv in H. destruct H as (c1 & EC1 & H).
  inversion H; subst w' ch. clear H. apply trace_policy_files in E1. destruct E1 as [f ->].
  exists R, c, m. split; [auto|]. split; [auto|]. split; [auto|].
  assert (ER1 : get_region (set_files w f) r = Ok R) by exact ER.
  destruct (set_model_touched _ _ _ m ER1) as (G & L & PE & I & C).
  assert (EC2 : get_context (set_region (set_files w f) r (with_model R m)) p = Ok c) by (rewrite C; exact EC).
  assert (c1 = c) by congruence. subst c1.
  split. { eapply same_globals_trans; [|apply set_context_globals]. exact G. }
  split; [rewrite set_context_length; exact L|]. split; [intros i; rewrite pending_set_context; apply PE|].
  split. { intros i Ri Ei. specialize (I i Ri Ei).
    destruct (set_context_regions _ p (mkContext (c_features c) choice (c_idx c) (c_timer c)) _ _ I) as (R' & E' & S & A & X & DD & M & _ & CU & TR & LL); [congruence|].
    exists R'. split; [exact E'|]. destruct (Nat.eqb_spec i r) as [->|N].
    - apply get_region_ok in ER. destruct ER as [ER _]. assert (Ri = R) by congruence. subst Ri. repeat split; try apply S; auto.
    - repeat split; try apply S; auto. }
  split. { intros q N. rewrite (get_set_context _ _ c) by auto. rewrite ctx_eqb_neq by auto. apply C. }
  rewrite (get_set_context _ _ c) by auto. rewrite ctx_eqb_refl. reflexivity.
Qed.
End Platform.
