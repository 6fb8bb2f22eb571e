(** Lemmas on the runtime: every finished execution is recorded exactly once. *)
From Coq Require Import ZArith Bool Ascii String Lia List Permutation.
From Verif Require Import Model.Base Model.Float Model.Decimal Model.DatasetM Model.ParserM Model.DatasetIO
  Model.NetM Model.PolicyNetM Model.ModelStringM Model.PolicyModelsM Model.ConfigM Model.RuntimeM
  Spec.DatasetSpec Spec.DatasetClient Spec.RuntimeSpec
  Proofs.TreeFacts Proofs.RuntimeFacts Proofs.RuntimeCollect Proofs.RuntimeMoves Proofs.RuntimePending Proofs.RuntimeOps
  Proofs.RuntimeSettled Proofs.RuntimeNew Proofs.RuntimeRegistry.
Import ListNotations.
Open Scope Z_scope.

(** ** Histories extended by one call *)

Lemma policy_snoc h e p : policy_of (h ++ [e]) p = last_policy p (policy_of h p) e.
Proof. unfold policy_of. rewrite fold_left_app. reflexivity. Qed.

Lemma started_snoc h e r : started_of (h ++ [e]) r = started_step r (started_of h r) e.
Proof. unfold started_of. rewrite fold_left_app. reflexivity. Qed.

Lemma device_snoc h e p : device_of (h ++ [e]) p = device_step p (device_of h p) e.
Proof. unfold device_of. rewrite fold_left_app. reflexivity. Qed.

Lemma begins_snoc h e r : count_begins (h ++ [e]) r = count_begins h r + (if is_begin_of r e then 1 else 0).
Proof.
  unfold count_begins. rewrite filter_app, app_length. cbn. destruct (is_begin_of r e); cbn [List.length]; lia.
Qed.

Lemma index_count h p : fst (fold_left (index_step p) h (0, 0)) = count_begins h (fst p).
Proof.
  induction h as [|e h IH] using rev_ind; [reflexivity|].
  rewrite fold_left_app, begins_snoc. cbn. destruct (fold_left (index_step p) h (0, 0)) as [n i]. cbn in *. subst n.
  unfold index_step. destruct (is_begin_of (fst p) e); cbn; lia.
Qed.

Lemma index_snoc h e p : index_of (h ++ [e]) p =
  if is_begin_of (fst p) e
  then match snd e with GotContext q => if ctx_eqb q p then count_begins h (fst p) else index_of h p | _ => index_of h p end
  else index_of h p.
Proof.
  unfold index_of. rewrite fold_left_app. cbn. assert (C := index_count h p).
  destruct (fold_left (index_step p) h (0, 0)) as [n i]. cbn in *. subst n. unfold index_step.
  destruct (is_begin_of (fst p) e); cbn; auto.
Qed.

Lemma ended_snoc h e : ended (h ++ [e]) = ended h ++ end_call e.
Proof. unfold ended. rewrite map_app, concat_app. cbn. rewrite app_nil_r. reflexivity. Qed.

Lemma ended_on_snoc h e r : ended_on (h ++ [e]) r = ended_on h r ++ map snd (filter (fun x => Nat.eqb (fst x) r) (end_call e)).
Proof. unfold ended_on. rewrite ended_snoc, filter_app, map_app. reflexivity. Qed.

Lemma ended_on_app h h' r : ended_on (h ++ h') r = ended_on h r ++ ended_on h' r.
Proof. unfold ended_on, ended. rewrite map_app, concat_app, filter_app, map_app. reflexivity. Qed.

(** The end calls on a context. *)
Definition ends_of (h : history) (p : ctxptr) : nat := List.length (filter (fun q => ctx_eqb q p) (map snd (ended h))).

Lemma ends_snoc h e p : ends_of (h ++ [e]) p = (ends_of h p + List.length (filter (fun q => ctx_eqb q p) (map snd (end_call e))))%nat.
Proof. unfold ends_of. rewrite ended_snoc, map_app, filter_app, app_length. reflexivity. Qed.

(** Every end call on a context that outlives it has its measurement. *)
Definition balanced (h : history) (log : list entry) : Prop :=
  forall r, List.length (kept_flags log (r, Sync)) = ends_of h (r, Sync).

Definition ends_on (p : ctxptr) (e : op * result) : bool :=
  match fst e with
  | OpEnd _ (Some q) _ _ | OpEndMetric _ (Some q) _ => ctx_eqb q p
  | _ => false
  end.

Lemma ends_on_count p e : List.length (filter (fun q => ctx_eqb q p) (map snd (end_call e))) = if ends_on p e then 1%nat else 0%nat.
Proof. unfold end_call, ends_on. destruct (fst e); auto; destruct p0; cbn; auto; destruct (ctx_eqb c p); auto. Qed.

Lemma add_more p fs ks e : fst (add_features p (fs, ks) e) = fst (add_features p (fs, firstn 1 ks) e) /\
  snd (add_features p (fs, ks) e) = if ends_on p e then tl ks else ks.
Proof.
  destruct e as [o x]. unfold ends_on. destruct o; cbn; try (split; reflexivity).
  1,2: destruct x; cbn; try (split; reflexivity); destruct (ctx_eqb _ _); split; reflexivity.
  all: destruct p0; cbn; try (split; reflexivity); destruct (ctx_eqb _ _); try (split; reflexivity); destruct ks as [|[|] ks]; split; reflexivity.
Qed.

Lemma fold_flags p h : forall fs ks, snd (fold_left (add_features p) h (fs, ks)) = skipn (ends_of h p) ks.
Proof.
  induction h as [|e h IH] using rev_ind; intros fs ks; [reflexivity|]. rewrite fold_left_app. cbn.
  specialize (IH fs ks). destruct (fold_left (add_features p) h (fs, ks)) as [fs' ks']. cbn in IH. subst ks'.
  rewrite (proj2 (add_more _ _ _ _)), ends_snoc, ends_on_count. destruct (ends_on p e); [|rewrite Nat.add_0_r; reflexivity].
  generalize (ends_of h p). intros n. clear. revert ks. induction n as [|n IH]; intros ks; [destruct ks; reflexivity|].
  destruct ks; [reflexivity|cbn; apply IH].
Qed.

Lemma fold_features p h : forall fs ks extra, (ends_of h p <= List.length ks)%nat ->
  fst (fold_left (add_features p) h (fs, ks ++ extra)) = fst (fold_left (add_features p) h (fs, ks)).
Proof.
  induction h as [|e h IH] using rev_ind; intros fs ks extra L; [reflexivity|]. rewrite !fold_left_app. cbn.
  rewrite ends_snoc, ends_on_count in L.
  assert (L' : (ends_of h p <= List.length ks)%nat) by lia. specialize (IH fs ks extra L').
  assert (A := fold_flags p h fs ks). assert (B := fold_flags p h fs (ks ++ extra)).
  destruct (fold_left (add_features p) h (fs, ks)) as [f1 k1]. destruct (fold_left (add_features p) h (fs, ks ++ extra)) as [f2 k2].
  cbn in A, B, IH. subst f2 k1 k2. rewrite skipn_app. replace (ends_of h p - List.length ks)%nat with 0%nat by lia. cbn [skipn].
  destruct (ends_on p e) eqn:EO.
  - assert (NE : skipn (ends_of h p) ks <> []).
    { intros X. apply (f_equal (@List.length bool)) in X. rewrite skipn_length in X. cbn in X. lia. }
    rewrite (proj1 (add_more _ _ _ _)). rewrite (proj1 (add_more p f1 (skipn (ends_of h p) ks) e)).
    destruct (skipn (ends_of h p) ks); [contradiction|reflexivity].
  - rewrite (surjective_pairing e) in *. destruct e as [o x]. unfold ends_on in EO. destruct o; cbn in *; try reflexivity.
    1,2: destruct x; cbn; try reflexivity; destruct (ctx_eqb _ _); reflexivity.
    all: destruct p0; cbn; try reflexivity; destruct (ctx_eqb _ _); try reflexivity; discriminate.
Qed.

(** The features after one more call, which took the measurements [l]. *)
Lemma features_next h log e l p : balanced h log ->
  features_of (h ++ [e]) (log ++ l) p = fst (add_features p (features_of h log p, kept_flags l p) e).
Proof.
  intros B. unfold features_of. rewrite fold_left_app, kept_flags_app. cbn. destruct p as [o [|k]].
  - assert (C := B o). assert (F1 := fold_features (o, Sync) h [] (kept_flags log (o, Sync)) (kept_flags l (o, Sync)) ltac:(lia)).
    assert (F2 := fold_flags (o, Sync) h [] (kept_flags log (o, Sync) ++ kept_flags l (o, Sync))).
    rewrite skipn_app, skipn_all2, C, Nat.sub_diag in F2 by lia. cbn [skipn app] in F2.
    destruct (fold_left (add_features (o, Sync)) h ([], kept_flags log (o, Sync) ++ kept_flags l (o, Sync))) as [f2 k2]. cbn in F1, F2. subst. reflexivity.
  - change (kept_flags log (o, Heap k) ++ kept_flags l (o, Heap k)) with (@nil bool). change (kept_flags log (o, Heap k)) with (@nil bool).
    change (kept_flags l (o, Heap k)) with (@nil bool). assert (F2 := fold_flags (o, Heap k) h [] []). rewrite skipn_nil in F2.
    destruct (fold_left (add_features (o, Heap k)) h ([], [])) as [f2 k2]. cbn in F2. subst. reflexivity.
Qed.

Lemma features_snoc h log e p : balanced h log -> features_of (h ++ [e]) log p = fst (add_features p (features_of h log p, []) e).
Proof.
  intros B. rewrite <- (app_nil_r log) at 1. rewrite features_next by auto. replace (kept_flags [] p) with (@nil bool); [reflexivity|].
  destruct p as [o [|k]]; reflexivity.
Qed.

Lemma features_heap h log l p : all_heap l -> features_of h (log ++ l) p = features_of h log p.
Proof. intros F. unfold features_of. rewrite kept_flags_app, (all_heap_flags l p F), app_nil_r. reflexivity. Qed.

(** Calls that change no features, policy, index or start of any context. *)
Definition quiet (o : op) : bool :=
  match o with
  | OpBegin _ _ _ | OpBeginFeatures _ _ _ | OpSetFeature _ _ _ | OpGetPolicy _ _ _ => false
  | _ => true
  end.

Lemma quiet_features h log o x p : balanced h log -> quiet o = true -> features_of (h ++ [(o, x)]) log p = features_of h log p.
Proof.
  intros B Q. rewrite features_snoc by auto. destruct o; cbn; intros; try discriminate; auto; destruct p0; auto; destruct (ctx_eqb _ _); auto.
Qed.

Lemma quiet_policy h o x p : quiet o = true -> policy_of (h ++ [(o, x)]) p = policy_of h p.
Proof. rewrite policy_snoc. destruct o; cbn; intros; try discriminate; auto. Qed.

Lemma quiet_index h o x p : quiet o = true -> index_of (h ++ [(o, x)]) p = index_of h p.
Proof. rewrite index_snoc. unfold is_begin_of. destruct o; cbn; intros; try discriminate; auto. Qed.

Lemma quiet_started h o x r : quiet o = true -> started_of (h ++ [(o, x)]) r = started_of h r.
Proof. rewrite started_snoc. destruct o; cbn; intros; try discriminate; auto. Qed.

Lemma quiet_begins h o x r : quiet o = true -> count_begins (h ++ [(o, x)]) r = count_begins h r.
Proof. rewrite begins_snoc. unfold is_begin_of. destruct o; cbn; intros; try discriminate; lia. Qed.

Lemma quiet_views h log dev o x w : balanced h log -> quiet o = true -> views h log dev w -> views (h ++ [(o, x)]) log dev w.
Proof.
  intros B Q V p c E. destruct (V _ _ E) as (V1 & V2 & V3 & V4). unfold view.
  rewrite quiet_features, quiet_policy, quiet_index, quiet_started by auto. auto.
Qed.

Lemma views_heap h log dev l w : all_heap l -> views h log dev w -> views h (log ++ l) dev w.
Proof. intros F V p c E. destruct (V _ _ E) as (V1 & V2 & V3 & V4). unfold view. rewrite features_heap by auto. auto. Qed.

Lemma quiet_faithful h log o x e : balanced h log -> quiet o = true -> faithful h log e -> faithful (h ++ [(o, x)]) log e.
Proof. intros BL Q (A & B & C). unfold faithful. rewrite quiet_features, quiet_policy, quiet_index by auto. auto. Qed.

(** A call without a context to end takes measurements of contexts on the heap only. *)
Lemma async_all h log r l : Forall (asynchronous h log r) l -> all_heap l.
Proof. intros F. eapply Forall_impl; [|exact F]. intros e (_ & _ & o & k & ms & -> & _). reflexivity. Qed.

Lemma async_each h log l : Forall (fun e => asynchronous h log (e_region e) e) l -> all_heap l.
Proof. intros F. eapply Forall_impl; [|exact F]. intros e (_ & _ & o & k & ms & -> & _). reflexivity. Qed.

Lemma taken_heap h log o x l : taken h log o l -> end_call (o, x) = [] -> all_heap l.
Proof.
  destruct o as [nf nm np mt info yaml init|r a n|r fs n|r p y|r p D|r p n e|r p y|r st cl fo|st cl|r|r ws|ws|p ms]; cbn; intros T E; try (subst l; constructor);
    try (destruct p as [p|]; [discriminate E|subst l; constructor]); try (destruct cl; [|subst l; constructor]); eauto using async_all, async_each.
Qed.

Lemma taken_balanced h log o x l h' : balanced h log -> taken h' log o l -> balanced (h ++ [(o, x)]) (log ++ l).
Proof.
  intros B T r. rewrite kept_flags_app, app_length, (B r), ends_snoc. f_equal. rewrite ends_on_count.
  assert (HF : all_heap l -> ends_on (r, Sync) (o, x) = false -> List.length (kept_flags l (r, Sync)) = if ends_on (r, Sync) (o, x) then 1%nat else 0%nat).
  { intros F E. rewrite all_heap_flags, E by auto. reflexivity. }
  assert (HC : forall e, e_context e = (r, Sync) -> forall rest, all_heap rest -> List.length (kept_flags (e :: rest) (r, Sync)) = 1%nat).
  { intros e E rest F. change (e :: rest) with ([e] ++ rest). rewrite kept_flags_app, (all_heap_flags rest) by auto. unfold kept_flags. cbn [snd filter].
    rewrite E, ctx_eqb_refl. reflexivity. }
  assert (HN : forall e rest, ctx_eqb (e_context e) (r, Sync) = false -> all_heap rest -> List.length (kept_flags (e :: rest) (r, Sync)) = 0%nat).
  { intros e rest E F. change (e :: rest) with ([e] ++ rest). rewrite kept_flags_app, (all_heap_flags rest) by auto. unfold kept_flags. cbn [snd filter].
    rewrite E. reflexivity. }
  destruct (end_call (o, x)) as [|u us] eqn:EC.
  { apply HF; [eapply taken_heap; eauto|]. unfold end_call, ends_on in *. cbn in *. destruct o; auto; destruct p; auto; discriminate. }
  destruct o; try discriminate; destruct p as [[q y]|]; try discriminate; cbn [taken] in T; unfold ends_on in *; cbn [fst] in *.
  - destruct y as [|k].
    + destruct T as (e & start & -> & -> & ER & EX & _). destruct (ctx_eqb (r0, Sync) (r, Sync)) eqn:X.
      * apply ctx_eqb_eq in X. injection X as ->. apply HC; [exact EX|constructor].
      * apply HN; [rewrite EX; exact X|constructor].
    + apply HF; [eapply async_all; eauto|]. apply ctx_eqb_neq. discriminate.
  - destruct T as (e & rest & -> & ER & EX & _ & _ & F). apply async_all in F. destruct (ctx_eqb (q, y) (r, Sync)) eqn:X.
    + apply ctx_eqb_eq in X. apply HC; [congruence|exact F].
    + apply HN; [rewrite EX; exact X|exact F].
Qed.

(** ** The invariant *)

Definition created (w : world) (p : ctxptr) : Prop :=
  exists R, nth_error (w_regions w) (fst p) = Some R /\
    match snd p with Sync => True | Heap k => (k < List.length (r_heap R))%nat end.

Lemma live_created w p : live w p -> created w p.
Proof.
  intros [c E]. unfold get_context in E. unfold created. destruct (nth_error (w_regions w) (fst p)) as [R|]; [|discriminate].
  exists R. split; auto. destruct (snd p) as [|k]; auto. apply nth_error_Some. destruct (nth_error (r_heap R) k); discriminate.
Qed.

Section Platform.
Variable P : platform.
Variable w0 : world.

Record inv (h : history) (log : list entry) (w : world) : Prop := {
  i_run : run P w0 (map fst h) = Ok (w, map snd h);
  i_config : same_persistent (w_config w0) (w_config w);
  i_rank : w_rank w = w_rank w0;
  i_reg : registry_ok w;
  i_names : region_names w = created_names (map fst h);
  i_balanced : balanced h log;
  i_views : views h log (device_of h) w;
  i_fresh : forall p, ~ created w p -> features_of h log p = [] /\ policy_of h p = 0 /\ index_of h p = 0 /\ device_of h p = (false, None);
  i_fresh_region : forall r, nth_error (w_regions w) r = None -> started_of h r = None /\ count_begins h r = 0;
  i_idx : forall r R, nth_error (w_regions w) r = Some R -> r_idx R = count_begins h r;
  i_records : records P w0 h log w;
  i_exec : w_executions w = Z.of_nat (List.length log) mod 2 ^ 64;
  i_count : forall r, Permutation (ended_on h r) (contexts_of (of_region r log) ++ pending w r);
  i_heap : forall r p, In p (pending w r) -> snd p <> Sync;
  i_looked : forall r p, In p (pending w r) -> forall h1 o x h2, h = h1 ++ (o, x) :: h2 -> looks_at r o = true ->
    In p (ended_on (h1 ++ [(o, x)]) r) -> device_of (h1 ++ [(o, x)]) p = (true, None);
  i_dead : forall r ws x, In (OpDestroy r ws, x) h -> pending w r = [] /\ exists R, nth_error (w_regions w) r = Some R /\ r_alive R = false;
  i_period : forall r ws x, In (OpDestroy r ws, x) h -> cf_global_period (w_config w) = 0;
  i_log : forall e, In e log -> (e_region e < List.length (w_regions w))%nat;
  i_gone : forall p, snd p <> Sync -> gone p log = true -> ~ live w p;
  i_was : forall p, snd p <> Sync -> gone p log = true -> created w p;
  i_nodup : NoDup (filter (fun p => match snd p with Sync => false | _ => true end) (contexts_of log));
  i_flags : forall r R, nth_error (w_regions w) r = Some R -> flags true (map e_kept (of_region r log)) (keeps (w_config w) R);
  i_data : forall r R, nth_error (w_regions w) r = Some R -> exists h1 o h2 w1 R1,
    h = h1 ++ (o, GotRegion r) :: h2 /\ run P w0 (map fst (h1 ++ [(o, GotRegion r)])) = Ok (w1, map snd (h1 ++ [(o, GotRegion r)])) /\
    nth_error (w_regions w1) r = Some R1 /\ insert_all (r_dataset R1) (kept_for r log) = Ok (r_dataset R) /\
    same_static R1 R /\ m_name (r_model R) = m_name (r_model R1) /\ r_trace R = r_trace R1 ++ trace_lines w0 r R1 log
}.

Lemma run_snoc w os xs w1 o x w2 : run P w os = Ok (w1, xs) -> step P w1 o = Ok (w2, x) -> run P w (os ++ [o]) = Ok (w2, xs ++ [x]).
Proof.
  revert w xs. induction os as [|o' os IH]; cbn; intros w xs H S.
  - inversion H; subst. rewrite S. reflexivity.
  - apply bind_inv in H. destruct H as ([w' x'] & E & H). apply bind_inv in H. destruct H as ([w'' xs'] & E' & H).
    inversion H; subst. rewrite E. cbn. rewrite (IH _ _ E' S). reflexivity.
Qed.

Lemma run_history h w o x w' : run P w0 (map fst h) = Ok (w, map snd h) -> step P w o = Ok (w', x) ->
  run P w0 (map fst (h ++ [(o, x)])) = Ok (w', map snd (h ++ [(o, x)])).
Proof. intros. rewrite !map_app. cbn. eapply run_snoc; eauto. Qed.

Lemma created_snoc h o (x : result) : created_names (map fst (h ++ [(o, x)])) = created_names (map fst h) ++ creates o.
Proof. unfold created_names. rewrite !map_app, concat_app. cbn. rewrite app_nil_r. reflexivity. Qed.

Lemma created_settled l w w' p : settled l w w' -> created w p -> created w' p.
Proof.
  intros (_ & _ & _ & _ & _ & I & _) (R & E & K). destruct (I _ _ E) as (R' & E' & _ & _ & _ & H & _).
  exists R'. split; auto. destruct (snd p); auto. rewrite H. auto.
Qed.

Lemma settled_back l w w' i R' : settled l w w' -> nth_error (w_regions w') i = Some R' ->
  exists R, nth_error (w_regions w) i = Some R /\ settled_region w l i R R'.
Proof.
  intros (_ & _ & _ & _ & L & I & _) E.
  destruct (nth_error (w_regions w) i) as [R|] eqn:ER.
  - destruct (I _ _ ER) as (R2 & E2 & S). exists R. split; auto. congruence.
  - apply nth_error_None in ER. assert (i < List.length (w_regions w'))%nat by (apply nth_error_Some; congruence). lia.
Qed.

Lemma created_settled_back l w w' p : settled l w w' -> created w' p -> created w p.
Proof.
  intros S (R' & E' & K). destruct (settled_back _ _ _ _ _ S E') as (R & E & _ & _ & _ & H & _).
  exists R. split; auto. destruct (snd p); auto. rewrite <- H. auto.
Qed.

Lemma trace_lines_app w r R R1 log l : same_persistent (w_config w0) (w_config w) -> w_rank w = w_rank w0 ->
  r_name R = r_name R1 -> m_name (r_model R) = m_name (r_model R1) ->
  trace_lines w0 r R1 log ++ trace_lines w r R l = trace_lines w0 r R1 (log ++ l).
Proof.
  intros C K N M. unfold trace_lines. rewrite (same_config_field cf_trace_csv _ _ (fun _ => eq_refl) C), K, N, M. destruct (truthy _); auto.
  unfold taken_for. rewrite filter_app, map_app, concat_app. reflexivity.
Qed.

Lemma exec_range h log w : inv h log w -> 0 <= w_executions w < 2 ^ 64.
Proof. intros I. rewrite (i_exec _ _ _ I). apply Z.mod_pos_bound. lia. Qed.

Lemma inv_settle h log w o x w' l : inv h log w -> step P w o = Ok (w', x) -> settled l w w' ->
  begins o = None ->
  views (h ++ [(o, x)]) (log ++ l) (device_of (h ++ [(o, x)])) w' ->
  (forall p, ~ created w p -> features_of (h ++ [(o, x)]) (log ++ l) p = [] /\ policy_of (h ++ [(o, x)]) p = 0 /\
     device_of (h ++ [(o, x)]) p = (false, None)) ->
  taken (h ++ [(o, x)]) log o l ->
  (forall r, Permutation (pending w r ++ map snd (filter (fun y => Nat.eqb (fst y) r) (end_call (o, x))))
     (contexts_of (of_region r l) ++ pending w' r)) ->
  (forall e, In e l -> nth_error (w_regions w) (e_region e) <> None) ->
  (forall r p, In (r, p) (end_call (o, x)) -> (exists R, get_region w r = Ok R) /\ live w p) ->
  (forall r p, In p (pending w' r) -> snd p <> Sync /\ (looks_at r o = true -> device_of (h ++ [(o, x)]) p = (true, None))) ->
  (forall r ws, o = OpDestroy r ws -> cf_global_period (w_config w') = 0 /\ pending w' r = [] /\ exists R, nth_error (w_regions w') r = Some R /\ r_alive R = false) ->
  inv (h ++ [(o, x)]) (log ++ l) w'.
Proof.
  intros I ST S NB HV HF HT HP HR HE HK HD.
  assert (SS := S). destruct SS as (S1 & S2 & S3 & S4 & S5 & S6 & S7 & S8 & S9).
  assert (NBG : forall r, is_begin_of r (o, x) = false) by (intros; unfold is_begin_of; cbn [fst]; rewrite NB; auto).
  assert (NMS : region_names w' = region_names w).
  { apply names_same; auto. intros i R E. destruct (S6 _ _ E) as (R' & E' & (SS & _) & _). exists R'. split; auto. apply SS. }
  constructor.
  - eapply run_history; eauto. apply (i_run _ _ _ I).
  - eapply same_persistent_trans; [apply (i_config _ _ _ I)|exact S1].
  - rewrite S2. apply (i_rank _ _ _ I).
  - apply (registry_same w); [auto| |apply (i_reg _ _ _ I)]. exact NMS.
  - rewrite created_snoc, NMS, (i_names _ _ _ I). replace (creates o) with (@nil bytes); [rewrite app_nil_r; auto|]. destruct o; auto. exfalso.
    cbn in ST. apply bind_inv in ST. destruct ST as ([w2 r2] & HN & E). inversion E; subst w2.
    destruct (new_region_spec P _ _ _ _ _ _ _ _ _ _ HN) as (-> & v & ? & ? & ? & ? & ? & ? & _ & _ & _ & (_ & ws & R2 & EV & FW & _) & EW & _).
    rewrite EW, EV, app_length, (Forall2_length' _ _ _ FW) in S5. cbn in S5. lia.
  - exact (taken_balanced _ _ _ _ _ _ (i_balanced _ _ _ I) HT).
  - exact HV.
  - intros p NC. assert (NC' : ~ created w p) by (intros C; apply NC; eapply created_settled; eauto).
    destruct (HF _ NC') as (A & B & C). repeat split; auto. rewrite index_snoc, NBG. apply (i_fresh _ _ _ I _ NC').
  - intros r E. assert (E0 : nth_error (w_regions w) r = None) by (apply nth_error_None in E; apply nth_error_None; lia).
    destruct (i_fresh_region _ _ _ I _ E0) as [A B]. rewrite begins_snoc, NBG. rewrite started_snoc. split; [|lia].
    destruct o; try discriminate; cbn; auto.
  - intros r R' E'. destruct (settled_back _ _ _ _ _ S E') as (R & E & _ & _ & X & _). rewrite X.
    rewrite begins_snoc, NBG, Z.add_0_r. apply (i_idx _ _ _ I); auto.
  - econstructor; eauto; [apply (i_records _ _ _ I)|]. split.
    { destruct S4 as [C1 C2]. assert (RA := exec_range _ _ _ I). rewrite Z.mod_small in C1 by auto. exact C1. }
    intros r R R' E E'. destruct (S6 _ _ E) as (R2 & E2 & (_ & N) & _ & _ & _ & DS & F).
    rewrite E' in E2. inversion E2; subst R2. split; auto. split; auto. destruct N as (N1 & _ & N3). split; auto.
    unfold current_after. rewrite NBG. exact N1.
  - destruct S4 as [C1 C2]. assert (X := i_exec _ _ _ I).
    assert (RA := exec_range _ _ _ I).
    rewrite Z.mod_small in C1 by auto. rewrite C1. unfold count_mod. rewrite X, Zplus_mod_idemp_l, app_length. f_equal. lia.
  - intros r. rewrite ended_on_snoc, of_region_app, contexts_of_app, <- app_assoc.
    etransitivity; [apply Permutation_app_tail; apply (i_count _ _ _ I)|]. rewrite <- app_assoc. apply Permutation_app_head. apply HP.
  - intros r p X. apply HK in X. apply X.
  - intros r p IP h1 o1 x1 h2 EH LO IE.
    destruct (@exists_last _ ((o1, x1) :: h2)) as (h3 & [o2 x2] & E3); [discriminate|].
    rewrite E3 in EH. rewrite app_assoc in EH. apply app_inj_tail in EH. destruct EH as [EH EO]. inversion EO; subst o2 x2. clear EO.
    destruct h3 as [|y h3].
    + cbn in E3. inversion E3; subst o1 x1 h2. rewrite app_nil_r in EH. subst h1. apply HK in IP. apply IP; auto.
    + cbn in E3. inversion E3; subst y. assert (EH' : h = h1 ++ (o1, x1) :: h3) by exact EH. clear EH.
      (* was it pending before? *)
      assert (IB : In p (pending w r ++ map snd (filter (fun y => Nat.eqb (fst y) r) (end_call (o, x))))).
      { eapply Permutation_in; [symmetry; apply HP|]. apply in_or_app. auto. }
      apply in_app_or in IB. destruct IB as [IB|IB]; [eapply (i_looked _ _ _ I); eauto|].
      apply in_map_iff in IB. destruct IB as ([r' p'] & X1 & IB). cbn in X1. subst p'.
      apply filter_In in IB. destruct IB as [IB X2]. cbn in X2. apply Nat.eqb_eq in X2. subst r'.
      apply HE in IB. destruct IB as [_ LV].
      assert (IE2 : In p (ended_on h r)).
      { rewrite EH'. replace (h1 ++ (o1, x1) :: h3) with ((h1 ++ [(o1, x1)]) ++ h3) by (rewrite <- app_assoc; reflexivity).
        rewrite (ended_on_app _ h3). apply in_or_app. left; auto. }
      eapply Permutation_in in IE2; [|apply (i_count _ _ _ I)]. apply in_app_or in IE2. destruct IE2 as [IE2|IE2].
      { exfalso. destruct (HK _ _ IP) as [NS _]. eapply (i_gone _ _ _ I p); auto. apply gone_in.
        unfold contexts_of, of_region in IE2. apply in_map_iff in IE2. destruct IE2 as (e & Y1 & Y2). apply filter_In in Y2.
        apply in_map_iff. exists e. split; auto. apply Y2. }
      eapply (i_looked _ _ _ I); eauto.
  - intros r ws x1 ID. apply in_app_or in ID. destruct ID as [ID|[ID|[]]].
    + destruct (i_dead _ _ _ I _ _ _ ID) as (PN & R & ER & AR).
      destruct (S6 _ _ ER) as (R' & ER' & _ & AR' & _). split.
      * specialize (HP r). rewrite PN in HP. cbn in HP.
        assert (EN : map snd (filter (fun y => Nat.eqb (fst y) r) (end_call (o, x))) = []).
        { destruct (filter (fun y => Nat.eqb (fst y) r) (end_call (o, x))) as [|[r' p'] l'] eqn:EF; auto. exfalso.
          assert (IN : In (r', p') (filter (fun y => Nat.eqb (fst y) r) (end_call (o, x)))) by (rewrite EF; left; auto).
          apply filter_In in IN. destruct IN as [IN X]. cbn in X. apply Nat.eqb_eq in X. subst r'.
          apply HE in IN. destruct IN as [(R2 & ER2) _]. apply get_region_ok in ER2. destruct ER2. congruence. }
        rewrite EN in HP. apply Permutation_nil in HP. apply app_eq_nil in HP. apply HP.
      * exists R'. split; auto. destruct (r_alive R'); auto. rewrite AR' in AR; auto.
    + inversion ID; subst. apply (HD r ws); auto.
  - intros r ws x1 ID. apply in_app_or in ID. destruct ID as [ID|[ID|[]]].
    + destruct S1 as [_ [X|X]]; [|auto]. rewrite X. apply (i_period _ _ _ I _ _ _ ID).
    + inversion ID; subst. apply (HD r ws); auto.
  - intros e IE. apply in_app_or in IE. destruct IE as [IE|IE].
    + rewrite S5. apply (i_log _ _ _ I); auto.
    + rewrite S5. apply nth_error_Some. auto.
  - intros p NS G LV. rewrite gone_app in G. destruct (S7 _ LV) as [LW GL]. rewrite GL in G by auto. rewrite orb_false_r in G.
    eapply (i_gone _ _ _ I); eauto.
  - intros p NS G. rewrite gone_app in G. apply (created_settled _ _ _ _ S). apply orb_prop in G. destruct G as [G|G].
    + apply (i_was _ _ _ I); auto.
    + apply live_created. auto.
  - rewrite contexts_of_app, filter_app. apply NoDup_app_intro; auto; [apply (i_nodup _ _ _ I)|].
    intros p X Y. apply filter_In in X. destruct X as [X NS]. apply filter_In in Y. destruct Y as [Y _].
    apply gone_in in X. apply gone_in in Y. assert (NS' : snd p <> Sync) by (destruct (snd p); discriminate).
    apply (S8 _ NS') in Y. eapply (i_gone _ _ _ I); eauto.
  - intros r R' E'. destruct (settled_back _ _ _ _ _ S E') as (R & E & _ & _ & _ & _ & _ & F).
    rewrite of_region_app, map_app. rewrite (kept_keeps _ _ R' S1). eapply flags_app; [apply (i_flags _ _ _ I); eauto|exact F].
  - intros r R' E'. destruct (settled_back _ _ _ _ _ S E') as (R & E & (SS & N1 & N2 & N3) & _ & _ & _ & DS & _).
    destruct (i_data _ _ _ I _ _ E) as (h1 & o1 & h2 & w1 & R1 & EH & RU & ER1 & DI & ST1 & NM & TR).
    exists h1, o1, (h2 ++ [(o, x)]), w1, R1. split; [rewrite EH, <- app_assoc; reflexivity|]. split; auto. split; auto.
    split. { rewrite kept_for_app. rewrite (insert_all_app _ _ _ _ DI). exact DS. }
    split; [eapply same_static_trans; eauto|]. split; [congruence|]. rewrite N3, TR, <- app_assoc. f_equal.
    apply trace_lines_app; auto; [apply (i_config _ _ _ I)|apply (i_rank _ _ _ I)|apply ST1].
Qed.

(** ** One call *)

Lemma pending_region w r p : In p (pending w r) -> nth_error (w_regions w) r <> None.
Proof. unfold pending. destruct (nth_error (w_regions w) r); [discriminate|intros []]. Qed.

Lemma accounted_region w l w' e : accounted w l w' -> In e l -> nth_error (w_regions w) (e_region e) <> None.
Proof.
  intros A I. apply pending_region with (p := e_context e). eapply Permutation_in; [symmetry; apply A|].
  apply in_or_app. left. apply in_map. apply filter_In. split; auto. apply Nat.eqb_refl.
Qed.

Lemma inv_no_own_sync h log w : inv h log w -> no_own_sync w.
Proof. intros I r p X. apply (i_heap _ _ _ I) in X. destruct p as [o [|k]]; cbn in *; auto. congruence. Qed.

Lemma get_context_regions w w' p : w_regions w' = w_regions w -> get_context w' p = get_context w p.
Proof. intros E. unfold get_context. rewrite E. reflexivity. Qed.

Lemma views_regions h log dev w w' : w_regions w' = w_regions w -> views h log dev w -> views h log dev w'.
Proof. intros E V p c G. rewrite (get_context_regions w w') in G by auto. auto. Qed.

Lemma settled_regions w w' : w_regions w' = w_regions w -> w_config w' = w_config w \/ same_persistent (w_config w) (w_config w') ->
  w_rank w' = w_rank w -> w_registry w' = w_registry w -> w_executions w' = w_executions w -> settled [] w w'.
Proof.
  intros E C A B D. split; [destruct C as [C|C]; auto; apply same_persistent_eq; auto|]. split; auto. split; auto.
  split; [apply counted_same; auto|]. split; [congruence|]. split.
  { intros i R ER. exists R. split; [congruence|]. split; [split; [apply same_static_refl|apply noted_refl]|]. split; [auto|]. split; [auto|]. split; [auto|].
    split; [reflexivity|]. apply flags_nil. }
  split; [|split; [discriminate|constructor]]. intros p [c L]. split; auto. exists c. rewrite <- (get_context_regions w w'); auto.
Qed.

Lemma settled_alive w r R : get_region w r = Ok R -> settled [] w (set_region w r (with_alive R false)).
Proof.
  intros ER. apply get_region_ok in ER. destruct ER as [ER AR].
  split; [apply same_persistent_refl|]. split; [auto|]. split; [auto|]. split; [apply counted_same; auto|].
  split; [apply set_nth_length|]. split.
  { intros i Ri Ei. cbn. rewrite nth_set_nth. destruct (Nat.eqb_spec i r) as [->|N].
    - rewrite ER in Ei. inversion Ei; subst Ri. rewrite ER. eexists. split; [reflexivity|].
      split; [split; [repeat split|apply noted_nil; auto]|]. split; [cbn; discriminate|]. split; [auto|]. split; [auto|]. split; [reflexivity|]. apply flags_nil.
    - exists Ri. split; auto. split; [split; [apply same_static_refl|apply noted_refl]|]. split; [auto|]. split; [auto|]. split; [auto|]. split; [reflexivity|]. apply flags_nil. }
  split; [|split; [discriminate|constructor]]. intros p [c L]. split; auto. unfold live, get_context in *. cbn in L.
  rewrite nth_set_nth in L. destruct (Nat.eqb_spec (fst p) r) as [E|N]; [|eauto].
  subst r. rewrite ER in *. destruct (snd p); cbn in L; [discriminate|eauto].
Qed.

Lemma pending_alive w r R i : get_region w r = Ok R -> pending (set_region w r (with_alive R false)) i = pending w i.
Proof.
  intros ER. apply get_region_ok in ER. destruct ER as [ER AR]. unfold pending. cbn. rewrite nth_set_nth.
  destruct (Nat.eqb_spec i r) as [->|N]; auto. rewrite ER. reflexivity.
Qed.

Lemma views_alive h log dev w r R : get_region w r = Ok R -> views h log dev w -> views h log dev (set_region w r (with_alive R false)).
Proof.
  intros ER V p c G. apply V. apply get_region_ok in ER. destruct ER as [ER AR]. unfold get_context in *. cbn in G.
  rewrite nth_set_nth in G. destruct (Nat.eqb_spec (fst p) r) as [E|N]; auto. subst r. rewrite ER in *.
  destruct (snd p); cbn in G; [discriminate|auto].
Qed.

Lemma reports_unset p b : fold_left (report p) b (false, None) = (false, None).
Proof. induction b as [|e b IH]; cbn; auto. unfold report at 2. destruct (ctx_eqb (fst e) p); auto. Qed.

Lemma not_looking o r : looks_at r o = false -> looks_at r o = true -> False.
Proof. congruence. Qed.

(** The features of contexts on the heap do not depend on the measurements. *)
Lemma async_log h log log' dev r e : async_entry h log dev r e -> async_entry h log' dev r e.
Proof.
  intros (A & (B1 & B2 & B3) & o & k & ms & C). destruct C as (C1 & C2 & C3). split; auto. split; [|exists o, k, ms; auto].
  split; auto. rewrite B1, C1. reflexivity.
Qed.

Lemma taken_here h log dev l r : (forall p, dev p = device_of h p) -> Forall (async_entry h log dev r) l -> Forall (asynchronous h log r) l.
Proof.
  intros E F. eapply Forall_impl; [|exact F]. intros e (A & B & C). split; auto. split; auto.
  destruct C as (o' & k & ms & X1 & X2 & X3). exists o', k, ms. rewrite <- E. auto.
Qed.

Lemma quiet_async h log o x dev r e : balanced h log -> quiet o = true -> async_entry h log dev r e -> async_entry (h ++ [(o, x)]) log dev r e.
Proof. intros B Q (X & Y & Z). split; auto. split; auto. apply quiet_faithful; auto. Qed.

Lemma taken_asynchronous h log o x dev l r : balanced h log -> quiet o = true -> (forall p, dev p = device_of (h ++ [(o, x)]) p) ->
  Forall (async_entry h log dev r) l -> Forall (asynchronous (h ++ [(o, x)]) log r) l.
Proof.
  intros B Q E F. eapply taken_here; [exact E|]. eapply Forall_impl; [|exact F]. intros e. apply quiet_async; auto.
Qed.

(** Calls that only collect and train. *)
Lemma inv_collecting h log w o x w' l : inv h log w -> step P w o = Ok (w', x) -> settled l w w' -> quiet o = true ->
  end_call (o, x) = [] -> accounted w l w' -> views h log (device_of (h ++ [(o, x)])) w' ->
  (forall p, ~ created w p -> device_of (h ++ [(o, x)]) p = (false, None)) ->
  taken (h ++ [(o, x)]) log o l ->
  (forall r p, In p (pending w' r) -> looks_at r o = true -> device_of (h ++ [(o, x)]) p = (true, None)) ->
  (forall r ws, o = OpDestroy r ws -> cf_global_period (w_config w') = 0 /\ pending w' r = [] /\ exists R, nth_error (w_regions w') r = Some R /\ r_alive R = false) ->
  inv (h ++ [(o, x)]) (log ++ l) w'.
Proof.
  intros I ST S Q EC A V D T L K. assert (AH := taken_heap _ _ _ _ _ T EC). assert (BL := i_balanced _ _ _ I). apply inv_settle with (w := w); auto.
  - destruct o; auto; discriminate.
  - apply views_heap; auto. apply quiet_views; auto.
  - intros p NC. destruct (i_fresh _ _ _ I _ NC) as (F1 & F2 & _). rewrite features_heap, quiet_features, quiet_policy by auto. auto.
  - intros r. rewrite EC. cbn. rewrite app_nil_r. apply A.
  - intros e IE. eapply accounted_region; eauto.
  - rewrite EC. intros r p [].
  - intros r p IP. split; [|eauto]. eapply (i_heap _ _ _ I). eapply accounted_in; eauto.
Qed.

Definition nothing : allowed := fun _ _ _ _ => True.

Lemma inv_complete h log w p ms : inv h log w -> inv (h ++ [(OpComplete p ms, Done)]) (log ++ []) (complete w (p, ms)).
Proof.
  intros I. eapply inv_collecting; eauto.
  - apply settled_complete.
  - apply accounted_complete.
  - eapply views_ext; [|apply complete_views; apply (i_views _ _ _ I)].
    intros q. rewrite device_snoc. reflexivity.
  - intros q NC. rewrite device_snoc. destruct (i_fresh _ _ _ I _ NC) as (_ & _ & _ & ->).
    apply (reports_unset q [(p, ms)]).
  - reflexivity.
  - discriminate.
  - discriminate.
Qed.

Lemma inv_collect h log w r w' : inv h log w -> collect_pending P w r = Ok w' ->
  exists l, inv (h ++ [(OpCollect r, Done)]) (log ++ l) w'.
Proof.
  intros I C. destruct (collect_pending_accounted P nothing _ _ _ _ _ _ C (i_views _ _ _ I) (inv_no_own_sync _ _ _ I)) as (l & M & F & A & K).
  exists l. assert (D : forall p, device_of (h ++ [(OpCollect r, Done)]) p = device_of h p) by (intros; rewrite device_snoc; reflexivity).
  eapply inv_collecting; eauto.
  - cbn. rewrite C. reflexivity.
  - eapply settled_moves; eauto.
  - eapply views_ext; [intros; symmetry; apply D|]. eapply moves_views; [exact M|exact (async_heap _ _ _ _ _ F)|apply (i_views _ _ _ I)].
  - intros p NC. rewrite D. apply (i_fresh _ _ _ I _ NC).
  - cbn. eapply taken_asynchronous; [apply (i_balanced _ _ _ I)|reflexivity|intros; symmetry; apply D|exact F].
  - intros r' p IP LO. cbn in LO. apply Nat.eqb_eq in LO. subst r'. rewrite D. rewrite Forall_forall in K. apply K; auto.
  - discriminate.
Qed.

Lemma inv_train h log w r st collect force w' : inv h log w -> region_train P w r st collect force = Ok w' ->
  exists l, inv (h ++ [(OpTrain r st collect force, Done)]) (log ++ l) w'.
Proof.
  intros I C.
  destruct (region_train_accounted P nothing _ _ _ _ _ _ _ _ _ C (i_views _ _ _ I) (inv_no_own_sync _ _ _ I)) as (l & M & F & N & A & K).
  { intros; exact Logic.I. }
  exists l. set (o := OpTrain r st collect force). assert (D : forall p, device_of (h ++ [(o, Done)]) p = device_of h p) by (intros; rewrite device_snoc; reflexivity).
  eapply inv_collecting; eauto.
  - cbn. rewrite C. reflexivity.
  - eapply settled_moves; eauto.
  - eapply views_ext; [intros; symmetry; apply D|]. eapply moves_views; [exact M|exact (async_heap _ _ _ _ _ F)|apply (i_views _ _ _ I)].
  - intros p NC. rewrite D. apply (i_fresh _ _ _ I _ NC).
  - destruct collect; [|cbn; auto]. unfold taken, o. eapply taken_asynchronous; [apply (i_balanced _ _ _ I)|reflexivity|intros; symmetry; apply D|exact F].
  - intros r' p IP LO. unfold o in LO. cbn in LO. destruct collect; [|discriminate]. destruct force; [|discriminate].
    apply Nat.eqb_eq in LO. subst r'. rewrite D. specialize (K eq_refl eq_refl). rewrite Forall_forall in K. apply K; auto.
  - discriminate.
Qed.

Lemma inv_train_all h log w st collect w' : inv h log w -> apollo_train P w st collect = Ok w' ->
  exists l, inv (h ++ [(OpTrainAll st collect, Done)]) (log ++ l) w'.
Proof.
  intros I C.
  destruct (apollo_train_accounted P nothing _ _ _ _ _ _ _ C (i_views _ _ _ I) (inv_no_own_sync _ _ _ I)) as (l & M & F & N & A).
  { intros; exact Logic.I. } { intros; exact Logic.I. }
  exists l. set (o := OpTrainAll st collect). assert (D : forall p, device_of (h ++ [(o, Done)]) p = device_of h p) by (intros; rewrite device_snoc; reflexivity).
  eapply inv_collecting; eauto.
  - cbn. rewrite C. reflexivity.
  - eapply settled_moves; eauto.
  - eapply views_ext; [intros; symmetry; apply D|]. eapply moves_views; [exact M|exact (async_all_heap _ _ _ _ F)|apply (i_views _ _ _ I)].
  - intros p NC. rewrite D. apply (i_fresh _ _ _ I _ NC).
  - destruct collect; [|cbn; auto]. unfold taken, o. rewrite Forall_forall in *. intros e IE. specialize (F _ IE).
    assert (X : Forall (async_entry h log (device_of h) (e_region e)) [e]) by auto.
    eapply (taken_asynchronous h log o Done) in X; [|apply (i_balanced _ _ _ I)|reflexivity|intros; symmetry; apply D]. inversion X; auto.
  - discriminate.
  - discriminate.
Qed.

Lemma inv_destroy h log w r ws w' : inv h log w -> destroy_region P w r ws = Ok w' ->
  exists l, inv (h ++ [(OpDestroy r ws, Done)]) (log ++ l) w'.
Proof.
  intros I C. assert (ST : step P w (OpDestroy r ws) = Ok (w', Done)) by (cbn; rewrite C; reflexivity).
  unfold destroy_region in C. apply bind_inv in C. destruct C as (w1 & ED & C). apply bind_inv in C. destruct C as (R & ER & C).
  assert (V0 : views h log (device_of h) (disable_global_period w)) by (eapply views_regions; [|apply (i_views _ _ _ I)]; reflexivity).
  assert (N0 : no_own_sync (disable_global_period w)) by exact (inv_no_own_sync _ _ _ I).
  destruct (drain_spec P _ _ _ _ _ _ _ ED V0 N0) as (l & S & A & F & PN & V & CF).
  assert (S0 : settled [] w (disable_global_period w)) by (apply settled_regions; auto; right; split; [reflexivity|right; reflexivity]).
  assert (D : forall p, device_of (h ++ [(OpDestroy r ws, Done)]) p = reports (device_of h) (List.concat ws) p) by (intros; rewrite device_snoc; reflexivity).
  set (w2 := if truthy (cf_persistent (w_config w1)) then _ else w1) in C.
  assert (E2 : w_regions w2 = w_regions w1) by (unfold w2; destruct (truthy _); reflexivity).
  assert (S2 : settled [] w1 w2) by (unfold w2; destruct (truthy _); [apply settled_regions; auto|apply settled_refl]).
  assert (ER2 : get_region w2 r = Ok R) by (unfold get_region in *; rewrite E2; auto).
  assert (P2 : forall i, pending w2 i = pending w1 i) by (intros; unfold pending; rewrite E2; auto).
  clearbody w2. inversion C; subst w'. clear C.
  exists l. eapply inv_collecting; eauto.
  - assert (X := settled_app _ _ _ _ _ S0 (settled_app _ _ _ _ _ S (settled_app _ _ _ _ _ S2 (settled_alive _ _ _ ER2)))).
    cbn in X. rewrite !app_nil_r in X. exact X.
  - intros i. rewrite pending_alive, P2 by auto. apply A.
  - eapply views_ext; [intros; symmetry; apply D|]. apply views_alive; auto. eapply views_regions; eauto.
  - intros p NC. rewrite D. unfold reports. destruct (i_fresh _ _ _ I _ NC) as (_ & _ & _ & ->). apply reports_unset.
  - cbn. eapply taken_asynchronous; [apply (i_balanced _ _ _ I)|reflexivity|intros; symmetry; apply D|exact F].
  - intros r' p IP LO. cbn in LO. apply Nat.eqb_eq in LO. subst r'. rewrite pending_alive, P2, PN in IP by auto. destruct IP.
  - intros r' ws' E. inversion E; subst r' ws'. rewrite pending_alive, P2 by auto. split; auto.
    { destruct S2 as ([_ X2] & _). destruct S as ([_ X1] & _). cbn in X1. cbn. destruct X2 as [->| ->]; auto. destruct X1 as [->| ->]; auto. }
    split; auto. apply get_region_ok in ER2. destruct ER2 as [ER2 _]. exists (with_alive R false). cbn. rewrite nth_set_nth, Nat.eqb_refl, ER2. auto.
Qed.

Lemma ctx_false_not_created w p q c : get_context w p = Ok c -> ~ created w q -> ctx_eqb p q = false.
Proof.
  intros E NC. destruct (ctx_eqb p q) eqn:X; auto. apply ctx_eqb_eq in X. subst q. exfalso. apply NC. apply live_created. exists c; auto.
Qed.

Lemma inv_set_feature h log w r p x w' : inv h log w -> step P w (OpSetFeature r (Some p) x) = Ok (w', Done) ->
  inv (h ++ [(OpSetFeature r (Some p) x, Done)]) (log ++ []) w'.
Proof.
  intros I ST. assert (H := ST). cbn in H. apply bind_inv in H. destruct H as (R & ER & H). apply bind_inv in H. destruct H as (w1 & H & E).
  inversion E; subst w1. clear E. unfold set_feature in H. apply bind_inv in H. destruct H as (c & EC & H). inversion H; subst w'. clear H.
  set (o := OpSetFeature r (Some p) x) in *.
  assert (D : forall q, device_of (h ++ [(o, Done)]) q = device_of h q) by (intros; rewrite device_snoc; reflexivity).
  eapply inv_settle; eauto.
  - eapply settled_set_context; eauto.
  - intros q c' G. rewrite (get_set_context _ _ c) in G by auto.
    assert (X : index_of (h ++ [(o, Done)]) q = index_of h q) by (rewrite index_snoc; reflexivity).
    assert (Y : policy_of (h ++ [(o, Done)]) q = policy_of h q) by (rewrite policy_snoc; reflexivity).
    assert (Z : started_of (h ++ [(o, Done)]) (fst q) = started_of h (fst q)) by (rewrite started_snoc; reflexivity).
    unfold view. rewrite app_nil_r, X, Y, Z, D, features_snoc by apply (i_balanced _ _ _ I). unfold o. cbn. rewrite (ctx_eqb_sym p q).
    destruct (ctx_eqb q p) eqn:EQ.
    + apply ctx_eqb_eq in EQ. subst q. inversion G; subst c'. cbn.
      destruct (i_views _ _ _ I _ _ EC) as (V1 & V2 & V3 & V4). rewrite V1. auto.
    + apply (i_views _ _ _ I); auto.
  - intros q NC. rewrite app_nil_r, D, features_snoc, policy_snoc by apply (i_balanced _ _ _ I). cbn. rewrite (ctx_false_not_created _ _ _ _ EC NC).
    destruct (i_fresh _ _ _ I _ NC) as (A & B & _ & C). auto.
  - reflexivity.
  - intros i. cbn. rewrite app_nil_r, pending_set_context. reflexivity.
  - intros i q [].
  - intros i q IP. rewrite pending_set_context in IP. split; [eapply (i_heap _ _ _ I); eauto|discriminate].
  - discriminate.
Qed.

Lemma inv_get_policy h log w r p D w' x : inv h log w -> step P w (OpGetPolicy r (Some p) D) = Ok (w', x) ->
  inv (h ++ [(OpGetPolicy r (Some p) D, x)]) (log ++ []) w'.
Proof.
  intros I ST. assert (H := ST). cbn in H. apply bind_inv in H. destruct H as ([w1 ch] & H & E).
  inversion E; subst w1 x. clear E.
  destruct (get_policy_index_spec P _ _ _ _ _ _ H) as (R & c & m & ER & EC & EM & GL & LE & PE & RE & CO & CP).
  set (o := OpGetPolicy r (Some p) D) in *.
  assert (DV : forall q, device_of (h ++ [(o, GotPolicy ch)]) q = device_of h q) by (intros; rewrite device_snoc; reflexivity).
  eapply inv_settle; eauto.
  - destruct GL as (G1 & G2 & G3 & G4). split; [apply same_persistent_eq; auto|]. split; auto. split; auto.
    split; [apply counted_same; auto|]. split; auto. split.
    { intros i Ri Ei. destruct (RE _ _ Ei) as (Ri' & Ei' & S & A & X & DS & M & C' & HL & TR). exists Ri'. split; auto.
      split. { split; auto. apply noted_nil; auto. rewrite M. destruct (Nat.eqb_spec i r) as [->|N]; auto.
        apply get_region_ok in ER. destruct ER as [ER _]. rewrite ER in Ei. inversion Ei; subst Ri. eapply get_index_name; eauto. } split; [congruence|]. split; auto. split; auto. split; [cbn; congruence|]. apply flags_weaken.
      unfold keeps. rewrite M. destruct (Nat.eqb_spec i r) as [->|N]; auto.
      apply get_region_ok in ER. destruct ER as [ER _]. rewrite ER in Ei. inversion Ei; subst Ri.
      rewrite (get_index_trainable _ _ _ _ _ _ EM). auto. }
    split; [|split; [discriminate|constructor]]. intros q [c' L]. split; auto.
    destruct (ctx_eqb q p) eqn:EQ; [apply ctx_eqb_eq in EQ; subst q; exists c; auto|].
    exists c'. rewrite <- CO; auto. intros ->. rewrite ctx_eqb_refl in EQ. discriminate.
  - intros q c' G.
    assert (X : index_of (h ++ [(o, GotPolicy ch)]) q = index_of h q) by (rewrite index_snoc; reflexivity).
    assert (Y : features_of (h ++ [(o, GotPolicy ch)]) log q = features_of h log q) by (rewrite features_snoc by apply (i_balanced _ _ _ I); reflexivity).
    assert (Z : started_of (h ++ [(o, GotPolicy ch)]) (fst q) = started_of h (fst q)) by (rewrite started_snoc; reflexivity).
    unfold view. rewrite app_nil_r, X, Y, Z, DV, policy_snoc. unfold o. cbn. rewrite (ctx_eqb_sym p q).
    destruct (ctx_eqb q p) eqn:EQ.
    + apply ctx_eqb_eq in EQ. subst q. rewrite CP in G. inversion G; subst c'. cbn.
      destruct (i_views _ _ _ I _ _ EC) as (V1 & V2 & V3 & V4). auto.
    + apply (i_views _ _ _ I). rewrite <- CO; auto. intros ->. rewrite ctx_eqb_refl in EQ. discriminate.
  - intros q NC. rewrite app_nil_r, DV, features_snoc, policy_snoc by apply (i_balanced _ _ _ I). cbn. rewrite (ctx_false_not_created _ _ _ _ EC NC).
    destruct (i_fresh _ _ _ I _ NC) as (A & B & _ & C). auto.
  - reflexivity.
  - intros i. cbn. rewrite app_nil_r, PE. reflexivity.
  - intros i q [].
  - intros i q IP. rewrite PE in IP. split; [eapply (i_heap _ _ _ I); eauto|discriminate].
  - discriminate.
Qed.

(** The entry of a collection, seen in the history. *)
Lemma entry_faithful h log dev w r p x e : entry_of w r p x e -> views h log dev w ->
  e_region e = r /\ e_context e = p /\ e_metric e = x /\ faithful h log e.
Proof.
  intros (R & c & ER & EC & ->) V. destruct (V _ _ EC) as (V1 & V2 & V3 & _). unfold faithful. cbn. repeat (split; [auto|]). auto.
Qed.

Lemma collects_region w r p x w' : collects P w r p x w' -> (exists R, get_region w r = Ok R) /\ live w p.
Proof. intros (R & c & _ & _ & ER & EC & _). split; [exists R|exists c]; auto. Qed.

(** Ending a context: its features are gone if the measurement was kept. *)
Lemma ended_views h log dev w r p x w1 e o y : balanced h log -> views h log dev w -> collects P w r p x w1 -> entry_of w r p x e ->
  quiet o = true -> (forall q, ends_on q (o, y) = ctx_eqb p q) -> views (h ++ [(o, y)]) (log ++ [e]) dev w1.
Proof.
  intros B V C E Q EO q c G. destruct (moves_collect P (fun _ _ _ _ => True) _ _ _ _ _ C) as (e' & E' & M).
  assert (e' = e). { destruct E as (R1 & c1 & A1 & A2 & ->). destruct E' as (R2 & c2 & A3 & A4 & ->). congruence. } subst e'.
  apply (moved_context_back _ _ _ _ _ (moves_moved _ _ _ _ _ M)) in G. destruct G as (c0 & G & -> & _).
  destruct (V _ _ G) as (V1 & V2 & V3 & V4). unfold view. rewrite quiet_policy, quiet_index, quiet_started, features_next by auto.
  assert (X : e_context e = p) by (destruct E as (R1 & c1 & _ & _ & ->); reflexivity).
  assert (F : c_features (rest_of [e] q c0) = fst (add_features q (features_of h log q, kept_flags [e] q) (o, y))).
  { assert (AF : fst (add_features q (features_of h log q, kept_flags [e] q) (o, y)) =
      if ctx_eqb p q then match kept_flags [e] q with true :: _ => [] | _ => features_of h log q end else features_of h log q).
    { specialize (EO q). unfold ends_on in EO. destruct o; try discriminate Q; cbn in *; try (rewrite <- EO; reflexivity);
        destruct p0; cbn; try (rewrite <- EO; reflexivity); rewrite EO; destruct (ctx_eqb p q); auto; destruct (kept_flags [e] q) as [|[|] ?]; reflexivity. }
    rewrite AF. unfold rest_of, wiped. destruct q as [i [|k]]; [|cbn; destruct (ctx_eqb p (i, Heap k)); exact V1].
    unfold kept_flags. cbn [snd filter]. rewrite X. destruct (ctx_eqb p (i, Sync)); cbn [map existsb]; [|exact V1].
    destruct (e_kept e); cbn; [reflexivity|exact V1]. }
  split; [exact F|]. unfold rest_of. destruct (wiped [e] q); cbn; auto.
Qed.

Lemma of_region_cons r e l : e_region e = r -> of_region r (e :: l) = e :: of_region r l.
Proof. intros E. unfold of_region. cbn. rewrite E, Nat.eqb_refl. reflexivity. Qed.

Lemma of_region_cons_other r i e l : e_region e = r -> i <> r -> of_region i (e :: l) = of_region i l.
Proof. intros E N. unfold of_region. cbn. rewrite E. destruct (Nat.eqb_spec r i); congruence. Qed.

Lemma inv_end_metric h log w r p x w' : inv h log w -> step P w (OpEndMetric r (Some p) x) = Ok (w', Done) ->
  exists l, inv (h ++ [(OpEndMetric r (Some p) x, Done)]) (log ++ l) w'.
Proof.
  intros I ST. assert (H := ST). cbn in H. apply bind_inv in H. destruct H as (w2 & H & E).
  inversion E; subst w2. clear E. unfold end_metric in H. apply bind_inv in H. destruct H as (w1 & H1 & H2).
  apply collect_context_collects in H1. destruct (collects_region _ _ _ _ _ H1) as [(R & ER) LV].
  destruct (moves_collect P nothing _ _ _ _ _ H1) as (e & EE & M1).
  set (o := OpEndMetric r (Some p) x) in *. assert (BL := i_balanced _ _ _ I).
  assert (V1 : views (h ++ [(o, Done)]) (log ++ [e]) (device_of h) w1).
  { eapply ended_views; [exact BL|apply (i_views _ _ _ I)|exact H1|exact EE|reflexivity|intros; reflexivity]. }
  assert (PE : forall i, pending w1 i = pending w i) by (eapply collects_pending_same; eauto).
  assert (N1 : no_own_sync w1) by (intros i q IQ; rewrite PE in IQ; apply (inv_no_own_sync _ _ _ I _ _ IQ)).
  destruct (collect_pending_accounted P nothing _ _ _ _ _ _ H2 V1 N1) as (l & M2 & F & A & K).
  destruct (entry_faithful _ _ _ _ _ _ _ _ EE (i_views _ _ _ I)) as (E1 & E2 & E3 & E4).
  assert (D : forall q, device_of (h ++ [(o, Done)]) q = device_of h q) by (intros; rewrite device_snoc; reflexivity).
  assert (AH := async_heap _ _ _ _ _ F).
  exists (e :: l). assert (CL : log ++ e :: l = (log ++ [e]) ++ l) by (rewrite <- app_assoc; reflexivity). eapply inv_settle; eauto.
  - eapply settled_moves. apply (moves_app _ _ _ _ _ _ _ M1 M2).
  - rewrite CL. apply views_heap; auto. eapply views_ext; [intros; symmetry; apply D|]. eapply moves_views; eauto.
  - intros q NC. rewrite CL, features_heap, features_next, D, quiet_policy by auto. destruct (i_fresh _ _ _ I _ NC) as (X1 & X2 & _ & X3).
    split; auto. rewrite X1. cbn. rewrite ctx_eqb_neq; [reflexivity|]. intros ->. apply NC, live_created, LV.
  - exists e, l. split; auto. split; auto. split; auto. split; auto. split; [apply quiet_faithful; auto|].
    apply (taken_here _ _ (device_of h)); [intros; symmetry; apply D|]. eapply Forall_impl; [|exact F]. intros e'. apply async_log.
  - intros i. change (end_call (o, Done)) with [(r, p)]. cbn [filter fst]. rewrite Nat.eqb_sym. destruct (Nat.eqb_spec i r) as [->|N]; cbn [map snd].
    + rewrite of_region_cons by auto. cbn [contexts_of map app]. rewrite E2. rewrite <- PE. rewrite <- Permutation_cons_append.
      constructor. apply A.
    + rewrite app_nil_r, (of_region_cons_other r) by auto. rewrite <- PE. apply A.
  - intros e' [<-|IE]; [rewrite E1; apply get_region_ok in ER; destruct ER; congruence|].
    intros X. apply (accounted_region _ _ _ _ A IE). assert (LL := settled_moves P _ _ _ _ M1). destruct LL as (_ & _ & _ & _ & LL & _).
    apply nth_error_None in X. apply nth_error_None. rewrite LL. exact X.
  - intros i q [Y|[]]. inversion Y; subst. eauto.
  - intros i q IP. split.
    + apply (i_heap _ _ _ I i). rewrite <- PE. eapply accounted_in; eauto.
    + intros LO. cbn in LO. apply Nat.eqb_eq in LO. subst i. rewrite D. rewrite Forall_forall in K. apply K; auto.
  - discriminate.
Qed.

(** Stopping a timer. *)
Lemma stop_views h log w p c now : views h log (device_of h) w -> get_context w p = Ok c ->
  views h log (fun q => if ctx_eqb p q then (true, None) else device_of h q)
    (set_context w p (mkContext (c_features c) (c_policy c) (c_idx c) (timer_stop now (c_timer c)))).
Proof.
  intros V EC q c' G. rewrite (get_set_context _ _ c) in G by auto. rewrite ctx_eqb_sym in G. unfold view.
  destruct (ctx_eqb p q) eqn:EQ.
  - apply ctx_eqb_eq in EQ. subst q. inversion G; subst c'. cbn. destruct (V _ _ EC) as (V1 & V2 & V3 & V4).
    split; auto. split; auto. split; auto. destruct (snd p).
    + destruct V4 as (e & ->). cbn. eauto.
    + rewrite V4. reflexivity.
  - apply V; auto.
Qed.

Lemma inv_end h log w r p now early w' : inv h log w -> step P w (OpEnd r (Some p) now early) = Ok (w', Done) ->
  exists l, inv (h ++ [(OpEnd r (Some p) now early, Done)]) (log ++ l) w'.
Proof.
  intros I ST. assert (H := ST). cbn in H. apply bind_inv in H. destruct H as (R & ER & H). apply bind_inv in H. destruct H as (w2 & H & E).
  inversion E; subst w2. clear E. unfold end_context in H. apply bind_inv in H. destruct H as (c & EC & H).
  set (o := OpEnd r (Some p) now early) in *. set (dev1 := fun q => if ctx_eqb p q then (true, None) else device_of h q).
  assert (BL := i_balanced _ _ _ I). assert (V1 := stop_views _ _ _ _ _ now (i_views _ _ _ I) EC). fold dev1 in V1.
  assert (S1 : settled [] w (set_context w p (mkContext (c_features c) (c_policy c) (c_idx c) (timer_stop now (c_timer c))))) by (eapply settled_set_context; eauto).
  assert (PE : forall i, pending (set_context w p (mkContext (c_features c) (c_policy c) (c_idx c) (timer_stop now (c_timer c)))) i = pending w i) by (intros; apply pending_set_context).
  assert (G1 : get_context (set_context w p (mkContext (c_features c) (c_policy c) (c_idx c) (timer_stop now (c_timer c)))) p =
    Ok (mkContext (c_features c) (c_policy c) (c_idx c) (timer_stop now (c_timer c)))) by (rewrite (get_set_context _ _ c) by auto; rewrite ctx_eqb_refl; reflexivity).
  set (w1 := set_context w p _) in *. clearbody w1.
  assert (D0 : forall q, ctx_eqb p q = false -> device_of (h ++ [(o, Done)]) q = device_of h q) by (intros q NE; rewrite device_snoc; cbn; rewrite NE; auto).
  assert (Dp : device_of (h ++ [(o, Done)]) p = (true, early)) by (rewrite device_snoc; cbn; rewrite ctx_eqb_refl; auto).
  assert (FR : forall l q, ~ created w q -> features_of (h ++ [(o, Done)]) (log ++ l) q = [] /\ policy_of (h ++ [(o, Done)]) q = 0 /\ device_of (h ++ [(o, Done)]) q = (false, None)).
  { intros l q NC. rewrite features_next, quiet_policy by auto. rewrite D0 by exact (ctx_false_not_created _ _ _ _ EC NC).
    destruct (i_fresh _ _ _ I _ NC) as (A & B & _ & C). split; auto. cbn. rewrite (ctx_false_not_created _ _ _ _ EC NC). exact A. }
  assert (LE : forall i, nth_error (w_regions w1) i <> None -> nth_error (w_regions w) i <> None).
  { intros i X Y. apply X. apply nth_error_None in Y. apply nth_error_None. destruct S1 as (_ & _ & _ & _ & L & _). lia. }
  destruct (is_sync_of r p) eqn:SY.
  - (* the sync context *)
    assert (p = (r, Sync)) by (destruct p as [q [|k]]; cbn in SY; [apply Nat.eqb_eq in SY; subst; auto|discriminate]). subst p.
    apply bind_inv in H. destruct H as (d & ED & H). destruct d as [metric|]; [|discriminate].
    apply collect_context_collects in H. destruct (moves_collect P nothing _ _ _ _ _ H) as (e & EE & M1).
    destruct (entry_faithful _ _ _ _ _ _ _ _ EE V1) as (E1 & E2 & E3 & E4).
    assert (PE' : forall i, pending w' i = pending w i) by (intros; rewrite <- PE; eapply collects_pending_same; eauto).
    exists [e]. eapply inv_settle; eauto.
    + apply (settled_app [] [e] _ _ _ S1). eapply settled_moves; eauto.
    + assert (V2 : views (h ++ [(o, Done)]) (log ++ [e]) dev1 w') by (eapply ended_views; [exact BL|exact V1|exact H|exact EE|reflexivity|intros; reflexivity]).
      intros q c' G. destruct (V2 _ _ G) as (X1 & X2 & X3 & X4). unfold view. split; auto. split; auto. split; auto.
      unfold dev1 in X4. destruct (ctx_eqb (r, Sync) q) eqn:EQ.
      * apply ctx_eqb_eq in EQ. subst q. exact X4.
      * rewrite D0 by auto. exact X4.
    + destruct (i_views _ _ _ I _ _ EC) as (_ & _ & _ & (e2 & V4)). rewrite V4 in ED. cbn in ED.
      destruct (started_of h r) as [start|] eqn:ES; [|discriminate]. cbn in ED.
      exists e, start. split; auto. split; auto. split; auto. split; auto. split; [apply quiet_faithful; auto|].
      split; [rewrite quiet_started; auto|]. congruence.
    + intros i. change (end_call (o, Done)) with [(r, (r, Sync))]. cbn [filter fst]. rewrite Nat.eqb_sym. destruct (Nat.eqb_spec i r) as [->|N]; cbn [map snd].
      * rewrite of_region_cons by auto. cbn [contexts_of map app]. rewrite E2, PE'. rewrite <- Permutation_cons_append. reflexivity.
      * rewrite app_nil_r, (of_region_cons_other r) by auto. rewrite PE'. reflexivity.
    + intros e' [<-|[]]. rewrite E1. apply get_region_ok in ER. destruct ER; congruence.
    + intros i q [Y|[]]. inversion Y; subst. split; eauto. exists c; auto.
    + intros i q IP. rewrite PE' in IP. split; [eapply (i_heap _ _ _ I); eauto|]. discriminate.
    + discriminate.
  - (* another context: it becomes pending *)
    apply bind_inv in H. destruct H as (R1 & ER1 & H).
    assert (S2 := settled_pending _ _ _ (r_pending R1 ++ [p]) ER1).
    assert (V2 : views h log dev1 (set_region w1 r (with_pending R1 (r_pending R1 ++ [p])))).
    { eapply moves_views; [apply (moves_pending P nothing); eauto|constructor|auto]. }
    assert (PE2 : forall i, pending (set_region w1 r (with_pending R1 (r_pending R1 ++ [p]))) i = if Nat.eqb i r then pending w r ++ [p] else pending w i).
    { intros i. rewrite pending_set by auto. rewrite PE. destruct (Nat.eqb_spec i r); auto. rewrite <- (PE r). unfold pending.
      apply get_region_ok in ER1. destruct ER1 as [-> _]. reflexivity. }
    set (w2 := set_region w1 r _) in *. clearbody w2.
    assert (exists w3, settled [] w2 w3 /\ (forall i, pending w3 i = pending w2 i) /\ views h log (device_of (h ++ [(o, Done)])) w3 /\ collect_pending P w3 r = Ok w').
    { destruct early as [ms|].
      - exists (complete w2 (p, ms)). split; [apply settled_complete|]. split; [apply complete_touched|]. split; auto.
        eapply views_ext; [|apply complete_views; exact V2]. intros q. unfold report_to, report, dev1. cbn.
        destruct (ctx_eqb p q) eqn:EQ; [apply ctx_eqb_eq in EQ; subst q; auto|rewrite D0; auto].
      - exists w2. split; [apply settled_refl|]. split; auto. split; auto.
        eapply views_ext; [|exact V2]. intros q. unfold dev1.
        destruct (ctx_eqb p q) eqn:EQ; [apply ctx_eqb_eq in EQ; subst q; auto|rewrite D0; auto]. }
    destruct H0 as (w3 & S3 & PE3 & V3 & HC). clear H.
    assert (N3 : no_own_sync w3).
    { intros i q IQ. rewrite PE3, PE2 in IQ. destruct (Nat.eqb_spec i r) as [->|N]; [|eapply inv_no_own_sync; eauto].
      apply in_app_or in IQ. destruct IQ as [IQ|[<-|[]]]; [eapply inv_no_own_sync; eauto|auto]. }
    destruct (collect_pending_accounted P nothing _ _ _ _ _ _ HC V3 N3) as (l & M & F & A & K).
    assert (HP : exists q k, p = (q, Heap k)).
    { destruct p as [q [|k]]; eauto. exfalso.
      assert (IN : In (q, Sync) (pending w3 r)) by (rewrite PE3, PE2, Nat.eqb_refl; apply in_or_app; right; left; auto).
      eapply Permutation_in in IN; [|apply A]. apply in_app_or in IN. destruct IN as [IN|IN].
      - apply in_map_iff in IN. destruct IN as (e & E1 & IN). apply filter_In in IN. destruct IN as [IN _].
        rewrite Forall_forall in F. destruct (F _ IN) as (_ & _ & o' & k & ms & X & _). congruence.
      - rewrite Forall_forall in K. apply K in IN. destruct IN as [_ IN]. apply IN. reflexivity. }
    exists l. eapply inv_settle; eauto.
    + assert (X := settled_app _ _ _ _ _ S1 (settled_app _ _ _ _ _ S2 (settled_app _ _ _ _ _ S3 (settled_moves P _ _ _ _ M)))). exact X.
    + assert (AH := async_heap _ _ _ _ _ F). apply views_heap; auto. apply quiet_views; auto. eapply moves_views; eauto.
    + destruct HP as (q & k & ->). unfold o, taken. eapply taken_asynchronous; [apply (i_balanced _ _ _ I)|reflexivity| |exact F]. auto.
    + intros i. change (end_call (o, Done)) with [(r, p)]. cbn [filter fst]. rewrite Nat.eqb_sym. destruct (Nat.eqb_spec i r) as [->|N]; cbn [map snd].
      * assert (X := A r). rewrite PE3, PE2, Nat.eqb_refl in X. exact X.
      * rewrite app_nil_r. assert (X := A i). rewrite PE3, PE2 in X. destruct (Nat.eqb_spec i r); [congruence|]. exact X.
    + intros e' IE. assert (X := accounted_region _ _ _ _ A IE). apply LE. intros Y. apply X. apply nth_error_None in Y. apply nth_error_None.
      destruct S2 as (_ & _ & _ & _ & L2 & _). destruct S3 as (_ & _ & _ & _ & L3 & _). lia.
    + intros i q [Y|[]]. inversion Y; subst. split; eauto. exists c; auto.
    + intros i q IP. split.
      * assert (IP3 := accounted_in _ _ _ _ _ A IP). rewrite PE3, PE2 in IP3. destruct (Nat.eqb i r); [|eapply (i_heap _ _ _ I); eauto].
        apply in_app_or in IP3. destruct IP3 as [IP3|[<-|[]]]; [eapply (i_heap _ _ _ I); eauto|]. destruct HP as (? & ? & ->). discriminate.
      * intros LO. destruct HP as (q' & k & ->). unfold o in LO. cbn in LO. apply Nat.eqb_eq in LO. subst i.
        rewrite Forall_forall in K. apply K; auto.
    + discriminate.
Qed.

(** ** Creating regions and contexts *)

Lemma inv_looked_other h log w w' o x : inv h log w -> (forall r, pending w' r = pending w r) -> (forall r, looks_at r o = false) ->
  forall r p, In p (pending w' r) -> forall h1 o1 x1 h2, h ++ [(o, x)] = h1 ++ (o1, x1) :: h2 -> looks_at r o1 = true ->
    In p (ended_on (h1 ++ [(o1, x1)]) r) -> device_of (h1 ++ [(o1, x1)]) p = (true, None).
Proof.
  intros I PE NL r p IP h1 o1 x1 h2 EH LO IE. rewrite PE in IP.
  destruct (@exists_last _ ((o1, x1) :: h2)) as (h3 & [o2 x2] & E3); [discriminate|].
  rewrite E3 in EH. rewrite app_assoc in EH. apply app_inj_tail in EH. destruct EH as [EH EO]. inversion EO; subst o2 x2. clear EO.
  destruct h3 as [|y h3].
  - cbn in E3. inversion E3; subst o1 x1 h2. rewrite NL in LO. discriminate.
  - cbn in E3. inversion E3; subst y. eapply (i_looked _ _ _ I); eauto.
Qed.

Lemma of_region_out h log w r : inv h log w -> nth_error (w_regions w) r = None -> of_region r log = [] /\ kept_for r log = [].
Proof.
  intros I N. assert (L : forall e, In e log -> Nat.eqb (e_region e) r = false).
  { intros e IE. apply (i_log _ _ _ I) in IE. apply nth_error_None in N. apply Nat.eqb_neq. lia. }
  clear I. unfold kept_for, of_region. induction log as [|e log IH]; auto. cbn.
  rewrite (L e) by (left; auto). cbn. apply IH. intros; apply L; right; auto.
Qed.

Lemma inv_region h log w nf nm np mt info yaml init w' x : inv h log w ->
  step P w (OpRegion nf nm np mt info yaml init) = Ok (w', x) ->
  inv (h ++ [(OpRegion nf nm np mt info yaml init, x)]) (log ++ []) w'.
Proof.
  intros I ST. assert (H := ST). cbn in H. apply bind_inv in H. destruct H as ([w1 r] & H & E). inversion E; subst w1 x. clear E.
  destruct (new_region_spec P _ _ _ _ _ _ _ _ _ _ H) as (-> & v & mn0 & ps0 & mn & ps & info' & m0 & _ & _ & _ & (GL & ws & R & EV & FW & BL & _) & EW & CW & RW & XW & RG).
  set (o := OpRegion nf nm np mt info yaml init) in *. set (n := List.length (w_regions w)) in *.
  set (wm := mkWorld (w_config w) (w_rank w) ws (w_registry w) (w_executions w) (w_files w)).
  assert (S : settled [] w wm) by (apply (settled_training P (auto_data (w_config w))); split; [repeat split|exact FW]).
  assert (LW : List.length ws = n) by (destruct S as (_ & _ & _ & _ & L & _); exact L).
  assert (RE : forall i, nth_error (w_regions w') i = if Nat.eqb i n then Some R else nth_error ws i).
  { intros i. rewrite EW, EV. destruct (Nat.eqb_spec i n) as [->|N].
    - rewrite nth_error_app2 by lia. rewrite LW, Nat.sub_diag. reflexivity.
    - destruct (Nat.ltb_spec i n). { apply nth_error_app1; lia. }
      rewrite (proj2 (nth_error_None ws i)) by lia. apply nth_error_None. rewrite app_length, LW. cbn. lia. }
  destruct BL as (B1 & B2 & B3 & B4 & B5 & B6 & B7 & B8 & B9 & B10).
  assert (NN : nth_error (w_regions w) n = None) by (apply nth_error_None; unfold n; lia).
  assert (PE : forall i, pending w' i = pending w i).
  { intros i. unfold pending. rewrite RE. destruct (Nat.eqb_spec i n) as [->|N]; [rewrite NN; auto|].
    symmetry. exact (eq_sym (training_pending_same P (auto_data (w_config w)) w wm (conj (conj eq_refl (conj eq_refl (conj eq_refl eq_refl))) FW) i)). }
  assert (GC : forall p, get_context w' p = if Nat.eqb (fst p) n then match snd p with Sync => Ok (r_sync R) | Heap k => UB end else get_context wm p).
  { intros p. unfold get_context. rewrite RE. cbn. destruct (Nat.eqb (fst p) n); auto. rewrite B1, B9. destruct (snd p) as [|[|k]]; reflexivity. }
  assert (VM : views h log (device_of h) wm) by (eapply moves_views with (Q := fun c => auto_data c); [|constructor|apply (i_views _ _ _ I)];
     apply moves_train; split; [repeat split|exact FW]).
  assert (D : forall q, device_of (h ++ [(o, GotRegion n)]) q = device_of h q) by (intros; rewrite device_snoc; reflexivity).
  assert (CR : forall p, created w p -> created w' p).
  { intros p C. apply (created_settled _ _ _ _ S) in C. destruct C as (R1 & E1 & K1). exists R1. split; auto. rewrite RE.
    cbn in E1. destruct (Nat.eqb_spec (fst p) n) as [E|N]; auto. exfalso. assert (fst p < List.length ws)%nat by (apply nth_error_Some; congruence). lia. }
  assert (BK : forall i R', nth_error (w_regions w') i = Some R' -> (i = n /\ R' = R) \/
    exists R0, nth_error (w_regions w) i = Some R0 /\ settled_region w [] i R0 R').
  { intros i R' Ei. rewrite RE in Ei. destruct (Nat.eqb_spec i n) as [->|N]; [left; split; congruence|right].
    apply (settled_back _ _ _ _ _ S); auto. }
  assert (NMS : region_names w' = region_names w ++ [region_name nm]).
  { unfold region_names. rewrite EW, EV, map_app. cbn. f_equal; [|f_equal; exact B2].
    change (region_names wm = region_names w). apply names_same; auto. intros i Ri Ei. destruct S as (_ & _ & _ & _ & _ & S6 & _).
    destruct (S6 _ _ Ei) as (Ri' & Ei' & (SS & _) & _). exists Ri'. split; auto. apply SS. }
  rewrite app_nil_r. constructor.
  - eapply run_history; eauto. apply (i_run _ _ _ I).
  - rewrite CW. apply (i_config _ _ _ I).
  - rewrite RW. apply (i_rank _ _ _ I).
  - apply (registry_register w w' (region_name nm) n eq_refl RG); [exact NMS|apply (i_reg _ _ _ I)].
  - rewrite created_snoc, <- (i_names _ _ _ I). exact NMS.
  - rewrite <- (app_nil_r log). apply (taken_balanced _ _ _ _ _ h (i_balanced _ _ _ I)). reflexivity.
  - intros p c G. rewrite GC in G. destruct (Nat.eqb_spec (fst p) n) as [E|N].
    + destruct p as [p1 [|k]]; cbn in *; [|discriminate]. subst p1. inversion G; subst c. rewrite B8.
      assert (NC : ~ created w (n, Sync)) by (intros (R1 & E1 & _); cbn in E1; congruence).
      destruct (i_fresh _ _ _ I _ NC) as (F1 & F2 & F3 & F4). destruct (i_fresh_region _ _ _ I _ NN) as (F5 & F6).
      unfold view. rewrite quiet_features, quiet_policy, quiet_index by first [reflexivity|apply (i_balanced _ _ _ I)]. rewrite F1, F2, F3. cbn.
      rewrite quiet_started, F5 by reflexivity. cbn. split; auto. split; auto. split; auto. eauto.
    + assert (V := VM _ _ G). destruct V as (V1 & V2 & V3 & V4). unfold view.
      rewrite quiet_features, quiet_policy, quiet_index, quiet_started, D by first [reflexivity|apply (i_balanced _ _ _ I)]. auto.
  - intros p NC. assert (NC0 : ~ created w p) by auto. rewrite quiet_features, quiet_policy, quiet_index, D by first [reflexivity|apply (i_balanced _ _ _ I)].
    apply (i_fresh _ _ _ I _ NC0).
  - intros i E. rewrite quiet_started, quiet_begins by reflexivity. apply (i_fresh_region _ _ _ I). apply nth_error_None in E. apply nth_error_None.
    rewrite EW, EV, app_length in E. cbn in E. rewrite LW in E. fold n. lia.
  - intros i R' Ei. rewrite quiet_begins by reflexivity. destruct (BK _ _ Ei) as [[-> ->]|(R0 & E0 & _ & _ & X & _)].
    + rewrite B6. symmetry. apply (i_fresh_region _ _ _ I _ NN).
    + rewrite X. apply (i_idx _ _ _ I); auto.
  - rewrite <- (app_nil_r log). econstructor; [apply (i_records _ _ _ I)|exact ST|reflexivity|].
    split. { rewrite XW, Z.add_0_r, Z.mod_small; auto. apply (exec_range _ _ _ I). }
    intros i Ri Ri' Ei Ei'. destruct (BK _ _ Ei') as [[-> ->]|(R0 & E0 & (_ & N1 & _ & N3) & _ & _ & _ & DS & F)]; [congruence|].
    rewrite Ei in E0. inversion E0; subst R0. auto.
  - rewrite XW. apply (i_exec _ _ _ I).
  - intros i. rewrite ended_on_snoc. cbn. rewrite app_nil_r, PE. apply (i_count _ _ _ I).
  - intros i p IP. rewrite PE in IP. apply (i_heap _ _ _ I _ _ IP).
  - apply (inv_looked_other _ _ _ _ _ _ I PE). reflexivity.
  - intros i wss y ID. apply in_app_or in ID. destruct ID as [ID|[ID|[]]]; [|discriminate].
    destruct (i_dead _ _ _ I _ _ _ ID) as (PN & Ri & Ei & Ai). rewrite PE. split; auto.
    destruct S as (_ & _ & _ & _ & _ & S6 & _). destruct (S6 _ _ Ei) as (Ri' & Ei' & _ & Al & _). exists Ri'. split.
    + rewrite RE. destruct (Nat.eqb_spec i n) as [->|N]; [congruence|auto].
    + destruct (r_alive Ri'); auto. rewrite Al in Ai; auto.
  - intros i wss y ID. apply in_app_or in ID. destruct ID as [ID|[ID|[]]]; [|discriminate]. rewrite CW. apply (i_period _ _ _ I _ _ _ ID).
  - intros e IE. rewrite EW, EV, app_length. cbn. apply (i_log _ _ _ I) in IE. lia.
  - intros p NS G [c L]. rewrite GC in L. destruct (Nat.eqb_spec (fst p) n) as [E|N].
    + destruct (snd p); [congruence|discriminate].
    + eapply (i_gone _ _ _ I); eauto. destruct S as (_ & _ & _ & _ & _ & _ & S7 & _). apply (S7 p). exists c; auto.
  - intros p NS G. apply CR. apply (i_was _ _ _ I); auto.
  - apply (i_nodup _ _ _ I).
  - intros i R' Ei. rewrite CW. destruct (BK _ _ Ei) as [[-> ->]|(R0 & E0 & _ & _ & _ & _ & _ & F)].
    + destruct (of_region_out _ _ _ _ I NN) as [-> _]. apply flags_weaken. auto.
    + assert (X := i_flags _ _ _ I _ _ E0). assert (Y := flags_app _ _ _ _ _ X F). cbn in Y. rewrite app_nil_r in Y. exact Y.
  - intros i R' Ei. destruct (BK _ _ Ei) as [[-> ->]|(R0 & E0 & (SS & N1 & N2 & N3) & _ & _ & _ & DS & _)].
    + exists h, o, [], w', R. split; auto. split. { eapply run_history; eauto. apply (i_run _ _ _ I). }
      split; auto. destruct (of_region_out _ _ _ _ I NN) as [ON ->]. split; [reflexivity|]. split; [apply same_static_refl|]. split; auto.
      unfold trace_lines. change (taken_for n log) with (of_region n log). rewrite ON. cbn. destruct (truthy _); rewrite app_nil_r; auto.
    + destruct (i_data _ _ _ I _ _ E0) as (h1 & o1 & h2 & w1 & R1 & EH & RU & ER1 & DI & ST1 & NM & TR).
      exists h1, o1, (h2 ++ [(o, GotRegion n)]), w1, R1. split; [rewrite EH, <- app_assoc; reflexivity|]. split; auto. split; auto.
      cbn in DS. inversion DS as [DE]. split; [congruence|]. split; [eapply same_static_trans; eauto|]. split; [congruence|].
      rewrite N3, TR, trace_lines_nil, app_nil_r. reflexivity.
Qed.

Definition begun (w : world) (r : nat) (async : bool) (fs : list f32) (now : Z * Z) (w' : world) (p : ctxptr) : Prop :=
  exists R, get_region w r = Ok R /\ p = (r, if async then Heap (List.length (r_heap R)) else Sync) /\
    same_globals w w' /\ List.length (w_regions w') = List.length (w_regions w) /\ (forall i, pending w' i = pending w i) /\
    (forall i Ri, nth_error (w_regions w) i = Some Ri -> exists Ri', nth_error (w_regions w') i = Some Ri' /\
      same_static Ri Ri' /\ r_alive Ri' = r_alive Ri /\ r_idx Ri' = (if Nat.eqb i r then r_idx Ri + 1 else r_idx Ri) /\
      r_dataset Ri' = r_dataset Ri /\ r_model Ri' = r_model Ri /\
      List.length (r_heap Ri') = (if Nat.eqb i r then if async then S (List.length (r_heap Ri)) else List.length (r_heap Ri) else List.length (r_heap Ri)) /\
      r_trace Ri' = r_trace Ri /\ r_current Ri' = (if Nat.eqb i r then Some p else r_current Ri)) /\
    (forall q, q <> p -> get_context w' q = get_context w q) /\
    get_context w' p = Ok (mkContext fs (if async then 0 else c_policy (r_sync R)) (r_idx R)
      (if async then Events false None else timer_start now (c_timer (r_sync R)))).

Lemma begin_context_begun w r async now w' p : begin_context w r async now = Ok (w', p) -> begun w r async [] now w' p.
Proof.
  intros H. destruct (begin_context_spec _ _ _ _ _ _ H) as (R & A & B & C & D & E & F & G & K & _).
  exists R. split; auto. split; auto. split; auto. split; auto. split; auto. split; auto.
  intros i Ri Ei. destruct (F _ _ Ei) as (Ri' & F1 & F2 & F3 & F4 & F5 & F6 & F7 & F8 & F9). exists Ri'. repeat (split; [auto; fail|]). auto.
Qed.

Lemma begin_features_begun w r fs now w' p : begin_features w r fs now = Ok (w', p) -> begun w r false fs now w' p.
Proof.
  unfold begin_features. intros H. apply bind_inv in H. destruct H as ([w1 q] & H & K). apply bind_inv in K. destruct K as (c & EC & K).
  inversion K; subst q w'. clear K. apply begin_context_begun in H. destruct H as (R & A & B & C & D & E & F & G & K).
  rewrite K in EC. inversion EC; subst c. clear EC. cbn.
  exists R. split; auto. split; auto. split; [eapply same_globals_trans; [exact C|apply set_context_globals]|].
  split; [rewrite set_context_length; auto|]. split; [intros; rewrite pending_set_context; auto|]. split.
  - intros i Ri Ei. destruct (F _ _ Ei) as (Ri' & F1 & F2 & F3 & F4 & F5 & F6 & F7 & F8 & F9).
    destruct (set_context_regions w1 p (mkContext fs (c_policy (r_sync R)) (r_idx R) (timer_start now (c_timer (r_sync R)))) i Ri' F1) as
      (R2 & G1 & G2 & G3 & G4 & G5 & G6 & _ & G8 & G9 & G7); [congruence|].
    exists R2. split; auto. split; [eapply same_static_trans; eauto|]. repeat (split; [congruence|]). congruence.
  - split.
    + intros q NQ. rewrite (get_set_context _ _ _ _ _ K). destruct (ctx_eqb q p) eqn:X; [apply ctx_eqb_eq in X; congruence|auto].
    + rewrite (get_set_context _ _ _ _ _ K), ctx_eqb_refl. reflexivity.
Qed.

Lemma inv_begun h log w o r async fs now w' p : inv h log w -> step P w o = Ok (w', GotContext p) ->
  (o = OpBegin r async now /\ fs = [] \/ o = OpBeginFeatures r fs now /\ async = false) ->
  begun w r async fs now w' p -> inv (h ++ [(o, GotContext p)]) (log ++ []) w'.
Proof.
  intros I ST HO (R & ER & EP & GL & LE & PE & RE & CO & CP).
  destruct GL as (G1 & G2 & G3 & G4).
  apply get_region_ok in ER. destruct ER as [ER AR].
  assert (BO : begins o = Some r) by (destruct HO as [[-> _]|[-> _]]; reflexivity).
  assert (IB : forall i, is_begin_of i (o, GotContext p) = Nat.eqb r i) by (intros; unfold is_begin_of; cbn; rewrite BO; auto).
  assert (D : forall q, device_of (h ++ [(o, GotContext p)]) q = device_of h q) by (intros; rewrite device_snoc; destruct HO as [[-> _]|[-> _]]; reflexivity).
  assert (FP : forall q, policy_of (h ++ [(o, GotContext p)]) q = policy_of h q) by (intros; rewrite policy_snoc; destruct HO as [[-> _]|[-> _]]; reflexivity).
  assert (FF : forall q, features_of (h ++ [(o, GotContext p)]) log q = if ctx_eqb p q then fs else features_of h log q)
    by (intros; rewrite features_snoc by apply (i_balanced _ _ _ I); destruct HO as [[-> ->]|[-> _]]; cbn; destruct (ctx_eqb p q); reflexivity).
  assert (FI : forall q, index_of (h ++ [(o, GotContext p)]) q = if ctx_eqb p q then count_begins h r else index_of h q).
  { intros q. rewrite index_snoc, IB. cbn. destruct (ctx_eqb p q) eqn:EQ.
    - apply ctx_eqb_eq in EQ. subst q. rewrite EP. cbn. rewrite Nat.eqb_refl. reflexivity.
    - destruct (Nat.eqb r (fst q)); auto. }
  assert (FS : forall i, started_of (h ++ [(o, GotContext p)]) i = if Nat.eqb r i && negb async then Some now else started_of h i).
  { intros i. rewrite started_snoc. destruct HO as [[-> _]|[-> ->]]; cbn; [destruct async|]; cbn; destruct (Nat.eqb r i); auto. }
  assert (CR : forall q, created w q -> created w' q).
  { intros q (R1 & E1 & K1). destruct (RE _ _ E1) as (R1' & E1' & _ & _ & _ & _ & _ & HL & _). exists R1'. split; auto.
    destruct (snd q); auto. rewrite HL. destruct (Nat.eqb (fst q) r); [destruct async|]; lia. }
  assert (NP : forall q c, get_context w' q = Ok c -> ctx_eqb p q = false -> get_context w q = Ok c).
  { intros q c G EQ. rewrite <- CO; auto. intros ->. rewrite ctx_eqb_refl in EQ. discriminate. }
  assert (NOTC : async = true -> ~ created w p).
  { intros -> (R1 & E1 & K1). rewrite EP in *. cbn in *. rewrite ER in E1. inversion E1; subst R1. lia. }
  assert (LP : async = false -> get_context w p = Ok (r_sync R)).
  { intros ->. rewrite EP. unfold get_context. cbn. rewrite ER, AR. reflexivity. }
  assert (BK : forall i R', nth_error (w_regions w') i = Some R' -> exists Ri, nth_error (w_regions w) i = Some Ri /\
    r_idx R' = (if Nat.eqb i r then r_idx Ri + 1 else r_idx Ri) /\ r_dataset R' = r_dataset Ri /\ r_model R' = r_model Ri /\ same_static Ri R' /\ r_trace R' = r_trace Ri /\
    r_current R' = (if Nat.eqb i r then Some p else r_current Ri)).
  { intros i R' Ei. destruct (nth_error (w_regions w) i) as [Ri|] eqn:E0.
    - destruct (RE _ _ E0) as (R1' & E1' & X0 & _ & X1 & X2 & X3 & _ & X4 & X5). exists Ri. rewrite Ei in E1'. inversion E1'; subst R1'. auto 10.
    - apply nth_error_None in E0. assert (i < List.length (w_regions w'))%nat by (apply nth_error_Some; congruence). lia. }
  assert (NMS : region_names w' = region_names w).
  { apply names_same; auto. intros i Ri Ei. destruct (RE _ _ Ei) as (Ri' & Ei' & SS & _). exists Ri'. split; auto. apply SS. }
  rewrite app_nil_r. constructor.
  - eapply run_history; eauto. apply (i_run _ _ _ I).
  - rewrite G1. apply (i_config _ _ _ I).
  - rewrite G2. apply (i_rank _ _ _ I).
  - apply (registry_same w); [auto|exact NMS|apply (i_reg _ _ _ I)].
  - rewrite created_snoc, NMS, (i_names _ _ _ I). replace (creates o) with (@nil bytes); [rewrite app_nil_r; auto|]. destruct o; auto; discriminate.
  - rewrite <- (app_nil_r log). apply (taken_balanced _ _ _ _ _ h (i_balanced _ _ _ I)). destruct HO as [[-> _]|[-> _]]; reflexivity.
  - intros q c G. unfold view. rewrite FF, FP, FI, FS, D. destruct (ctx_eqb p q) eqn:EQ.
    + apply ctx_eqb_eq in EQ. subst q. rewrite CP in G. inversion G; subst c. clear G. cbn. split; auto.
      rewrite (i_idx _ _ _ I _ _ ER). destruct async.
      * destruct (i_fresh _ _ _ I _ (NOTC eq_refl)) as (F1 & F2 & F3 & F4). rewrite F2, F4, EP. cbn. auto.
      * destruct (i_views _ _ _ I _ _ (LP eq_refl)) as (V1 & V2 & V3 & V4). rewrite EP in V4 |- *. cbn in *. rewrite Nat.eqb_refl. cbn.
        split; [rewrite <- EP; auto|]. split; auto. destruct V4 as (e & ->). cbn. eauto.
    + assert (G' := NP _ _ G EQ). destruct (i_views _ _ _ I _ _ G') as (V1 & V2 & V3 & V4). split; auto. split; auto. split; auto.
      destruct (snd q) as [|k] eqn:SQ; auto. destruct (Nat.eqb_spec r (fst q)) as [E|N]; auto. destruct async; auto.
      exfalso. rewrite EP in EQ. destruct q as [q1 q2]. cbn in *. subst. rewrite ctx_eqb_refl in EQ. discriminate.
  - intros q NC. assert (NC0 : ~ created w q) by auto.
    assert (EQ : ctx_eqb p q = false).
    { destruct (ctx_eqb p q) eqn:X; auto. apply ctx_eqb_eq in X. subst q. exfalso. apply NC. apply live_created. eexists; eauto. }
    rewrite FF, FP, FI, D, EQ. apply (i_fresh _ _ _ I _ NC0).
  - intros i E. apply nth_error_None in E. rewrite LE in E. apply nth_error_None in E.
    destruct (i_fresh_region _ _ _ I _ E) as (A & B). rewrite FS, begins_snoc, IB.
    destruct (Nat.eqb_spec r i) as [->|N]; [congruence|]. cbn. rewrite A, B. auto.
  - intros i R' Ei. destruct (BK _ _ Ei) as (Ri & E0 & X & _). rewrite X, begins_snoc, IB, (Nat.eqb_sym r i).
    rewrite (i_idx _ _ _ I _ _ E0). destruct (Nat.eqb i r); lia.
  - rewrite <- (app_nil_r log). econstructor; [apply (i_records _ _ _ I)|exact ST|destruct HO as [[-> _]|[-> _]]; reflexivity|].
    split. { rewrite G4, Z.add_0_r, Z.mod_small; auto. apply (exec_range _ _ _ I). }
    intros i Ri Ri' Ei Ei'. destruct (BK _ _ Ei') as (R0 & E0 & _ & DS & MS & _ & TR & CU). rewrite Ei in E0. inversion E0; subst R0.
    split; [cbn; congruence|]. split; [cbn; unfold keeps; rewrite MS; apply flags_nil|]. split; [rewrite trace_lines_nil, app_nil_r; auto|].
    unfold current_after. rewrite IB, CU, (Nat.eqb_sym r i). cbn. destruct (Nat.eqb i r); auto.
  - rewrite G4. apply (i_exec _ _ _ I).
  - intros i. rewrite ended_on_snoc. replace (end_call (o, GotContext p)) with (@nil (nat * ctxptr)) by (destruct HO as [[-> _]|[-> _]]; reflexivity).
    cbn. rewrite app_nil_r, PE. apply (i_count _ _ _ I).
  - intros i q IP. rewrite PE in IP. apply (i_heap _ _ _ I _ _ IP).
  - apply (inv_looked_other _ _ _ _ _ _ I PE). destruct HO as [[-> _]|[-> _]]; reflexivity.
  - intros i wss y ID. apply in_app_or in ID. destruct ID as [ID|[ID|[]]]; [|destruct HO as [[-> _]|[-> _]]; discriminate].
    destruct (i_dead _ _ _ I _ _ _ ID) as (PN & Ri & Ei & Ai). rewrite PE. split; auto.
    destruct (RE _ _ Ei) as (Ri' & Ei' & _ & Al & _). exists Ri'. split; auto. congruence.
  - intros i wss y ID. apply in_app_or in ID. destruct ID as [ID|[ID|[]]]; [|destruct HO as [[-> _]|[-> _]]; discriminate]. rewrite G1. apply (i_period _ _ _ I _ _ _ ID).
  - intros e IE. rewrite LE. apply (i_log _ _ _ I); auto.
  - intros q NS G [c L]. destruct (ctx_eqb p q) eqn:EQ.
    + apply ctx_eqb_eq in EQ. subst q. destruct async; [|rewrite EP in NS; cbn in NS; congruence].
      apply (NOTC eq_refl). apply (i_was _ _ _ I); auto.
    + eapply (i_gone _ _ _ I); eauto. exists c. eauto.
  - intros q NS G. apply CR. apply (i_was _ _ _ I); auto.
  - apply (i_nodup _ _ _ I).
  - intros i R' Ei. unfold keeps. rewrite G1. destruct (BK _ _ Ei) as (Ri & E0 & _ & _ & -> & _). apply (i_flags _ _ _ I _ _ E0).
  - intros i R' Ei. destruct (BK _ _ Ei) as (Ri & E0 & _ & -> & MS & SS & TC & _).
    destruct (i_data _ _ _ I _ _ E0) as (h1 & o1 & h2 & w1 & R1 & EH & RU & ER1 & DI & ST1 & NM & TR).
    exists h1, o1, (h2 ++ [(o, GotContext p)]), w1, R1. split; [rewrite EH, <- app_assoc; reflexivity|]. split; auto.
    split; auto. split; auto. split; [eapply same_static_trans; eauto|]. split; congruence.
Qed.

(** ** Runs *)

Lemma inv_step h log w o x w' : inv h log w -> explicit o = true -> step P w o = Ok (w', x) ->
  exists l, inv (h ++ [(o, x)]) (log ++ l) w'.
Proof.
  intros I EX ST. assert (H := ST). destruct o as [nf nm np mt info yaml init|r async now|r fs now|r p y|r p D|r p now early|r p y|r st collect force|st collect|r|r ws|ws|p ms];
    try (destruct p as [p|]; [|discriminate]); try discriminate; cbn in H.
  - exists []. apply inv_region with (w := w); auto.
  - apply bind_inv in H. destruct H as ([w1 p] & H & E). inversion E; subst w1 x. exists [].
    eapply inv_begun; eauto. apply begin_context_begun; eauto.
  - apply bind_inv in H. destruct H as ([w1 p] & H & E). inversion E; subst w1 x. exists [].
    eapply inv_begun; eauto. apply begin_features_begun; eauto.
  - apply bind_inv in H. destruct H as (R & _ & H). apply bind_inv in H. destruct H as (w1 & _ & E). inversion E; subst w1 x.
    exists []. apply inv_set_feature with (w := w); auto.
  - exists []. apply inv_get_policy with (w := w); auto.
  - apply bind_inv in H. destruct H as (R & _ & H). apply bind_inv in H. destruct H as (w1 & _ & E). inversion E; subst w1 x.
    apply inv_end with (w := w); auto.
  - apply bind_inv in H. destruct H as (w1 & _ & E). inversion E; subst w1 x. apply inv_end_metric with (w := w); auto.
  - apply bind_inv in H. destruct H as (w1 & H & E). inversion E; subst w1 x. apply inv_train with (w := w); auto.
  - apply bind_inv in H. destruct H as (w1 & H & E). inversion E; subst w1 x. apply inv_train_all with (w := w); auto.
  - apply bind_inv in H. destruct H as (w1 & H & E). inversion E; subst w1 x. apply inv_collect with (w := w); auto.
  - apply bind_inv in H. destruct H as (w1 & H & E). inversion E; subst w1 x. apply inv_destroy with (w := w); auto.
  - inversion H; subst w' x. exists []. apply inv_complete; auto.
Qed.

Lemma run_snoc_inv w os o w' xs : run P w (os ++ [o]) = Ok (w', xs) ->
  exists w1 xs1 x, run P w os = Ok (w1, xs1) /\ step P w1 o = Ok (w', x) /\ xs = xs1 ++ [x].
Proof.
  revert w xs. induction os as [|o' os IH]; cbn [run app]; intros w xs H.
  - apply bind_inv in H. destruct H as ([w2 x] & E & H). inversion H; subst. exists w, [], x. auto.
  - apply bind_inv in H. destruct H as ([w2 x] & E & H). apply bind_inv in H. destruct H as ([w3 xs3] & E3 & H). inversion H; subst.
    destruct (IH _ _ E3) as (w1 & xs1 & x1 & A & B & ->). exists w1, (x :: xs1), x1. rewrite E. cbn. rewrite A. auto.
Qed.

Lemma run_length w os : forall w' xs, run P w os = Ok (w', xs) -> List.length xs = List.length os.
Proof.
  revert w. induction os as [|o os IH]; cbn; intros w w' xs H; [inversion H; auto|].
  apply bind_inv in H. destruct H as ([w2 x] & E & H). apply bind_inv in H. destruct H as ([w3 xs3] & E3 & H). inversion H; subst.
  cbn. f_equal. eauto.
Qed.

Lemma combine_snoc {A B} (a : list A) (b : list B) x y : List.length a = List.length b -> combine (a ++ [x]) (b ++ [y]) = combine a b ++ [(x, y)].
Proof. revert b. induction a; destruct b; cbn; intros; try discriminate; auto. f_equal. auto. Qed.

Lemma inv_run : w_regions w0 = [] -> w_executions w0 = 0 -> w_registry w0 = [] -> forall os w xs, forallb explicit os = true -> run P w0 os = Ok (w, xs) ->
  exists log, inv (combine os xs) log w.
Proof.
  intros R0 X0 G0 os. induction os as [|o os IH] using rev_ind; intros w xs EX H.
  - cbn in H. inversion H; subst w xs. exists []. cbn.
    assert (NR : forall r, nth_error (w_regions w0) r = None) by (intros; rewrite R0; destruct r; auto).
    assert (PN : forall r, pending w0 r = []) by (intros; unfold pending; rewrite NR; auto).
    constructor; cbn; auto; try (intros; rewrite ?NR, ?PN in *; try discriminate; try contradiction; auto; fail).
    + apply same_persistent_refl.
    + split; [rewrite G0; constructor|]. intros n r. unfold first_named, region_names. rewrite G0, R0. cbn. split; [intros []|intros [A _]; destruct r; discriminate].
    + unfold region_names. rewrite R0. reflexivity.
    + intros r. reflexivity.
    + intros p c G. unfold get_context in G. rewrite NR in G. discriminate.
    + constructor.
    + constructor.
  - rewrite forallb_app in EX. apply andb_prop in EX. destruct EX as [EX1 EX2]. cbn in EX2. rewrite andb_true_r in EX2.
    destruct (run_snoc_inv _ _ _ _ _ H) as (w1 & xs1 & x & A & B & ->).
    destruct (IH _ _ EX1 A) as (log & I). rewrite combine_snoc by (symmetry; eapply run_length; eauto).
    destruct (inv_step _ _ _ _ _ _ I EX2 B) as (l & I'). eauto.
Qed.
End Platform.
