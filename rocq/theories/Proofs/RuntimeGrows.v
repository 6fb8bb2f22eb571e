(** What no call takes back: the settings of a region, the text of its trace, its end. *)
From Coq Require Import ZArith Bool Ascii String Lia List.
From Verif Require Import Model.Base Model.Float Model.DatasetM Model.ParserM Model.DatasetIO Model.ModelStringM Model.PolicyModelsM Model.ConfigM Model.RuntimeM
  Spec.RuntimeSpec Proofs.TreeFacts Proofs.RuntimeFacts Proofs.RuntimeCollect.
Import ListNotations.
Open Scope Z_scope.

(** Region number i before and after. *)
Definition region_grows (R R' : region) : Prop :=
  same_static R R' /\ (exists t, r_trace R' = r_trace R ++ t) /\ (r_alive R = false -> r_alive R' = false /\ r_trace R' = r_trace R).

Lemma region_grows_refl R : region_grows R R.
Proof. split; [apply same_static_refl|]. split; [exists []; rewrite app_nil_r; reflexivity|auto]. Qed.

Lemma region_grows_trans a b c : region_grows a b -> region_grows b c -> region_grows a c.
Proof.
  intros (A & (t & B) & C) (A' & (t' & B') & C'). split; [eapply same_static_trans; eauto|]. split; [exists (t ++ t'); rewrite B', B, app_assoc; reflexivity|].
  intros D. destruct (C D) as [D1 D2]. destruct (C' D1) as [D3 D4]. split; auto. congruence.
Qed.

Section Grows.
Variable P : platform.
Variable w0 : world.

Definition grows (w : world) : Prop :=
  w_rank w = w_rank w0 /\ cf_trace_csv (w_config w) = cf_trace_csv (w_config w0) /\ cf_output_dir (w_config w) = cf_output_dir (w_config w0) /\
  cf_traces_dir (w_config w) = cf_traces_dir (w_config w0) /\ List.length (w_regions w) = List.length (w_regions w0) /\
  forall i R, nth_error (w_regions w) i = Some R -> exists R0, nth_error (w_regions w0) i = Some R0 /\ region_grows R0 R.

Lemma grows_set w r R R' : grows w -> nth_error (w_regions w) r = Some R -> region_grows R R' -> grows (set_region w r R').
Proof.
  intros (A & B & C & D & L & H) E K. repeat (split; [first [assumption|cbn; rewrite set_nth_length; assumption]|]). cbn. intros i Q. rewrite nth_set_nth. destruct (Nat.eqb_spec i r) as [->|]; [|apply H].
  rewrite E. intros X. inversion X; subst. destruct (H _ _ E) as (R0 & E0 & G). exists R0. split; auto. eapply region_grows_trans; eauto.
Qed.

(** Changes of members other than the trace and the end. *)
Lemma same_grows R R' : same_static R R' -> r_trace R' = r_trace R -> r_alive R' = r_alive R -> region_grows R R'.
Proof. intros A B C. split; auto. split; [exists []; rewrite app_nil_r; auto|]. intros D. split; congruence. Qed.
Ltac small := apply same_grows; [repeat split|reflexivity|reflexivity].

Lemma grows_set_context w p c : grows w -> grows (set_context w p c).
Proof.
  intros H. unfold set_context. destruct p as [i k]. cbn. destruct (nth_error (w_regions w) i) as [R|] eqn:ER; auto.
  destruct k as [|k]; (eapply grows_set; [exact H|exact ER|small]).
Qed.

Lemma grows_complete w e : grows w -> grows (complete w e).
Proof.
  intros H. unfold complete. destruct (get_context w (fst e)) as [c| | | |] eqn:E; auto. destruct (c_timer c) as [|[|] [|]]; auto.
  apply grows_set_context; auto.
Qed.

Lemma grows_completes es : forall w, grows w -> grows (fold_left complete es w).
Proof. induction es; cbn; auto. intros. apply IHes, grows_complete. auto. Qed.

Lemma grows_delete w p w' : grows w -> delete_context w p = Ok w' -> grows w'.
Proof.
  intros H. unfold delete_context. destruct (nth_error (w_regions w) (fst p)) as [R|] eqn:ER; [|discriminate]. destruct (snd p) as [|k]; [discriminate|].
  destruct (nth_error (r_heap R) k) as [[c|]|]; try discriminate. intros E; inversion E; subst. eapply grows_set; [exact H|exact ER|small].
Qed.

Lemma grows_trace_best w R st w' : grows w -> trace_best w R st = Ok w' -> grows w' /\ w_regions w' = w_regions w.
Proof.
  intros H. unfold trace_best. destruct (negb _); [intros E; inversion E; subst; auto|]. destruct (ds_find_min _ _ _) as [[? ?] ?].
  intros E. apply bind_inv in E. destruct E as (? & _ & E). inversion E; subst. split; [exact H|reflexivity].
Qed.

Lemma grows_store_model w m path w' : grows w -> store_model w m path = Ok w' -> grows w'.
Proof. intros H E. unfold store_model in E. apply bind_inv in E. destruct E as ([t|] & _ & E); inversion E; subst; auto. Qed.

Lemma grows_train_body w r st w' : grows w -> train_body P w r st = Ok w' -> grows w'.
Proof.
  intros H E. unfold train_body in E. apply bind_inv in E. destruct E as (R & ER & E). apply get_region_ok in ER. destruct ER as [ER _].
  destruct (_ <=? 0); [inversion E; subst; auto|]. destruct (negb _); [discriminate|].
  apply bind_inv in E. destruct E as (w1 & E1 & E). apply bind_inv in E. destruct E as (m & Em & E). destruct (grows_trace_best _ _ _ _ H E1) as [H1 EQ].
  assert (H2 : grows (set_region w1 r (with_model R m))). { eapply grows_set; [exact H1|rewrite EQ; exact ER|small]. }
  destruct (truthy (cf_retrain _)); [discriminate|]. destruct (truthy (cf_store_models _)); [|inversion E; subst; auto].
  apply bind_inv in E. destruct E as (w2 & E2 & E). eapply grows_store_model; [|exact E]. eapply grows_store_model; [|exact E2]. auto.
Qed.

Lemma grows_train_quietly w r st w' : grows w -> train_quietly P w r st = Ok w' -> grows w'.
Proof.
  intros H E. unfold train_quietly in E. apply bind_inv in E. destruct E as (R & ER & E). destruct (m_trainable (r_model R)); cbn in E; [|inversion E; subst; auto].
  eapply grows_train_body; eauto.
Qed.

Lemma grows_each_on rs d : forall w w', grows w -> train_each_on P w rs d = Ok w' -> grows w'.
Proof.
  induction rs as [|r rs IH]; cbn; intros w w' H E; [inversion E; subst; auto|].
  apply bind_inv in E. destruct E as (R & ER & E). apply bind_inv in E. destruct E as (m & Em & E). apply get_region_ok in ER. destruct ER as [ER _]. eapply IH; [|exact E].
  eapply grows_set; [exact H|exact ER|small].
Qed.

Lemma grows_each f rs : (forall w r w', grows w -> f w r = Ok w' -> grows w') -> forall w w', grows w -> each_region f w rs = Ok w' -> grows w'.
Proof. intros F. induction rs as [|r rs IH]; cbn; intros w w' H E; [inversion E; subst; auto|]. apply bind_inv in E. destruct E as (w1 & E1 & E). eauto. Qed.

Lemma grows_train_all f w w' : (forall w r w', grows w -> f w r = Ok w' -> grows w') -> grows w -> train_all_by P f w = Ok w' -> grows w'.
Proof.
  intros F H E. unfold train_all_by, train_regions_by in E. destruct (truthy (cf_collective _)); [discriminate|]. destruct (truthy (cf_single_model (w_config w))).
  - apply bind_inv in E. destruct E as (d & _ & E). eapply grows_each_on; eauto.
  - eapply grows_each; eauto.
Qed.

Lemma grows_auto_train w r w' : grows w -> auto_train P w r = Ok w' -> grows w'.
Proof.
  intros H E. unfold auto_train in E. apply bind_inv in E. destruct E as (R & ER & E). destruct (negb _); [inversion E; subst; auto|].
  destruct (_ && _). { eapply grows_train_all; [|exact H|exact E]. intros. cbn in *. eapply grows_train_quietly; eauto. }
  destruct (_ && _); [eapply grows_train_quietly; eauto|]. destruct (_ && _); [eapply grows_train_quietly; eauto|]. inversion E; subst; auto.
Qed.

Lemma grows_collect_context w r p x w' : grows w -> collect_context P w r p x = Ok w' -> grows w'.
Proof.
  intros H E. unfold collect_context in E. apply bind_inv in E. destruct E as (R & ER & E). apply bind_inv in E. destruct E as (c & EC & E).
  apply get_region_ok in ER. destruct ER as [ER AL].
  set (R1 := if truthy (cf_trace_csv (w_config w)) then _ else R) in *.
  assert (J1 : region_grows R R1).
  { unfold R1. destruct (truthy (cf_trace_csv (w_config w))); [|apply region_grows_refl]. split; [repeat split|]. split; [eexists; reflexivity|]. congruence. }
  apply bind_inv in E. destruct E as (R2 & E2 & E).
  assert (J2 : region_grows R R2).
  { destruct (truthy (cf_persistent (w_config w)) || m_trainable (r_model R1)); [|inversion E2; subst; auto].
    apply bind_inv in E2. destruct E2 as (d & Ed & E2). inversion E2; subst. eapply region_grows_trans; [exact J1|].
    unfold moved_features. destruct (is_sync_of r p); small. }
  apply bind_inv in E. destruct E as (w1 & E1 & E). apply bind_inv in E. destruct E as (w2 & E3 & E). apply bind_inv in E. destruct E as (R3 & ER3 & E).
  assert (H1 : grows w1). { eapply grows_auto_train; [|exact E1]. apply (grows_set _ _ _ _ H ER J2). }
  assert (H2 : grows w2). { destruct (is_sync_of r p); [inversion E3; subst; auto|eapply grows_delete; eauto]. }
  inversion E; subst. apply get_region_ok in ER3. destruct ER3 as [ER3 _]. eapply grows_set; [exact H2|exact ER3|small].
Qed.

Lemma grows_collect_loop r ps : forall w w' kept, grows w -> collect_loop P w r ps = Ok (w', kept) -> grows w'.
Proof.
  induction ps as [|p ps IH]; cbn; intros w w' kept H E; [inversion E; subst; auto|].
  apply bind_inv in E. destruct E as (c & EC & E). apply bind_inv in E. destruct E as ([x|] & ED & E).
  - apply bind_inv in E. destruct E as (w1 & E1 & E). eapply IH; [|exact E]. eapply grows_collect_context; eauto.
  - apply bind_inv in E. destruct E as ([w1 kept1] & E1 & E). inversion E; subst. eapply IH; eauto.
Qed.

Lemma grows_collect_pending w r w' : grows w -> collect_pending P w r = Ok w' -> grows w'.
Proof.
  intros H E. unfold collect_pending in E. apply bind_inv in E. destruct E as (R & ER & E). apply bind_inv in E. destruct E as ([w1 kept] & E1 & E).
  apply bind_inv in E. destruct E as (R1 & ER1 & E). inversion E; subst. apply get_region_ok in ER1. destruct ER1 as [ER1 _].
  eapply grows_set; [eapply grows_collect_loop; eauto|exact ER1|small].
Qed.

Lemma grows_region_train w r st collect force w' : grows w -> region_train P w r st collect force = Ok w' -> grows w'.
Proof.
  intros H E. unfold region_train in E. apply bind_inv in E. destruct E as (R & ER & E).
  destruct (negb force && negb (m_trainable (r_model R))); [inversion E; subst; auto|].
  apply bind_inv in E. destruct E as (w1 & E1 & E). eapply grows_train_body; [|exact E].
  destruct collect; [eapply grows_collect_pending; eauto|inversion E1; subst; auto].
Qed.

Lemma grows_begin w r async now w' p : grows w -> begin_context w r async now = Ok (w', p) -> grows w'.
Proof.
  intros H E. unfold begin_context in E. apply bind_inv in E. destruct E as (R & ER & E).
  apply get_region_ok in ER. destruct ER as [ER AL].
  match type of E with context [if async then ?a else ?b] => assert (K : region_grows R (fst (if async then a else b))) end.
  { destruct async; small. }
  destruct (if async then _ else _) as [R1 p1]. cbn in K. destruct (r_idx R1 =? idx_max); [discriminate|].
  apply bind_inv in E. destruct E as (c & EC & E). inversion E; subst.
  apply grows_set_context. eapply grows_set; [exact H|exact ER|]. eapply region_grows_trans; [exact K|small].
Qed.

Lemma grows_get_policy w r p D w' c : grows w -> get_policy_index P w r p D = Ok (w', c) -> grows w'.
Proof.
  intros H E. unfold get_policy_index in E. apply bind_inv in E. destruct E as (R & ER & E). apply get_region_ok in ER. destruct ER as [ER AL].
  apply bind_inv in E. destruct E as (c0 & EC & E). apply bind_inv in E. destruct E as ([choice m] & EM & E). apply bind_inv in E. destruct E as (w1 & E1 & E).
  assert (H1 : grows w1 /\ w_regions w1 = w_regions w).
  { unfold trace_policy in E1. destruct (negb _); [inversion E1; subst; auto|]. apply bind_inv in E1. destruct E1 as (? & _ & E1). inversion E1; subst. split; [exact H|reflexivity]. }
  destruct H1 as [H1 EQ]. apply bind_inv in E. destruct E as (c1 & EC1 & E). inversion E; subst.
  apply grows_set_context. eapply grows_set; [exact H1|rewrite EQ; exact ER|small].
Qed.

Lemma grows_end_context w r p now early w' : grows w -> end_context P w r p now early = Ok w' -> grows w'.
Proof.
  intros H E. unfold end_context in E. apply bind_inv in E. destruct E as (c & EC & E).
  set (w1 := set_context w p _) in *. assert (H1 : grows w1) by (apply grows_set_context; auto).
  destruct (is_sync_of r p).
  - apply bind_inv in E. destruct E as ([x|] & _ & E); [|discriminate]. eapply grows_collect_context; eauto.
  - apply bind_inv in E. destruct E as (R & ER & E). apply get_region_ok in ER. destruct ER as [ER _]. eapply grows_collect_pending; [|exact E].
    assert (H2 : grows (set_region w1 r (with_pending R (r_pending R ++ [p])))) by (eapply grows_set; [exact H1|exact ER|small]).
    destruct early; [apply grows_complete|]; auto.
Qed.

Lemma grows_drain r : forall waits w w', grows w -> drain P w r waits = Ok w' -> grows w'.
Proof.
  induction waits as [|b rest IH]; intros w w' H E; cbn [drain] in E; apply bind_inv in E; destruct E as (R & ER & E).
  - destruct (r_pending R); [|discriminate]. inversion E; subst. auto.
  - destruct (r_pending R); [inversion E; subst; apply (grows_completes (List.concat (b :: rest))); auto|].
    apply bind_inv in E. destruct E as (w1 & E1 & E). eapply IH; [|exact E]. eapply grows_collect_pending; [|exact E1]. apply grows_completes. auto.
Qed.

Lemma grows_destroy w r waits w' : grows w -> destroy_region P w r waits = Ok w' -> grows w'.
Proof.
  intros H E. unfold destroy_region in E. apply bind_inv in E. destruct E as (w1 & E1 & E). apply bind_inv in E. destruct E as (R & ER & E).
  assert (H1 : grows w1) by (eapply grows_drain; [|exact E1]; exact H). apply get_region_ok in ER. destruct ER as [ER AL]. inversion E; subst.
  eapply grows_set; [destruct (truthy (cf_persistent (w_config w1))); exact H1|destruct (truthy (cf_persistent (w_config w1))); exact ER|].
  split; [repeat split|]. split; [exists []; rewrite app_nil_r; reflexivity|]. congruence.
Qed.

Lemma grows_destroy_all waits rs : forall w w', grows w -> destroy_all P w rs waits = Ok w' -> grows w'.
Proof.
  induction rs as [|r rs IH]; cbn; intros w w' H E; [inversion E; subst; auto|]. apply bind_inv in E. destruct E as (w1 & E1 & E).
  eapply IH; [|exact E]. eapply grows_destroy; eauto.
Qed.

Lemma grows_step_but w o w' x : (forall nf nm np mt info yaml init, o <> OpRegion nf nm np mt info yaml init) -> grows w -> step P w o = Ok (w', x) -> grows w'.
Proof.
  intros O H E. destruct o as [nf nm np mt info yaml init|r async now|r fs now|r p y|r p D|r p now early|r p y|r st collect force|st collect|r|r waits|waits|p ms]; cbn in E.
  - exfalso. eapply O. reflexivity.
  - apply bind_inv in E. destruct E as ([w1 p] & E1 & E). inversion E; subst. eapply grows_begin; eauto.
  - apply bind_inv in E. destruct E as ([w1 p] & E1 & E). inversion E; subst. unfold begin_features in E1. apply bind_inv in E1. destruct E1 as ([w2 q] & E2 & E1).
    apply bind_inv in E1. destruct E1 as (c & EC & E1). inversion E1; subst. apply grows_set_context. eapply grows_begin; eauto.
  - apply bind_inv in E. destruct E as (R & _ & E). apply bind_inv in E. destruct E as (q & EQ & E). apply bind_inv in E. destruct E as (w1 & E1 & E). inversion E; subst.
    unfold set_feature in E1. apply bind_inv in E1. destruct E1 as (c & EC & E1). inversion E1; subst. apply grows_set_context. auto.
  - apply bind_inv in E. destruct E as (q & EQ & E). apply bind_inv in E. destruct E as ([w1 c] & E1 & E). inversion E; subst. eapply grows_get_policy; eauto.
  - apply bind_inv in E. destruct E as (R & _ & E). apply bind_inv in E. destruct E as (q & EQ & E). apply bind_inv in E. destruct E as (w1 & E1 & E). inversion E; subst.
    eapply grows_end_context; eauto.
  - apply bind_inv in E. destruct E as (q & EQ & E). apply bind_inv in E. destruct E as (w1 & E1 & E). inversion E; subst.
    unfold end_metric in E1. apply bind_inv in E1. destruct E1 as (w2 & E2 & E1). eapply grows_collect_pending; [|exact E1].
    eapply grows_collect_context; eauto.
  - apply bind_inv in E. destruct E as (w1 & E1 & E). inversion E; subst. eapply grows_region_train; eauto.
  - apply bind_inv in E. destruct E as (w1 & E1 & E). inversion E; subst. eapply grows_train_all; [|exact H|exact E1]. intros v r v' V EV. cbn in EV.
    eapply grows_region_train; eauto.
  - apply bind_inv in E. destruct E as (w1 & E1 & E). inversion E; subst. eapply grows_collect_pending; eauto.
  - apply bind_inv in E. destruct E as (w1 & E1 & E). inversion E; subst. eapply grows_destroy; eauto.
  - apply bind_inv in E. destruct E as (w1 & E1 & E). inversion E; subst. unfold shutdown in E1. apply bind_inv in E1. destruct E1 as (w2 & E2 & E1).
    eapply grows_destroy_all; [|exact E1]. destruct (truthy (cf_exec_info (w_config w))); [|inversion E2; subst; auto]. apply bind_inv in E2. destruct E2 as (s & _ & E2). inversion E2; subst. exact H.
  - inversion E; subst. apply grows_complete; auto.
Qed.

Lemma grows_load_dataset w r text w' : grows w -> load_dataset w r text = Ok w' -> grows w'.
Proof.
  intros H E. unfold load_dataset in E. apply bind_inv in E. destruct E as (R & ER & E). apply bind_inv in E. destruct E as ([d ?] & _ & E). inversion E; subst.
  apply get_region_ok in ER. destruct ER as [ER _]. eapply grows_set; [exact H|exact ER|small].
Qed.
End Grows.

Lemma grows_refl w : grows w w.
Proof. repeat split; auto. intros i R E. exists R. split; auto. apply region_grows_refl. Qed.

(** One call, and what it makes of the regions there were. *)
Lemma step_grows P w o w' x : step P w o = Ok (w', x) ->
  w_rank w' = w_rank w /\ cf_trace_csv (w_config w') = cf_trace_csv (w_config w) /\ cf_output_dir (w_config w') = cf_output_dir (w_config w) /\
  cf_traces_dir (w_config w') = cf_traces_dir (w_config w) /\ (List.length (w_regions w) <= List.length (w_regions w'))%nat /\
  (forall i R, nth_error (w_regions w) i = Some R -> exists R', nth_error (w_regions w') i = Some R' /\ region_grows R R') /\
  (forall i R, nth_error (w_regions w) i = None -> nth_error (w_regions w') i = Some R -> truthy (cf_trace_csv (w_config w)) = true -> r_alive R = true).
Proof.
  intros E.
  assert (T : (forall nf nm np mt info yaml init, o <> OpRegion nf nm np mt info yaml init) \/ exists nf nm np mt info yaml init, o = OpRegion nf nm np mt info yaml init).
  { destruct o; try (left; congruence). right. eauto 10. }
  destruct T as [O|(nf & nm & np & mt & info & yaml & init & ->)].
  - destruct (grows_step_but P w w o w' x O (grows_refl w) E) as (A & B & C & D & L & H). repeat (split; [first [assumption|lia]|]). split.
    + intros i R ER. assert (K : (i < List.length (w_regions w))%nat) by (apply nth_error_Some; congruence). rewrite <- L in K. apply nth_error_Some in K.
      destruct (nth_error (w_regions w') i) as [R'|] eqn:ER'; [|congruence]. exists R'. split; auto. destruct (H _ _ ER') as (R0 & E0 & G). congruence.
    + intros i R N S. exfalso. destruct (H _ _ S) as (R0 & E0 & G). congruence.
  - cbn in E. apply bind_inv in E. destruct E as ([w1 k] & E & X). inversion X; subst. clear X. unfold new_region in E.
    apply bind_inv in E. destruct E as ([mn ps] & _ & E). apply bind_inv in E. destruct E as ([[mn' ps'] info'] & _ & E). apply bind_inv in E. destruct E as (m & _ & E). apply bind_inv in E. destruct E as (m' & _ & E).
    set (R0 := mkRegion true (region_name nm) nf np mt info' mn' m' [] 0 None (mkContext [] 0 0 (Clock None None)) [] [] []) in *.
    set (v := mkWorld (w_config w) (w_rank w) (w_regions w ++ [R0]) (w_registry w) (w_executions w) (w_files w)) in *.
    apply bind_inv in E. destruct E as (w2 & E2 & E). apply bind_inv in E. destruct E as (w3 & E3 & E). apply bind_inv in E. destruct E as (w4 & E4 & E). apply bind_inv in E. destruct E as (w5 & E5 & E). apply bind_inv in E. destruct E as (w6 & E6 & E).
    assert (H2 : grows v w2).
    { unfold load_persistent in E2. destruct (truthy _); [|inversion E2; subst; apply grows_refl]. apply bind_inv in E2. destruct E2 as (u & EU & E2). eapply grows_auto_train; [|exact E2].
      destruct (file_find _ _); [|inversion EU; subst; apply grows_refl]. eapply grows_load_dataset; [apply grows_refl|exact EU]. }
    assert (H3 : grows v w3).
    { unfold load_and_train in E3. destruct (param_find _ _); [|inversion E3; subst; auto]. destruct (file_find _ _); [|discriminate]. apply bind_inv in E3. destruct E3 as (u & EU & E3).
      apply bind_inv in E3. destruct E3 as (R & _ & E3). destruct (_ <=? 0); [discriminate|]. eapply grows_region_train; [|exact E3]. eapply grows_load_dataset; eauto. }
    assert (H4 : grows v w4).
    { unfold load_optimal in E4. destruct (bytes_eqb _ _); [|inversion E4; subst; auto]. destruct (file_find _ _); [|discriminate]. apply bind_inv in E4. destruct E4 as (R & ER & E4).
      apply bind_inv in E4. destruct E4 as (mm & _ & E4). inversion E4; subst. apply get_region_ok in ER. destruct ER as [ER _]. eapply grows_set; [exact H3|exact ER|]. apply same_grows; [repeat split|reflexivity|reflexivity]. }
    assert (H5 : grows v w5).
    { unfold load_dataset_map in E5. destruct (bytes_eqb _ _); [|inversion E5; subst; auto]. destruct (file_find _ _); [|discriminate]. apply bind_inv in E5. destruct E5 as (u & EU & E5).
      apply bind_inv in E5. destruct E5 as (R & ER & E5). destruct (_ <=? 0); [discriminate|]. apply bind_inv in E5. destruct E5 as (mm & _ & E5). inversion E5; subst. apply get_region_ok in ER. destruct ER as [ER _].
      eapply grows_set; [eapply grows_load_dataset; eauto|exact ER|]. apply same_grows; [repeat split|reflexivity|reflexivity]. }
    assert (H6 : grows v w6 /\ (truthy (cf_trace_csv (w_config w)) = true -> forall R, nth_error (w_regions w6) (List.length (w_regions w)) = Some R -> r_alive R = true)).
    { assert (TC : cf_trace_csv (w_config w5) = cf_trace_csv (w_config w)) by apply H5. rewrite TC in E6. destruct (truthy (cf_trace_csv (w_config w))); [|inversion E6; subst; split; [auto|discriminate]].
      apply bind_inv in E6. destruct E6 as (R & ER & E6). inversion E6; subst. apply get_region_ok in ER. destruct ER as [ER AL]. split.
      - eapply grows_set; [exact H5|exact ER|]. split; [repeat split|]. split; [eexists; reflexivity|]. congruence.
      - intros _ Q. cbn [set_region w_regions]. rewrite nth_set_nth, Nat.eqb_refl, ER. intros Y. inversion Y; subst. exact AL. }
    destruct H6 as [(A & B & C & D & L & H) AL]. inversion E; subst. cbn [w_rank w_config w_regions v] in *. repeat (split; [assumption|]). rewrite app_length in L. cbn in L. split; [lia|]. split.
    + intros i R ER. assert (K : (i < List.length (w_regions w))%nat) by (apply nth_error_Some; congruence). assert (K' : (i < List.length (w_regions w6))%nat) by lia. apply nth_error_Some in K'.
      destruct (nth_error (w_regions w6) i) as [R'|] eqn:ER'; [|congruence]. exists R'. split; auto. destruct (H _ _ ER') as (R1 & E1 & G). rewrite nth_error_app1 in E1 by exact K. congruence.
    + intros i R N S TR. apply nth_error_None in N. assert (K : (i < List.length (w_regions w6))%nat) by (apply nth_error_Some; congruence). assert (i = List.length (w_regions w)) by lia. subst i. eapply AL; eauto.
Qed.
