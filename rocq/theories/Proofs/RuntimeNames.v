(** Lemmas on the runtime: names, registry and rank stay. *)
From Coq Require Import ZArith Bool Ascii String Lia List.
From Verif Require Import Model.Base Model.Decimal Model.Float Model.DatasetM Model.ParserM Model.DatasetIO Model.ModelStringM Model.PolicyModelsM Model.ConfigM Model.RuntimeM
  Spec.RuntimeSpec Proofs.TreeFacts Proofs.RuntimeFacts Proofs.RuntimeRegistry.
Import ListNotations.
Open Scope Z_scope.

Section Keeps.
Variable N : list bytes.
Variable G0 : list (bytes * nat).
Variable rank : Z.

Definition keeps (w : world) : Prop := region_names w = N /\ w_registry w = G0 /\ w_rank w = rank.

Lemma kn_got w r R : keeps w -> get_region w r = Ok R -> nth_error N r = Some (r_name R).
Proof. intros (H & _) E. apply get_region_ok in E. destruct E as [E _]. rewrite <- H. unfold region_names. rewrite nth_error_map, E. reflexivity. Qed.
Lemma kn_region w r R : keeps w -> nth_error N r = Some (r_name R) -> keeps (set_region w r R).
Proof.
  intros (H & H1 & H2) W. split; [|split; assumption]. unfold region_names in *. cbn. rewrite <- H in *. clear H H1 H2. revert r W. induction (w_regions w) as [|Q l IH]; intros [|r] W; cbn in *; try discriminate.
  - inversion W. congruence.
  - f_equal. apply IH. exact W.
Qed.
Lemma kn_at w i R : keeps w -> nth_error (w_regions w) i = Some R -> nth_error N i = Some (r_name R).
Proof. intros (H & _) E. rewrite <- H. unfold region_names. rewrite nth_error_map, E. reflexivity. Qed.
Lemma kn_context w p c : keeps w -> keeps (set_context w p c).
Proof.
  intros H. unfold set_context. destruct (nth_error (w_regions w) (fst p)) as [R|] eqn:E; [|exact H]. destruct (snd p); (apply kn_region; [exact H|]); exact (kn_at _ _ _ H E).
Qed.
Lemma kn_delete w p w' : keeps w -> delete_context w p = Ok w' -> keeps w'.
Proof.
  unfold delete_context. intros W H. destruct (nth_error (w_regions w) (fst p)) eqn:E; [|discriminate]. destruct (snd p); [discriminate|].
  destruct (nth_error (r_heap _) _) as [[|]|]; inversion H. apply kn_region; [exact W|exact (kn_at _ _ _ W E)].
Qed.
Lemma kn_complete w e : keeps w -> keeps (complete w e).
Proof. unfold complete. intros W. destruct (get_context w (fst e)); try exact W. destruct (c_timer _) as [|[|] [|]]; try exact W. apply kn_context. exact W. Qed.
Lemma kn_completes l : forall w, keeps w -> keeps (fold_left complete l w).
Proof. induction l as [|e l IH]; intros w W; [exact W|]. apply IH. apply kn_complete. exact W. Qed.

Variable P : platform.


Lemma kn_trace_best w R st w' : keeps w -> trace_best w R st = Ok w' -> keeps w'.
Proof.
  unfold trace_best. intros W H. destruct (negb _); [inversion H; subst; exact W|]. destruct (ds_find_min _ _ _) as [[? ?] best].
  apply bind_inv in H. destruct H as (ls & _ & H). injection H as <-. exact W.
Qed.
Lemma kn_store w m path w' : keeps w -> store_model w m path = Ok w' -> keeps w'.
Proof. unfold store_model. intros W H. apply bind_inv in H. destruct H as (s & _ & H). destruct s; inversion H; subst; exact W. Qed.
Lemma kn_train_body w r st w' : keeps w -> train_body P w r st = Ok w' -> keeps w'.
Proof.
  unfold train_body. intros W H. apply bind_inv in H. destruct H as (R & G & H). destruct (_ <=? 0); [inversion H; subst; exact W|].
  destruct (negb _); [discriminate|]. apply bind_inv in H. destruct H as (w1 & E1 & H). apply kn_trace_best in E1; [|exact W].
  apply bind_inv in H. destruct H as (m & _ & H). destruct (truthy (cf_retrain _)); [discriminate|].
  assert (A : keeps (set_region w1 r (with_model R m))) by (apply kn_region; [exact E1|exact (kn_got _ _ _ W G)]).
  destruct (truthy (cf_store_models _)); [|inversion H; subst; exact A].
  apply bind_inv in H. destruct H as (w2 & E2 & H). eapply kn_store; [|exact H]. eapply kn_store; eauto.
Qed.
Lemma kn_quietly w r st w' : keeps w -> train_quietly P w r st = Ok w' -> keeps w'.
Proof.
  unfold train_quietly. intros W H. apply bind_inv in H. destruct H as (R & _ & H). destruct (negb _); [inversion H; subst; exact W|]. eapply kn_train_body; eauto.
Qed.
Lemma kn_each_on d rs : forall w w', keeps w -> train_each_on P w rs d = Ok w' -> keeps w'.
Proof.
  induction rs as [|r rs IH]; intros w w' W H; cbn in H; [inversion H; subst; exact W|]. apply bind_inv in H. destruct H as (R & G & H).
  apply bind_inv in H. destruct H as (m & _ & H). eapply IH; [|exact H]. apply kn_region; [exact W|exact (kn_got _ _ _ W G)].
Qed.
Lemma kn_each f rs : (forall w r w', keeps w -> f w r = Ok w' -> keeps w') -> forall w w', keeps w -> each_region f w rs = Ok w' -> keeps w'.
Proof.
  intros F. induction rs as [|r rs IH]; intros w w' W H; cbn in H; [inversion H; subst; exact W|]. apply bind_inv in H. destruct H as (w1 & E & H). eauto.
Qed.
Lemma kn_all f : (forall w r w', keeps w -> f w r = Ok w' -> keeps w') -> forall w w', keeps w -> train_all_by P f w = Ok w' -> keeps w'.
Proof.
  intros F w w' W H. unfold train_all_by, train_regions_by in H. destruct (truthy (cf_collective _)); [discriminate|]. destruct (truthy (cf_single_model _)).
  - apply bind_inv in H. destruct H as (d & _ & H). eapply kn_each_on; eauto.
  - eapply kn_each; eauto.
Qed.
Lemma kn_auto w r w' : keeps w -> auto_train P w r = Ok w' -> keeps w'.
Proof.
  unfold auto_train. intros W H. apply bind_inv in H. destruct H as (R & _ & H). destruct (negb _); [inversion H; subst; exact W|].
  repeat match type of H with (if ?b then _ else _) = _ => destruct b end.
  - eapply kn_all; [|exact W|exact H]. intros w0 r0 w1 W0 E. eapply kn_quietly; [exact W0|exact E].
  - eapply kn_quietly; eauto.
  - eapply kn_quietly; eauto.
  - inversion H; subst. exact W.
Qed.
Lemma kn_collect w r p x w' : keeps w -> collect_context P w r p x = Ok w' -> keeps w'.
Proof.
  unfold collect_context. intros W H. apply bind_inv in H. destruct H as (R & G & H). apply bind_inv in H. destruct H as (c & _ & H). assert (WR := kn_got _ _ _ W G).
  apply bind_inv in H. destruct H as (R1 & E0 & H). apply bind_inv in H. destruct H as (w1 & E1 & H).
  assert (WD : nth_error N r = Some (r_name R1)).
  { revert E0. match goal with |- (if ?b then _ else _) = _ -> _ => destruct b end; intros E0.
    - apply bind_inv in E0. destruct E0 as (d & Ed & E0). inversion E0; subst. unfold moved_features. destruct (is_sync_of r p); cbn; destruct (truthy (cf_trace_csv _)); exact WR.
    - inversion E0; subst. destruct (truthy (cf_trace_csv _)); exact WR. }
  apply kn_auto in E1; [|eapply kn_region; [exact W|exact WD]].
  apply bind_inv in H. destruct H as (w2 & E2 & H). apply bind_inv in H. destruct H as (R2 & G2 & H). injection H as <-.
  assert (W2 : keeps w2) by (destruct (is_sync_of r p); [inversion E2; subst; exact E1|eapply kn_delete; eauto]).
  apply kn_region; [exact W2|exact (kn_got _ _ _ W2 G2)].
Qed.
Lemma kn_loop r ps : forall w w' kept, keeps w -> collect_loop P w r ps = Ok (w', kept) -> keeps w'.
Proof.
  induction ps as [|p ps IH]; intros w w' kept W H; cbn in H; [inversion H; subst; exact W|].
  apply bind_inv in H. destruct H as (c & _ & H). apply bind_inv in H. destruct H as (d & _ & H). destruct d as [x|].
  - apply bind_inv in H. destruct H as (w1 & E & H). eapply IH; [|exact H]. eapply kn_collect; eauto.
  - apply bind_inv in H. destruct H as ([w1 k] & E & H). inversion H; subst. eauto.
Qed.
Lemma kn_pending w r w' : keeps w -> collect_pending P w r = Ok w' -> keeps w'.
Proof.
  unfold collect_pending. intros W H. apply bind_inv in H. destruct H as (R & _ & H). apply bind_inv in H. destruct H as ([w1 k] & E & H).
  apply bind_inv in H. destruct H as (R1 & G1 & H). injection H as <-. apply kn_loop in E; [|exact W]. apply kn_region; [exact E|exact (kn_got _ _ _ E G1)].
Qed.
Lemma kn_train w r st collect force w' : keeps w -> region_train P w r st collect force = Ok w' -> keeps w'.
Proof.
  unfold region_train. intros W H. apply bind_inv in H. destruct H as (R & _ & H). destruct (_ && _); [inversion H; subst; exact W|].
  apply bind_inv in H. destruct H as (w1 & E & H). eapply kn_train_body; [|exact H].
  destruct collect; [eapply kn_pending; eauto|inversion E; subst; exact W].
Qed.
Lemma kn_begin w r async now w' p : keeps w -> begin_context w r async now = Ok (w', p) -> keeps w'.
Proof.
  unfold begin_context. intros W H. apply bind_inv in H. destruct H as (R & G & H). assert (WR := kn_got _ _ _ W G). destruct async; cbv beta iota zeta in H.
  all: match type of H with (if ?b then _ else _) = _ => destruct b; [discriminate|] end.
  all: apply bind_inv in H; destruct H as (c & _ & H); injection H as <- <-; apply kn_context; apply kn_region; [exact W|exact WR].
Qed.
Lemma kn_load w r text w' : keeps w -> load_dataset w r text = Ok w' -> keeps w'.
Proof.
  unfold load_dataset. intros W H. apply bind_inv in H. destruct H as (R & G & H). apply bind_inv in H. destruct H as ([d x] & E & H). injection H as <-.
  apply kn_region; [exact W|]. exact (kn_got _ _ _ W G).
Qed.
Lemma kn_drain r waits : forall w w', keeps w -> drain P w r waits = Ok w' -> keeps w'.
Proof.
  induction waits as [|b waits IH]; intros w w' W H; cbn [drain] in H; apply bind_inv in H; destruct H as (R & _ & H); destruct (r_pending R).
  - inversion H; subst. exact W.
  - discriminate.
  - injection H as <-. apply kn_completes. exact W.
  - apply bind_inv in H. destruct H as (w1 & E & H). eapply IH; [|exact H]. eapply kn_pending; [|exact E]. apply kn_completes. exact W.
Qed.
Lemma kn_destroy w r waits w' : keeps w -> destroy_region P w r waits = Ok w' -> keeps w'.
Proof.
  unfold destroy_region. intros W H. apply bind_inv in H. destruct H as (w1 & E1 & H). apply kn_drain in E1; [|exact W]. apply bind_inv in H. destruct H as (R & G & H). injection H as <-.
  apply kn_region; [|exact (kn_got _ _ _ E1 G)]. destruct (truthy _); exact E1.
Qed.
Lemma kn_destroy_all waits rs : forall w w', keeps w -> destroy_all P w rs waits = Ok w' -> keeps w'.
Proof.
  induction rs as [|r rs IH]; intros w w' W H; cbn in H; [inversion H; subst; exact W|]. apply bind_inv in H. destruct H as (w1 & E & H). eapply IH; [|exact H]. eapply kn_destroy; eauto.
Qed.
Lemma kn_new w nf nm np mt info yaml init w' r : region_names w ++ [region_name nm] = N -> w_registry w = G0 -> w_rank w = rank ->
  new_region P w nf nm np mt info yaml init = Ok (w', r) ->
  region_names w' = N /\ w_registry w' = register (region_name nm) (List.length (w_regions w)) G0 /\ w_rank w' = rank.
Proof.
  unfold new_region. intros HN HG HR H. apply bind_inv in H. destruct H as ([mn ps] & _ & H). apply bind_inv in H. destruct H as ([[mn1 ps1] info1] & _ & H).
  apply bind_inv in H. destruct H as (m & _ & H). apply bind_inv in H. destruct H as (m1 & _ & H).
  apply bind_inv in H. destruct H as (w1 & E1 & H). apply bind_inv in H. destruct H as (w2 & E2 & H). apply bind_inv in H. destruct H as (w3 & E3 & H).
  apply bind_inv in H. destruct H as (w4 & E4 & H). apply bind_inv in H. destruct H as (w5 & E5 & H). injection H as <- <-.
  assert (W1 : keeps w1).
  { match type of E1 with load_persistent P ?w0 _ _ = _ => assert (W0 : keeps w0) end.
    { split; [|split; assumption]. rewrite <- HN. unfold region_names. cbn [w_regions]. rewrite map_app. reflexivity. }
    unfold load_persistent in E1. match type of E1 with (if ?b then _ else _) = _ => destruct b end; [|inversion E1; subst; exact W0].
    apply bind_inv in E1. destruct E1 as (wa & EA & E1). eapply kn_auto; [|exact E1].
    destruct (file_find _ _); [|inversion EA; subst; exact W0]. eapply kn_load; [exact W0|exact EA]. }
  assert (W2 : keeps w2).
  { unfold load_and_train in E2. destruct (param_find _ _); [|inversion E2; subst; exact W1]. destruct (file_find _ _); [|discriminate].
    apply bind_inv in E2. destruct E2 as (wa & EA & E2). apply bind_inv in E2. destruct E2 as (R & _ & E2). destruct (_ <=? 0); [discriminate|].
    eapply kn_train; [|exact E2]. eapply kn_load; eauto. }
  assert (W3 : keeps w3).
  { unfold load_optimal in E3. destruct (bytes_eqb _ _); [|inversion E3; subst; exact W2]. destruct (file_find _ _); [|discriminate].
    apply bind_inv in E3. destruct E3 as (R & G & E3). apply bind_inv in E3. destruct E3 as (m2 & _ & E3). injection E3 as <-. apply kn_region; [exact W2|exact (kn_got _ _ _ W2 G)]. }
  assert (W4 : keeps w4).
  { unfold load_dataset_map in E4. destruct (bytes_eqb _ _); [|inversion E4; subst; exact W3]. destruct (file_find _ _); [|discriminate].
    apply bind_inv in E4. destruct E4 as (wa & EA & E4). apply bind_inv in E4. destruct E4 as (R & G & E4). destruct (_ <=? 0); [discriminate|].
    apply bind_inv in E4. destruct E4 as (m2 & _ & E4). injection E4 as <-. assert (WA := kn_load _ _ _ _ W3 EA). apply kn_region; [exact WA|exact (kn_got _ _ _ WA G)]. }
  assert (W5 : keeps w5).
  { match type of E5 with (if ?b then _ else _) = _ => destruct b end; [|inversion E5; subst; exact W4].
    apply bind_inv in E5. destruct E5 as (R & G & E5). injection E5 as <-. apply kn_region; [exact W4|exact (kn_got _ _ _ W4 G)]. }
  destruct W5 as (A & B & C). split; [exact A|]. split; [cbn [w_registry]; rewrite B; reflexivity|exact C].
Qed.
Lemma kn_step w o w' x : (forall nf nm np mt info yaml init, o <> OpRegion nf nm np mt info yaml init) -> keeps w -> step P w o = Ok (w', x) -> keeps w'.
Proof.
  intros NO W. destruct o; cbn [RuntimeM.step]; intros H.
  - exfalso. eapply NO. reflexivity.
  - apply bind_inv in H. destruct H as ([w1 p] & E & H). inversion H; subst. eapply kn_begin; eauto.
  - apply bind_inv in H. destruct H as ([w1 p] & E & H). inversion H; subst. unfold begin_features in E. apply bind_inv in E. destruct E as ([w2 p2] & E2 & E).
    apply bind_inv in E. destruct E as (c & _ & E). injection E as <- <-. apply kn_context. eapply kn_begin; eauto.
  - apply bind_inv in H. destruct H as (R & _ & H). apply bind_inv in H. destruct H as (q & _ & H). apply bind_inv in H. destruct H as (w1 & E & H). inversion H; subst.
    unfold set_feature in E. apply bind_inv in E. destruct E as (c & _ & E). injection E as <-. apply kn_context. exact W.
  - apply bind_inv in H. destruct H as (q & _ & H). apply bind_inv in H. destruct H as ([w1 ch] & E & H). inversion H; subst. unfold get_policy_index in E.
    apply bind_inv in E. destruct E as (R & G & E). apply bind_inv in E. destruct E as (c & _ & E). apply bind_inv in E. destruct E as ([ch2 m] & _ & E).
    apply bind_inv in E. destruct E as (w2 & E2 & E). apply bind_inv in E. destruct E as (c2 & _ & E). injection E as <- <-.
    apply kn_context. apply kn_region; [|exact (kn_got _ _ _ W G)]. unfold trace_policy in E2. destruct (negb _); [inversion E2; subst; exact W|].
    apply bind_inv in E2. destruct E2 as (fs & _ & E2). injection E2 as <-. exact W.
  - apply bind_inv in H. destruct H as (R & _ & H). apply bind_inv in H. destruct H as (q & _ & H). apply bind_inv in H. destruct H as (w1 & E & H). inversion H; subst.
    unfold end_context in E. apply bind_inv in E. destruct E as (c & _ & E). match type of E with context [set_context w q ?c0] => assert (W1 := kn_context w q c0 W) end. destruct (is_sync_of r q).
    + apply bind_inv in E. destruct E as (d & _ & E). destruct d; [|discriminate]. eapply kn_collect; [exact W1|exact E].
    + apply bind_inv in E. destruct E as (R1 & G1 & E). eapply kn_pending; [|exact E].
      match goal with |- context [set_region ?a ?b ?d] => assert (W2 : keeps (set_region a b d)) by (apply kn_region; [exact W1|exact (kn_got _ _ _ W1 G1)]) end.
      destruct early; [apply kn_complete|]; exact W2.
  - apply bind_inv in H. destruct H as (q & _ & H). apply bind_inv in H. destruct H as (w1 & E & H). inversion H; subst. unfold end_metric in E.
    apply bind_inv in E. destruct E as (w2 & E2 & E). eapply kn_pending; [|exact E]. eapply kn_collect; eauto.
  - apply bind_inv in H. destruct H as (w1 & E & H). inversion H; subst. eapply kn_train; eauto.
  - apply bind_inv in H. destruct H as (w1 & E & H). inversion H; subst. unfold apollo_train in E. eapply kn_all; [|exact W|exact E]. intros w0 r0 w2 W0 E2. eapply kn_train; [exact W0|exact E2].
  - apply bind_inv in H. destruct H as (w1 & E & H). inversion H; subst. eapply kn_pending; eauto.
  - apply bind_inv in H. destruct H as (w1 & E & H). inversion H; subst. eapply kn_destroy; eauto.
  - apply bind_inv in H. destruct H as (w1 & E & H). inversion H; subst. unfold shutdown in E. apply bind_inv in E. destruct E as (w2 & E2 & E).
    eapply kn_destroy_all; [|exact E]. destruct (truthy _); [|inversion E2; subst; exact W].
    apply bind_inv in E2. destruct E2 as (s & _ & E2). injection E2 as <-. exact W.
  - injection H as <- <-. apply kn_complete. exact W.
Qed.

End Keeps.

(** Names as the runtime keeps them: at most 63 characters and no NUL. *)
Definition clean_name (n : bytes) : Prop := (List.length n <= 63)%nat /\ ~ In nul n.
Definition names_ok (w : world) : Prop := registry_ok w /\ Forall clean_name (region_names w).

Lemma cstr_clean s : ~ In nul (cstr s).
Proof.
  induction s as [|c s IH]; cbn [cstr]; [intros []|]. destruct (Ascii.eqb_spec c nul) as [->|NE]; [intros []|]. intros [E|E]; [congruence|auto].
Qed.
Lemma region_name_clean s : clean_name (region_name s).
Proof.
  split; [unfold region_name; rewrite firstn_length; lia|]. intros H. apply (cstr_clean s). unfold region_name in H. rewrite <- (firstn_skipn 63 (cstr s)). apply in_or_app. left. exact H.
Qed.

Lemma names_step P w o w' x : names_ok w -> step P w o = Ok (w', x) -> names_ok w' /\ w_rank w' = w_rank w.
Proof.
  intros [RG CL] H.
  assert (D : (exists nf nm np mt info yaml init, o = OpRegion nf nm np mt info yaml init) \/ (forall nf nm np mt info yaml init, o <> OpRegion nf nm np mt info yaml init)).
  { destruct o; [left; eauto 8|..]; right; intros; discriminate. }
  destruct D as [(nf & nm & np & mt & info & yaml & init & ->)|NO].
  - cbn [RuntimeM.step] in H. apply bind_inv in H. destruct H as ([w1 r] & E & H). inversion H; subst.
    destruct (kn_new (region_names w ++ [region_name nm]) (w_registry w) (w_rank w) P _ _ _ _ _ _ _ _ _ _ eq_refl eq_refl eq_refl E) as (A & B & C).
    split; [|exact C]. split; [|rewrite A; apply Forall_app; split; [exact CL|apply Forall_cons; [apply region_name_clean|constructor]]].
    eapply registry_register; [reflexivity|exact B|exact A|exact RG].
  - assert (K : keeps (region_names w) (w_registry w) (w_rank w) w') by (eapply kn_step; [exact NO|repeat split|exact H]). destruct K as (A & B & C).
    split; [|exact C]. split; [eapply registry_same; eauto|rewrite A; exact CL].
Qed.
