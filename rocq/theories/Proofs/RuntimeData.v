(** Lemmas on the runtime: data sets are sorted and free of NaN features. *)
From Coq Require Import ZArith Bool Ascii String Lia List.
From Verif Require Import Model.Base Model.Decimal Model.Float Model.DatasetM Model.ParserM Model.DatasetIO Model.ModelStringM Model.PolicyModelsM Model.ConfigM Model.RuntimeM
  Spec.RuntimeSpec Proofs.TreeFacts Proofs.DatasetFacts Proofs.RuntimeFacts.
Import ListNotations.
Open Scope Z_scope.

Definition all_wf (w : world) : Prop := forall i R, nth_error (w_regions w) i = Some R -> wfd (r_dataset R).

Lemma wf_got w r R : all_wf w -> get_region w r = Ok R -> wfd (r_dataset R).
Proof. intros H E. apply get_region_ok in E. destruct E as [E _]. eauto. Qed.
Lemma wf_region w r R : all_wf w -> wfd (r_dataset R) -> all_wf (set_region w r R).
Proof.
  intros H W i R' E. cbn in E. rewrite nth_set_nth in E. destruct (Nat.eqb_spec i r) as [->|]; [|eauto].
  destruct (nth_error (w_regions w) r); [|discriminate]. inversion E; subst. exact W.
Qed.
Lemma wf_context w p c : all_wf w -> all_wf (set_context w p c).
Proof.
  intros H. unfold set_context. destruct (nth_error (w_regions w) (fst p)) as [R|] eqn:E; [|exact H]. destruct (snd p); (apply wf_region; [exact H|]); exact (H _ _ E).
Qed.
Lemma wf_delete w p w' : all_wf w -> delete_context w p = Ok w' -> all_wf w'.
Proof.
  unfold delete_context. intros W H. destruct (nth_error (w_regions w) (fst p)) eqn:E; [|discriminate]. destruct (snd p); [discriminate|].
  destruct (nth_error (r_heap _) _) as [[|]|]; inversion H. apply wf_region; [exact W|exact (W _ _ E)].
Qed.
Lemma wf_complete w e : all_wf w -> all_wf (complete w e).
Proof. unfold complete. intros W. destruct (get_context w (fst e)); try exact W. destruct (c_timer _) as [|[|] [|]]; try exact W. apply wf_context. exact W. Qed.
Lemma wf_completes l : forall w, all_wf w -> all_wf (fold_left complete l w).
Proof. induction l as [|e l IH]; intros w W; [exact W|]. apply IH. apply wf_complete. exact W. Qed.
Lemma wf_records fuel : forall d p d' p', wfd d -> load_records fuel d p = Ok (d', p') -> wfd d'.
Proof.
  induction fuel as [|fuel IH]; intros d p d' p' W H; cbn in H; [discriminate|]. apply bind_inv in H. destruct H as (p1 & _ & H).
  destruct (token_is _ _); [inversion H; subst; exact W|]. apply bind_inv in H. destruct H as ([[[fs pol] x] p2] & _ & H).
  apply bind_inv in H. destruct H as (d1 & E & H). eapply IH; [|exact H]. eapply insert_wf; eauto.
Qed.
Lemma wf_ds_load d s d' rest : wfd d -> ds_load d s = Ok (d', rest) -> wfd d'.
Proof.
  unfold ds_load. intros W H. apply bind_inv in H. destruct H as (p1 & _ & H). apply bind_inv in H. destruct H as (p2 & _ & H).
  apply bind_inv in H. destruct H as ([d1 p3] & E & H). inversion H; subst. eapply wf_records; eauto.
Qed.

Section Platform.
Variable P : platform.

Lemma wf_trace_best w R st w' : all_wf w -> trace_best w R st = Ok w' -> all_wf w'.
Proof.
  unfold trace_best. intros W H. destruct (negb _); [inversion H; subst; exact W|]. destruct (ds_find_min _ _ _) as [[? ?] best].
  apply bind_inv in H. destruct H as (ls & _ & H). injection H as <-. exact W.
Qed.
Lemma wf_store w m path w' : all_wf w -> store_model w m path = Ok w' -> all_wf w'.
Proof. unfold store_model. intros W H. apply bind_inv in H. destruct H as (s & _ & H). destruct s; inversion H; subst; exact W. Qed.
Lemma wf_train_body w r st w' : all_wf w -> train_body P w r st = Ok w' -> all_wf w'.
Proof.
  unfold train_body. intros W H. apply bind_inv in H. destruct H as (R & G & H). destruct (_ <=? 0); [inversion H; subst; exact W|].
  destruct (negb _); [discriminate|]. apply bind_inv in H. destruct H as (w1 & E1 & H). apply wf_trace_best in E1; [|exact W].
  apply bind_inv in H. destruct H as (m & _ & H). destruct (truthy (cf_retrain _)); [discriminate|].
  assert (A : all_wf (set_region w1 r (with_model R m))) by (apply wf_region; [exact E1|exact (wf_got _ _ _ W G)]).
  destruct (truthy (cf_store_models _)); [|inversion H; subst; exact A].
  apply bind_inv in H. destruct H as (w2 & E2 & H). eapply wf_store; [|exact H]. eapply wf_store; eauto.
Qed.
Lemma wf_quietly w r st w' : all_wf w -> train_quietly P w r st = Ok w' -> all_wf w'.
Proof.
  unfold train_quietly. intros W H. apply bind_inv in H. destruct H as (R & _ & H). destruct (negb _); [inversion H; subst; exact W|]. eapply wf_train_body; eauto.
Qed.
Lemma wf_each_on d rs : forall w w', all_wf w -> train_each_on P w rs d = Ok w' -> all_wf w'.
Proof.
  induction rs as [|r rs IH]; intros w w' W H; cbn in H; [inversion H; subst; exact W|]. apply bind_inv in H. destruct H as (R & G & H).
  apply bind_inv in H. destruct H as (m & _ & H). eapply IH; [|exact H]. apply wf_region; [exact W|exact (wf_got _ _ _ W G)].
Qed.
Lemma wf_each f rs : (forall w r w', all_wf w -> f w r = Ok w' -> all_wf w') -> forall w w', all_wf w -> each_region f w rs = Ok w' -> all_wf w'.
Proof.
  intros F. induction rs as [|r rs IH]; intros w w' W H; cbn in H; [inversion H; subst; exact W|]. apply bind_inv in H. destruct H as (w1 & E & H). eauto.
Qed.
Lemma wf_all f : (forall w r w', all_wf w -> f w r = Ok w' -> all_wf w') -> forall w w', all_wf w -> train_all_by P f w = Ok w' -> all_wf w'.
Proof.
  intros F w w' W H. unfold train_all_by, train_regions_by in H. destruct (truthy (cf_collective _)); [discriminate|]. destruct (truthy (cf_single_model _)).
  - apply bind_inv in H. destruct H as (d & _ & H). eapply wf_each_on; eauto.
  - eapply wf_each; eauto.
Qed.
Lemma wf_auto w r w' : all_wf w -> auto_train P w r = Ok w' -> all_wf w'.
Proof.
  unfold auto_train. intros W H. apply bind_inv in H. destruct H as (R & _ & H). destruct (negb _); [inversion H; subst; exact W|].
  repeat match type of H with (if ?b then _ else _) = _ => destruct b end.
  - eapply wf_all; [|exact W|exact H]. intros w0 r0 w1 W0 E. eapply wf_quietly; [exact W0|exact E].
  - eapply wf_quietly; eauto.
  - eapply wf_quietly; eauto.
  - inversion H; subst. exact W.
Qed.
Lemma wf_collect w r p x w' : all_wf w -> collect_context P w r p x = Ok w' -> all_wf w'.
Proof.
  unfold collect_context. intros W H. apply bind_inv in H. destruct H as (R & G & H). apply bind_inv in H. destruct H as (c & _ & H). assert (WR := wf_got _ _ _ W G).
  apply bind_inv in H. destruct H as (R1 & E0 & H). apply bind_inv in H. destruct H as (w1 & E1 & H).
  assert (WD : wfd (r_dataset R1)).
  { revert E0. match goal with |- (if ?b then _ else _) = _ -> _ => destruct b end; intros E0.
    - apply bind_inv in E0. destruct E0 as (d & Ed & E0). inversion E0; subst. cbn. destruct (truthy (cf_trace_csv _)); eapply insert_wf; eauto.
    - inversion E0; subst. destruct (truthy (cf_trace_csv _)); exact WR. }
  apply wf_auto in E1; [|intros i R0 E; eapply wf_region; [exact W|exact WD|exact E]].
  apply bind_inv in H. destruct H as (w2 & E2 & H). apply bind_inv in H. destruct H as (R2 & G2 & H). injection H as <-.
  assert (W2 : all_wf w2) by (destruct (is_sync_of r p); [inversion E2; subst; exact E1|eapply wf_delete; eauto]).
  apply wf_region; [exact W2|exact (wf_got _ _ _ W2 G2)].
Qed.
Lemma wf_loop r ps : forall w w' kept, all_wf w -> collect_loop P w r ps = Ok (w', kept) -> all_wf w'.
Proof.
  induction ps as [|p ps IH]; intros w w' kept W H; cbn in H; [inversion H; subst; exact W|].
  apply bind_inv in H. destruct H as (c & _ & H). apply bind_inv in H. destruct H as (d & _ & H). destruct d as [x|].
  - apply bind_inv in H. destruct H as (w1 & E & H). eapply IH; [|exact H]. eapply wf_collect; eauto.
  - apply bind_inv in H. destruct H as ([w1 k] & E & H). inversion H; subst. eauto.
Qed.
Lemma wf_pending w r w' : all_wf w -> collect_pending P w r = Ok w' -> all_wf w'.
Proof.
  unfold collect_pending. intros W H. apply bind_inv in H. destruct H as (R & _ & H). apply bind_inv in H. destruct H as ([w1 k] & E & H).
  apply bind_inv in H. destruct H as (R1 & G1 & H). injection H as <-. apply wf_loop in E; [|exact W]. apply wf_region; [exact E|exact (wf_got _ _ _ E G1)].
Qed.
Lemma wf_train w r st collect force w' : all_wf w -> region_train P w r st collect force = Ok w' -> all_wf w'.
Proof.
  unfold region_train. intros W H. apply bind_inv in H. destruct H as (R & _ & H). destruct (_ && _); [inversion H; subst; exact W|].
  apply bind_inv in H. destruct H as (w1 & E & H). eapply wf_train_body; [|exact H].
  destruct collect; [eapply wf_pending; eauto|inversion E; subst; exact W].
Qed.
Lemma wf_begin w r async now w' p : all_wf w -> begin_context w r async now = Ok (w', p) -> all_wf w'.
Proof.
  unfold begin_context. intros W H. apply bind_inv in H. destruct H as (R & G & H). assert (WR := wf_got _ _ _ W G). destruct async; cbv beta iota zeta in H.
  all: match type of H with (if ?b then _ else _) = _ => destruct b; [discriminate|] end.
  all: apply bind_inv in H; destruct H as (c & _ & H); injection H as <- <-; apply wf_context; apply wf_region; [exact W|exact WR].
Qed.
Lemma wf_load w r text w' : all_wf w -> load_dataset w r text = Ok w' -> all_wf w'.
Proof.
  unfold load_dataset. intros W H. apply bind_inv in H. destruct H as (R & G & H). apply bind_inv in H. destruct H as ([d x] & E & H). injection H as <-.
  apply wf_region; [exact W|]. eapply wf_ds_load; [|exact E]. exact (wf_got _ _ _ W G).
Qed.
Lemma wf_new w nf nm np mt info yaml init w' r : all_wf w -> new_region P w nf nm np mt info yaml init = Ok (w', r) -> all_wf w'.
Proof.
  unfold new_region. intros W H. apply bind_inv in H. destruct H as ([mn ps] & _ & H). apply bind_inv in H. destruct H as ([[mn1 ps1] info1] & _ & H).
  apply bind_inv in H. destruct H as (m & _ & H). apply bind_inv in H. destruct H as (m1 & _ & H).
  apply bind_inv in H. destruct H as (w1 & E1 & H). apply bind_inv in H. destruct H as (w2 & E2 & H). apply bind_inv in H. destruct H as (w3 & E3 & H).
  apply bind_inv in H. destruct H as (w4 & E4 & H). apply bind_inv in H. destruct H as (w5 & E5 & H). injection H as <- <-.
  assert (W1 : all_wf w1).
  { match type of E1 with load_persistent P ?w0 _ _ = _ => assert (W0 : all_wf w0) end.
    { intros i R E. cbn in E. destruct (Nat.ltb_spec i (List.length (w_regions w))) as [L|L].
      - rewrite nth_error_app1 in E by exact L. eauto.
      - rewrite nth_error_app2 in E by exact L. destruct (i - List.length (w_regions w))%nat as [|[|]]; inversion E; subst. apply wfd_nil. }
    unfold load_persistent in E1. match type of E1 with (if ?b then _ else _) = _ => destruct b end; [|inversion E1; subst; exact W0].
    apply bind_inv in E1. destruct E1 as (wa & EA & E1). eapply wf_auto; [|exact E1].
    destruct (file_find _ _); [|inversion EA; subst; exact W0]. eapply wf_load; [exact W0|exact EA]. }
  assert (W2 : all_wf w2).
  { unfold load_and_train in E2. destruct (param_find _ _); [|inversion E2; subst; exact W1]. destruct (file_find _ _); [|discriminate].
    apply bind_inv in E2. destruct E2 as (wa & EA & E2). apply bind_inv in E2. destruct E2 as (R & _ & E2). destruct (_ <=? 0); [discriminate|].
    eapply wf_train; [|exact E2]. eapply wf_load; eauto. }
  assert (W3 : all_wf w3).
  { unfold load_optimal in E3. destruct (bytes_eqb _ _); [|inversion E3; subst; exact W2]. destruct (file_find _ _); [|discriminate].
    apply bind_inv in E3. destruct E3 as (R & G & E3). apply bind_inv in E3. destruct E3 as (m2 & _ & E3). injection E3 as <-. apply wf_region; [exact W2|exact (wf_got _ _ _ W2 G)]. }
  assert (W4 : all_wf w4).
  { unfold load_dataset_map in E4. destruct (bytes_eqb _ _); [|inversion E4; subst; exact W3]. destruct (file_find _ _); [|discriminate].
    apply bind_inv in E4. destruct E4 as (wa & EA & E4). apply bind_inv in E4. destruct E4 as (R & G & E4). destruct (_ <=? 0); [discriminate|].
    apply bind_inv in E4. destruct E4 as (m2 & _ & E4). injection E4 as <-. assert (WA := wf_load _ _ _ _ W3 EA). apply wf_region; [exact WA|exact (wf_got _ _ _ WA G)]. }
  assert (W5 : all_wf w5).
  { match type of E5 with (if ?b then _ else _) = _ => destruct b end; [|inversion E5; subst; exact W4].
    apply bind_inv in E5. destruct E5 as (R & G & E5). injection E5 as <-. apply wf_region; [exact W4|exact (wf_got _ _ _ W4 G)]. }
  exact W5.
Qed.
Lemma wf_drain r waits : forall w w', all_wf w -> drain P w r waits = Ok w' -> all_wf w'.
Proof.
  induction waits as [|b waits IH]; intros w w' W H; cbn [drain] in H; apply bind_inv in H; destruct H as (R & _ & H); destruct (r_pending R).
  - inversion H; subst. exact W.
  - discriminate.
  - injection H as <-. apply wf_completes. exact W.
  - apply bind_inv in H. destruct H as (w1 & E & H). eapply IH; [|exact H]. eapply wf_pending; [|exact E]. apply wf_completes. exact W.
Qed.
Lemma wf_destroy w r waits w' : all_wf w -> destroy_region P w r waits = Ok w' -> all_wf w'.
Proof.
  unfold destroy_region. intros W H. apply bind_inv in H. destruct H as (w1 & E1 & H). apply wf_drain in E1; [|exact W]. apply bind_inv in H. destruct H as (R & G & H). injection H as <-.
  apply wf_region; [|exact (wf_got _ _ _ E1 G)]. destruct (truthy _); exact E1.
Qed.
Lemma wf_destroy_all waits rs : forall w w', all_wf w -> destroy_all P w rs waits = Ok w' -> all_wf w'.
Proof.
  induction rs as [|r rs IH]; intros w w' W H; cbn in H; [inversion H; subst; exact W|]. apply bind_inv in H. destruct H as (w1 & E & H). eapply IH; [|exact H]. eapply wf_destroy; eauto.
Qed.

Lemma wf_step w o w' x : all_wf w -> step P w o = Ok (w', x) -> all_wf w'.
Proof.
  intros W. destruct o; cbn [RuntimeM.step]; intros H.
  - apply bind_inv in H. destruct H as ([w1 r] & E & H). inversion H; subst. eapply wf_new; eauto.
  - apply bind_inv in H. destruct H as ([w1 p] & E & H). inversion H; subst. eapply wf_begin; eauto.
  - apply bind_inv in H. destruct H as ([w1 p] & E & H). inversion H; subst. unfold begin_features in E. apply bind_inv in E. destruct E as ([w2 p2] & E2 & E).
    apply bind_inv in E. destruct E as (c & _ & E). injection E as <- <-. apply wf_context. eapply wf_begin; eauto.
  - apply bind_inv in H. destruct H as (R & _ & H). apply bind_inv in H. destruct H as (q & _ & H). apply bind_inv in H. destruct H as (w1 & E & H). inversion H; subst.
    unfold set_feature in E. apply bind_inv in E. destruct E as (c & _ & E). injection E as <-. apply wf_context. exact W.
  - apply bind_inv in H. destruct H as (q & _ & H). apply bind_inv in H. destruct H as ([w1 ch] & E & H). inversion H; subst. unfold get_policy_index in E.
    apply bind_inv in E. destruct E as (R & G & E). apply bind_inv in E. destruct E as (c & _ & E). apply bind_inv in E. destruct E as ([ch2 m] & _ & E).
    apply bind_inv in E. destruct E as (w2 & E2 & E). apply bind_inv in E. destruct E as (c2 & _ & E). injection E as <- <-.
    apply wf_context. apply wf_region; [|exact (wf_got _ _ _ W G)]. unfold trace_policy in E2. destruct (negb _); [inversion E2; subst; exact W|].
    apply bind_inv in E2. destruct E2 as (fs & _ & E2). injection E2 as <-. exact W.
  - apply bind_inv in H. destruct H as (R & _ & H). apply bind_inv in H. destruct H as (q & _ & H). apply bind_inv in H. destruct H as (w1 & E & H). inversion H; subst.
    unfold end_context in E. apply bind_inv in E. destruct E as (c & _ & E). match type of E with context [set_context w q ?c0] => assert (W1 := wf_context w q c0 W) end. destruct (is_sync_of r q).
    + apply bind_inv in E. destruct E as (d & _ & E). destruct d; [|discriminate]. eapply wf_collect; [exact W1|exact E].
    + apply bind_inv in E. destruct E as (R1 & G1 & E). eapply wf_pending; [|exact E].
      match goal with |- context [set_region ?a ?b ?d] => assert (W2 : all_wf (set_region a b d)) by (apply wf_region; [exact W1|exact (wf_got _ _ _ W1 G1)]) end.
      destruct early; [apply wf_complete|]; exact W2.
  - apply bind_inv in H. destruct H as (q & _ & H). apply bind_inv in H. destruct H as (w1 & E & H). inversion H; subst. unfold end_metric in E.
    apply bind_inv in E. destruct E as (w2 & E2 & E). eapply wf_pending; [|exact E]. eapply wf_collect; eauto.
  - apply bind_inv in H. destruct H as (w1 & E & H). inversion H; subst. eapply wf_train; eauto.
  - apply bind_inv in H. destruct H as (w1 & E & H). inversion H; subst. unfold apollo_train in E. eapply wf_all; [|exact W|exact E]. intros w0 r0 w2 W0 E2. eapply wf_train; [exact W0|exact E2].
  - apply bind_inv in H. destruct H as (w1 & E & H). inversion H; subst. eapply wf_pending; eauto.
  - apply bind_inv in H. destruct H as (w1 & E & H). inversion H; subst. eapply wf_destroy; eauto.
  - apply bind_inv in H. destruct H as (w1 & E & H). inversion H; subst. unfold shutdown in E. apply bind_inv in E. destruct E as (w2 & E2 & E).
    eapply wf_destroy_all; [|exact E]. destruct (truthy _); [|inversion E2; subst; exact W].
    apply bind_inv in E2. destruct E2 as (s & _ & E2). injection E2 as <-. exact W.
  - injection H as <- <-. apply wf_complete. exact W.
Qed.

Lemma wf_run os : forall w w' xs, all_wf w -> run P w os = Ok (w', xs) -> all_wf w'.
Proof.
  induction os as [|o os IH]; intros w w' xs W H; cbn in H; [inversion H; subst; exact W|]. apply bind_inv in H. destruct H as ([w1 x] & E & H).
  apply bind_inv in H. destruct H as ([w2 ys] & E2 & H). inversion H; subst. eapply IH; [|exact E2]. eapply wf_step; eauto.
Qed.

Lemma wf_started c files os w xs : run P (start_world c files) os = Ok (w, xs) -> all_wf w.
Proof. apply wf_run. intros i R E. cbn in E. destruct i; discriminate E. Qed.
End Platform.
