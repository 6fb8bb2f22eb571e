(** Lemmas on the runtime: calls leave unregistered regions alone. *)
From Coq Require Import ZArith Bool Ascii String Lia List Permutation Sorted.
From Verif Require Import Model.Base Model.Float Model.DatasetM Model.ParserM Model.DatasetIO Model.ModelStringM Model.PolicyModelsM Model.ConfigM Model.RuntimeM
  Spec.DatasetSpec Spec.DatasetClient Spec.RuntimeSpec
  Proofs.TreeFacts Proofs.RuntimeFacts Proofs.RuntimeCollect Proofs.RuntimeMoves Proofs.RuntimePending Proofs.RuntimeOps
  Proofs.RuntimeSettled Proofs.RuntimeNew Proofs.RuntimeRegistry Proofs.RuntimeAccount Proofs.RuntimeRecords Proofs.RuntimeClient
  Proofs.RuntimeCurrent Proofs.RuntimeCreate.
Import ListNotations.
Open Scope Z_scope.

(** Only the contexts of the region may differ. *)
Definition contexts_only (R R' : region) : Prop := exists s h, R' = with_heap (with_sync R s) h.

Lemma contexts_only_refl R : contexts_only R R.
Proof. exists (r_sync R), (r_heap R). destruct R; reflexivity. Qed.

Lemma contexts_only_trans a b c : contexts_only a b -> contexts_only b c -> contexts_only a c.
Proof. intros (s & h & ->) (s' & h' & ->). exists s', h'. reflexivity. Qed.

(** Region [r] is as before, and not registered if it was not. *)
Definition apart (r : nat) (w w' : world) : Prop :=
  (In r (map snd (w_registry w')) -> In r (map snd (w_registry w))) /\
  forall R, nth_error (w_regions w) r = Some R -> exists R', nth_error (w_regions w') r = Some R' /\ contexts_only R R'.

Lemma apart_same r w w' : w_registry w' = w_registry w -> nth_error (w_regions w') r = nth_error (w_regions w) r -> apart r w w'.
Proof. intros E H. split; [rewrite E; auto|]. rewrite H. intros R ER. exists R. split; auto. apply contexts_only_refl. Qed.

Lemma apart_refl r w : apart r w w.
Proof. apply apart_same; auto. Qed.

Lemma apart_trans r a b c : apart r a b -> apart r b c -> apart r a c.
Proof.
  intros [A1 A2] [B1 B2]. split; auto. intros R ER. destruct (A2 _ ER) as (R1 & E1 & C1). destruct (B2 _ E1) as (R2 & E2 & C2).
  exists R2. split; auto. eapply contexts_only_trans; eauto.
Qed.

Lemma apart_set r w i R : i <> r -> apart r w (set_region w i R).
Proof. intros N. apply apart_same; auto. cbn. apply nth_set_nth_neq. auto. Qed.

Lemma apart_set_contexts r w i R R' : nth_error (w_regions w) i = Some R -> contexts_only R R' -> apart r w (set_region w i R').
Proof.
  intros E C. split; auto. intros R0 E0. cbn. rewrite nth_set_nth. destruct (Nat.eqb_spec r i) as [->|].
  - rewrite E. rewrite E in E0. inversion E0; subst. eauto.
  - exists R0. split; auto. apply contexts_only_refl.
Qed.

Lemma apart_set_context r w p c : apart r w (set_context w p c).
Proof.
  unfold set_context. destruct (nth_error (w_regions w) (fst p)) as [R|] eqn:E; [|apply apart_refl].
  destruct (snd p); eapply apart_set_contexts; eauto; [exists c, (r_heap R)|exists (r_sync R)]; destruct R; cbn; eauto.
Qed.

Lemma apart_complete r w e : apart r w (complete w e).
Proof.
  unfold complete. destruct (get_context w (fst e)); try apply apart_refl. destruct (c_timer a) as [|[|] [|]]; try apply apart_refl. apply apart_set_context.
Qed.

Lemma apart_completes r es : forall w, apart r w (fold_left complete es w).
Proof. induction es as [|e es IH]; intros w; [apply apart_refl|]. cbn. eapply apart_trans; [apply apart_complete|apply IH]. Qed.

Section Platform.
Variable P : platform.

Lemma apart_trace_best r w R st w' : trace_best w R st = Ok w' -> apart r w w'.
Proof.
  unfold trace_best. destruct (negb _).
  - intros H; inversion H; subst. apply apart_refl.
  - intros H. apply bind_inv in H. destruct H as (x & _ & H). inversion H; subst. apply apart_same; auto.
Qed.

Lemma apart_store_model r w m path w' : store_model w m path = Ok w' -> apart r w w'.
Proof.
  unfold store_model. intros H. apply bind_inv in H. destruct H as (s & _ & H).
  destruct s; inversion H; subst; apply apart_same; auto.
Qed.

Lemma apart_train_body r w i st w' : i <> r -> train_body P w i st = Ok w' -> apart r w w'.
Proof.
  unfold train_body. intros N H. apply bind_inv in H. destruct H as (R & ER & H).
  destruct (ds_size (r_dataset R) <=? 0); [inversion H; subst; apply apart_refl|].
  destruct (negb _); [discriminate|].
  apply bind_inv in H. destruct H as (w1 & E1 & H). apply bind_inv in H. destruct H as (m & Em & H).
  destruct (truthy _); [discriminate|].
  eapply apart_trans; [eapply apart_trace_best; eauto|]. eapply apart_trans; [apply apart_set with (i := i) (R := with_model R m); auto|].
  destruct (truthy _); [|inversion H; subst; apply apart_refl].
  apply bind_inv in H. destruct H as (w2 & E2 & H).
  eapply apart_trans; eapply apart_store_model; eauto.
Qed.

Lemma apart_train_quietly r w i st w' : i <> r -> train_quietly P w i st = Ok w' -> apart r w w'.
Proof.
  unfold train_quietly. intros N H. apply bind_inv in H. destruct H as (R & ER & H).
  destruct (negb _); [inversion H; subst; apply apart_refl|]. eapply apart_train_body; eauto.
Qed.

Lemma apart_train_each_on r rs d : ~ In r rs -> forall w w', train_each_on P w rs d = Ok w' -> apart r w w'.
Proof.
  induction rs as [|i rs IH]; cbn; intros N w w' H; [inversion H; subst; apply apart_refl|].
  apply bind_inv in H. destruct H as (R & ER & H). apply bind_inv in H. destruct H as (m & Em & H).
  eapply apart_trans; [apply apart_set with (i := i) (R := with_model R m); intuition congruence|]. apply IH; auto.
Qed.

Lemma apart_each_region f r rs : (forall w i w', In i rs -> ~ In r (map snd (w_registry w)) -> f w i = Ok w' -> apart r w w') ->
  forall w w', ~ In r (map snd (w_registry w)) -> each_region f w rs = Ok w' -> apart r w w'.
Proof.
  induction rs as [|i rs IH]; cbn; intros HF w w' NR H; [inversion H; subst; apply apart_refl|].
  apply bind_inv in H. destruct H as (w1 & E1 & H). assert (A := HF _ _ _ (or_introl eq_refl) NR E1).
  eapply apart_trans; [exact A|]. apply IH; [intros; eapply HF; eauto| |exact H]. destruct A as [A _]. auto.
Qed.

Lemma apart_train_all f r : (forall w i w', i <> r -> ~ In r (map snd (w_registry w)) -> f w i = Ok w' -> apart r w w') ->
  forall w w', ~ In r (map snd (w_registry w)) -> train_all_by P f w = Ok w' -> apart r w w'.
Proof.
  unfold train_all_by, train_regions_by. intros HF w w' NR H. destruct (truthy _); [discriminate|]. destruct (truthy _).
  - apply bind_inv in H. destruct H as (d & _ & H). eapply apart_train_each_on; eauto.
  - eapply apart_each_region; eauto. intros v i v' IN. apply HF. congruence.
Qed.

Lemma apart_auto_train r w i w' : i <> r -> ~ In r (map snd (w_registry w)) -> auto_train P w i = Ok w' -> apart r w w'.
Proof.
  unfold auto_train. intros N NR H. apply bind_inv in H. destruct H as (R & ER & H).
  destruct (negb _); [inversion H; subst; apply apart_refl|]. destruct (_ && _).
  - revert H. apply apart_train_all; auto. intros. eapply apart_train_quietly; eauto.
  - destruct (_ && _); [eapply apart_train_quietly; eauto|]. destruct (_ && _); [eapply apart_train_quietly; eauto|].
    inversion H; subst. apply apart_refl.
Qed.

Lemma apart_collect_context r w i p x w' : i <> r -> ~ In r (map snd (w_registry w)) -> collect_context P w i p x = Ok w' -> apart r w w'.
Proof.
  unfold collect_context. intros N NR H. apply bind_inv in H. destruct H as (R & ER & H). apply bind_inv in H. destruct H as (c & EC & H).
  apply bind_inv in H. destruct H as (R1 & ER1 & H). apply bind_inv in H. destruct H as (w1 & E1 & H).
  apply bind_inv in H. destruct H as (w2 & E2 & H). apply bind_inv in H. destruct H as (R2 & ER2 & H). inversion H; subst w'.
  assert (A1 : apart r w (count_execution (set_region w i R1))).
  { apply apart_same; auto. cbn. apply nth_set_nth_neq. auto. }
  eapply apart_trans; [exact A1|]. eapply apart_trans; [eapply apart_auto_train; [exact N| |exact E1]; auto|].
  eapply apart_trans; [|apply apart_set; auto].
  destruct (is_sync_of i p); [inversion E2; subst; apply apart_refl|].
  apply delete_context_inv in E2. destruct E2 as (o & k & Ro & c' & -> & EO & EK & ->).
  eapply apart_set_contexts; eauto. exists (r_sync Ro). destruct Ro; cbn; eauto.
Qed.

Lemma apart_collect_loop r i : i <> r -> forall ps w w' kept, ~ In r (map snd (w_registry w)) -> collect_loop P w i ps = Ok (w', kept) -> apart r w w'.
Proof.
  intros N. induction ps as [|p ps IH]; cbn; intros w w' kept NR H; [inversion H; subst; apply apart_refl|].
  apply bind_inv in H. destruct H as (c & EC & H). apply bind_inv in H. destruct H as (d & ED & H). destruct d as [x|].
  - apply bind_inv in H. destruct H as (w1 & E1 & H). assert (A := apart_collect_context _ _ _ _ _ _ N NR E1).
    eapply apart_trans; [exact A|]. eapply IH; eauto. destruct A as [A _]. auto.
  - apply bind_inv in H. destruct H as ([w1 k1] & E1 & H). inversion H; subst. eapply IH; eauto.
Qed.

Lemma apart_collect_pending r w i w' : i <> r -> ~ In r (map snd (w_registry w)) -> collect_pending P w i = Ok w' -> apart r w w'.
Proof.
  unfold collect_pending. intros N NR H. apply bind_inv in H. destruct H as (R & ER & H).
  apply bind_inv in H. destruct H as ([w1 k] & E1 & H). apply bind_inv in H. destruct H as (R1 & ER1 & H). inversion H; subst.
  eapply apart_trans; [eapply apart_collect_loop; eauto|]. apply apart_set; auto.
Qed.

Lemma apart_region_train r w i st collect force w' : i <> r -> ~ In r (map snd (w_registry w)) ->
  region_train P w i st collect force = Ok w' -> apart r w w'.
Proof.
  unfold region_train. intros N NR H. apply bind_inv in H. destruct H as (R & ER & H).
  destruct (_ && _); [inversion H; subst; apply apart_refl|]. apply bind_inv in H. destruct H as (w1 & E1 & H).
  eapply apart_trans; [|eapply apart_train_body; eauto]. destruct collect; [|inversion E1; subst; apply apart_refl].
  eapply apart_collect_pending; eauto.
Qed.

Lemma apart_drain r i : i <> r -> forall waits w w', ~ In r (map snd (w_registry w)) -> drain P w i waits = Ok w' -> apart r w w'.
Proof.
  intros N. induction waits as [|b rest IH]; intros w w' NR H; cbn [drain] in H; apply bind_inv in H; destruct H as (R & ER & H).
  - destruct (r_pending R); [|discriminate]. inversion H; subst. apply apart_refl.
  - destruct (r_pending R); [inversion H; subst; apply apart_completes|].
    apply bind_inv in H. destruct H as (w1 & E1 & H). assert (A0 := apart_completes r b w).
    assert (A := apart_collect_pending _ _ _ _ N (fun q => NR (proj1 A0 q)) E1).
    eapply apart_trans; [exact A0|]. eapply apart_trans; [exact A|]. apply IH; auto. intros q. apply NR. apply A0. apply A. exact q.
Qed.

Lemma apart_destroy r w i waits w' : i <> r -> ~ In r (map snd (w_registry w)) -> destroy_region P w i waits = Ok w' -> apart r w w'.
Proof.
  unfold destroy_region. intros N NR H. apply bind_inv in H. destruct H as (w1 & E1 & H). apply bind_inv in H. destruct H as (R & ER & H).
  inversion H; subst w'. assert (A : apart r w (disable_global_period w)) by (apply apart_same; auto).
  eapply apart_trans; [exact A|]. eapply apart_trans; [eapply apart_drain; [exact N| |exact E1]; auto|].
  eapply apart_trans; [|apply apart_set; auto]. destruct (truthy _); [apply apart_same; auto|apply apart_refl].
Qed.

Lemma apart_destroy_all r waits : forall rs w w', ~ In r rs -> ~ In r (map snd (w_registry w)) -> destroy_all P w rs waits = Ok w' -> apart r w w'.
Proof.
  induction rs as [|i rs IH]; cbn; intros w w' N NR H; [inversion H; subst; apply apart_refl|].
  apply bind_inv in H. destruct H as (w1 & E1 & H).
  assert (A : apart r w w1) by (eapply apart_destroy; [| |exact E1]; [intros ->; apply N; auto|auto]). eapply apart_trans; [exact A|]. apply IH; auto. destruct A as [A _]. auto.
Qed.

Lemma apart_begin r w i async now w' p : i <> r -> begin_context w i async now = Ok (w', p) -> apart r w w'.
Proof.
  unfold begin_context. intros N H. apply bind_inv in H. destruct H as (R & ER & H).
  destruct (if async then _ else _) as [R1 q]. destruct (_ =? _); [discriminate|].
  apply bind_inv in H. destruct H as (c & EC & H). inversion H; subst.
  eapply apart_trans; [apply apart_set; exact N|]. apply apart_set_context.
Qed.

Lemma apart_load_dataset r w i text w' : i <> r -> load_dataset w i text = Ok w' -> apart r w w'.
Proof.
  unfold load_dataset. intros N H. apply bind_inv in H. destruct H as (R & ER & H). apply bind_inv in H. destruct H as ([d x] & ED & H).
  inversion H; subst. apply apart_set; auto.
Qed.

Lemma register_snd name x m : forall r, In r (map snd (register name x m)) -> r = x \/ In r (map snd m).
Proof.
  induction m as [|[n y] m IH]; cbn; intros r; [intuition|]. destruct (bytes_lt name n); [cbn; intuition|].
  destruct (bytes_lt n name); cbn; [|tauto]. intros [H|H]; [tauto|]. apply IH in H. tauto.
Qed.

Lemma apart_new_region r w nf nm np mt info yaml init w' r' : (r < List.length (w_regions w))%nat -> ~ In r (map snd (w_registry w)) ->
  new_region P w nf nm np mt info yaml init = Ok (w', r') -> apart r w w'.
Proof.
  unfold new_region. intros L NR H.
  apply bind_inv in H. destruct H as ([mn0 ps0] & E1 & H).
  apply bind_inv in H. destruct H as ([[mn ps] info'] & E2 & H).
  apply bind_inv in H. destruct H as (m0 & E3 & H). apply bind_inv in H. destruct H as (m1 & E4 & H).
  set (n := List.length (w_regions w)) in *.
  match type of H with context [load_persistent P ?v _ _] => set (v0 := v) in * end.
  assert (N : n <> r) by lia.
  assert (A0 : apart r w v0). { apply apart_same; auto. cbn. apply nth_error_app1. exact L. }
  apply bind_inv in H. destruct H as (v1 & F1 & H). apply bind_inv in H. destruct H as (v2 & F2 & H).
  apply bind_inv in H. destruct H as (v3 & F3 & H). apply bind_inv in H. destruct H as (v4 & F4 & H).
  apply bind_inv in H. destruct H as (v5 & F5 & H). inversion H; subst w' r'. clear H.
  assert (A1 : apart r v0 v1).
  { unfold load_persistent in F1. destruct (truthy _); [|inversion F1; subst; apply apart_refl].
    apply bind_inv in F1. destruct F1 as (u & G1 & G2).
    assert (B : apart r v0 u). { destruct (file_find _ _); [eapply apart_load_dataset; eauto|inversion G1; subst; apply apart_refl]. }
    eapply apart_trans; [exact B|]. eapply apart_auto_train; [exact N| |exact G2]. intros q. apply NR. apply A0. apply B. exact q. }
  assert (A2 : apart r v1 v2).
  { unfold load_and_train in F2. destruct (param_find _ _); [|inversion F2; subst; apply apart_refl].
    destruct (file_find _ _); [|discriminate]. apply bind_inv in F2. destruct F2 as (u & G1 & G2).
    assert (B : apart r v1 u) by (eapply apart_load_dataset; eauto). apply bind_inv in G2. destruct G2 as (R & ER & G2).
    destruct (_ <=? _); [discriminate|]. eapply apart_trans; [exact B|]. eapply apart_region_train; [exact N| |exact G2].
    intros q. apply NR. apply A0. apply A1. apply B. exact q. }
  assert (A3 : apart r v2 v3).
  { unfold load_optimal in F3. destruct (bytes_eqb _ _); [|inversion F3; subst; apply apart_refl]. destruct (file_find _ _); [|discriminate].
    apply bind_inv in F3. destruct F3 as (R & ER & F3). apply bind_inv in F3. destruct F3 as (m & EM & F3). inversion F3; subst. apply apart_set; auto. }
  assert (A4 : apart r v3 v4).
  { unfold load_dataset_map in F4. destruct (bytes_eqb _ _); [|inversion F4; subst; apply apart_refl]. destruct (file_find _ _); [|discriminate].
    apply bind_inv in F4. destruct F4 as (u & G1 & G2). apply bind_inv in G2. destruct G2 as (R & ER & G2). destruct (_ <=? _); [discriminate|].
    apply bind_inv in G2. destruct G2 as (m & EM & G2). inversion G2; subst. eapply apart_trans; [eapply apart_load_dataset; eauto|]. apply apart_set; auto. }
  assert (A5 : apart r v4 v5).
  { destruct (truthy _); [|inversion F5; subst; apply apart_refl]. apply bind_inv in F5. destruct F5 as (R & ER & F5). inversion F5; subst. apply apart_set; auto. }
  assert (A : apart r w v5). { eapply apart_trans; [exact A0|]. eapply apart_trans; [exact A1|]. eapply apart_trans; [exact A2|]. eapply apart_trans; [exact A3|]. eapply apart_trans; [exact A4|exact A5]. }
  destruct A as [AR AN]. split; auto. cbn. intros IN. apply register_snd in IN. destruct IN as [IN|IN]; [congruence|auto].
Qed.

Lemma apart_end_context r w i p now early w' : i <> r -> ~ In r (map snd (w_registry w)) -> end_context P w i p now early = Ok w' -> apart r w w'.
Proof.
  unfold end_context. intros N NR H. apply bind_inv in H. destruct H as (c & EC & H).
  match type of H with context [set_context w p ?c'] => assert (A := apart_set_context r w p c'); set (w1 := set_context w p c') in * end.
  assert (NR1 : ~ In r (map snd (w_registry w1))) by (intros q; apply NR; apply A; exact q).
  eapply apart_trans; [exact A|]. destruct (is_sync_of i p).
  - apply bind_inv in H. destruct H as (d & ED & H). destruct d; [|discriminate]. eapply apart_collect_context; eauto.
  - apply bind_inv in H. destruct H as (R & ER & H).
    assert (B : apart r w1 (set_region w1 i (with_pending R (r_pending R ++ [p])))) by (apply apart_set; auto).
    assert (C : apart r (set_region w1 i (with_pending R (r_pending R ++ [p])))
      (match early with Some ms => complete (set_region w1 i (with_pending R (r_pending R ++ [p]))) (p, ms) | None => set_region w1 i (with_pending R (r_pending R ++ [p])) end)).
    { destruct early; [apply apart_complete|apply apart_refl]. }
    eapply apart_trans; [exact B|]. eapply apart_trans; [exact C|]. eapply apart_collect_pending; eauto. intros q. apply NR1. apply B. apply C. exact q.
Qed.

Lemma apart_step r w o w' x : (r < List.length (w_regions w))%nat -> ~ In r (map snd (w_registry w)) -> made_on o <> Some r ->
  step P w o = Ok (w', x) -> apart r w w'.
Proof.
  intros L NR N H. destruct o; cbn in N, H;
    try (assert (NN : r0 <> r) by congruence).
  - apply bind_inv in H. destruct H as ([w1 r1] & H & E). inversion E; subst. eapply apart_new_region; eauto.
  - apply bind_inv in H. destruct H as ([w1 r1] & H & E). inversion E; subst. eapply apart_begin; eauto.
  - apply bind_inv in H. destruct H as ([w1 r1] & H & E). inversion E; subst. unfold begin_features in H.
    apply bind_inv in H. destruct H as ([w2 p] & HB & H). apply bind_inv in H. destruct H as (c & EC & H). inversion H; subst.
    eapply apart_trans; [eapply apart_begin; eauto|apply apart_set_context].
  - apply bind_inv in H. destruct H as (R & _ & H). apply bind_inv in H. destruct H as (q & _ & H). apply bind_inv in H. destruct H as (w1 & H & E).
    inversion E; subst. unfold set_feature in H. apply bind_inv in H. destruct H as (c & EC & H). inversion H; subst. apply apart_set_context.
  - apply bind_inv in H. destruct H as (q & _ & H). apply bind_inv in H. destruct H as ([w1 c] & H & E). inversion E; subst. unfold get_policy_index in H.
    apply bind_inv in H. destruct H as (R & ER & H). apply bind_inv in H. destruct H as (cx & EC & H). apply bind_inv in H. destruct H as ([choice m] & EM & H).
    apply bind_inv in H. destruct H as (w2 & ET & H). apply bind_inv in H. destruct H as (c2 & EC2 & H). inversion H; subst.
    eapply apart_trans; [|apply apart_set_context]. eapply apart_trans; [|apply apart_set; auto].
    unfold trace_policy in ET. destruct (negb _); [inversion ET; subst; apply apart_refl|]. apply bind_inv in ET. destruct ET as (fs & _ & ET).
    inversion ET; subst. apply apart_same; auto.
  - apply bind_inv in H. destruct H as (R & _ & H). apply bind_inv in H. destruct H as (q & _ & H). apply bind_inv in H. destruct H as (w1 & H & E).
    inversion E; subst. eapply apart_end_context; eauto.
  - apply bind_inv in H. destruct H as (q & _ & H). apply bind_inv in H. destruct H as (w1 & H & E). inversion E; subst. unfold end_metric in H.
    apply bind_inv in H. destruct H as (w2 & E2 & H). assert (A := apart_collect_context _ _ _ _ _ _ NN NR E2).
    eapply apart_trans; [exact A|]. eapply apart_collect_pending; eauto. intros z. apply NR. apply A. exact z.
  - apply bind_inv in H. destruct H as (w1 & H & E). inversion E; subst. eapply apart_region_train; eauto.
  - apply bind_inv in H. destruct H as (w1 & H & E). inversion E; subst. unfold apollo_train in H. revert H. apply apart_train_all; auto.
    intros. eapply apart_region_train; eauto.
  - apply bind_inv in H. destruct H as (w1 & H & E). inversion E; subst. eapply apart_collect_pending; eauto.
  - apply bind_inv in H. destruct H as (w1 & H & E). inversion E; subst. eapply apart_destroy; eauto.
  - apply bind_inv in H. destruct H as (w1 & H & E). inversion E; subst. unfold shutdown in H. apply bind_inv in H. destruct H as (w2 & E2 & H).
    assert (A : apart r w w2 /\ w_registry w2 = w_registry w).
    { destruct (truthy _); [|inversion E2; subst; split; [apply apart_refl|auto]]. apply bind_inv in E2. destruct E2 as (s & _ & E2). inversion E2; subst. split; [apply apart_same; auto|auto]. }
    destruct A as [A AE]. eapply apart_trans; [exact A|]. eapply apart_destroy_all; eauto. rewrite AE. auto.
  - inversion H; subst. apply apart_complete.
Qed.

Lemma apart_run r : forall os w w' xs R, nth_error (w_regions w) r = Some R -> ~ In r (map snd (w_registry w)) ->
  Forall (fun o => made_on o <> Some r) os -> run P w os = Ok (w', xs) -> apart r w w'.
Proof.
  induction os as [|o os IH]; cbn; intros w w' xs R ER NR F H; [inversion H; subst; apply apart_refl|].
  apply bind_inv in H. destruct H as ([w1 x] & E1 & H). apply bind_inv in H. destruct H as ([w2 ys] & E2 & H). inversion H; subst. inversion F; subst.
  assert (A : apart r w w1). { eapply apart_step; eauto. apply nth_error_Some. congruence. }
  destruct (proj2 A _ ER) as (R1 & ER1 & _). eapply apart_trans; [exact A|]. eapply IH; eauto. intros q. apply NR. apply A. exact q.
Qed.

(** ** Statements about runs *)

Lemma unregistered_untouched c files os w xs r r' R R0 os' w' xs' :
  run P (start_world c files) os = Ok (w, xs) -> forallb explicit os = true ->
  nth_error (w_regions w) r = Some R -> nth_error (w_regions w) r' = Some R0 -> (r' < r)%nat -> r_name R0 = r_name R ->
  Forall (fun o => made_on o <> Some r) os' -> run P w os' = Ok (w', xs') ->
  ~ In r (map snd (w_registry w')) /\ exists R', nth_error (w_regions w') r = Some R' /\ as_before R R'.
Proof.
  intros H EX ER ER' LT EN F H'. destruct (inv_run P (start_world c files) eq_refl eq_refl eq_refl _ _ _ EX H) as (log & I).
  assert (NR : ~ In r (map snd (w_registry w))).
  { intros IN. apply in_map_iff in IN. destruct IN as ([n k] & E & IN). cbn in E. subst k. destruct (i_reg _ _ _ _ _ I) as [_ RG].
    apply RG in IN. destruct IN as [IN FST]. apply (FST _ LT). unfold region_names in *. rewrite (map_nth_error r_name _ _ ER) in IN.
    rewrite (map_nth_error r_name _ _ ER'). congruence. }
  assert (A := apart_run _ _ _ _ _ _ ER NR F H'). split; [intros q; apply NR; apply A; exact q|].
  destruct (proj2 A _ ER) as (R' & E' & s & h & ->). exists (with_heap (with_sync R s) h). split; auto. repeat (split; [reflexivity|]). reflexivity.
Qed.

Lemma register_present name r m : StronglySorted by_name m -> In name (map fst m) -> register name r m = m.
Proof.
  induction 1 as [|[n y] m S IH F]; cbn; [tauto|]. intros IN. destruct (bytes_lt name n) eqn:L1.
  - exfalso. destruct IN as [->|IN]; [rewrite bytes_lt_irrefl in L1; discriminate|]. apply in_map_iff in IN. destruct IN as ([a b] & E & IN). cbn in E. subst a.
    rewrite Forall_forall in F. specialize (F _ IN). unfold by_name in F. cbn in F.
    assert (X := bytes_lt_trans _ _ _ L1 F). rewrite bytes_lt_irrefl in X. discriminate.
  - destruct (bytes_lt n name) eqn:L2; auto. f_equal. apply IH. destruct IN as [->|IN]; auto. rewrite bytes_lt_irrefl in L2. discriminate.
Qed.

Lemma second_of_a_name c files os w xs nf nm np mt info yaml init w' r :
  run P (start_world c files) os = Ok (w, xs) -> forallb explicit os = true ->
  In (firstn 63 (cstr nm)) (region_names w) -> step P w (OpRegion nf nm np mt info yaml init) = Ok (w', GotRegion r) ->
  w_registry w' = w_registry w /\ ~ In r (map snd (w_registry w')) /\
  (starts_empty c info -> exists R, w_regions w' = w_regions w ++ [R] /\ w_files w' = w_files w).
Proof.
  intros H EX IN ST. destruct (inv_run P (start_world c files) eq_refl eq_refl eq_refl _ _ _ EX H) as (log & I).
  assert (ST0 := ST). cbn in ST. apply bind_inv in ST. destruct ST as ([w2 r2] & HN & E). inversion E; subst w2 r2. clear E.
  destruct (new_region_spec P _ _ _ _ _ _ _ _ _ _ HN) as (-> & v & mn0 & ps0 & mn & ps & info' & m0 & _ & _ & _ & _ & EW & CW & RW & XW & RG).
  assert (RE : w_registry w' = w_registry w).
  { rewrite RG. destruct (i_reg _ _ _ _ _ I) as [S IFF]. apply register_present; auto.
    destruct (first_exists (region_names w) _ IN) as (k & FK). change (firstn 63 (cstr nm)) with (region_name nm) in FK. apply IFF in FK.
    apply in_map_iff. exists (region_name nm, k). auto. }
  split; auto. split.
  - rewrite RE. intros Q. apply in_map_iff in Q. destruct Q as ([n k] & E & Q). cbn in E. subst k. destruct (i_reg _ _ _ _ _ I) as [_ IFF]. apply IFF in Q.
    destruct Q as [Q _]. assert (X : nth_error (region_names w) (List.length (w_regions w)) <> None) by congruence. apply nth_error_Some in X.
    unfold region_names in X. rewrite map_length in X. lia.
  - intros [S1 S2].
    assert (SE : starts_empty (w_config w) info).
    { assert (C := i_config _ _ _ _ _ I). cbn in C. unfold starts_empty.
      rewrite (same_config_field cf_persistent _ _ (fun _ => eq_refl) C), (same_config_field cf_policy_model _ _ (fun _ => eq_refl) C). auto. }
    destruct (new_region_empty P _ _ _ _ _ _ _ _ _ _ HN SE) as (? & ? & ? & ? & ? & ? & ? & ? & R & _ & _ & _ & _ & _ & -> & _ & ->).
    eexists. cbn. split; reflexivity.
Qed.

(** Which regions are registered. *)
Lemma registered c files os w xs :
  run P (start_world c files) os = Ok (w, xs) -> forallb explicit os = true ->
  (forall n r, In (n, r) (w_registry w) <-> first_named (region_names w) n r) /\
  region_names w = created_names os.
Proof.
  intros H EX. destruct (inv_run P (start_world c files) eq_refl eq_refl eq_refl _ _ _ EX H) as (log & I).
  split; [apply (i_reg _ _ _ _ _ I)|]. rewrite (i_names _ _ _ _ _ I). f_equal. assert (L := run_length P _ _ _ _ H). clear - L. revert xs L.
  induction os; intros [|]; cbn; intros L; try discriminate; auto. f_equal. auto.
Qed.
End Platform.
