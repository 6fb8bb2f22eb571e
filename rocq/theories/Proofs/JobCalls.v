(** The calls of a rank that does not wait are those of the runtime. *)
From Coq Require Import ZArith Bool Lia List.
From Verif Require Import Model.Base Model.Float Model.DatasetM Model.ConfigM Model.PolicyModelsM Model.ModelStringM Model.RuntimeM Model.MpiM Model.JobM
  Spec.JobSpec Proofs.TreeFacts Proofs.RuntimeFacts Proofs.RuntimeCollect Proofs.RuntimeFiles Proofs.JobFacts.
Import ListNotations.
Open Scope Z_scope.

Lemma then_return {A B} (x : outcome A) (f : A -> call B) (g : A -> outcome B) : (forall a, x = Ok a -> f a = Return (g a)) ->
  then_ (Return x) f = Return (bind x g).
Proof. intros H. destruct x as [a| | | |]; try reflexivity. cbn [then_ bind]. apply H. reflexivity. Qed.

Section Calls.
Variable P : platform.

Lemma collect_split w r p x : collect_context P w r p x =
  let* w := record_context w r p x in let* w := auto_train P w r in release_context w r p.
Proof.
  unfold collect_context, record_context, release_context. destruct (get_region w r) as [R| | | |]; try reflexivity. cbn [bind].
  destruct (get_context w p) as [c| | | |]; try reflexivity. cbn [bind]. destruct (if truthy (cf_persistent (w_config w)) || _ then _ else _) as [R'| | | |]; reflexivity.
Qed.

Lemma record_config w r p x w' : record_context w r p x = Ok w' -> w_config w' = w_config w.
Proof.
  unfold record_context. intros H. apply bind_inv in H as (R & _ & H). apply bind_inv in H as (c & _ & H). apply bind_inv in H as (R' & _ & H). injection H as <-. reflexivity.
Qed.
Lemma auto_config w r w' : auto_train P w r = Ok w' -> w_config w' = w_config w.
Proof. intros H. apply auto_train_training in H. destruct H as [H _]. exact (proj1 H). Qed.
Lemma release_config w r p w' : release_context w r p = Ok w' -> w_config w' = w_config w.
Proof.
  unfold release_context. intros H. apply bind_inv in H as (v & E & H). apply bind_inv in H as (R & _ & H). injection H as <-. cbn [set_region w_config].
  destruct (is_sync_of r p); [injection E as <-; reflexivity|]. apply delete_context_inv in E as (o & k & Ro & c & _ & _ & _ & ->). reflexivity.
Qed.
Lemma collect_config w r p x w' : collect_context P w r p x = Ok w' -> w_config w' = w_config w.
Proof.
  rewrite collect_split. intros H. apply bind_inv in H as (w1 & E1 & H). apply bind_inv in H as (w2 & E2 & E3).
  rewrite (release_config _ _ _ _ E3), (auto_config _ _ _ E2). exact (record_config _ _ _ _ _ E1).
Qed.

Lemma context_config w p c : w_config (set_context w p c) = w_config w.
Proof. unfold set_context. destruct (nth_error (w_regions w) (fst p)); [|reflexivity]. destruct (snd p); reflexivity. Qed.
Lemma complete_config w e : w_config (complete w e) = w_config w.
Proof. unfold complete. destruct (get_context w (fst e)) as [c| | | |]; try reflexivity. destruct (c_timer c) as [? ?|[|] [?|]]; try reflexivity. apply context_config. Qed.

(** Settings under which automatic training never gathers. *)
Definition never_gathers (w : world) : Prop := truthy (cf_collective (w_config w)) = false \/ truthy (cf_global_period (w_config w)) = false.

Lemma each_return (f : world -> nat -> outcome world) rs : forall w, c_each_region (fun w r => Return (f w r)) w rs = Return (each_region f w rs).
Proof. induction rs as [|r rs IH]; intros w; [reflexivity|]. cbn [c_each_region each_region]. apply then_return. intros a _. apply IH. Qed.

Lemma regions_return (f : world -> nat -> outcome world) w : c_train_regions P (fun w r => Return (f w r)) w = Return (train_regions_by P f w).
Proof. unfold c_train_regions, train_regions_by. destruct (truthy _); [reflexivity|]. apply each_return. Qed.

Lemma each_train_step rs st : forall w, w_executions w = st -> each_region (fun w r => train_quietly P w r (to_int (w_executions w))) w rs = each_region (fun w r => train_quietly P w r (to_int st)) w rs.
Proof.
  induction rs as [|r rs IH]; intros w E; [reflexivity|]. cbn [each_region]. rewrite E. destruct (train_quietly P w r (to_int st)) as [v| | | |] eqn:T; try reflexivity. cbn [bind].
  apply IH. assert (T' := train_quietly_training P (fun _ _ _ => True) _ _ _ _ T (fun _ _ _ => I)). destruct T' as [T' _]. destruct T' as (_ & _ & _ & T'). congruence.
Qed.

Lemma auto_return w r : never_gathers w -> c_auto_train P w r = Return (auto_train P w r).
Proof.
  intros N. unfold c_auto_train, auto_train. apply then_return. intros R _. destruct (negb _); [reflexivity|]. destruct (truthy (cf_global_period (w_config w)) && _) eqn:G.
  - cbv zeta. unfold c_train_all, train_all_by. destruct N as [N|N]; [|rewrite N in G; discriminate G]. rewrite N. rewrite regions_return. unfold train_regions_by.
    destruct (truthy (cf_single_model (w_config w))); [reflexivity|]. rewrite (each_train_step _ (w_executions w)) by reflexivity. reflexivity.
  - clear G. destruct (_ && _); [reflexivity|]. destruct (_ && _); reflexivity.
Qed.

Lemma never_same w w' : w_config w' = w_config w -> never_gathers w -> never_gathers w'.
Proof. unfold never_gathers. intros ->. auto. Qed.

Lemma collect_return w r p x : never_gathers w -> c_collect_context P w r p x = Return (collect_context P w r p x).
Proof.
  intros N. rewrite collect_split. unfold c_collect_context. apply then_return. intros w1 E1. rewrite auto_return by (eapply never_same; [eapply record_config; exact E1|exact N]).
  apply then_return. intros w2 E2. reflexivity.
Qed.

Lemma loop_return r ps : forall w, never_gathers w -> c_collect_loop P w r ps = Return (collect_loop P w r ps) /\ forall w' kept, collect_loop P w r ps = Ok (w', kept) -> w_config w' = w_config w.
Proof.
  induction ps as [|p ps IH]; intros w N; [split; [reflexivity|intros w' kept H; injection H as <- _; reflexivity]|]. cbn [c_collect_loop collect_loop]. split.
  - apply then_return. intros c _. apply then_return. intros [x|] _.
    + rewrite collect_return by exact N. apply then_return. intros w1 E1. apply IH. eapply never_same; [eapply collect_config; exact E1|exact N].
    + destruct (IH w N) as [-> _]. apply then_return. intros [w1 kept] _. reflexivity.
  - intros w' kept H. apply bind_inv in H as (c & _ & H). apply bind_inv in H as ([x|] & _ & H).
    + apply bind_inv in H as (w1 & E1 & H). assert (C1 := collect_config _ _ _ _ _ E1). destruct (IH w1 (never_same _ _ C1 N)) as [_ IC]. rewrite (IC _ _ H). exact C1.
    + apply bind_inv in H as ([w1 k1] & E1 & H). injection H as <- _. destruct (IH w N) as [_ IC]. exact (IC _ _ E1).
Qed.

Lemma pending_return w r : never_gathers w -> c_collect_pending P w r = Return (collect_pending P w r).
Proof.
  intros N. unfold c_collect_pending, collect_pending. apply then_return. intros R _. destruct (loop_return r (r_pending R) w N) as [-> _].
  apply then_return. intros [w1 kept] _. apply then_return. intros R' _. reflexivity.
Qed.
Lemma pending_config w r w' : collect_pending P w r = Ok w' -> never_gathers w -> w_config w' = w_config w.
Proof.
  intros H N. unfold collect_pending in H. apply bind_inv in H as (R & _ & H). apply bind_inv in H as ([w1 kept] & E1 & H). apply bind_inv in H as (R' & _ & H). injection H as <-.
  cbn [set_region w_config]. destruct (loop_return r (r_pending R) w N) as [_ C]. exact (C _ _ E1).
Qed.

Lemma train_return w r st collect force : never_gathers w -> c_region_train P w r st collect force = Return (region_train P w r st collect force).
Proof.
  intros N. unfold c_region_train, region_train. apply then_return. intros R _. destruct (_ && _); [reflexivity|].
  destruct collect; [rewrite pending_return by exact N|]; apply then_return; intros w1 _; reflexivity.
Qed.

Lemma region_train_config w r st collect force w' : never_gathers w -> region_train P w r st collect force = Ok w' -> w_config w' = w_config w.
Proof.
  intros N H. unfold region_train in H. apply bind_inv in H as (R & _ & H). destruct (_ && _); [injection H as <-; reflexivity|].
  apply bind_inv in H as (w1 & E1 & H). assert (C : w_config w1 = w_config w) by (destruct collect; [eapply pending_config; eassumption|injection E1 as <-; reflexivity]).
  rewrite <- C. assert (T := train_body_training P (fun _ _ _ => True) _ _ _ _ H (fun _ _ => I)). destruct T as [T _]. exact (proj1 T).
Qed.

Lemma each_train_return st collect rs : forall w, never_gathers w ->
  c_each_region (fun w r => c_region_train P w r st collect false) w rs = Return (each_region (fun w r => region_train P w r st collect false) w rs).
Proof.
  induction rs as [|r rs IH]; intros w N; [reflexivity|]. cbn [c_each_region each_region]. rewrite train_return by exact N. apply then_return. intros w1 E1. apply IH.
  eapply never_same; [eapply region_train_config; eassumption|exact N].
Qed.

Lemma load_data_config w r text w' : load_dataset w r text = Ok w' -> w_config w' = w_config w.
Proof. unfold load_dataset. intros H. apply bind_inv in H as (R & _ & H). apply bind_inv in H as ([d q] & _ & H). injection H as <-. reflexivity. Qed.

Lemma persistent_return w r name : never_gathers w -> c_load_persistent P w r name = Return (load_persistent P w r name) /\
  forall w', load_persistent P w r name = Ok w' -> w_config w' = w_config w.
Proof.
  intros N. unfold c_load_persistent, load_persistent. destruct (truthy (cf_persistent _)); [|split; [reflexivity|intros w' H; injection H as <-; reflexivity]].
  assert (C : forall w1, match file_find (dataset_file (w_config w) name) (w_files w) with Some text => load_dataset w r text | None => Ok w end = Ok w1 -> w_config w1 = w_config w).
  { intros w1. destruct (file_find _ _); [apply load_data_config|intros H; injection H as <-; reflexivity]. }
  split.
  - apply then_return. intros w1 E1. apply auto_return. eapply never_same; [eapply C; exact E1|exact N].
  - intros w' H. apply bind_inv in H as (w1 & E1 & H). rewrite (auto_config _ _ _ H). apply C. exact E1.
Qed.

Lemma load_train_return w r name ps : never_gathers w -> c_load_and_train P w r name ps = Return (load_and_train P w r name ps).
Proof.
  intros N. unfold c_load_and_train, load_and_train. destruct (param_find _ _); [|reflexivity]. destruct (file_find _ _) as [text|]; [|reflexivity].
  apply then_return. intros w1 E1. apply then_return. intros R _. destruct (_ <=? _); [reflexivity|]. apply train_return. eapply never_same; [eapply load_data_config; exact E1|exact N].
Qed.

Lemma region_return w nf name np mt info yaml init : never_gathers w -> c_new_region P w nf name np mt info yaml init = Return (new_region P w nf name np mt info yaml init).
Proof.
  intros N. unfold c_new_region, new_region. cbv zeta. apply then_return. intros [mn ps] _. apply then_return. intros [[mn' ps'] info'] _.
  apply then_return. intros m _. apply then_return. intros m' _. 
  match goal with |- then_ (c_load_persistent P ?v ?r ?n) _ = _ => assert (N1 : never_gathers v) by exact N; destruct (persistent_return v r n N1) as [-> C1] end.
  apply then_return. intros w1 E1. apply C1 in E1. rewrite load_train_return by (eapply never_same; [exact E1|exact N]).
  apply then_return. intros w2 _. apply then_return. intros w3 _. apply then_return. intros w4 _. apply then_return. intros w5 _. reflexivity.
Qed.

(** ** The settings stay *)

Definition silent (w : world) : Prop := truthy (cf_global_period (w_config w)) = false.
Lemma silent_never w : silent w -> never_gathers w.
Proof. unfold silent, never_gathers. auto. Qed.
Lemma silent_same w w' : w_config w' = w_config w -> silent w -> silent w'.
Proof. unfold silent. intros ->. auto. Qed.

Lemma begin_config w r async now w' q : begin_context w r async now = Ok (w', q) -> w_config w' = w_config w.
Proof.
  unfold begin_context. intros H. apply bind_inv in H as (R & _ & H). destruct async; (destruct (_ =? _); [discriminate H|]); apply bind_inv in H as (c & _ & H); injection H as <- _; rewrite context_config; reflexivity.
Qed.
Lemma completes_config l : forall w, w_config (fold_left complete l w) = w_config w.
Proof. induction l as [|e l IH]; intros w; [reflexivity|]. cbn [fold_left]. rewrite IH. apply complete_config. Qed.
Lemma drain_config r waits : forall w w', drain P w r waits = Ok w' -> silent w -> w_config w' = w_config w.
Proof.
  induction waits as [|batch rest IH]; intros w w' H N; cbn [drain] in H; apply bind_inv in H as (R & _ & H).
  - destruct (r_pending R); [injection H as <-; reflexivity|discriminate H].
  - destruct (r_pending R); [injection H as <-; apply completes_config|].
    apply bind_inv in H as (w1 & E & H). assert (C0 : w_config (fold_left complete batch w) = w_config w) by apply completes_config. assert (N0 := silent_same _ _ C0 N).
    assert (C1 := pending_config _ _ _ E (silent_never _ N0)). rewrite (IH _ _ H (silent_same _ _ C1 N0)). congruence.
Qed.
Lemma destroy_silent w r waits w' : destroy_region P w r waits = Ok w' -> silent w'.
Proof.
  unfold destroy_region. cbv zeta. intros H. apply bind_inv in H as (w1 & E & H). apply bind_inv in H as (R & _ & H). injection H as <-. assert (N : silent (disable_global_period w)) by reflexivity.
  apply drain_config in E; [|exact N]. unfold silent in *. cbn [set_region w_config]. destruct (truthy (cf_persistent (w_config w1))); cbn [set_files w_config]; rewrite E; exact N.
Qed.
Lemma destroy_all_silent waits rs : forall w w', destroy_all P w rs waits = Ok w' -> silent w -> silent w'.
Proof. induction rs as [|r rs IH]; intros w w' H N; cbn [destroy_all] in H; [injection H as <-; exact N|]. apply bind_inv in H as (w1 & E & H). eapply IH; [exact H|]. eapply destroy_silent. exact E. Qed.

Lemma new_config w nf name np mt info yaml init w' r : new_region P w nf name np mt info yaml init = Ok (w', r) -> silent w -> w_config w' = w_config w.
Proof.
  intros H N. unfold new_region in H. cbv zeta in H. apply bind_inv in H as ([mn ps] & _ & H). apply bind_inv in H as ([[mn' ps'] info'] & _ & H). apply bind_inv in H as (m & _ & H). apply bind_inv in H as (m' & _ & H).
  apply bind_inv in H as (w1 & E1 & H). apply bind_inv in H as (w2 & E2 & H). apply bind_inv in H as (w3 & E3 & H). apply bind_inv in H as (w4 & E4 & H). apply bind_inv in H as (w5 & E5 & H). injection H as <- _. cbn [w_config].
  match type of E1 with load_persistent P ?v ?i ?n = _ => destruct (persistent_return v i n (silent_never v N)) as [_ C1] end. apply C1 in E1. cbn [w_config] in E1. assert (N1 := silent_same _ _ E1 N).
  assert (C2 : w_config w2 = w_config w1).
  { unfold load_and_train in E2. destruct (param_find _ _); [|injection E2 as <-; reflexivity]. destruct (file_find _ _); [|discriminate E2]. apply bind_inv in E2 as (v & EL & E2). apply bind_inv in E2 as (R & _ & E2).
    destruct (_ <=? _); [discriminate E2|]. apply load_data_config in EL. rewrite <- EL. eapply region_train_config; [|exact E2]. apply silent_never. eapply silent_same; [exact EL|exact N1]. }
  assert (C3 : w_config w3 = w_config w2).
  { unfold load_optimal in E3. destruct (bytes_eqb _ _); [|injection E3 as <-; reflexivity]. destruct (file_find _ _); [|discriminate E3]. apply bind_inv in E3 as (R & _ & E3). apply bind_inv in E3 as (m2 & _ & E3). injection E3 as <-. reflexivity. }
  assert (C4 : w_config w4 = w_config w3).
  { unfold load_dataset_map in E4. destruct (bytes_eqb _ _); [|injection E4 as <-; reflexivity]. destruct (file_find _ _); [|discriminate E4]. apply bind_inv in E4 as (v & EL & E4). apply load_data_config in EL. apply bind_inv in E4 as (R & _ & E4).
    destruct (_ <=? _); [discriminate E4|]. apply bind_inv in E4 as (m2 & _ & E4). injection E4 as <-. exact EL. }
  assert (C5 : w_config w5 = w_config w4).
  { destruct (truthy _); [|injection E5 as <-; reflexivity]. apply bind_inv in E5 as (R & _ & E5). injection E5 as <-. reflexivity. }
  congruence.
Qed.

Lemma each_train_config st collect rs : forall w w', silent w -> each_region (fun w r => region_train P w r st collect false) w rs = Ok w' -> w_config w' = w_config w.
Proof.
  induction rs as [|r rs IH]; intros w w' N H; cbn [each_region] in H; [injection H as <-; reflexivity|]. apply bind_inv in H as (w1 & E & H).
  apply region_train_config in E; [|apply silent_never; exact N]. rewrite (IH _ _ (silent_same _ _ E N) H). exact E.
Qed.

(** A global period of 0 stays 0. *)
Lemma step_silent w o w' x : step P w o = Ok (w', x) -> silent w -> silent w'.
Proof.
  intros H N. assert (N' := silent_never _ N).
  destruct o as [nf name np mt info yaml init|r async now|r fs now|r q f|r q D|r q now early|r q metric|r st collect force|st collect|r|r waits|waits|q ms]; unfold step in H.
  - apply bind_inv in H as ([w1 r1] & E & H). injection H as <- _. eapply silent_same; [eapply new_config; eassumption|exact N].
  - apply bind_inv in H as ([w1 r1] & E & H). injection H as <- _. eapply silent_same; [eapply begin_config; eassumption|exact N].
  - apply bind_inv in H as ([w1 r1] & E & H). injection H as <- _. unfold begin_features in E. apply bind_inv in E as ([w2 q2] & E2 & E). apply bind_inv in E as (c & _ & E). injection E as <- _.
    eapply silent_same; [apply context_config|]. eapply silent_same; [eapply begin_config; eassumption|exact N].
  - apply bind_inv in H as (R & _ & H). apply bind_inv in H as (q' & _ & H). apply bind_inv in H as (w1 & E & H). injection H as <- _. unfold set_feature in E. apply bind_inv in E as (c & _ & E). injection E as <-.
    eapply silent_same; [apply context_config|exact N].
  - apply bind_inv in H as (q' & _ & H). apply bind_inv in H as ([w1 k] & E & H). injection H as <- _. unfold get_policy_index in E. apply bind_inv in E as (R & _ & E). apply bind_inv in E as (c & _ & E). apply bind_inv in E as ([ch m] & _ & E).
    apply bind_inv in E as (v & T & E). apply bind_inv in E as (c2 & _ & E). injection E as <- _. eapply silent_same; [apply context_config|]. cbn [set_region w_config]. unfold silent. cbn [set_region w_config].
    unfold trace_policy in T. destruct (negb _); [injection T as <-; exact N|]. apply bind_inv in T as (fs & _ & T). injection T as <-. exact N.
  - apply bind_inv in H as (R & _ & H). apply bind_inv in H as (q' & _ & H). apply bind_inv in H as (w1 & E & H). injection H as <- _. unfold end_context in E. apply bind_inv in E as (c & _ & E). cbv zeta in E.
    set (w0 := set_context w q' _) in *. assert (C0 : w_config w0 = w_config w) by apply context_config. assert (N0 := silent_same _ _ C0 N). destruct (is_sync_of r q').
    + apply bind_inv in E as ([m|] & _ & E); [|discriminate E]. apply collect_config in E. eapply silent_same; [exact E|exact N0].
    + apply bind_inv in E as (R' & _ & E). set (w2 := set_region w0 r _) in *. assert (C3 : w_config (match early with Some ms => complete w2 (q', ms) | None => w2 end) = w_config w0) by (destruct early; [rewrite complete_config|]; reflexivity).
      assert (N3 := silent_same _ _ C3 N0). apply pending_config in E; [|apply silent_never; exact N3]. eapply silent_same; [exact E|exact N3].
  - apply bind_inv in H as (q' & _ & H). apply bind_inv in H as (w1 & E & H). injection H as <- _. unfold end_metric in E. apply bind_inv in E as (w0 & E0 & E). apply collect_config in E0. assert (N0 := silent_same _ _ E0 N).
    apply pending_config in E; [|apply silent_never; exact N0]. eapply silent_same; [exact E|exact N0].
  - apply bind_inv in H as (w1 & E & H). injection H as <- _. apply region_train_config in E; [|exact N']. eapply silent_same; [exact E|exact N].
  - apply bind_inv in H as (w1 & E & H). injection H as <- _. unfold apollo_train, train_all_by in E. destruct (truthy (cf_collective (w_config w))); [discriminate E|]. unfold train_regions_by in E.
    destruct (truthy (cf_single_model (w_config w))).
    + apply bind_inv in E as (d & _ & E). assert (T := train_each_on_training P (fun _ _ _ => True) _ d (fun _ _ => I) _ _ E). destruct T as [T _]. eapply silent_same; [exact (proj1 T)|exact N].
    + apply each_train_config in E; [|exact N]. eapply silent_same; [exact E|exact N].
  - apply bind_inv in H as (w1 & E & H). injection H as <- _. apply pending_config in E; [|exact N']. eapply silent_same; [exact E|exact N].
  - apply bind_inv in H as (w1 & E & H). injection H as <- _. eapply destroy_silent. exact E.
  - apply bind_inv in H as (w1 & E & H). injection H as <- _. unfold shutdown in E. apply bind_inv in E as (w0 & E0 & E). eapply destroy_all_silent; [exact E|]. destruct (truthy (cf_exec_info (w_config w))); [|injection E0 as <-; exact N].
    apply bind_inv in E0 as (s & _ & E0). injection E0 as <-. exact N.
  - injection H as <- _. eapply silent_same; [apply complete_config|exact N].
Qed.

Lemma step_local w o w' x : step P w o = Ok (w', x) -> cf_collective (w_config w') = cf_collective (w_config w).
Proof.
  intros H. apply own_step in H. destruct H as (H & _). assert (A := f_equal cf_collective H). exact A.
Qed.

(** Calls that never wait do what the runtime does. *)
Theorem step_return w o : truthy (cf_collective (w_config w)) = false \/ (truthy (cf_global_period (w_config w)) = false /\ forall st collect, o <> OpTrainAll st collect) ->
  c_step P w o = Return (step P w o).
Proof.
  intros H. assert (N : never_gathers w) by (unfold never_gathers; tauto).
  destruct o as [nf name np mt info yaml init| | | | |r p now early|r p metric|r st collect force|st collect| | |r| ]; unfold c_step, step; try reflexivity.
  - rewrite region_return by exact N. apply then_return. intros [w1 r1] _. reflexivity.
  - apply then_return. intros R _. apply then_return. intros q _. transitivity (then_ (Return (end_context P w r q now early)) (fun w => Return (Ok (w, Done)))).
    + f_equal. unfold c_end_context, end_context. apply then_return. intros c _. cbv zeta. destruct (is_sync_of r q).
      * apply then_return. intros [x|] _; [|reflexivity]. apply collect_return. eapply never_same; [apply context_config|exact N].
      * apply then_return. intros R' _. apply pending_return. eapply never_same; [|exact N]. destruct early as [ms|]; [rewrite complete_config|]; cbn [set_region w_config]; apply context_config.
    + apply then_return. intros w1 _. reflexivity.
  - apply then_return. intros q _. transitivity (then_ (Return (end_metric P w r q metric)) (fun w => Return (Ok (w, Done)))).
    + f_equal. unfold c_end_metric, end_metric. rewrite collect_return by exact N. apply then_return. intros w1 E1. apply pending_return. eapply never_same; [eapply collect_config; exact E1|exact N].
    + apply then_return. intros w1 _. reflexivity.
  - rewrite train_return by exact N. apply then_return. intros w1 _. reflexivity.
  - destruct H as [H|[_ H]]; [|exfalso; eapply H; reflexivity]. unfold c_apollo_train, apollo_train, c_train_all, train_all_by. rewrite H.
    transitivity (then_ (Return (train_regions_by P (fun w r => region_train P w r st collect false) w)) (fun w => Return (Ok (w, Done)))).
    + f_equal. unfold c_train_regions, train_regions_by. destruct (truthy (cf_single_model (w_config w))); [reflexivity|]. apply each_train_return. exact N.
    + apply then_return. intros w1 _. reflexivity.
  - rewrite pending_return by exact N. apply then_return. intros w1 _. reflexivity.
Qed.

(** ** A rank that does not wait in a job *)

(** Neither the settings nor the calls left bring the rank to the exchange. *)
Definition by_itself (w : world) (os : list op) : Prop :=
  truthy (cf_collective (w_config w)) = false \/ (truthy (cf_global_period (w_config w)) = false /\ forall st collect, ~ In (OpTrainAll st collect) os).

Lemma by_itself_step w o os : by_itself w (o :: os) -> c_step P w o = Return (step P w o).
Proof. intros [H|[H I]]; apply step_return; [left; exact H|]. right. split; [exact H|]. intros st collect ->. apply (I st collect). left. reflexivity. Qed.
Lemma by_itself_next w o os w' x : by_itself w (o :: os) -> step P w o = Ok (w', x) -> by_itself w' os.
Proof.
  intros [H|[H I]] E; [left; rewrite (step_local _ _ _ _ E); exact H|]. right. split; [exact (step_silent _ _ _ _ E H)|]. intros st collect K. apply (I st collect). right. exact K.
Qed.

Definition on_its_own (w : world) (os : list op) (x : rank) : Prop :=
  match x with
  | Ready v rest => by_itself v rest /\ end_of P v rest = end_of P w os
  | Waiting _ _ _ _ => False
  | Failed f => Failed f = end_of P w os
  end.

Lemma own_moves M J J' i x w os : nth_error J i = Some x -> on_its_own w os x -> job_moves P M J J' -> exists x', nth_error J' i = Some x' /\ on_its_own w os x'.
Proof.
  intros E O H. destruct H as [J j v o rest EJ|J l N A].
  - destruct (Nat.eq_dec j i) as [->|NE].
    + rewrite EJ in E. injection E as <-. exists (after_call (c_step P v o) rest). split; [eapply nth_eq; exact EJ|]. destruct O as [B O]. rewrite (by_itself_step _ _ _ B).
      unfold end_of in O at 1. cbn [run] in O. destruct (step P v o) as [[v' y]| | | |] eqn:S; cbn [after_call on_its_own bind] in *; try (symmetry; rewrite <- O; reflexivity).
      split; [eapply by_itself_next; eassumption|]. rewrite <- O. unfold end_of. destruct (run P v' rest) as [[v2 ys]| | | |]; reflexivity.
    + exists x. rewrite nth_ne by exact NE. auto.
  - exfalso. revert i l N A E. induction J as [|y J IH]; intros i l N A E; [destruct i; discriminate E|]. cbn [all_waiting] in A. destruct y as [|v st k rest|]; try discriminate A.
    destruct i as [|i]; cbn [nth_error] in E; [injection E as <-; exact O|]. destruct (all_waiting J) as [l'|]; [|discriminate A]. eapply IH; [|reflexivity|exact E]. intros ->. destruct i; discriminate E.
Qed.

Theorem own_run_in_job M J J' i w os : nth_error J i = Some (Ready w os) -> by_itself w os -> job_runs P M J J' -> job_halted P M J' -> nth_error J' i = Some (end_of P w os).
Proof.
  intros E B R H. assert (O : exists x, nth_error J' i = Some x /\ on_its_own w os x).
  { assert (O : on_its_own w os (Ready w os)) by (split; [exact B|reflexivity]). revert E O. generalize (Ready w os). induction R as [J|J J1 J2 HM HR IH]; intros x E O; [eauto|].
    destruct (own_moves _ _ _ _ _ _ _ E O HM) as (x' & E' & O'). eapply IH; eassumption. }
  destruct O as (x & EX & O). rewrite EX. destruct x as [v [|o rest]|v st k rest|f]; cbn [on_its_own] in O.
  - destruct O as [_ O]. f_equal. rewrite <- O. reflexivity.
  - exfalso. eapply H. eapply rank_moves. exact EX.
  - destruct O.
  - f_equal. exact O.
Qed.
End Calls.
