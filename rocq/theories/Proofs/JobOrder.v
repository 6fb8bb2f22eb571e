(** Jobs given as events in order are jobs whose ranks run at their own pace. *)
From Coq Require Import ZArith Bool Lia List.
From Verif Require Import Model.Base Model.Float Model.DatasetM Model.ConfigM Model.PolicyModelsM Model.ModelStringM Model.RuntimeM Model.MpiM Model.JobM
  Spec.JobSpec Proofs.TreeFacts Proofs.RuntimeFacts Proofs.RuntimeCollect Proofs.JobFacts Proofs.JobCalls.
Import ListNotations.
Open Scope Z_scope.

(** [c] does what [x] does where [x] does not fail. *)
Definition agrees {A} (x : outcome A) (c : call A) : Prop := forall a, x = Ok a -> c = Return (Ok a).

Lemma agrees_self {A} (x : outcome A) : agrees x (Return x).
Proof. intros a ->. reflexivity. Qed.
Lemma agrees_bind {A B} (x : outcome A) c (f : A -> outcome B) g : agrees x c -> (forall a, x = Ok a -> agrees (f a) (g a)) -> agrees (bind x f) (then_ c g).
Proof. intros H K b E. destruct x as [a| | | |]; try discriminate E. cbn [bind] in E. rewrite (H a eq_refl). cbn [then_]. exact (K a eq_refl b E). Qed.
Lemma agrees_return {A B} (x : outcome A) (f : A -> outcome B) g : (forall a, x = Ok a -> agrees (f a) (g a)) -> agrees (bind x f) (then_ (Return x) g).
Proof. apply agrees_bind. apply agrees_self. Qed.

Section Agree.
Variable P : platform.

Lemma each_agrees f g rs : (forall w r, agrees (f w r) (g w r)) -> forall w, agrees (each_region f w rs) (c_each_region g w rs).
Proof. intros H. induction rs as [|r rs IH]; intros w; [apply agrees_self|]. cbn [each_region c_each_region]. apply agrees_bind; [apply H|]. intros a _. apply IH. Qed.
Lemma regions_agrees f g w : (forall w r, agrees (f w r) (g w r)) -> agrees (train_regions_by P f w) (c_train_regions P g w).
Proof. intros H. unfold train_regions_by, c_train_regions. destruct (truthy _); [apply agrees_self|]. apply each_agrees. exact H. Qed.

Lemma auto_agrees w r : agrees (auto_train P w r) (c_auto_train P w r).
Proof.
  unfold auto_train, c_auto_train. apply agrees_return. intros R _. destruct (negb _); [apply agrees_self|]. destruct (truthy (cf_global_period _) && _).
  - cbv zeta. unfold train_all_by, c_train_all. destruct (truthy (cf_collective (w_config w))); [intros a H; discriminate H|]. rewrite regions_return. unfold train_regions_by.
    destruct (truthy (cf_single_model (w_config w))); [apply agrees_self|]. rewrite (each_train_step P _ (w_executions w)) by reflexivity. apply agrees_self.
  - destruct (truthy (cf_region_period _) && _); [apply agrees_self|]. destruct (_ && _); apply agrees_self.
Qed.
Lemma collect_agrees w r p x : agrees (collect_context P w r p x) (c_collect_context P w r p x).
Proof.
  rewrite collect_split. unfold c_collect_context. apply agrees_return. intros w1 _. apply agrees_bind; [apply auto_agrees|]. intros w2 _. apply agrees_self.
Qed.
Lemma loop_agrees r ps : forall w, agrees (collect_loop P w r ps) (c_collect_loop P w r ps).
Proof.
  induction ps as [|p ps IH]; intros w; cbn [collect_loop c_collect_loop]; [apply agrees_self|]. apply agrees_return. intros c _. apply agrees_return. intros [x|] _.
  - apply agrees_bind; [apply collect_agrees|]. intros w1 _. apply IH.
  - apply agrees_bind; [apply IH|]. intros [w1 k] _. apply agrees_self.
Qed.
Lemma pending_agrees w r : agrees (collect_pending P w r) (c_collect_pending P w r).
Proof.
  unfold collect_pending, c_collect_pending. apply agrees_return. intros R _. apply agrees_bind; [apply loop_agrees|]. intros [w1 k] _. apply agrees_return. intros R1 _. apply agrees_self.
Qed.
Lemma train_agrees w r st collect force : agrees (region_train P w r st collect force) (c_region_train P w r st collect force).
Proof.
  unfold region_train, c_region_train. apply agrees_return. intros R _. destruct (_ && _); [apply agrees_self|]. apply agrees_bind; [destruct collect; [apply pending_agrees|apply agrees_self]|]. intros w1 _. apply agrees_self.
Qed.
Lemma persistent_agrees w r name : agrees (load_persistent P w r name) (c_load_persistent P w r name).
Proof. unfold load_persistent, c_load_persistent. destruct (truthy _); [|apply agrees_self]. apply agrees_return. intros w1 _. apply auto_agrees. Qed.
Lemma load_train_agrees w r name ps : agrees (load_and_train P w r name ps) (c_load_and_train P w r name ps).
Proof.
  unfold load_and_train, c_load_and_train. destruct (param_find _ _); [|apply agrees_self]. destruct (file_find _ _); [|apply agrees_self]. apply agrees_return. intros w1 _. apply agrees_return. intros R _.
  destruct (_ <=? _); [apply agrees_self|]. apply train_agrees.
Qed.
Lemma region_agrees w nf name np mt info yaml init : agrees (new_region P w nf name np mt info yaml init) (c_new_region P w nf name np mt info yaml init).
Proof.
  unfold new_region, c_new_region. cbv zeta. apply agrees_return. intros [mn ps] _. apply agrees_return. intros [[mn' ps'] info'] _. apply agrees_return. intros m _. apply agrees_return. intros m' _.
  apply agrees_bind; [apply persistent_agrees|]. intros w1 _. apply agrees_bind; [apply load_train_agrees|]. intros w2 _. apply agrees_return. intros w3 _. apply agrees_return. intros w4 _. apply agrees_return. intros w5 _. apply agrees_self.
Qed.

(** A call that does not fail by itself does the same in a job. *)
Lemma step_agrees w o : agrees (step P w o) (c_step P w o).
Proof.
  destruct o as [nf name np mt info yaml init|r async now|r fs now|r q f|r q D|r q now early|r q metric|r st collect force|st collect|r|r waits|waits|q ms]; unfold step, c_step; try apply agrees_self.
  - apply agrees_bind; [apply region_agrees|]. intros [w1 r1] _. apply agrees_self.
  - apply agrees_return. intros R _. apply agrees_return. intros q' _. apply agrees_bind; [|intros w1 _; apply agrees_self]. unfold end_context, c_end_context. apply agrees_return. intros c _. cbv zeta. destruct (is_sync_of r q').
    + apply agrees_return. intros [m|] _; [apply collect_agrees|apply agrees_self].
    + apply agrees_return. intros R1 _. apply pending_agrees.
  - apply agrees_return. intros q' _. apply agrees_bind; [|intros w1 _; apply agrees_self]. unfold end_metric, c_end_metric. apply agrees_bind; [apply collect_agrees|]. intros w1 _. apply pending_agrees.
  - apply agrees_bind; [apply train_agrees|]. intros w1 _. apply agrees_self.
  - apply agrees_bind; [|intros w1 _; apply agrees_self]. unfold apollo_train, c_apollo_train, train_all_by, c_train_all. destruct (truthy (cf_collective (w_config w))); [intros a H; discriminate H|].
    apply regions_agrees. intros w1 r. apply train_agrees.
  - apply agrees_bind; [apply pending_agrees|]. intros w1 _. apply agrees_self.
Qed.

(** ** Events in order *)

Lemma calls_local_eq i o rest : calls_of i (Local i o :: rest) = o :: calls_of i rest.
Proof. unfold calls_of. cbn [flat_map]. rewrite Nat.eqb_refl. reflexivity. Qed.
Lemma calls_local_ne i j o rest : i <> j -> calls_of i (Local j o :: rest) = calls_of i rest.
Proof. intros H. unfold calls_of. cbn [flat_map]. destruct (Nat.eqb_spec j i); [congruence|]. reflexivity. Qed.

(** The ranks from number [k] on. *)
Fixpoint ranks_from (k : nat) (ws : list world) (os : list job_op) : list rank :=
  match ws with
  | [] => []
  | w :: rest => Ready w (calls_of k os) :: ranks_from (S k) rest os
  end.

Lemma ranks_nth os ws : forall k i w, nth_error ws i = Some w -> nth_error (ranks_from k ws os) i = Some (Ready w (calls_of (k + i) os)).
Proof.
  induction ws as [|x ws IH]; intros k i w H; [destruct i; discriminate H|]. destruct i as [|i]; cbn [nth_error ranks_from] in *; [injection H as ->; rewrite Nat.add_0_r; reflexivity|].
  rewrite (IH (S k) i w H). replace (k + S i)%nat with (S k + i)%nat by lia. reflexivity.
Qed.
Lemma ranks_local os o w' ws : forall k i w, nth_error ws i = Some w ->
  set_nth (ranks_from k ws (Local (k + i) o :: os)) i (Ready w' (calls_of (k + i) os)) = ranks_from k (set_nth ws i w') os.
Proof.
  assert (later : forall ws n k, (n < k)%nat -> ranks_from k ws (Local n o :: os) = ranks_from k ws os).
  { induction ws0 as [|x l IH]; intros n k H; [reflexivity|]. cbn [ranks_from]. rewrite calls_local_ne by lia. rewrite IH by lia. reflexivity. }
  induction ws as [|x ws IH]; intros k i w H; [destruct i; discriminate H|]. destruct i as [|i]; cbn [nth_error ranks_from set_nth] in *.
  - rewrite Nat.add_0_r. rewrite later by lia. reflexivity.
  - rewrite calls_local_ne by lia. replace (k + S i)%nat with (S k + i)%nat by lia. rewrite (IH (S k) i w H). reflexivity.
Qed.

Variable M : mpi.

(** A rank on which Apollo::train has come to the exchange. *)
Definition at_exchange (w : world) (st : Z) (collect : bool) (os : list op) : rank :=
  Waiting w st (fun w => let! w := c_train_regions P (fun w r => c_region_train P w r st collect false) w in Return (Ok (w, Done))) os.

Fixpoint waiting_from (k : nat) (ws : list world) (st : Z) (collect : bool) (os : list job_op) : list rank :=
  match ws with
  | [] => []
  | w :: rest => at_exchange w st collect (calls_of k os) :: waiting_from (S k) rest st collect os
  end.

Lemma set_nth_app_mid {A} (l : list A) x r y : set_nth (l ++ x :: r) (List.length l) y = l ++ y :: r.
Proof. induction l as [|z l IH]; [reflexivity|]. cbn [app List.length set_nth]. rewrite IH. reflexivity. Qed.
Lemma nth_app_mid {A} (l : list A) x r : nth_error (l ++ x :: r) (List.length l) = Some x.
Proof. induction l as [|z l IH]; [reflexivity|]. exact IH. Qed.

Lemma all_come st collect os ws : forallb (fun w => truthy (cf_collective (w_config w))) ws = true -> forall k front,
  job_runs P M (front ++ ranks_from k ws (Collective st collect :: os)) (front ++ waiting_from k ws st collect os).
Proof.
  induction ws as [|w ws IH]; intros H k front; [constructor|]. cbn [forallb] in H. apply andb_prop in H as [H1 H2]. cbn [ranks_from waiting_from].
  change (calls_of k (Collective st collect :: os)) with (OpTrainAll st collect :: calls_of k os).
  eapply runs_more; [eapply (rank_moves P M _ (List.length front)); apply nth_app_mid|]. rewrite set_nth_app_mid.
  assert (E : after_call (c_step P w (OpTrainAll st collect)) (calls_of k os) = at_exchange w st collect (calls_of k os)).
  { unfold c_step, c_apollo_train, c_train_all. rewrite H1. reflexivity. }
  rewrite E. specialize (IH H2 (S k) (front ++ [at_exchange w st collect (calls_of k os)])). rewrite <- !app_assoc in IH. exact IH.
Qed.

Lemma come_waiting st collect os ws : forall k, all_waiting (waiting_from k ws st collect os) = Some (map (fun w => (w, st)) ws).
Proof. induction ws as [|w ws IH]; intros k; [reflexivity|]. cbn [waiting_from at_exchange all_waiting map]. rewrite IH. reflexivity. Qed.

Lemma on_each_map {A B C} (f : B -> outcome C) (g : A -> B) l : on_each f (map g l) = on_each (fun x => f (g x)) l.
Proof. induction l as [|x l IH]; [reflexivity|]. cbn [map on_each]. rewrite IH. reflexivity. Qed.

Lemma exchange_gather ws st : exchange M (map (fun w => (w, st)) ws) = gather M ws st.
Proof.
  unfold exchange, gather. rewrite map_map. cbn [fst]. rewrite map_id. destruct (on_each (send_buffer M) ws) as [bufs| | | |]; try reflexivity. cbn [bind]. destruct (received bufs) as [m| | | |]; try reflexivity. cbn [bind].
  rewrite on_each_map. reflexivity.
Qed.

Lemma resumed st collect os ws : forall k ws1 ws2, List.length ws1 = List.length ws ->
  on_each (train_regions_by P (fun w r => region_train P w r st collect false)) ws1 = Ok ws2 -> resume (waiting_from k ws st collect os) ws1 = ranks_from k ws2 os.
Proof.
  induction ws as [|w ws IH]; intros k ws1 ws2 L H; destruct ws1 as [|w1 ws1]; try discriminate L.
  - injection H as <-. reflexivity.
  - cbn [on_each] in H. apply bind_inv in H as (v & E & H). apply bind_inv in H as (vs & E2 & H). injection H as <-. injection L as L. cbn [waiting_from at_exchange resume ranks_from]. rewrite (IH (S k) ws1 vs L E2). f_equal.
    assert (A := regions_agrees (fun w r => region_train P w r st collect false) (fun w r => c_region_train P w r st collect false) w1 (fun w r => train_agrees w r st collect false) v E). rewrite A. reflexivity.
Qed.

Lemma gather_length ws st ws' : gather M ws st = Ok ws' -> List.length ws' = List.length ws.
Proof. unfold gather. intros H. apply bind_inv in H as (bufs & _ & H). apply bind_inv in H as (m & _ & H). eapply on_each_length. exact H. Qed.

Lemma events_run os : forall ws ws', ws <> [] -> job_run M P ws os = Ok ws' -> job_runs P M (ranks_from 0 ws os) (ranks_from 0 ws' []) /\ List.length ws' = List.length ws.
Proof.
  induction os as [|o os IH]; intros ws ws' N H; cbn [job_run] in H; [injection H as <-; split; [constructor|reflexivity]|].
  apply bind_inv in H as (ws1 & E & H). destruct o as [i o|st collect]; cbn [job_step] in E.
  - destruct (nth_error ws i) as [w|] eqn:EI; [|discriminate E]. apply bind_inv in E as ([w1 x] & ES & E). injection E as <-.
    assert (L1 : List.length (set_nth ws i w1) = List.length ws) by apply set_nth_length. assert (N1 : set_nth ws i w1 <> []) by (intros K; rewrite K in L1; destruct ws; [congruence|discriminate L1]).
    destruct (IH _ _ N1 H) as [R L]. split; [|congruence]. eapply runs_more; [|exact R].
    assert (NI := ranks_nth (Local i o :: os) ws 0 i w EI). cbn [Nat.add] in NI. rewrite calls_local_eq in NI. assert (MV := rank_moves P M _ _ _ _ _ NI). rewrite (step_agrees _ _ _ ES) in MV. cbn [after_call] in MV.
    assert (RL := ranks_local os o w1 ws 0 i w EI). cbn [Nat.add] in RL. rewrite RL in MV. exact MV.
  - unfold collective_train in E. destruct (forallb _ ws) eqn:A; [|discriminate E]. apply bind_inv in E as (wg & EG & E). assert (LG := gather_length _ _ _ EG). assert (LE := on_each_length _ _ _ E).
    assert (N1 : ws1 <> []) by (intros ->; destruct ws; [congruence|]; destruct wg; discriminate). destruct (IH _ _ N1 H) as [R L]. split; [|congruence].
    eapply runs_trans; [apply (all_come st collect os ws A 0%nat [])|]. cbn [app]. eapply runs_more; [|exact R].
    assert (MV : job_moves P M (waiting_from 0 ws st collect os) (exchange_all M (waiting_from 0 ws st collect os) (map (fun w => (w, st)) ws))).
    { apply ranks_exchange; [destruct ws; [congruence|discriminate]|apply come_waiting]. }
    unfold exchange_all in MV. rewrite exchange_gather, EG in MV. rewrite (resumed st collect os ws 0 wg ws1 LG E) in MV. exact MV.
Qed.

Lemma ranks_done ws : forall k, ranks_from k ws [] = map (fun w => Ready w []) ws.
Proof. induction ws as [|w ws IH]; intros k; [reflexivity|]. cbn [ranks_from map]. rewrite IH. reflexivity. Qed.

Lemma ranks_job os ws : forall k, ranks_from k ws os = map (fun x => Ready (fst x) (snd x)) (combine ws (map (fun i => calls_of i os) (seq k (List.length ws)))).
Proof. induction ws as [|w ws IH]; intros k; [reflexivity|]. cbn [ranks_from List.length seq map combine fst snd]. rewrite IH. reflexivity. Qed.

Lemma done_halted ws : ws <> [] -> job_halted P M (map (fun w => Ready w []) ws).
Proof.
  intros N J' H. inversion H as [J i w o os E|J l NE A]; subst.
  - rewrite nth_error_map in E. destruct (nth_error ws i); discriminate E.
  - destruct ws; [congruence|]. discriminate A.
Qed.

Theorem events_decide cs os ws J' : cs <> [] -> job_run M P (start_job cs) os = Ok ws ->
  job_runs P M (new_job cs (map (fun i => calls_of i os) (seq 0 (List.length cs)))) J' -> job_halted P M J' -> J' = map (fun w => Ready w []) ws.
Proof.
  intros N H R S. assert (LC : List.length (start_job cs) = List.length cs) by (unfold start_job; rewrite map_length, combine_length, seq_length, Nat.min_id; reflexivity).
  assert (N0 : start_job cs <> []) by (intros K; rewrite K in LC; destruct cs; [congruence|discriminate LC]). destruct (events_run os _ _ N0 H) as [R' L]. rewrite ranks_job, LC, ranks_done in R'.
  eapply one_end; [exact R|exact S|exact R'|]. apply done_halted. intros ->. rewrite LC in L. destruct cs; [congruence|discriminate L].
Qed.
End Agree.
