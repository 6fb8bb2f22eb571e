(** Concrete jobs for Props/Jobs.v. *)
From Coq Require Import ZArith Bool Ascii String Lia List.
From Verif Require Import Model.Base Model.Float Model.DatasetM Model.ModelStringM Model.PolicyModelsM Model.ConfigM Model.RuntimeM Model.MpiM Model.JobM
  Spec.JobSpec Proofs.RuntimeExamples Proofs.JobFacts Proofs.JobSim.
Import ListNotations.
Open Scope Z_scope.

(** No job moves for ever. *)
Lemma no_endless P M (f : nat -> list rank) : ~ (forall n, job_moves P M (f n) (f (S n))).
Proof.
  intros H. assert (A := jobs_finite P M (f 0%nat)). remember (f 0%nat) as J eqn:E. revert f H E. induction A as [J _ IH]. intros f H ->.
  apply (IH (f 1%nat) (H 0%nat) (fun n => f (S n))); [intros n; apply H|reflexivity].
Qed.

Lemma meets_again P M J : exists J', job_halted P M J' /\ forall J1, job_runs P M J J1 -> job_runs P M J1 J' /\ (job_halted P M J1 -> J1 = J').
Proof.
  destruct (job_halts P M J) as (J' & R & H). exists J'. split; [exact H|]. intros J1 R1. destruct (job_halts P M J1) as (J2 & R2 & H2).
  assert (E : J2 = J') by (eapply one_end; [eapply runs_trans; [exact R1|exact R2]|exact H2|exact R|exact H]). subst J2. split; [exact R2|]. intros H1. eapply one_end; eassumption.
Qed.

(** A region of two policies, and [n] executions on it. *)
Definition region_x : op := make "x" 2 0 "".
Definition region_y : op := make "y" 2 0 "".
Definition once (r : nat) : list op := [start r 0; give (r, Sync) 1; ask_policy (r, Sync); finish (r, Sync) 1].
Fixpoint times (n : nat) (r : nat) : list op := match n with O => [] | S k => once r ++ times k r end.
Definition learning : config := settings "DecisionTree,explore=RoundRobin" 0 0 0.
Definition plan_of (os : list op) : plan := (learning, [], os).

Definition trainable_all (w : world) : bool := forallb (fun R => m_trainable (r_model R)) (w_regions w).
Definition measuring_b (o : op) : bool :=
  match o with
  | OpRegion _ _ _ min_training _ _ _ => min_training <=? 0
  | OpTrain _ _ _ _ | OpTrainAll _ _ | OpDestroy _ _ | OpShutdown _ => false
  | _ => true
  end.
Lemma measuring_b_true os : forallb measuring_b os = true -> Forall measuring os.
Proof.
  intros H. apply Forall_forall. intros o I. rewrite forallb_forall in H. specialize (H o I). destruct o; cbn in *; try exact Logic.I; try discriminate H. apply Z.leb_le. exact H.
Qed.

Lemma plan_measures i os n : match run example_platform (mkWorld learning (Z.of_nat i) [] [] 0 []) os with Ok (w, _) => (w_executions w =? n) && trainable_all w | _ => false end = true ->
  forallb measuring_b os = true -> (Z.of_nat (List.length os) <? 2 ^ 63) = true -> measures example_platform i (plan_of os) n.
Proof.
  intros E B L. unfold measures, plan_of. split; [repeat split|]. split; [apply measuring_b_true; exact B|]. split; [apply Z.ltb_lt; exact L|].
  destruct (run example_platform _ os) as [[w xs]| | | |]; try discriminate E. exists w, xs. apply andb_prop in E as [E1 E2]. split; [reflexivity|]. split; [apply Z.eqb_eq; exact E1|].
  apply Forall_forall. intros R I. unfold trainable_all in E2. rewrite forallb_forall in E2. apply E2. exact I.
Qed.

(** Plans whose ranks measure these numbers of executions. *)
Definition uneven : list plan := [plan_of (region_x :: times 3 0); plan_of (region_x :: times 2 0)].
Lemma uneven_counts : counts example_platform uneven [3; 2].
Proof.
  split; [reflexivity|]. intros [|[|i]] x n EX EN; cbn in EX, EN; try (destruct i; discriminate EX); injection EX as <-; injection EN as <-;
    (apply plan_measures; vm_compute; reflexivity).
Qed.

(** ** Following a schedule *)

Fixpoint follow (P : platform) (M : mpi) (J : list rank) (s : list (option nat)) : option (list rank) :=
  match s with
  | [] => Some J
  | Some i :: rest =>
      match nth_error J i with
      | Some (Ready w (o :: os)) => follow P M (set_nth J i (after_call (c_step P w o) os)) rest
      | _ => None
      end
  | None :: rest =>
      match J, all_waiting J with
      | _ :: _, Some l => follow P M (exchange_all M J l) rest
      | _, _ => None
      end
  end.
Lemma follow_runs P M s : forall J J', follow P M J s = Some J' -> job_runs P M J J'.
Proof.
  induction s as [|[i|] s IH]; intros J J' H; cbn [follow] in H.
  - injection H as <-. constructor.
  - destruct (nth_error J i) as [[w [|o os]| |]|] eqn:E; try discriminate H. eapply runs_more; [eapply rank_moves; exact E|]. apply IH. exact H.
  - destruct J as [|x J]; [discriminate H|]. destruct (all_waiting (x :: J)) as [l|] eqn:E; [|discriminate H]. eapply runs_more; [eapply ranks_exchange; [discriminate|exact E]|]. apply IH. exact H.
Qed.

Definition idle (x : rank) : bool := match x with Ready _ (_ :: _) | Failed _ => false | _ => true end.
Definition waits (x : rank) : bool := match x with Waiting _ _ _ _ => true | _ => false end.
Definition done (x : rank) : bool := match x with Ready _ [] => true | _ => false end.
Lemma idle_halted P M J : forallb idle J = true -> forallb waits J = false -> job_halted P M J.
Proof.
  intros I W J' H. destruct H as [J i w o os E|J l N A].
  - rewrite forallb_forall in I. specialize (I _ (nth_error_In _ _ E)). discriminate I.
  - assert (T : forallb waits J = true); [|congruence]. clear - A. revert l A. induction J as [|x J IH]; intros l A; [reflexivity|]. cbn [all_waiting] in A. destruct x; try discriminate A.
    destruct (all_waiting J) as [l'|]; [|discriminate A]. cbn [forallb waits andb]. eapply IH. reflexivity.
Qed.

Lemma follow_stuck P M J s i j : match follow P M J s with Some J' => forallb idle J' && match nth_error J' i, nth_error J' j with Some x, Some y => waits x && done y | _, _ => false end | None => false end = true ->
  exists J', job_runs P M J J' /\ job_halted P M J' /\ (forall f, ~ In (Failed f) J') /\ exists w st k os w', nth_error J' i = Some (Waiting w st k os) /\ nth_error J' j = Some (Ready w' []).
Proof.
  intros H. destruct (follow P M J s) as [J'|] eqn:E; [|discriminate H]. apply andb_prop in H as [H1 H2]. exists J'. split; [eapply follow_runs; exact E|]. clear E.
  destruct (nth_error J' i) as [x|] eqn:EI; [|discriminate H2]. destruct (nth_error J' j) as [y|] eqn:EJ; [|discriminate H2]. apply andb_prop in H2 as [H2 H3].
  destruct x as [|w st k os|]; try discriminate H2. destruct y as [w' [|]| |]; try discriminate H3. split; [|split; [|exists w, st, k, os, w'; auto]].
  2: { intros f I. rewrite forallb_forall in H1. specialize (H1 _ I). discriminate H1. }
  apply idle_halted; [exact H1|]. apply not_true_is_false. intros T. rewrite forallb_forall in T. specialize (T _ (nth_error_In _ _ EJ)). discriminate T.
Qed.

(** Four executions on each rank: on one region, and on two regions. *)
Definition one_or_two : list plan := [plan_of (region_x :: times 4 0); plan_of (region_x :: region_y :: times 2 0 ++ times 2 1)].
Lemma one_or_two_counts : counts example_platform one_or_two [4; 4].
Proof.
  split; [reflexivity|]. intros [|[|i]] x n EX EN; cbn in EX, EN; try (destruct i; discriminate EX); injection EX as <-; injection EN as <-;
    (apply plan_measures; vm_compute; reflexivity).
Qed.
Definition schedule : list (option nat) := repeat (Some 0%nat) 9 ++ repeat (Some 1%nat) 10 ++ [None] ++ repeat (Some 0%nat) 8 ++ repeat (Some 1%nat) 8.
Lemma one_or_two_stuck : exists J', job_runs example_platform native_mpi (collective_job 2 one_or_two) J' /\ job_halted example_platform native_mpi J' /\ (forall f, ~ In (Failed f) J') /\
  exists w st k os w', nth_error J' 1 = Some (Waiting w st k os) /\ nth_error J' 0 = Some (Ready w' []).
Proof. apply (follow_stuck _ _ _ schedule). vm_compute. reflexivity. Qed.

Lemma equal_counts_refuted : ~ (forall P M p plans ns J', 0 < p < 2 ^ 31 -> counts P plans ns -> (forall n m, In n ns -> In m ns -> n = m) ->
  job_runs P M (collective_job p plans) J' -> job_halted P M J' -> job_ended J' \/ exists x, In (Failed x) J').
Proof.
  intros H. destruct one_or_two_stuck as (J' & R & S & NF & w & st & k & os & w' & E1 & E0).
  assert (EQ : forall n m, In n [4; 4] -> In m [4; 4] -> n = m) by (intros n m [<-|[<-|[]]] [<-|[<-|[]]]; reflexivity).
  destruct (H example_platform native_mpi 2 one_or_two [4; 4] J' ltac:(lia) one_or_two_counts EQ R S) as [D|[x D]].
  - unfold job_ended in D. rewrite Forall_forall in D. destruct (D _ (nth_error_In _ _ E1)) as (v & K). discriminate K.
  - exact (NF x D).
Qed.

(** A rank whose region asks for training after two executions, with collective training, and one that comes to the exchange. *)
Definition self_training_rank : world := mkWorld (collectively learning 0) 0 [] [] 0 [].
Definition self_training_calls : list op := make "x" 2 2 "" :: times 3 0.
Definition beside_waiting : list rank :=
  [Ready self_training_rank self_training_calls; Ready (mkWorld (collectively learning 1) 1 [] [] 0 []) (region_x :: times 1 0)].
Lemma self_training : exists w' os', nth_error beside_waiting 0 = Some (Ready (self_training_rank) self_training_calls) /\
  truthy (cf_collective (w_config self_training_rank)) = true /\ truthy (cf_global_period (w_config self_training_rank)) = false /\
  (forall st collect, ~ In (OpTrainAll st collect) self_training_calls) /\
  end_of example_platform self_training_rank self_training_calls = Ready w' [] /\ trainable_all w' = false /\
  nth_error beside_waiting 1 = Some (Ready (fst os') (snd os')) /\ alone example_platform (fst os') (snd os') (Some 1).
Proof.
  destruct (run_holds example_platform self_training_rank self_training_calls (fun s => negb (trainable_all (fst s)))) as (w' & xs & E & T); [vm_compute; reflexivity|].
  exists w', (mkWorld (collectively learning 1) 1 [] [] 0 [], region_x :: times 1 0). split; [reflexivity|]. split; [reflexivity|]. split; [reflexivity|].
  split; [intros st collect H; unfold self_training_calls, times, once, make in H; cbn [app] in H; repeat (destruct H as [H|H]; [discriminate H|]); exact H|].
  split; [unfold end_of; rewrite E; reflexivity|]. split; [apply negb_true_iff; exact T|]. split; [reflexivity|].
  assert (A := measured_alone example_platform 1 1 learning [] (region_x :: times 1 0) 1 ltac:(lia)). cbn [fst snd]. apply A. apply plan_measures; vm_compute; reflexivity.
Qed.
