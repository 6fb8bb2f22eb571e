(** Concrete runs for Props/Runtime.v. *)
From Coq Require Import ZArith Bool Ascii String Lia List.
From Flocq Require Import BinarySingleNaN.
From Verif Require Import Model.Base Model.Float Model.Decimal Model.DatasetM Model.TreeM Model.ForestM Model.NetM Model.PolicyNetM
  Model.ModelStringM Model.PolicyModelsM Model.ConfigM Model.RuntimeM
  Spec.DatasetSpec Spec.DatasetClient Spec.StartupSpec Spec.RuntimeSpec Spec.InsertionSort Proofs.InsertionSortFacts Proofs.TreeFacts Proofs.ModelStringFacts.
Import ListNotations.
Open Scope Z_scope.

(** The default settings with a given policy model and periods. *)
Definition settings (model : string) (global_period region_period persistent : Z) : config :=
  mkConfig ($model) 0 1 0 1 global_period region_period 0 0 0 0 0 0 one32 half32 0 persistent 0 ($".apollo") ($".apollo/datasets")
    ($".apollo/traces") ($".apollo/models").

Definition example_platform : platform :=
  {| p_sort := insertion_sort; p_pick := fun _ _ => 0%nat; p_libm := {| m_exp := fun x => x; m_pow := fun x _ => x |} |}.
Definition example_draws : draws := {| d_uniform := fun lo _ => lo; d_discrete := fun _ => Ok 0 |}.
Definition no_init : nat -> nat -> f64 := fun _ _ => f64_of_Z 0.

Definition make (name : string) (num_policies min_training : Z) (model : string) : op :=
  OpRegion 1 ($name) num_policies min_training ($model) [] no_init.
Definition ask_policy (p : ctxptr) : op := OpGetPolicy (fst p) (Some p) example_draws.
Definition give (p : ctxptr) (x : Z) : op := OpSetFeature (fst p) (Some p) (f32_of_Z x).
Definition start (r : nat) (t : Z) : op := OpBegin r false (t, 0).
Definition start_async (r : nat) : op := OpBegin r true (0, 0).
Definition finish (p : ctxptr) (t : Z) : op := OpEnd (fst p) (Some p) (t, 0) None.

(** A run holds. *)
Lemma run_holds P w os (q : world * list result -> bool) :
  match run P w os with Ok a => q a | _ => false end = true -> exists v xs, run P w os = Ok (v, xs) /\ q (v, xs) = true.
Proof. destruct (run P w os) as [[v xs]| | | |]; try discriminate. eauto. Qed.

Definition a0 : ctxptr := (0%nat, Heap 0).
Definition a1 : ctxptr := (0%nat, Heap 1).
Definition s0 : ctxptr := (0%nat, Sync).
Definition s1 : ctxptr := (1%nat, Sync).

(** Two asynchronous executions end; the second completes and is collected by a synchronous one with a given metric. *)
Definition two_async : list op :=
  [make "r" 2 0 "DecisionTree,explore=RoundRobin"; start_async 0; give a0 3; start_async 0; give a1 4; ask_policy a1; ask_policy a0;
   finish a0 5; finish a1 6; OpComplete a1 (f32_of_Z 2000); start 0 10; give s0 7; ask_policy s0;
   OpEndMetric 0 (Some s0) (f64_of_Z 9)].

Definition ctxs_eqb (a b : list ctxptr) : bool :=
  Nat.eqb (List.length a) (List.length b) && forallb (fun q => ctx_eqb (fst q) (snd q)) (combine a b).

Lemma ctx_eqb_true p q : ctx_eqb p q = true -> p = q.
Proof.
  unfold ctx_eqb. destruct p as [a [|i]], q as [b [|j]]; cbn; rewrite ?andb_true_r, ?andb_false_r; try discriminate; intros H.
  - apply Nat.eqb_eq in H. congruence.
  - apply andb_prop in H. destruct H as [H K]. apply Nat.eqb_eq in H. apply Nat.eqb_eq in K. congruence.
Qed.

Lemma ctxs_eqb_true a b : ctxs_eqb a b = true -> a = b.
Proof.
  unfold ctxs_eqb. revert b. induction a as [|p a IH]; intros [|q b] H; try discriminate; auto. cbn in H.
  apply andb_prop in H. destruct H as [L H]. apply andb_prop in H. destruct H as [E H].
  apply ctx_eqb_true in E. rewrite (IH b); [congruence|]. rewrite L. exact H.
Qed.

Lemma two_async_run : exists w xs, run example_platform (start_world (settings "Static,policy=0" 0 0 0) []) two_async = Ok (w, xs) /\
  forallb explicit two_async = true /\ ended_on (combine two_async xs) 0 = [a0; a1; s0] /\ pending_of w 0 = [a0] /\ w_executions w = 2 /\
  match nth_error (w_regions w) 0 with Some R => ds_size (r_dataset R) = 2 | None => False end.
Proof.
  destruct (run_holds example_platform (start_world (settings "Static,policy=0" 0 0 0) []) two_async
    (fun s => ctxs_eqb (ended_on (combine two_async (snd s)) 0) [a0; a1; s0] && ctxs_eqb (pending_of (fst s) 0) [a0] &&
       (w_executions (fst s) =? 2) && match nth_error (w_regions (fst s)) 0 with Some R => ds_size (r_dataset R) =? 2 | None => false end))
    as (w & xs & E & H); [vm_compute; reflexivity|].
  exists w, xs. split; [exact E|]. split; [reflexivity|]. cbn [fst snd] in H. clear E.
  do 3 (apply andb_prop in H; let K := fresh in destruct H as [H K]).
  split; [apply ctxs_eqb_true; exact H|]. split; [apply ctxs_eqb_true; assumption|]. split; [apply Z.eqb_eq; assumption|].
  destruct (nth_error (w_regions w) 0); [|discriminate]. apply Z.eqb_eq; assumption.
Qed.

(** ** A well-behaved client *)

Definition client : list op :=
  [make "r" 2 0 "DecisionTree,explore=RoundRobin"; make "q" 3 0 "Static,policy=2"; start 0 10; give s0 3; start 1 11; give s1 4; ask_policy s0;
   ask_policy s1; finish s1 15; finish s0 20; start 0 30; give s0 7; ask_policy s0; finish s0 31; start 0 40].

Definition idle_with (n : nat) (s : option (phase * list meas)) : bool :=
  match s with Some (Idle, ms) => Nat.eqb (List.length ms) n | _ => false end.
Definition running_with (n : nat) (s : option (phase * list meas)) : bool :=
  match s with Some (Running _ _ _, ms) => Nat.eqb (List.length ms) n | _ => false end.

Lemma client_run : exists w xs, run example_platform (start_world (settings "Static,policy=0" 0 0 0) []) client = Ok (w, xs) /\
  forallb explicit client = true /\ running_with 2 (followed 0 (combine client xs)) = true /\ idle_with 1 (followed 1 (combine client xs)) = true /\
  (forall r nf nm np mt info yaml init, In (OpRegion nf nm np mt info yaml init, GotRegion r) (combine client xs) ->
     starts_empty (settings "Static,policy=0" 0 0 0) info) /\
  match nth_error (w_regions w) 0 with
  | Some R => keeps (w_config w) R = true /\ r_alive R = true /\ ds_size (r_dataset R) = 2
  | None => False
  end.
Proof.
  destruct (run_holds example_platform (start_world (settings "Static,policy=0" 0 0 0) []) client
    (fun s => running_with 2 (followed 0 (combine client (snd s))) && idle_with 1 (followed 1 (combine client (snd s))) &&
       match nth_error (w_regions (fst s)) 0 with
       | Some R => keeps (w_config (fst s)) R && r_alive R && (ds_size (r_dataset R) =? 2) | None => false end))
    as (w & xs & E & H); [vm_compute; reflexivity|].
  exists w, xs. split; [exact E|]. split; [reflexivity|]. cbn [fst snd] in H. clear E.
  apply andb_prop in H. destruct H as [H H1]. apply andb_prop in H. destruct H as [H2 H3].
  split; [exact H2|]. split; [exact H3|]. split.
  - intros r nf nm np mt info yaml init IN. apply in_combine_l in IN. unfold client, make in IN.
    assert (IB : info = $"DecisionTree,explore=RoundRobin" \/ info = $"Static,policy=2").
    { destruct IN as [IN|[IN|IN]]; [inversion IN; auto|inversion IN; auto|]. exfalso. clear - IN.
      repeat (destruct IN as [IN|IN]; [discriminate IN|]). exact IN. }
    split; [reflexivity|]. intros name ps HP. destruct IB; subst info; vm_compute in HP; inversion HP; subst; split; try discriminate; reflexivity.
  - destruct (nth_error (w_regions w) 0) as [R|]; [|discriminate]. do 2 (apply andb_prop in H1; let K := fresh in destruct H1 as [H1 K]).
    split; [exact H1|]. split; [assumption|]. apply Z.eqb_eq. assumption.
Qed.

(** ** A forgotten getPolicyIndex *)

Definition forgotten_before : list op :=
  [make "r" 3 0 "RoundRobin"; start 0 10; ask_policy s0; finish s0 11; start 0 12; ask_policy s0; finish s0 13].

Lemma forgotten_run : exists w1 xs1 w xs,
  run example_platform (start_world (settings "Static,policy=0" 0 0 1) []) forgotten_before = Ok (w1, xs1) /\
  run example_platform (start_world (settings "Static,policy=0" 0 0 1) []) (forgotten_before ++ [start 0 14] ++ [finish s0 19]) = Ok (w, xs) /\
  forallb explicit (forgotten_before ++ [start 0 14]) = true /\ policy_of (combine forgotten_before xs1) s0 = 1.
Proof.
  destruct (run_holds example_platform (start_world (settings "Static,policy=0" 0 0 1) []) forgotten_before
    (fun s => policy_of (combine forgotten_before (snd s)) s0 =? 1)) as (w1 & xs1 & E1 & H1); [vm_compute; reflexivity|].
  destruct (run_holds example_platform (start_world (settings "Static,policy=0" 0 0 1) []) (forgotten_before ++ [start 0 14] ++ [finish s0 19])
    (fun _ => true)) as (w & xs & E & _); [vm_compute; reflexivity|].
  exists w1, xs1, w, xs. split; [exact E1|]. split; [exact E|]. split; [reflexivity|]. apply Z.eqb_eq. exact H1.
Qed.

(** ** Calls without a context *)

Lemma stuck_after P w os o : match run P w os with Ok (v, _) => match step P v o with UB => true | _ => false end | _ => false end = true ->
  exists v xs, run P w os = Ok (v, xs) /\ step P v o = UB.
Proof.
  destruct (run P w os) as [[v xs]| | | |]; try discriminate. intros H. exists v, xs. split; auto. destruct (step P v o); try discriminate; auto.
Qed.

(** An execution is in flight; train collects an asynchronous one; ending the first is undefined. *)
Definition in_flight : list op :=
  [make "r" 2 0 "DecisionTree,explore=RoundRobin"; start_async 0; give a0 3; ask_policy a0; finish a0 5; start 0 10;
   OpSetFeature 0 None (f32_of_Z 7); OpGetPolicy 0 None example_draws; OpComplete a0 (f32_of_Z 2000)].

Lemma in_flight_run : exists w xs, run example_platform (start_world (settings "Static,policy=0" 0 0 0) []) (in_flight ++ [OpTrain 0 0 true false]) = Ok (w, xs) /\
  step example_platform w (OpEnd 0 None (12, 0) None) = UB.
Proof. apply stuck_after. vm_compute. reflexivity. Qed.

(** Without the call to train, ending the execution is defined. *)
Lemma in_flight_undisturbed : exists w xs,
  run example_platform (start_world (settings "Static,policy=0" 0 0 0) []) (in_flight ++ [OpEnd 0 None (12, 0) None]) = Ok (w, xs) /\ w_executions w = 1.
Proof.
  destruct (run_holds example_platform (start_world (settings "Static,policy=0" 0 0 0) []) (in_flight ++ [OpEnd 0 None (12, 0) None])
    (fun s => w_executions (fst s) =? 1)) as (w & xs & E & H); [vm_compute; reflexivity|].
  exists w, xs. split; [exact E|]. apply Z.eqb_eq. exact H.
Qed.

(** One execution within another of the same region. *)
Definition nested : list op :=
  [make "r" 2 0 "Static,policy=1"; start 0 10; OpGetPolicy 0 None example_draws; start 0 11; OpGetPolicy 0 None example_draws; OpEnd 0 None (12, 0) None].

Lemma nested_run : exists w xs, run example_platform (start_world (settings "Static,policy=0" 0 0 0) []) nested = Ok (w, xs) /\
  step example_platform w (OpEnd 0 None (13, 0) None) = UB.
Proof. apply stuck_after. vm_compute. reflexivity. Qed.

(** ** The report of executions and the trace *)

Definition reporting : config :=
  mkConfig ($"Static,policy=0") 0 1 0 1 0 0 0 0 0 0 0 0 one32 half32 1 0 1 ($".apollo") ($".apollo/datasets") ($".apollo/traces") ($".apollo/models").

Lemma report_run : exists w xs w', run example_platform (start_world reporting []) two_async = Ok (w, xs) /\
  step example_platform w (OpShutdown (fun _ => [[(a0, f32_of_Z 1000)]])) = Ok (w', Done) /\
  file_find ($".apollo/apollo_exec_info.csv") (w_files w') = Some ($"r, 3" ++ [nl]) /\
  match nth_error (w_regions w') 0 with
  | Some R => r_trace R = $"rankid training region idx f0 policy xtime" ++ [nl] ++ $"0 DecisionTree r 2 7 0 9" ++ [nl] ++
      $"0 DecisionTree r 1 4 0 2" ++ [nl] ++ $"0 DecisionTree r 0 3 1 1" ++ [nl]
  | None => False
  end.
Proof.
  destruct (run_holds example_platform (start_world reporting []) two_async
    (fun s => match step example_platform (fst s) (OpShutdown (fun _ => [[(a0, f32_of_Z 1000)]])) with
       | Ok (w', Done) => match file_find ($".apollo/apollo_exec_info.csv") (w_files w') with Some t => bytes_eqb t ($"r, 3" ++ [nl]) | None => false end &&
           match nth_error (w_regions w') 0 with
           | Some R => bytes_eqb (r_trace R) ($"rankid training region idx f0 policy xtime" ++ [nl] ++ $"0 DecisionTree r 2 7 0 9" ++ [nl] ++
                $"0 DecisionTree r 1 4 0 2" ++ [nl] ++ $"0 DecisionTree r 0 3 1 1" ++ [nl])
           | None => false end
       | _ => false end)) as (w & xs & E & H); [vm_compute; reflexivity|].
  cbn [fst] in H. destruct (step example_platform w _) as [[w' []]| | | |] eqn:ES; try discriminate H.
  exists w, xs, w'. split; [exact E|]. split; [exact ES|]. clear E ES. apply andb_prop in H. destruct H as [H1 H2].
  destruct (file_find _ (w_files w')); [|discriminate]. destruct (nth_error (w_regions w') 0); [|discriminate].
  apply bytes_eqb_eq in H1, H2. subst. split; [reflexivity|]. exact H2.
Qed.

(** ** Automatic training *)

Definition before_training : list op :=
  [make "r" 2 0 "DecisionTree,explore=RoundRobin"; make "q" 2 0 "DecisionTree,explore=RoundRobin"; start 0 10; give s0 3; ask_policy s0; finish s0 12;
   start 1 13; give s1 4; ask_policy s1].

Definition trainable_b (w : world) (r : nat) : bool := match nth_error (w_regions w) r with Some R => m_trainable (r_model R) | None => false end.

(** With a global period of 2 the end of the second execution trains both regions. *)
Lemma before_training_run : exists w xs w' y,
  run example_platform (start_world (settings "Static,policy=0" 2 0 0) []) before_training = Ok (w, xs) /\ forallb explicit before_training = true /\
  step example_platform w (OpEnd 1 (Some s1) (15, 0) None) = Ok (w', y) /\
  global_due (w_config w) ((w_executions w + 1) mod 2 ^ 64) /\ map snd (w_registry w) = [1; 0]%nat /\
  trainable_b w 0 = true /\ trainable_b w 1 = true /\ trainable_b w' 0 = false /\ trainable_b w' 1 = false.
Proof.
  destruct (run_holds example_platform (start_world (settings "Static,policy=0" 2 0 0) []) before_training
    (fun s => match step example_platform (fst s) (OpEnd 1 (Some s1) (15, 0) None) with
      | Ok (w', y) => (cf_global_period (w_config (fst s)) =? 2) && (w_executions (fst s) =? 1) &&
          match map snd (w_registry (fst s)) with [1%nat; 0%nat] => true | _ => false end &&
          trainable_b (fst s) 0 && trainable_b (fst s) 1 && negb (trainable_b w' 0) && negb (trainable_b w' 1)
      | _ => false end)) as (w & xs & E & H); [vm_compute; reflexivity|].
  cbn [fst] in H. destruct (step example_platform w (OpEnd 1 (Some s1) (15, 0) None)) as [[w' y]| | | |] eqn:ES; try discriminate H.
  do 6 (apply andb_prop in H; let K := fresh "K" in destruct H as [H K]).
  exists w, xs, w', y. split; [exact E|]. split; [reflexivity|]. split; [exact ES|]. clear E ES.
  apply Z.eqb_eq in H, K4. rewrite K4. split; [split; [lia|rewrite H; exists 1; reflexivity]|].
  split. { destruct (map snd (w_registry w)) as [|[|[|]] [|[|] [|]]]; try discriminate; reflexivity. }
  apply negb_true_iff in K, K0. auto.
Qed.

(** ** Names that agree on 63 characters *)

Definition long_name (c : string) : string := "a2345678901234567890123456789012345678901234567890123456789 123" ++ c.
Definition same_names : list op :=
  [make (long_name "x") 2 0 "DecisionTree,explore=RoundRobin"; make (long_name "y") 2 0 "DecisionTree,explore=RoundRobin";
   start 0 10; give s0 3; ask_policy s0; finish s0 12; start 1 13; give s1 4; ask_policy s1; finish s1 15].

Lemma same_names_run : exists w xs w' y,
  run example_platform (start_world (settings "Static,policy=0" 0 0 0) []) same_names = Ok (w, xs) /\ forallb explicit same_names = true /\
  step example_platform w (OpTrainAll 0 true) = Ok (w', y) /\ map snd (w_registry w) = [0%nat] /\
  (exists R R0, nth_error (w_regions w) 1 = Some R /\ nth_error (w_regions w) 0 = Some R0 /\ r_name R0 = r_name R /\ ds_size (r_dataset R) = 1) /\
  trainable_b w' 0 = false /\ trainable_b w' 1 = true.
Proof.
  destruct (run_holds example_platform (start_world (settings "Static,policy=0" 0 0 0) []) same_names
    (fun s => match step example_platform (fst s) (OpTrainAll 0 true) with
      | Ok (w', y) => match map snd (w_registry (fst s)) with [0%nat] => true | _ => false end &&
          match nth_error (w_regions (fst s)) 1, nth_error (w_regions (fst s)) 0 with
          | Some R, Some R0 => bytes_eqb (r_name R0) (r_name R) && (ds_size (r_dataset R) =? 1)
          | _, _ => false end && negb (trainable_b w' 0) && trainable_b w' 1
      | _ => false end)) as (w & xs & E & H); [vm_compute; reflexivity|].
  cbn [fst] in H. destruct (step example_platform w (OpTrainAll 0 true)) as [[w' y]| | | |] eqn:ES; try discriminate H.
  do 3 (apply andb_prop in H; let K := fresh "K" in destruct H as [H K]).
  exists w, xs, w', y. split; [exact E|]. split; [reflexivity|]. split; [exact ES|]. clear E ES.
  split. { destruct (map snd (w_registry w)) as [|[|] [|]]; try discriminate; reflexivity. }
  split. { destruct (nth_error (w_regions w) 1) as [R|]; [|discriminate]. destruct (nth_error (w_regions w) 0) as [R0|]; [|discriminate].
    apply andb_prop in K1. destruct K1 as [K1 K2]. apply bytes_eqb_eq in K1. apply Z.eqb_eq in K2. exists R, R0. auto. }
  apply negb_true_iff in K0. auto.
Qed.

(** ** A destroyed region *)

Definition one_destroyed : list op :=
  [make "r" 2 0 "DecisionTree,explore=RoundRobin"; make "q" 2 0 "DecisionTree,explore=RoundRobin"; OpDestroy 0 [];
   start 1 13; give s1 4; ask_policy s1; finish s1 15].

(** With a global period of 1 the execution after the destruction trains nothing; then Apollo::train is undefined. *)
Lemma one_destroyed_run : exists w xs,
  run example_platform (start_world (settings "Static,policy=0" 1 0 0) []) one_destroyed = Ok (w, xs) /\ forallb explicit one_destroyed = true /\
  w_executions w = 1 /\ trainable_b w 1 = true /\ step example_platform w (OpTrainAll 0 true) = UB.
Proof.
  destruct (run_holds example_platform (start_world (settings "Static,policy=0" 1 0 0) []) one_destroyed
    (fun s => (w_executions (fst s) =? 1) && trainable_b (fst s) 1 && match step example_platform (fst s) (OpTrainAll 0 true) with UB => true | _ => false end))
    as (w & xs & E & H); [vm_compute; reflexivity|].
  cbn [fst] in H. apply andb_prop in H. destruct H as [H K]. apply andb_prop in H. destruct H as [H K1]. exists w, xs. split; [exact E|]. clear E. split; [reflexivity|].
  split; [apply Z.eqb_eq; exact H|]. split; [exact K1|]. destruct (step example_platform w (OpTrainAll 0 true)); try discriminate K. reflexivity.
Qed.

(** ** A stored model is loaded by the next process *)

Definition storing : config :=
  mkConfig ($"Static,policy=0") 0 1 0 1 0 0 0 1 0 0 0 0 one32 half32 0 0 0 ($".apollo") ($".apollo/datasets") ($".apollo/traces") ($".apollo/models").
Definition before_storing : list op :=
  [make "r" 2 0 "DecisionTree,explore=RoundRobin"; start 0 10; give s0 3; ask_policy s0; finish s0 12; start 0 13; give s0 4; ask_policy s0; finish s0 20].

Definition stored_region_b (w : world) : bool :=
  match nth_error (w_regions w) 0 with
  | Some R => (0 <? ds_size (r_dataset R)) && match m_store (r_model R) with Ok (Some _) => true | _ => false end
  | None => false
  end.

Lemma storing_run : exists w xs w' y w2 xs2,
  run example_platform (start_world storing []) before_storing = Ok (w, xs) /\ forallb explicit before_storing = true /\
  step example_platform w (OpTrain 0 0 true false) = Ok (w', y) /\ trainable_b w 0 = true /\
  (exists R' text, nth_error (w_regions w') 0 = Some R' /\ 0 < ds_size (r_dataset R') /\ m_store (r_model R') = Ok (Some text)) /\
  run example_platform (start_world storing (w_files w')) [make "r" 2 0 "DecisionTree,load"] = Ok (w2, xs2) /\ trainable_b w2 0 = false.
Proof.
  destruct (run_holds example_platform (start_world storing []) before_storing
    (fun s => match step example_platform (fst s) (OpTrain 0 0 true false) with
      | Ok (w', y) => match run example_platform (start_world storing (w_files w')) [make "r" 2 0 "DecisionTree,load"] with
          | Ok (w2, _) => trainable_b (fst s) 0 && stored_region_b w' && negb (trainable_b w2 0) | _ => false end
      | _ => false end)) as (w & xs & E & H); [vm_compute; reflexivity|].
  cbn [fst] in H. destruct (step example_platform w (OpTrain 0 0 true false)) as [[w' y]| | | |] eqn:ES; try discriminate H.
  destruct (run example_platform (start_world storing (w_files w')) [make "r" 2 0 "DecisionTree,load"]) as [[w2 xs2]| | | |] eqn:E2; try discriminate H.
  exists w, xs, w', y, w2, xs2. split; [exact E|]. split; [reflexivity|]. split; [exact ES|]. clear E ES.
  do 2 (apply andb_prop in H; let K := fresh "K" in destruct H as [H K]). split; [exact H|]. apply negb_true_iff in K.
  split; [|split; [exact E2|exact K]]. clear E2. unfold stored_region_b in K0. destruct (nth_error (w_regions w') 0) as [R'|]; [|discriminate K0].
  apply andb_prop in K0. destruct K0 as [K1 K2]. destruct (m_store (r_model R')) as [[text|]| | | |] eqn:MS; try discriminate K2.
  exists R', text. split; [reflexivity|]. split; [apply Z.ltb_lt; exact K1|exact MS].
Qed.
