(** Concrete runs for Props/RuntimePolicies.v. *)
From Coq Require Import ZArith Bool Ascii String Lia List.
From Flocq Require Import BinarySingleNaN.
From Verif Require Import Model.Base Model.Float Model.Decimal Model.DatasetM Model.TreeM Model.ForestM Model.NetM Model.PolicyNetM
  Model.ModelStringM Model.PolicyModelsM Model.ConfigM Model.RuntimeM
  Spec.DatasetSpec Spec.DatasetClient Spec.PolicyModelsSpec Spec.StartupSpec Spec.RuntimeSpec Spec.InsertionSort Proofs.InsertionSortFacts Proofs.TreeFacts Proofs.ModelStringFacts Proofs.RuntimeExamples.
Import ListNotations.
Open Scope Z_scope.

Definition fair_draws : draws := {| d_uniform := fun lo _ => lo; d_discrete := fun l => match l with [] => UB | _ => Ok 0 end |}.

Lemma fair_draws_ok : draws_ok fair_draws.
Proof. split; cbn; [lia|]. intros [|x l] i E; [discriminate E|]. inversion E; subst. cbn. lia. Qed.

(** One execution of region r: the feature, the start and the end. *)
Definition execution (r : nat) (x t1 t2 : Z) : list op :=
  [start r t1; give (r, Sync) x; OpGetPolicy r (Some (r, Sync)) fair_draws; finish (r, Sync) t2].

(** Feature 1 is fastest with policy 0, feature 2 with policy 1; each is measured with both policies. *)
Definition explore_calls : list op :=
  make "r" 2 0 "DecisionTree,explore=RoundRobin" :: execution 0 1 0 1 ++ execution 0 1 10 15 ++ execution 0 2 20 25 ++ execution 0 2 30 31.
Definition train_calls : list op := explore_calls ++ [OpTrain 0 0 true false].
Definition later_calls : list op := execution 0 1 40 41 ++ execution 0 2 50 55.
Definition exploit_calls : list op := OpTrain 0 0 true false :: later_calls.

Fixpoint zs_eqb (a b : list Z) : bool :=
  match a, b with [], [] => true | x :: a, y :: b => (x =? y) && zs_eqb a b | _, _ => false end.
Lemma zs_eqb_true a b : zs_eqb a b = true -> a = b.
Proof.
  revert b. induction a as [|x a IH]; intros [|y b]; cbn; intros H; try discriminate; auto. apply andb_prop in H. destruct H as [H1 H2].
  apply Z.eqb_eq in H1. subst. f_equal. auto.
Qed.

(** A region that is created first, with no files and nothing to load, and no other. *)
Definition no_region (o : op) : bool := match o with OpRegion _ _ _ _ _ _ _ => false | _ => true end.
Lemma no_load_run P w o os : no_load w o -> forallb no_region os = true ->
  forall os1 o' os2 w1 xs1, o :: os = os1 ++ o' :: os2 -> run P w os1 = Ok (w1, xs1) -> no_load w1 o'.
Proof.
  intros NL NR [|a os1] o' os2 w1 xs1 E H.
  - cbn in E. inversion E; subst. cbn in H. inversion H; subst. exact NL.
  - cbn in E. inversion E; subst. rewrite forallb_app in NR. cbn in NR. apply andb_prop in NR. destruct NR as [_ NR]. apply andb_prop in NR. destruct NR as [NR _].
    destruct o'; try exact Logic.I. discriminate NR.
Qed.

Definition best_policy_b (f : list f32) (v : list meas) (p : Z) : bool :=
  existsb (fun m => match m with (g, q, x) => (q =? p) && same_features f g &&
    forallb (fun m' => match m' with (g', p', x') => negb (same_features f g') || (Bleb x x' && (negb (Beqb x x') || (p <=? p'))) end) v end) v.
Lemma best_policy_true f v p : best_policy_b f v p = true -> best_policy_for f v p.
Proof.
  unfold best_policy_b. intros H. apply existsb_exists in H. destruct H as ([[g q] x] & IN & H). apply andb_prop in H. destruct H as [H FA]. apply andb_prop in H. destruct H as [E S].
  apply Z.eqb_eq in E. subst q. exists g, x. split; [exact IN|]. split; [exact S|]. intros g' p' x' IN' S'. rewrite forallb_forall in FA. specialize (FA _ IN'). cbn in FA. rewrite S' in FA. cbn in FA.
  apply andb_prop in FA. destruct FA as [A B]. split; [exact A|]. intros E. rewrite E in B. cbn in B. apply Z.leb_le. exact B.
Qed.

Definition region_b (w : world) (r : nat) (q : region -> bool) : bool := match nth_error (w_regions w) r with Some R => q R | None => false end.
Lemma region_b_true w r q : region_b w r q = true -> exists R, nth_error (w_regions w) r = Some R /\ q R = true.
Proof. unfold region_b. destruct (nth_error _ _); [|discriminate]. eauto. Qed.

Definition explores_b (m : model) : bool := match m with MTree _ true _ (Some (MRoundRobin n last)) => (n =? 2) && (last =? 1) | _ => false end.
Definition trained_b (m : model) : bool := match m with MTree _ false _ _ => true | _ => false end.

(** The settings of the examples. *)
Definition plain : config := settings "Static,policy=0" 0 0 0.

Lemma explore_run : exists w xs w' xs' R R',
  run example_platform (start_world plain []) explore_calls = Ok (w, xs) /\
  run example_platform w exploit_calls = Ok (w', xs') /\
  nth_error (w_regions w) 0 = Some R /\ m_trainable (r_model R) = true /\ answers explore_calls xs 0 = [0; 1; 0; 1] /\
  nth_error (w_regions w') 0 = Some R' /\ (exists n t e, r_model R' = MTree n false t e) /\ answers exploit_calls xs' 0 = [0; 0] /\
  best_policy_for [f32_of_Z 1] (ds_to_vector (r_dataset R)) 0 /\ best_policy_for [f32_of_Z 2] (ds_to_vector (r_dataset R)) 1.
Proof.
  destruct (run_holds example_platform (start_world plain []) explore_calls
    (fun s => match run example_platform (fst s) exploit_calls with
      | Ok (w', xs') => region_b (fst s) 0 (fun R => m_trainable (r_model R) && best_policy_b [f32_of_Z 1] (ds_to_vector (r_dataset R)) 0 && best_policy_b [f32_of_Z 2] (ds_to_vector (r_dataset R)) 1) &&
          zs_eqb (answers explore_calls (snd s) 0) [0; 1; 0; 1] && region_b w' 0 (fun R => trained_b (r_model R)) && zs_eqb (answers exploit_calls xs' 0) [0; 0]
      | _ => false end)) as (w & xs & E & H); [vm_compute; reflexivity|].
  cbn [fst snd] in H. destruct (run example_platform w exploit_calls) as [[w' xs']| | | |] eqn:E2; try discriminate H.
  do 3 (apply andb_prop in H; let K := fresh "K" in destruct H as [H K]). apply region_b_true in H, K0. destruct H as (R & ER & H). destruct K0 as (R' & ER' & H').
  exists w, xs, w', xs', R, R'. split; [exact E|]. split; [exact E2|]. clear E E2. do 2 (apply andb_prop in H; let K := fresh "K" in destruct H as [H K]).
  apply zs_eqb_true in K, K1. apply best_policy_true in K0, K2. split; [exact ER|]. split; [exact H|]. split; [exact K1|]. split; [exact ER'|].
  split; [|auto]. unfold trained_b in H'. destruct (r_model R') as [| | | | |n [|] t e| |]; try discriminate H'. eauto.
Qed.

Lemma all_no_load : forall os1 o os2 w1 xs1, explore_calls ++ exploit_calls = os1 ++ o :: os2 -> run example_platform (start_world plain []) os1 = Ok (w1, xs1) -> no_load w1 o.
Proof.
  change (explore_calls ++ exploit_calls) with (make "r" 2 0 "DecisionTree,explore=RoundRobin" :: tl explore_calls ++ exploit_calls).
  apply no_load_run; [|reflexivity]. split; [reflexivity|]. split; [left; reflexivity|]. intros name ps E.
  assert (X : name = $"DecisionTree" /\ ps = [($"explore", $"RoundRobin")]) by (vm_compute in E; inversion E; split; reflexivity).
  destruct X as [-> ->]. split; [discriminate|]. split; [discriminate|]. split; reflexivity.
Qed.

Lemma later_run : exists w xs R n t e w2 xs2,
  run example_platform (start_world plain []) train_calls = Ok (w, xs) /\
  nth_error (w_regions w) 0 = Some R /\ r_model R = MTree n false t e /\ run example_platform w later_calls = Ok (w2, xs2) /\ answers later_calls xs2 0 = [0; 0].
Proof.
  destruct (run_holds example_platform (start_world plain []) train_calls
    (fun s => match run example_platform (fst s) later_calls with
      | Ok (w', xs') => region_b (fst s) 0 (fun R => trained_b (r_model R)) && zs_eqb (answers later_calls xs' 0) [0; 0]
      | _ => false end)) as (w & xs & E & H); [vm_compute; reflexivity|].
  cbn [fst] in H. destruct (run example_platform w later_calls) as [[w' xs']| | | |] eqn:E2; try discriminate H.
  apply andb_prop in H. destruct H as [H K]. apply region_b_true in H. destruct H as (R & ER & H). apply zs_eqb_true in K.
  unfold trained_b in H. destruct (r_model R) as [| | | | |n [|] t e| |] eqn:EM; try discriminate H.
  exists w, xs, R, n, t, e, w', xs'. split; [exact E|]. split; [exact ER|]. split; [exact EM|]. split; [exact E2|exact K].
Qed.

Lemma train_no_load : forall os1 o os2 w1 xs1, train_calls = os1 ++ o :: os2 -> run example_platform (start_world plain []) os1 = Ok (w1, xs1) -> no_load w1 o.
Proof.
  change train_calls with (make "r" 2 0 "DecisionTree,explore=RoundRobin" :: tl train_calls).
  apply no_load_run; [|reflexivity]. split; [reflexivity|]. split; [left; reflexivity|]. intros name ps E.
  assert (X : name = $"DecisionTree" /\ ps = [($"explore", $"RoundRobin")]) by (vm_compute in E; inversion E; split; reflexivity).
  destruct X as [-> ->]. split; [discriminate|]. split; [discriminate|]. split; reflexivity.
Qed.

Lemma all_run : exists w xs,
  run example_platform (start_world plain []) (explore_calls ++ exploit_calls) = Ok (w, xs) /\
  Forall own_context (explore_calls ++ exploit_calls) /\ Forall fair (explore_calls ++ exploit_calls) /\
  In (make "r" 2 0 "DecisionTree,explore=RoundRobin", GotRegion 0) (combine (explore_calls ++ exploit_calls) xs) /\
  answers (explore_calls ++ exploit_calls) xs 0 = [0; 1; 0; 1; 0; 0].
Proof.
  destruct (run_holds example_platform (start_world plain []) (explore_calls ++ exploit_calls)
    (fun s => match snd s with GotRegion 0 :: _ => zs_eqb (answers (explore_calls ++ exploit_calls) (snd s) 0) [0; 1; 0; 1; 0; 0] | _ => false end)) as (w & xs & E & H); [vm_compute; reflexivity|].
  exists w, xs. split; [exact E|]. clear E. cbn [snd] in H. split; [|split; [|split]].
  - repeat constructor.
  - repeat (apply Forall_cons; [first [exact Logic.I|exact fair_draws_ok]|]). constructor.
  - destruct xs as [|[|[|n]| |] xs]; try discriminate H. left. reflexivity.
  - apply zs_eqb_true. destruct xs as [|[|[|n]| |] xs]; try discriminate H. exact H.
Qed.

(** ** One model for all regions *)

Definition shared : config :=
  mkConfig ($"Static,policy=0") 0 1 1 0 0 0 0 0 0 0 0 0 one32 half32 0 0 0 ($".apollo") ($".apollo/datasets") ($".apollo/traces") ($".apollo/models").

(** Region 1 has three policies and the third is fastest; region 0 has two. *)
Definition shared_calls (kind : string) : list op :=
  [make "a" 2 0 kind; make "b" 3 0 kind] ++ execution 1 1 0 5 ++ execution 1 1 10 14 ++ execution 1 1 20 21 ++
  [OpTrainAll 0 true; start 0 30; give s0 1].

Lemma shared_tree_run : exists w xs w' R,
  run example_platform (start_world shared []) (shared_calls "DecisionTree,explore=RoundRobin") = Ok (w, xs) /\
  nth_error (w_regions w) 0 = Some R /\ r_num_policies R = 2 /\ r_dataset R = [] /\
  step example_platform w (OpGetPolicy 0 (Some s0) fair_draws) = Ok (w', GotPolicy 2).
Proof.
  destruct (run_holds example_platform (start_world shared []) (shared_calls "DecisionTree,explore=RoundRobin")
    (fun s => match step example_platform (fst s) (OpGetPolicy 0 (Some s0) fair_draws) with
      | Ok (w', GotPolicy k) => (k =? 2) && region_b (fst s) 0 (fun R => (r_num_policies R =? 2) && match r_dataset R with [] => true | _ => false end)
      | _ => false end)) as (w & xs & E & H); [vm_compute; reflexivity|].
  cbn [fst] in H. destruct (step example_platform w (OpGetPolicy 0 (Some s0) fair_draws)) as [[w' [| | |k]]| | | |] eqn:E2; try discriminate H.
  apply andb_prop in H. destruct H as [H1 H2]. apply Z.eqb_eq in H1. subst k. apply region_b_true in H2. destruct H2 as (R & ER & H2).
  exists w, xs, w', R. split; [exact E|]. split; [exact ER|]. clear E. apply andb_prop in H2. destruct H2 as [H2 H3]. apply Z.eqb_eq in H2. split; [exact H2|].
  split; [destruct (r_dataset R); [reflexivity|discriminate H3]|exact E2].
Qed.

Lemma shared_forest_run : exists w xs R,
  run example_platform (start_world shared []) (shared_calls "RandomForest,explore=RoundRobin") = Ok (w, xs) /\
  nth_error (w_regions w) 0 = Some R /\ r_num_policies R = 2 /\ r_dataset R = [] /\
  step example_platform w (OpGetPolicy 0 (Some s0) fair_draws) = Abort.
Proof.
  destruct (run_holds example_platform (start_world shared []) (shared_calls "RandomForest,explore=RoundRobin")
    (fun s => match step example_platform (fst s) (OpGetPolicy 0 (Some s0) fair_draws) with
      | Abort => region_b (fst s) 0 (fun R => (r_num_policies R =? 2) && match r_dataset R with [] => true | _ => false end)
      | _ => false end)) as (w & xs & E & H); [vm_compute; reflexivity|].
  cbn [fst] in H. destruct (step example_platform w (OpGetPolicy 0 (Some s0) fair_draws)) as [[w' k]| | | |] eqn:E2; try discriminate H.
  apply region_b_true in H. destruct H as (R & ER & H2).
  exists w, xs, R. split; [exact E|]. split; [exact ER|]. clear E. apply andb_prop in H2. destruct H2 as [H2 H3]. apply Z.eqb_eq in H2. split; [exact H2|].
  split; [destruct (r_dataset R); [reflexivity|discriminate H3]|exact E2].
Qed.
