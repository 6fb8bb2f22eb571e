(** Concrete runs used beside C116 and C117. *)
From Coq Require Import ZArith Bool Ascii String Lia List Sorted.
From Verif Require Import Model.Base Model.Float Model.DatasetM Model.DatasetIO Model.TreeM Model.ForestM Model.ModelStringM Model.PolicyModelsM Model.ConfigM Model.RuntimeM
  Spec.DecimalSpec Spec.DatasetFileSpec Spec.TreeSpec Spec.TreeFileSpec Spec.ForestSpec Spec.StartupSpec Spec.RuntimeSpec Proofs.TreeFacts Proofs.ForestFacts Proofs.RuntimeExamples Proofs.RuntimePolicyExamples Proofs.RuntimePersistExamples
  Proofs.ForestLearnExamples Proofs.RuntimeFacts Proofs.RuntimeTraining.
Import ListNotations.
Open Scope Z_scope.

(** ** Kept data *)

Definition kept_files : list (bytes * bytes) :=
  match run example_platform (start_world keeping []) (keep_calls ++ [OpShutdown quiet_waits]) with Ok (w, _) => w_files w | _ => [] end.
Definition later_region (min_training : Z) : op := make "a" 2 min_training "DecisionTree,explore=RoundRobin".
Definition created_b (c : config) (o : op) (check : region -> bool) : bool :=
  match step example_platform (start_world c kept_files) o with Ok (w2, GotRegion 0) => region_b w2 0 check | _ => false end.

Lemma kept_creations :
  created_b (settings "Static,policy=0" 0 0 1) (later_region 2) (fun R => negb (m_trainable (r_model R)) && (ds_size (r_dataset R) =? 2)) &&
  created_b (settings "Static,policy=0" 0 0 1) (later_region 3) (fun R => m_trainable (r_model R) && (ds_size (r_dataset R) =? 2)) &&
  created_b (settings "Static,policy=0" 0 5 1) (later_region 0) (fun R => negb (m_trainable (r_model R)) && (ds_size (r_dataset R) =? 2)) &&
  created_b (settings "Static,policy=0" 10 0 1) (later_region 2) (fun R => m_trainable (r_model R) && (ds_size (r_dataset R) =? 2)) &&
  created_b (settings "Static,policy=0" 0 0 0) (make "a" 2 100 "DecisionTree,explore=RoundRobin,load-dataset") (fun R => negb (m_trainable (r_model R)) && (ds_size (r_dataset R) =? 2)) = true.
Proof. vm_compute. reflexivity. Qed.

Lemma kept_hypotheses : exists text d rest, file_find (dataset_file (settings "Static,policy=0" 10 0 1) (region_name ($"a"))) kept_files = Some text /\ ds_load [] text = Ok (d, rest) /\ ds_size d = 2 /\
  global_due (settings "Static,policy=0" 10 0 1) (w_executions (start_world (settings "Static,policy=0" 10 0 1) kept_files)).
Proof.
  assert (X : match file_find (dataset_file (settings "Static,policy=0" 10 0 1) (region_name ($"a"))) kept_files with
    | Some text => match ds_load [] text with Ok (d, _) => ds_size d =? 2 | _ => false end | None => false end = true) by (vm_compute; reflexivity).
  destruct (file_find _ kept_files) as [text|] eqn:E1; [|discriminate X]. exists text. destruct (ds_load [] text) as [[d rest]| | | |] eqn:E2; try discriminate X.
  exists d, rest. split; [reflexivity|]. split; [reflexivity|]. split; [apply Z.eqb_eq; exact X|]. split; [discriminate|apply Z.divide_0_r].
Qed.

(** ** Training twice *)

Fixpoint writable_tree_b (k : nat) (t : tree) : bool :=
  match t with
  | Null => true
  | Node g n c f thr l r counts =>
      normal_b [g; thr] && (0 <=? n) && (n <? 2 ^ 64) && int_b c && int_b f && Nat.eqb (List.length counts) k &&
      forallb (fun x => (0 <=? x) && (x <? 2 ^ 64)) counts && writable_tree_b k l && writable_tree_b k r
  end.
Lemma writable_tree_true k t : writable_tree_b k t = true -> writable_tree k t.
Proof.
  induction t as [|g n c f thr l IHl r IHr counts]; cbn [writable_tree_b writable_tree]; [auto|]. intros H. do 8 (apply andb_prop in H; let K := fresh "K" in destruct H as [H K]).
  apply normal_list_b in H. inversion H as [|? ? N1 H']; subst. inversion H' as [|? ? N2 _]; subst. apply int_b_true in K4, K3. apply Z.leb_le in K6. apply Z.ltb_lt in K5. apply Nat.eqb_eq in K2.
  repeat split; auto; try apply K4; try apply K3. apply Forall_forall. intros x I. rewrite forallb_forall in K1. specialize (K1 x I). lia.
Qed.
Fixpoint increasing_b (l : list Z) : bool := match l with [] => true | x :: r => forallb (Z.ltb x) r && increasing_b r end.
Lemma increasing_true l : increasing_b l = true -> StronglySorted Z.lt l.
Proof.
  induction l as [|x l IH]; cbn; [constructor|]. intros H. apply andb_prop in H as [A B]. constructor; auto. apply Forall_forall. intros y I. rewrite forallb_forall in A. apply Z.ltb_lt. auto.
Qed.
Definition writable_b (t : dtree) : bool :=
  (0 <=? t_max_depth t) && (t_max_depth t <? 2 ^ 32) && (0 <=? t_num_features t) && (t_num_features t <? 2 ^ 32) && increasing_b (t_classes t) && forallb int_b (t_classes t) &&
  match t_root t with Null => false | _ => true end && writable_tree_b (List.length (t_classes t)) (t_root t) && (Z.of_nat (List.length (t_data t)) <? 2 ^ 64) &&
  forallb (fun s => normal_b (fst s) && int_b (snd s)) (t_data t).
Lemma writable_true t : writable_b t = true -> writable t.
Proof.
  unfold writable_b. intros H. do 9 (apply andb_prop in H; let K := fresh "K" in destruct H as [H K]).
  apply Z.leb_le in H, K6. apply Z.ltb_lt in K7, K5, K0. apply increasing_true in K4. apply writable_tree_true in K1. rewrite forallb_forall in K3, K.
  constructor; auto.
  - apply Forall_forall. intros x I. apply int_b_true. auto.
  - destruct (t_root t); [discriminate K2|discriminate].
  - apply Forall_forall. intros s I. specialize (K s I). apply andb_prop in K as [A B]. split; [apply normal_list_b; exact A|apply int_b_true; exact B].
Qed.
Definition writable_forest_b (f : forest) : bool :=
  (0 <=? f_num_classes f) && (f_num_classes f <? 2 ^ 31) && (0 <=? f_num_trees f) && (f_num_trees f <? 2 ^ 32) && (0 <=? f_max_depth f) && (f_max_depth f <? 2 ^ 32) && forallb writable_b (f_trees f).
Lemma writable_forest_true f : writable_forest_b f = true -> writable_forest f.
Proof.
  unfold writable_forest_b. intros H. do 6 (apply andb_prop in H; let K := fresh "K" in destruct H as [H K]). apply Z.leb_le in H, K3, K1. apply Z.ltb_lt in K4, K2, K0. rewrite forallb_forall in K.
  constructor; auto. apply Forall_forall. intros t I. apply writable_true. auto.
Qed.

(** An execution on a device has ended and has not been collected; one measurement is asked for. *)
Definition twice_text : string := "RandomForest,explore=RoundRobin,num_trees=2".
Definition pending_forest : list op :=
  [make "r" 2 1 twice_text; start_async 0; give a0 3; ask_policy a0; finish a0 5; OpComplete a0 (f32_of_Z 2000)].

Definition twice_b (w w1 w' : world) : bool :=
  region_b w 0 (fun R => match r_model R with MForest _ true _ _ => true | _ => false end) &&
  region_b w1 0 (fun R => (0 <? ds_size (r_dataset R)) && match r_model R with MForest _ false f _ => Nat.eqb (List.length (f_trees f)) 2 && (f_num_trees f =? 2) | _ => false end) &&
  region_b w' 0 (fun R => match r_model R with MForest _ false f _ => Nat.eqb (List.length (f_trees f)) 4 && writable_forest_b f | _ => false end) &&
  match step forest_platform (start_world storing (w_files w')) (make "r" 2 1 "RandomForest,explore=RoundRobin,load") with Abort => true | _ => false end.

Lemma twice_run : exists w xs R n f e w1 R1 n1 f1 e1 w' R' f2,
  run forest_platform (start_world storing []) pending_forest = Ok (w, xs) /\
  nth_error (w_regions w) 0 = Some R /\ r_model R = MForest n true f e /\
  step forest_platform w (OpCollect 0) = Ok (w1, Done) /\ nth_error (w_regions w1) 0 = Some R1 /\ r_model R1 = MForest n1 false f1 e1 /\ 0 < ds_size (r_dataset R1) /\
  List.length (f_trees f1) = 2%nat /\ f_num_trees f1 = 2 /\
  step forest_platform w (OpTrain 0 0 true false) = Ok (w', Done) /\ nth_error (w_regions w') 0 = Some R' /\ r_model R' = MForest n1 false f2 e1 /\ List.length (f_trees f2) = 4%nat /\ writable_forest f2 /\
  step forest_platform (start_world storing (w_files w')) (make "r" 2 1 "RandomForest,explore=RoundRobin,load") = Abort.
Proof.
  destruct (run_holds forest_platform (start_world storing []) pending_forest
    (fun s => match step forest_platform (fst s) (OpCollect 0), step forest_platform (fst s) (OpTrain 0 0 true false) with
      | Ok (w1, Done), Ok (w', Done) => twice_b (fst s) w1 w' | _, _ => false end)) as (w & xs & E & H); [vm_compute; reflexivity|].
  cbn [fst] in H. destruct (step forest_platform w (OpCollect 0)) as [[w1 [| | |]]| | | |] eqn:E1; try discriminate H.
  destruct (step forest_platform w (OpTrain 0 0 true false)) as [[w' [| | |]]| | | |] eqn:E2; try discriminate H.
  unfold twice_b in H. apply andb_prop in H as [H K4]. apply andb_prop in H as [H K3]. apply andb_prop in H as [K1 K2].
  apply region_b_true in K1 as (R & ER & K1), K2 as (R1 & ER1 & K2), K3 as (R' & ER' & K3). apply andb_prop in K2 as [SZ K2]. apply Z.ltb_lt in SZ.
  destruct (r_model R) as [| | | | | |n [|] f e|] eqn:EM; try discriminate K1. destruct (r_model R1) as [| | | | | |n1 [|] f1 e1|] eqn:EM1; try discriminate K2.
  destruct (r_model R') as [| | | | | |n2 [|] f2 e2|] eqn:EM2; try discriminate K3. apply andb_prop in K2 as [L1 N1]. apply andb_prop in K3 as [L2 W]. apply Nat.eqb_eq in L1, L2. apply Z.eqb_eq in N1.
  apply writable_forest_true in W. destruct (step forest_platform (start_world storing (w_files w')) _) as [| | | |] eqn:E3; try discriminate K4.
  assert (X : n2 = n1 /\ e2 = e1).
  { clear E E3 K4 W. cbn [step] in E1, E2. apply TreeFacts.bind_inv in E1 as (v1 & E1 & EQ). injection EQ as <-. apply TreeFacts.bind_inv in E2 as (v2 & E2 & EQ). injection EQ as <-.
    unfold region_train in E2. apply TreeFacts.bind_inv in E2 as (R0 & G0 & E2). apply RuntimeFacts.get_region_ok in G0 as [G0 _]. rewrite ER in G0. injection G0 as <-. rewrite EM in E2. cbn [m_trainable negb andb] in E2.
    rewrite E1 in E2. cbn [bind] in E2. destruct (RuntimeTraining.train_body_exact _ _ _ _ _ E2) as (_ & _ & X). destruct (X _ _ ER1) as (m & E4 & T). rewrite Nat.eqb_refl in T. rewrite E4 in ER'. injection ER' as <-.
    cbn in EM2. subst m. destruct T as [T _]. specialize (T SZ). rewrite EM1 in T. cbn [m_train] in T. destruct (ds_find_min _ _ _) as [[fs rs] best]. apply TreeFacts.bind_inv in T as (f3 & _ & T). injection T as -> _ ->. auto. }
  destruct X as [-> ->].
  exists w, xs, R, n, f, e, w1, R1, n1, f1, e1, w', R', f2. repeat (split; [first [exact E|assumption|reflexivity]|]). first [exact E3|reflexivity].
Qed.

Lemma pending_no_load : forall os1 o os2 w1 xs1, pending_forest = os1 ++ o :: os2 -> run forest_platform (start_world storing []) os1 = Ok (w1, xs1) -> no_load w1 o.
Proof.
  change pending_forest with (make "r" 2 1 twice_text :: tl pending_forest).
  apply no_load_run; [|reflexivity]. split; [reflexivity|]. split; [left; reflexivity|]. intros name ps E.
  assert (X : name = $"RandomForest" /\ param_find ($"load") ps = None /\ param_find ($"load-dataset") ps = None) by (vm_compute in E; inversion E; repeat split; reflexivity).
  destruct X as (-> & X1 & X2). split; [discriminate|]. split; [discriminate|]. split; assumption.
Qed.
