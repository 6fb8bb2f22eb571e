(** Start-up of the runtime. *)
From Coq Require Import List ZArith Bool Ascii String Lia.
From Coq Require Import ZifyBool.
From Flocq Require Import BinarySingleNaN.
From Verif Require Import Model.Base Model.Float Model.Decimal Model.ConfigM Spec.StartupSpec Proofs.TreeFacts Proofs.TreeJitFacts.
Import ListNotations.
Open Scope Z_scope.

Lemma env_int_iff env name d n z : stoi d = Ok (n, []) -> (env_int env name d = Ok z <-> int_setting env name n z).
Proof.
  intros D. unfold env_int, get_env, int_setting. destruct (env name) as [t|].
  - destruct (stoi t) as [[y r]| | | |]; cbn [bind].
    + split; [intros E; injection E as ->; eauto|intros (rest & E); congruence].
    + split; [discriminate|intros (rest & E); discriminate].
    + split; [discriminate|intros (rest & E); discriminate].
    + split; [discriminate|intros (rest & E); discriminate].
    + split; [discriminate|intros (rest & E); discriminate].
  - rewrite D. cbn [bind]. split; [intros E; now injection E|now intros ->].
Qed.
Lemma stoi_throws s : (exists x, stoi s = Ok x) \/ stoi s = Throw.
Proof.
  unfold stoi. destruct (take_sign (drop_space s)) as [neg s1]. destruct (span_digits s1) as [ds rest].
  destruct ds; [now right|]. destruct (_ && _); [left; eexists; reflexivity|now right].
Qed.
Lemma env_int_throws env name d : (exists x, env_int env name d = Ok x) \/ env_int env name d = Throw.
Proof.
  unfold env_int. destruct (stoi_throws (get_env env name d)) as [[[x r] E]|E]; rewrite E; [left; eexists|right]; reflexivity.
Qed.
Lemma env_float_iff env name d n z : stof d = Ok (n, []) -> (env_float env name d = Ok z <-> float_setting env name n z).
Proof.
  intros D. unfold env_float, get_env, float_setting. destruct (env name) as [t|].
  - generalize (stof t). intros o. destruct o as [[y r]| | | |]; cbn [bind].
    + split; [intros E; injection E as ->; eauto|intros (rest & E); congruence].
    + split; [discriminate|intros (rest & E); discriminate].
    + split; [discriminate|intros (rest & E); discriminate].
    + split; [discriminate|intros (rest & E); discriminate].
    + split; [discriminate|intros (rest & E); discriminate].
  - rewrite D. cbn [bind]. split; [intros E; now injection E|now intros ->].
Qed.
Lemma two_text : stof ($"2.0") = Ok (f32_of_Z 2, []).
Proof. apply stof_is. vm_compute. reflexivity. Qed.
Lemma half_text : stof ($"0.5") = Ok (half32, []).
Proof. apply stof_is. vm_compute. reflexivity. Qed.

Lemma stoX_throws prec emax Hp He s : (exists x, stoX prec emax Hp He s = Ok x) \/ stoX prec emax Hp He s = Throw.
Proof.
  unfold stoX. destruct (lex_num s) as [[t rest]|]; [|now right].
  assert (V : forall neg n d, (exists x, value_ratio prec emax Hp He neg n d = Ok x) \/
    value_ratio prec emax Hp He neg n d = Throw).
  { intros neg n d. unfold value_ratio. generalize (ratio_float prec emax Hp He neg n d). intros x.
    destruct x; try (now right); destruct (_ && _); (now right) || (left; eexists; reflexivity). }
  assert (W : (exists x, value_of prec emax Hp He t = Ok x) \/ value_of prec emax Hp He t = Throw).
  { destruct t as [neg mant exp|neg mant exp|neg|]; cbn [value_of]; try (left; eexists; reflexivity);
      destruct mant; try (left; eexists; reflexivity); destruct (ratio_of_dec _ _ _); apply V. }
  destruct W as [[x E]|E]; rewrite E; [left; eexists; reflexivity|now right].
Qed.
Lemma stof_throws s : (exists x, stof s = Ok x) \/ stof s = Throw.
Proof. apply stoX_throws. Qed.
Lemma env_float_throws env name d : (exists x, env_float env name d = Ok x) \/ env_float env name d = Throw.
Proof.
  unfold env_float. destruct (stof_throws (get_env env name d)) as [[[x r] E]|E]; rewrite E; [left; eexists|right]; reflexivity.
Qed.

Lemma text_iff env name d v : v = get_env env name d <-> text_setting env name d v.
Proof. unfold get_env, text_setting. destruct (env name); tauto. Qed.

Lemma bind_throws {A B} (o : outcome A) (k : A -> outcome B) :
  ((exists x, o = Ok x) \/ o = Throw) -> (forall x, (exists y, k x = Ok y) \/ k x = Throw) ->
  (exists y, bind o k = Ok y) \/ bind o k = Throw.
Proof. intros [[x ->]| ->] H; cbn; [apply H|now right]. Qed.

Lemma read_config_throws env : (exists c, read_config env = Ok c) \/ read_config env = Throw.
Proof.
  unfold read_config.
  repeat (apply bind_throws; [apply env_int_throws || apply env_float_throws|intros ?]).
  left. eexists. reflexivity.
Qed.

Ltac int_done := match goal with H : env_int ?e ?n ?d = Ok ?z |- int_setting ?e ?n _ ?z =>
    exact (proj1 (env_int_iff e n d _ z eq_refl) H) end.
Ltac back := match goal with
  | H : int_setting ?e ?n ?v ?z |- context [env_int ?e ?n ?d] =>
      rewrite (proj2 (env_int_iff e n d v z eq_refl) H); cbn [bind]
  end.

Lemma read_config_iff env c : read_config env = Ok c <-> settings_from env c.
Proof.
  split.
  - unfold read_config. intros H.
    repeat (match type of H with bind _ _ = Ok _ => apply bind_inv in H as (? & ? & H) end).
    injection H as <-. unfold settings_from. cbn [cf_policy_model cf_collective cf_local cf_single_model cf_region_model
      cf_global_period cf_region_period cf_trace_policy cf_store_models cf_trace_retrain cf_trace_allgather cf_trace_best
      cf_retrain cf_retrain_time cf_retrain_region cf_trace_csv cf_persistent cf_exec_info cf_output_dir cf_datasets_dir
      cf_traces_dir cf_models_dir].
    repeat match goal with |- _ /\ _ => split end;
      try int_done; try (apply text_iff; reflexivity).
    + eapply env_float_iff; [exact two_text|eassumption].
    + eapply env_float_iff; [exact half_text|eassumption].
  - intros H. destruct c as [a0 a1 a2 a3 a4 a5 a6 a7 a8 a9 a10 a11 a12 a13 a14 a15 a16 a17 a18 a19 a20 a21]. unfold settings_from in H. cbn [cf_policy_model cf_collective cf_local cf_single_model cf_region_model
      cf_global_period cf_region_period cf_trace_policy cf_store_models cf_trace_retrain cf_trace_allgather cf_trace_best
      cf_retrain cf_retrain_time cf_retrain_region cf_trace_csv cf_persistent cf_exec_info cf_output_dir cf_datasets_dir
      cf_traces_dir cf_models_dir] in H.
    destruct H as (T1 & H1 & H2 & H3 & H4 & H5 & H6 & H7 & H8 & H9 & H10 & H11 & H12 & F1 & F2 & H13 & H14 & H15 & T2 & T3 & T4 & T5).
    unfold read_config. do 12 back.
    rewrite (proj2 (env_float_iff env _ _ _ _ two_text) F1). cbn [bind].
    rewrite (proj2 (env_float_iff env _ _ _ _ half_text) F2). cbn [bind].
    do 3 back.
    rewrite <- (proj2 (text_iff _ _ _ _) T1), <- (proj2 (text_iff _ _ _ _) T2), <- (proj2 (text_iff _ _ _ _) T3),
      <- (proj2 (text_iff _ _ _ _) T4), <- (proj2 (text_iff _ _ _ _) T5). reflexivity.
Qed.

Lemma truthy_true z : truthy z = true <-> z <> 0.
Proof. unfold truthy. lia. Qed.
Lemma truthy_false z : truthy z = false <-> z = 0.
Proof. unfold truthy. lia. Qed.

Lemma check_config_iff mpi c : check_config mpi c = Ok tt <-> consistent_settings mpi c.
Proof.
  unfold check_config, consistent_settings, one_of, truthy. destruct mpi;
    repeat match goal with |- context [if ?b then _ else _] => destruct b eqn:?; [split; [discriminate|intuition lia]|] end;
    (split; [intros _; intuition lia|reflexivity]).
Qed.
Lemma check_config_aborts mpi c : check_config mpi c = Ok tt \/ check_config mpi c = Abort.
Proof. unfold check_config. repeat match goal with |- context [if ?b then _ else _] => destruct b end; auto. Qed.

Lemma create_dir_iff mkdir d : create_dir mkdir d = Ok tt <-> mkdir d = true.
Proof. unfold create_dir. destruct (mkdir d); split; congruence. Qed.
Lemma create_dir_throws mkdir d : create_dir mkdir d = Ok tt \/ create_dir mkdir d = Throw.
Proof. unfold create_dir. destruct (mkdir d); auto. Qed.

Lemma startup_iff mpi env mkdir open_trace c : apollo_instance mpi env mkdir open_trace = Ok c <->
  settings_from env c /\ consistent_settings mpi c /\ directories_made c mkdir open_trace.
Proof.
  rewrite <- read_config_iff, <- check_config_iff. unfold apollo_instance, apollo_ctor, directories_made, in_dir.
  destruct (read_config env) as [c'| | | |]; cbn [bind];
    try (split; [discriminate|intros (E & _); discriminate]).
  split.
  - intros H.
    assert (G : (let* _ := check_config mpi c' in
      let* _ := create_dir mkdir (cf_output_dir c') in
      let* _ := if truthy (cf_persistent c') then create_dir mkdir (cf_output_dir c' ++ $"/" ++ cf_datasets_dir c')%list else Ok tt in
      let* _ := if truthy (cf_trace_csv c') then create_dir mkdir (cf_output_dir c' ++ $"/" ++ cf_traces_dir c')%list else Ok tt in
      let* _ := if truthy (cf_store_models c') then create_dir mkdir (cf_output_dir c' ++ $"/" ++ cf_models_dir c')%list else Ok tt in
      if truthy (cf_trace_csv c') && negb open_trace then Abort else Ok c') = Ok c).
    { match type of H with match ?o with _ => _ end = _ => destruct o; congruence end. }
    clear H. repeat (match type of G with bind _ _ = Ok _ => apply bind_inv in G as ([] & ? & G) end).
    destruct (truthy (cf_trace_csv c') && negb open_trace) eqn:O; [discriminate|]. injection G as <-.
    repeat split; auto.
    + now apply create_dir_iff.
    + intros N. apply truthy_true in N. rewrite N in *. now apply create_dir_iff.
    + apply truthy_true in H4. rewrite H4 in *. now apply create_dir_iff.
    + apply truthy_true in H4. rewrite H4 in O. now destruct open_trace.
    + intros N. apply truthy_true in N. rewrite N in *. now apply create_dir_iff.
  - intros (E & K & D0 & D1 & D2 & D3). injection E as ->. rewrite K. cbn [bind].
    apply create_dir_iff in D0. rewrite D0. cbn [bind].
    destruct (truthy (cf_persistent c)) eqn:T1; [apply truthy_true, D1, create_dir_iff in T1; rewrite T1|]; cbn [bind];
    (destruct (truthy (cf_trace_csv c)) eqn:T2; [apply truthy_true, D2 in T2 as [T2 ->]; apply create_dir_iff in T2; rewrite T2|]; cbn [bind]);
    (destruct (truthy (cf_store_models c)) eqn:T3; [apply truthy_true, D3, create_dir_iff in T3; rewrite T3|]; reflexivity).
Qed.

Lemma startup_or_stop mpi env mkdir open_trace :
  (exists c, apollo_instance mpi env mkdir open_trace = Ok c) \/ apollo_instance mpi env mkdir open_trace = Abort.
Proof.
  unfold apollo_instance, apollo_ctor.
  destruct (read_config_throws env) as [[c ->]| ->]; cbn [bind]; [|now right].
  destruct (check_config_aborts mpi c) as [-> | ->]; cbn [bind]; [|now right].
  destruct (create_dir_throws mkdir (cf_output_dir c)) as [-> | ->]; cbn [bind]; [|now right].
  assert (G : forall b d, (if truthy b then create_dir mkdir d else Ok tt) = Ok tt \/ (if truthy b then create_dir mkdir d else Ok tt) = Throw).
  { intros b d. destruct (truthy b); [apply create_dir_throws|now left]. }
  destruct (G (cf_persistent c) (in_dir (cf_output_dir c) (cf_datasets_dir c))) as [-> | ->]; cbn [bind]; [|now right].
  destruct (G (cf_trace_csv c) (in_dir (cf_output_dir c) (cf_traces_dir c))) as [-> | ->]; cbn [bind]; [|now right].
  destruct (G (cf_store_models c) (in_dir (cf_output_dir c) (cf_models_dir c))) as [-> | ->]; cbn [bind]; [|now right].
  destruct (_ && _); [now right|left; eexists; reflexivity].
Qed.

(** An environment with a few variables set. *)
Definition example_env (name : bytes) : option bytes :=
  if bytes_eqb name ($"APOLLO_GLOBAL_TRAIN_PERIOD") then Some ($"100")
  else if bytes_eqb name ($"APOLLO_LOCAL_TRAINING") then Some ($" 2x")
  else if bytes_eqb name ($"APOLLO_OUTPUT_DIR") then Some ($"/tmp/a") else None.

Lemma startup_example : exists c,
  apollo_instance false example_env (fun d => bytes_eqb d ($"/tmp/a")) false = Ok c /\
  cf_global_period c = 100 /\ cf_local c = 2 /\ cf_output_dir c = $"/tmp/a" /\ cf_policy_model c = $"Static,policy=0".
Proof.
  destruct (startup_or_stop false example_env (fun d => bytes_eqb d ($"/tmp/a")) false) as [[c E]|E].
  - exists c. split; [exact E|]. apply startup_iff in E as (Q & _). unfold settings_from in Q.
    assert (O : text_setting example_env ($"APOLLO_OUTPUT_DIR") ($".apollo") (cf_output_dir c)) by apply Q.
    destruct Q as (T & _ & (r & L) & _ & _ & (r' & G) & _).
    cbn in T, O. vm_compute in L, G. injection L as L _. injection G as G _. repeat split; auto.
  - exfalso. revert E. unfold apollo_instance, apollo_ctor, read_config, env_int, env_float. cbn [get_env].
    change (get_env example_env ($"APOLLO_RETRAIN_TIME_THRESHOLD") ($"2.0")) with ($"2.0").
    change (get_env example_env ($"APOLLO_RETRAIN_REGION_THRESHOLD") ($"0.5")) with ($"0.5").
    rewrite two_text, half_text. discriminate.
Qed.
