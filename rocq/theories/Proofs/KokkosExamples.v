(** Concrete runs for Props/Kokkos.v. *)
From Coq Require Import ZArith Bool Ascii String Reals Lra Lia List.
From Flocq Require Import Core BinarySingleNaN.
From Verif Require Import Model.Base Model.Float Model.Decimal Model.DatasetM Model.TreeM Model.ForestM Model.NetM Model.PolicyNetM
  Model.ModelStringM Model.PolicyModelsM Model.ConfigM Model.RuntimeM Model.KokkosM
  Spec.DatasetSpec Spec.PolicyModelsSpec Spec.StartupSpec Spec.RuntimeSpec Spec.KokkosSpec Proofs.TreeFacts Proofs.ModelStringFacts Proofs.RuntimeExamples Proofs.RuntimePolicyExamples
  Proofs.FloatConv Proofs.KokkosRuns Proofs.KokkosDoubles.
Import ListNotations.
Open Scope Z_scope.

(** The settings after kokkosp_parse_args and kokkosp_init_library; the connector's run without its options. *)
Definition kokkos_settings (model : string) : config :=
  mkConfig ($model) 0 1 0 1 0 0 0 1 0 0 1 0 one32 half32 0 0 0 ($".apollo") ($"datasets") ($"traces") ($"models").
Definition forest_settings : config := kokkos_settings "RandomForest,explore=RoundRobin".
Definition default_settings : config := kokkos_settings "Static,policy=0".
Definition example_hash (s : bytes) : Z := 2 ^ 40.

Lemma krun_holds c files flush os (q : kokkos * list (list value) -> bool) :
  match krun example_platform example_hash (started c files flush) os with Ok a => q a | _ => false end = true ->
  exists K vss, krun example_platform example_hash (started c files flush) os = Ok (K, vss) /\ q (K, vss) = true.
Proof. destruct (krun _ _ _ os) as [[K vss]| | | |]; try discriminate. eauto. Qed.

(** Values that are integers. *)
Definition value_is (v : value) (z : Z) : bool := match v with VInt y => y =? z | _ => false end.
Fixpoint values_are (vs : list value) (zs : list Z) : bool :=
  match vs, zs with [], [] => true | v :: vs', z :: zs' => value_is v z && values_are vs' zs' | _, _ => false end.
Lemma values_are_true vs : forall zs, values_are vs zs = true -> vs = map VInt zs.
Proof.
  induction vs as [|v vs IH]; intros [|z zs] H; try discriminate; [reflexivity|]. cbn in H. apply andb_prop in H. destruct H as [A B]. destruct v; try discriminate A.
  apply Z.eqb_eq in A. subst. cbn. f_equal. auto.
Qed.
Fixpoint all_values_are (vss : list (list value)) (zss : list (list Z)) : bool :=
  match vss, zss with [], [] => true | vs :: vss', zs :: zss' => values_are vs zs && all_values_are vss' zss' | _, _ => false end.
Lemma all_values_are_true vss : forall zss, all_values_are vss zss = true -> vss = map (map VInt) zss.
Proof.
  induction vss as [|v vss IH]; intros [|z zss] H; try discriminate; [reflexivity|]. cbn in H. apply andb_prop in H. destruct H as [A B].
  apply values_are_true in A. subst. cbn. f_equal. auto.
Qed.

(** ** A kernel with a tile size and an unrolling factor *)

Definition declare_n : kop := KInput ($"n") 1.
Definition declare_tile : kop := KOutput ($"tile") 2 (CSet [VInt 8; VInt 16; VInt 32]).
Definition declare_unroll : kop := KOutput ($"unroll") 3 (CSet [VInt 1; VInt 2]).
Definition declarations : list kop := [declare_n; declare_tile; declare_unroll].
Definition ask_kernel (context : Z) (v : value) (t : Z) : kop := KRequest context [(1, v)] [2; 3] (t, 0) fair_draws no_init.
Definition end_kernel (context t : Z) : kop := KEnd context (t, 0).

Definition tile : variable := mkVariable (Some ($"tile")) 3 [VInt 8; VInt 16; VInt 32].
Definition unroll : variable := mkVariable (Some ($"unroll")) 2 [VInt 1; VInt 2].
Lemma complete_kernel : Forall complete_variable [tile; unroll].
Proof. repeat constructor. Qed.

(** Three requests; the third context is open. *)
Definition kernel_calls : list kop :=
  declarations ++ [ask_kernel 10 (VInt 5) 0; end_kernel 10 1; ask_kernel 11 (VInt 5) 2; end_kernel 11 5; ask_kernel 12 (VInt 6) 6].

Lemma kernel_declared : all_declared kernel_calls [2; 3] [tile; unroll].
Proof. repeat constructor. Qed.
Lemma kernel_problems : problems kernel_calls = [[1; 2; 3]].
Proof. reflexivity. Qed.
Lemma kernel_orderly : orderly kernel_calls.
Proof.
  split; [repeat constructor; cbn; intuition discriminate|]. intros context cs tuning now D init IN. cbn in IN.
  repeat (destruct IN as [IN|IN]; [inversion IN; subst; cbn; split; intros id [<-|IN']; auto; destruct IN' as [<-|[]]; auto|]). destruct IN.
Qed.
Lemma kernel_fair : Forall fair_request kernel_calls.
Proof. repeat (apply Forall_cons; [first [exact Logic.I | exact fair_draws_ok]|]). apply Forall_nil. Qed.
Lemma forest_fresh : starts_fresh forest_settings.
Proof.
  split; [reflexivity|]. split; [reflexivity|]. intros name ps H.
  assert (X : parse_policy_model (cf_policy_model forest_settings) = Ok ($"RandomForest", [($"explore", $"RoundRobin")])) by reflexivity.
  rewrite X in H. injection H as <- <-. repeat split; discriminate.
Qed.

Lemma kernel_run : exists K vss, krun example_platform example_hash (started forest_settings [] 3) kernel_calls = Ok (K, vss) /\
  vss = map (map VInt) [[]; []; []; [8; 1]; []; [16; 1]; []; [32; 1]] /\
  exists R, nth_error (w_regions (k_world K)) 0 = Some R /\ r_name R = $"n_tile_unroll.yaml" /\ m_trainable (r_model R) = true /\ m_name (r_model R) = $"RandomForest" /\
    ds_size (r_dataset R) = 2 /\ List.length (w_regions (k_world K)) = 1%nat.
Proof.
  destruct (krun_holds forest_settings [] 3 kernel_calls (fun s => all_values_are (snd s) [[]; []; []; [8; 1]; []; [16; 1]; []; [32; 1]] &&
    region_b (k_world (fst s)) 0 (fun R => bytes_eqb (r_name R) ($"n_tile_unroll.yaml") && m_trainable (r_model R) && bytes_eqb (m_name (r_model R)) ($"RandomForest") &&
      (ds_size (r_dataset R) =? 2)) && Nat.eqb (List.length (w_regions (k_world (fst s)))) 1)) as (K & vss & E & H); [vm_compute; reflexivity|].
  exists K, vss. split; [exact E|]. clear E. cbn [fst snd] in H. do 2 (apply andb_prop in H; let A := fresh "A" in destruct H as [H A]). apply all_values_are_true in H. split; [exact H|].
  apply region_b_true in A0. destruct A0 as (R & ER & B). exists R. split; [exact ER|]. do 3 (apply andb_prop in B; let C := fresh "C" in destruct B as [B C]).
  apply bytes_eqb_eq in B, C0. apply Z.eqb_eq in C. apply Nat.eqb_eq in A. auto.
Qed.

(** ** A flush *)

Definition kernel_name : bytes := $"n_tile_unroll.yaml".
Definition found (path : bytes) (files : list (bytes * bytes)) : bool := match file_find path files with Some _ => true | None => false end.

Lemma flush_run : exists K vss K' R R', krun example_platform example_hash (started forest_settings [] 3) kernel_calls = Ok (K, vss) /\
  kstep example_platform example_hash K (end_kernel 12 9) = Ok (K', []) /\ flushes 3 kernel_calls (end_kernel 12 9) /\
  nth_error (w_regions (k_world K)) 0 = Some R /\ first_named (region_names (k_world K)) (r_name R) 0 /\ m_trainable (r_model R) = true /\
  m_name (r_model R) = $"RandomForest" /\ r_name R = kernel_name /\
  nth_error (w_regions (k_world K')) 0 = Some R' /\ ds_size (r_dataset R') = 3 /\ m_trainable (r_model R') = false /\
  file_find (stored_model_file kernel_name) (w_files (k_world K')) <> None.
Proof.
  destruct (krun_holds forest_settings [] 3 kernel_calls (fun s => match kstep example_platform example_hash (fst s) (end_kernel 12 9) with
    | Ok (K', vs) => values_are vs [] && region_b (k_world (fst s)) 0 (fun R => bytes_eqb (r_name R) kernel_name && m_trainable (r_model R) && bytes_eqb (m_name (r_model R)) ($"RandomForest")) &&
        region_b (k_world K') 0 (fun R => (ds_size (r_dataset R) =? 3) && negb (m_trainable (r_model R))) && found (stored_model_file kernel_name) (w_files (k_world K'))
    | _ => false end)) as (K & vss & E & H); [vm_compute; reflexivity|].
  cbn [fst snd] in H. destruct (kstep example_platform example_hash K (end_kernel 12 9)) as [[K' vs]| | | |] eqn:E2; try discriminate H.
  do 3 (apply andb_prop in H; let A := fresh "A" in destruct H as [H A]). apply values_are_true in H. subst vs.
  apply region_b_true in A0, A1. destruct A0 as (R' & ER' & B). destruct A1 as (R & ER & C). exists K, vss, K', R, R'. split; [exact E|]. split; [exact E2|]. clear E E2.
  do 2 (apply andb_prop in C; let X := fresh "X" in destruct C as [C X]). apply andb_prop in B. destruct B as [B1 B2]. apply bytes_eqb_eq in C, X.
  split; [split; [discriminate|reflexivity]|]. split; [exact ER|]. split.
  - split; [unfold region_names; rewrite nth_error_map, ER; reflexivity|]. intros j Hj. lia.
  - split; [exact X0|]. split; [exact X|]. split; [exact C|]. split; [exact ER'|]. split; [apply Z.eqb_eq; exact B1|]. split; [apply negb_true_iff; exact B2|].
    unfold found in A. destruct (file_find _ _); [discriminate|discriminate A].
Qed.

Lemma kernel_named : named declarations [1; 2; 3] kernel_name.
Proof.
  exists [$"n"; $"tile"; $"unroll"]. split; [|reflexivity]. constructor; [exists (mkVariable (Some ($"n")) 0 []); split; reflexivity|].
  constructor; [exists tile; split; reflexivity|]. constructor; [exists unroll; split; reflexivity|constructor].
Qed.
Lemma declarations_run files flush : exists K vss, krun example_platform example_hash (started forest_settings files flush) declarations = Ok (K, vss) /\ w_files (k_world K) = files.
Proof. eexists. eexists. split; reflexivity. Qed.

(** ** Nested contexts *)

Definition crossed_calls : list kop := declarations ++ [ask_kernel 10 (VInt 5) 0; ask_kernel 11 (VInt 6) 100].
Definition nested_calls : list kop := crossed_calls ++ [end_kernel 11 101].
Lemma crossed_run : exists K vss K', krun example_platform example_hash (started forest_settings [] 5) crossed_calls = Ok (K, vss) /\
  kstep example_platform example_hash K (end_kernel 10 200) = Ok (K', []) /\ open_problem crossed_calls 10 = Some [1; 2; 3] /\
  last_request crossed_calls [1; 2; 3] 4 /\ ~ ended_since crossed_calls [1; 2; 3] 4 /\ nth_error crossed_calls 4 = Some (ask_kernel 11 (VInt 6) 100) /\
  exists R, nth_error (w_regions (k_world K')) 0 = Some R /\ ds_size (r_dataset R) = 1.
Proof.
  destruct (krun_holds forest_settings [] 5 crossed_calls (fun s => match kstep example_platform example_hash (fst s) (end_kernel 10 200) with
    | Ok (K', vs) => values_are vs [] && region_b (k_world K') 0 (fun R => ds_size (r_dataset R) =? 1) | _ => false end)) as (K & vss & E & H); [vm_compute; reflexivity|].
  cbn [fst snd] in H. destruct (kstep example_platform example_hash K (end_kernel 10 200)) as [[K' vs]| | | |] eqn:E2; try discriminate H.
  apply andb_prop in H. destruct H as [H A]. apply values_are_true in H. subst vs. apply region_b_true in A. destruct A as (R & ER & B).
  exists K, vss, K'. split; [exact E|]. split; [exact E2|]. clear E E2. split; [reflexivity|]. split; [|split; [|split; [reflexivity|]]].
  - split; [eexists; split; reflexivity|]. intros j o L X. do 5 (destruct j as [|j]; [lia|]). cbn in X. destruct j; discriminate X.
  - intros (j & context & now & L & X & _). do 5 (destruct j as [|j]; [lia|]). cbn in X. destruct j; discriminate X.
  - exists R. split; [exact ER|]. apply Z.eqb_eq. exact B.
Qed.
Lemma nested_run : exists K vss K', krun example_platform example_hash (started forest_settings [] 5) nested_calls = Ok (K, vss) /\
  kstep example_platform example_hash K (end_kernel 10 200) = Ok (K', []) /\ open_problem nested_calls 10 = Some [1; 2; 3] /\
  last_request nested_calls [1; 2; 3] 4 /\ ended_since nested_calls [1; 2; 3] 4 /\
  exists R, nth_error (w_regions (k_world K')) 0 = Some R /\ ds_size (r_dataset R) = 2.
Proof.
  destruct (krun_holds forest_settings [] 5 nested_calls (fun s => match kstep example_platform example_hash (fst s) (end_kernel 10 200) with
    | Ok (K', vs) => values_are vs [] && region_b (k_world K') 0 (fun R => ds_size (r_dataset R) =? 2) | _ => false end)) as (K & vss & E & H); [vm_compute; reflexivity|].
  cbn [fst snd] in H. destruct (kstep example_platform example_hash K (end_kernel 10 200)) as [[K' vs]| | | |] eqn:E2; try discriminate H.
  apply andb_prop in H. destruct H as [H A]. apply values_are_true in H. subst vs. apply region_b_true in A. destruct A as (R & ER & B).
  exists K, vss, K'. split; [exact E|]. split; [exact E2|]. clear E E2. split; [reflexivity|]. split; [|split].
  - split; [eexists; split; reflexivity|]. intros j o L X. do 5 (destruct j as [|j]; [lia|]). cbn in X. destruct j; [injection X as <-; discriminate|]. destruct j; discriminate X.
  - exists 5%nat, 11, (101, 0). split; [lia|]. split; reflexivity.
  - exists R. split; [exact ER|]. apply Z.eqb_eq. exact B.
Qed.

(** ** A context that does not fit in an int *)

Definition string_calls : list kop := declarations ++ [ask_kernel 10 (VString ($"abc")) 0].
Lemma string_unprintable x : feature_of example_hash (VString ($"abc")) x -> unprintable x.
Proof.
  intros [_ ->]. unfold example_hash. right. left.
  assert (X : B2R (f32_of_Z (2 ^ 40)) = IZR (2 ^ 40)).
  { unfold f32_of_Z. generalize (binary_normalize_correct 24 128 _ _ mode_NE (2 ^ 40) 0 false). cbv zeta.
    assert (V : F2R (Float radix2 (2 ^ 40) 0) = IZR (2 ^ 40)) by (unfold F2R; cbn [Fnum Fexp bpow]; apply Rmult_1_r). rewrite V.
    rewrite round_generic; [|typeclasses eauto|].
    - rewrite Rlt_bool_true.
      + intros (A & _). exact A.
      + rewrite Rabs_pos_eq by (apply IZR_le; lia). change (IZR (2 ^ 40)) with (IZR (radix2 ^ 40)). rewrite IZR_Zpower by lia. apply bpow_lt. lia.
    - change (IZR (2 ^ 40)) with (IZR (radix2 ^ 40)). rewrite IZR_Zpower by lia. apply generic_format_bpow. unfold SpecFloat.fexp, SpecFloat.emin. lia. }
  rewrite X. apply IZR_le. lia.
Qed.
Lemma string_run : exists K vss R, krun example_platform example_hash (started forest_settings [] 1) string_calls = Ok (K, vss) /\
  nth_error (w_regions (k_world K)) 0 = Some R /\ first_named (region_names (k_world K)) (r_name R) 0 /\ m_trainable (r_model R) = true /\
  last_request string_calls [1; 2; 3] 3 /\ ~ ended_since string_calls [1; 2; 3] 3 /\ kstep example_platform example_hash K (end_kernel 10 9) = UB.
Proof.
  destruct (krun_holds forest_settings [] 1 string_calls (fun s => region_b (k_world (fst s)) 0 (fun R => m_trainable (r_model R)) &&
    match kstep example_platform example_hash (fst s) (end_kernel 10 9) with UB => true | _ => false end)) as (K & vss & E & H); [vm_compute; reflexivity|].
  cbn [fst snd] in H. apply andb_prop in H. destruct H as [H A]. apply region_b_true in H. destruct H as (R & ER & T). exists K, vss, R. split; [exact E|]. clear E.
  split; [exact ER|]. split; [split; [unfold region_names; rewrite nth_error_map, ER; reflexivity|intros j Hj; lia]|]. split; [exact T|]. split.
  - split; [eexists; split; reflexivity|]. intros j o L X. do 4 (destruct j as [|j]; [lia|]). destruct j; discriminate X.
  - split; [intros (j & context & now & L & X & _); do 4 (destruct j as [|j]; [lia|]); destruct j; discriminate X|]. destruct (kstep _ _ _ _); try discriminate A. reflexivity.
Qed.

(** ** Without options *)

Lemma default_run : exists K vss, krun example_platform example_hash (started default_settings [] 3) kernel_calls = Ok (K, vss) /\
  vss = map (map VInt) [[]; []; []; [8; 1]; []; [8; 1]; []; [8; 1]].
Proof.
  destruct (krun_holds default_settings [] 3 kernel_calls (fun s => all_values_are (snd s) [[]; []; []; [8; 1]; []; [8; 1]; []; [8; 1]])) as (K & vss & E & H); [vm_compute; reflexivity|].
  exists K, vss. split; [exact E|]. apply all_values_are_true. exact H.
Qed.

(** ** Undefined requests *)

Definition input_calls : list kop := [declare_n; KInput ($"tile") 2; declare_unroll].
Lemma input_run : exists K vss, krun example_platform example_hash (started forest_settings [] 3) input_calls = Ok (K, vss) /\
  all_declared input_calls [2; 3] [mkVariable (Some ($"tile")) 0 []; unroll].
Proof. eexists. eexists. split; [reflexivity|]. repeat constructor. Qed.

(** Declarations that offer nothing. *)
Definition nothing_calls : list kop :=
  [declare_n; KOutput ($"tile") 2 CUnbounded; KOutput ($"unroll") 3 (CSet []); KOutput ($"mode") 4 CStringRange; KOutput ($"back") 5 (CIntRange 8 4 2 false false)].
Lemma nothing_run :
  (exists K vss, krun example_platform example_hash (started forest_settings [] 3) nothing_calls = Ok (K, vss)) /\
  (forall id, In id [2; 3] -> exists os o os', nothing_calls = os ++ o :: os' /\ divides_by_zero id o /\ (forall o', In o' os' -> ~ declares id o')) /\
  (forall id, In id [4; 5] -> exists os name x os', nothing_calls = os ++ KOutput name id x :: os' /\ offers_nothing x /\ (forall o', In o' os' -> ~ declares id o')) /\
  declared nothing_calls 4 = Some (mkVariable (Some ($"mode")) (-1) []) /\ declared nothing_calls 5 = Some (mkVariable (Some ($"back")) (-1) []).
Proof.
  split; [eexists; eexists; reflexivity|]. split; [|split; [|split; reflexivity]].
  - intros id [<-|[<-|[]]].
    + exists [declare_n], (KOutput ($"tile") 2 CUnbounded). eexists. split; [reflexivity|]. split; [split; [reflexivity|left; reflexivity]|].
      intros o' [<-|[<-|[<-|[]]]]; cbn; lia.
    + exists [declare_n; KOutput ($"tile") 2 CUnbounded], (KOutput ($"unroll") 3 (CSet [])). eexists. split; [reflexivity|]. split; [split; [reflexivity|right; reflexivity]|].
      intros o' [<-|[<-|[]]]; cbn; lia.
  - intros id [<-|[<-|[]]].
    + exists [declare_n; KOutput ($"tile") 2 CUnbounded; KOutput ($"unroll") 3 (CSet [])], ($"mode"), CStringRange. eexists. split; [reflexivity|]. split; [exact I|].
      intros o' [<-|[]]; cbn; lia.
    + exists [declare_n; KOutput ($"tile") 2 CUnbounded; KOutput ($"unroll") 3 (CSet []); KOutput ($"mode") 4 CStringRange], ($"back"), (CIntRange 8 4 2 false false), [].
      split; [reflexivity|]. split; [cbn; lia|]. intros o' [].
Qed.

Definition many : list (Z * value) := repeat (1, VInt 5) 50.

Definition long_calls : list kop := [KInput (repeat "x"%char 64) 1; declare_tile; declare_unroll].
Lemma long_run : exists K vss v, krun example_platform example_hash (started forest_settings [] 3) long_calls = Ok (K, vss) /\
  declared long_calls 1 = Some v /\ v_name v = None /\ (forall i, In i [1; 2; 3] -> declared long_calls i <> None).
Proof.
  eexists. eexists. eexists. split; [reflexivity|]. split; [reflexivity|]. split; [reflexivity|].
  intros i [<-|[<-|[<-|[]]]]; discriminate.
Qed.

Definition open_calls : list kop := declarations ++ [ask_kernel 10 (VInt 5) 0].
Lemma zero_run : exists K vss, krun example_platform example_hash (started forest_settings [] 0) open_calls = Ok (K, vss) /\
  kstep example_platform example_hash K (end_kernel 10 1) = UB.
Proof.
  destruct (krun_holds forest_settings [] 0 open_calls (fun s => match kstep example_platform example_hash (fst s) (end_kernel 10 1) with UB => true | _ => false end))
    as (K & vss & E & H); [vm_compute; reflexivity|].
  exists K, vss. split; [exact E|]. cbn [fst snd] in H. clear E. destruct (kstep _ _ _ _); try discriminate H. reflexivity.
Qed.

(** ** Starting *)

Definition parsed_args : list bytes := [$"--trace"; $"--flush-rate=7"; $"--distributed-training"; $"--disable_retrain"].
Definition parsed_env : environment := fun n => if bytes_eqb n ($"APOLLO_POLICY_MODEL") then Some ($"RandomForest,explore=RoundRobin") else None.
Lemma parsed_run : exists env, parse_args parsed_args (fun _ => None) 100 = Ok (env, 7).
Proof. eexists. reflexivity. Qed.
Lemma init_run : exists K, init_library false parsed_env (fun _ => true) true 7 [] = Ok K.
Proof.
  assert (H : match init_library false parsed_env (fun _ => true) true 7 [] with Ok _ => true | _ => false end = true) by (vm_compute; reflexivity).
  destruct (init_library _ _ _ _ _ _) as [K| | | |]; try discriminate H. exists K. reflexivity.
Qed.

(** ** Ranges *)

Lemma one_to_ten : is_finite (f64_of_Z 1) = true /\ is_finite (f64_of_Z 10) = true /\ B2R (f64_of_Z 1) = 1%R /\ B2R (f64_of_Z 10) = 10%R.
Proof. destruct (f64_of_Z_spec 1) as [A B]; [lia|]. destruct (f64_of_Z_spec 10) as [C D]; [lia|]. auto. Qed.
Lemma continuous_example : eq64 (f64_of_Z 0) zero64 = true /\ is_finite (add64 (f64_of_Z 1) epsilon) = true.
Proof. split; vm_compute; reflexivity. Qed.
