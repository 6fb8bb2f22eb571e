(** Properties C09-C13, C56, C57: dataset files. *)
From Coq Require Import List ZArith Bool Ascii String Reals SpecFloat PeanoNat.
From Flocq Require Import Core BinarySingleNaN.
From Verif Require Import Model.Base Model.Float Model.Decimal Model.ParserM Model.DatasetM Model.DatasetIO
  Spec.TokenSpec Spec.DecimalSpec Spec.DatasetSpec Spec.DatasetClient Spec.DatasetFileSpec
  Proofs.DecimalRead Proofs.LoadFacts Proofs.DatasetFileProps Proofs.DatasetFileDefects Proofs.DatasetFileTheorems Proofs.DatasetFileExamples.
Import ListNotations.
Open Scope Z_scope.

Theorem C09_store_load : forall d ks,
  reachable d ks -> ds_size d <= 2147483648 ->
  Forall (fun m => (List.length (m_features m) <= 1)%nat /\ is_int (m_policy m) /\ meas_normal m)
         (ds_to_vector d) ->
  exists copies d', Forall2 meas_copy (ds_to_vector d) copies /\
    insert_all [] copies = Ok d' /\ ds_load [] (ds_store d) = Ok (d', [nl]).
Proof. exact store_load_reachable. Qed.
Print Assumptions C09_store_load.

Theorem C09_store_load_identical : forall d ks,
  reachable d ks -> ds_size d <= 2147483648 ->
  Forall (fun m => (List.length (m_features m) <= 1)%nat /\ is_int (m_policy m) /\ meas_normal m)
         (ds_to_vector d) ->
  Forall (fun m => Forall (fun x : f32 => six_digit_copy x x) (m_features m) /\
                   six_digit_copy (m_metric m) (m_metric m)) (ds_to_vector d) ->
  ds_load [] (ds_store d) = Ok (d, [nl]).
Proof. exact store_load_same. Qed.
Print Assumptions C09_store_load_identical.

Theorem C09_integers_survive : forall prec emax (x : binary_float prec emax),
  Prec_gt_0 prec -> small_integer x -> six_digit_copy x x.
Proof. exact @small_integer_survives. Qed.
Print Assumptions C09_integers_survive.

Example C09_nonvacuous :
  exists d ks, reachable d ks /\ ds_size d = 3 /\
    Forall (fun m => (List.length (m_features m) <= 1)%nat /\ is_int (m_policy m) /\ meas_normal m)
           (ds_to_vector d) /\
    (exists d', ds_load [] (ds_store d) = Ok (d', [nl]) /\ view d' = view d) /\
    ds_store d = $"data: {" ++ nl :: $"  0: { features: [  ], policy: 2, xtime: 0 }," ++ nl ::
                 $"  1: { features: [ -7, ], policy: 1, xtime: 2 }," ++ nl ::
                 $"  2: { features: [ 3, ], policy: 0, xtime: 5 }," ++ nl :: $"}" ++ [nl].
Proof.
  set (d := [([], 2, B754_zero false); ([f32_of_Z (-7)], 1, f64_of_Z 2); ([f32_of_Z 3], 0, f64_of_Z 5)] : dataset).
  assert (E : insert_all [] [ex_rec 3 0 5; ex_rec (-7) 1 2; ([], 2, B754_zero false)] = Ok d) by reflexivity.
  assert (R : exists ks, reachable d ks) by (refine (reachable_insert_all _ _ _ _ reach_empty _ E); repeat constructor).
  destruct R as [ks R].
  exists d, ks. split; [exact R|]. clear R E.
  split; [reflexivity|]. split.
  - assert (N32 : forall z, Z.abs z < 1000000 -> normal_range (f32_of_Z z)).
    { intros z B. apply small_integer_normal; [discriminate|]. now apply small_integer_32. }
    assert (N64 : forall z, Z.abs z < 1000000 -> normal_range (f64_of_Z z)).
    { intros z B. apply small_integer_normal; [discriminate|]. now apply small_integer_64. }
    apply Forall_cons; [|apply Forall_cons; [|apply Forall_cons; [|apply Forall_nil]]];
      (split; [cbn; auto|split; [split; discriminate|]]); split; try apply Forall_nil; try exact I;
      try (apply Forall_cons; [apply N32; reflexivity|apply Forall_nil]); apply N64; reflexivity.
  - assert (X : match ds_load [] (ds_store d) with Ok (d', r) => Some (view d', r) | _ => None end
                = Some (view d, [nl])) by (vm_compute; reflexivity).
    destruct (ds_load [] (ds_store d)) as [[d' r]| | | |]; try discriminate. injection X as X1 X2. subst r.
    split; [eauto|vm_compute; reflexivity].
Qed.

Theorem C10_two_features_cannot_reload : forall d ks d0,
  reachable d ks -> ds_size d <= 2147483648 ->
  Forall (fun m => is_int (m_policy m)) (ds_to_vector d) ->
  Exists (fun m => (2 <= List.length (m_features m))%nat) (ds_to_vector d) ->
  ds_load d0 (ds_store d) = Abort \/
  (ds_load d0 (ds_store d) = Throw /\ Exists (fun m => ~ meas_normal m) (ds_to_vector d)).
Proof. exact two_features_fail. Qed.
Print Assumptions C10_two_features_cannot_reload.

Example C10_nonvacuous :
  exists d ks, reachable d ks /\ ds_size d = 1 /\
    Exists (fun m => (2 <= List.length (m_features m))%nat) (ds_to_vector d) /\
    ds_load [] (ds_store d) = Abort /\
    ds_store d = $"data: {" ++ nl :: $"  0: { features: [ 3,4, ], policy: 1, xtime: 5 }," ++ nl :: $"}" ++ [nl].
Proof.
  set (d := [([f32_of_Z 3; f32_of_Z 4], 1, f64_of_Z 5)] : dataset).
  assert (E : insert_all [] [([f32_of_Z 3; f32_of_Z 4], 1, f64_of_Z 5)] = Ok d) by reflexivity.
  assert (R : exists ks, reachable d ks) by (refine (reachable_insert_all _ _ _ _ reach_empty _ E); repeat constructor).
  destruct R as [ks R].
  exists d, ks. split; [exact R|]. clear R E.
  split; [reflexivity|]. split; [apply Exists_cons_hd; cbn; auto|]. split; vm_compute; reflexivity.
Qed.

Theorem C11_python_layout_loads : forall pre d rs c rest,
  blank pre -> Forall well_spelled rs -> white c ->
  ds_load d (pre ++ $"data: {" ++ [nl] ++ List.concat (map python_line rs) ++ $"}" ++ c :: rest) =
  let* d' := insert_all d (map r_meas rs) in Ok (d', c :: rest).
Proof. exact python_load. Qed.
Print Assumptions C11_python_layout_loads.

(** The texts of features and metrics that spell a value include all decimal literals in range. *)
Theorem C11_feature_literals : forall d,
  d_wf d ->
  (bpow radix2 (-126) <= Rabs (round radix2 (fexp 24 128) ZnearestE (d_value d)) < bpow radix2 128)%R ->
  exists y : f32, stof (d_text d ++ $",") = Ok (y, $",") /\
    is_finite y = true /\ B2R y = round radix2 (fexp 24 128) ZnearestE (d_value d).
Proof. exact feature_literal. Qed.
Print Assumptions C11_feature_literals.

Theorem C11_metric_literals : forall d,
  d_wf d ->
  (bpow radix2 (-1022) <= Rabs (round radix2 (fexp 53 1024) ZnearestE (d_value d)) < bpow radix2 1024)%R ->
  exists y : f64, stod (d_text d) = Ok (y, []) /\
    is_finite y = true /\ B2R y = round radix2 (fexp 53 1024) ZnearestE (d_value d).
Proof. exact metric_literal. Qed.
Print Assumptions C11_metric_literals.

Example C11_nonvacuous :
  exists rs, Forall well_spelled rs /\ map (fun r => List.length (r_features r)) rs = [3; 0]%nat /\
    List.concat (map python_line rs) =
      $"  0: { features: [ 1.5, -2e3, 0.001, ], policy: 4, xtime: 1.25e-05 }," ++ nl ::
      $"  1: { features: [ ], policy: 0, xtime: 7 }," ++ [nl].
Proof.
  assert (P : forall w, w <> [] -> (List.length w <= 62)%nat -> hd_error w <> Some "#"%char ->
    forallb (fun c => negb (isspace c) && negb (Ascii.eqb c nul)) w = true -> plain_text w).
  { intros w A B C D. repeat split; auto. rewrite forallb_forall in D. apply Forall_forall. intros x X. specialize (D x X).
    apply andb_prop in D as [D1 D2]. split; [now destruct (isspace x)|]. now destruct (Ascii.eqb_spec x nul). }
  assert (F1 : exists v, stof ($"1.5,") = Ok (v, $",")) by (eexists; reflexivity).
  assert (F2 : exists v, stof ($"-2e3,") = Ok (v, $",")) by (eexists; reflexivity).
  assert (F3 : exists v, stof ($"0.001,") = Ok (v, $",")) by (eexists; reflexivity).
  assert (M1 : exists v, stod ($"1.25e-05") = Ok (v, [])) by (eexists; reflexivity).
  assert (M2 : exists v, stod ($"7") = Ok (v, [])) by (eexists; reflexivity).
  destruct F1 as [f1 F1], F2 as [f2 F2], F3 as [f3 F3], M1 as [m1 M1], M2 as [m2 M2].
  exists [mkRec ($"0") [($"1.5", f1); ($"-2e3", f2); ($"0.001", f3)] ($"4", 4) ($"1.25e-05", m1);
          mkRec ($"1") [] ($"0", 0) ($"7", m2)].
  assert (Q : forall w, w <> [] -> (List.length w <=? 62)%nat = true -> hd_error w <> Some "#"%char ->
    forallb (fun c => negb (isspace c) && negb (Ascii.eqb c nul)) w = true -> plain_text w).
  { intros w A B. apply P; auto. now apply Nat.leb_le. }
  split; [|split; reflexivity].
  repeat match goal with
  | |- Forall _ [] => apply Forall_nil
  | |- Forall _ (_ :: _) => apply Forall_cons
  | |- well_spelled _ => unfold well_spelled; cbn [r_index r_features r_policy r_metric fst snd]
  | |- _ /\ _ => split
  | |- plain_text _ => apply Q; [discriminate|reflexivity|discriminate|reflexivity]
  | |- exists v, stoi _ = Ok (v, _) => eexists; reflexivity
  | |- exists v, stod _ = Ok (_, v) => exists []; assumption
  | |- stoi _ = _ => reflexivity
  | |- stof _ = _ => assumption
  end.
Qed.

Theorem C12_reload_merges_keys : exists d ks d' v a b,
  reachable d ks /\ ds_size d = 2 /\
  recorded [f32_of_Z 1000001] 0 (ds_to_vector d) = Some a /\
  recorded [f32_of_Z 1000002] 0 (ds_to_vector d) = Some b /\
  Beqb a b = false /\
  ds_load [] (ds_store d) = Ok (d', [nl]) /\ ds_size d' = 1 /\
  recorded [f32_of_Z 1000000] 0 (ds_to_vector d') = Some v /\ B2SF v = B2SF (mean2 a b).
Proof. exact reload_merges_keys. Qed.
Print Assumptions C12_reload_merges_keys.

Theorem C13_truncated_never_loads : forall d d0 s t r,
  ds_store d = s ++ t -> t <> [] -> ds_load d0 s <> Ok r.
Proof. exact (fun d d0 s t r => truncated d0 d s t r). Qed.
Print Assumptions C13_truncated_never_loads.

Example C13_nonvacuous : exists d s t,
  ds_store d = s ++ t /\ t <> [] /\ s = $"data: {" ++ nl :: $"  0: { features: [ 3, ], policy: 1, xtime: 5 }".
Proof.
  exists [([f32_of_Z 3], 1, f64_of_Z 5)]. eexists. exists ($"," ++ nl :: $"}" ++ [nl]).
  split; [|split; [discriminate|reflexivity]]. vm_compute. reflexivity.
Qed.

Theorem C56_load_terminates : forall d s, ds_load d s <> Fuel.
Proof. exact ds_load_terminates. Qed.
Print Assumptions C56_load_terminates.

Theorem C57_subnormal_cannot_reload : exists d ks,
  reachable d ks /\ ds_to_vector d = [([tiny32], 0, f64_of_Z 1)] /\ Bltb zero32 tiny32 = true /\
  ds_load [] (ds_store d) = Throw.
Proof. exact subnormal_cannot_reload. Qed.
Print Assumptions C57_subnormal_cannot_reload.
