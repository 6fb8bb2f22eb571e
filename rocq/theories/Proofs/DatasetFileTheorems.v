(** The dataset file properties in specification vocabulary. *)
From Coq Require Import List ZArith Bool Ascii String Lia Reals Sorted SpecFloat.
From Flocq Require Import Core BinarySingleNaN.
From Verif Require Import Model.Base Model.Float Model.Decimal Model.ParserM Model.DatasetM Model.DatasetIO
  Spec.TokenSpec Spec.DecimalSpec Spec.DatasetSpec Spec.DatasetClient Spec.DatasetFileSpec
  Proofs.DatasetFacts Proofs.DatasetProps Proofs.DatasetIOFacts Proofs.DatasetFileProps Proofs.DatasetFileDefects.
Import ListNotations.
Open Scope Z_scope.

Lemma to_vector_entry d : ds_to_vector d = map entry_meas d.
Proof. unfold ds_to_vector, entry_meas. apply map_ext. intros [[f p] m]. reflexivity. Qed.

Lemma store_load_reachable d ks :
  reachable d ks -> ds_size d <= 2147483648 ->
  Forall (fun m => (List.length (m_features m) <= 1)%nat /\ is_int (m_policy m) /\ meas_normal m) (ds_to_vector d) ->
  exists copies d', Forall2 meas_copy (ds_to_vector d) copies /\
    insert_all [] copies = Ok d' /\ ds_load [] (ds_store d) = Ok (d', [nl]).
Proof.
  intros R S F. rewrite to_vector_entry in F. rewrite Forall_map in F.
  destruct (store_load d [] S F) as (copies & C & E).
  assert (W := reachable_wf _ _ R).
  assert (NN : Forall no_nan_features copies).
  { rewrite to_vector_entry in C. clear - C W. destruct W as [K _]. remember (map entry_meas d) as l eqn:L.
    revert d K L. induction C; intros d K L; constructor.
    - destruct d as [|e d]; inversion L; subst. inversion K; subst. eapply meas_copy_no_nan; eauto. now apply no_nan_fok.
    - destruct d as [|e d]; inversion L; subst. inversion K; subst. eapply IHC; eauto. }
  destruct (insert_all_history copies NN) as (d' & E' & _).
  exists copies, d'. rewrite E, E'. auto.
Qed.

Lemma copy_unique {prec emax} (x y : binary_float prec emax) :
  six_digit_copy x x -> six_digit_copy x y -> y = x.
Proof.
  destruct x as [s|s| |s m e b]; cbn [six_digit_copy]; auto.
  intros (F & S & V) (FY & SY & VY). apply B2R_Bsign_inj; auto; congruence.
Qed.

Lemma small_integer_survives {prec emax} (x : binary_float prec emax) : Prec_gt_0 prec ->
  small_integer x -> six_digit_copy x x.
Proof.
  intros Hp (z & F & V & B).
  destruct x as [s|s| |s m e b]; cbn [six_digit_copy]; auto. split; auto. split; auto.
  assert (G6 : round6 (B2R (B754_finite s m e b : binary_float prec emax)) = B2R (B754_finite s m e b : binary_float prec emax)).
  { rewrite V. unfold round6. apply round_generic; [apply valid_rnd_N|].
    apply generic_format_FLX. exists (Float radix10 z 0); [unfold F2R; cbn [Fnum Fexp bpow]; now rewrite Rmult_1_r|].
    cbn [Fnum]. change (radix10 ^ 6) with 1000000. exact B. }
  rewrite G6. rewrite round_generic; auto; [apply valid_rnd_N|apply generic_format_B2R].
Qed.

Lemma small_integer_normal {prec emax} (x : binary_float prec emax) : 3 <= emax ->
  small_integer x -> normal_range x.
Proof.
  intros He (z & F & V & B). destruct x as [s|s| |s m e b]; cbn [normal_range]; auto.
  rewrite V. rewrite <- abs_IZR.
  assert (N : z <> 0).
  { intros ->. cbn [B2R] in V. apply eq_0_F2R in V. destruct s; discriminate. }
  apply Rle_trans with 1%R.
  - change 1%R with (bpow radix2 0). apply bpow_le. lia.
  - apply IZR_le. lia.
Qed.

Lemma copies_same l : forall copies, Forall (fun m => Forall (fun x : f32 => six_digit_copy x x) (m_features m) /\ six_digit_copy (m_metric m) (m_metric m)) l ->
  Forall2 meas_copy l copies -> copies = l.
Proof.
  induction l as [|[[f p] m] l IH]; intros copies F C; inversion C as [|a [[g q] n] ? ? (CF & CP & CM) C']; subst; auto.
  inversion F as [|? ? (SF & SM) F']; subst.
  unfold m_features, m_policy, m_metric in *. cbn [fst snd] in *. subst q.
  f_equal; [|now apply IH]. f_equal; [f_equal|now apply copy_unique].
  clear - SF CF. induction CF; auto. inversion SF; subst. f_equal; auto. now apply copy_unique.
Qed.

Lemma store_load_same d ks :
  reachable d ks -> ds_size d <= 2147483648 ->
  Forall (fun m => (List.length (m_features m) <= 1)%nat /\ is_int (m_policy m) /\ meas_normal m) (ds_to_vector d) ->
  Forall (fun m => Forall (fun x : f32 => six_digit_copy x x) (m_features m) /\
                   six_digit_copy (m_metric m) (m_metric m)) (ds_to_vector d) ->
  ds_load [] (ds_store d) = Ok (d, [nl]).
Proof.
  intros R S F H. destruct (store_load_reachable d ks R S F) as (copies & d' & C & E & L).
  rewrite (copies_same _ _ H C) in E. rewrite reinsert in E by (eapply reachable_wf; eauto).
  inversion E; subst. exact L.
Qed.

Lemma two_features_fail d ks d0 :
  reachable d ks -> ds_size d <= 2147483648 ->
  Forall (fun m => is_int (m_policy m)) (ds_to_vector d) ->
  Exists (fun m => (2 <= List.length (m_features m))%nat) (ds_to_vector d) ->
  ds_load d0 (ds_store d) = Abort \/
  (ds_load d0 (ds_store d) = Throw /\ Exists (fun m => ~ meas_normal m) (ds_to_vector d)).
Proof.
  intros R S P X. rewrite to_vector_entry in *. rewrite Forall_map in P. rewrite Exists_map in X.
  rewrite Exists_map. apply ds_load_bad; auto. eapply reachable_wf; eauto.
Qed.

(** Facts used by the examples. *)
Lemma normalize_integer prec emax (Hp : Prec_gt_0 prec) (He : Prec_lt_emax prec emax) z :
  20 <= prec -> Z.abs z < 1000000 ->
  let x := binary_normalize prec emax Hp He mode_NE z 0 false in is_finite x = true /\ B2R x = IZR z.
Proof.
  intros P B x. assert (C := binary_normalize_correct prec emax Hp He mode_NE z 0 false).
  cbn [round_mode] in C.
  assert (G : generic_format radix2 (fexp prec emax) (F2R (Float radix2 z 0))).
  { apply generic_format_F2R. intros NZ.
    unfold cexp, fexp, FLT_exp. cbn [Fexp Fnum]. rewrite mag_F2R_Zdigits by assumption.
    assert (D : Zdigits radix2 z <= 20).
    { apply Zdigits_le_Zpower. change (radix2 ^ 20) with 1048576. lia. }
    unfold Prec_lt_emax, SpecFloat.emin in *. lia. }
  rewrite round_generic in C by (auto with typeclass_instances).
  assert (V : F2R (Float radix2 z 0) = IZR z) by (unfold F2R; cbn [Fnum Fexp bpow]; ring).
  rewrite V in C. rewrite Rlt_bool_true in C.
  - destruct C as (C1 & C2 & _). split; auto.
  - rewrite <- abs_IZR. apply Rlt_le_trans with (IZR 1048576); [apply IZR_lt; lia|].
    change (IZR 1048576) with (bpow radix2 20). apply bpow_le. unfold Prec_lt_emax in He. lia.
Qed.

Lemma small_integer_32 z : Z.abs z < 1000000 -> small_integer (f32_of_Z z).
Proof. intros B. exists z. destruct (normalize_integer 24 128 prec_gt_0_32 prec_lt_emax_32 z ltac:(lia) B). auto. Qed.
Lemma small_integer_64 z : Z.abs z < 1000000 -> small_integer (f64_of_Z z).
Proof. intros B. exists z. destruct (normalize_integer 53 1024 prec_gt_0_64 prec_lt_emax_64 z ltac:(lia) B). auto. Qed.

Lemma reachable_insert_all h : forall d ks d', reachable d ks -> Forall no_nan_features h -> insert_all d h = Ok d' ->
  exists ks', reachable d' ks'.
Proof.
  induction h as [|m h IH]; intros d ks d' R N E; cbn [insert_all] in E.
  - inversion E; subst. eauto.
  - inversion N; subst. apply bind_ok in E as (d1 & E1 & E). eapply IH; [|eassumption|eassumption].
    eapply reach_insert; eauto.
Qed.

Lemma feature_literal d : d_wf d ->
  (bpow radix2 (-126) <= Rabs (round radix2 (fexp 24 128) ZnearestE (d_value d)) < bpow radix2 128)%R ->
  exists y : f32, stof (d_text d ++ $",") = Ok (y, $",") /\
    is_finite y = true /\ B2R y = round radix2 (fexp 24 128) ZnearestE (d_value d).
Proof. intros W B. exact (decimal_read prec_gt_0_32 prec_lt_emax_32 d ($",") W (value_end_comma []) B). Qed.
Lemma metric_literal d : d_wf d ->
  (bpow radix2 (-1022) <= Rabs (round radix2 (fexp 53 1024) ZnearestE (d_value d)) < bpow radix2 1024)%R ->
  exists y : f64, stod (d_text d) = Ok (y, []) /\
    is_finite y = true /\ B2R y = round radix2 (fexp 53 1024) ZnearestE (d_value d).
Proof.
  intros W B. rewrite <- (app_nil_r (d_text d)). exact (decimal_read prec_gt_0_64 prec_lt_emax_64 d [] W value_end_nil B).
Qed.
