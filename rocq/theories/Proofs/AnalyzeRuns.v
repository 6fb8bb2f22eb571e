(** The traces of a run with a static setting, and the time of the best choices. *)
From Coq Require Import List ZArith Bool Ascii String Reals Lia Lra Permutation.
From Flocq Require Import Core BinarySingleNaN.
From Verif Require Import Model.Base Model.Float Model.Decimal Model.DatasetM Model.ModelStringM Model.PolicyModelsM Model.ConfigM Model.RuntimeM
  Model.CreateDatasetM Model.AnalyzeM Model.WriteOptM
  Spec.DatasetSpec Spec.RuntimeSpec Spec.CreateDatasetSpec Spec.AnalyzeSpec Spec.WriteOptSpec
  Proofs.TreeFacts Proofs.ModelStringFacts Proofs.FloatFacts Proofs.RuntimeCreate Proofs.RuntimeStatic Proofs.WriteOptFacts.
From Coq Require Import List.
Import ListNotations.

Theorem static_traces P p c files os w xs r R : (0 <= p <= 2147483647)%Z -> cf_policy_model c = static_setting p -> cf_trace_csv c <> 0%Z ->
  run P (start_world c files) os = Ok (w, xs) -> forallb explicit os = true -> Forall default_model os -> nth_error (w_regions w) r = Some R ->
  exists log s, records P (start_world c files) (combine os xs) log w /\ named s /\ sr_setting s = p /\ sr_policies s = r_num_policies R /\
    tr_rank (sr_trace s) = 0%Z /\ tr_region (sr_trace s) = r_name R /\ tr_features (sr_trace s) = Z.to_nat (r_num_features R) /\
    tr_entries (sr_trace s) = taken_for r log /\ r_trace R = trace_text (sr_trace s).
Proof.
  intros B PM TR H EX DM ER. destruct (trace_rows P c files os w xs r R H EX ER) as (log & RC & T).
  destruct (fixed_run P p c B PM os (start_world c files) w xs) as (A & _); auto.
  { intros [|i] Q E; discriminate. }
  specialize (A _ _ ER). unfold fixed in A.
  assert (MN : m_name (r_model R) = $"Static," ++ print_Z (if (p <? r_num_policies R)%Z then p else 0%Z)).
  { rewrite A. cbn [m_name]. do 2 f_equal. destruct (Z.leb_spec (r_num_policies R) p), (Z.ltb_spec p (r_num_policies R)); try reflexivity; lia. }
  exists log, (mkStatic p (r_num_policies R) (mkTrace 0 (m_name (r_model R)) (r_name R) (Z.to_nat (r_num_features R)) (taken_for r log))).
  split; [exact RC|]. split; [exact MN|]. cbn. repeat (split; [reflexivity|]).
  rewrite T. unfold truthy. destruct (Z.eqb_spec (cf_trace_csv c) 0); [contradiction|]. reflexivity.
Qed.

(** ** Sums *)
Open Scope R_scope.
Definition number (x : f64) : Prop := is_finite x = true /\ 0 <= B2R x.

Lemma sum_nil : exact_sum [] = 0.
Proof. reflexivity. Qed.
Lemma sum_cons x l : exact_sum (x :: l) = B2R x + exact_sum l.
Proof. reflexivity. Qed.
Lemma sum_app a b : exact_sum (a ++ b) = exact_sum a + exact_sum b.
Proof. induction a as [|x a IH]; [rewrite sum_nil; cbn [app]; ring|]. cbn [app]. rewrite !sum_cons, IH. ring. Qed.
Lemma sum_nonneg l : Forall number l -> 0 <= exact_sum l.
Proof. induction 1 as [|x l [_ H] F IH]; [rewrite sum_nil; lra|]. rewrite sum_cons. lra. Qed.
Lemma sum_perm a b : Permutation a b -> exact_sum a = exact_sum b.
Proof. induction 1; rewrite ?sum_cons; lra. Qed.

Lemma ble_R (x y : f64) : is_finite x = true -> is_finite y = true -> Bleb x y = true -> B2R x <= B2R y.
Proof. intros X Y H. rewrite (Bleb_correct 53 1024 x y X Y) in H. destruct (Rle_bool_spec (B2R x) (B2R y)); [assumption|discriminate]. Qed.

Lemma covered D : NoDup (map (fun r => (o_region r, o_idx r)) D) -> forall sel,
  Forall number (map o_time sel) ->
  (forall d, In d D -> exists r, In r sel /\ same_execution d r = true /\ B2R (o_time d) <= B2R (o_time r)) ->
  exact_sum (map o_time D) <= exact_sum (map o_time sel).
Proof.
  induction D as [|d D IH]; intros N sel F C; cbn [map]; rewrite ?sum_cons, ?sum_nil.
  - apply sum_nonneg. exact F.
  - inversion N as [|? ? NI ND]; subst. destruct (C d (or_introl eq_refl)) as (r & I & S & L). apply in_split in I as (a & b & ->).
    rewrite map_app in *. cbn [map] in *. apply Forall_app in F as [F1 F2]. inversion F2 as [|? ? _ F3]; subst.
    assert (X : exact_sum (map o_time D) <= exact_sum (map o_time (a ++ b))).
    { apply IH; [exact ND|rewrite map_app; apply Forall_app; auto|]. intros d' I'. destruct (C d' (or_intror I')) as (r' & J & S' & L').
      exists r'. split; [|auto]. apply in_app_iff in J as [J|[<-|J]]; [apply in_app_iff; auto| |apply in_app_iff; auto].
      exfalso. apply NI. apply in_map_iff. exists d'. split; [|exact I']. apply same_execution_iff in S as [S1 S2], S' as [T1 T2]. congruence. }
    rewrite map_app, sum_app in X. rewrite sum_app, sum_cons. lra.
Qed.

Theorem optimum_least rows rank s sel : arranged rows rank s -> Forall (fun r => number (o_time r)) rows ->
  (forall r, In r sel -> In r rows /\ o_rank r = rank) ->
  (forall r, In r rows -> o_rank r = rank -> exists r', In r' sel /\ o_region r' = o_region r /\ o_idx r' = o_idx r) ->
  exact_sum (map o_time (drop_duplicates s)) <= exact_sum (map o_time sel).
Proof.
  intros (P & O) F IN COV. rewrite Forall_forall in F.
  assert (RS : forall r, In r s <-> In r rows /\ o_rank r = rank).
  { intros r. split.
    - intros I. apply (Permutation_in _ (Permutation_sym P)) in I. unfold of_rank in I. apply filter_In in I. rewrite Z.eqb_eq in I. exact I.
    - intros I. apply (Permutation_in _ P). unfold of_rank. apply filter_In. rewrite Z.eqb_eq. exact I. }
  assert (NN : forall r, In r rows -> is_nan (o_time r) = false). { intros r I. destruct (F r I) as [A _]. destruct (o_time r); try discriminate A; reflexivity. }
  apply covered; [apply drop_unique| |].
  - apply Forall_map, Forall_forall. intros r I. apply F, IN, I.
  - intros d I. assert (J := proj1 (RS d) (drop_incl _ _ I)). destruct (COV d (proj1 J) (proj2 J)) as (r & K & E1 & E2). exists r. split; [exact K|].
    assert (S : same_execution d r = true) by (apply same_execution_iff; auto). split; [exact S|].
    destruct (IN r K) as [RI RR]. apply ble_R; [apply F, J|apply F, RI|]. apply not_less_le; [apply NN, J|apply NN, RI|].
    destruct (lt64 (o_time r) (o_time d)) eqn:L; [|reflexivity]. exfalso. exact (drop_least s d r O I (proj2 (RS r) (conj RI RR)) S L).
Qed.

Lemma in_rows num ss x : In x (rows_of num ss) <-> exists s e, In s ss /\ In e (tr_entries (sr_trace s)) /\
  x = mkOpt (tr_rank (sr_trace s)) (tr_region (sr_trace s)) (e_index e) (e_policy e) (num (metric_text e)).
Proof.
  unfold rows_of. rewrite in_flat_map. split.
  - intros (s & I & J). apply in_map_iff in J as (e & <- & J). exists s, e. auto.
  - intros (s & e & I & J & ->). exists s. split; [exact I|]. apply in_map_iff. exists e. auto.
Qed.
Lemma times_rows num rank k ss :
  times_in num rank k ss = map o_time (rows_of num (filter (fun s => (tr_rank (sr_trace s) =? rank)%Z && k s) ss)).
Proof.
  unfold times_in, rows_of. induction ss as [|s ss IH]; [reflexivity|]. cbn [flat_map filter].
  destruct ((tr_rank (sr_trace s) =? rank)%Z && k s); [|exact IH]. cbn [flat_map]. rewrite map_app, map_map, IH. reflexivity.
Qed.

Theorem optimum_static num ss rank j s : arranged (rows_of num ss) rank s ->
  (forall r, In r (rows_of num ss) -> is_finite (o_time r) = true /\ 0 <= B2R (o_time r)) ->
  (forall i region idx, measured_in ss rank i region idx -> measured_in ss rank j region idx) ->
  exact_sum (map o_time (drop_duplicates s)) <= exact_sum (times_in num rank (fun t => (sr_setting t =? j)%Z) ss).
Proof.
  intros A N C. rewrite times_rows. eapply optimum_least; [exact A|apply Forall_forall; exact N| |].
  - intros r I. apply in_rows in I as (t & e & I & J & ->). apply filter_In in I as [I K]. apply andb_true_iff in K as [K _]. apply Z.eqb_eq in K.
    split; [|exact K]. apply in_rows. exists t, e. auto.
  - intros r I R. apply in_rows in I as (t & e & I & J & ->). cbn in *.
    destruct (C (sr_setting t) (tr_region (sr_trace t)) (e_index e)) as (t' & e' & I' & S' & K' & G' & J' & X').
    { exists t, e. auto 10. }
    eexists. split; [apply in_rows; exists t', e'; split; [apply filter_In; split; [exact I'|]|split; [exact J'|reflexivity]]|].
    + rewrite K', S', !Z.eqb_refl. reflexivity.
    + cbn. auto.
Qed.
