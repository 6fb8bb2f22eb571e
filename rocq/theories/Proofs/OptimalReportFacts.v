(** The accuracy reported for a run that follows the file of best policies. *)
From Coq Require Import List ZArith Bool Ascii String Lia Permutation Sorted.
From Flocq Require Import BinarySingleNaN.
From Verif Require Import Model.Base Model.Float Model.Decimal Model.DatasetM Model.RuntimeM
  Model.CreateDatasetM Model.AnalyzeM Model.WriteOptM Model.AccuracyM
  Spec.DatasetSpec Spec.RuntimeSpec Spec.PolicyModelsSpec Spec.CreateDatasetSpec Spec.AnalyzeSpec Spec.WriteOptSpec Spec.AccuracySpec Spec.UntrainedSpec Spec.OptimalReportSpec
  Proofs.TreeFacts Proofs.ModelStringFacts Proofs.CreateDatasetFacts Proofs.WriteOptFacts Proofs.DotFacts Proofs.AnalyzeFacts Proofs.AccuracyFacts Proofs.RelaxedFacts Proofs.UntrainedFacts.
From Coq Require Import List.
Import ListNotations.

Lemma policies_inj : forall ps qs, comma_separated (map print_Z ps) = comma_separated (map print_Z qs) -> ps = qs.
Proof.
  assert (NE : forall q qs, comma_separated (map print_Z (q :: qs)) <> []).
  { intros q qs E. assert (N := print_Z_nonempty q). destruct qs as [|r qs]; cbn in E; [congruence|]. apply app_eq_nil in E as [E _]. congruence. }
  induction ps as [|p ps IH]; intros [|q qs] E; [reflexivity|symmetry in E; apply NE in E; contradiction|apply NE in E; contradiction|].
  assert (C : forall x l, exists t, comma_separated (map print_Z (x :: l)) = print_Z x ++ t /\ (t = [] /\ l = [] \/ t = ","%char :: comma_separated (map print_Z l) /\ l <> [])).
  { intros x [|y l]; [exists []; rewrite app_nil_r; auto|]. exists (","%char :: comma_separated (map print_Z (y :: l))). split; [reflexivity|]. right. split; [reflexivity|discriminate]. }
  destruct (C p ps) as (t & T & T'). destruct (C q qs) as (u & U & U'). rewrite T, U in E. apply print_Z_cut in E as [-> E].
  - destruct T' as [[-> ->]|[-> N]], U' as [[-> ->]|[-> N']]; try discriminate; [reflexivity|]. inversion E as [E']. f_equal. apply IH. exact E'.
  - destruct T' as [[-> _]|[-> _]]; reflexivity.
  - destruct U' as [[-> _]|[-> _]]; reflexivity.
Qed.

Lemma followed_hits rows rank s x : arranged rows rank s -> (forall r, In r rows -> is_nan (o_time r) = false) ->
  (exists count, forall i, (exists r, measured_for rows rank (fst x) i r) <-> (0 <= i < Z.of_nat count)%Z) ->
  file_policy (opt_file s (fst x)) (e_index (snd x)) (e_policy (snd x)) -> hits (drop_duplicates s) x = true.
Proof.
  intros A N (count & H) (GE & ps & F & NT). set (l := opt_rows s (fst x)).
  assert (W := opt_written rows rank s (fst x) A N). assert (IN : forall r, In r l <-> In r (drop_duplicates s) /\ o_region r = fst x).
  { intros r. unfold l, opt_rows. split.
    - intros I. apply (Permutation_in _ (sort_perm _)) in I. apply filter_In in I. rewrite bytes_eqb_eq in I. exact I.
    - intros I. apply (Permutation_in _ (Permutation_sym (sort_perm _))). apply filter_In. rewrite bytes_eqb_eq. exact I. }
  assert (RS : forall r, In r s <-> In r rows /\ o_rank r = rank).
  { destruct A as (P & _). intros r. split.
    - intros I. apply (Permutation_in _ (Permutation_sym P)) in I. apply filter_In in I as [I E]. apply Z.eqb_eq in E. auto.
    - intros [I E]. apply (Permutation_in _ P). apply filter_In. apply Z.eqb_eq in E. auto. }
  clear W.
  assert (S : StronglySorted (fun a b => (o_idx a < o_idx b)%Z) l).
  { unfold l, opt_rows. apply strict; [apply sort_sorted|]. eapply Permutation_NoDup; [|apply (region_unique s (fst x))]. symmetry. apply Permutation_map, sort_perm. }
  assert (C : map o_idx l = map (fun j => (0 + Z.of_nat j)%Z) (seq 0 count)).
  { apply counted.
    - clear - S. induction S as [|y l S IH F]; [constructor|]. cbn. constructor; [exact IH|]. apply Forall_map. exact F.
    - intros i. split.
      + intros J. apply in_map_iff in J as (r & <- & J). apply IN in J as [J E]. apply drop_incl, RS in J as [J K]. apply H. exists r. repeat split; assumption.
      + intros R. apply H in R as (r & (I1 & I2 & I3 & I4)). assert (J : In r s) by (apply RS; auto). destruct (drop_covers s r J) as (y & Y & SE). apply same_execution_iff in SE as [S1 S2].
        apply in_map_iff. exists y. split; [congruence|]. apply IN. split; [exact Y|congruence]. }
  assert (EQ : map o_policy l = ps).
  { apply policies_inj. rewrite <- F. unfold opt_file. etransitivity; [|symmetry; apply joined]. rewrite map_map. reflexivity. }
  rewrite <- EQ, nth_error_map in NT. destruct (nth_error l (Z.to_nat (e_index (snd x)))) as [r|] eqn:R; [|discriminate]. cbn in NT. injection NT as NT.
  assert (Z1 : o_idx r = e_index (snd x)).
  { assert (LN : (Z.to_nat (e_index (snd x)) < count)%nat).
    { assert (B : (Z.to_nat (e_index (snd x)) < List.length l)%nat) by (apply nth_error_Some; congruence). apply (f_equal (@List.length Z)) in C. rewrite !map_length, seq_length in C. lia. }
    apply (f_equal (fun v => nth_error v (Z.to_nat (e_index (snd x))))) in C. rewrite !nth_error_map, R in C. cbn in C.
    assert (SQ : nth_error (seq 0 count) (Z.to_nat (e_index (snd x))) = Some (Z.to_nat (e_index (snd x)))).
    { rewrite (nth_error_nth' _ 0%nat) by (rewrite seq_length; lia). rewrite seq_nth by lia. reflexivity. }
    rewrite SQ in C. cbn in C. injection C as C. lia. }
  assert (IR : In r (drop_duplicates s) /\ o_region r = fst x) by (apply IN; apply (nth_error_In _ _ R)). destruct IR as [IR ER].
  unfold hits. destruct (find _ (drop_duplicates s)) as [y|] eqn:FD.
  - apply find_some in FD as [IY E]. apply andb_true_iff in E as [E1 E2]. apply bytes_eqb_eq in E1. apply Z.eqb_eq in E2.
    assert (y = r).
    { assert (U := drop_unique s). clear -U IY IR E1 E2 ER Z1. revert U IY IR. generalize (drop_duplicates s). intros l U. induction l as [|z l IH]; intros IY IR; [contradiction|]. cbn [map] in U. inversion U as [|? ? NI ND]; subst.
      destruct IY as [->|IY], IR as [->|IR]; [reflexivity| | |apply IH; assumption].
      - exfalso. apply NI. apply in_map_iff. exists r. split; [congruence|exact IR].
      - exfalso. apply NI. apply in_map_iff. exists y. split; [congruence|exact IY]. }
    subst y. apply Z.eqb_eq. exact NT.
  - exfalso. apply (find_none _ _ FD) in IR. rewrite ER, Z1, bytes_eqb_refl, Z.eqb_refl in IR. discriminate.
Qed.

Theorem optimal_report num rows ts dir rank s : explored_only ($"Optimal") ts dir -> arranged rows rank s -> (forall r, In r rows -> is_nan (o_time r) = false) ->
  (forall region, exists count, forall i, (exists r, measured_for rows rank region i r) <-> (0 <= i < Z.of_nat count)%Z) ->
  Forall (fun x => file_policy (opt_file s (fst x)) (e_index (snd x)) (e_policy (snd x))) (executions_on rank ts) ->
  NoDup (map (fun x => (fst x, e_index (snd x))) (executions_on rank ts)) ->
  exists data, load_traces dir [$"Optimal"] = Ok data /\
    compute_accuracy data (drop_duplicates s) rank ($"Optimal") = Ok (List.length (executions_on rank ts), List.length (executions_on rank ts)) /\
    compute_relaxed num data (drop_duplicates s) rank ($"Optimal") = Ok (List.length (executions_on rank ts)).
Proof.
  intros XO A N H FO ND. destruct (only_loaded ($"Optimal") ts dir) as (us & P & L & NE & R & M); [repeat constructor; discriminate|exact XO|].
  assert (EP := executions_perm rank ts us P). exists (concat_tables (map table_of us)). split; [exact L|].
  assert (HT : forall x, In x (executions_on rank us) -> hits (drop_duplicates s) x = true).
  { intros x I. apply (Permutation_in _ EP) in I. rewrite Forall_forall in FO. apply (followed_hits rows rank s x A N (H (fst x)) (FO x I)). }
  assert (FA : filter (hits (drop_duplicates s)) (executions_on rank us) = executions_on rank us) by (apply filter_all; exact HT).
  assert (LE := Permutation_length EP). split.
  - rewrite (accuracy_of ($"Optimal") ($"Optimal")) by auto. rewrite FA, LE. reflexivity.
  - rewrite (relaxed_through num ($"Optimal") ($"Optimal")); auto; [|apply (Permutation_NoDup (Permutation_map _ (Permutation_sym EP))); exact ND].
    rewrite FA, LE, filter_none, Nat.add_0_r; [reflexivity|]. intros x I. rewrite (HT x I). reflexivity.
Qed.
