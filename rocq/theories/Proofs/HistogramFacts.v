(** The histograms of policies. *)
From Coq Require Import List ZArith Bool Ascii String Lia Permutation.
From Verif Require Import Model.Base Model.Float Model.Decimal Model.DatasetM Model.RuntimeM Model.ModelStringM
  Model.CreateDatasetM Model.AnalyzeM Model.WriteOptM Model.AccuracyM Model.HistogramM
  Spec.DatasetSpec Spec.RuntimeSpec Spec.CreateDatasetSpec Spec.AnalyzeSpec Spec.WriteOptSpec Spec.AccuracySpec Spec.UntrainedSpec Spec.HistogramSpec
  Proofs.TreeFacts Proofs.ModelStringFacts Proofs.PolicyModelsFacts Proofs.CreateDatasetFacts Proofs.WriteOptFacts Proofs.DotFacts Proofs.AnalyzeFacts Proofs.AccuracyFacts Proofs.RelaxedFacts Proofs.UntrainedFacts.
From Coq Require Import List.
Import ListNotations.

Definition in_bin (last : bool) (a b x : Z) : bool := (a <=? x)%Z && if last then (x <=? b)%Z else (x <? b)%Z.

Lemma histogram_seq xs : forall n a, histogram (map Z.of_nat (seq a (S n))) xs =
  map (fun i => (Z.of_nat i, List.length (filter (in_bin (S i =? a + n)%nat (Z.of_nat i) (Z.of_nat (S i))) xs))) (seq a n).
Proof.
  induction n as [|n IH]; intros a; [reflexivity|]. specialize (IH (S a)).
  transitivity ((Z.of_nat a, List.length (filter (fun x => (Z.of_nat a <=? x)%Z && match map Z.of_nat (seq (S (S a)) n) with [] => (x <=? Z.of_nat (S a))%Z | _ => (x <? Z.of_nat (S a))%Z end) xs)) ::
    histogram (map Z.of_nat (seq (S a) (S n))) xs); [reflexivity|]. rewrite IH. cbn [seq map]. f_equal.
  - f_equal. f_equal. apply filter_ext. intros x. unfold in_bin. destruct n as [|n].
    + replace (S a =? a + 1)%nat with true by (symmetry; apply Nat.eqb_eq; lia). reflexivity.
    + replace (S a =? a + S (S n))%nat with false by (symmetry; apply Nat.eqb_neq; lia). reflexivity.
  - apply map_ext. intros i. replace (S a + n)%nat with (a + S n)%nat by lia. reflexivity.
Qed.

Lemma bin_count last a xs : List.length (filter (in_bin last a (a + 1)) xs) = (times_used xs a + if last then times_used xs (a + 1) else 0)%nat.
Proof.
  unfold times_used. induction xs as [|x xs IH]; [destruct last; reflexivity|]. cbn [filter count_occ]. unfold in_bin at 1.
  destruct (Z.eq_dec x a) as [->|N]; [|destruct (Z.eq_dec x (a + 1)) as [->|N2]]; destruct last.
  - destruct (Z.eq_dec a (a + 1)); [lia|]. replace ((a <=? a)%Z && (a <=? a + 1)%Z) with true by lia. cbn [List.length]. rewrite IH. lia.
  - replace ((a <=? a)%Z && (a <? a + 1)%Z) with true by lia. cbn [List.length]. rewrite IH. lia.
  - replace ((a <=? a + 1)%Z && (a + 1 <=? a + 1)%Z) with true by lia. cbn [List.length]. rewrite IH. lia.
  - replace ((a <=? a + 1)%Z && (a + 1 <? a + 1)%Z) with false by lia. rewrite IH. lia.
  - replace ((a <=? x)%Z && (x <=? a + 1)%Z) with false by lia. rewrite IH. lia.
  - replace ((a <=? x)%Z && (x <? a + 1)%Z) with false by lia. rewrite IH. lia.
Qed.

Lemma histogram_nth xs n i p c : nth_error (histogram (arange (n + 1)) xs) i = Some (p, c) ->
  p = Z.of_nat i /\ c = (times_used xs p + if (S i =? n)%nat then times_used xs (Z.of_nat n) else 0)%nat.
Proof.
  unfold arange. rewrite Nat.add_comm. cbn [Nat.add]. rewrite histogram_seq. intros E. rewrite nth_error_map in E. destruct (nth_error (seq 0 n) i) as [j|] eqn:J; [|discriminate]. cbn [option_map] in E.
  assert (L : (i < n)%nat) by (rewrite <- (seq_length n 0); apply nth_error_Some; congruence).
  assert (j = i) as -> by (apply (nth_error_nth _ _ 0%nat) in J; rewrite seq_nth in J by exact L; lia).
  replace (Z.of_nat (S i)) with (Z.of_nat i + 1)%Z in E by lia. rewrite bin_count in E. change (0 + n)%nat with n in E.
  assert (Ep : p = Z.of_nat i) by congruence. split; [exact Ep|]. subst p. revert E. destruct (Nat.eqb_spec (S i) n) as [<-|]; [|congruence]. replace (Z.of_nat i + 1)%Z with (Z.of_nat (S i)) by lia. congruence.
Qed.

Lemma histogram_length xs n : List.length (histogram (arange (n + 1)) xs) = n.
Proof. unfold arange. rewrite Nat.add_comm. cbn [Nat.add]. rewrite histogram_seq, map_length, seq_length. reflexivity. Qed.

Lemma histogram_tally xs n : Forall (fun p => p <> Z.of_nat n) xs -> tally n xs (histogram (arange (n + 1)) xs).
Proof.
  intros F. split; [apply histogram_length|]. intros i p c E. apply histogram_nth in E as [-> ->]. split; [reflexivity|].
  assert (Z0 : times_used xs (Z.of_nat n) = 0%nat). { apply count_occ_not_In. intros I. rewrite Forall_forall in F. exact (F _ I eq_refl). }
  rewrite Z0. destruct (S i =? n)%nat; lia.
Qed.

Lemma same_places {A} : forall l l' : list A, (forall i, nth_error l i = nth_error l' i) -> l = l'.
Proof.
  induction l as [|x l IH]; intros [|y l'] H; [reflexivity|specialize (H 0%nat); discriminate H|specialize (H 0%nat); discriminate H|].
  f_equal; [specialize (H 0%nat); cbn in H; congruence|]. apply IH. intros i. exact (H (S i)).
Qed.

(** With policies in range nothing is left out. *)
Lemma tally_sum n : forall xs h, tally n xs h -> Forall (fun p => 0 <= p < Z.of_nat n)%Z xs -> list_sum (map snd h) = List.length xs.
Proof.
  intros xs h [L H] F. assert (E : map snd h = map (fun i => times_used xs (Z.of_nat i)) (seq 0 n)).
  { apply same_places. intros i. rewrite !nth_error_map. destruct (nth_error h i) as [[p c]|] eqn:X.
    - destruct (H _ _ _ X) as [-> ->]. assert (B : (i < n)%nat) by (rewrite <- L; apply nth_error_Some; congruence).
      rewrite (nth_error_nth' _ 0%nat) by (rewrite seq_length; exact B). rewrite seq_nth by exact B. reflexivity.
    - apply nth_error_None in X. rewrite (proj2 (nth_error_None (seq 0 n) i)) by (rewrite seq_length; lia). reflexivity. }
  rewrite E. clear E L H h. induction F as [|x xs R F IH].
  - induction (seq 0 n) as [|i l IH]; [reflexivity|]. cbn. exact IH.
  - cbn [List.length]. rewrite <- IH. clear IH F.
    assert (G : forall l, NoDup l -> list_sum (map (fun i => times_used (x :: xs) (Z.of_nat i)) l) = ((if in_dec Nat.eq_dec (Z.to_nat x) l then 1 else 0) + list_sum (map (fun i => times_used xs (Z.of_nat i)) l))%nat).
    { clear -R. induction 1 as [|i l NI ND IH]; [reflexivity|]. cbn [map list_sum fold_right]. change (fold_right Nat.add 0%nat) with list_sum. rewrite IH. unfold times_used at 1. cbn [count_occ].
      destruct (Z.eq_dec x (Z.of_nat i)) as [Q|Q]; destruct (in_dec Nat.eq_dec (Z.to_nat x) l) as [A|A]; destruct (in_dec Nat.eq_dec (Z.to_nat x) (i :: l)) as [B|B]; unfold times_used; cbn [List.In] in B; try lia.
      all: exfalso; first [apply NI; replace i with (Z.to_nat x) by lia; exact A|apply B; right; exact A|apply B; left; lia|destruct B as [B|B]; [lia|contradiction]]. }
    rewrite G by apply seq_NoDup. destruct (in_dec _ _ _) as [A|A]; [reflexivity|]. exfalso. apply A. apply in_seq. lia.
Qed.

(** ** Tables *)

Lemma whole_policies (ps : list Z) : Forall (fun p => -2147483648 <= p <= 2147483647)%Z ps -> whole_cells (map (fun p => Some (print_Z p)) ps) = Ok ps.
Proof. induction 1 as [|p ps R F IH]; [reflexivity|]. cbn [map whole_cells]. rewrite stoi_whole by exact R. rewrite IH. reflexivity. Qed.

Lemma histograms_of model trained us opt rank n : missing model = false -> has_text trained model = true -> Forall regular us -> us <> [] -> Forall (fun t => tr_model t = model) us ->
  Forall (fun x => -2147483648 <= e_policy (snd x) <= 2147483647)%Z (executions_on rank us) ->
  histograms (concat_tables (map table_of us)) opt rank trained n =
    Ok (histogram (arange (n + 1)) (map o_policy opt), histogram (arange (n + 1)) (map (fun x => e_policy (snd x)) (executions_on rank us))).
Proof.
  intros MM HT R N M RG. unfold histograms. assert (I := mine_image model trained us rank MM HT R M). unfold mine in I. set (D := concat_tables (map table_of us)) in *.
  assert (H : forall c, In c (base ++ pair_cols) -> has_column (columns D) c = true).
  { intros c J. destruct us as [|t us']; [congruence|]. unfold D, concat_tables. cbn [columns]. apply (has_fold (trace_columns (tr_features t))); [left; reflexivity|].
    apply has_column_iff. rewrite trace_columns_joint. apply in_joint_other. exact J. }
  cbn [forallb]. rewrite !H by (cbn; tauto). cbn [andb]. cbv zeta in *. set (q := filter _ (rows D)) in *.
  assert (W : map (fun row => at_column (columns D) row ($"policy")) q = map (fun p => Some (print_Z p)) (map (fun x => e_policy (snd x)) (executions_on rank us))).
  { clearbody q. revert I. generalize (executions_on rank us). induction q as [|row q IH]; intros [|x xs] E; try discriminate E; [reflexivity|]. cbn [map] in E.
    assert (E1 : map (at_column (columns D) row) six = image model rank x) by (exact (f_equal (hd []) E)). assert (E2 := f_equal (@tl _) E). cbn [tl] in E2.
    cbn [map]. rewrite (IH xs E2). f_equal. apply (image_cells _ _ _ _ _ E1). }
  rewrite W, whole_policies by (apply Forall_map; exact RG). reflexivity.
Qed.

Lemma tally_perm n xs ys h : Permutation xs ys -> tally n xs h -> tally n ys h.
Proof.
  intros P [L H]. split; [exact L|]. intros i p c E. destruct (H _ _ _ E) as [A ->]. split; [exact A|]. unfold times_used. exact (proj1 (Permutation_count_occ Z.eq_dec xs ys) P p).
Qed.

Definition policies_on (rank : Z) (ts : list trace) : list Z := map (fun x => e_policy (snd x)) (executions_on rank ts).

Definition shown (n : nat) (ps : list Z) (h : list (Z * nat)) : Prop :=
  List.length h = n /\ forall i p c, nth_error h i = Some (p, c) -> p = Z.of_nat i /\ c = (times_used ps p + if (S i =? n)%nat then times_used ps (Z.of_nat n) else 0)%nat.

Lemma shown_histogram n ps : shown n ps (histogram (arange (n + 1)) ps).
Proof. split; [apply histogram_length|]. apply histogram_nth. Qed.
Lemma shown_perm n xs ys h : Permutation xs ys -> shown n xs h -> shown n ys h.
Proof.
  intros P [L H]. assert (C := proj1 (Permutation_count_occ Z.eq_dec xs ys) P). split; [exact L|]. intros i p c E. destruct (H _ _ _ E) as [A ->]. split; [exact A|]. unfold times_used. rewrite !C. reflexivity.
Qed.
Lemma shown_tally n ps h : Forall (fun p => 0 <= p < Z.of_nat n)%Z ps -> shown n ps h -> tally n ps h /\ list_sum (map snd h) = List.length ps.
Proof.
  intros F [L H]. assert (T : tally n ps h).
  { split; [exact L|]. intros i p c E. destruct (H _ _ _ E) as [A ->]. split; [exact A|].
    assert (Z0 : times_used ps (Z.of_nat n) = 0%nat). { apply count_occ_not_In. intros I. rewrite Forall_forall in F. specialize (F _ I). cbn in F. lia. }
    rewrite Z0. destruct (S i =? n)%nat; lia. }
  split; [exact T|]. exact (tally_sum n ps h T F).
Qed.

Lemma loaded_shown model trained ts us opt rank n : missing model = false -> has_text trained model = true -> Permutation us ts -> Forall regular us -> us <> [] -> Forall (fun t => tr_model t = model) us ->
  Forall (fun p => -2147483648 <= p <= 2147483647)%Z (policies_on rank ts) ->
  exists h1 h2, histograms (concat_tables (map table_of us)) opt rank trained n = Ok (h1, h2) /\ shown n (map o_policy opt) h1 /\ shown n (policies_on rank ts) h2.
Proof.
  intros MM HT P R N M RG. assert (EP := executions_perm rank ts us P). unfold policies_on in *. do 2 eexists. split.
  - apply (histograms_of model); auto. apply Forall_map in RG. apply (Permutation_Forall (Permutation_sym EP)). exact RG.
  - split; [apply shown_histogram|]. eapply shown_perm; [apply Permutation_map; exact EP|apply shown_histogram].
Qed.

Theorem explored_shown ex ts dir opt rank n : Forall (fun c => c <> "*"%char) ex -> explorations ex ts dir ->
  Forall (fun x => -2147483648 <= e_policy (snd x) <= 2147483647)%Z (executions_on rank ts) ->
  exists data h1 h2, load_traces dir [ex] = Ok data /\ histograms data opt rank ($"DecisionTree") n = Ok (h1, h2) /\ List.length h1 = n /\ List.length h2 = n /\
    (forall i p c, nth_error h1 i = Some (p, c) -> p = Z.of_nat i /\ c = (times_used (map o_policy opt) p + if (S i =? n)%nat then times_used (map o_policy opt) (Z.of_nat n) else 0)%nat) /\
    (forall i p c, nth_error h2 i = Some (p, c) -> p = Z.of_nat i /\
       c = (times_used (map (fun x => e_policy (snd x)) (executions_on rank ts)) p + if (S i =? n)%nat then times_used (map (fun x => e_policy (snd x)) (executions_on rank ts)) (Z.of_nat n) else 0)%nat).
Proof.
  intros PL XP RG. destruct (explored_loaded ex ts dir PL XP) as (us & P & L & N & R & M).
  destruct (loaded_shown ($"DecisionTree") ($"DecisionTree") ts us opt rank n) as (h1 & h2 & E & [L1 S1] & [L2 S2]); auto; [apply Forall_map; exact RG|].
  exists (concat_tables (map table_of us)), h1, h2. repeat (split; [assumption|]). exact S2.
Qed.

Theorem explored_tally ex ts dir opt rank n : Forall (fun c => c <> "*"%char) ex -> explorations ex ts dir -> (Z.of_nat n <= 2147483647)%Z ->
  Forall (fun x => 0 <= e_policy (snd x) < Z.of_nat n)%Z (executions_on rank ts) -> Forall (fun r => 0 <= o_policy r < Z.of_nat n)%Z opt ->
  exists data h1 h2, load_traces dir [ex] = Ok data /\ histograms data opt rank ($"DecisionTree") n = Ok (h1, h2) /\
    tally n (map o_policy opt) h1 /\ list_sum (map snd h1) = List.length opt /\
    tally n (map (fun x => e_policy (snd x)) (executions_on rank ts)) h2 /\ list_sum (map snd h2) = List.length (executions_on rank ts).
Proof.
  intros PL XP NB RG RO. destruct (explored_loaded ex ts dir PL XP) as (us & P & L & N & R & M).
  destruct (loaded_shown ($"DecisionTree") ($"DecisionTree") ts us opt rank n) as (h1 & h2 & E & S1 & S2); auto.
  { apply Forall_map. revert RG. apply Forall_impl. intros x H. lia. }
  apply shown_tally in S1; [|apply Forall_map; exact RO]. apply shown_tally in S2; [|apply Forall_map; exact RG]. unfold policies_on in S2. rewrite map_length in S1, S2.
  exists (concat_tables (map table_of us)), h1, h2. tauto.
Qed.

Theorem optimal_tally ts dir opt rank n : explored_only ($"Optimal") ts dir -> (Z.of_nat n <= 2147483647)%Z ->
  Forall (fun x => 0 <= e_policy (snd x) < Z.of_nat n)%Z (executions_on rank ts) -> Forall (fun r => 0 <= o_policy r < Z.of_nat n)%Z opt ->
  exists data h1 h2, load_traces dir [$"Optimal"] = Ok data /\ histograms data opt rank ($"Optimal") n = Ok (h1, h2) /\
    tally n (map o_policy opt) h1 /\ list_sum (map snd h1) = List.length opt /\
    tally n (map (fun x => e_policy (snd x)) (executions_on rank ts)) h2 /\ list_sum (map snd h2) = List.length (executions_on rank ts).
Proof.
  intros XO NB RG RO. destruct (only_loaded ($"Optimal") ts dir) as (us & P & L & N & R & M); [repeat constructor; discriminate|exact XO|].
  destruct (loaded_shown ($"Optimal") ($"Optimal") ts us opt rank n) as (h1 & h2 & E & S1 & S2); auto.
  { apply Forall_map. revert RG. apply Forall_impl. intros x H. lia. }
  apply shown_tally in S1; [|apply Forall_map; exact RO]. apply shown_tally in S2; [|apply Forall_map; exact RG]. unfold policies_on in S2. rewrite map_length in S1, S2.
  exists (concat_tables (map table_of us)), h1, h2. tauto.
Qed.
