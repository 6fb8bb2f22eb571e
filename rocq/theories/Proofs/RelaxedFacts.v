(** The relaxed accuracy. *)
From Coq Require Import List ZArith Bool Ascii String Lia Permutation Reals Lra.
From Flocq Require Import Core BinarySingleNaN.
From Verif Require Import Model.Base Model.Float Model.Decimal Model.DatasetM Model.RuntimeM
  Model.CreateDatasetM Model.AnalyzeM Model.WriteOptM Model.AccuracyM
  Spec.DatasetSpec Spec.RuntimeSpec Spec.CreateDatasetSpec Spec.AnalyzeSpec Spec.WriteOptSpec Spec.AccuracySpec
  Proofs.TreeFacts Proofs.ModelStringFacts Proofs.FloatFacts Proofs.CreateDatasetFacts Proofs.WriteOptFacts Proofs.AnalyzeFacts Proofs.AnalyzeRuns Proofs.AccuracyFacts Proofs.RelaxedFloats.
From Coq Require Import List.
Import ListNotations.
Local Open Scope nat_scope.

(** ** Rows and executions *)

Definition six : list bytes := [$"rankid"; $"training"; $"region"; $"idx"; $"policy"; $"xtime"].
Definition image (model : bytes) (rank : Z) (x : bytes * entry) : list cell :=
  [Some (print_Z rank); Some model; Some (fst x); Some (print_Z (e_index (snd x))); Some (print_Z (e_policy (snd x))); Some (metric_text (snd x))].

Definition mine (us : list trace) (rank : Z) (trained : bytes) : list (list cell) :=
  let D := concat_tables (map table_of us) in
  filter (fun row => cell_eqb (at_column (columns D) row ($"rankid")) (Some (print_Z rank)) &&
      match at_column (columns D) row ($"training") with Some t => has_text trained t | None => false end) (rows D).

Lemma mine_image model trained us rank : missing model = false -> has_text trained model = true -> Forall regular us -> Forall (fun t => tr_model t = model) us ->
  map (fun row => map (at_column (columns (concat_tables (map table_of us))) row) six) (mine us rank trained) = map (image model rank) (executions_on rank us).
Proof.
  intros MM HT R M. unfold mine. set (D := concat_tables (map table_of us)).
  set (sel := fun l : list cell => match l with [a; b; _; _; _; _] => cell_eqb a (Some (print_Z rank)) && match b with Some t => has_text trained t | None => false end | _ => false end).
  transitivity (map (fun l : list cell => l) (filter sel (map (fun row => map (at_column (columns D) row) six) (rows D)))).
  { rewrite <- (filter_through (fun row => map (at_column (columns D) row) six) sel (fun l => l)). reflexivity. }
  rewrite map_id. unfold D. rewrite rows_through. clear D.
  unfold executions_on. induction R as [|t us RT R IH]; [reflexivity|]. assert (E := Forall_inv M). assert (M' := Forall_inv_tail M). cbn beta in E. cbn [map flat_map]. rewrite filter_app, map_app, IH by exact M'. f_equal.
  cbn [table_of columns rows]. rewrite map_map. destruct RT as [A B C]. clear -A B C E MM HT. induction C as [|e l F C IH]; [destruct (_ =? _)%Z; reflexivity|].
  cbn [map filter]. change (map (at_column (trace_columns (tr_features t)) (row_of t e)) six) with (map (look t e) six).
  destruct (look_features t e A B F) as (_ & X & Y).
  assert (L : map (look t e) six = [Some (print_Z (tr_rank t)); Some model; Some (tr_region t); Some (print_Z (e_index e)); Some (print_Z (e_policy e)); Some (metric_text e)]).
  { unfold six. cbn [map]. rewrite X, Y, look_region by exact B. repeat f_equal.
    - unfold look. cbn. unfold cell_of. rewrite print_Z_present. reflexivity.
    - unfold look. cbn. unfold cell_of. rewrite E, MM. reflexivity.
    - unfold look. cbn. unfold cell_of. rewrite print_Z_present. reflexivity. }
  rewrite L. unfold sel at 1. cbn [cell_eqb]. rewrite printed_eqb. rewrite HT. rewrite andb_true_r.
  destruct (Z.eqb_spec (tr_rank t) rank) as [Q|Q]; [|exact IH]. cbn [map]. rewrite IH. unfold image. cbn [fst snd]. rewrite Q. reflexivity.
Qed.

(** Rows that look like executions are counted like them. *)
Lemma counted_alike (cols : list bytes) (img : bytes * entry -> list cell) (p : list cell -> bool) (q : bytes * entry -> bool) : forall l xs, map (fun row => map (at_column cols row) six) l = map img xs ->
  (forall row x, map (at_column cols row) six = img x -> p row = q x) -> List.length (filter p l) = List.length (filter q xs).
Proof.
  induction l as [|row l IH]; intros [|x xs] E H; try discriminate E; [reflexivity|]. cbn [map] in E.
  assert (E1 : map (at_column cols row) six = img x) by (exact (f_equal (hd []) E)). assert (E2 := f_equal (@tl _) E). cbn [tl] in E2. cbn [filter]. rewrite (H row x E1).
  destruct (q x); cbn [List.length]; rewrite (IH xs E2 H); reflexivity.
Qed.

Definition near_row (num : bytes -> f64) (opt : list opt_row) (x : bytes * entry) : bool :=
  match find (fun r => bytes_eqb (o_region r) (fst x) && (o_idx r =? e_index (snd x))%Z) opt with Some r => within_ten (o_time r) (num (metric_text (snd x))) | None => false end.

Lemma image_cells cols row model rank x : map (at_column cols row) six = image model rank x ->
  at_column cols row ($"region") = Some (fst x) /\ at_column cols row ($"idx") = Some (print_Z (e_index (snd x))) /\ at_column cols row ($"policy") = Some (print_Z (e_policy (snd x))) /\
  at_column cols row ($"xtime") = Some (metric_text (snd x)).
Proof.
  intros E. unfold six, image in E. cbn [map] in E.
  assert (N : forall k, nth k [at_column cols row ($"rankid"); at_column cols row ($"training"); at_column cols row ($"region"); at_column cols row ($"idx"); at_column cols row ($"policy"); at_column cols row ($"xtime")] None =
    nth k [Some (print_Z rank); Some model; Some (fst x); Some (print_Z (e_index (snd x))); Some (print_Z (e_policy (snd x))); Some (metric_text (snd x))] None) by (intros k; exact (f_equal (fun l => nth k l None) E)).
  exact (conj (N 2) (conj (N 3) (conj (N 4) (N 5)))).
Qed.
Lemma matches_image cols opt row model rank x : map (at_column cols row) six = image model rank x -> row_matches cols opt row = hits opt x.
Proof.
  intros E. destruct (image_cells _ _ _ _ _ E) as (A & B & C & _). unfold row_matches, hits. rewrite A, B, C. cbn [cell_eqb].
  rewrite (find_ext _ (fun r => bytes_eqb (o_region r) (fst x) && (o_idx r =? e_index (snd x))%Z)).
  - destruct (find _ opt) as [r|]; [|reflexivity]. rewrite printed_eqb. apply Z.eqb_sym.
  - intros r. rewrite printed_eqb, bytes_eqb_sym, Z.eqb_sym. reflexivity.
Qed.
Lemma close_image num cols opt row model rank x : map (at_column cols row) six = image model rank x -> row_close num cols opt row = near_row num opt x.
Proof.
  intros E. destruct (image_cells _ _ _ _ _ E) as (A & B & _ & D). unfold row_close, near_row. rewrite A, B, D. cbn [cell_eqb cell_number].
  rewrite (find_ext _ (fun r => bytes_eqb (o_region r) (fst x) && (o_idx r =? e_index (snd x))%Z)); [reflexivity|].
  intros r. rewrite printed_eqb, bytes_eqb_sym, Z.eqb_sym. reflexivity.
Qed.

Lemma once_image cols model rank : forall l xs, map (fun row => map (at_column cols row) six) l = map (image model rank) xs -> NoDup (map (fun x => (fst x, e_index (snd x))) xs) -> executed_once cols l = true.
Proof.
  induction l as [|row l IH]; intros [|x xs] E N; try discriminate E; [reflexivity|]. cbn [map] in E, N.
  assert (E1 : map (at_column cols row) six = image model rank x) by (exact (f_equal (hd []) E)). assert (E2 := f_equal (@tl _) E). cbn [tl] in E2. clear E. inversion N as [|? ? NI ND]; subst.
  cbn [executed_once]. rewrite (IH xs E2 ND), andb_true_r. apply negb_true_iff. destruct (existsb _ l) eqn:EX; [|reflexivity]. exfalso. apply NI. apply existsb_exists in EX as (y & I & S).
  assert (Y : exists z, In z xs /\ map (at_column cols y) six = image model rank z).
  { clear -E2 I. revert xs E2. induction l as [|row l IH]; intros xs E2; [contradiction|]. destruct xs as [|z xs]; [discriminate E2|]. cbn [map] in E2.
    assert (F1 : map (at_column cols row) six = image model rank z) by (exact (f_equal (hd []) E2)). assert (F2 := f_equal (@tl _) E2). cbn [tl] in F2.
    destruct I as [->|I]; [exists z; split; [left; reflexivity|exact F1]|]. destruct (IH I xs F2) as (v & V & W). exists v. split; [right; exact V|exact W]. }
  destruct Y as (z & Z1 & Z2). destruct (image_cells _ _ _ _ _ E1) as (A & B & _). destruct (image_cells _ _ _ _ _ Z2) as (A' & B' & _). rewrite A, B, A', B' in S. cbn [cell_same] in S.
  apply andb_true_iff in S as [S1 S2]. apply bytes_eqb_eq in S1. rewrite printed_eqb in S2. apply Z.eqb_eq in S2. apply in_map_iff. exists z. split; [rewrite S1, S2; reflexivity|exact Z1].
Qed.

Lemma relaxed_through num model trained us opt rank : missing model = false -> has_text trained model = true -> Forall regular us -> us <> [] -> Forall (fun t => tr_model t = model) us ->
  NoDup (map (fun x => (fst x, e_index (snd x))) (executions_on rank us)) ->
  compute_relaxed num (concat_tables (map table_of us)) opt rank trained =
  Ok (List.length (filter (hits opt) (executions_on rank us)) + List.length (filter (fun x => negb (hits opt x) && near_row num opt x) (executions_on rank us))).
Proof.
  intros MM HT R N M ND. unfold compute_relaxed. assert (I := mine_image model trained us rank MM HT R M). unfold mine in I. set (D := concat_tables (map table_of us)) in *.
  assert (H : forall c, In c (base ++ pair_cols) -> has_column (columns D) c = true).
  { intros c J. destruct us as [|t us']; [congruence|]. unfold D, concat_tables. cbn [columns]. apply (has_fold (trace_columns (tr_features t))); [left; reflexivity|].
    apply has_column_iff. rewrite trace_columns_joint. apply in_joint_other. exact J. }
  cbn [forallb]. rewrite !H by (cbn; tauto). cbn [andb]. cbv zeta in *. set (q := filter _ (rows D)) in *.
  rewrite (once_image _ _ _ _ _ I ND). f_equal. f_equal.
  - apply (counted_alike (columns D) (image model rank) _ _ _ _ I). intros row x E. apply (matches_image _ _ _ _ _ _ E).
  - apply (counted_alike (columns D) (image model rank) _ _ _ _ I). intros row x E. rewrite (matches_image _ _ _ _ _ _ E), (close_image _ _ _ _ _ _ _ E). reflexivity.
Qed.

Lemma accuracy_of model trained us opt rank : missing model = false -> has_text trained model = true -> Forall regular us -> us <> [] -> Forall (fun t => tr_model t = model) us ->
  compute_accuracy (concat_tables (map table_of us)) opt rank trained = Ok (List.length (filter (hits opt) (executions_on rank us)), List.length (executions_on rank us)).
Proof.
  intros MM HT R N M. unfold compute_accuracy. assert (I := mine_image model trained us rank MM HT R M). unfold mine in I. set (D := concat_tables (map table_of us)) in *.
  assert (H : forall c, In c (base ++ pair_cols) -> has_column (columns D) c = true).
  { intros c J. destruct us as [|t us']; [congruence|]. unfold D, concat_tables. cbn [columns]. apply (has_fold (trace_columns (tr_features t))); [left; reflexivity|].
    apply has_column_iff. rewrite trace_columns_joint. apply in_joint_other. exact J. }
  cbn [forallb]. rewrite !H by (cbn; tauto). cbn [andb]. cbv zeta in *. set (q := filter _ (rows D)) in *.
  f_equal. f_equal.
  - apply (counted_alike (columns D) (image model rank) _ _ _ _ I). intros row x E. apply (matches_image _ _ _ _ _ _ E).
  - assert (L := f_equal (@List.length _) I). rewrite !map_length in L. exact L.
Qed.

(** ** The best times *)

Lemma near_best num rows rank s x : arranged rows rank s -> (forall r, In r rows -> moderate (o_time r)) ->
  is_finite (num (metric_text (snd x))) = true -> (0 <= B2R (num (metric_text (snd x))) <= bpow radix2 500)%R ->
  (near_row num (drop_duplicates s) x = true -> exists t, best_time rows rank (fst x) (e_index (snd x)) t /\ (off_by t (num (metric_text (snd x))) < 0.1000001)%R) /\
  (near_row num (drop_duplicates s) x = false -> forall t, best_time rows rank (fst x) (e_index (snd x)) t -> (0.0999999 < off_by t (num (metric_text (snd x))))%R).
Proof.
  intros AR NN FD BD. destruct x as [region e]. cbn [fst snd] in *. unfold near_row. cbn [fst snd].
  assert (RS : forall r, In r s <-> In r rows /\ o_rank r = rank).
  { destruct AR as (P & _). intros r. split.
    - intros I. apply (Permutation_in _ (Permutation_sym P)) in I. apply filter_In in I as [I E]. apply Z.eqb_eq in E. auto.
    - intros [I E]. apply (Permutation_in _ P). apply filter_In. apply Z.eqb_eq in E. auto. }
  assert (NaN : forall r, In r rows -> is_nan (o_time r) = false). { intros r I. destruct (NN r I) as [F _]. destruct (o_time r); try reflexivity; discriminate F. }
  assert (FA : forall r, In r (drop_duplicates s) -> o_region r = region -> o_idx r = e_index e -> best_time rows rank region (e_index e) (o_time r)).
  { intros r I E1 E2. destruct AR as (_ & O). assert (J := drop_incl _ _ I). apply RS in J as [J K]. exists r. split; [repeat split; assumption|]. split; [reflexivity|].
    intros r' (A & B & C & D). apply not_less_le; [apply NaN; exact J|apply NaN; exact A|]. destruct (lt64 (o_time r') (o_time r)) eqn:L; [|reflexivity].
    exfalso. apply (drop_least s r r' O I); [apply RS; auto|apply same_execution_iff; split; congruence|exact L]. }
  assert (MB : forall t, best_time rows rank region (e_index e) t -> moderate t). { intros t (r & (I & _) & <- & _). apply NN. exact I. }
  assert (UQ : forall t t', best_time rows rank region (e_index e) t -> best_time rows rank region (e_index e) t' -> B2R t = B2R t').
  { intros t t' BT BT'. destruct (MB _ BT) as [F1 _]. destruct (MB _ BT') as [F2 _]. destruct BT as (r & M & <- & L). destruct BT' as (r' & M' & <- & L').
    apply Rle_antisym; apply ble_R; auto. }
  assert (OFF : forall t, moderate t -> (off_by t (num (metric_text e)) * B2R t = gap t (num (metric_text e)))%R /\ (0 < B2R t)%R).
  { intros t [_ [L _]]. assert (Q := bpow_gt_0 radix2 (-500)). assert (PT : (0 < B2R t)%R) by (apply Rlt_le_trans with (1 := Q); exact L). split; [|exact PT]. unfold off_by, gap. field. apply Rgt_not_eq. exact PT. }
  assert (NF : forall t, moderate t -> (off_by t (num (metric_text e)) <= 0.0999999)%R -> within_ten t (num (metric_text e)) = true).
  { intros t MT L. destruct (OFF t MT) as (E & P). destruct MT as [F B]. apply near_counted; auto. rewrite <- E. apply Rmult_le_compat_r; [apply Rlt_le; exact P|exact L]. }
  assert (FF : forall t, moderate t -> (0.1000001 <= off_by t (num (metric_text e)))%R -> within_ten t (num (metric_text e)) = false).
  { intros t MT L. destruct (OFF t MT) as (E & P). destruct MT as [F B]. apply far_not_counted; auto. rewrite <- E. apply Rmult_le_compat_r; [apply Rlt_le; exact P|exact L]. }
  destruct (find _ (drop_duplicates s)) as [r|] eqn:F.
  - apply find_some in F as [I E]. apply andb_true_iff in E as [E1 E2]. apply bytes_eqb_eq in E1. apply Z.eqb_eq in E2. specialize (FA r I E1 E2). split.
    + intros W. exists (o_time r). split; [exact FA|]. apply Rnot_le_lt. intros L. rewrite (FF _ (MB _ FA) L) in W. discriminate.
    + intros W t BT. apply Rnot_le_lt. intros L. rewrite (NF (o_time r) (MB _ FA)) in W; [discriminate|]. unfold off_by in *. rewrite (UQ _ _ FA BT). exact L.
  - split; [discriminate|]. intros _ t (r & (A & B & C & D) & _). exfalso. assert (J : In r s) by (apply RS; auto). destruct (drop_covers s r J) as (y & Y & S). apply same_execution_iff in S as [S1 S2].
    apply (find_none _ _ F) in Y. rewrite S1, S2, C, D, bytes_eqb_refl, Z.eqb_refl in Y. discriminate.
Qed.

Lemma executions_perm rank ts us : Permutation us ts -> Permutation (executions_on rank us) (executions_on rank ts).
Proof. intros P. unfold executions_on. apply flat_map_perm. exact P. Qed.

Theorem explored_relaxed ex num rows ts dir rank s : Forall (fun c => c <> "*"%char) ex -> explorations ex ts dir ->
  arranged rows rank s -> (forall r, In r rows -> moderate (o_time r)) -> decided rows rank ->
  NoDup (map (fun x => (fst x, e_index (snd x))) (executions_on rank ts)) ->
  Forall (fun x => is_finite (num (metric_text (snd x))) = true /\ (0 <= B2R (num (metric_text (snd x))) <= bpow radix2 500)%R) (executions_on rank ts) ->
  exists data yes near far, load_traces dir [ex] = Ok data /\ Permutation (yes ++ near ++ far) (executions_on rank ts) /\
    Forall (used_fastest rows rank) yes /\
    Forall (fun x => ~ used_fastest rows rank x /\ exists t, best_time rows rank (fst x) (e_index (snd x)) t /\ (off_by t (num (metric_text (snd x))) < 0.1000001)%R) near /\
    Forall (fun x => ~ used_fastest rows rank x /\ forall t, best_time rows rank (fst x) (e_index (snd x)) t -> (0.0999999 < off_by t (num (metric_text (snd x))))%R) far /\
    compute_relaxed num data (drop_duplicates s) rank ($"DecisionTree") = Ok (List.length yes + List.length near).
Proof.
  intros PL XP AR NN DC ND FD. destruct (explored_loaded ex ts dir PL XP) as (us & P & L & N & R & M). assert (EP := executions_perm rank ts us P).
  assert (NaN : forall r, In r rows -> is_nan (o_time r) = false). { intros r I. destruct (NN r I) as [F _]. destruct (o_time r); try reflexivity; discriminate F. }
  set (h := hits (drop_duplicates s)). set (c := near_row num (drop_duplicates s)). set (xs := executions_on rank us) in *.
  exists (concat_tables (map table_of us)), (filter h xs), (filter (fun x => negb (h x) && c x) xs), (filter (fun x => negb (h x) && negb (c x)) xs).
  assert (FX : forall x, In x xs -> is_finite (num (metric_text (snd x))) = true /\ (0 <= B2R (num (metric_text (snd x))) <= bpow radix2 500)%R).
  { intros x I. rewrite Forall_forall in FD. apply FD. apply (Permutation_in _ EP). exact I. }
  split; [exact L|]. split; [|split; [|split; [|split]]].
  - etransitivity; [|exact EP]. etransitivity; [|apply (filter_split h)]. apply Permutation_app_head. clear. induction xs as [|x xs IH]; [constructor|]. cbn [filter]. destruct (h x); cbn [negb andb]; [exact IH|].
    destruct (c x); cbn [negb app]; [constructor; exact IH|]. rewrite <- Permutation_middle. constructor. exact IH.
  - apply Forall_forall. intros x I. apply filter_In in I as [_ I]. apply (hits_fastest rows rank s x AR NaN DC). exact I.
  - apply Forall_forall. intros x I. apply filter_In in I as [J I]. apply andb_true_iff in I as [I1 I2]. split.
    + intros U. apply (hits_fastest rows rank s x AR NaN DC) in U. unfold h in I1. rewrite U in I1. discriminate.
    + destruct (FX x J) as [F B]. apply (proj1 (near_best num rows rank s x AR NN F B)). exact I2.
  - apply Forall_forall. intros x I. apply filter_In in I as [J I]. apply andb_true_iff in I as [I1 I2]. split.
    + intros U. apply (hits_fastest rows rank s x AR NaN DC) in U. unfold h in I1. rewrite U in I1. discriminate.
    + destruct (FX x J) as [F B]. apply (proj2 (near_best num rows rank s x AR NN F B)). destruct (near_row num (drop_duplicates s) x) eqn:Q; [|reflexivity]. unfold c in I2. rewrite Q in I2. discriminate.
  - apply (relaxed_through num ($"DecisionTree")); auto. apply (Permutation_NoDup (Permutation_map _ (Permutation_sym EP))). exact ND.
Qed.
