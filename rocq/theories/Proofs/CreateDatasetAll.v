From Coq Require Import List ZArith Bool Ascii String Lia.
From Flocq Require Import BinarySingleNaN.
From Verif Require Import Model.Base Model.Float Model.Decimal Model.DatasetM Model.RuntimeM Model.CreateDatasetM Spec.DatasetSpec Spec.RuntimeSpec Spec.CreateDatasetSpec
  Proofs.TreeFacts Proofs.ModelStringFacts Proofs.LoadFacts Proofs.DecimalInt Proofs.DecimalRead Proofs.RuntimeCreate Proofs.CreateDatasetFacts.
From Coq Require Import List.
Import ListNotations.

(** The columns pandas finds in the trace of all regions. *)
Definition extras : list bytes := [$"#"; $"timestamp"; $"(us),"; $"region,"; $"idx,"; $"model,"].
Definition gcols : list bytes := extras ++ [$"policy"].
Definition gfields (g : global_entry) : list bytes := [print_Z (ge_time g); ge_region g; print_Z (ge_index g); ge_model g; []; print_Z (ge_policy g)].
Definition grow (g : global_entry) : list cell := map cell_of (gfields g) ++ [None].
Definition file_table (f : trace_file) : table := match f with OfRegion t => table_of t | OfAll l => mkTable gcols (map grow l) end.

Lemma gline_spaced g : global_line g = spaced (gfields g) ++ [nl].
Proof. unfold global_line, gfields. cbn [spaced]. rewrite <- !app_assoc. reflexivity. Qed.
Lemma gfields_plain g : field (ge_region g) -> field (ge_model g) -> Forall (Forall (fun c => c <> " "%char /\ c <> nl)) (gfields g).
Proof. intros A B. unfold gfields. repeat (apply Forall_cons; [auto using print_Z_plain, field_plain|]). apply Forall_nil. Qed.
Lemma gcols_plain : Forall (Forall (fun c => c <> " "%char /\ c <> nl)) gcols.
Proof. repeat constructor; discriminate. Qed.

Lemma read_csv_global l : Forall (fun g => field (ge_region g) /\ field (ge_model g)) l -> read_csv (global_text l) = Ok (Some (mkTable gcols (map grow l))).
Proof.
  intros F. unfold read_csv, global_text.
  assert (E : global_header ++ List.concat (map global_line l) = List.concat (map (fun x => x ++ [nl]) (spaced gcols :: map (fun g => spaced (gfields g)) l))).
  { cbn [map List.concat]. f_equal. f_equal. rewrite map_map. apply map_ext. intros g. apply gline_spaced. }
  rewrite E, split_lines.
  2:{ constructor; [apply spaced_plain, gcols_plain|]. apply Forall_map. eapply Forall_impl; [|exact F]. intros g [A B]. apply spaced_plain, gfields_plain; assumption. }
  rewrite keep_lines.
  2:{ constructor; [discriminate|]. apply Forall_map, Forall_forall. intros g _. unfold gfields. rewrite spaced_concat. intros N. apply app_eq_nil in N as [N _]. apply (print_Z_nonempty _ N). }
  rewrite split_spaced by (try (apply no_space, gcols_plain); discriminate).
  rewrite map_map. assert (M : map (fun g => split_at " " (spaced (gfields g))) l = map gfields l).
  { apply map_ext_in. intros g I. rewrite Forall_forall in F. destruct (F g I). apply split_spaced; [discriminate|]. apply no_space, gfields_plain; assumption. }
  rewrite M. cbv zeta.
  replace (forallb _ (map gfields l)) with true.
  2:{ symmetry. apply forallb_forall. intros x I. apply in_map_iff in I as (g & <- & I). reflexivity. }
  do 3 f_equal. rewrite map_map. reflexivity.
Qed.

Lemma read_all_files fs : Forall readable_file fs -> read_all (map file_text fs) = Ok (map file_table fs).
Proof.
  induction 1 as [|f fs H Hs IH]; [reflexivity|]. cbn [map read_all]. destruct f as [t|l]; cbn [file_text file_table].
  - rewrite read_csv_trace, IH by exact H. reflexivity.
  - rewrite read_csv_global, IH by exact H. reflexivity.
Qed.

Definition cols_of (fs : list trace_file) : list bytes := fold_left union (map columns (map file_table fs)) [].
Definition plain_name (c : bytes) : bool := negb (has_column extras c).

Lemma plain_trace c k : In c (trace_columns k) -> plain_name c = true.
Proof.
  intros I. unfold plain_name. apply negb_true_iff, has_column_false. intros J. rewrite trace_columns_eq in I. rewrite !in_app_iff in I.
  cbn in J. repeat (destruct J as [<-|J]; [destruct I as [I|[I|I]]; [cbn in I; intuition discriminate|apply span_is in I as (i & E & _); unfold fname in E; cbn in E; discriminate|cbn in I; intuition discriminate]|]). exact J.
Qed.

Lemma filter_plain_union_trace L k : filter plain_name (union L (trace_columns k)) = union (filter plain_name L) (trace_columns k).
Proof.
  unfold union. rewrite filter_app. f_equal. rewrite filter_filter.
  apply filter_ext_in. intros c I. rewrite (plain_trace c k I), andb_true_r. f_equal.
  destruct (has_column L c) eqn:E; symmetry.
  - apply has_column_iff, filter_In. split; [apply has_column_iff; exact E|exact (plain_trace c k I)].
  - apply has_column_false. intros J. apply filter_In in J as [J _]. apply has_column_iff in J. congruence.
Qed.
Lemma filter_plain_union_global L : In ($"policy") L -> filter plain_name (union L gcols) = filter plain_name L.
Proof.
  intros P. unfold union. rewrite filter_app, filter_filter. rewrite (filter_none _ gcols), app_nil_r; [reflexivity|].
  intros c I. unfold gcols in I. apply in_app_iff in I as [I|[<-|[]]].
  - apply andb_false_iff. right. unfold plain_name. apply negb_false_iff, has_column_iff. exact I.
  - apply has_column_iff in P. rewrite P. reflexivity.
Qed.

Lemma cols_plain k1 m fs : forall L, (k1 <= m)%nat -> filter plain_name L = joint k1 m ->
  filter plain_name (fold_left union (map columns (map file_table fs)) L) = joint k1 (fold_left Nat.max (map tr_features (of_regions fs)) m).
Proof.
  revert m. induction fs as [|f fs IH]; intros m L LE H; [exact H|]. destruct f as [t|l]; cbn [map file_table fold_left of_regions flat_map app].
  - apply IH; [lia|]. cbn [table_of columns]. rewrite filter_plain_union_trace, H. apply union_joint. exact LE.
  - apply IH; [exact LE|]. cbn [columns]. rewrite filter_plain_union_global; [exact H|].
    assert (J : In ($"policy") (joint k1 m)) by (apply in_joint_other; cbn; tauto). rewrite <- H in J. apply filter_In in J. tauto.
Qed.
Lemma in_union_l a b c : In c a -> In c (union a b).
Proof. intros I. unfold union. apply in_app_iff. auto. Qed.
Lemma in_fold_l ls : forall L c, In c L -> In c (fold_left union ls L).
Proof. induction ls as [|l ls IH]; intros L c I; [exact I|]. cbn. apply IH, in_union_l, I. Qed.
Lemma region_in_cols fs t : In (OfRegion t) fs -> In ($"region") (cols_of fs).
Proof.
  intros I. unfold cols_of. apply has_column_iff. apply (has_fold (columns (table_of t))).
  - rewrite map_map. apply in_map_iff. exists (OfRegion t). auto.
  - apply has_column_iff. cbn [table_of columns]. rewrite trace_columns_joint. apply in_joint_other. cbn. tauto.
Qed.

Definition data_of (fs : list trace_file) : table := concat_tables (map file_table fs).

(** The region of each row. *)
Definition named (fs : list trace_file) : list cell :=
  flat_map (fun f => match f with OfRegion t => repeat (Some (tr_region t)) (List.length (tr_entries t)) | OfAll l => repeat None (List.length l) end) fs.

Lemma map_repeat_const {A B} (f : A -> B) b l : (forall x, In x l -> f x = b) -> map f l = repeat b (List.length l).
Proof. induction l as [|x l IH]; intros H; [reflexivity|]. cbn. rewrite (H x (or_introl eq_refl)), IH; [reflexivity|]. intros y I. apply H. right; exact I. Qed.

Lemma glook_region g : at_column gcols (grow g) ($"region") = None.
Proof. reflexivity. Qed.

Lemma region_cells fs : Forall readable_file fs -> In ($"region") (cols_of fs) ->
  map (fun row => at_column (columns (data_of fs)) row ($"region")) (rows (data_of fs)) = named fs.
Proof.
  intros F I. apply has_column_iff in I. unfold data_of, concat_tables. cbn [columns rows]. fold (cols_of fs).
  assert (G : forall cols gs, has_column cols ($"region") = true -> Forall readable_file gs ->
    map (fun row => at_column cols row ($"region")) (flat_map (fun t => map (fun row => map (at_column (columns t) row) cols) (rows t)) (map file_table gs)) = named gs).
  { clear. intros cols gs I. induction 1 as [|f gs H Hs IH]; [reflexivity|]. unfold named in *. cbn [map flat_map]. rewrite map_app, IH. f_equal. rewrite map_map.
    destruct f as [t|l]; cbn [file_table columns rows table_of]; rewrite map_map.
    - apply map_repeat_const. intros e _. rewrite at_column_map, I. change (look t e ($"region") = Some (tr_region t)). apply look_region. apply rd_region. exact H.
    - apply map_repeat_const. intros e _. rewrite at_column_map, I. apply glook_region. }
  apply G; assumption.
Qed.

(** The rows of a region are those of its traces. *)
Lemma region_rows_all cols gs r : In ($"region") cols -> Forall readable_file gs ->
  filter (fun row => cell_eqb (at_column cols row ($"region")) (Some r))
    (flat_map (fun t => map (fun row => map (at_column (columns t) row) cols) (rows t)) (map file_table gs))
  = map (fun g => map g cols) (looks r (of_regions gs)).
Proof.
  intros I F. assert (I' := I). apply has_column_iff in I'. induction F as [|f gs H Hs IH]; [reflexivity|]. cbn [map flat_map]. rewrite filter_app, IH.
  destruct f as [t|l]; cbn [file_table of_regions flat_map app].
  - change (of_regions gs) with (flat_map (fun f => match f with OfRegion t => [t] | OfAll _ => [] end) gs).
    assert (R := region_rows [t] r cols (Forall_cons t (H : readable t) (Forall_nil readable)) I). cbn [map flat_map] in R. rewrite app_nil_r in R. rewrite R.
    unfold looks, traces_of. cbn [filter]. destruct (bytes_eqb (tr_region t) r); cbn [flat_map app]; [rewrite app_nil_r, map_app; reflexivity|reflexivity].
  - rewrite filter_none; [reflexivity|]. intros row R. cbn [columns rows] in R. rewrite map_map in R. apply in_map_iff in R as (g & <- & _). rewrite at_column_map, I'. reflexivity.
Qed.

Lemma look_extra t e c : has_column extras c = true -> look t e c = None.
Proof.
  intros H. apply at_column_absent. apply has_column_false. intros I. apply plain_trace in I. unfold plain_name in I. rewrite H in I. discriminate.
Qed.

(** Traces of all regions change nothing for a region, if one of a region comes first. *)
Lemma region_records_mixed t1 fs r : readable t1 -> Forall readable_file fs ->
  region_records (data_of (OfRegion t1 :: fs)) r = create_none (map trace_text (t1 :: of_regions fs)) r.
Proof.
  intros R1 F. assert (FR : Forall readable (t1 :: of_regions fs)).
  { constructor; [exact R1|]. apply Forall_forall. intros t I. unfold of_regions in I. apply in_flat_map in I as ([t'|l] & I & J); [|contradiction].
    destruct J as [->|[]]. rewrite Forall_forall in F. exact (F _ I). }
  rewrite created by exact FR. cbv zeta. set (k1 := tr_features t1). set (m := fold_left Nat.max (map tr_features (of_regions fs)) k1).
  unfold region_records, of_region, data_of, concat_tables. cbn [columns rows]. fold (cols_of (OfRegion t1 :: fs)). set (L := cols_of (OfRegion t1 :: fs)).
  rewrite region_rows_all; [|apply (region_in_cols _ t1); left; reflexivity|constructor; assumption].
  change (of_regions (OfRegion t1 :: fs)) with (t1 :: of_regions fs). set (gs := looks r (t1 :: of_regions fs)). rewrite !dropna_looks.
  destruct gs as [|g0 gs0] eqn:EG; [reflexivity|]. rewrite <- EG in *.
  assert (K : kept L gs = kept (joint k1 m) gs).
  { assert (P : filter plain_name L = joint k1 m).
    { unfold L, cols_of. cbn [map fold_left]. rewrite union_nil. apply cols_plain; [apply le_n|]. cbn [file_table table_of columns].
      rewrite filter_all by (intros c; apply plain_trace). apply trace_columns_joint. }
    rewrite <- P. unfold kept. rewrite filter_filter. apply filter_ext. intros c. destruct (plain_name c) eqn:E; [rewrite andb_true_l; reflexivity|].
    unfold plain_name in E. apply negb_false_iff in E. rewrite EG. cbn [forallb].
    assert (I : In g0 gs) by (rewrite EG; left; reflexivity). unfold gs, looks in I. apply in_flat_map in I as (t & _ & I). apply in_map_iff in I as (e & <- & _).
    rewrite look_extra by exact E. reflexivity. }
  rewrite K. reflexivity.
Qed.

Lemma region_records_or data r : (exists l, region_records data r = Ok l) \/ region_records data r = Throw.
Proof.
  unfold region_records. set (t := reset_index _). clearbody t. induction (rows t) as [|row rs IH]; [left; eexists; reflexivity|]. cbn [map_all].
  assert (R : (exists y, record_of t row = Ok y) \/ record_of t row = Throw).
  { unfold record_of. match goal with |- context [cells_of ?l] => destruct (cells_of_or l) as [[f X]|X] end; rewrite X; [|right; reflexivity]. cbn [bind].
    destruct (at_column (columns t) row ($"policy")); [|right; reflexivity]. destruct (at_column (columns t) row ($"xtime")); [left; eexists; reflexivity|right; reflexivity]. }
  destruct R as [[y ->]| ->]; [|right; reflexivity]. cbn [bind]. destruct IH as [[l ->]| ->]; [left; eexists; reflexivity|right; reflexivity].
Qed.

(** *** The loop *)
Lemma cell_same_iff a b : cell_same a b = true <-> a = b.
Proof. destruct a, b; cbn; try (split; congruence). rewrite bytes_eqb_eq. split; congruence. Qed.
Lemma unique_in l x : In x (unique l) <-> In x l.
Proof.
  induction l as [|y l IH]; [reflexivity|]. cbn. rewrite filter_In, IH. split; [tauto|].
  intros [->|I]; [auto|]. destruct (cell_same y x) eqn:E; [apply cell_same_iff in E; auto|]. right. auto.
Qed.
Lemma unique_NoDup l : NoDup (unique l).
Proof.
  induction l as [|y l IH]; [constructor|]. cbn. constructor.
  - intros I. apply filter_In in I as [_ I]. rewrite (proj2 (cell_same_iff y y) eq_refl) in I. discriminate.
  - apply NoDup_filter. exact IH.
Qed.
Lemma unique_split a b : (forall x, In x a -> x <> None) -> exists rest, unique (a ++ None :: b) = unique a ++ None :: rest.
Proof.
  induction a as [|x a IH]; intros H; [exists (filter (fun y => negb (cell_same None y)) (unique b)); reflexivity|].
  destruct (IH (fun y I => H y (or_intror I))) as (rest & E). cbn. rewrite E, filter_app. cbn [filter].
  destruct x as [x|]; [|exfalso; apply (H None); [left; reflexivity|reflexivity]]. cbn [cell_same negb]. eexists. reflexivity.
Qed.

Lemma write_dies data u rest : (forall x, In x u -> x <> None) -> exists written, write_sets data (u ++ None :: rest) = (written, Throw) /\ forall r, In r (map fst written) -> In (Some r) u.
Proof.
  induction u as [|x u IH]; intros H; [exists []; split; [reflexivity|contradiction]|].
  destruct x as [x|]; [|exfalso; apply (H None); [left; reflexivity|reflexivity]]. cbn [app write_sets].
  destruct (region_records_or data x) as [[l E]|E]; rewrite E.
  - destruct (IH (fun y I => H y (or_intror I))) as (w & E2 & S). rewrite E2. exists ((x, l) :: w). split; [reflexivity|].
    intros r [<-|I]; [left; reflexivity|right; apply S; exact I].
  - exists []. split; [reflexivity|contradiction].
Qed.
Lemma write_all_ok data h u tail : (forall r, In (Some r) u -> region_records data r = Ok (h r)) -> (forall x, In x u -> x <> None) ->
  (tail = [] \/ exists rest, tail = None :: rest) ->
  exists names, u = map Some names /\ write_sets data (u ++ tail) = (map (fun r => (r, h r)) names, match tail with [] => Ok tt | _ => Throw end).
Proof.
  intros H N T. induction u as [|x u IH].
  - exists []. split; [reflexivity|]. destruct T as [->|(rest & ->)]; reflexivity.
  - destruct x as [x|]; [|exfalso; apply (N None); [left; reflexivity|reflexivity]]. cbn [app write_sets]. rewrite (H x (or_introl eq_refl)).
    destruct IH as (names & E & W); [intros r I; apply H; right; exact I|intros y I; apply N; right; exact I|]. rewrite W. exists (x :: names). split; [cbn; congruence|reflexivity].
Qed.

Lemma create_files fs : Forall readable_file fs -> (exists t, In (OfRegion t) fs) -> create (map file_text fs) [] = write_sets (data_of fs) (unique (named fs)).
Proof.
  intros F (t & I). unfold create, read_data. destruct fs as [|f fs]; [contradiction|]. cbn [map]. unfold read_tracefiles.
  change (file_text f :: map file_text fs) with (map file_text (f :: fs)). rewrite read_all_files by exact F.
  change (map file_table (f :: fs)) with (file_table f :: map file_table fs) at 1. cbn [bind]. fold (data_of (f :: fs)).
  change (file_table f :: map file_table fs) with (map file_table (f :: fs)). fold (data_of (f :: fs)).
  assert (C := region_in_cols _ _ I). replace (has_column (columns (data_of (f :: fs))) ($"region")) with true by (symmetry; apply has_column_iff; exact C).
  unfold regions. rewrite region_cells by assumption. reflexivity.
Qed.

Lemma create_dirs dirs : dirs <> [] -> Forall (fun d => d <> []) dirs -> Forall (Forall readable_file) dirs ->
  create [] (map (map file_text) dirs) = create (map file_text (List.concat dirs)) [].
Proof.
  intros N NN F. unfold create. rewrite directories; [rewrite concat_map; reflexivity|destruct dirs; [contradiction|discriminate]| |left; reflexivity].
  apply Forall_map, Forall_forall. intros d I. rewrite Forall_forall in NN, F. assert (D := NN d I). exists (concat_tables (map file_table d)).
  apply read_tracefiles_ok. exists (map file_table d). split; [apply read_all_files, F, I|]. split; [destruct d; [contradiction|discriminate]|reflexivity].
Qed.

Lemma named_app a b : named (a ++ b) = named a ++ named b.
Proof. apply flat_map_app. Qed.
Lemma named_traces ts : forall x, In x (named (map OfRegion ts)) <-> exists r, x = Some r /\ executed ts r.
Proof.
  intros x. unfold named. rewrite in_flat_map. split.
  - intros (f & I & J). apply in_map_iff in I as (t & <- & I). apply repeat_spec in J as E. subst x. exists (tr_region t). split; [reflexivity|].
    exists t. repeat split; [exact I|]. intros E. rewrite E in J. destruct J.
  - intros (r & -> & t & I & <- & N). exists (OfRegion t). split; [apply in_map; exact I|]. destruct (tr_entries t); [contradiction|]. left. reflexivity.
Qed.
Lemma named_some ts x : In x (named (map OfRegion ts)) -> x <> None.
Proof. intros I. apply named_traces in I as (r & -> & _). discriminate. Qed.
Lemma of_regions_map ts : of_regions (map OfRegion ts) = ts.
Proof. unfold of_regions. induction ts as [|t ts IH]; [reflexivity|]. cbn. f_equal. exact IH. Qed.
Lemma of_regions_app a b : of_regions (a ++ b) = of_regions a ++ of_regions b.
Proof. apply flat_map_app. Qed.
Lemma named_all g fs : g <> [] -> exists rest, named (OfAll g :: fs) = None :: rest.
Proof. intros N. destruct g as [|e g]; [contradiction|]. unfold named. cbn. eexists. reflexivity. Qed.

Theorem first_none dirs g post : g <> [] -> Forall (fun d => d <> []) dirs -> Forall (Forall readable_file) dirs -> List.concat dirs = OfAll g :: post ->
  create [] (map (map file_text) dirs) = ([], Throw).
Proof.
  intros N NN F E. rewrite create_dirs by (try assumption; intros ->; discriminate). rewrite E. apply Forall_concat in F. rewrite E in F.
  unfold create, read_data. cbn [map]. change (file_text (OfAll g) :: map file_text post) with (map file_text (OfAll g :: post)).
  unfold read_tracefiles. rewrite read_all_files by exact F. change (map file_table (OfAll g :: post)) with (file_table (OfAll g) :: map file_table post) at 1. cbn [bind].
  change (file_table (OfAll g) :: map file_table post) with (map file_table (OfAll g :: post)). fold (data_of (OfAll g :: post)).
  destruct (has_column (columns (data_of (OfAll g :: post))) ($"region")) eqn:H; [|reflexivity].
  unfold regions. rewrite region_cells; [|exact F|apply has_column_iff; exact H]. destruct (named_all g post N) as (rest & ->). reflexivity.
Qed.

Theorem global_dies dirs first pre g post : g <> [] -> Forall (fun d => d <> []) dirs -> Forall (Forall readable_file) dirs ->
  List.concat dirs = map OfRegion (first :: pre) ++ OfAll g :: post ->
  exists written, create [] (map (map file_text) dirs) = (written, Throw) /\ forall r, In r (map fst written) -> executed (first :: pre) r.
Proof.
  intros N NN F E. rewrite create_dirs by (try assumption; intros ->; discriminate). rewrite E. apply Forall_concat in F. rewrite E in F.
  rewrite create_files; [|exact F|exists first; left; reflexivity]. rewrite named_app. destruct (named_all g post N) as (rest & ->).
  destruct (unique_split (named (map OfRegion (first :: pre))) rest (named_some _)) as (rest2 & U).
  match goal with |- context [unique ?l] => replace (unique l) with (unique (named (map OfRegion (first :: pre))) ++ None :: rest2) by (symmetry; exact U) end.
  destruct (write_dies (data_of (map OfRegion (first :: pre) ++ OfAll g :: post)) (unique (named (map OfRegion (first :: pre)))) rest2) as (w & W & S).
  { intros x I. apply (proj1 (unique_in _ _)) in I. apply (named_some _ _ I). }
  exists w. split; [exact W|]. intros r I. apply S in I. apply (proj1 (unique_in _ _)) in I. apply (proj1 (named_traces _ _)) in I as (r' & E2 & X). injection E2 as <-. exact X.
Qed.

Lemma displaced_short k1 e : (List.length (e_features e) <= k1)%nat -> displaced k1 e = feature_texts e.
Proof.
  intros H. unfold displaced. assert (L := feature_texts_length e). rewrite (firstn_all2 (n := k1)) by lia. rewrite <- L, firstn_app, Nat.sub_diag, firstn_all. apply app_nil_r.
Qed.

Lemma orderly_records first ts r : orderly (first :: ts) ->
  create_none (map trace_text (first :: ts)) r = Ok (map (fun e => (displaced (tr_features first) e, policy_text e, metric_text e)) (entries_of r (first :: ts))).
Proof.
  intros (R & S). assert (RD : Forall readable (first :: ts)).
  { eapply Forall_impl; [|exact R]. intros t [A B C]. split; [exact A|exact B|]. eapply Forall_impl; [|exact C]. cbn. intros e (E & _). rewrite E. apply le_n. }
  assert (X : exists k, Forall (fun t => regular t /\ tr_features t = k) (traces_of r (first :: ts))).
  { destruct (traces_of r (first :: ts)) as [|t0 l] eqn:T; [exists 0%nat; apply Forall_nil|]. rewrite <- T. exists (tr_features t0).
    assert (I0 : In t0 (traces_of r (first :: ts))) by (rewrite T; left; reflexivity). apply filter_In in I0 as [I0 E0].
    apply Forall_forall. intros t I. apply filter_In in I as [I E]. rewrite Forall_forall in R. split; [apply R; exact I|].
    apply S; [exact I|exact I0|]. apply bytes_eqb_eq in E, E0. congruence. }
  destruct X as (k & X). rewrite (records_of first ts r k RD X). f_equal. apply map_ext_in. intros e I.
  destruct (Nat.leb_spec k (tr_features first)); [|reflexivity]. rewrite displaced_short; [reflexivity|].
  unfold entries_of in I. apply in_concat in I as (l & I & J). apply in_map_iff in I as (t & <- & I). rewrite Forall_forall in X. destruct (X t I) as ([_ _ C] & <-).
  rewrite Forall_forall in C. destruct (C e J) as (-> & _). assumption.
Qed.

Lemma map_Some_NoDup {A} (l : list A) : NoDup (map Some l) -> NoDup l.
Proof. apply NoDup_map_inv. Qed.

Lemma create_names first pre tail : Forall readable_file (map OfRegion (first :: pre) ++ tail) -> orderly (first :: pre ++ of_regions tail) ->
  (tail = [] \/ exists g post, tail = OfAll g :: post /\ g <> []) ->
  exists names, NoDup names /\ (forall r, In r names <-> executed (first :: pre) r) /\
    create (map file_text (map OfRegion (first :: pre) ++ tail)) [] =
      (map (fun r => (r, map (fun e => (displaced (tr_features first) e, policy_text e, metric_text e)) (entries_of r (first :: pre ++ of_regions tail)))) names,
       match tail with [] => Ok tt | _ => Throw end).
Proof.
  intros F O T. rewrite create_files; [|exact F|exists first; left; reflexivity].
  set (fs := map OfRegion (first :: pre) ++ tail) in *. set (u := unique (named (map OfRegion (first :: pre)))).
  assert (U : exists tl, unique (named fs) = u ++ tl /\ ((tl = [] /\ tail = []) \/ ((exists rest, tl = None :: rest) /\ tail <> []))).
  { destruct T as [->|(g & post & -> & N)].
    - exists []. unfold fs. rewrite !app_nil_r. auto.
    - unfold fs. rewrite named_app. destruct (named_all g post N) as (rest & ->). destruct (unique_split (named (map OfRegion (first :: pre))) rest (named_some _)) as (rest2 & E).
      exists (None :: rest2). split; [exact E|]. right. split; [eexists; reflexivity|discriminate]. }
  destruct U as (tl & -> & TL).
  destruct (write_all_ok (data_of fs) (fun r => map (fun e => (displaced (tr_features first) e, policy_text e, metric_text e)) (entries_of r (first :: pre ++ of_regions tail))) u tl) as (names & EN & W).
  - intros r I. assert (FT : Forall readable_file (map OfRegion pre ++ tail)) by (inversion F; assumption).
    assert (R1 : readable first) by (inversion F; assumption).
    change fs with (OfRegion first :: (map OfRegion pre ++ tail)). rewrite region_records_mixed by assumption.
    rewrite of_regions_app, of_regions_map. apply orderly_records. exact O.
  - intros x I. unfold u in I. apply (proj1 (unique_in _ _)) in I. apply (named_some _ _ I).
  - destruct TL as [[A _]|[A _]]; [left; exact A|right; exact A].
  - exists names. split; [apply map_Some_NoDup; rewrite <- EN; apply unique_NoDup|]. split.
    + intros r. assert (X : In (Some r) u <-> In r names). { rewrite EN, in_map_iff. split; [intros (y & E & I); injection E as <-; exact I|intros I; exists r; auto]. }
      rewrite <- X. unfold u. rewrite unique_in, named_traces. split; [intros (r' & E & H); injection E as <-; exact H|intros H; exists r; auto].
    + etransitivity; [exact W|]. f_equal. destruct TL as [[-> ->]|[(rest & ->) TN]]; [reflexivity|]. destruct tail; [contradiction|reflexivity].
Qed.

Theorem global_before dirs first pre g post : g <> [] -> Forall (fun d => d <> []) dirs -> Forall (Forall readable_file) dirs ->
  List.concat dirs = map OfRegion (first :: pre) ++ OfAll g :: post -> orderly (first :: pre ++ of_regions post) ->
  exists names, NoDup names /\ (forall r, In r names <-> executed (first :: pre) r) /\
    create [] (map (map file_text) dirs) =
      (map (fun r => (r, map (fun e => (displaced (tr_features first) e, policy_text e, metric_text e)) (entries_of r (first :: pre ++ of_regions post)))) names, Throw).
Proof.
  intros N NN F E O. rewrite create_dirs by (try assumption; intros ->; discriminate). rewrite E. apply Forall_concat in F. rewrite E in F.
  apply (create_names first pre (OfAll g :: post) F O). right. exists g, post. auto.
Qed.
Lemma map_files ts : map file_text (map OfRegion ts) = map trace_text ts.
Proof. rewrite map_map. reflexivity. Qed.
Theorem clean_written first ts : orderly (first :: ts) ->
  exists names, NoDup names /\ (forall r, In r names <-> executed (first :: ts) r) /\
    create (map trace_text (first :: ts)) [] =
      (map (fun r => (r, map (fun e => (displaced (tr_features first) e, policy_text e, metric_text e)) (entries_of r (first :: ts)))) names, Ok tt).
Proof.
  intros O. destruct (create_names first ts []) as (names & A & B & C).
  - rewrite app_nil_r. apply Forall_map. destruct O as [R _]. eapply Forall_impl; [|exact R]. intros t [X Y Z]. split; [exact X|exact Y|]. eapply Forall_impl; [|exact Z]. cbn. intros e (E & _). rewrite E. apply le_n.
  - cbn [of_regions flat_map]. rewrite app_nil_r. exact O.
  - left. reflexivity.
  - exists names. split; [exact A|]. split; [exact B|]. rewrite app_nil_r, map_files in C. rewrite C. cbn [of_regions flat_map]. rewrite app_nil_r. reflexivity.
Qed.
