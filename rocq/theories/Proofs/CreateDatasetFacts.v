From Coq Require Import List ZArith Bool Ascii String Lia.
From Flocq Require Import BinarySingleNaN.
From Verif Require Import Model.Base Model.Float Model.Decimal Model.DatasetM Model.RuntimeM Model.CreateDatasetM Spec.DatasetSpec Spec.RuntimeSpec Spec.CreateDatasetSpec
  Proofs.TreeFacts Proofs.ModelStringFacts Proofs.LoadFacts Proofs.DecimalInt Proofs.DecimalRead Proofs.RuntimeCreate.
From Coq Require Import List.
Import ListNotations.

Lemma eqb_c (a b : ascii) : a <> b -> Ascii.eqb a b = false.
Proof. intros H. apply Ascii.eqb_neq. exact H. Qed.

Lemma split_at_app c a b : Forall (fun x => x <> c) a -> split_at c (a ++ c :: b) = a :: split_at c b.
Proof.
  induction 1 as [|x a Hx Ha IH]; cbn [app split_at].
  - rewrite Ascii.eqb_refl. reflexivity.
  - rewrite (eqb_c _ _ Hx), IH. reflexivity.
Qed.
Lemma split_at_last c a : Forall (fun x => x <> c) a -> split_at c a = [a].
Proof. induction 1 as [|x a Hx Ha IH]; cbn [split_at]; [reflexivity|]. rewrite (eqb_c _ _ Hx), IH. reflexivity. Qed.

Lemma split_spaced l : l <> [] -> Forall (Forall (fun x => x <> " "%char)) l -> split_at " " (spaced l) = l.
Proof.
  induction l as [|x l IH]; intros N F; [congruence|]. inversion_clear F.
  destruct l as [|y l]; [apply split_at_last; assumption|].
  change (spaced (x :: y :: l)) with (x ++ " "%char :: spaced (y :: l)). rewrite split_at_app by assumption.
  rewrite IH; [reflexivity|discriminate|assumption].
Qed.

Lemma split_lines ls : Forall (Forall (fun x => x <> nl)) ls -> split_at nl (List.concat (map (fun l => l ++ [nl]) ls)) = ls ++ [[]].
Proof.
  induction 1 as [|l ls Hl Hs IH]; [reflexivity|]. cbn [map List.concat]. rewrite <- app_assoc. cbn [app].
  rewrite split_at_app by assumption. rewrite IH. reflexivity.
Qed.

Lemma keep_lines ls : Forall (fun l => l <> []) ls -> filter (fun l => negb (bytes_eqb l [])) (ls ++ [[]]) = ls.
Proof.
  intros H. rewrite filter_app. cbn. rewrite app_nil_r. induction H as [|l ls Hl Hs IH]; [reflexivity|]. cbn [filter].
  destruct l; [congruence|]. cbn. f_equal. exact IH.
Qed.

Definition fields_of (rank : Z) (model name : bytes) (e : entry) : list bytes :=
  [print_Z rank; model; name; print_Z (e_index e)] ++ feature_texts e ++ [policy_text e; metric_text e].

Lemma space_moves {A} (g : A -> bytes) l R :
  $" " ++ List.concat (map (fun x => g x ++ $" ") l) ++ R = List.concat (map (fun y => $" " ++ y) (map g l)) ++ $" " ++ R.
Proof.
  induction l as [|x l IH]; [reflexivity|]. cbn [map List.concat]. rewrite <- !app_assoc, <- IH. reflexivity.
Qed.
Lemma trace_line_spaced rank model name e : trace_line rank model name e = spaced (fields_of rank model name e) ++ [nl].
Proof.
  unfold trace_line, fields_of, feature_texts, policy_text, metric_text.
  cbn [app]. rewrite spaced_concat. cbn [map List.concat]. rewrite map_app, concat_app. cbn [map List.concat].
  rewrite app_nil_r. rewrite <- !app_assoc. rewrite <- (space_moves (fun x : f32 => print_float x)). reflexivity.
Qed.

(** Characters *)
Lemma digits_plain l : Forall isdig l -> Forall (fun c => c <> " "%char /\ c <> nl) l.
Proof. apply Forall_impl. intros c H. split; intros ->; discriminate H. Qed.
Lemma print_Z_plain z : Forall (fun c => c <> " "%char /\ c <> nl) (print_Z z).
Proof. unfold print_Z. destruct (z <? 0)%Z; [constructor; [split; discriminate|]|]; apply digits_plain, print_nonneg_digits. Qed.
Lemma print_float_plain {prec emax} (x : binary_float prec emax) : Forall (fun c => c <> " "%char /\ c <> nl) (print_float x).
Proof.
  destruct x as [s|s| |s m e b]; cbn [print_float].
  - destruct s; repeat constructor; discriminate.
  - destruct s; repeat constructor; discriminate.
  - repeat constructor; discriminate.
  - destruct (ratio_of m e) as [n d]. destruct (dec6 n d) as [D X].
    apply Forall_app. split; [destruct s; repeat constructor; discriminate|].
    eapply Forall_impl; [|apply fmt_g_chars]. intros c [H|[->|[->|[->| ->]]]]; try (split; discriminate). split; intros ->; discriminate H.
Qed.
Lemma print_Z_nonempty z : print_Z z <> [].
Proof. unfold print_Z. destruct (Z.ltb_spec z 0); [discriminate|]. apply print_nonneg_nonempty. assumption. Qed.

(** Numbers are not missing *)
Definition numeric (c : ascii) : bool := is_digit c || existsb (Ascii.eqb c) ["."; "e"; "+"; "-"]%char.
Lemma numeric_not_missing s : s <> [] -> Forall (fun c => numeric c = true) s -> missing s = false.
Proof.
  intros N F. destruct (missing s) eqn:E; [|reflexivity]. exfalso.
  unfold missing in E. apply existsb_exists in E as (x & I & B). apply bytes_eqb_eq in B. subst x.
  rewrite Forall_forall in F.
  assert (G : forallb numeric s = true) by (apply forallb_forall; exact F).
  cbn [In] in I. repeat (destruct I as [I|I]; [subst s; first [exact (N eq_refl) | discriminate G]|]). exact I.
Qed.
Lemma digits_numeric l : Forall isdig l -> Forall (fun c => numeric c = true) l.
Proof. apply Forall_impl. intros c H. unfold numeric. rewrite H. reflexivity. Qed.
Lemma print_Z_present z : missing (print_Z z) = false.
Proof.
  apply numeric_not_missing; [apply print_Z_nonempty|]. unfold print_Z.
  destruct (z <? 0)%Z; [constructor; [reflexivity|]|]; apply digits_numeric, print_nonneg_digits.
Qed.
Lemma print_float_present {prec emax} (x : binary_float prec emax) : is_nan x = false -> missing (print_float x) = false.
Proof.
  intros N. destruct x as [s|s| |s m e b]; [destruct s; reflexivity|destruct s; reflexivity|discriminate|].
  apply numeric_not_missing; [apply print_float_hd|]. cbn [print_float].
  destruct (ratio_of m e) as [n d]. destruct (dec6 n d) as [D X].
  apply Forall_app. split; [destruct s; repeat constructor|].
  eapply Forall_impl; [|apply fmt_g_chars]. intros c [H|[->|[->|[->| ->]]]]; try reflexivity. unfold numeric. rewrite H. reflexivity.
Qed.

(** Columns *)
Definition fname (i : nat) : bytes := $"f" ++ print_Z (Z.of_nat i).
Definition base : list bytes := [$"rankid"; $"training"; $"region"; $"idx"].
Definition span (a b : nat) : list bytes := map fname (seq a (b - a)).
Definition pair_cols : list bytes := [$"policy"; $"xtime"].
(** The columns of traces put together: the first with [k1] features, the largest number of features [m]. *)
Definition joint (k1 m : nat) : list bytes := base ++ span 0 k1 ++ pair_cols ++ span k1 m.

Lemma trace_columns_eq k : trace_columns k = base ++ span 0 k ++ pair_cols.
Proof. unfold trace_columns, span. rewrite Nat.sub_0_r. reflexivity. Qed.
Lemma trace_columns_joint k : trace_columns k = joint k k.
Proof. rewrite trace_columns_eq. unfold joint, span. rewrite Nat.sub_diag. cbn [seq map]. rewrite app_nil_r. reflexivity. Qed.

Lemma fname_inj i j : fname i = fname j -> i = j.
Proof.
  unfold fname. intros E. cbn [app] in E. injection E as E. unfold print_Z in E.
  replace (Z.of_nat i <? 0)%Z with false in E by (symmetry; apply Z.ltb_ge; lia).
  replace (Z.of_nat j <? 0)%Z with false in E by (symmetry; apply Z.ltb_ge; lia).
  apply (f_equal digits_val) in E. rewrite !print_nonneg_val in E by lia. lia.
Qed.
Lemma fname_other i c : In c (base ++ pair_cols) \/ c = $"index" -> fname i <> c.
Proof.
  intros H. unfold fname, print_Z. replace (Z.of_nat i <? 0)%Z with false by (symmetry; apply Z.ltb_ge; lia).
  cbn [app]. intros <-. cbn in H. repeat (destruct H as [H|H]; try discriminate H). exact H.
Qed.

Lemma has_column_iff cols c : has_column cols c = true <-> In c cols.
Proof.
  unfold has_column. rewrite existsb_exists. split.
  - intros (x & I & E). apply bytes_eqb_eq in E. subst. exact I.
  - intros I. exists c. split; [exact I|]. apply bytes_eqb_refl.
Qed.
Lemma has_column_false cols c : has_column cols c = false <-> ~ In c cols.
Proof. rewrite <- has_column_iff. destruct (has_column cols c); split; congruence. Qed.

Lemma in_span a b i : In (fname i) (span a b) <-> (a <= i < b)%nat.
Proof.
  unfold span. rewrite in_map_iff. split.
  - intros (j & E & I). apply fname_inj in E. subst. apply in_seq in I. lia.
  - intros H. exists i. split; [reflexivity|]. apply in_seq. lia.
Qed.
Lemma span_is a b c : In c (span a b) -> exists i, c = fname i /\ (a <= i < b)%nat.
Proof. unfold span. rewrite in_map_iff. intros (i & <- & I). apply in_seq in I. exists i. split; [reflexivity|]. lia. Qed.
Lemma base_not_fname i : ~ In (fname i) base /\ ~ In (fname i) pair_cols.
Proof. split; intros I; apply (fname_other i (fname i)); auto; left; apply in_app_iff; auto. Qed.

Lemma has_joint k1 m i : (k1 <= m)%nat -> has_column (joint k1 m) (fname i) = Nat.ltb i m.
Proof.
  intros L. destruct (Nat.ltb_spec i m).
  - apply has_column_iff. unfold joint. rewrite !in_app_iff, !in_span. lia.
  - apply has_column_false. unfold joint. rewrite !in_app_iff, !in_span. assert (B := base_not_fname i). intuition lia.
Qed.
Lemma has_trace k i : has_column (trace_columns k) (fname i) = Nat.ltb i k.
Proof. rewrite trace_columns_joint. apply has_joint. lia. Qed.
Lemma in_joint_other k1 m c : In c (base ++ pair_cols) -> In c (joint k1 m).
Proof. unfold joint. rewrite !in_app_iff. tauto. Qed.

Lemma span_app a b c : (a <= b <= c)%nat -> span a b ++ span b c = span a c.
Proof. intros H. unfold span. rewrite <- map_app. f_equal. replace (c - a)%nat with ((b - a) + (c - b))%nat by lia. rewrite seq_app. do 2 f_equal. lia. Qed.
Lemma span_length a b : List.length (span a b) = (b - a)%nat.
Proof. unfold span. rewrite map_length, seq_length. reflexivity. Qed.

Lemma filter_all {A} (p : A -> bool) l : (forall x, In x l -> p x = true) -> filter p l = l.
Proof. induction l as [|x l IH]; intros H; [reflexivity|]. cbn. rewrite (H x (or_introl eq_refl)). f_equal. apply IH. intros y I. apply H. right; exact I. Qed.
Lemma filter_none {A} (p : A -> bool) l : (forall x, In x l -> p x = false) -> filter p l = [].
Proof. induction l as [|x l IH]; intros H; [reflexivity|]. cbn. rewrite (H x (or_introl eq_refl)). apply IH. intros y I. apply H. right; exact I. Qed.

Lemma span_nil a b : (b <= a)%nat -> span a b = [].
Proof. intros H. unfold span. replace (b - a)%nat with 0%nat by lia. reflexivity. Qed.
Lemma filter_span p k a b : (forall i, p (fname i) = Nat.ltb i k) -> filter p (span a b) = span a (Nat.min b k).
Proof.
  intros P. destruct (Nat.le_gt_cases k a).
  - rewrite (span_nil a (Nat.min b k)) by lia. apply filter_none. intros c I. apply span_is in I as (i & -> & ?). rewrite P. apply Nat.ltb_ge. lia.
  - destruct (Nat.le_gt_cases b k).
    + rewrite Nat.min_l by lia. apply filter_all. intros c I. apply span_is in I as (i & -> & ?). rewrite P. apply Nat.ltb_lt. lia.
    + rewrite Nat.min_r by lia. rewrite <- (span_app a k b) by lia. rewrite filter_app.
      rewrite (filter_all _ (span a k)), (filter_none _ (span k b)), app_nil_r; [reflexivity| |];
        intros c I; apply span_is in I as (i & -> & ?); rewrite P; [apply Nat.ltb_ge|apply Nat.ltb_lt]; lia.
Qed.
Lemma filter_span_not p m k : (forall i, p (fname i) = negb (Nat.ltb i m)) -> filter p (span 0 k) = span m k.
Proof.
  intros P. destruct (Nat.le_gt_cases k m).
  - rewrite (span_nil m k) by lia. apply filter_none. intros c I. apply span_is in I as (i & -> & ?). rewrite P. apply negb_false_iff, Nat.ltb_lt. lia.
  - rewrite <- (span_app 0 m k) by lia. rewrite filter_app.
    rewrite (filter_none _ (span 0 m)), (filter_all _ (span m k)); [reflexivity| |];
      intros c I; apply span_is in I as (i & -> & ?); rewrite P; [apply negb_true_iff, Nat.ltb_ge|apply negb_false_iff, Nat.ltb_lt]; lia.
Qed.

Lemma union_joint k1 m k : (k1 <= m)%nat -> union (joint k1 m) (trace_columns k) = joint k1 (Nat.max m k).
Proof.
  intros L. unfold union. rewrite trace_columns_eq, !filter_app.
  rewrite (filter_none _ base), (filter_none _ pair_cols).
  2,3: intros c I; apply negb_false_iff, has_column_iff, in_joint_other, in_app_iff; auto.
  rewrite (filter_span_not _ m) by (intros i; rewrite has_joint by lia; reflexivity).
  cbn [app]. rewrite app_nil_r. unfold joint. rewrite <- !app_assoc. do 3 f_equal.
  destruct (Nat.le_gt_cases k m).
  - rewrite (span_nil m k), app_nil_r by lia. f_equal. lia.
  - rewrite span_app by lia. f_equal. lia.
Qed.
Lemma union_nil cs : union [] cs = cs.
Proof. unfold union. cbn. apply filter_all. reflexivity. Qed.
Lemma union_all k1 m ks : (k1 <= m)%nat -> fold_left union (map trace_columns ks) (joint k1 m) = joint k1 (fold_left Nat.max ks m).
Proof.
  revert m. induction ks as [|k ks IH]; intros m L; [reflexivity|]. cbn [map fold_left]. rewrite union_joint by assumption. apply IH. lia.
Qed.
Lemma max_ge ks m : (m <= fold_left Nat.max ks m)%nat /\ forall k, In k ks -> (k <= fold_left Nat.max ks m)%nat.
Proof.
  revert m. induction ks as [|k ks IH]; intros m; [cbn; split; [lia|tauto]|]. cbn [fold_left]. destruct (IH (Nat.max m k)) as (A & B).
  split; [lia|]. intros x [->|I]; [lia|]. apply B. exact I.
Qed.

Lemma NoDup_trace k : NoDup (trace_columns k).
Proof.
  rewrite trace_columns_eq. assert (N : NoDup (span 0 k)) by (apply FinFun.Injective_map_NoDup; [exact fname_inj|apply seq_NoDup]).
  assert (O : forall c, In c (base ++ pair_cols) -> ~ In c (span 0 k)).
  { intros c I J. apply span_is in J as (i & -> & _). assert (B := base_not_fname i). apply in_app_iff in I. tauto. }
  assert (NP : NoDup (span 0 k ++ pair_cols)).
  { revert N O. generalize (span 0 k). induction l as [|c l IH]; intros N O.
    - repeat constructor; cbn; intuition discriminate.
    - inversion_clear N. cbn. constructor.
      + rewrite in_app_iff. intros [I|I]; [contradiction|]. apply (O c); [apply in_app_iff; auto|left; reflexivity].
      + apply IH; [assumption|]. intros d I J. apply (O d I). right; exact J. }
  unfold base. cbn [app]. repeat (constructor; [cbn [In]; rewrite ?in_app_iff; intros I;
    repeat (destruct I as [I|I]; try discriminate I)|]); try assumption.
  all: try (revert I; apply O; cbn; tauto). all: cbn in I; intuition discriminate.
Qed.

Lemma at_column_all cols row : NoDup cols -> List.length row = List.length cols -> map (at_column cols row) cols = row.
Proof.
  intros N. revert row. induction N as [|c cols A N IH]; intros [|x row] L; try discriminate; [reflexivity|].
  cbn [map at_column]. rewrite bytes_eqb_refl. f_equal. injection L as L. transitivity (map (at_column cols row) cols); [|exact (IH row L)].
  apply map_ext_in. intros d I. replace (bytes_eqb d c) with false; [reflexivity|].
  symmetry. destruct (bytes_eqb d c) eqn:E; [|reflexivity]. apply bytes_eqb_eq in E. subst. contradiction.
Qed.
Lemma at_column_map g cols c : at_column cols (map g cols) c = if has_column cols c then g c else None.
Proof.
  induction cols as [|d cols IH]; [reflexivity|]. cbn [map at_column has_column existsb]. destruct (bytes_eqb c d) eqn:E; cbn [orb].
  - apply bytes_eqb_eq in E. subst. reflexivity.
  - exact IH.
Qed.
Definition present (x : cell) : bool := match x with Some _ => true | None => false end.
Lemma at_column_present cols row c : List.length row = List.length cols -> Forall (fun x => present x = true) row ->
  present (at_column cols row c) = has_column cols c.
Proof.
  revert row. induction cols as [|d cols IH]; intros [|x row] L F; try discriminate; [reflexivity|]. inversion_clear F.
  cbn [at_column has_column existsb]. destruct (bytes_eqb c d); [assumption|]. apply IH; auto.
Qed.

(** A trace as a table *)
Definition row_of (t : trace) (e : entry) : list cell :=
  map cell_of (fields_of (tr_rank t) (tr_model t) (tr_region t) e) ++ repeat None (tr_features t - List.length (e_features e)).
Definition table_of (t : trace) : table := mkTable (trace_columns (tr_features t)) (map (row_of t) (tr_entries t)).

Lemma trace_columns_length k : List.length (trace_columns k) = (6 + k)%nat.
Proof. rewrite trace_columns_eq, !app_length, span_length. cbn. lia. Qed.
Lemma fields_length a b c e : List.length (fields_of a b c e) = (6 + List.length (e_features e))%nat.
Proof. unfold fields_of, feature_texts. rewrite !app_length, map_length. cbn. lia. Qed.

Lemma field_plain s : field s -> Forall (fun c => c <> " "%char /\ c <> nl) s.
Proof. intros [F _]. eapply Forall_impl; [|exact F]. cbn. tauto. Qed.
Lemma fields_plain t e : field (tr_model t) -> field (tr_region t) ->
  Forall (Forall (fun c => c <> " "%char /\ c <> nl)) (fields_of (tr_rank t) (tr_model t) (tr_region t) e).
Proof.
  intros A B. unfold fields_of, policy_text, metric_text. cbn [app].
  repeat (apply Forall_cons; [auto using print_Z_plain, field_plain|]). apply Forall_app. split.
  - unfold feature_texts. apply Forall_map, Forall_forall. intros x _. apply print_float_plain.
  - repeat (apply Forall_cons; [auto using print_Z_plain, print_float_plain|]). apply Forall_nil.
Qed.
Lemma columns_plain k : Forall (Forall (fun c => c <> " "%char /\ c <> nl)) (trace_columns k).
Proof.
  rewrite trace_columns_eq. repeat (apply Forall_app; split).
  - repeat constructor; discriminate.
  - apply Forall_forall. intros c I. apply span_is in I as (i & -> & _). unfold fname. cbn [app].
    apply Forall_cons; [split; discriminate|]. apply print_Z_plain.
  - repeat constructor; discriminate.
Qed.
Lemma spaced_plain l : Forall (Forall (fun c => c <> " "%char /\ c <> nl)) l -> Forall (fun c => c <> nl) (spaced l).
Proof.
  induction 1 as [|x l Hx Hl IH]; [constructor|].
  assert (X : Forall (fun c => c <> nl) x) by (eapply Forall_impl; [|exact Hx]; cbn; tauto).
  destruct l as [|y l]; [exact X|]. change (spaced (x :: y :: l)) with (x ++ " "%char :: spaced (y :: l)).
  apply Forall_app. split; [exact X|]. constructor; [discriminate|exact IH].
Qed.
Lemma no_space l : Forall (Forall (fun c => c <> " "%char /\ c <> nl)) l -> Forall (Forall (fun c => c <> " "%char)) l.
Proof. apply Forall_impl. intros x. apply Forall_impl. tauto. Qed.

Lemma read_csv_trace t : readable t -> read_csv (trace_text t) = Ok (Some (table_of t)).
Proof.
  intros [A B C]. unfold read_csv, trace_text.
  set (fs := fields_of (tr_rank t) (tr_model t) (tr_region t)).
  assert (E : spaced (trace_columns (tr_features t)) ++ [nl] ++ List.concat (map (trace_line (tr_rank t) (tr_model t) (tr_region t)) (tr_entries t))
    = List.concat (map (fun l => l ++ [nl]) (spaced (trace_columns (tr_features t)) :: map (fun e => spaced (fs e)) (tr_entries t)))).
  { cbn [map List.concat]. rewrite <- app_assoc. do 3 f_equal. rewrite map_map. apply map_ext. intros e. apply trace_line_spaced. }
  rewrite E, split_lines.
  2:{ constructor; [apply spaced_plain, columns_plain|]. apply Forall_map, Forall_forall. intros e _. apply spaced_plain, fields_plain; assumption. }
  rewrite keep_lines.
  2:{ constructor; [rewrite trace_columns_eq; discriminate|]. apply Forall_map, Forall_forall. intros e _. unfold fs, fields_of. cbn [app].
      rewrite spaced_concat. intros N. apply app_eq_nil in N as [N _]. apply (print_Z_nonempty _ N). }
  rewrite split_spaced by (try (apply no_space, columns_plain); rewrite trace_columns_eq; discriminate).
  rewrite map_map. assert (M : map (fun e => split_at " " (spaced (fs e))) (tr_entries t) = map fs (tr_entries t)).
  { apply map_ext. intros e. apply split_spaced; [discriminate|]. apply no_space, fields_plain; assumption. }
  rewrite M. cbv zeta.
  replace (forallb _ (map fs (tr_entries t))) with true.
  2:{ symmetry. apply forallb_forall. intros l I. apply in_map_iff in I as (e & <- & I). apply Nat.leb_le. unfold fs.
      rewrite fields_length, trace_columns_length. rewrite Forall_forall in C. specialize (C e I). lia. }
  unfold table_of. do 3 f_equal. rewrite map_map. apply map_ext. intros e. unfold row_of, fs. do 2 f_equal.
  rewrite fields_length, trace_columns_length. lia.
Qed.

Lemma read_all_traces ts : Forall readable ts -> read_all (map trace_text ts) = Ok (map table_of ts).
Proof. induction 1 as [|t ts H Hs IH]; [reflexivity|]. cbn [map read_all]. rewrite read_csv_trace, IH by assumption. reflexivity. Qed.

Lemma row_length t e : (List.length (e_features e) <= tr_features t)%nat -> List.length (row_of t e) = List.length (trace_columns (tr_features t)).
Proof. intros H. unfold row_of. rewrite app_length, map_length, fields_length, repeat_length, trace_columns_length. lia. Qed.

(** What a line has in a column. *)
Definition look (t : trace) (e : entry) : bytes -> cell := at_column (trace_columns (tr_features t)) (row_of t e).

Lemma look_region t e : field (tr_region t) -> look t e ($"region") = Some (tr_region t).
Proof. intros [_ M]. unfold look. cbn. unfold cell_of. rewrite M. reflexivity. Qed.

(** The rows of a region. *)
Definition looks (r : bytes) (ts : list trace) : list (bytes -> cell) :=
  flat_map (fun t => map (look t) (tr_entries t)) (traces_of r ts).

Lemma region_rows ts r cols : Forall readable ts -> In ($"region") cols ->
  filter (fun row => cell_eqb (at_column cols row ($"region")) (Some r))
    (flat_map (fun t => map (fun row => map (at_column (columns t) row) cols) (rows t)) (map table_of ts))
  = map (fun g => map g cols) (looks r ts).
Proof.
  intros F I. apply has_column_iff in I. induction F as [|t ts H Hs IH]; [reflexivity|]. cbn [map flat_map]. rewrite filter_app, IH.
  unfold looks, traces_of. cbn [filter]. cbn [table_of columns rows]. rewrite map_map.
  assert (P : forall e, cell_eqb (at_column cols (map (look t e) cols) ($"region")) (Some r) = bytes_eqb (tr_region t) r).
  { intros e. rewrite at_column_map, I, look_region by (apply rd_region; exact H). reflexivity. }
  destruct (bytes_eqb (tr_region t) r) eqn:E.
  - rewrite filter_all; [cbn [flat_map]; rewrite map_app, map_map; reflexivity|].
    intros row R. apply in_map_iff in R as (e & <- & _). apply P.
  - rewrite filter_none; [reflexivity|]. intros row R. apply in_map_iff in R as (e & <- & _). apply P.
Qed.

Lemma created t1 ts r : Forall readable (t1 :: ts) ->
  let k1 := tr_features t1 in let m := fold_left Nat.max (map tr_features ts) k1 in
  create_none (map trace_text (t1 :: ts)) r =
  let u := reset_index (dropna (mkTable (joint k1 m) (map (fun g => map g (joint k1 m)) (looks r (t1 :: ts))))) in map_all (record_of u) (rows u).
Proof.
  intros F k1 m. unfold create_none, read_data. cbn [map]. unfold read_tracefiles.
  change (trace_text t1 :: map trace_text ts) with (map trace_text (t1 :: ts)). rewrite read_all_traces by assumption.
  change (map table_of (t1 :: ts)) with (table_of t1 :: map table_of ts). cbn [bind].
  unfold region_records, concat_tables, of_region. cbn [columns rows].
  assert (C : fold_left union (map columns (table_of t1 :: map table_of ts)) [] = joint k1 m).
  { cbn [map fold_left]. rewrite union_nil. cbn [table_of columns]. rewrite trace_columns_joint, map_map.
    rewrite <- (map_map tr_features trace_columns) . fold k1. rewrite union_all by lia. reflexivity. }
  rewrite C. change (table_of t1 :: map table_of ts) with (map table_of (t1 :: ts)).
  rewrite region_rows by (try assumption; apply in_joint_other; cbn; tauto). reflexivity.
Qed.

(** After the columns with missing cells are dropped. *)
Definition kept (cols : list bytes) (gs : list (bytes -> cell)) : list bytes := filter (fun c => forallb (fun g => present (g c)) gs) cols.
Lemma dropna_looks cols gs : dropna (mkTable cols (map (fun g => map g cols) gs)) = mkTable (kept cols gs) (map (fun g => map g (kept cols gs)) gs).
Proof.
  unfold dropna. cbn [columns rows].
  assert (K : filter (fun c => forallb (fun row => match at_column cols row c with Some _ => true | None => false end) (map (fun g => map g cols) gs)) cols = kept cols gs).
  { unfold kept. apply filter_ext_in. intros c I. apply has_column_iff in I. induction gs as [|g gs IH]; [reflexivity|]. cbn [map forallb].
    rewrite at_column_map, I. rewrite IH. reflexivity. }
  rewrite K. f_equal. rewrite map_map. apply map_ext. intros g. apply map_ext_in. intros c I.
  rewrite at_column_map. replace (has_column cols c) with true; [reflexivity|]. symmetry. apply has_column_iff. unfold kept in I. apply filter_In in I. tauto.
Qed.

Definition outline (cols : list bytes) : list bytes := firstn (List.length cols - 6) (skipn 4 cols).
Lemma record_of_looks cols gs' g : ~ In ($"index") cols ->
  record_of (reset_index (mkTable cols gs')) (Some ($"0") :: map g cols) =
  let* f := cells_of (map g (outline cols)) in
  match (if has_column cols ($"policy") then g ($"policy") else None), (if has_column cols ($"xtime") then g ($"xtime") else None) with
  | Some p, Some x => Ok (f, p, x)
  | _, _ => Throw
  end.
Proof.
  intros N. unfold record_of, feature_cols, reset_index. cbn [columns rows].
  change (List.length ($"index" :: cols) - 7)%nat with (List.length cols - 6)%nat. change (skipn 5 ($"index" :: cols)) with (skipn 4 cols). fold (outline cols).
  assert (O : forall c, c <> $"index" -> at_column ($"index" :: cols) (Some ($"0") :: map g cols) c = if has_column cols c then g c else None).
  { intros c H. cbn [at_column]. replace (bytes_eqb c ($"index")) with false; [apply at_column_map|].
    symmetry. destruct (bytes_eqb c _) eqn:E; [|reflexivity]. apply bytes_eqb_eq in E. contradiction. }
  rewrite !O by discriminate. f_equal. f_equal. apply map_ext_in. intros c I.
  assert (J : In c cols). { unfold outline in I. rewrite <- (firstn_skipn 4 cols). apply in_app_iff. right. rewrite <- (firstn_skipn (List.length cols - 6) (skipn 4 cols)). apply in_app_iff. left. exact I. }
  rewrite O by (intros ->; contradiction). replace (has_column cols c) with true; [reflexivity|]. symmetry. apply has_column_iff. exact J.
Qed.

Lemma map_all_map {A B C} (f : B -> outcome C) (h : A -> B) l : map_all f (map h l) = map_all (fun x => f (h x)) l.
Proof. induction l as [|x l IH]; [reflexivity|]. cbn. rewrite IH. reflexivity. Qed.
Lemma map_all_ok {A B} (f : A -> outcome B) (h : A -> B) l : (forall x, In x l -> f x = Ok (h x)) -> map_all f l = Ok (map h l).
Proof. induction l as [|x l IH]; intros H; [reflexivity|]. cbn. rewrite (H x (or_introl eq_refl)). cbn. rewrite IH; [reflexivity|]. intros y I. apply H. right; exact I. Qed.
Lemma cells_of_some l : cells_of (map Some l) = Ok l.
Proof. induction l as [|x l IH]; [reflexivity|]. cbn. rewrite IH. reflexivity. Qed.
Lemma cells_of_or l : (exists f, cells_of l = Ok f) \/ cells_of l = Throw.
Proof. induction l as [|[x|] l IH]; [left; eexists; reflexivity| |right; reflexivity]. cbn. destruct IH as [[f ->]| ->]; [left; eexists; reflexivity|right; reflexivity]. Qed.

Lemma joint_no_index k1 m : ~ In ($"index") (joint k1 m).
Proof.
  unfold joint. rewrite !in_app_iff. intros [I|[I|[I|I]]].
  - cbn in I. intuition discriminate.
  - apply span_is in I as (i & E & _). apply (fname_other i ($"index")); auto.
  - cbn in I. intuition discriminate.
  - apply span_is in I as (i & E & _). apply (fname_other i ($"index")); auto.
Qed.

(** *** Regular regions *)
Lemma feature_texts_length e : List.length (feature_texts e) = List.length (e_features e).
Proof. apply map_length. Qed.

Definition fine (k : nat) (e : entry) : Prop :=
  List.length (e_features e) = k /\ Forall (fun x => is_nan x = false) (e_features e) /\ is_nan (e_metric e) = false.

Lemma regular_row t e : field (tr_model t) -> field (tr_region t) -> fine (tr_features t) e ->
  row_of t e = map Some (fields_of (tr_rank t) (tr_model t) (tr_region t) e).
Proof.
  intros A B (L & F & M). unfold row_of. rewrite L, Nat.sub_diag. cbn [repeat]. rewrite app_nil_r. apply map_ext_in. intros s I.
  unfold cell_of. replace (missing s) with false; [reflexivity|]. symmetry. unfold fields_of in I. apply in_app_iff in I as [I|I].
  - cbn in I. destruct I as [<-|[<-|[<-|[<-|[]]]]]; [apply print_Z_present|apply A|apply B|apply print_Z_present].
  - apply in_app_iff in I as [I|I].
    + unfold feature_texts in I. apply in_map_iff in I as (x & <- & I). rewrite Forall_forall in F. apply print_float_present. apply F. exact I.
    + cbn in I. destruct I as [<-|[<-|[]]]; [apply print_Z_present|apply print_float_present; exact M].
Qed.

Lemma look_features t e : field (tr_model t) -> field (tr_region t) -> fine (tr_features t) e ->
  map (look t e) (span 0 (tr_features t)) = map Some (feature_texts e) /\ look t e ($"policy") = Some (policy_text e) /\ look t e ($"xtime") = Some (metric_text e).
Proof.
  intros A B H. assert (R := regular_row t e A B H). assert (L : (List.length (e_features e) <= tr_features t)%nat) by (destruct H; lia).
  assert (E := at_column_all _ _ (NoDup_trace (tr_features t)) (row_length t e L)).
  change (map (look t e) (trace_columns (tr_features t)) = row_of t e) in E. rewrite R, trace_columns_eq in E.
  unfold fields_of in E. rewrite !map_app in E.
  apply app_inv_head_iff in E || idtac.
  assert (E1 := f_equal (skipn 4) E). cbn [map base app skipn] in E1.
  assert (D : forall (a b c d : list cell), List.length a = List.length c -> a ++ b = c ++ d -> a = c /\ b = d).
  { clear. induction a as [|x a IH]; intros b [|y c] d L E; try discriminate; [split; [reflexivity|exact E]|]. cbn in E. injection E as -> E. injection L as L.
    destruct (IH _ _ _ L E). split; congruence. }
  apply D in E1 as (E2 & E3).
  - split; [exact E2|]. cbn in E3. injection E3 as E3 E4. split; assumption.
  - rewrite !map_length, span_length, feature_texts_length. destruct H. lia.
Qed.

Lemma look_present t e c : field (tr_model t) -> field (tr_region t) -> fine (tr_features t) e ->
  present (look t e c) = has_column (trace_columns (tr_features t)) c.
Proof.
  intros A B H. apply at_column_present.
  - apply row_length. destruct H; lia.
  - rewrite (regular_row t e A B H). apply Forall_map, Forall_forall. reflexivity.
Qed.

Lemma kept_regular k1 m k gs : (k1 <= m)%nat -> (k <= m)%nat -> gs <> [] -> (forall g c, In g gs -> present (g c) = has_column (trace_columns k) c) ->
  kept (joint k1 m) gs = base ++ span 0 (Nat.min k1 k) ++ pair_cols ++ span k1 k.
Proof.
  intros L1 L2 N H. unfold kept.
  rewrite (filter_ext _ (has_column (trace_columns k))).
  - unfold joint. rewrite !filter_app. rewrite (filter_all _ base), (filter_all _ pair_cols).
    2,3: intros c I; apply has_column_iff; rewrite trace_columns_joint; apply in_joint_other, in_app_iff; auto.
    rewrite !(filter_span _ k) by (apply has_trace). rewrite (Nat.min_r m k) by lia. reflexivity.
  - intros c. destruct gs as [|g gs]; [congruence|]. cbn [forallb]. rewrite (H g c (or_introl eq_refl)).
    destruct (has_column (trace_columns k) c) eqn:E; [|reflexivity]. cbn. apply forallb_forall. intros g' I. rewrite (H g' c (or_intror I)). exact E.
Qed.

Lemma outline_base (b : list bytes) : outline (base ++ b) = firstn (List.length b - 2) b.
Proof. reflexivity. Qed.

Theorem records_of t1 ts r k : Forall readable (t1 :: ts) -> Forall (fun t => regular t /\ tr_features t = k) (traces_of r (t1 :: ts)) ->
  create_none (map trace_text (t1 :: ts)) r =
  Ok (map (fun e => (if (k <=? tr_features t1)%nat then feature_texts e else displaced (tr_features t1) e, policy_text e, metric_text e)) (entries_of r (t1 :: ts))).
Proof.
  intros F G. rewrite created by assumption. cbv zeta. set (k1 := tr_features t1). set (m := fold_left Nat.max (map tr_features ts) k1).
  set (gs := looks r (t1 :: ts)). rewrite dropna_looks.
  assert (GE : gs = map (fun te => look (fst te) (snd te)) (flat_map (fun t => map (pair t) (tr_entries t)) (traces_of r (t1 :: ts)))).
  { unfold gs, looks. generalize (traces_of r (t1 :: ts)). induction l as [|t l IH]; [reflexivity|]. cbn [flat_map]. rewrite map_app, map_map. f_equal. exact IH. }
  set (tes := flat_map (fun t => map (pair t) (tr_entries t)) (traces_of r (t1 :: ts))) in GE.
  assert (EE : entries_of r (t1 :: ts) = map snd tes).
  { unfold entries_of, tes. generalize (traces_of r (t1 :: ts)). induction l as [|t l IH]; [reflexivity|]. cbn [map List.concat flat_map]. rewrite map_app, map_map, map_id. f_equal. exact IH. }
  assert (TE : forall t e, In (t, e) tes -> field (tr_model t) /\ field (tr_region t) /\ fine (tr_features t) e /\ tr_features t = k /\ In t (t1 :: ts)).
  { intros t e I. unfold tes in I. apply in_flat_map in I as (t' & I & J). apply in_map_iff in J as (e' & E & J). injection E as -> ->.
    rewrite Forall_forall in G. destruct (G t I) as ([A B C] & D). unfold traces_of in I. apply filter_In in I as [I _]. repeat split; try assumption.
    - apply A. - apply A. - apply B. - apply B.
    - rewrite Forall_forall in C. apply C; exact J.
    - rewrite Forall_forall in C. apply C; exact J.
    - rewrite Forall_forall in C. apply C; exact J. }
  clearbody tes gs. subst gs. rewrite EE. clear EE.
  destruct tes as [|te0 tes0] eqn:ET; [reflexivity|]. rewrite <- ET in *.
  assert (KM : (k1 <= m)%nat /\ (k <= m)%nat).
  { unfold m. destruct (max_ge (map tr_features ts) k1) as (X & Y). split; [exact X|].
    destruct te0 as [t0 e0]. destruct (TE t0 e0) as (_ & _ & _ & KK & [->|I]); [rewrite ET; left; reflexivity| |].
    - unfold k1 in *. lia.
    - subst k. apply Y. apply in_map. exact I. }
  assert (K : kept (joint k1 m) (map (fun te => look (fst te) (snd te)) tes) = base ++ span 0 (Nat.min k1 k) ++ pair_cols ++ span k1 k).
  { apply kept_regular; try tauto.
    - rewrite ET; discriminate.
    - intros g c I. apply in_map_iff in I as ((t, e) & <- & I). cbn [fst snd]. destruct (TE t e I) as (A & B & C & D & _). rewrite <- D. apply look_present; assumption. }
  rewrite K. set (cols := base ++ span 0 (Nat.min k1 k) ++ pair_cols ++ span k1 k) in *.
  assert (NI : ~ In ($"index") cols).
  { intros I. apply (joint_no_index k1 m). rewrite <- K in I. unfold kept in I. apply filter_In in I. tauto. }
  unfold reset_index at 2. cbn [rows]. rewrite !map_map, map_all_map. apply map_all_ok. intros [t e] I. cbn [fst snd].
  rewrite record_of_looks by exact NI.
  destruct (TE t e I) as (A & B & C & D & _). destruct (look_features t e A B C) as (L1 & L2 & L3). rewrite D in *.
  replace (has_column cols ($"policy")) with true by (symmetry; apply has_column_iff; unfold cols; rewrite !in_app_iff; cbn; tauto).
  replace (has_column cols ($"xtime")) with true by (symmetry; apply has_column_iff; unfold cols; rewrite !in_app_iff; cbn; tauto).
  rewrite L2, L3. unfold cols. rewrite outline_base.
  assert (FL : List.length (feature_texts e) = k) by (rewrite feature_texts_length; apply C).
  destruct (Nat.leb_spec k k1).
  - rewrite Nat.min_r, (span_nil k1 k), app_nil_r by lia. rewrite app_length, span_length. cbn [pair_cols List.length].
    replace (k - 0 + 2 - 2)%nat with (List.length (span 0 k)) by (rewrite span_length; lia). rewrite firstn_app, Nat.sub_diag, firstn_all. cbn [firstn]. rewrite app_nil_r.
    transitivity (let* f := cells_of (map Some (feature_texts e)) in Ok (f, policy_text e, metric_text e)); [f_equal; f_equal; exact L1|]. rewrite cells_of_some. reflexivity.
  - rewrite Nat.min_l by lia. rewrite <- firstn_map, !map_app. cbn [map pair_cols]. rewrite L2, L3.
    assert (S : map (look t e) (span 0 k1) = map Some (firstn k1 (feature_texts e)) /\ map (look t e) (span k1 k) = map Some (skipn k1 (feature_texts e))).
    { rewrite <- (span_app 0 k1 k), map_app in L1 by lia.
      assert (LL : List.length (map (look t e) (span 0 k1)) = k1) by (rewrite map_length, span_length; lia).
      split.
      - apply (f_equal (firstn k1)) in L1. rewrite firstn_app, LL, Nat.sub_diag in L1. cbn [firstn] in L1. rewrite app_nil_r in L1.
        rewrite firstn_all2 in L1 by lia. rewrite L1. apply firstn_map.
      - apply (f_equal (skipn k1)) in L1. rewrite skipn_app, LL, Nat.sub_diag in L1. cbn [skipn] in L1. rewrite skipn_all2 in L1 by lia. cbn [app] in L1.
        rewrite L1. apply skipn_map. }
    destruct S as (S1 & S2).
    transitivity (let* f := cells_of (firstn (List.length (e_features e)) (map Some (firstn k1 (feature_texts e)) ++ [Some (policy_text e); Some (metric_text e)] ++ map Some (skipn k1 (feature_texts e)))) in Ok (f, policy_text e, metric_text e)).
    { f_equal. f_equal. f_equal.
      - rewrite !app_length, !span_length. cbn. destruct C as [C _]. lia.
      - f_equal; [exact S1|]. cbn [app]. do 2 f_equal. exact S2. }
    unfold displaced.
    replace (map Some (firstn k1 (feature_texts e)) ++ [Some (policy_text e); Some (metric_text e)] ++ map Some (skipn k1 (feature_texts e)))
      with (map Some (firstn k1 (feature_texts e) ++ [policy_text e; metric_text e] ++ skipn k1 (feature_texts e))) by (rewrite !map_app; reflexivity).
    rewrite firstn_map, cells_of_some. reflexivity.
Qed.

Lemma displaced_policy k1 e : (k1 < List.length (e_features e))%nat -> nth_error (displaced k1 e) k1 = Some (policy_text e).
Proof.
  intros H. unfold displaced.
  assert (L : List.length (firstn k1 (feature_texts e)) = k1) by (rewrite firstn_length, feature_texts_length; lia).
  assert (N : forall (A : Type) (l : list A) n i, (i < n)%nat -> nth_error (firstn n l) i = nth_error l i).
  { clear. intros A l. induction l as [|x l IH]; intros [|n] [|i] H; try lia; try reflexivity. cbn. apply IH. lia. }
  rewrite N by exact H. rewrite nth_error_app2 by lia. rewrite L, Nat.sub_diag. reflexivity.
Qed.

(** *** Spoiled lines *)
Lemma look_spoiled t e : (List.length (e_features e) <= tr_features t)%nat -> spoiled t e -> look t e ($"xtime") = None.
Proof.
  intros L S. assert (E := at_column_all _ _ (NoDup_trace (tr_features t)) (row_length t e L)).
  change (map (look t e) (trace_columns (tr_features t)) = row_of t e) in E.
  assert (T : exists l, trace_columns (tr_features t) = l ++ [$"xtime"]).
  { rewrite trace_columns_eq. exists (base ++ span 0 (tr_features t) ++ [$"policy"]). rewrite <- !app_assoc. reflexivity. }
  destruct T as (l & T). rewrite T, map_app in E. cbn [map] in E.
  assert (R : exists l', row_of t e = l' ++ [None]).
  { unfold row_of. destruct (tr_features t - List.length (e_features e))%nat as [|n] eqn:N.
    - destruct S as [S|S]; [lia|]. cbn [repeat]. rewrite app_nil_r. unfold fields_of. rewrite app_assoc.
      change [policy_text e; metric_text e] with ([policy_text e] ++ [metric_text e]). rewrite app_assoc, map_app. cbn [map].
      replace (cell_of (metric_text e)) with (@None bytes); [eexists; reflexivity|]. unfold metric_text. destruct (e_metric e); try discriminate. reflexivity.
    - eexists. cbn [repeat]. rewrite repeat_cons, app_assoc. reflexivity. }
  destruct R as (l' & R). rewrite R in E. apply app_inj_tail in E as (_ & E). exact E.
Qed.

Theorem spoiled_throws t1 ts r t e : Forall readable (t1 :: ts) -> In t (traces_of r (t1 :: ts)) -> In e (tr_entries t) -> spoiled t e ->
  create_none (map trace_text (t1 :: ts)) r = Throw.
Proof.
  intros F I J S. rewrite created by assumption. cbv zeta. set (m := fold_left Nat.max (map tr_features ts) (tr_features t1)).
  rewrite dropna_looks. set (gs := looks r (t1 :: ts)).
  assert (G : In (look t e) gs) by (apply in_flat_map; exists t; split; [exact I|]; apply in_map; exact J).
  assert (L : look t e ($"xtime") = None).
  { apply look_spoiled; [|exact S]. unfold traces_of in I. apply filter_In in I as [I _]. rewrite Forall_forall in F. destruct (F t I) as [_ _ C]. rewrite Forall_forall in C. apply C; exact J. }
  set (cols := kept (joint (tr_features t1) m) gs).
  assert (NX : has_column cols ($"xtime") = false).
  { apply has_column_false. intros X. unfold cols, kept in X. apply filter_In in X as [_ X]. rewrite forallb_forall in X. specialize (X _ G). rewrite L in X. discriminate. }
  assert (NI : ~ In ($"index") cols) by (intros X; apply (joint_no_index (tr_features t1) m); unfold cols, kept in X; apply filter_In in X; tauto).
  unfold reset_index at 2. cbn [rows]. rewrite map_map, map_all_map. destruct gs as [|g gs]; [contradiction|]. cbn [map_all].
  rewrite record_of_looks by exact NI. rewrite NX.
  match goal with |- bind (bind (cells_of ?l) _) _ = _ => destruct (cells_of_or l) as [[f X]|X] end; rewrite X; [|reflexivity]. cbn [bind].
  match goal with |- context [match ?o with Some _ => Throw | None => Throw end] => destruct o end; reflexivity.
Qed.

(** *** Directories *)
Lemma has_union a b d : has_column (union a b) d = has_column a d || has_column b d.
Proof.
  destruct (has_column (union a b) d) eqn:E; symmetry.
  - apply has_column_iff in E. unfold union in E. apply in_app_iff in E as [I|I]; apply orb_true_iff; [left|right]; apply has_column_iff; [exact I|]. apply filter_In in I. tauto.
  - apply has_column_false in E. apply orb_false_iff. destruct (has_column a d) eqn:A.
    + exfalso. apply E. unfold union. apply in_app_iff. left. apply has_column_iff. exact A.
    + split; [reflexivity|]. apply has_column_false. intros I. apply E. unfold union. apply in_app_iff. right. apply filter_In. rewrite A. auto.
Qed.
Lemma filter_filter {A} (p q : A -> bool) l : filter p (filter q l) = filter (fun x => q x && p x) l.
Proof. induction l as [|x l IH]; [reflexivity|]. cbn. destruct (q x); cbn; [destruct (p x)|]; rewrite IH; reflexivity. Qed.
Lemma union_assoc a b c : union (union a b) c = union a (union b c).
Proof.
  unfold union at 1 3 4. unfold union at 1. rewrite filter_app, filter_filter, <- app_assoc. do 2 f_equal. apply filter_ext. intros d.
  rewrite has_union, negb_orb. apply andb_comm.
Qed.
Lemma union_fold cs ls : union cs (fold_left union ls []) = fold_left union ls cs.
Proof.
  revert cs. induction ls as [|l ls IH] using rev_ind; intros cs; [cbn; unfold union; cbn; apply app_nil_r|].
  rewrite !fold_left_app. cbn [fold_left]. rewrite <- union_assoc, IH. reflexivity.
Qed.
Lemma has_fold l ls c : In l ls -> has_column l c = true -> has_column (fold_left union ls []) c = true.
Proof.
  intros I H. induction ls as [|l' ls IH] using rev_ind; [contradiction|]. rewrite fold_left_app. cbn [fold_left]. rewrite has_union.
  apply in_app_iff in I as [I|[->|[]]]; [rewrite IH by exact I; reflexivity|]. rewrite H. apply orb_true_r.
Qed.
Lemma at_column_absent cols row c : has_column cols c = false -> at_column cols row c = None.
Proof.
  revert row. induction cols as [|d cols IH]; intros row H; [reflexivity|]. cbn in H. apply orb_false_iff in H as [A B]. destruct row as [|x row]; [reflexivity|].
  cbn [at_column]. rewrite A. apply IH. exact B.
Qed.

Lemma rows_through ts cols :
  map (fun row => map (at_column (columns (concat_tables ts)) row) cols) (rows (concat_tables ts))
  = flat_map (fun t => map (fun row => map (at_column (columns t) row) cols) (rows t)) ts.
Proof.
  unfold concat_tables. cbn [columns rows].
  assert (G : forall us, (forall t, In t us -> In t ts) ->
    map (fun row => map (at_column (fold_left union (map columns ts) []) row) cols)
      (flat_map (fun t => map (fun row => map (at_column (columns t) row) (fold_left union (map columns ts) [])) (rows t)) us)
    = flat_map (fun t => map (fun row => map (at_column (columns t) row) cols) (rows t)) us).
  { induction us as [|u us IH]; intros S; [reflexivity|]. cbn [flat_map]. rewrite map_app, IH by (intros t I; apply S; right; exact I). f_equal.
    rewrite map_map. apply map_ext. intros row. apply map_ext. intros c. rewrite at_column_map.
    destruct (has_column (fold_left union (map columns ts) []) c) eqn:E; [reflexivity|]. symmetry. apply at_column_absent.
    destruct (has_column (columns u) c) eqn:F; [|reflexivity]. rewrite <- E. symmetry. apply (has_fold (columns u)); [|exact F]. apply in_map, S. left; reflexivity. }
  apply G. auto.
Qed.

Lemma concat_concat xs ys : concat_tables [concat_tables xs; concat_tables ys] = concat_tables (xs ++ ys).
Proof.
  unfold concat_tables at 1. cbn [map fold_left flat_map]. rewrite union_nil.
  assert (C : union (columns (concat_tables xs)) (columns (concat_tables ys)) = fold_left union (map columns (xs ++ ys)) []).
  { rewrite map_app, fold_left_app, <- union_fold. reflexivity. }
  rewrite C, !rows_through, app_nil_r. unfold concat_tables. rewrite flat_map_app. reflexivity.
Qed.

Lemma read_all_app a b ta tb : read_all a = Ok ta -> read_all b = Ok tb -> read_all (a ++ b) = Ok (ta ++ tb).
Proof.
  revert ta. induction a as [|s a IH]; intros ta A B; cbn [read_all app] in *.
  - assert (ta = []) by congruence. subst. exact B.
  - apply bind_inv in A as (o & R & A). apply bind_inv in A as (ts & RA & A). rewrite R. cbn [bind]. rewrite (IH _ RA B). cbn [bind].
    assert (ta = match o with Some t => t :: ts | None => ts end) by congruence. subst. destruct o; reflexivity.
Qed.
Lemma read_tracefiles_ok d t : read_tracefiles d = Ok t <-> exists ts, read_all d = Ok ts /\ ts <> [] /\ t = concat_tables ts.
Proof.
  unfold read_tracefiles. split.
  - intros H. apply bind_inv in H as (ts & R & H). exists ts. split; [exact R|]. destruct ts; [discriminate|]. split; [discriminate|congruence].
  - intros (ts & R & N & ->). rewrite R. cbn [bind]. destruct ts; [congruence|reflexivity].
Qed.
Lemma tracedirs_concat dirs : forall xs, Forall (fun d => exists t, read_tracefiles d = Ok t) dirs ->
  exists ys, read_all (List.concat dirs) = Ok ys /\ (dirs <> [] -> ys <> []) /\ read_tracedirs dirs (concat_tables xs) = Ok (concat_tables (xs ++ ys)).
Proof.
  induction dirs as [|d dirs IH]; intros xs F.
  - exists []. rewrite app_nil_r. repeat split. congruence.
  - inversion_clear F as [|? ? (t & R) G]. assert (R' := R). apply read_tracefiles_ok in R' as (zs & RA & N & ->).
    destruct (IH (xs ++ zs) G) as (ys & RY & _ & T). exists (zs ++ ys). cbn [List.concat]. split; [apply read_all_app; assumption|]. split.
    + intros _ E. apply app_eq_nil in E. tauto.
    + cbn [read_tracedirs]. rewrite R. cbn [bind]. rewrite concat_concat, T, app_assoc. reflexivity.
Qed.

Theorem directories files dirs : dirs <> [] -> Forall (fun d => exists t, read_tracefiles d = Ok t) dirs ->
  (files = [] \/ exists t, read_tracefiles files = Ok t) -> read_data files dirs = read_data (List.concat dirs) [].
Proof.
  intros N F G. destruct (tracedirs_concat dirs [] F) as (ys & RY & NY & T). cbn [app] in T. change (concat_tables []) with (mkTable [] []) in T.
  assert (A : read_data files dirs = Ok (concat_tables ys)).
  { unfold read_data. destruct files as [|f files]; destruct dirs as [|d dirs]; try congruence; [exact T|]. destruct G as [G|(t & G)]; [discriminate|]. rewrite G. exact T. }
  rewrite A. symmetry. unfold read_data. destruct (List.concat dirs) eqn:E.
  - exfalso. apply (NY N). cbn in RY. congruence.
  - rewrite <- E in *. apply read_tracefiles_ok. exists ys. auto.
Qed.

Theorem records_faithful first ts r k : Forall readable (first :: ts) ->
  Forall (fun t => regular t /\ tr_features t = k) (traces_of r (first :: ts)) -> (k <= tr_features first)%nat ->
  create_none (map trace_text (first :: ts)) r = Ok (map (fun e => (feature_texts e, policy_text e, metric_text e)) (entries_of r (first :: ts))).
Proof. intros A B C. rewrite (records_of first ts r k A B). apply Nat.leb_le in C. rewrite C. reflexivity. Qed.
Theorem records_displaced first ts r k : Forall readable (first :: ts) ->
  Forall (fun t => regular t /\ tr_features t = k) (traces_of r (first :: ts)) -> (tr_features first < k)%nat ->
  create_none (map trace_text (first :: ts)) r = Ok (map (fun e => (displaced (tr_features first) e, policy_text e, metric_text e)) (entries_of r (first :: ts))) /\
  forall e, In e (entries_of r (first :: ts)) -> nth_error (displaced (tr_features first) e) (tr_features first) = Some (policy_text e).
Proof.
  intros A B C. split.
  - rewrite (records_of first ts r k A B). replace (k <=? tr_features first)%nat with false by (symmetry; apply Nat.leb_gt; exact C). reflexivity.
  - intros e I. apply displaced_policy. unfold entries_of in I. apply in_concat in I as (l & I & J). apply in_map_iff in I as (t & <- & I).
    rewrite Forall_forall in B. destruct (B t I) as ([_ _ F] & <-). rewrite Forall_forall in F. destruct (F e J) as (-> & _). exact C.
Qed.
