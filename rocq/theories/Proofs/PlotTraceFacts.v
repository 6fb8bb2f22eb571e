(** The bars and labels of plot-trace.py. *)
From Coq Require Import List ZArith Bool Ascii String Reals Lia Lra Permutation.
From Flocq Require Import BinarySingleNaN.
From Verif Require Import Model.Base Model.Float Model.Decimal Model.RuntimeM Model.CreateDatasetM Model.AnalyzeM Model.PlotTraceM
  Spec.DatasetSpec Spec.RuntimeSpec Spec.CreateDatasetSpec Spec.PlotTraceSpec
  Proofs.TreeFacts Proofs.ModelStringFacts Proofs.DecimalInt Proofs.DotFacts Proofs.CreateDatasetFacts Proofs.FloatFacts Proofs.AggregateFacts.
From Coq Require Import List.
Import ListNotations.
Open Scope nat_scope.

Notation real x := (is_nan x = false).

(** ** Distinct numbers in order *)

Lemma eq64_refl (x : f64) : real x -> eq64 x x = true.
Proof. intros N. apply (eq64_xval x x N N). reflexivity. Qed.
Lemma eq64_sym (x y : f64) : real x -> real y -> eq64 x y = eq64 y x.
Proof.
  intros A B. destruct (eq64 x y) eqn:X, (eq64 y x) eqn:Y; try reflexivity.
  - apply (eq64_xval x y A B) in X. symmetry in X. apply (eq64_xval y x B A) in X. congruence.
  - apply (eq64_xval y x B A) in Y. symmetry in Y. apply (eq64_xval x y A B) in Y. congruence.
Qed.
Lemma eq64_trans (x y z : f64) : real x -> real y -> real z -> eq64 x y = true -> eq64 y z = true -> eq64 x z = true.
Proof. intros A B C X Y. apply (eq64_xval x y A B) in X. apply (eq64_xval y z B C) in Y. apply (eq64_xval x z A C). congruence. Qed.

Lemma distinct_in l x : In x (distinct l) -> In x l.
Proof. revert x. induction l as [|y l IH]; cbn; [tauto|]. intros x [->|I]; [left; reflexivity|]. apply filter_In in I. right. apply IH, I. Qed.
Lemma distinct_covers l x : Forall (fun x => real x) l -> In x l -> occurs x (distinct l).
Proof.
  intros F. revert x. induction F as [|y l N F IH]; cbn; [tauto|]. intros x [<-|I].
  - exists y. split; [left; reflexivity|apply eq64_refl, N].
  - destruct (IH x I) as (z & IZ & E). assert (NZ : real z) by (apply (proj1 (Forall_forall _ _) F), distinct_in, IZ).
    destruct (eq64 z y) eqn:ZY.
    + exists y. split; [left; reflexivity|]. assert (NX : real x) by (apply (proj1 (Forall_forall _ _) F), I).
      apply (eq64_trans y z x); auto. rewrite eq64_sym; auto.
    + exists z. split; [|exact E]. right. apply filter_In. split; [exact IZ|]. rewrite ZY. reflexivity.
Qed.

(** No two numbers of a list are equal. *)
Inductive apart : list f64 -> Prop :=
| apart_nil : apart []
| apart_cons x l : Forall (fun y => eq64 y x = false) l -> apart l -> apart (x :: l).
Lemma apart_filter p l : apart l -> apart (filter p l).
Proof.
  induction 1 as [|x l F A IH]; cbn; [constructor|]. destruct (p x); [|exact IH]. constructor; [|exact IH].
  apply Forall_forall. intros y I. apply filter_In in I. apply (proj1 (Forall_forall _ _) F), I.
Qed.
Lemma distinct_apart l : apart (distinct l).
Proof.
  induction l as [|x l IH]; cbn; [constructor|]. constructor; [|apply apart_filter, IH]. apply Forall_forall. intros y I. apply filter_In in I as [_ E].
  destruct (eq64 y x); [discriminate|reflexivity].
Qed.

Lemma insert_perm x l : Permutation (insert_number x l) (x :: l).
Proof. induction l as [|y l IH]; cbn; [reflexivity|]. destruct (lt64 y x); [|reflexivity]. rewrite IH. apply perm_swap. Qed.
Lemma sort_perm l : Permutation (sort_numbers l) l.
Proof. induction l as [|x l IH]; cbn; [reflexivity|]. rewrite insert_perm, IH. reflexivity. Qed.

Lemma insert_rising x l : real x -> Forall (fun y => real y) l -> Forall (fun y => eq64 y x = false) l -> rising l -> rising (insert_number x l).
Proof.
  intros N F D R. induction R as [|y|y z l Q R IH]; cbn.
  - constructor.
  - inversion_clear F as [|? ? NY _]. inversion_clear D as [|? ? EY _]. destruct (lt64 y x) eqn:L; [constructor; [exact L|constructor]|].
    constructor; [|constructor]. rewrite eq64_lt64 in EY by assumption. rewrite L in EY. destruct (lt64 x y); [reflexivity|discriminate].
  - inversion_clear F as [|? ? NY F']. inversion_clear D as [|? ? EY D']. specialize (IH F' D'). cbn in IH. destruct (lt64 y x) eqn:L.
    + destruct (lt64 z x) eqn:L2; [constructor; [exact Q|exact IH]|]. constructor; [exact L|exact IH].
    + constructor; [|constructor; [exact Q|exact R]]. rewrite eq64_lt64 in EY by assumption. rewrite L in EY. destruct (lt64 x y); [reflexivity|discriminate].
Qed.
Lemma sort_rising l : Forall (fun y => real y) l -> apart l -> rising (sort_numbers l).
Proof.
  intros F A. induction A as [|x l D A IH]; cbn; [constructor|]. inversion_clear F as [|? ? N F'].
  apply insert_rising; [exact N| | |exact (IH F')]; apply Forall_forall; intros y I; apply (Permutation_in _ (sort_perm l)) in I.
  - apply (proj1 (Forall_forall _ _) F'), I.
  - apply (proj1 (Forall_forall _ _) D), I.
Qed.

Lemma sorted_once l : Forall (fun y => real y) l -> each_once l (sort_numbers (distinct l)).
Proof.
  intros F. split; [|split].
  - apply sort_rising; [|apply distinct_apart]. apply Forall_forall. intros y I. apply (proj1 (Forall_forall _ _) F), distinct_in, I.
  - intros x I. apply distinct_in, (Permutation_in _ (sort_perm _)), I.
  - intros x I. destruct (distinct_covers l x F I) as (y & IY & E). exists y. split; [|exact E]. apply (Permutation_in _ (Permutation_sym (sort_perm _))), IY.
Qed.

(** ** Strides *)

Lemma stride_skip (i n : nat) (a b : list bytes) : List.length a = i -> stride i n (a ++ b) = stride 0 n b.
Proof. revert i. induction a as [|x a IH]; intros i <-; cbn; [reflexivity|apply IH; reflexivity]. Qed.
Lemma stride_rows {A} (g : A -> list bytes) n i ps d : (forall p, List.length (g p) = n) -> i < n ->
  stride i n (flat_map g ps) = map (fun p => nth i (g p) d) ps.
Proof.
  intros L H. induction ps as [|p ps IH]; cbn [flat_map map]; [destruct i; reflexivity|].
  assert (S : exists a x b, g p = a ++ x :: b /\ List.length a = i).
  { destruct (nth_split (n:=i) (g p) d) as (a & b & E & LA); [rewrite L; exact H|]. exists a, (nth i (g p) d), b. split; assumption. }
  destruct S as (a & x & b & E & LA). specialize (L p). rewrite E in *. rewrite <- app_assoc. rewrite stride_skip by exact LA. cbn [app stride].
  rewrite app_nth2 by lia. rewrite LA, Nat.sub_diag. cbn [nth]. f_equal.
  assert (LB : i + S (List.length b) = n) by (rewrite <- LA; rewrite app_length in L; exact L).
  transitivity (stride (n - 1) n (b ++ flat_map g ps)); [reflexivity|]. rewrite <- IH.
  transitivity (stride (List.length b + i) n (b ++ flat_map g ps)); [f_equal; lia|]. clear. induction b as [|y b IHb]; [reflexivity|exact IHb].
Qed.

Section Bars.
Variable mean : list f64 -> f64.
Variable format : f64 -> bytes.

Definition row_seen (r : plot_row) : seen := (p_feature r, p_policy r, p_time r).

Lemma map_nth_seq {A} (F : list A) (g : nat -> A -> list (bar * bytes)) (h : A -> list (bar * bytes)) : (forall i f, nth_error F i = Some f -> g i f = h f) ->
  flat_map (fun ic => g (fst ic) (snd ic)) (combine (seq 0 (List.length F)) F) = flat_map h F.
Proof.
  intros E. assert (X : forall k, (forall i f, nth_error F i = Some f -> g (k + i) f = h f) -> flat_map (fun ic => g (fst ic) (snd ic)) (combine (seq k (List.length F)) F) = flat_map h F).
  { clear E. induction F as [|f F IH]; intros k E; [reflexivity|]. cbn [List.length seq combine flat_map fst snd]. f_equal.
    - rewrite <- (Nat.add_0_r k). apply E. reflexivity.
    - apply (IH (S k)). intros i q Q. rewrite <- (E (S i) q Q). f_equal. lia. }
  apply (X 0). exact E.
Qed.

Lemma through_map {A B C} (c : A -> B) (g : nat -> B -> list C) (F : list A) (ns : list nat) :
  flat_map (fun ic => g (fst ic) (snd ic)) (combine ns (map c F)) = flat_map (fun ic => g (fst ic) (c (snd ic))) (combine ns F).
Proof. revert F. induction ns as [|n ns IH]; intros [|f F]; cbn; try reflexivity. rewrite IH. reflexivity. Qed.

Lemma combine_map {A B C} (u : A -> B) (v : A -> C) l : combine (map u l) (map v l) = map (fun a => (u a, v a)) l.
Proof. induction l as [|a l IH]; cbn; [reflexivity|]. rewrite IH. reflexivity. Qed.

Lemma filter_both f p rows : map p_time (filter (fun r => eq64 (p_policy r) p) (filter (fun r => eq64 (p_feature r) f) rows)) = times_with f p (map row_seen rows).
Proof.
  unfold times_with. induction rows as [|r rows IH]; [reflexivity|]. cbn [map filter row_seen with_both]. destruct (eq64 (p_feature r) f) eqn:E; cbn [andb filter]; [|exact IH].
  destruct (eq64 (p_policy r) p); cbn [map]; rewrite IH; reflexivity.
Qed.
Lemma filter_height f p rows : List.length (filter (fun r => eq64 (p_policy r) p && eq64 (p_feature r) f) rows) = List.length (times_with f p (map row_seen rows)).
Proof.
  unfold times_with. rewrite map_length. induction rows as [|r rows IH]; [reflexivity|]. cbn [map filter row_seen with_both]. rewrite andb_comm.
  destruct (eq64 (p_feature r) f && eq64 (p_policy r) p); cbn [List.length]; rewrite IH; reflexivity.
Qed.
Lemma text_seen rows p f : bar_text mean format rows p f =
  match times_with f p (map row_seen rows) with [] => $"0" | ts => format (mul64 (mean ts) (f64_of_Z 1000000)) end.
Proof.
  rewrite <- filter_both. unfold bar_text.
  destruct (filter (fun r => eq64 (p_policy r) p) (filter (fun r => eq64 (p_feature r) f) rows)) as [|r l]; reflexivity.
Qed.

Theorem bars_right rows : rows <> [] -> readable_numbers (map row_seen rows) -> exists bars, plot_bars mean format rows = Ok bars /\ right_bars mean format (map row_seen rows) bars.
Proof.
  intros NE RN. unfold plot_bars. destruct rows as [|r0 rs] eqn:ER; [congruence|]. rewrite <- ER in *. clear NE. eexists. split; [reflexivity|].
  exists (plot_features rows), (plot_policies rows). split; [|split].
  - rewrite map_map. apply sorted_once. apply Forall_map. unfold readable_numbers in RN. rewrite Forall_map in RN. eapply Forall_impl; [|exact RN]. cbn. tauto.
  - rewrite map_map. apply sorted_once. apply Forall_map. unfold readable_numbers in RN. rewrite Forall_map in RN. eapply Forall_impl; [|exact RN]. cbn. tauto.
  - unfold plot_containers. rewrite map_length.
    set (F := plot_features rows). set (Q := plot_policies rows).
    set (c := fun f => map (fun p => (f, p, List.length (filter (fun r => eq64 (p_policy r) p && eq64 (p_feature r) f) rows))) Q).
    transitivity (flat_map (fun ic => combine (c (snd ic)) (stride (fst ic) (List.length F) (bar_labels mean format rows))) (combine (seq 0 (List.length F)) F)).
    { apply (through_map c (fun i q => combine q (stride i (List.length F) (bar_labels mean format rows)))). }
    apply (map_nth_seq F (fun i f => combine (c f) (stride i (List.length F) (bar_labels mean format rows)))). intros i f E.
    unfold bar_labels. fold F Q. rewrite (stride_rows _ (List.length F) i Q []); [|intros p; apply map_length|apply nth_error_Some; congruence].
    unfold c. rewrite combine_map. apply map_ext. intros p. rewrite filter_height. do 2 f_equal.
    rewrite <- text_seen. apply nth_error_nth. rewrite nth_error_map, E. reflexivity.
Qed.

(** ** Every execution is in one bar *)

Lemma rising_above x l : real x -> Forall (fun y => real y) l -> rising (x :: l) -> Forall (fun y => eq64 y x = false) l.
Proof.
  intros N F R. assert (L : Forall (fun y => (xval x < xval y)%R) l).
  { revert x N R. induction F as [|y l NY F IH]; intros x N R; [constructor|]. inversion R; subst.
    assert (X : (xval x < xval y)%R) by (apply (lt64_xval x y N NY); assumption). constructor; [exact X|].
    eapply Forall_impl; [|apply IH; [exact NY|assumption]]. cbn. intros z Z. lra. }
  apply Forall_forall. intros y I. assert (NY : real y) by (apply (proj1 (Forall_forall _ _) F), I). apply (proj1 (Forall_forall _ _) L) in I.
  destruct (eq64 y x) eqn:E; [|reflexivity]. apply (eq64_xval y x NY N) in E. lra.
Qed.

Lemma one_match all l x : Forall (fun y => real y) all -> each_once all l -> In x all -> List.length (filter (fun y => eq64 x y) l) = 1.
Proof.
  intros F (R & S & C) I. destruct (C x I) as (y & IY & E). assert (NX : real x) by (apply (proj1 (Forall_forall _ _) F), I).
  assert (FL : Forall (fun y => real y) l) by (apply Forall_forall; intros z Z; apply (proj1 (Forall_forall _ _) F), S, Z). clear C S I.
  induction l as [|z l IH]; [destruct IY|]. inversion FL as [|? ? NZ FL']; subst. assert (A := rising_above z l NZ FL' R). cbn [filter]. destruct (eq64 x z) eqn:XZ.
  - cbn [List.length]. f_equal. rewrite (filter_none (fun y => eq64 x y) l); [reflexivity|]. intros u IU. destruct (eq64 x u) eqn:XU; [|reflexivity].
    assert (NU : real u) by (apply (proj1 (Forall_forall _ _) FL'), IU). apply (proj1 (Forall_forall _ _) A) in IU.
    rewrite (eq64_trans u x z) in IU; auto. rewrite eq64_sym; auto.
  - apply IH; [inversion R; subst; [constructor|assumption]| |exact FL']. destruct IY as [->|IY]; [|exact IY].
    assert (NY : real y) by exact NZ. rewrite eq64_sym in E by assumption. congruence.
Qed.

Lemma total_step (fs ps : list f64) s l :
  list_sum (flat_map (fun f => map (fun p => List.length (times_with f p (s :: l))) ps) fs) =
  List.length (filter (fun f => eq64 (fst (fst s)) f) fs) * List.length (filter (fun p => eq64 (snd (fst s)) p) ps) +
  list_sum (flat_map (fun f => map (fun p => List.length (times_with f p l)) ps) fs).
Proof.
  destruct s as [[g q] t]. cbn [fst snd]. induction fs as [|f fs IH]; [reflexivity|]. cbn [flat_map filter]. rewrite !list_sum_app, IH.
  assert (X : list_sum (map (fun p => List.length (times_with f p ((g, q, t) :: l))) ps) =
    (if eq64 g f then List.length (filter (fun p => eq64 q p) ps) else 0) + list_sum (map (fun p => List.length (times_with f p l)) ps)).
  { clear IH. induction ps as [|p ps IH]; [destruct (eq64 g f); reflexivity|]. cbn [map list_sum filter].
    change (list_sum (?a :: ?b)) with (a + list_sum b). unfold list_sum in *. cbn [fold_right]. rewrite IH. unfold times_with at 1. cbn [filter with_both].
    unfold times_with. destruct (eq64 g f), (eq64 q p); cbn [andb map List.length]; lia. }
  etransitivity; [apply f_equal2; [exact X|reflexivity]|]. destruct (eq64 g f); cbn [List.length]; lia.
Qed.

Theorem counted_once l bars : readable_numbers l -> right_bars mean format l bars -> heights bars = List.length l.
Proof.
  intros RN (fs & ps & EF & EP & ->). unfold heights.
  set (txt := fun f p => match times_with f p l with [] => $"0" | ts => format (mul64 (mean ts) (f64_of_Z 1000000)) end).
  transitivity (list_sum (flat_map (fun f => map (fun p => List.length (times_with f p l)) ps) fs)).
  { clear. f_equal. induction fs as [|f fs IH]; [reflexivity|]. cbn [flat_map]. rewrite map_app, IH, map_map. reflexivity. }
  assert (MF : forall s, In s l -> List.length (filter (fun f => eq64 (fst (fst s)) f) fs) = 1).
  { intros s I. apply (one_match (map (fun s => fst (fst s)) l)); [|exact EF|apply (in_map (fun s => fst (fst s))), I]. apply Forall_map. eapply Forall_impl; [|exact RN]. cbn. tauto. }
  assert (MP : forall s, In s l -> List.length (filter (fun p => eq64 (snd (fst s)) p) ps) = 1).
  { intros s I. apply (one_match (map (fun s => snd (fst s)) l)); [|exact EP|apply (in_map (fun s => snd (fst s))), I]. apply Forall_map. eapply Forall_impl; [|exact RN]. cbn. tauto. }
  clear EF EP RN txt. revert MF MP. generalize l as k. induction k as [|s k IH]; intros MF MP.
  - cbn. clear. induction fs as [|f fs IH]; [reflexivity|]. cbn [flat_map]. rewrite list_sum_app, IH. clear. induction ps as [|p ps IH]; [reflexivity|]. exact IH.
  - rewrite total_step, IH; [|intros; apply MF; right; assumption|intros; apply MP; right; assumption]. rewrite MF, MP by (left; reflexivity). reflexivity.
Qed.

(** ** From the trace *)

Lemma rows_seen num t : regular t -> 1 <= tr_features t -> exists rs, plot_rows num (table_of t) = Ok rs /\ map row_seen rs = map (seen_of num) (tr_entries t).
Proof.
  intros [A B C] K. unfold plot_rows. cbn [table_of columns rows].
  change ($"f0") with (fname 0). rewrite has_trace. destruct (Nat.ltb_spec 0 (tr_features t)); [|lia].
  assert (H2 : has_column (trace_columns (tr_features t)) ($"policy") = true) by (apply has_column_iff; rewrite trace_columns_joint; apply in_joint_other; cbn; tauto).
  assert (H3 : has_column (trace_columns (tr_features t)) ($"xtime") = true) by (apply has_column_iff; rewrite trace_columns_joint; apply in_joint_other; cbn; tauto).
  rewrite H2, H3. cbn [andb]. eexists. split; [reflexivity|]. rewrite !map_map. apply map_ext_in. intros e I.
  assert (F := proj1 (Forall_forall _ _) C e I). destruct (look_features t e A B F) as (L1 & L2 & L3).
  change (at_column (trace_columns (tr_features t)) (row_of t e)) with (look t e). rewrite L2, L3.
  assert (L0 : look t e (fname 0) = Some (List.hd [] (feature_texts e))).
  { destruct (tr_features t) as [|k]; [lia|]. cbn [span Nat.sub seq map] in L1. destruct (feature_texts e) as [|x l]; [discriminate|].
    change (span 0 (S k)) with (fname 0 :: map fname (seq 1 k)) in L1. cbn [map] in L1. injection L1 as X1 _. exact X1. }
  rewrite L0. reflexivity.
Qed.

(** ** The name *)

Lemma after_app w s : after w (w ++ s) = Some s.
Proof. induction w as [|c w IH]; cbn; [reflexivity|]. rewrite Ascii.eqb_refl. exact IH. Qed.
Lemma after_some w s r : after w s = Some r -> s = w ++ r.
Proof.
  revert s. induction w as [|c w IH]; intros s H; cbn in H; [inversion H; reflexivity|]. destruct s as [|d s]; [discriminate|]. destruct (Ascii.eqb_spec c d) as [->|]; [|discriminate].
  cbn. f_equal. apply IH, H.
Qed.
Lemma up_to_dash_app a b : Forall (fun c => c <> "-"%char /\ c <> nl) a -> up_to_dash (a ++ "-"%char :: b) = Some a.
Proof. induction 1 as [|c a [D N] F IH]; cbn [app up_to_dash]; [reflexivity|]. apply Ascii.eqb_neq in D, N. rewrite D, N, IH. reflexivity. Qed.

Lemma model_name a b : Forall (fun c => c <> "-"%char /\ c <> nl) a -> plotted_model ($"trace-" ++ a ++ $"-" ++ b) = Ok a.
Proof. intros F. unfold plotted_model. rewrite after_app. change ($"-" ++ b) with ("-"%char :: b). rewrite up_to_dash_app by exact F. reflexivity. Qed.

Theorem elsewhere num file text n drop : (forall s, file <> $"trace-" ++ s) -> plot_trace mean format num file text n drop = Throw.
Proof.
  intros H. unfold plot_trace, plotted_model. destruct (after ($"trace-") file) as [s|] eqn:E; [|reflexivity]. apply after_some in E. destruct (H s E).
Qed.

Theorem without_features num file t n drop : readable t -> tr_features t = 0 -> plot_trace mean format num file (trace_text t) n drop = Throw.
Proof.
  intros R K. unfold plot_trace. destruct (plotted_model file) as [m| | | |] eqn:E; cbn [bind]; try reflexivity;
    try (unfold plotted_model in E; destruct (after _ _) as [s|]; [destruct (up_to_dash s)|]; discriminate).
  rewrite read_csv_trace by exact R. cbn [bind]. unfold plot_rows. cbn [table_of columns]. change ($"f0") with (fname 0). rewrite has_trace, K. reflexivity.
Qed.

Theorem plotted num a b t n (drop : bool) : Forall (fun c => c <> "-"%char /\ c <> nl) a -> regular t -> 1 <= tr_features t ->
  readable_numbers (map (seen_of num) (tr_entries t)) -> (if drop then 1 else 0) < n < List.length (tr_entries t) ->
  exists training tuned, plot_trace mean format num ($"trace-" ++ a ++ $"-" ++ b) (trace_text t) (Z.of_nat n) drop = Ok (a ++ $"-plot.pdf", training, tuned) /\
    right_bars mean format (skipn (if drop then 1 else 0) (firstn n (map (seen_of num) (tr_entries t)))) training /\
    right_bars mean format (skipn n (map (seen_of num) (tr_entries t))) tuned.
Proof.
  intros D R K RN LT. destruct (rows_seen num t R K) as (rs & E & S).
  assert (RD : readable t) by (destruct R as [A B C]; constructor; [exact A|exact B|]; eapply Forall_impl; [|exact C]; intros e [X _]; rewrite X; apply le_n).
  assert (LR : List.length rs = List.length (tr_entries t)) by (rewrite <- (map_length row_seen), S, map_length; reflexivity).
  unfold plot_trace. rewrite model_name by exact D. cbn [bind]. rewrite read_csv_trace by exact RD. cbn [bind]. rewrite E. cbn [bind].
  assert (CUT : slice_position (List.length rs) (Z.of_nat n) = n).
  { unfold slice_position. destruct (Z.ltb_spec (Z.of_nat n) 0); [lia|]. rewrite Nat2Z.id, LR. apply Nat.min_r. lia. }
  rewrite CUT. rewrite <- S in RN |- *. clear E S CUT. unfold readable_numbers in RN.
  assert (SUB : forall k, Forall (fun s => real (fst (fst s)) /\ real (snd (fst s))) k -> forall j, Forall (fun s : seen => real (fst (fst s)) /\ real (snd (fst s))) (skipn j k)).
  { intros k F j. rewrite <- (firstn_skipn j k) in F. apply Forall_app in F. apply F. }
  assert (SUB2 : forall k, Forall (fun s => real (fst (fst s)) /\ real (snd (fst s))) k -> forall j, Forall (fun s : seen => real (fst (fst s)) /\ real (snd (fst s))) (firstn j k)).
  { intros k F j. rewrite <- (firstn_skipn j k) in F. apply Forall_app in F. apply F. }
  set (dr := if drop then 1 else 0) in *.
  destruct (bars_right (skipn dr (firstn n rs))) as (b1 & B1 & R1).
  { intros X. apply (f_equal (@List.length plot_row)) in X. rewrite skipn_length, firstn_length in X. cbn in X. lia. }
  { rewrite skipn_map, firstn_map || rewrite <- skipn_map, <- firstn_map. apply SUB, SUB2, RN. }
  destruct (bars_right (skipn n rs)) as (b2 & B2 & R2).
  { intros X. apply (f_equal (@List.length plot_row)) in X. rewrite skipn_length in X. cbn in X. lia. }
  { rewrite <- skipn_map. apply SUB, RN. }
  rewrite B1. cbn [bind]. rewrite B2. cbn [bind]. exists b1, b2. split; [reflexivity|]. rewrite firstn_map, !skipn_map. split; assumption.
Qed.

Theorem one_time l bars f p h text x : right_bars mean format l bars -> In (f, p, h, text) bars -> times_with f p l = [x] ->
  mean [x] = x -> text = format (mul64 x (f64_of_Z 1000000)) /\ unit_title = $"Bar labels are mean execution times in ms".
Proof.
  intros (fs & ps & _ & _ & ->) I T M. split; [|reflexivity]. apply in_flat_map in I as (g & _ & I). apply in_map_iff in I as (q & E & _).
  inversion E; subst. rewrite T, M. reflexivity.
Qed.

Lemma named_after a b region rank : Forall (fun c => c <> "-"%char /\ c <> nl) a -> plotted_model (trace_name (a ++ $"-" ++ b) region rank) = Ok a.
Proof. intros F. unfold trace_name. rewrite <- !app_assoc. apply model_name, F. Qed.
Lemma named_whole a region rank : Forall (fun c => c <> "-"%char /\ c <> nl) a -> plotted_model (trace_name a region rank) = Ok a.
Proof. intros F. unfold trace_name. change ($"-region-") with ($"-" ++ $"region-"). rewrite <- !app_assoc. apply model_name, F. Qed.
Lemma file_named num file text n drop f x y a : plotted_model file = Ok a -> plot_trace mean format num file text n drop = Ok (f, x, y) -> f = a ++ $"-plot.pdf".
Proof.
  intros M H. unfold plot_trace in H. rewrite M in H. cbn [bind] in H. apply bind_inv in H as (t & _ & H). destruct t as [t|]; [|discriminate].
  apply bind_inv in H as (l & _ & H). apply bind_inv in H as (u & _ & H). apply bind_inv in H as (v & _ & H). inversion H. reflexivity.
Qed.
Theorem one_file num a b b' region region' rank rank' text text' n n' drop drop' f f' x x' y y' :
  Forall (fun c => c <> "-"%char /\ c <> nl) a ->
  plot_trace mean format num (trace_name (a ++ $"-" ++ b) region rank) text n drop = Ok (f, x, y) ->
  plot_trace mean format num (trace_name (a ++ $"-" ++ b') region' rank') text' n' drop' = Ok (f', x', y') \/
  plot_trace mean format num (trace_name a region' rank') text' n' drop' = Ok (f', x', y') -> f = f'.
Proof.
  intros F A B. apply (file_named _ _ _ _ _ _ _ _ a) in A; [|apply named_after, F]. subst f. symmetry.
  destruct B as [B|B]; apply (file_named _ _ _ _ _ _ _ _ a) in B; try assumption; [apply named_after, F|apply named_whole, F].
Qed.
End Bars.
