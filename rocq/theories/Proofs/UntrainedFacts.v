(** What analyze-traces.py makes of the traces of a run that explores without a tree, and of trees that are loaded. *)
From Coq Require Import List ZArith Bool Ascii String Lia Permutation.
From Flocq Require Import BinarySingleNaN.
From Verif Require Import Model.Base Model.Float Model.Decimal Model.DatasetM Model.ModelStringM Model.PolicyModelsM Model.ConfigM Model.RuntimeM
  Model.CreateDatasetM Model.AnalyzeM Model.WriteOptM Model.AccuracyM
  Spec.DatasetSpec Spec.RuntimeSpec Spec.CreateDatasetSpec Spec.AnalyzeSpec Spec.WriteOptSpec Spec.AccuracySpec Spec.UntrainedSpec
  Proofs.TreeFacts Proofs.ModelStringFacts Proofs.RuntimeFacts Proofs.RuntimeMoves Proofs.RuntimeSettled Proofs.RuntimeAccount Proofs.RuntimeNew Proofs.RuntimeCreate
  Proofs.CreateDatasetFacts Proofs.WriteOptFacts Proofs.DecimalInt Proofs.DotFacts Proofs.AnalyzeFacts Proofs.AccuracyFacts.
From Coq Require Import List.
Import ListNotations.

(** ** The traces *)

Lemma explorer_created P ex nf np ps init m : ex = $"RoundRobin" \/ ex = $"Random" -> create_model P ex nf np ps init = Ok m -> m_name m = ex.
Proof.
  unfold create_model. generalize 2%nat. intros fuel [->| ->]; cbn [create_fuel].
  - change (bytes_eqb ($"RoundRobin") ($"Static")) with false. change (bytes_eqb ($"RoundRobin") ($"DatasetMap")) with false.
    change (bytes_eqb ($"RoundRobin") ($"Random")) with false. change (bytes_eqb ($"RoundRobin") ($"RoundRobin")) with true. cbv iota. intros H. inversion H. reflexivity.
  - change (bytes_eqb ($"Random") ($"Static")) with false. change (bytes_eqb ($"Random") ($"DatasetMap")) with false.
    change (bytes_eqb ($"Random") ($"Random")) with true. cbv iota. intros H. unfold new_random in H. destruct (_ <? _)%Z; inversion H. reflexivity.
Qed.

Theorem explorer_traces P ex c files os w xs r R : ex = $"RoundRobin" \/ ex = $"Random" -> cf_policy_model c = ex -> cf_trace_csv c <> 0%Z ->
  run P (start_world c files) os = Ok (w, xs) -> forallb explicit os = true -> Forall default_model os -> nth_error (w_regions w) r = Some R ->
  exists log t, records P (start_world c files) (combine os xs) log w /\ tr_model t = ex /\ tr_rank t = 0%Z /\ tr_region t = r_name R /\
    tr_features t = Z.to_nat (r_num_features R) /\ tr_entries t = taken_for r log /\ r_trace R = trace_text t.
Proof.
  intros XX PM TR H EX DM ER. destruct (trace_rows P c files os w xs r R H EX ER) as (log & RC & T).
  assert (MN : m_name (r_model R) = ex).
  { destruct (inv_run P (start_world c files) eq_refl eq_refl eq_refl _ _ _ EX H) as (log' & I).
    destruct (region_origin P _ _ _ _ _ _ _ _ EX I ER) as (h1 & nf & nm & np & mt & info & yaml & init & h2 & log1 & wb & w1 & R1 & EH & I1 & HN & ER1 & _ & _ & NM & _).
    assert (info = []) as ->.
    { assert (X : In (OpRegion nf nm np mt info yaml init) os) by (apply (in_combine_l os xs _ (GotRegion r)); rewrite EH; apply in_app_iff; right; left; reflexivity).
      rewrite Forall_forall in DM. exact (DM _ X). }
    destruct (new_region_spec P _ _ _ _ _ _ _ _ _ _ HN) as (-> & v & mn0 & ps0 & mn & ps' & info' & m0 & PP & RS & CM & (GL & ws & R2 & EV & FW & BL & NA) & EW & _).
    rewrite EW, EV, nth_last in ER1 by (eapply Forall2_length'; eauto). inversion ER1; subst R2. destruct NA as (N1 & N2 & _).
    rewrite (same_config_field cf_policy_model _ _ (fun _ => eq_refl) (i_config _ _ _ _ _ I1)) in PP. cbn [w_config start_world] in PP. rewrite PM in PP.
    assert (E0 : mn0 = ex) by (destruct XX as [-> | ->]; (cbn in PP; inversion PP; reflexivity)). rewrite E0 in RS.
    assert (EM : mn = ex). { unfold resolve_static_region in RS. assert (F : bytes_eqb ex ($"StaticRegion") = false) by (destruct XX as [-> | ->]; reflexivity). rewrite F in RS. inversion RS. congruence. }
    rewrite EM in CM. apply explorer_created in CM; [|exact XX]. congruence. }
  exists log, (mkTrace 0 ex (r_name R) (Z.to_nat (r_num_features R)) (taken_for r log)). split; [exact RC|]. repeat (split; [reflexivity|]).
  rewrite T, MN. unfold truthy. destruct (Z.eqb_spec (cf_trace_csv c) 0); [congruence|]. reflexivity.
Qed.

(** ** Texts in texts *)

Lemma begins_iff w s : begins_with w s = true <-> exists b, s = w ++ b.
Proof.
  revert s. induction w as [|c w IH]; intros s; cbn [begins_with]; [split; [intros _; exists s; reflexivity|reflexivity]|]. destruct s as [|x s]; [split; [discriminate|intros (b & E); discriminate]|].
  rewrite andb_true_iff, IH, Ascii.eqb_eq. split; [intros (-> & b & ->); exists b; reflexivity|intros (b & E); inversion E; subst; eauto].
Qed.
Lemma has_iff w s : has_text w s = true <-> contains w s.
Proof.
  induction s as [|x s IH]; cbn [has_text]; rewrite orb_true_iff, begins_iff.
  - split; [intros [(b & E)|E]; [exists [], b; exact E|discriminate]|]. intros (a & b & E). left. exists b. destruct a; [exact E|discriminate].
  - rewrite IH. split.
    + intros [(b & E)|(a & b & E)]; [exists [], b; exact E|exists (x :: a), b; rewrite E; reflexivity].
    + intros ([|y a] & b & E); [left; exists b; exact E|]. right. inversion E. exists a, b. reflexivity.
Qed.

(** ** The reports *)

Section Only.
Variables (ex : bytes) (ts : list trace) (dir : list (bytes * bytes)).
Hypothesis PL : Forall (fun c => c <> "*"%char) ex.
Hypothesis XO : explored_only ex ts dir.

Lemma only_read : Permutation (matched dir [ex]) (map (file_under ex) ts).
Proof.
  unfold matched. cbn [fold_left app]. destruct XO as [_ _ _ (others & P & O)].
  assert (PF : forall l l' (q : bytes * bytes -> bool), Permutation l l' -> Permutation (filter q l) (filter q l')).
  { clear. intros l l' q P. induction P; cbn [filter]; [constructor|destruct (q x); [constructor|]; assumption| |etransitivity; eassumption].
    destruct (q x), (q y); try reflexivity. apply perm_swap. }
  etransitivity; [apply PF; exact P|]. rewrite filter_app. rewrite (filter_none _ others), app_nil_r, filter_all; [reflexivity| |].
  - intros f I. apply in_map_iff in I as (t & <- & _). cbn [map existsb negb]. rewrite andb_true_r. apply read_iff; [exact PL|].
    exists ($"-"), ($"region-" ++ tr_region t ++ $"-rank-" ++ print_Z (tr_rank t)). rewrite <- !app_assoc. reflexivity.
  - intros f I. cbn [map existsb negb]. rewrite andb_true_r. destruct (glob (trace_pattern ex) (fst f)) eqn:E; [|reflexivity]. exfalso. rewrite Forall_forall in O. apply (O f I).
    apply pattern_iff in E as (a & b & E); [|exact PL]. exists ($"trace" ++ a), (b ++ $".csv"). rewrite E, <- !app_assoc. reflexivity.
Qed.
Lemma only_loaded : exists us, Permutation us ts /\ load_traces dir [ex] = Ok (concat_tables (map table_of us)) /\ us <> [] /\ Forall regular us /\ Forall (fun t => tr_model t = ex) us.
Proof.
  assert (P := only_read). destruct XO as [N RG NM _].
  assert (Q := Permutation_map snd P). rewrite map_map in Q. apply Permutation_map_inv in Q as (us & E & PT).
  assert (R : Forall regular us) by (apply (Permutation_Forall PT); exact RG).
  assert (M : Forall (fun t => tr_model t = ex) us) by (apply (Permutation_Forall PT); exact NM).
  assert (NE : us <> []). { intros ->. apply Permutation_sym, Permutation_nil in PT. congruence. }
  exists us. split; [symmetry; exact PT|]. split; [|auto]. unfold load_traces. apply read_tracefiles_ok. exists (map table_of us). split; [|split; [|reflexivity]].
  - transitivity (read_all (map trace_text us)); [f_equal; exact E|]. apply read_all_traces. eapply Forall_impl; [|exact R]. intros t [A B C]. constructor; [exact A|exact B|].
    eapply Forall_impl; [|exact C]. intros e (L & _). lia.
  - destruct us; [congruence|discriminate].
Qed.
End Only.

Definition two_columns : list bytes := [$"rankid"; $"training"].
(** No row has another model. *)
Lemma none_trained us rank trained : Forall regular us -> Forall (fun t => has_text trained (tr_model t) = false) us ->
  let D := concat_tables (map table_of us) in
  filter (fun row => cell_eqb (at_column (columns D) row ($"rankid")) (Some (print_Z rank)) &&
      match at_column (columns D) row ($"training") with Some t => has_text trained t | None => false end) (rows D) = [].
Proof.
  intros R M D.
  set (sel := fun l : list cell => match l with [a; b] => cell_eqb a (Some (print_Z rank)) && match b with Some t => has_text trained t | None => false end | _ => false end).
  assert (X : filter sel (map (fun row => map (at_column (columns D) row) two_columns) (rows D)) = []).
  { unfold D. rewrite rows_through. clear D. induction R as [|t us RT R IH]; [reflexivity|]. inversion M as [|? ? E M']; subst. cbn [map flat_map]. rewrite filter_app, IH, app_nil_r by exact M'.
    cbn [table_of columns rows]. rewrite map_map. destruct RT as [A B C]. clear -A B C E. induction C as [|e l F C IH]; [reflexivity|]. cbn [map filter].
    assert (S : sel (map (at_column (trace_columns (tr_features t)) (row_of t e)) two_columns) = false).
    { unfold sel, two_columns. cbn [map]. change (at_column (trace_columns (tr_features t)) (row_of t e) ($"training")) with (cell_of (tr_model t)). unfold cell_of. destruct (missing (tr_model t)); [apply andb_false_r|]. rewrite E. apply andb_false_r. }
    rewrite S. exact IH. }
  destruct (filter _ (rows D)) as [|row l] eqn:F; [reflexivity|]. exfalso.
  assert (I : In row (row :: l)) by (left; reflexivity). rewrite <- F in I. apply filter_In in I as [I J].
  assert (K : In (map (at_column (columns D) row) two_columns) []); [|contradiction]. rewrite <- X. apply filter_In. split; [apply in_map with (f := fun row => map (at_column (columns D) row) two_columns); exact I|exact J].
Qed.

Lemma has_all us : us <> [] -> forallb (has_column (columns (concat_tables (map table_of us)))) [$"rankid"; $"training"; $"region"; $"idx"; $"policy"; $"xtime"] = true.
Proof.
  intros N. assert (H : forall c, In c (base ++ pair_cols) -> has_column (columns (concat_tables (map table_of us))) c = true).
  { intros c I. destruct us as [|t us']; [congruence|]. unfold concat_tables. cbn [columns]. apply (has_fold (trace_columns (tr_features t))); [left; reflexivity|].
    apply has_column_iff. rewrite trace_columns_joint. apply in_joint_other. exact I. }
  cbn [forallb]. rewrite !H by (cbn; tauto). reflexivity.
Qed.

Theorem untrained_report ex num opt ts dir rank : Forall (fun c => c <> "*"%char) ex -> explored_only ex ts dir -> ~ contains ($"DecisionTree") ex ->
  exists data l, load_traces dir [ex] = Ok data /\ both_times num data rank ex ($"DecisionTree") = Ok (fold_left add64 l zero64, zero64) /\
    Permutation l (map (fun x => num (metric_text (snd x))) (executions_on rank ts)) /\
    compute_accuracy data opt rank ($"DecisionTree") = Ok (0%nat, 0%nat) /\ compute_relaxed num data opt rank ($"DecisionTree") = Ok 0%nat.
Proof.
  intros PL XO NC. destruct (only_loaded ex ts dir PL XO) as (us & P & L & N & R & M).
  assert (NE : bytes_eqb ex ($"DecisionTree") = false).
  { destruct (bytes_eqb ex ($"DecisionTree")) eqn:E; [|reflexivity]. apply bytes_eqb_eq in E. exfalso. apply NC. rewrite E. exists [], []. reflexivity. }
  assert (MT : Forall (fun t => has_text ($"DecisionTree") (tr_model t) = false) us).
  { eapply Forall_impl; [|exact M]. intros t E. rewrite E. destruct (has_text _ ex) eqn:H; [|reflexivity]. apply has_iff in H. contradiction. }
  exists (concat_tables (map table_of us)), (map (fun x => num (metric_text (snd x))) (executions_on rank us)). split; [exact L|]. split; [|split; [|split]].
  - unfold both_times. rewrite !time_through by assumption. cbn [bind]. rewrite <- times_under. f_equal. f_equal.
    + f_equal. clear -M. induction M as [|t us E M IH]; [reflexivity|]. cbn [flat_map]. rewrite IH, E, bytes_eqb_refl, andb_true_r. reflexivity.
    + transitivity (fold_left add64 (flat_map (fun _ : trace => []) us) zero64).
      * f_equal. clear -M NE. induction M as [|t us E M IH]; [reflexivity|]. cbn [flat_map]. rewrite IH, E, NE, andb_false_r. reflexivity.
      * clear. induction us; [reflexivity|]. exact IHus.
  - apply Permutation_map. unfold executions_on. apply flat_map_perm. exact P.
  - unfold compute_accuracy. rewrite (has_all us N). cbv zeta. rewrite (none_trained us rank ($"DecisionTree") R MT). reflexivity.
  - unfold compute_relaxed. rewrite (has_all us N). cbv zeta. rewrite (none_trained us rank ($"DecisionTree") R MT). reflexivity.
Qed.

(** ** Loaded trees *)

Lemma no_L s : Forall (fun c => c <> "L"%char) s -> has_text ($"Load-") s = false.
Proof.
  intros F. destruct (has_text ($"Load-") s) eqn:H; [|reflexivity]. apply has_iff in H as (a & b & ->). exfalso. apply Forall_app in F as [_ F]. inversion F; subst. congruence.
Qed.
Lemma print_no_L z : Forall (fun c => c <> "L"%char) (print_Z z).
Proof.
  assert (D : forall l, Forall (fun c => is_digit c = true) l -> Forall (fun c => c <> "L"%char) l) by (intros l F; eapply Forall_impl; [|exact F]; intros c H ->; discriminate H).
  unfold print_Z. destruct (z <? 0)%Z; [constructor; [discriminate|]|]; apply D, print_nonneg_digits.
Qed.
Lemma begins_cut u t : begins_with ($"Load-") (u ++ $"-" ++ t) = begins_with ($"Load-") (u ++ $"-").
Proof. destruct u as [|c0 [|c1 [|c2 [|c3 [|c4 u]]]]]; cbn; rewrite ?andb_false_r; reflexivity. Qed.
Lemma has_cut u t : has_text ($"Load-") t = false -> has_text ($"Load-") (u ++ $"-" ++ t) = has_text ($"Load-") (u ++ $"-").
Proof.
  intros H. induction u as [|c u IH].
  - transitivity (has_text ($"Load-") t); [reflexivity|]. rewrite H. reflexivity.
  - assert (E := begins_cut (c :: u) t). cbn [app] in E |- *. cbn [has_text]. f_equal; [exact E|exact IH].
Qed.
Theorem loaded_name region rank : glob (trace_pattern ($"Load")) (trace_name ($"DecisionTree,load") region rank) = true <-> contains ($"Load-") (region ++ $"-").
Proof.
  rewrite read_iff by (repeat constructor; discriminate). change ($"Load" ++ $"-") with ($"Load-"). rewrite <- !has_iff.
  assert (E : has_text ($"Load-") ($"-" ++ $"DecisionTree,load" ++ $"-region-" ++ region ++ $"-rank-" ++ print_Z rank) = has_text ($"Load-") (region ++ $"-" ++ ($"rank-" ++ print_Z rank))) by reflexivity.
  rewrite E, has_cut; [reflexivity|]. apply no_L. apply Forall_app. split; [repeat constructor; discriminate|apply print_no_L].
Qed.
Theorem loaded_throws ts dir : Permutation dir (map (file_under ($"DecisionTree,load")) ts) -> Forall (fun t => ~ contains ($"Load-") (tr_region t ++ $"-")) ts -> load_traces dir [$"Load"] = Throw.
Proof.
  intros P F. unfold load_traces, matched. cbn [fold_left app]. rewrite filter_none; [reflexivity|]. intros f I. cbn [map existsb negb]. rewrite andb_true_r.
  apply (Permutation_in _ P) in I. apply in_map_iff in I as (t & <- & I). rewrite Forall_forall in F.
  destruct (glob (trace_pattern ($"Load")) (fst (file_under ($"DecisionTree,load") t))) eqn:E; [|reflexivity]. exfalso. apply (F t I). apply (loaded_name (tr_region t) (tr_rank t)). exact E.
Qed.
