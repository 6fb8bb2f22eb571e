(** What analyze-traces.py makes of the traces of trees that explore. *)
From Coq Require Import List ZArith Bool Ascii String Lia Permutation.
From Flocq Require Import BinarySingleNaN.
From Verif Require Import Model.Base Model.Float Model.Decimal Model.DatasetM Model.ModelStringM Model.PolicyModelsM Model.ConfigM Model.RuntimeM
  Model.CreateDatasetM Model.AnalyzeM Model.WriteOptM Model.AccuracyM
  Spec.DatasetSpec Spec.RuntimeSpec Spec.CreateDatasetSpec Spec.AnalyzeSpec Spec.WriteOptSpec Spec.AccuracySpec
  Proofs.TreeFacts Proofs.ModelStringFacts Proofs.RuntimeFacts Proofs.RuntimeMoves Proofs.RuntimeSettled Proofs.RuntimeAccount Proofs.RuntimeNew Proofs.RuntimeCreate
  Proofs.CreateDatasetFacts Proofs.WriteOptFacts Proofs.DecimalInt Proofs.DotFacts Proofs.AnalyzeFacts.
From Coq Require Import List.
Import ListNotations.

(** ** The traces *)

Lemma tree_created P nf np ps init m : create_model P ($"DecisionTree") nf np ps init = Ok m -> m_name m = $"DecisionTree".
Proof.
  unfold create_model. generalize 2%nat. intros fuel. cbn [create_fuel].
  change (bytes_eqb ($"DecisionTree") ($"Static")) with false. change (bytes_eqb ($"DecisionTree") ($"DatasetMap")) with false.
  change (bytes_eqb ($"DecisionTree") ($"Random")) with false. change (bytes_eqb ($"DecisionTree") ($"RoundRobin")) with false.
  change (bytes_eqb ($"DecisionTree") ($"DecisionTree")) with true. cbv iota. intros H. do 2 (apply bind_inv in H; destruct H as (? & _ & H)). inversion H. reflexivity.
Qed.

Lemma tree_parsed ps mn m : parse_policy_model ($"DecisionTree," ++ ps) = Ok (mn, m) -> mn = $"DecisionTree".
Proof.
  unfold parse_policy_model. change (find_char "," ($"DecisionTree," ++ ps)) with (Some 12%nat). change (substr_to ($"DecisionTree," ++ ps) (Some 12%nat)) with ($"DecisionTree").
  intros H. do 2 (apply bind_inv in H; destruct H as (? & _ & H)). inversion H. reflexivity.
Qed.

Theorem tree_traces P ps c files os w xs r R : cf_policy_model c = $"DecisionTree," ++ ps -> cf_trace_csv c <> 0%Z ->
  run P (start_world c files) os = Ok (w, xs) -> forallb explicit os = true -> Forall default_model os -> nth_error (w_regions w) r = Some R ->
  exists log t, records P (start_world c files) (combine os xs) log w /\ tr_model t = $"DecisionTree" /\ tr_rank t = 0%Z /\ tr_region t = r_name R /\
    tr_features t = Z.to_nat (r_num_features R) /\ tr_entries t = taken_for r log /\ r_trace R = trace_text t.
Proof.
  intros PM TR H EX DM ER. destruct (trace_rows P c files os w xs r R H EX ER) as (log & RC & T).
  assert (MN : m_name (r_model R) = $"DecisionTree").
  { destruct (inv_run P (start_world c files) eq_refl eq_refl eq_refl _ _ _ EX H) as (log' & I).
    destruct (region_origin P _ _ _ _ _ _ _ _ EX I ER) as (h1 & nf & nm & np & mt & info & yaml & init & h2 & log1 & wb & w1 & R1 & EH & I1 & HN & ER1 & _ & _ & NM & _).
    assert (info = []) as ->.
    { assert (X : In (OpRegion nf nm np mt info yaml init) os) by (apply (in_combine_l os xs _ (GotRegion r)); rewrite EH; apply in_app_iff; right; left; reflexivity).
      rewrite Forall_forall in DM. exact (DM _ X). }
    destruct (new_region_spec P _ _ _ _ _ _ _ _ _ _ HN) as (-> & v & mn0 & ps0 & mn & ps' & info' & m0 & PP & RS & CM & (GL & ws & R2 & EV & FW & BL & NA) & EW & _).
    rewrite EW, EV, nth_last in ER1 by (eapply Forall2_length'; eauto). inversion ER1; subst R2. destruct NA as (N1 & N2 & _).
    rewrite (same_config_field cf_policy_model _ _ (fun _ => eq_refl) (i_config _ _ _ _ _ I1)) in PP. cbn [w_config start_world] in PP. rewrite PM in PP. apply tree_parsed in PP as ->.
    unfold resolve_static_region in RS. change (bytes_eqb ($"DecisionTree") ($"StaticRegion")) with false in RS. cbv iota in RS.
    assert (EM : mn = $"DecisionTree") by (inversion RS; congruence). rewrite EM in CM. apply tree_created in CM. congruence. }
  exists log, (mkTrace 0 ($"DecisionTree") (r_name R) (Z.to_nat (r_num_features R)) (taken_for r log)). split; [exact RC|]. repeat (split; [reflexivity|]).
  rewrite T, MN. unfold truthy. destruct (Z.eqb_spec (cf_trace_csv c) 0); [congruence|]. reflexivity.
Qed.

(** ** The files *)

Theorem read_iff m info region rank : Forall (fun c => c <> "*"%char) m ->
  (glob (trace_pattern m) (trace_name info region rank) = true <-> contains (m ++ $"-") ($"-" ++ info ++ $"-region-" ++ region ++ $"-rank-" ++ print_Z rank)).
Proof.
  intros F. rewrite pattern_iff by exact F. unfold trace_name, contains. split; intros (a & b & E); exists a, b.
  - change ($"trace-") with ($"trace" ++ $"-") in E. rewrite <- !app_assoc in E. apply app_same in E. rewrite !app_assoc in E. apply app_inv_tail in E. rewrite <- !app_assoc in E. rewrite <- !app_assoc. exact E.
  - change ($"trace-") with ($"trace" ++ $"-"). rewrite <- !app_assoc. f_equal. rewrite <- !app_assoc in E.
    transitivity ((a ++ m ++ $"-" ++ b) ++ $".csv"); [|rewrite <- !app_assoc; reflexivity]. rewrite <- E, <- !app_assoc. reflexivity.
Qed.

Section Explorations.
Variables (ex : bytes) (ts : list trace) (dir : list (bytes * bytes)).
Hypothesis PL : Forall (fun c => c <> "*"%char) ex.
Hypothesis XP : explorations ex ts dir.

Lemma read_once : Permutation (matched dir [ex]) (map (file_under ($"DecisionTree,explore=" ++ ex)) ts).
Proof.
  unfold matched. cbn [fold_left app]. destruct XP as [_ _ _ (others & P & O)].
  assert (PF : forall l l' (q : bytes * bytes -> bool), Permutation l l' -> Permutation (filter q l) (filter q l')).
  { clear. intros l l' q P. induction P; cbn [filter]; [constructor|destruct (q x); [constructor|]; assumption| |etransitivity; eassumption].
    destruct (q x), (q y); try reflexivity. apply perm_swap. }
  etransitivity; [apply PF; exact P|]. rewrite filter_app. rewrite (filter_none _ others), app_nil_r, filter_all; [reflexivity| |].
  - intros f I. apply in_map_iff in I as (t & <- & _). cbn [map existsb negb]. rewrite andb_true_r. apply read_iff; [exact PL|].
    exists ($"-DecisionTree,explore="), ($"region-" ++ tr_region t ++ $"-rank-" ++ print_Z (tr_rank t)). rewrite <- !app_assoc. reflexivity.
  - intros f I. cbn [map existsb negb]. rewrite andb_true_r. destruct (glob (trace_pattern ex) (fst f)) eqn:E; [|reflexivity]. exfalso. rewrite Forall_forall in O. apply (O f I).
    apply pattern_iff in E as (a & b & E); [|exact PL]. exists ($"trace" ++ a), ($"-" ++ b ++ $".csv"). rewrite E, <- !app_assoc. reflexivity.
Qed.

Lemma explored_loaded : exists us, Permutation us ts /\ load_traces dir [ex] = Ok (concat_tables (map table_of us)) /\ us <> [] /\ Forall regular us /\ Forall (fun t => tr_model t = $"DecisionTree") us.
Proof.
  assert (P := read_once). destruct XP as [N RG NM _].
  assert (Q := Permutation_map snd P). rewrite map_map in Q. apply Permutation_map_inv in Q as (us & E & PT).
  assert (R : Forall regular us) by (apply (Permutation_Forall PT); exact RG).
  assert (M : Forall (fun t => tr_model t = $"DecisionTree") us) by (apply (Permutation_Forall PT); exact NM).
  assert (NE : us <> []). { intros ->. apply Permutation_sym, Permutation_nil in PT. congruence. }
  exists us. split; [symmetry; exact PT|]. split; [|auto]. unfold load_traces. apply read_tracefiles_ok. exists (map table_of us). split; [|split; [|reflexivity]].
  - transitivity (read_all (map trace_text us)); [f_equal; exact E|]. apply read_all_traces. eapply Forall_impl; [|exact R]. intros t [A B C]. constructor; [exact A|exact B|].
    eapply Forall_impl; [|exact C]. intros e (L & _). lia.
  - destruct us; [congruence|discriminate].
Qed.
End Explorations.

(** ** The times *)

Lemma times_under (num : bytes -> f64) rank us : flat_map (fun t => if (tr_rank t =? rank)%Z then map (fun e => num (metric_text e)) (tr_entries t) else []) us
  = map (fun x => num (metric_text (snd x))) (executions_on rank us).
Proof.
  unfold executions_on. induction us as [|t us IH]; [reflexivity|]. cbn [flat_map]. rewrite map_app, IH. f_equal. destruct (tr_rank t =? rank)%Z; [|reflexivity]. rewrite map_map. reflexivity.
Qed.

Theorem explored_times ex num ts dir rank : Forall (fun c => c <> "*"%char) ex -> explorations ex ts dir -> ex <> $"DecisionTree" ->
  exists data l, load_traces dir [ex] = Ok data /\ both_times num data rank ex ($"DecisionTree") = Ok (zero64, fold_left add64 l zero64) /\
    Permutation l (map (fun x => num (metric_text (snd x))) (executions_on rank ts)).
Proof.
  intros PL XP NE. destruct (explored_loaded ex ts dir PL XP) as (us & P & L & N & R & M). eexists _, (map (fun x => num (metric_text (snd x))) (executions_on rank us)). split; [exact L|]. split.
  - unfold both_times. rewrite !time_through by assumption. cbn [bind]. rewrite <- times_under. f_equal. f_equal.
    + transitivity (fold_left add64 (flat_map (fun _ : trace => []) us) zero64).
      * f_equal. clear -M NE. induction M as [|t us E M IH]; [reflexivity|]. cbn [flat_map]. rewrite IH, E. destruct (bytes_eqb ($"DecisionTree") ex) eqn:X; [apply bytes_eqb_eq in X; congruence|]. rewrite andb_false_r. reflexivity.
      * clear. induction us; [reflexivity|]. exact IHus.
    + f_equal. clear -M. induction M as [|t us E M IH]; [reflexivity|]. cbn [flat_map]. rewrite IH, E, bytes_eqb_refl, andb_true_r. reflexivity.
  - apply Permutation_map. unfold executions_on. apply flat_map_perm. exact P.
Qed.

(** ** The accuracy *)

Definition five : list bytes := [$"rankid"; $"training"; $"region"; $"idx"; $"policy"].
Definition selected (rank : Z) (trained : bytes) (l : list cell) : bool :=
  match l with [a; b; _; _; _] => cell_eqb a (Some (print_Z rank)) && match b with Some t => has_text trained t | None => false end | _ => false end.
Definition matching (opt : list opt_row) (l : list cell) : bool :=
  match l with
  | [_; _; c; d; p] => match find (fun r => cell_eqb c (Some (o_region r)) && cell_eqb d (Some (print_Z (o_idx r)))) opt with
                       | Some r => cell_eqb p (Some (print_Z (o_policy r))) | None => false end
  | _ => false
  end.
Definition hits (opt : list opt_row) (x : bytes * entry) : bool :=
  match find (fun r => bytes_eqb (o_region r) (fst x) && (o_idx r =? e_index (snd x))%Z) opt with Some r => (o_policy r =? e_policy (snd x))%Z | None => false end.

Lemma printed_eqb a b : bytes_eqb (print_Z a) (print_Z b) = (a =? b)%Z.
Proof.
  destruct (Z.eqb_spec a b) as [->|NE]; [apply bytes_eqb_refl|]. destruct (bytes_eqb (print_Z a) (print_Z b)) eqn:E; [|reflexivity]. apply bytes_eqb_eq in E.
  exfalso. apply NE. rewrite <- (app_nil_r (print_Z a)), <- (app_nil_r (print_Z b)) in E. apply print_Z_cut in E; [|reflexivity|reflexivity]. apply E.
Qed.
Lemma bytes_eqb_sym a b : bytes_eqb a b = bytes_eqb b a.
Proof.
  destruct (bytes_eqb a b) eqn:E; [apply bytes_eqb_eq in E as ->; symmetry; apply bytes_eqb_refl|].
  destruct (bytes_eqb b a) eqn:F; [|reflexivity]. apply bytes_eqb_eq in F as ->. rewrite bytes_eqb_refl in E. discriminate.
Qed.

Lemma find_ext {A} (p q : A -> bool) l : (forall x, p x = q x) -> find p l = find q l.
Proof. intros H. induction l as [|x l IH]; [reflexivity|]. cbn [find]. rewrite H, IH. reflexivity. Qed.

Lemma accuracy_through us opt rank : Forall regular us -> us <> [] -> Forall (fun t => tr_model t = $"DecisionTree") us ->
  compute_accuracy (concat_tables (map table_of us)) opt rank ($"DecisionTree") =
  Ok (List.length (filter (hits opt) (executions_on rank us)), List.length (executions_on rank us)).
Proof.
  intros R N M. unfold compute_accuracy. set (D := concat_tables (map table_of us)).
  assert (H : forall c, In c (base ++ pair_cols) -> has_column (columns D) c = true).
  { intros c I. destruct us as [|t us']; [congruence|]. unfold D, concat_tables. cbn [columns]. apply (has_fold (trace_columns (tr_features t))); [left; reflexivity|].
    apply has_column_iff. rewrite trace_columns_joint. apply in_joint_other. exact I. }
  cbn [forallb]. rewrite !H by (cbn; tauto). cbn [andb]. cbv zeta.
  set (q := fun row => cell_eqb (at_column (columns D) row ($"rankid")) (Some (print_Z rank)) && _).
  assert (S : map (fun row => map (at_column (columns D) row) five) (filter q (rows D)) = filter (selected rank ($"DecisionTree")) (map (fun row => map (at_column (columns D) row) five) (rows D))).
  { transitivity (map (fun l : list cell => l) (filter (selected rank ($"DecisionTree")) (map (fun row => map (at_column (columns D) row) five) (rows D)))); [|apply map_id].
    rewrite <- (filter_through (fun row => map (at_column (columns D) row) five) (selected rank ($"DecisionTree")) (fun l => l)). reflexivity. }
  assert (S2 : List.length (filter (row_matches (columns D) opt) (filter q (rows D))) = List.length (filter (matching opt) (map (fun row => map (at_column (columns D) row) five) (filter q (rows D))))).
  { generalize (filter q (rows D)). intros l. induction l as [|row l IH]; [reflexivity|]. cbn [map filter]. change (matching opt (map (at_column (columns D) row) five)) with (row_matches (columns D) opt row).
    destruct (row_matches (columns D) opt row); cbn [List.length]; rewrite IH; reflexivity. }
  rewrite S2, S. rewrite <- (map_length (fun row => map (at_column (columns D) row) five) (filter q (rows D))), S. clear S S2 q H. unfold D. rewrite rows_through. clear D N.
  assert (X : filter (selected rank ($"DecisionTree")) (flat_map (fun t => map (fun row => map (at_column (columns t) row) five) (rows t)) (map table_of us))
    = map (fun x => [Some (print_Z rank); Some ($"DecisionTree"); Some (fst x); Some (print_Z (e_index (snd x))); Some (print_Z (e_policy (snd x)))]) (executions_on rank us)).
  { unfold executions_on. induction R as [|t us RT R IH]; [reflexivity|]. inversion M as [|? ? E M']; subst. cbn [map flat_map]. rewrite filter_app, map_app, IH by exact M'. f_equal.
    cbn [table_of columns rows]. rewrite map_map. destruct RT as [A B C]. clear -A B C E. induction C as [|e l F C IH]; [destruct (_ =? _)%Z; reflexivity|].
    cbn [map filter]. change (map (at_column (trace_columns (tr_features t)) (row_of t e)) five) with (map (look t e) five).
    destruct (look_features t e A B F) as (_ & X & _).
    assert (L : map (look t e) five = [Some (print_Z (tr_rank t)); Some ($"DecisionTree"); Some (tr_region t); Some (print_Z (e_index e)); Some (print_Z (e_policy e))]).
    { unfold five. cbn [map]. rewrite X, look_region by exact B. repeat f_equal.
      - unfold look. cbn. unfold cell_of. rewrite print_Z_present. reflexivity.
      - unfold look. cbn. unfold cell_of. rewrite E. reflexivity.
      - unfold look. cbn. unfold cell_of. rewrite print_Z_present. reflexivity. }
    rewrite L. cbn [selected cell_eqb]. rewrite printed_eqb. change (has_text ($"DecisionTree") ($"DecisionTree")) with true. rewrite andb_true_r.
    destruct (Z.eqb_spec (tr_rank t) rank) as [Q|Q]; [|exact IH]. rewrite IH, Q. reflexivity. }
  rewrite X, map_length. f_equal. f_equal. generalize (executions_on rank us). intros l. induction l as [|x l IH]; [reflexivity|]. cbn [map filter].
  assert (G : matching opt [Some (print_Z rank); Some ($"DecisionTree"); Some (fst x); Some (print_Z (e_index (snd x))); Some (print_Z (e_policy (snd x)))] = hits opt x).
  { unfold matching, hits. cbn [cell_eqb]. rewrite (find_ext _ (fun r => bytes_eqb (o_region r) (fst x) && (o_idx r =? e_index (snd x))%Z)).
    - destruct (find _ opt) as [r|]; [|reflexivity]. rewrite printed_eqb. apply Z.eqb_sym.
    - intros r. rewrite printed_eqb, bytes_eqb_sym, Z.eqb_sym. reflexivity. }
  rewrite G. destruct (hits opt x); cbn [List.length]; rewrite IH; reflexivity.
Qed.

Lemma hits_fastest rows rank s x : arranged rows rank s -> (forall r, In r rows -> is_nan (o_time r) = false) -> decided rows rank ->
  (hits (drop_duplicates s) x = true <-> used_fastest rows rank x).
Proof.
  intros AR NN DC. destruct x as [region e]. unfold hits, used_fastest. cbn [fst snd].
  destruct (opt_written rows rank s region AR NN) as (l & _ & _ & _ & _).
  assert (RS : forall r, In r s <-> In r rows /\ o_rank r = rank).
  { destruct AR as (P & _). intros r. split.
    - intros I. apply (Permutation_in _ (Permutation_sym P)) in I. apply filter_In in I as [I E]. apply Z.eqb_eq in E. auto.
    - intros [I E]. apply (Permutation_in _ P). apply filter_In. apply Z.eqb_eq in E. auto. }
  assert (FA : forall r, In r (drop_duplicates s) -> o_region r = region -> o_idx r = e_index e -> fastest rows rank region (e_index e) (o_policy r)).
  { intros r I E1 E2. destruct AR as (_ & O). assert (J := drop_incl _ _ I). apply RS in J as [J K]. exists r. split; [repeat split; assumption|]. split; [reflexivity|].
    intros r' (A & B & C & D). apply not_less_le; [apply NN; exact J|apply NN; exact A|]. destruct (lt64 (o_time r') (o_time r)) eqn:L; [|reflexivity].
    exfalso. apply (drop_least s r r' O I); [apply RS; auto|apply same_execution_iff; split; congruence|exact L]. }
  destruct (find _ (drop_duplicates s)) as [r|] eqn:F.
  - apply find_some in F as [I E]. apply andb_true_iff in E as [E1 E2]. apply bytes_eqb_eq in E1. apply Z.eqb_eq in E2. specialize (FA r I E1 E2). rewrite Z.eqb_eq. split; [intros <-; exact FA|].
    intros U. exact (DC _ _ _ _ FA U).
  - split; [discriminate|]. intros (r & (A & B & C & D) & _). assert (J : In r s) by (apply RS; auto). destruct (drop_covers s r J) as (y & Y & S). apply same_execution_iff in S as [S1 S2].
    apply (find_none _ _ F) in Y. rewrite S1, S2, C, D, bytes_eqb_refl, Z.eqb_refl in Y. discriminate.
Qed.

Lemma filter_split {A} (q : A -> bool) l : Permutation (filter q l ++ filter (fun x => negb (q x)) l) l.
Proof.
  induction l as [|x l IH]; [constructor|]. cbn [filter]. destruct (q x); cbn [negb app]; [constructor; exact IH|]. rewrite <- Permutation_middle. constructor. exact IH.
Qed.

Theorem explored_accuracy ex rows ts dir rank s : Forall (fun c => c <> "*"%char) ex -> explorations ex ts dir ->
  arranged rows rank s -> (forall r, In r rows -> is_nan (o_time r) = false) -> decided rows rank ->
  exists data yes no, load_traces dir [ex] = Ok data /\ Permutation (yes ++ no) (executions_on rank ts) /\
    Forall (used_fastest rows rank) yes /\ Forall (fun x => ~ used_fastest rows rank x) no /\
    compute_accuracy data (drop_duplicates s) rank ($"DecisionTree") = Ok (List.length yes, (List.length yes + List.length no)%nat).
Proof.
  intros PL XP AR NN DC. destruct (explored_loaded ex ts dir PL XP) as (us & P & L & N & R & M).
  exists (concat_tables (map table_of us)), (filter (hits (drop_duplicates s)) (executions_on rank us)), (filter (fun x => negb (hits (drop_duplicates s) x)) (executions_on rank us)).
  assert (SP := filter_split (hits (drop_duplicates s)) (executions_on rank us)).
  split; [exact L|]. split; [etransitivity; [exact SP|]; unfold executions_on; apply flat_map_perm; exact P|]. split; [|split].
  - apply Forall_forall. intros x I. apply filter_In in I as [_ I]. apply (hits_fastest rows rank s x AR NN DC). exact I.
  - apply Forall_forall. intros x I U. apply filter_In in I as [_ I]. apply (hits_fastest rows rank s x AR NN DC) in U. rewrite U in I. discriminate.
  - rewrite accuracy_through by assumption. rewrite <- app_length, (Permutation_length SP). reflexivity.
Qed.
