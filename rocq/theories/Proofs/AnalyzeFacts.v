(** Which traces are read, and what is added up. *)
From Coq Require Import List ZArith Bool Ascii String Reals Lia Lra Permutation.
From Flocq Require Import BinarySingleNaN.
From Verif Require Import Model.Base Model.Float Model.Decimal Model.RuntimeM Model.CreateDatasetM Model.AnalyzeM Model.WriteOptM
  Spec.DatasetSpec Spec.RuntimeSpec Spec.CreateDatasetSpec Spec.AnalyzeSpec
  Proofs.TreeFacts Proofs.ModelStringFacts Proofs.DecimalInt Proofs.DotFacts Proofs.CreateDatasetFacts.
From Coq Require Import List.
Import ListNotations.

(** ** Patterns *)

Lemma glob_star p s : glob ("*"%char :: p) s = true <-> exists a b, s = a ++ b /\ glob p b = true.
Proof.
  cbn [glob]. change (Ascii.eqb "*" "*") with true. cbv iota. split.
  - induction s as [|x s IH]; intros H.
    + rewrite orb_false_r in H. exists [], []. auto.
    + apply orb_true_iff in H as [H|H]; [exists [], (x :: s); auto|]. destruct (IH H) as (a & b & -> & G). exists (x :: a), b. auto.
  - intros (a & b & -> & G). induction a as [|x a IH]; cbn [app].
    + destruct b; rewrite G; reflexivity.
    + rewrite IH. apply orb_true_r.
Qed.
Lemma glob_plain w p s : Forall (fun c => c <> "*"%char) w -> (glob (w ++ p) s = true <-> exists b, s = w ++ b /\ glob p b = true).
Proof.
  intros F. revert s. induction F as [|c w N F IH]; intros s; cbn [app].
  - split; [intros H; exists s; auto|]. intros (b & -> & H). exact H.
  - cbn [glob]. rewrite (eqb_c _ _ N). destruct s as [|x s]; [split; [discriminate|intros (b & X & _); discriminate]|].
    rewrite andb_true_iff, IH. split.
    + intros (X & b & -> & G). apply Ascii.eqb_eq in X as ->. exists b. auto.
    + intros (b & X & G). injection X as -> ->. rewrite Ascii.eqb_refl. split; [reflexivity|]. exists b. auto.
Qed.
Lemma glob_end s : glob [] s = true <-> s = [].
Proof. destruct s; cbn; split; congruence. Qed.

Lemma pattern_iff m s : Forall (fun c => c <> "*"%char) m ->
  (glob (trace_pattern m) s = true <-> exists a b, s = $"trace" ++ a ++ m ++ $"-" ++ b ++ $".csv").
Proof.
  intros F. unfold trace_pattern. change ($"trace*" ++ m ++ $"-*.csv") with ($"trace" ++ ("*"%char :: m ++ $"-*.csv")).
  rewrite glob_plain by (repeat constructor; discriminate). split.
  - intros (s1 & -> & G). apply glob_star in G as (a & s2 & -> & G). apply glob_plain in G as (s3 & -> & G); [|exact F].
    change ($"-*.csv") with ($"-" ++ ("*"%char :: $".csv")) in G. apply glob_plain in G as (s4 & -> & G); [|repeat constructor; discriminate].
    apply glob_star in G as (b & s5 & -> & G). rewrite <- (app_nil_r ($".csv")) in G. apply glob_plain in G as (s6 & -> & G); [|repeat constructor; discriminate].
    apply glob_end in G as ->. exists a, b. rewrite app_nil_r. reflexivity.
  - intros (a & b & ->). exists (a ++ m ++ $"-" ++ b ++ $".csv"). split; [reflexivity|]. apply glob_star. exists a, (m ++ $"-" ++ b ++ $".csv"). split; [reflexivity|].
    apply glob_plain; [exact F|]. exists ($"-" ++ b ++ $".csv"). split; [reflexivity|]. change ($"-*.csv") with ($"-" ++ ("*"%char :: $".csv")).
    apply glob_plain; [repeat constructor; discriminate|]. exists (b ++ $".csv"). split; [reflexivity|]. apply glob_star. exists b, ($".csv"). split; [reflexivity|]. reflexivity.
Qed.

Lemma no_star_Z z : Forall (fun c => c <> "*"%char) (print_Z z).
Proof.
  unfold print_Z. destruct (z <? 0)%Z; [constructor; [discriminate|]|]; (eapply Forall_impl; [|apply print_nonneg_digits]); intros c H ->; discriminate H.
Qed.
Lemma no_star_setting p : Forall (fun c => c <> "*"%char) (static_setting p).
Proof. unfold static_setting. apply Forall_app. split; [repeat constructor; discriminate|apply no_star_Z]. Qed.

(** ** Names *)

Lemma rank_tail r r' k k' : (0 <= k)%Z -> (0 <= k')%Z -> r ++ $"-rank-" ++ print_Z k ++ $".csv" = r' ++ $"-rank-" ++ print_Z k' ++ $".csv" -> r = r' /\ k = k'.
Proof.
  intros K K'. rewrite !app_assoc. intros E. apply app_inv_tail in E. apply (f_equal (@rev _)) in E. rewrite !rev_app_distr in E.
  unfold print_Z in E. destruct (Z.ltb_spec k 0); [lia|]. destruct (Z.ltb_spec k' 0); [lia|].
  assert (D : forall n, Forall isdig (rev (print_nonneg n))) by (intros n; apply Forall_rev, print_nonneg_digits).
  assert (S1 := span_digits_app (rev (print_nonneg k)) (rev ($"-rank-") ++ rev r) (D k) eq_refl).
  assert (S2 := span_digits_app (rev (print_nonneg k')) (rev ($"-rank-") ++ rev r') (D k') eq_refl).
  assert (X : (rev (print_nonneg k), rev ($"-rank-") ++ rev r) = (rev (print_nonneg k'), rev ($"-rank-") ++ rev r')).
  { etransitivity; [symmetry; exact S1|]. etransitivity; [|exact S2]. f_equal. exact E. }
  injection X as X1 X2. split.
  - apply (f_equal (@rev _)) in X2. rewrite !rev_involutive in X2. exact X2.
  - apply (f_equal (@rev _)) in X1. rewrite !rev_involutive in X1. rewrite <- (print_nonneg_val k), <- (print_nonneg_val k'), X1 by assumption. reflexivity.
Qed.

Theorem names_differ p p' r r' k k' : (0 <= k)%Z -> (0 <= k')%Z ->
  trace_name (static_setting p) r k = trace_name (static_setting p') r' k' -> p = p' /\ r = r' /\ k = k'.
Proof.
  intros K K' E. unfold trace_name, static_setting in E. rewrite <- !app_assoc in E. apply app_same, app_same in E.
  apply print_Z_cut in E as [-> E]; [|reflexivity|reflexivity]. apply app_same in E. apply rank_tail in E as [-> ->]; auto.
Qed.

(** ** The files read *)

Lemma in_names (f : bytes) l : existsb (bytes_eqb f) l = true <-> In f l.
Proof.
  rewrite existsb_exists. split; [intros (x & I & E); apply bytes_eqb_eq in E as ->; exact I|]. intros I. exists f. split; [exact I|apply bytes_eqb_refl].
Qed.

Definition fits (f : bytes * bytes) (m : bytes) : bool := glob (trace_pattern m) (fst f).

Lemma matched_spec dir models : (forall m f f', In m models -> In f dir -> In f' dir -> fits f m = true -> fst f = fst f' -> f = f') ->
  (forall m, In m models -> NoDup (map fst (filter (fun f => fits f m) dir))) ->
  NoDup (map fst (matched dir models)) /\ forall f, In f (matched dir models) <-> In f dir /\ exists m, In m models /\ fits f m = true.
Proof.
  intros U N. unfold matched.
  assert (G : forall ms have, (forall m, In m ms -> In m models) -> NoDup (map fst have) -> (forall f, In f have -> In f dir) ->
    let r := fold_left (fun have m => have ++ filter (fun f => glob (trace_pattern m) (fst f) && negb (existsb (bytes_eqb (fst f)) (map fst have))) dir) ms have in
    NoDup (map fst r) /\ forall f, In f r <-> In f have \/ (In f dir /\ exists m, In m ms /\ fits f m = true)).
  { induction ms as [|m ms IH]; intros have S D I; cbn [fold_left]; cbv zeta.
    - split; [exact D|]. intros f. split; [auto|]. intros [H|(_ & m & [] & _)]. exact H.
    - set (new := filter _ dir). assert (SUB : forall f, In f new <-> In f dir /\ fits f m = true /\ ~ In (fst f) (map fst have)).
      { intros f. unfold new. rewrite filter_In, andb_true_iff, negb_true_iff. unfold fits. rewrite <- in_names.
        destruct (existsb (bytes_eqb (fst f)) (map fst have)); intuition congruence. }
      destruct (IH (have ++ new)) as (D2 & R2).
      + intros x X. apply S. right; exact X.
      + rewrite map_app. apply NoDup_app_intro; [exact D| |].
        * specialize (N m (S m (or_introl eq_refl))). unfold new. clear -N. induction dir as [|f l IH]; [constructor|]. cbn [filter] in *. change (fits f m) with (glob (trace_pattern m) (fst f)) in N.
          destruct (glob (trace_pattern m) (fst f)) eqn:E; cbn [andb].
          -- cbn [map] in N. inversion N as [|? ? NI ND]; subst. destruct (negb _); [|apply IH; exact ND]. cbn [map]. constructor; [|apply IH; exact ND].
             intros X. apply NI. apply in_map_iff in X as (y & Y & X). apply filter_In in X as [X Z]. apply andb_true_iff in Z as [Z _]. apply in_map_iff. exists y. split; [exact Y|]. apply filter_In. auto.
          -- apply IH. exact N.
        * intros x X Y. apply in_map_iff in Y as (f & <- & Y). apply SUB in Y as (_ & _ & Y). exact (Y X).
      + intros f X. apply in_app_iff in X as [X|X]; [auto|]. apply SUB in X. tauto.
      + split; [exact D2|]. intros f. rewrite R2, in_app_iff, SUB. split.
        * intros [[X|(X & Y & _)]|(X & m' & Y & Z)]; [left; exact X|right; split; [exact X|exists m; split; [left; reflexivity|exact Y]]|right; split; [exact X|exists m'; split; [right; exact Y|exact Z]]].
        * intros [X|(X & m' & [->|Y] & Z)]; [left; left; exact X| |right; split; [exact X|exists m'; auto]].
          destruct (in_dec (list_eq_dec ascii_dec) (fst f) (map fst have)) as [H|H]; [|left; right; auto].
          left. left. apply in_map_iff in H as (f' & EQ & H). rewrite (U m' f f' (S m' (or_introl eq_refl)) X (I _ H) Z (eq_sym EQ)). exact H. }
  destruct (G models [] (fun m X => X) (NoDup_nil _) (fun f X => match X with end)) as (A & B). split; [exact A|].
  intros f. specialize (B f). cbv zeta in B. split; [intros X; apply B in X as [[]|X]; exact X|]. intros X. apply B. right. exact X.
Qed.

Section Campaign.
Variables (n : nat) (ss : list static_trace) (dir : list (bytes * bytes)).
Hypothesis CP : campaign n ss dir.

Lemma file_names : NoDup (map fst (map file_of ss)).
Proof.
  rewrite map_map. destruct CP as [_ B _ _ O _]. clear CP. induction ss as [|s l IH]; [constructor|]. cbn [map] in *. inversion B as [|? ? [_ K] Bs]; subst. inversion O as [|? ? NI ND]; subst. constructor; [|apply IH; assumption].
  intros I. apply NI. apply in_map_iff in I as (u & E & I). apply in_map_iff. exists u. split; [|exact I]. rewrite Forall_forall in Bs. destruct (Bs u I) as [_ K'].
  cbn [file_of fst] in E. apply names_differ in E as (-> & -> & ->); auto.
Qed.

Lemma others_unfit f p : ~ contains ($"Static,policy=") (fst f) -> fits f (static_setting p) = false.
Proof.
  intros N. destruct (fits f (static_setting p)) eqn:E; [|reflexivity]. exfalso. apply N. apply pattern_iff in E as (a & b & E); [|apply no_star_setting].
  exists ($"trace" ++ a), (print_Z p ++ $"-" ++ b ++ $".csv"). rewrite E. unfold static_setting. rewrite <- !app_assoc. reflexivity.
Qed.
Lemma own_fits s : fits (file_of s) (static_setting (sr_setting s)) = true.
Proof.
  apply pattern_iff; [apply no_star_setting|]. exists ($"-"), ($"region-" ++ tr_region (sr_trace s) ++ $"-rank-" ++ print_Z (tr_rank (sr_trace s))).
  unfold file_of, trace_name. cbn [fst]. rewrite <- !app_assoc. reflexivity.
Qed.

Lemma fitting f m : In m (static_settings n) -> In f dir -> fits f m = true -> In f (map file_of ss).
Proof.
  intros M I F. destruct CP as [_ _ _ _ _ (others & P & O)]. apply (Permutation_in _ P) in I. apply in_app_iff in I as [I|I]; [exact I|].
  exfalso. unfold static_settings in M. apply in_map_iff in M as (p & <- & _). rewrite Forall_forall in O. rewrite (others_unfit _ _ (O f I)) in F. discriminate.
Qed.

Lemma name_once l (f f' : bytes * bytes) : NoDup (map fst l) -> In f l -> In f' l -> fst f = fst f' -> f = f'.
Proof.
  induction l as [|x l IH]; [contradiction|]. cbn [map In]. intros N [->|I] [->|I'] E; [reflexivity| | |].
  - inversion N as [|? ? NI _]; subst. exfalso. apply NI. rewrite E. apply in_map. exact I'.
  - inversion N as [|? ? NI _]; subst. exfalso. apply NI. rewrite <- E. apply in_map. exact I.
  - inversion N; subst. apply IH; assumption.
Qed.
Theorem all_read : Permutation (matched dir (static_settings n)) (map file_of ss).
Proof.
  assert (FN := file_names).
  destruct (matched_spec dir (static_settings n)) as (A & B).
  - intros m f f' M I I' F E. assert (F' : fits f' m = true) by (unfold fits in *; rewrite <- E; exact F).
    apply (name_once (map file_of ss)); [exact FN|exact (fitting f m M I F)|exact (fitting f' m M I' F')|exact E].
  - intros m M. destruct CP as [_ _ _ _ _ (others & P & O)].
    assert (PF : Permutation (filter (fun f => fits f m) dir) (filter (fun f => fits f m) (map file_of ss))).
    { assert (X : filter (fun f => fits f m) others = []).
      { apply filter_none. intros f I. unfold static_settings in M. apply in_map_iff in M as (p & <- & _). apply others_unfit. rewrite Forall_forall in O. exact (O f I). }
      rewrite <- (app_nil_r (filter (fun f => fits f m) (map file_of ss))), <- X, <- filter_app. clear -P. induction P; cbn [filter]; [constructor|destruct (fits x m); [constructor|]; assumption| |etransitivity; eassumption].
      destruct (fits x m), (fits y m); try reflexivity. apply perm_swap. }
    apply (Permutation_NoDup (Permutation_map fst (Permutation_sym PF))). clear -FN. induction (map file_of ss) as [|f l IH]; [constructor|]. cbn [filter map] in *. inversion FN as [|? ? NI ND]; subst.
    destruct (fits f m); [|apply IH; exact ND]. cbn [map]. constructor; [|apply IH; exact ND]. intros X. apply NI. apply in_map_iff in X as (y & Y & X). apply filter_In in X as [X _]. apply in_map_iff. exists y. auto.
  - apply NoDup_Permutation; [exact (NoDup_map_inv _ _ A)|exact (NoDup_map_inv _ _ FN)|]. intros f. rewrite B. split.
    + intros (I & m & M & F). exact (fitting f m M I F).
    + intros I. apply in_map_iff in I as (s & <- & I). destruct CP as [_ ST _ _ _ (others & P & _)]. split.
      * apply (Permutation_in _ (Permutation_sym P)). apply in_app_iff. left. apply in_map. exact I.
      * exists (static_setting (sr_setting s)). split; [|apply own_fits]. rewrite Forall_forall in ST. destruct (ST s I) as [[K L] _]. unfold static_settings. apply in_map_iff. exists (Z.to_nat (sr_setting s)).
        rewrite Z2Nat.id by assumption. split; [reflexivity|]. apply in_seq. lia.
Qed.

(** ** The times added up *)

Lemma loaded : exists ts, Permutation ts (map sr_trace ss) /\ load_traces dir (static_settings n) = Ok (concat_tables (map table_of ts)) /\ ts <> [] /\ Forall regular ts.
Proof.
  assert (P := all_read). destruct CP as [N _ _ RG _ _].
  assert (Q := Permutation_map snd P). rewrite map_map in Q. assert (EQ : map (fun s => snd (file_of s)) ss = map trace_text (map sr_trace ss)) by (rewrite map_map; reflexivity).
  rewrite EQ in Q. apply Permutation_map_inv in Q as (ts & E & PT).
  assert (R : Forall regular ts). { apply (Permutation_Forall PT). apply Forall_map. exact RG. }
  assert (NE : ts <> []). { intros ->. destruct ss; [congruence|]. apply Permutation_length in PT. discriminate. }
  exists ts. split; [symmetry; exact PT|]. split; [|split; [exact NE|exact R]]. unfold load_traces. apply read_tracefiles_ok. exists (map table_of ts). split; [|split; [|reflexivity]].
  - transitivity (read_all (map trace_text ts)); [f_equal; exact E|]. apply read_all_traces. eapply Forall_impl; [|exact R]. intros t [A B C]. constructor; [exact A|exact B|].
    eapply Forall_impl; [|exact C]. intros e (L & _). lia.
  - destruct ts; [congruence|discriminate].
Qed.
End Campaign.

Lemma filter_through {A B C} (f : A -> B) (p : B -> bool) (g : B -> C) l : map (fun x => g (f x)) (filter (fun x => p (f x)) l) = map g (filter p (map f l)).
Proof. induction l as [|x l IH]; [reflexivity|]. cbn [map filter]. destruct (p (f x)); cbn [map]; rewrite IH; reflexivity. Qed.

Definition three : list bytes := [$"rankid"; $"training"; $"xtime"].
Definition chosen (rank : Z) (model : bytes) (l : list cell) : bool :=
  match l with [a; b; _] => cell_eqb a (Some (print_Z rank)) && cell_eqb b (Some model) | _ => false end.
Definition third (l : list cell) : cell := match l with [_; _; c] => c | _ => None end.

Lemma time_through num ts rank model : Forall regular ts -> ts <> [] ->
  execution_time num (concat_tables (map table_of ts)) rank model =
  Ok (fold_left add64 (flat_map (fun t => if (tr_rank t =? rank)%Z && bytes_eqb (tr_model t) model then map (fun e => num (metric_text e)) (tr_entries t) else []) ts) zero64).
Proof.
  intros R N. unfold execution_time. set (D := concat_tables (map table_of ts)).
  assert (H : forall c, In c (base ++ pair_cols) -> has_column (columns D) c = true).
  { intros c I. destruct ts as [|t ts']; [congruence|]. unfold D, concat_tables. cbn [columns]. apply (has_fold (trace_columns (tr_features t))); [left; reflexivity|].
    apply has_column_iff. rewrite trace_columns_joint. apply in_joint_other. exact I. }
  rewrite !H by (cbn; tauto). cbn [andb]. f_equal. f_equal.
  transitivity (map (fun l => cell_number num (third l)) (filter (chosen rank model) (map (fun row => map (at_column (columns D) row) three) (rows D)))).
  { rewrite <- (filter_through (fun row => map (at_column (columns D) row) three) (chosen rank model) (fun l => cell_number num (third l))). reflexivity. }
  unfold D. rewrite rows_through. clear -R. induction R as [|t ts RT R IH]; [reflexivity|]. cbn [map flat_map]. rewrite filter_app, map_app, IH. f_equal.
  cbn [table_of columns rows]. rewrite map_map. destruct RT as [A B C]. clear -A B C. induction C as [|e l F C IH]; [destruct (_ && _); reflexivity|].
  cbn [map filter]. change (map (at_column (trace_columns (tr_features t)) (row_of t e)) three) with (map (look t e) three).
  destruct (look_features t e A B F) as (_ & _ & X).
  assert (L : map (look t e) three = [Some (print_Z (tr_rank t)); Some (tr_model t); Some (metric_text e)]).
  { unfold three. cbn [map]. rewrite X. repeat f_equal.
    - unfold look. cbn. unfold cell_of. rewrite print_Z_present. reflexivity.
    - unfold look. cbn. unfold cell_of. destruct A as [_ M]. rewrite M. reflexivity. }
  rewrite L. cbn [chosen cell_eqb].
  assert (ER : bytes_eqb (print_Z (tr_rank t)) (print_Z rank) = (tr_rank t =? rank)%Z).
  { destruct (Z.eqb_spec (tr_rank t) rank) as [->|NE]; [apply bytes_eqb_refl|]. destruct (bytes_eqb (print_Z (tr_rank t)) (print_Z rank)) eqn:E; [|reflexivity]. apply bytes_eqb_eq in E.
    exfalso. apply NE. rewrite <- (app_nil_r (print_Z (tr_rank t))), <- (app_nil_r (print_Z rank)) in E. apply print_Z_cut in E; [|reflexivity|reflexivity]. apply E. }
  rewrite ER. destruct ((tr_rank t =? rank)%Z && bytes_eqb (tr_model t) model); cbn [map third cell_number]; rewrite IH; reflexivity.
Qed.

Lemma flat_map_perm {A B} (f : A -> list B) l l' : Permutation l l' -> Permutation (flat_map f l) (flat_map f l').
Proof.
  induction 1 as [|x l l' P IH|x y l|l l' l'' P IH Q IH']; cbn [flat_map]; [constructor|apply Permutation_app_head; exact IH| |etransitivity; eassumption].
  rewrite !app_assoc. apply Permutation_app_tail, Permutation_app_comm.
Qed.

Lemma named_iff s j : named s -> bytes_eqb (tr_model (sr_trace s)) ($"Static," ++ print_Z j) = (used_policy s =? j)%Z.
Proof.
  intros E. rewrite E. destruct (Z.eqb_spec (used_policy s) j) as [->|N]; [apply bytes_eqb_refl|]. destruct (bytes_eqb _ _) eqn:F; [|reflexivity]. apply bytes_eqb_eq in F.
  exfalso. apply N. apply app_same in F. rewrite <- (app_nil_r (print_Z (used_policy s))), <- (app_nil_r (print_Z j)) in F. apply print_Z_cut in F; [|reflexivity|reflexivity]. apply F.
Qed.

(** What is reported for a policy: the times of all traces whose regions used it. *)
Theorem reported num n ss dir rank j : campaign n ss dir -> exists data l, load_traces dir (static_settings n) = Ok data /\
  execution_time num data rank ($"Static," ++ print_Z j) = Ok (fold_left add64 l zero64) /\ Permutation l (times_in num rank (fun s => (used_policy s =? j)%Z) ss).
Proof.
  intros CP. destruct (loaded n ss dir CP) as (ts & P & L & N & R). eexists _, _. split; [exact L|]. split; [apply time_through; assumption|].
  etransitivity; [apply flat_map_perm; exact P|]. unfold times_in. destruct CP as [_ _ NM _ _ _]. clear -NM.
  induction NM as [|s ss E NM IH]; [constructor|]. cbn [map flat_map]. rewrite (named_iff s j E). apply Permutation_app; [reflexivity|exact IH].
Qed.

Lemma times_split num rank k k1 k2 ss : (forall s, In s ss -> k s = k1 s || k2 s) -> (forall s, In s ss -> k1 s = true -> k2 s = false) ->
  Permutation (times_in num rank k ss) (times_in num rank k1 ss ++ times_in num rank k2 ss).
Proof.
  induction ss as [|s ss IH]; intros A B; [constructor|]. unfold times_in in *. cbn [flat_map].
  etransitivity; [apply Permutation_app_head, IH; intros; [apply A|apply B]; try (right; assumption); assumption|].
  rewrite (A s (or_introl eq_refl)). specialize (B s (or_introl eq_refl)). destruct (tr_rank (sr_trace s) =? rank)%Z; cbn [andb]; [|reflexivity].
  destruct (k1 s); cbn [orb]; [rewrite B by reflexivity; cbn [app]; rewrite <- app_assoc; reflexivity|].
  cbn [app]. destruct (k2 s); [|reflexivity]. rewrite !app_assoc. apply Permutation_app_tail, Permutation_app_comm.
Qed.
Lemma times_same num rank k k' ss : (forall s, In s ss -> k s = k' s) -> times_in num rank k ss = times_in num rank k' ss.
Proof. induction ss as [|s ss IH]; intros A; [reflexivity|]. unfold times_in in *. cbn [flat_map]. rewrite (A s (or_introl eq_refl)), IH by (intros; apply A; right; assumption). reflexivity. Qed.

Theorem reported_default num n ss dir rank : campaign n ss dir -> exists data l, load_traces dir (static_settings n) = Ok data /\
  execution_time num data rank ($"Static,0") = Ok (fold_left add64 l zero64) /\
  Permutation l (times_in num rank (fun s => (sr_setting s =? 0)%Z) ss ++ times_in num rank (fun s => (0 <? sr_setting s)%Z && (sr_policies s <=? sr_setting s)%Z) ss).
Proof.
  intros CP. destruct (reported num n ss dir rank 0 CP) as (data & l & A & B & P). exists data, l. split; [exact A|]. split; [exact B|].
  etransitivity; [exact P|]. destruct CP as [_ ST _ _ _ _]. rewrite Forall_forall in ST. apply times_split.
  - intros s I. destruct (ST s I) as [[K _] _]. unfold used_policy. destruct (Z.ltb_spec (sr_setting s) (sr_policies s)), (Z.eqb_spec (sr_setting s) 0), (Z.ltb_spec 0 (sr_setting s)), (Z.leb_spec (sr_policies s) (sr_setting s)); cbn; try reflexivity; lia.
  - intros s I E. apply Z.eqb_eq in E. rewrite E. reflexivity.
Qed.
Theorem reported_policy num n ss dir rank j : campaign n ss dir -> (0 < j)%Z -> exists data l, load_traces dir (static_settings n) = Ok data /\
  execution_time num data rank ($"Static," ++ print_Z j) = Ok (fold_left add64 l zero64) /\
  Permutation l (times_in num rank (fun s => (sr_setting s =? j)%Z && (j <? sr_policies s)%Z) ss).
Proof.
  intros CP J. destruct (reported num n ss dir rank j CP) as (data & l & A & B & P). exists data, l. split; [exact A|]. split; [exact B|].
  etransitivity; [exact P|]. rewrite (times_same num rank _ (fun s => (sr_setting s =? j)%Z && (j <? sr_policies s)%Z)); [reflexivity|].
  intros s _. unfold used_policy. destruct (Z.ltb_spec (sr_setting s) (sr_policies s)), (Z.eqb_spec (sr_setting s) j), (Z.ltb_spec j (sr_policies s)), (Z.eqb_spec 0 j); cbn; try reflexivity; lia.
Qed.
Theorem reported_whole num n ss dir rank j : campaign n ss dir -> Forall (fun s => (Z.of_nat n <= sr_policies s)%Z) ss -> exists data l, load_traces dir (static_settings n) = Ok data /\
  execution_time num data rank ($"Static," ++ print_Z j) = Ok (fold_left add64 l zero64) /\
  Permutation l (times_in num rank (fun s => (sr_setting s =? j)%Z) ss).
Proof.
  intros CP ALL. destruct (reported num n ss dir rank j CP) as (data & l & A & B & P). exists data, l. split; [exact A|]. split; [exact B|].
  etransitivity; [exact P|]. rewrite (times_same num rank _ (fun s => (sr_setting s =? j)%Z)); [reflexivity|].
  intros s I. destruct CP as [_ ST _ _ _ _]. rewrite Forall_forall in ST, ALL. specialize (ALL s I). destruct (ST s I) as [K _]. unfold used_policy.
  destruct (Z.ltb_spec (sr_setting s) (sr_policies s)); [reflexivity|lia].
Qed.
