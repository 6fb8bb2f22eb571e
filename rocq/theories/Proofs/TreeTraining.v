(** Training as a whole: it succeeds, and depends only on the multiset of samples. *)
From Coq Require Import List ZArith Bool Lia Sorted Permutation Reals Lra SpecFloat Arith.
From Flocq Require Import Core BinarySingleNaN.
From Verif Require Import Model.Base Model.Float Model.TreeM Spec.DatasetSpec Spec.TreeSpec
  Proofs.FloatFacts Proofs.TreeFacts Proofs.TreeLabels Proofs.TreeTotal Spec.InsertionSort Proofs.InsertionSortFacts.
Import ListNotations.
Open Scope Z_scope.

Lemma in_combine_snd {A B} (l : list A) (r : list B) s : In s (combine l r) -> In (snd s) r.
Proof. destruct s. apply in_combine_r. Qed.

(** C21. *)
Lemma train_total srt t k features responses : sorter_ok srt ->
  features <> [] -> length responses = length features ->
  uniform_samples k (combine features responses) -> consistent (combine features responses) ->
  Z.of_nat (length features) <= 2 ^ 24 ->
  Z.of_nat (length (set_insert_all responses (t_classes t))) <= 1024 ->
  exists t', dt_train srt t features responses = Ok t'.
Proof.
  intros HS NE L U C N K. unfold dt_train. destruct features as [|f fs] eqn:Ef; [congruence|]. rewrite <- Ef in *.
  rewrite (proj2 (Nat.leb_le _ _)) by lia. cbn [negb].
  destruct (build_tree_total srt (set_insert_all responses (t_classes t)) k HS (S (length (combine features responses)))
    (t_max_depth t) 0 (combine features responses)) as (root & data & E).
  - constructor; auto.
    + intros X. destruct responses as [|r rs]; [subst; cbn in L; lia|].
      assert (I : In r (set_insert_all (r :: rs) (t_classes t))) by (apply set_insert_all_in; left; left; auto).
      rewrite X in I. destruct I.
    + intros s Hs. apply set_insert_all_in. left. eapply in_combine_snd; eauto.
    + unfold sample, f32 in *. rewrite combine_length. lia.
  - apply Nat.lt_succ_diag_r.
  - rewrite E. cbn [bind]. eauto.
Qed.

Lemma sorted_lt_nodup (l : list Z) : StronglySorted Z.lt l -> NoDup l.
Proof.
  induction 1 as [|a l S IH F]; constructor; auto. intros H. rewrite Forall_forall in F. apply F in H. lia.
Qed.

Lemma class_count cs s : StronglySorted Z.lt s ->
  length (set_insert_all cs s) = length (nodup Z.eq_dec (cs ++ s)).
Proof.
  intros S. assert (N := sorted_lt_nodup _ (set_insert_all_sorted cs s S)).
  apply Nat.le_antisymm; apply NoDup_incl_length; auto using NoDup_nodup; intros x Hx.
  - apply nodup_In. apply set_insert_all_in in Hx. now apply in_or_app.
  - apply nodup_In, in_app_or in Hx. now apply set_insert_all_in.
Qed.

Lemma class_count_history cs s h : StronglySorted Z.lt s -> (forall c, In c s <-> In c h) ->
  length (set_insert_all cs s) = length (nodup Z.eq_dec (h ++ cs)).
Proof.
  intros S I. assert (N := sorted_lt_nodup _ (set_insert_all_sorted cs s S)).
  apply Nat.le_antisymm; apply NoDup_incl_length; auto using NoDup_nodup; intros x Hx.
  - apply nodup_In. apply set_insert_all_in in Hx. rewrite I in Hx. apply in_or_app. tauto.
  - apply nodup_In, in_app_or in Hx. apply set_insert_all_in. rewrite I. tauto.
Qed.

Lemma training_succeeds srt md h t k features responses : sorter_ok srt -> trained srt md h t ->
  features <> [] -> length responses = length features ->
  uniform_samples k (combine features responses) -> consistent (combine features responses) ->
  Z.of_nat (length features) <= 2 ^ 24 ->
  Z.of_nat (length (nodup Z.eq_dec (List.concat (map snd h) ++ responses))) <= 1024 ->
  exists t', dt_train srt t features responses = Ok t'.
Proof.
  intros HS HT NE L U C N K. eapply train_total; eauto.
  destruct (trained_classes _ _ _ _ HT) as (S & I & _).
  rewrite (class_count_history _ _ (List.concat (map snd h))); auto.
Qed.

(** ** Dependence on the multiset of samples only. *)
Lemma filter_perm {A} (p : A -> bool) l l' : Permutation l l' -> Permutation (filter p l) (filter p l').
Proof.
  induction 1; cbn; auto.
  - destruct (p x); auto.
  - destruct (p x), (p y); auto. constructor.
  - eapply Permutation_trans; eauto.
Qed.

Lemma count_perm c l l' : Permutation l l' -> count_class c l = count_class c l'.
Proof. intros P. unfold count_class. now rewrite (Permutation_length (filter_perm _ _ _ P)). Qed.

Lemma gini_perm classes l l' : Permutation l l' -> compute_gini classes l = compute_gini classes l'.
Proof.
  intros P. unfold compute_gini. rewrite (Permutation_length P). cbv zeta. f_equal.
  generalize zero32. induction classes as [|c cs IH]; intros g; cbn [fold_left]; auto.
  rewrite (count_perm c l l' P). apply IH.
Qed.

Lemma counts_perm classes l l' : Permutation l l' -> get_count_per_class classes l = get_count_per_class classes l'.
Proof. intros P. unfold get_count_per_class. apply map_ext. intros c. now apply count_perm. Qed.

Lemma filter_all {A} (p : A -> bool) l : (forall x, In x l -> p x = true) -> filter p l = l.
Proof.
  induction l as [|a l IH]; intros H; cbn; auto. rewrite H by (left; auto). f_equal. apply IH. intros; apply H; right; auto.
Qed.
Lemma filter_none {A} (p : A -> bool) l : (forall x, In x l -> p x = false) -> filter p l = [].
Proof.
  induction l as [|a l IH]; intros H; cbn; auto. rewrite H by (left; auto). apply IH. intros; apply H; right; auto.
Qed.

Definition below (f : nat) (t : R) (s : sample) : bool := Rlt_bool (val f s) t.

Lemma cut_is_filter f l pos : sorted_by f l -> boundary f l pos ->
  let t := val f (nth pos l ([], 0)) in
  firstn pos l = filter (below f t) l /\ skipn pos l = filter (fun s => negb (below f t s)) l.
Proof.
  intros S B t.
  assert (A : forall x, In x (firstn pos l) -> below f t x = true).
  { intros x Hx. unfold below. apply Rlt_bool_true. unfold t. destruct B as [B1 B2].
    apply (boundary_split f l pos x _ S (conj B1 B2) Hx).
    assert (H : nth pos l ([], 0) = nth 0 (skipn pos l) ([], 0)).
    { rewrite <- (firstn_skipn pos l) at 1. rewrite app_nth2; rewrite firstn_length_le by lia; auto.
      rewrite Nat.sub_diag. auto. }
    rewrite H. apply nth_In. rewrite skipn_length. lia. }
  assert (D : forall x, In x (skipn pos l) -> below f t x = false).
  { intros x Hx. unfold below. apply Rlt_bool_false. unfold t.
    apply (in_skipn_nth (A:=sample) _ _ _ ([], 0)) in Hx. destruct Hx as (j & J1 & J2 & ->).
    destruct (Nat.eq_dec pos j) as [->|]; [lra|]. apply (sorted_nth (A:=sample) _ l ([], 0) S). slia. }
  split.
  - rewrite <- (firstn_skipn pos l) at 2. rewrite filter_app, (filter_all _ _ A), (filter_none _ _ D), app_nil_r. auto.
  - rewrite <- (firstn_skipn pos l) at 2. rewrite filter_app, (filter_none _ (firstn pos l)), (filter_all _ (skipn pos l)); auto.
    + intros x Hx. rewrite (D x Hx). auto.
    + intros x Hx. rewrite (A x Hx). auto.
Qed.

Lemma same_value f l l' i : sorted_by f l -> sorted_by f l' -> Permutation l l' ->
  val f (nth i l ([], 0)) = val f (nth i l' ([], 0)).
Proof. intros S S' P. rewrite <- !nth_map_val. now rewrite (sorted_by_vals f l l'). Qed.

Lemma cut_perm f l l' pos : sorted_by f l -> sorted_by f l' -> Permutation l l' -> boundary f l pos ->
  Permutation (firstn pos l) (firstn pos l') /\ Permutation (skipn pos l) (skipn pos l').
Proof.
  intros S S' P B. assert (B' := boundary_transfer f l l' pos S S' P B).
  destruct (cut_is_filter f l pos S B) as [-> ->], (cut_is_filter f l' pos S' B') as [-> ->].
  rewrite (same_value f l l' pos); auto. split; apply filter_perm; auto.
Qed.

Lemma xval_same (a b : f32) : is_nan a = false -> is_nan b = false -> xval a = xval b ->
  a = b \/ (exists s s', a = B754_zero s /\ b = B754_zero s').
Proof.
  intros Na Nb E.
  assert (HB := bpow_gt_0 radix2 128).
  destruct (is_finite a) eqn:Fa, (is_finite b) eqn:Fb.
  - rewrite !xval_finite in E by auto.
    destruct a as [s| | |s m e Ha], b as [s'| | |s' m' e' Hb]; try discriminate.
    + right; eauto.
    + exfalso. cbn [B2R] in E. symmetry in E. apply Float_prop.eq_0_F2R in E. cbn in E. destruct s'; discriminate.
    + exfalso. cbn [B2R] in E. apply Float_prop.eq_0_F2R in E. cbn in E. destruct s; discriminate.
    + left. apply B2R_inj; auto.
  - exfalso. rewrite xval_finite in E by auto. generalize (finite_bound _ _ a Fa). destruct b as [|[|]| |]; try discriminate; cbn [xval] in E; lra.
  - exfalso. rewrite (xval_finite _ _ b) in E by auto. generalize (finite_bound _ _ b Fb). destruct a as [|[|]| |]; try discriminate; cbn [xval] in E; lra.
  - left. destruct a as [|[|]| |], b as [|[|]| |]; try discriminate; auto; cbn [xval] in E; exfalso; lra.
Qed.

Lemma add_zero_l s s' (r : f32) : xval r <> 0%R -> add32 (B754_zero s) r = add32 (B754_zero s') r.
Proof. intros N. destruct r; cbn [xval B2R] in N; try congruence; reflexivity. Qed.
Lemma add_zero_r s s' (r : f32) : xval r <> 0%R -> add32 r (B754_zero s) = add32 r (B754_zero s').
Proof. intros N. destruct r; cbn [xval B2R] in N; try congruence; reflexivity. Qed.

Lemma midpoint_same (a a' b b' : f32) :
  is_nan a = false -> is_nan a' = false -> is_nan b = false -> is_nan b' = false ->
  xval a = xval a' -> xval b = xval b' -> xval a <> xval b -> midpoint a b = midpoint a' b'.
Proof.
  intros Na Na' Nb Nb' Ea Eb D. unfold midpoint. do 3 f_equal.
  destruct (xval_same a a' Na Na' Ea) as [->|(s & s' & -> & ->)], (xval_same b b' Nb Nb' Eb) as [->|(q & q' & -> & ->)]; auto.
  - apply add_zero_r. exact D.
  - apply add_zero_l. intros X. apply D. rewrite X. reflexivity.
  - exfalso. apply D. reflexivity.
Qed.

Lemma try_split_perm classes f l l' i b : sorted_by f l -> sorted_by f l' -> Permutation l l' ->
  Forall (has_feature f) l -> (0 < i < length l)%nat ->
  try_split classes f l i b = try_split classes f l' i b.
Proof.
  intros S S' P F Hi. assert (PL := Permutation_length P).
  assert (F' : Forall (has_feature f) l').
  { rewrite Forall_forall in *. intros x Hx. apply F. eapply Permutation_in; [apply Permutation_sym|]; eauto. }
  rewrite Forall_forall in F, F'.
  destruct (F (nth (i - 1) l ([], 0))) as [_ N1]; [apply nth_In; lia|].
  destruct (F (nth i l ([], 0))) as [_ N2]; [apply nth_In; lia|].
  destruct (F' (nth (i - 1) l' ([], 0))) as [_ N3]; [apply nth_In; slia|].
  destruct (F' (nth i l' ([], 0))) as [_ N4]; [apply nth_In; slia|].
  assert (V1 := same_value f l l' (i - 1) S S' P). assert (V2 := same_value f l l' i S S' P).
  unfold val in V1, V2. destruct b as [[[g p] f0] th]. unfold try_split. cbv zeta.
  fold (feature f (nth (i - 1) l ([], 0))) (feature f (nth i l ([], 0))).
  fold (feature f (nth (i - 1) l' ([], 0))) (feature f (nth i l' ([], 0))).
  assert (E : eq32 (feature f (nth (i - 1) l ([], 0))) (feature f (nth i l ([], 0))) =
              eq32 (feature f (nth (i - 1) l' ([], 0))) (feature f (nth i l' ([], 0)))).
  { unfold eq32. rewrite !Beqb_xval by auto. now rewrite V1, V2. }
  rewrite <- E. destruct (eq32 _ _) eqn:Q; auto.
  unfold eq32 in Q. rewrite Beqb_xval in Q by auto. rbool.
  assert (B : boundary f l i).
  { split; auto. generalize (sorted_adjacent f l i S Hi). unfold val. lra. }
  destruct (cut_perm f l l' i S S' P B) as [C1 C2].
  assert (G : split_gini classes l i = split_gini classes l' i).
  { unfold split_gini. rewrite (gini_perm _ _ _ C1), (gini_perm _ _ _ C2), PL. auto. }
  rewrite <- G. destruct (le32 g _); auto. f_equal. apply midpoint_same; auto.
Qed.

Lemma scan_feature_perm classes f l l' b : sorted_by f l -> sorted_by f l' -> Permutation l l' ->
  Forall (has_feature f) l -> scan_feature classes f l b = scan_feature classes f l' b.
Proof.
  intros S S' P F. unfold scan_feature. rewrite <- (Permutation_length P).
  assert (G : Forall (fun i => 0 < i < length l)%nat (seq 1 (length l - 1))).
  { apply Forall_forall. intros i Hi. apply in_seq in Hi. lia. }
  revert b. induction G as [|i is Hi G IH]; intros b; cbn [fold_left]; auto.
  rewrite (try_split_perm classes f l l') by auto. apply IH.
Qed.

Definition same_upto {A} (x y : outcome (list sample * A)) : Prop :=
  match x, y with
  | Ok (l, a), Ok (l', a') => Permutation l l' /\ a = a'
  | Throw, Throw | Abort, Abort | UB, UB | Fuel, Fuel => True
  | _, _ => False
  end.

Lemma sort_by_perm srt srt' f l l' : sorter_ok srt -> sorter_ok srt' -> Permutation l l' ->
  (exists s s', sort_by srt f l = Ok s /\ sort_by srt' f l' = Ok s' /\ Permutation s s') \/
  (sort_by srt f l = UB /\ sort_by srt' f l' = UB).
Proof.
  intros HS HS' P.
  assert (E : forallb (fun s : sample => (Nat.ltb f (length (fst s)) && negb (is_nan (feature f s)))%bool) l =
              forallb (fun s : sample => (Nat.ltb f (length (fst s)) && negb (is_nan (feature f s)))%bool) l').
  { apply eq_true_iff_eq. rewrite !forallb_forall. split; intros H x Hx; apply H;
      (eapply Permutation_in; [|exact Hx]); auto using Permutation_sym. }
  destruct (sort_by srt f l) as [s| | | |] eqn:E1; unfold sort_by in E1;
    match type of E1 with context [forallb ?p l] => destruct (forallb p l) eqn:B end; try discriminate; fold sample in B.
  - left. exists s, (srt' (feature_lt f) l').
    assert (E2 : sort_by srt' f l' = Ok (srt' (feature_lt f) l')) by (unfold sort_by; fold sample; rewrite <- E, B; reflexivity).
    assert (E1' : sort_by srt f l = Ok s) by (unfold sort_by; fold sample; rewrite B; exact E1).
    repeat split; auto. apply sort_by_ok in E1', E2; auto. destruct E1' as [P1 _], E2 as [P2 _].
    eapply Permutation_trans; [apply Permutation_sym; exact P1|]. eapply Permutation_trans; [exact P|exact P2].
  - right. split; auto. unfold sort_by; fold sample; rewrite <- E, B; reflexivity.
Qed.

Lemma scan_features_perm srt srt' classes : sorter_ok srt -> sorter_ok srt' -> forall fs l l' b, Permutation l l' ->
  same_upto (scan_features srt classes fs l b) (scan_features srt' classes fs l' b).
Proof.
  intros HS HS'. induction fs as [|f fs IH]; intros l l' b P; cbn [scan_features].
  - split; auto.
  - destruct (sort_by_perm srt srt' f l l' HS HS' P) as [(s & s' & E & E' & PS)|[E E']]; rewrite E, E'; cbn [bind]; [|exact I].
    apply sort_by_ok in E, E'; auto. destruct E as (P1 & S1 & F1), E' as (P2 & S2 & F2).
    rewrite (scan_feature_perm classes f s s') by auto. apply IH; auto.
Qed.

Lemma hd_uniform k (l : list sample) : uniform_samples k l -> l <> [] -> length (fst (hd ([], 0) l)) = k.
Proof. intros U N. destruct l as [|s r]; [congruence|]. unfold uniform_samples in U. inversion U; subst. apply H1. Qed.

Lemma split_perm srt srt' classes k l l' : sorter_ok srt -> sorter_ok srt' -> Permutation l l' ->
  uniform_samples k l -> same_upto (split srt classes l) (split srt' classes l').
Proof.
  intros HS HS' P U. unfold split. rewrite <- (Permutation_length P).
  destruct (Nat.ltb 1 (length l)) eqn:E; cbn [negb]; [|exact I]. apply Nat.ltb_lt in E.
  assert (N : l <> []) by (intros ->; cbn in E; lia).
  assert (N' : l' <> []) by (intros ->; apply Permutation_sym, Permutation_nil in P; auto).
  assert (U' : uniform_samples k l').
  { unfold uniform_samples in *. rewrite Forall_forall in *. intros x Hx. apply U. eapply Permutation_in; [apply Permutation_sym|]; eauto. }
  rewrite (hd_uniform k l U N), (hd_uniform k l' U' N').
  assert (H := scan_features_perm srt srt' classes HS HS' (seq 0 k) l l' (one32, length l, O, zero32) P).
  destruct (scan_features srt classes (seq 0 k) l _) as [[l1 b]| | | |], (scan_features srt' classes (seq 0 k) l' _) as [[l1' b']| | | |];
    cbn [same_upto bind] in *; try exact I; try contradiction.
  destruct H as [P1 ->]. destruct b' as [[[g p] f] th].
  destruct (sort_by_perm srt srt' f l1 l1' HS HS' P1) as [(s & s' & E1 & E2 & PS)|[E1 E2]]; rewrite E1, E2; cbn; auto.
Qed.

Definition same_tree (x y : outcome (tree * list sample)) : Prop :=
  match x, y with
  | Ok (t, l), Ok (t', l') => t = t' /\ Permutation l l'
  | Throw, Throw | Abort, Abort | UB, UB | Fuel, Fuel => True
  | _, _ => False
  end.

Lemma uniform_incl k (l l' : list sample) : uniform_samples k l -> (forall x, In x l' -> In x l) -> uniform_samples k l'.
Proof. unfold uniform_samples. intros U H. rewrite Forall_forall in *. auto. Qed.

Lemma build_tree_perm srt srt' classes k : sorter_ok srt -> sorter_ok srt' -> forall fuel md d l l',
  Permutation l l' -> uniform_samples k l ->
  same_tree (build_tree fuel srt classes md d l) (build_tree fuel srt' classes md d l').
Proof.
  intros HS HS'. induction fuel as [|fuel IH]; intros md d l l' P U; [exact I|]. cbn [build_tree].
  rewrite <- (gini_perm classes l l' P), <- (counts_perm classes l l' P), <- (Permutation_length P).
  destruct (new_leaf classes _ _ _) as [node| | | |] eqn:EN; cbn [bind]; try exact I.
  destruct (md <=? d); [split; auto|].
  destruct l as [|s l0] eqn:El.
  { apply Permutation_nil in P. subst. split; auto. }
  rewrite <- El in *. destruct l' as [|s' l0'] eqn:El'.
  { apply Permutation_sym, Permutation_nil in P. congruence. }
  rewrite <- El' in *.
  destruct (le32 _ zero32); [split; auto|].
  assert (H := split_perm srt srt' classes k l l' HS HS' P U).
  destruct (split srt classes l) as [[l1 b]| | | |] eqn:E1, (split srt' classes l') as [[l1' b']| | | |] eqn:E2;
    cbn [same_upto] in H; try contradiction; cbn [bind]; try exact I.
  destruct H as [P1 <-]. destruct b as [[[g pos] f] thr].
  rewrite <- (Permutation_length P1). destruct (Nat.eqb_spec pos (length l1)); [exact I|].
  destruct (split_spec _ _ _ _ _ _ _ _ HS E1) as (Q & S & F & L1 & [C|[C B]]).
  { inversion C; subst. exfalso. apply n. apply Permutation_length in Q. auto. }
  destruct (split_spec _ _ _ _ _ _ _ _ HS' E2) as (Q' & S' & F' & L1' & _).
  destruct (cut_perm f l1 l1' pos S S' P1 B) as [C1 C2].
  assert (UL : uniform_samples k (firstn pos l1)).
  { eapply uniform_incl; [exact U|]. intros x Hx. eapply Permutation_in; [apply Permutation_sym, Q|].
    rewrite <- (firstn_skipn pos l1). apply in_or_app; auto. }
  assert (UR : uniform_samples k (skipn pos l1)).
  { eapply uniform_incl; [exact U|]. intros x Hx. eapply Permutation_in; [apply Permutation_sym, Q|].
    rewrite <- (firstn_skipn pos l1). apply in_or_app; auto. }
  assert (HL := IH md (d + 1) _ _ C1 UL). assert (HR := IH md (d + 1) _ _ C2 UR).
  destruct (build_tree fuel srt classes md (d + 1) (firstn pos l1)) as [[lt ll]| | | |],
           (build_tree fuel srt' classes md (d + 1) (firstn pos l1')) as [[lt' ll']| | | |];
    cbn [same_tree] in HL; try contradiction; cbn [bind]; try exact I.
  destruct HL as [<- PL].
  destruct (build_tree fuel srt classes md (d + 1) (skipn pos l1)) as [[rt lr]| | | |],
           (build_tree fuel srt' classes md (d + 1) (skipn pos l1')) as [[rt' lr']| | | |];
    cbn [same_tree] in HR; try contradiction; cbn [bind]; try exact I.
  destruct HR as [<- PR]. destruct node; [exact I|]. split; auto. now apply Permutation_app.
Qed.

Lemma set_insert_all_perm cs cs' s : StronglySorted Z.lt s -> (forall c, In c cs <-> In c cs') ->
  set_insert_all cs s = set_insert_all cs' s.
Proof.
  intros S H.
  assert (A := set_insert_all_sorted cs s S). assert (B := set_insert_all_sorted cs' s S).
  assert (M : forall x, In x (set_insert_all cs s) <-> In x (set_insert_all cs' s)).
  { intros x. rewrite !set_insert_all_in, H. tauto. }
  revert A B M. generalize (set_insert_all cs s) (set_insert_all cs' s). clear.
  induction l as [|a l IH]; intros [|b m] A B M; auto.
  - destruct (proj2 (M b)); left; auto.
  - destruct (proj1 (M a)); left; auto.
  - inversion A as [|? ? A1 A2]; inversion B as [|? ? B1 B2]; subst. rewrite Forall_forall in A2, B2.
    assert (E : a = b).
    { destruct (proj1 (M a) (or_introl eq_refl)) as [E|E]; auto.
      destruct (proj2 (M b) (or_introl eq_refl)) as [E'|E']; auto.
      apply B2 in E. apply A2 in E'. lia. }
    subst b. f_equal. apply IH; auto. intros x. split; intros Hx.
    + destruct (proj1 (M x) (or_intror Hx)) as [<-|]; auto. apply A2 in Hx. lia.
    + destruct (proj2 (M x) (or_intror Hx)) as [<-|]; auto. apply B2 in Hx. lia.
Qed.

Lemma combine_snd_in {A B} (l : list A) (r : list B) c : length r = length l -> In c r <-> In c (map snd (combine l r)).
Proof.
  revert r. induction l as [|a l IH]; intros [|b r] L; cbn in *; try discriminate; [tauto|].
  rewrite IH by lia. tauto.
Qed.

(** C58. *)
Lemma training_order_irrelevant srt srt' md h t k fs rs fs' rs' : sorter_ok srt -> sorter_ok srt' ->
  trained srt md h t -> length rs = length fs -> length rs' = length fs' ->
  uniform_samples k (combine fs rs) -> Permutation (combine fs rs) (combine fs' rs') ->
  match dt_train srt t fs rs, dt_train srt' t fs' rs' with
  | Ok u, Ok u' => t_root u = t_root u' /\ t_classes u = t_classes u' /\
                   t_num_features u = t_num_features u' /\ Permutation (t_data u) (t_data u')
  | Throw, Throw | Abort, Abort | UB, UB | Fuel, Fuel => True
  | _, _ => False
  end.
Proof.
  intros HS HS' HT L L' U P. unfold dt_train.
  assert (LE : length fs = length fs').
  { assert (PL := Permutation_length P).
    assert (X : length (combine fs rs) = length fs) by (rewrite combine_length, L; apply Nat.min_id).
    assert (X' : length (combine fs' rs') = length fs') by (rewrite combine_length, L'; apply Nat.min_id).
    rewrite <- X, <- X'. exact PL. }
  destruct fs as [|f fs0] eqn:Ef.
  { destruct fs'; [exact I|discriminate]. }
  rewrite <- Ef in *. destruct fs' as [|f' fs0'] eqn:Ef'.
  { subst fs. discriminate. }
  rewrite <- Ef' in *.
  rewrite (proj2 (Nat.leb_le (length fs) (length rs))) by (rewrite L; auto).
  rewrite (proj2 (Nat.leb_le (length fs') (length rs'))) by (rewrite L'; auto). cbn [negb].
  destruct (trained_classes _ _ _ _ HT) as (SC & _).
  rewrite (set_insert_all_perm rs' rs (t_classes t) SC).
  2: { intros c. rewrite (combine_snd_in fs' rs'), (combine_snd_in fs rs) by auto.
       split; intros X; (eapply Permutation_in; [|exact X]); apply Permutation_map; auto using Permutation_sym. }
  assert (H := build_tree_perm srt srt' (set_insert_all rs (t_classes t)) k HS HS' (S (length (combine fs rs))) (t_max_depth t) 0 _ _ P U).
  replace (length (combine fs' rs')) with (length (combine fs rs)) by (apply (Permutation_length P)).
  destruct (build_tree _ srt _ _ _ _) as [[r dd]| | | |], (build_tree _ srt' _ _ _ _) as [[r' dd']| | | |];
    cbn [same_tree] in H; try contradiction; cbn [bind]; auto.
  destruct H as [-> PD]. cbn. repeat split; auto. f_equal.
  assert (K : forall fs rs f fs0, fs = f :: fs0 -> length rs = length fs -> uniform_samples k (combine fs rs) -> length f = k).
  { clear. intros ? [|r rs] f fs0 -> L U; cbn in L; [discriminate|]. unfold uniform_samples in U. cbn [combine] in U.
    inversion U; subst. apply H1. }
  rewrite (K _ _ _ _ Ef L U), (K _ _ _ _ Ef' L'); auto.
  eapply uniform_incl; [exact U|]. intros x Hx. eapply Permutation_in; [apply Permutation_sym, P|auto].
Qed.

Lemma inconsistent_aborts : exists features responses,
  uniform_samples 1 (combine features responses) /\ length responses = length features /\
  forall srt, sorter_ok srt -> dt_train srt (new_dtree 2) features responses = Abort.
Proof.
  exists [[zero32]; [zero32]], [0; 1]. split; [repeat constructor|]. split; [reflexivity|].
  intros srt HS. assert (U : uniform_samples 1 (combine [[zero32]; [zero32]] [0; 1])) by repeat constructor.
  assert (H := training_order_irrelevant insertion_sort srt 2 [] (new_dtree 2) 1
     [[zero32]; [zero32]] [0; 1] [[zero32]; [zero32]] [0; 1] insertion_sort_ok HS (trained_new _ _) eq_refl eq_refl U (Permutation_refl _)).
  replace (dt_train insertion_sort (new_dtree 2) [[zero32]; [zero32]] [0; 1]) with (@Abort dtree) in H by reflexivity.
  destruct (dt_train srt (new_dtree 2) [[zero32]; [zero32]] [0; 1]); try contradiction. auto.
Qed.
