(** Training a tree on vectors that do not fit the first one. *)
From Coq Require Import List ZArith Bool Lia Sorted Permutation Reals Lra Psatz Arith.
From Flocq Require Import Core BinarySingleNaN Relative.
From Verif Require Import Model.Base Model.Float Model.DatasetM Model.TreeM Spec.DatasetSpec Spec.TreeSpec Spec.GreedySpec Spec.RaggedSpec
  Proofs.FloatFacts Proofs.FloatConv Proofs.TreeFacts Proofs.TreeLabels Proofs.TreeThreshold Proofs.TreeGini Proofs.TreeTotal Proofs.TreeTraining Proofs.TreeGreedy.
Import ListNotations.
Open Scope R_scope.

(** ** Two classes give a positive impurity, also as computed. *)
Lemma share_two c (l : list sample) s : In s l -> snd s <> c -> share c l <= 1 - / INR (length l).
Proof.
  intros I D. assert (L : 0 < INR (length l)) by (apply lt_0_INR; destruct l; [destruct I|cbn; lia]).
  assert (C : (count_occ Z.eq_dec (map snd l) c + 1 <= length l)%nat).
  { clear L. induction l as [|x l IH]; [destruct I|]. cbn [map count_occ length]. destruct I as [->|I].
    - destruct (Z.eq_dec (snd s) c) as [E|E]; [contradiction|]. assert (B : (count_occ Z.eq_dec (map snd l) c <= length (map snd l))%nat) by apply count_occ_bound. rewrite map_length in B. unfold sample, f32 in *. lia.
    - specialize (IH I). destruct (Z.eq_dec (snd x) c); lia. }
  apply le_INR in C. rewrite plus_INR in C. cbn [INR] in C. unfold share. apply (Rmult_le_reg_r (INR (length l))); [exact L|]. unfold Rdiv. rewrite Rmult_assoc, Rinv_l, Rmult_minus_distr_r, Rinv_l by lra. lra.
Qed.

Lemma impurity_two (l : list sample) s s' : In s l -> In s' l -> snd s <> snd s' -> / INR (length l) <= impurity l.
Proof.
  intros I I' D. assert (NE : l <> []) by (intros ->; destruct I). assert (L : 0 < INR (length l)) by (apply lt_0_INR; destruct l; [destruct I|cbn; lia]).
  assert (SB : forall c, share c l <= 1 - / INR (length l)).
  { intros c. destruct (Z.eq_dec (snd s) c) as [E|E]; [apply (share_two c l s' I'); congruence|apply (share_two c l s I E)]. }
  unfold impurity. assert (C := counts_le _ l (NoDup_nodup Z.eq_dec (map snd l))). set (cs := nodup Z.eq_dec (map snd l)) in *.
  assert (S : sum_squares cs l <= (1 - / INR (length l)) * (IZR (fold_right (fun c a => (Z.of_nat (count_occ Z.eq_dec (map snd l) c) + a)%Z) 0%Z cs) / INR (length l))).
  { clear C. clearbody cs. induction cs as [|c cs IH]; cbn [sum_squares fold_right]; [unfold Rdiv; lra|]. unfold sum_squares in IH. rewrite plus_IZR, <- INR_IZR_INZ. unfold Rdiv in *. rewrite Rmult_plus_distr_r.
    assert (B := share_bound c l NE). specialize (SB c). unfold share, Rdiv in *. nra. }
  assert (G : IZR (fold_right (fun c a => (Z.of_nat (count_occ Z.eq_dec (map snd l) c) + a)%Z) 0%Z cs) / INR (length l) <= 1).
  { apply IZR_le in C. rewrite <- INR_IZR_INZ in C. apply (Rmult_le_reg_r (INR (length l))); [exact L|]. unfold Rdiv. rewrite Rmult_assoc, Rinv_l by lra. lra. }
  assert (M : 0 <= 1 - / INR (length l)) by (assert (B := share_bound (snd s) l NE); specialize (SB (snd s)); lra). nra.
Qed.

Lemma gini_positive classes (l : list sample) s s' : NoDup classes -> (forall x, In x l -> In (snd x) classes) ->
  (Z.of_nat (length l) * (2 * Z.of_nat (length classes) + 6) < 2 ^ 22)%Z -> In s l -> In s' l -> snd s <> snd s' ->
  le32 (compute_gini classes l) zero32 = false.
Proof.
  intros D H B I I' N. assert (LP : (2 <= length l)%nat) by (destruct l as [|x [|y l]]; [destruct I| |cbn; lia]; destruct I as [<-|[]]; destruct I' as [<-|[]]; contradiction).
  assert (LZ : (2 <= Z.of_nat (length l))%Z) by (apply inj_le in LP; exact LP). assert (CZ : (0 <= Z.of_nat (length classes))%Z) by apply Zle_0_nat.
  assert (LB : (0 < Z.of_nat (length l) <= 2 ^ 24)%Z) by (clear - LZ B CZ; revert LZ B CZ; generalize (Z.of_nat (length l)) (Z.of_nat (length classes)); intros; nia).
  assert (KB : (Z.of_nat (length classes) <= 2 ^ 20)%Z) by (clear - LZ B CZ; revert LZ B CZ; generalize (Z.of_nat (length l)) (Z.of_nat (length classes)); intros; nia).
  assert (NE : l <> []) by (intros ->; destruct I).
  destruct (gini_err l _ eq_refl LB classes D H KB) as (F & E & _). assert (P := impurity_two l s s' I I' N).
  apply Rabs_le_inv in E. unfold le32. rewrite Bleb_correct; [|exact F|reflexivity]. change (B2R zero32) with 0. apply Rle_bool_false.
  assert (LR : 0 < INR (length l)) by (apply lt_0_INR; unfold sample, f32 in *; lia). apply IZR_lt in B. rewrite mult_IZR, plus_IZR, mult_IZR in B. rewrite INR_IZR_INZ in *.
  set (n := IZR (Z.of_nat (length l))) in *. set (k := IZR (Z.of_nat (length classes))) in *. unfold u in E.
  assert (Q : (2 * k + 6) * / 16777216 < / n).
  { apply (Rmult_lt_reg_r n); [exact LR|]. rewrite Rinv_l by lra. change (IZR (2 ^ 22)) with 4194304 in B. apply (Rmult_lt_reg_r 16777216); [lra|].
    replace ((2 * k + 6) * / 16777216 * n * 16777216) with (n * (2 * k + 6)) by field. lra. }
  lra.
Qed.

(** ** The sorts *)
Open Scope Z_scope.

Lemma no_number_unsortable srt i s l : In s l -> no_number i (fst s) -> sort_by srt i l = UB.
Proof.
  intros I N. unfold sort_by. destruct (forallb _ l) eqn:E; [|reflexivity]. exfalso. rewrite forallb_forall in E. apply E in I. apply andb_prop in I. destruct I as [A B].
  apply Nat.ltb_lt in A. destruct (nth_error (fst s) i) as [x|] eqn:X; [|apply nth_error_None in X; lia]. unfold feature in B. rewrite (nth_error_nth _ _ zero32 X) in B. rewrite (N x X) in B. discriminate B.
Qed.

Lemma scan_unsortable srt classes i s fs : sorter_ok srt -> no_number i (fst s) -> In i fs -> forall l b, In s l -> scan_features srt classes fs l b = UB.
Proof.
  intros HS N. induction fs as [|f fs IH]; intros J l b I; [destruct J|]. cbn [scan_features]. destruct (Nat.eq_dec f i) as [->|D].
  - rewrite (no_number_unsortable srt i s l I N). reflexivity.
  - destruct J as [X|J]; [contradiction|]. destruct (sort_by srt f l) as [l'| | | |] eqn:E.
    + cbn [bind]. apply IH; [exact J|]. destruct (sort_by_ok _ _ _ _ HS E) as (P & _). exact (Permutation_in s P I).
    + unfold sort_by in E. destruct (forallb _ l); discriminate E.
    + unfold sort_by in E. destruct (forallb _ l); discriminate E.
    + reflexivity.
    + unfold sort_by in E. destruct (forallb _ l); discriminate E.
Qed.

Lemma split_unsortable srt classes i (s : sample) (l : list sample) : sorter_ok srt -> In s l -> no_number i (fst s) -> (i < Nat.max 1 (length (fst (hd ([], 0%Z) l))))%nat -> (2 <= length l)%nat ->
  split srt classes l = UB.
Proof.
  intros HS I N L L2. unfold split. replace (Nat.ltb 1 (length l)) with true by (symmetry; apply Nat.ltb_lt; exact L2). cbn [negb].
  destruct (length (fst (hd ([], 0%Z) l))) as [|n] eqn:EN.
  - cbn [seq scan_features bind]. destruct l as [|s0 l]; [destruct I|]. cbn [hd] in EN. rewrite (no_number_unsortable srt 0 s0 (s0 :: l) (or_introl eq_refl)); [reflexivity|].
    intros x X. destruct (fst s0); [discriminate X|discriminate EN].
  - rewrite (scan_unsortable srt classes i s _ HS N); [reflexivity| |exact I]. apply in_seq. lia.
Qed.

Lemma new_leaf_cases classes counts gini n : (exists node, new_leaf classes counts gini n = Ok node) \/ new_leaf classes counts gini n = UB.
Proof. unfold new_leaf. cbv zeta. destruct (nth_error classes _); eauto. Qed.

(** Training. *)
Lemma train_misfit srt md h t features responses : sorter_ok srt -> trained srt md h t -> 0 < md ->
  length responses = length features -> misfit features ->
  (exists a b, In a responses /\ In b responses /\ a <> b) ->
  Z.of_nat (length features) * (2 * Z.of_nat (length (nodup Z.eq_dec (List.concat (map snd h) ++ responses))) + 6) < 2 ^ 22 ->
  dt_train srt t features responses = UB.
Proof.
  intros HS HT MD L MF (a & b & IA & IB & AB) K. destruct (trained_classes _ _ _ _ HT) as (S & I & M).
  assert (CC := class_count_history responses (t_classes t) (List.concat (map snd h)) S I). rewrite <- CC in K.
  destruct MF as (f & rest & g & i & EF & IG & LI & NN). unfold dt_train. rewrite EF. rewrite <- EF. rewrite L, Nat.leb_refl. cbn [negb].
  set (data := combine features responses). set (classes := set_insert_all responses (t_classes t)) in *.
  assert (LD : length data = length features) by (unfold data; rewrite combine_length, L; apply Nat.min_id).
  assert (PK : forall c, In c responses -> exists s, In s data /\ snd s = c).
  { intros c IC. apply In_nth_error in IC. destruct IC as (j & EJ). assert (JL : (j < length features)%nat) by (rewrite <- L; apply nth_error_Some; congruence).
    destruct (nth_error features j) as [x|] eqn:EX; [|apply nth_error_None in EX; lia]. exists (x, c). split; [|reflexivity]. unfold data. apply (nth_error_In _ j). clear - EX EJ. revert responses j EX EJ.
    induction features as [|y ys IH]; intros [|z zs] [|j] EX EJ; try discriminate; cbn in *; [congruence|]. apply IH; assumption. }
  destruct (PK a IA) as (sa & DA & <-). destruct (PK b IB) as (sb & DB & <-).
  assert (PG : exists s, In s data /\ fst s = g).
  { apply In_nth_error in IG. destruct IG as (j & EJ). assert (JL : (j < length responses)%nat) by (rewrite L; apply nth_error_Some; congruence).
    destruct (nth_error responses j) as [x|] eqn:EX; [|apply nth_error_None in EX; lia]. exists (g, x). split; [|reflexivity]. unfold data. apply (nth_error_In _ j). clear - EX EJ. revert responses j EX EJ.
    induction features as [|y ys IH]; intros [|z zs] [|j] EX EJ; try discriminate; cbn in *; [congruence|]. apply IH; assumption. }
  destruct PG as (sg & DG & <-).
  assert (HD : fst (hd ([], 0%Z) data) = f).
  { unfold data. rewrite EF. destruct responses as [|r0 rs]; [rewrite EF in L; discriminate L|]. reflexivity. }
  assert (GP : le32 (compute_gini classes data) zero32 = false).
  { apply (gini_positive classes data sa sb); auto.
    - apply sorted_lt_nodup, set_insert_all_sorted. exact S.
    - intros x X. apply set_insert_all_in. left. exact (in_combine_snd _ _ _ X).
    - unfold sample in *. rewrite LD. exact K. }
  cbn [build_tree]. match goal with |- context [new_leaf ?c ?k ?g ?n] => destruct (new_leaf_cases c k g n) as [(node & NL)|NL]; rewrite NL end; [|reflexivity].
  cbn [bind]. rewrite M. destruct (Z.leb_spec md 0) as [X|_]; [lia|]. rewrite GP.
  assert (SP : split srt classes data = UB).
  { apply (split_unsortable srt classes i sg data HS DG NN).
    - rewrite HD. exact LI.
    - destruct data as [|s0 [|s1 l]]; [destruct DA| |cbn [length]; lia]. destruct DA as [<-|[]]. destruct DB as [<-|[]]. contradiction. }
  rewrite SP. destruct data as [|s0 l]; [destruct DA|]. reflexivity.
Qed.
