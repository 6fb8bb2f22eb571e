From Coq Require Import List ZArith Bool Ascii String Lia Permutation Sorted.
From Flocq Require Import BinarySingleNaN.
From Verif Require Import Model.Base Model.Float Model.Decimal Model.DatasetM Model.PolicyModelsM Model.WriteOptM Spec.PolicyModelsSpec Spec.WriteOptSpec
  Proofs.FloatFacts Proofs.ModelStringFacts Proofs.PolicyModelsFacts.
From Coq Require Import List.
Import ListNotations.
Open Scope Z_scope.

Lemma joined l : join_commas l = comma_separated l.
Proof. induction l as [|x [|y l] IH]; [reflexivity|reflexivity|]. cbn [join_commas comma_separated] in *. rewrite IH. reflexivity. Qed.

Lemma same_execution_iff a b : same_execution a b = true <-> o_region a = o_region b /\ o_idx a = o_idx b.
Proof. unfold same_execution. rewrite andb_true_iff, bytes_eqb_eq, Z.eqb_eq. reflexivity. Qed.

Lemma drop_incl l x : In x (drop_duplicates l) -> In x l.
Proof. induction l as [|y l IH]; [auto|]. cbn. rewrite filter_In. intuition. Qed.
Lemma drop_covers l x : In x l -> exists y, In y (drop_duplicates l) /\ same_execution y x = true.
Proof.
  induction l as [|z l IH]; [contradiction|]. intros I. cbn [drop_duplicates].
  destruct (same_execution z x) eqn:E; [exists z; split; [left; reflexivity|exact E]|].
  destruct I as [->|I]; [rewrite (proj2 (same_execution_iff x x)) in E by auto; discriminate|].
  destruct (IH I) as (y & J & F). exists y. split; [|exact F]. right. apply filter_In. split; [exact J|].
  destruct (same_execution z y) eqn:G; [|reflexivity]. apply same_execution_iff in F, G. rewrite (proj2 (same_execution_iff z x)) in E by (split; etransitivity; [apply G|apply F|apply G|apply F]). discriminate.
Qed.
Lemma drop_least l x y : in_order l = true -> In x (drop_duplicates l) -> In y l -> same_execution x y = true -> lt64 (o_time y) (o_time x) = true -> False.
Proof.
  induction l as [|z l IH]; [contradiction|]. cbn [in_order drop_duplicates]. rewrite andb_true_iff, forallb_forall. intros [O O'] I J S L.
  assert (IR : forall v : f64, lt64 v v = true -> False).
  { intros v H. pose proof (Bltb_asym 53 1024 v v H) as A. unfold lt64 in H. congruence. }
  destruct I as [->|I].
  - destruct J as [->|J]; [exact (IR _ L)|]. specialize (O y J). rewrite L in O. discriminate.
  - apply filter_In in I as [I N]. destruct J as [->|J]; [|exact (IH O' I J S L)].
    assert (S' : same_execution y x = true) by (apply same_execution_iff in S; apply same_execution_iff; split; symmetry; apply S). rewrite S' in N. discriminate.
Qed.
Lemma drop_unique l : NoDup (map (fun r => (o_region r, o_idx r)) (drop_duplicates l)).
Proof.
  induction l as [|z l IH]; [constructor|]. cbn [drop_duplicates map]. constructor.
  - rewrite in_map_iff. intros (y & E & I). apply filter_In in I as [_ N]. injection E as E1 E2. rewrite (proj2 (same_execution_iff z y)) in N by auto. discriminate.
  - revert IH. generalize (drop_duplicates l). clear. induction l as [|y l IH]; intros H; [exact H|]. cbn [filter]. inversion H as [|? ? NI ND]; subst.
    destruct (negb (same_execution z y)); [|apply IH; exact ND]. cbn [map]. constructor; [|apply IH; exact ND].
    intros I. apply NI. apply in_map_iff in I as (u & E & I). apply in_map_iff. exists u. split; [exact E|]. apply filter_In in I. tauto.
Qed.

Lemma insert_perm x l : Permutation (insert_idx x l) (x :: l).
Proof. induction l as [|y l IH]; [reflexivity|]. cbn. destruct (o_idx x <=? o_idx y); [reflexivity|]. etransitivity; [apply perm_skip, IH|apply perm_swap]. Qed.
Lemma sort_perm l : Permutation (sort_idx l) l.
Proof. induction l as [|x l IH]; [reflexivity|]. cbn. etransitivity; [apply insert_perm|apply perm_skip, IH]. Qed.
Definition idx_le (a b : opt_row) : Prop := o_idx a <= o_idx b.
Lemma insert_sorted x l : StronglySorted idx_le l -> StronglySorted idx_le (insert_idx x l).
Proof.
  induction 1 as [|y l S IH F]; [repeat constructor|]. cbn. destruct (Z.leb_spec (o_idx x) (o_idx y)).
  - constructor; [constructor; assumption|]. constructor; [exact H|]. eapply Forall_impl; [|exact F]. unfold idx_le. intros; lia.
  - constructor; [exact IH|]. apply Forall_forall. intros z I. apply (Permutation_in _ (insert_perm x l)) in I as [<-|I]; [unfold idx_le; lia|]. rewrite Forall_forall in F. exact (F z I).
Qed.
Lemma sort_sorted l : StronglySorted idx_le (sort_idx l).
Proof. induction l as [|x l IH]; [constructor|]. apply insert_sorted, IH. Qed.

Lemma strict l : StronglySorted idx_le l -> NoDup (map o_idx l) -> StronglySorted (fun a b => o_idx a < o_idx b) l.
Proof.
  induction 1 as [|x l S IH F]; intros N; [constructor|]. inversion N as [|? ? NI ND]; subst. constructor; [apply IH, ND|].
  apply Forall_forall. intros y I. rewrite Forall_forall in F. specialize (F y I). unfold idx_le in F.
  destruct (Z.eq_dec (o_idx x) (o_idx y)) as [E|]; [|lia]. exfalso. apply NI. rewrite E. apply in_map. exact I.
Qed.

Lemma region_unique s region : NoDup (map o_idx (filter (fun r => bytes_eqb (o_region r) region) (drop_duplicates s))).
Proof.
  generalize (drop_unique s). generalize (drop_duplicates s). induction l as [|x l IH]; intros H; [constructor|]. inversion H as [|? ? NI ND]; subst. cbn [filter].
  destruct (bytes_eqb (o_region x) region) eqn:E; [|apply IH, ND]. cbn [map]. constructor; [|apply IH, ND].
  intros I. apply NI. apply in_map_iff in I as (y & A & I). apply filter_In in I as [I B]. apply bytes_eqb_eq in E, B. apply in_map_iff. exists y. split; [congruence|exact I].
Qed.

Lemma not_less_le (a b : f64) : is_nan a = false -> is_nan b = false -> lt64 b a = false -> Bleb a b = true.
Proof.
  intros A B H. unfold lt64 in H. rewrite (Bltb_xval 53 1024 b a B A) in H. rewrite (Bleb_xval 53 1024 a b A B). apply Raux.Rle_bool_true.
  destruct (Raux.Rlt_bool_spec (xval b) (xval a)); [discriminate|assumption].
Qed.

Theorem opt_written rows rank s region : arranged rows rank s -> (forall r, In r rows -> is_nan (o_time r) = false) ->
  exists l, opt_file s region = comma_separated (map (fun r => print_Z (o_policy r)) l) /\
    StronglySorted (fun a b => o_idx a < o_idx b) l /\
    (forall r, In r l -> measured_for rows rank region (o_idx r) r /\ fastest rows rank region (o_idx r) (o_policy r)) /\
    (forall i r, measured_for rows rank region i r -> In i (map o_idx l)).
Proof.
  intros (P & O) N. exists (opt_rows s region). split; [apply joined|].
  assert (IN : forall r, In r (opt_rows s region) <-> In r (drop_duplicates s) /\ o_region r = region).
  { intros r. unfold opt_rows. split.
    - intros I. apply (Permutation_in _ (sort_perm _)) in I. apply filter_In in I. rewrite bytes_eqb_eq in I. exact I.
    - intros I. apply (Permutation_in _ (Permutation_sym (sort_perm _))). apply filter_In. rewrite bytes_eqb_eq. exact I. }
  assert (RS : forall r, In r s <-> In r rows /\ o_rank r = rank).
  { intros r. split.
    - intros I. apply (Permutation_in _ (Permutation_sym P)) in I. apply filter_In in I as [I E]. apply Z.eqb_eq in E. auto.
    - intros [I E]. apply (Permutation_in _ P). apply filter_In. apply Z.eqb_eq in E. auto. }
  split; [|split].
  - unfold opt_rows. apply strict; [apply sort_sorted|]. eapply Permutation_NoDup; [|apply (region_unique s region)]. symmetry. apply Permutation_map, sort_perm.
  - intros r I. apply IN in I as [I E]. assert (J := drop_incl _ _ I). apply RS in J as [J K].
    assert (M : measured_for rows rank region (o_idx r) r) by (repeat split; assumption). split; [exact M|].
    exists r. split; [exact M|]. split; [reflexivity|]. intros r' (A & B & C & D). apply not_less_le; [apply N; exact J|apply N; exact A|].
    destruct (lt64 (o_time r') (o_time r)) eqn:L; [|reflexivity]. exfalso. apply (drop_least s r r' O I); [apply RS; auto|apply same_execution_iff; split; congruence|exact L].
  - intros i r (A & B & C & D). assert (J : In r s) by (apply RS; auto). destruct (drop_covers s r J) as (y & Y & S). apply same_execution_iff in S as [S1 S2].
    apply in_map_iff. exists y. split; [congruence|]. apply IN. split; [exact Y|congruence].
Qed.

(** Strictly increasing numbers that are those below [n] are 0, 1, ... *)
Lemma counted l : forall k n, StronglySorted Z.lt l -> (forall i, In i l <-> k <= i < k + Z.of_nat n) -> l = map (fun j => k + Z.of_nat j) (seq 0 n).
Proof.
  induction l as [|x l IH]; intros k n S H.
  - destruct n as [|n]; [reflexivity|]. exfalso. apply (proj2 (H k)). lia.
  - inversion S as [|? ? S' F]; subst. rewrite Forall_forall in F. destruct n as [|n]; [exfalso; assert (X := proj1 (H x) (or_introl eq_refl)); lia|].
    assert (X : x = k).
    { assert (B := proj1 (H x) (or_introl eq_refl)). destruct (proj2 (H k)) as [E|I]; [lia|exact E|]. specialize (F k I). lia. }
    subst x. cbn [seq map]. f_equal; [lia|]. rewrite <- seq_shift, map_map.
    rewrite (IH (k + 1) n S'); [apply map_ext; intros; lia|]. intros i. split.
    + intros I. assert (A := F i I). assert (B := proj1 (H i) (or_intror I)). lia.
    + intros R. destruct (proj2 (H i)) as [E|I]; [lia|lia|exact I].
Qed.

Theorem opt_replayed P num rows rank s region count : arranged rows rank s -> (forall r, In r rows -> is_nan (o_time r) = false) ->
  (forall r, In r rows -> -2147483648 <= o_policy r <= 2147483647) ->
  (forall i, (exists r, measured_for rows rank region i r) <-> 0 <= i < Z.of_nat count) ->
  exists m, create_from_file ($"Optimal") num (Some (opt_file s region)) = Ok m /\
    (forall calls, (List.length calls <= count)%nat -> exists ps m', ask P m calls = Ok (ps, m') /\ List.length ps = List.length calls /\
       forall i p, nth_error ps i = Some p -> fastest rows rank region (Z.of_nat i) p) /\
    (forall calls, (count < List.length calls)%nat -> ask P m calls = Abort).
Proof.
  intros A N I H. destruct (opt_written rows rank s region A N) as (l & E & S & L1 & L2).
  assert (C : map o_idx l = map (fun j => 0 + Z.of_nat j) (seq 0 count)).
  { apply counted.
    - clear - S. induction S as [|x l S IH F]; [constructor|]. cbn. constructor; [exact IH|]. apply Forall_map. exact F.
    - intros i. split.
      + intros J. apply in_map_iff in J as (r & <- & J). apply H. exists r. apply L1. exact J.
      + intros R. apply H in R as (r & M). exact (L2 i r M). }
  assert (LEN : List.length l = count) by (apply (f_equal (@List.length Z)) in C; rewrite !map_length, seq_length in C; exact C).
  destruct (optimal_replays P 1 num (fun _ _ => B754_zero false) (map (fun r => print_Z (o_policy r)) l) (map o_policy l)) as (m0 & m & _ & _ & F & _ & K1 & K2).
  { clear - L1 I. induction l as [|r l IH]; [constructor|]. cbn [map]. constructor.
    - split; [apply print_Z_free_comma|]. exists []. apply stoi_whole. apply I. destruct (L1 r (or_introl eq_refl)) as [(J & _) _]. exact J.
    - apply IH. intros x J. apply L1. right; exact J. }
  exists m. rewrite E. split; [exact F|]. rewrite map_length, LEN in *. split; [|exact K2].
  intros calls LE. destruct (K1 calls LE) as (m' & Q). exists (firstn (List.length calls) (map o_policy l)), m'. split; [exact Q|].
  split; [rewrite firstn_length, map_length, LEN; lia|]. intros i p X.
  assert (LI : (i < List.length calls)%nat). { assert (B : (i < List.length (firstn (List.length calls) (map o_policy l)))%nat) by (apply nth_error_Some; congruence). rewrite firstn_length in B. lia. }
  assert (Y : nth_error (map o_policy l) i = Some p).
  { rewrite <- X. rewrite <- (firstn_skipn (List.length calls) (map o_policy l)) at 1. apply nth_error_app1. apply nth_error_Some. congruence. }
  rewrite nth_error_map in Y. destruct (nth_error l i) as [r|] eqn:R; [|discriminate]. cbn in Y. injection Y as <-.
  assert (Z1 : o_idx r = Z.of_nat i).
  { apply (f_equal (fun v => nth_error v i)) in C. rewrite !nth_error_map, R in C. cbn in C.
    assert (SQ : nth_error (seq 0 count) i = Some i). { rewrite (nth_error_nth' _ 0%nat) by (rewrite seq_length; lia). rewrite seq_nth by lia. reflexivity. }
    rewrite SQ in C. cbn in C. injection C as C. exact C. }
  rewrite <- Z1. apply L1. apply (nth_error_In _ _ R).
Qed.

Theorem opt_files rows rank s : arranged rows rank s ->
  NoDup (opt_regions s) /\ forall r, In r (opt_regions s) <-> exists x, In x rows /\ o_rank x = rank /\ o_region x = r.
Proof.
  intros (P & _). split; [apply NoDup_nodup|]. intros r. unfold opt_regions. rewrite nodup_In, in_map_iff. split.
  - intros (x & <- & I). apply drop_incl in I. apply (Permutation_in _ (Permutation_sym P)) in I. apply filter_In in I as [I E]. apply Z.eqb_eq in E. exists x. auto.
  - intros (x & I & E & <-). assert (J : In x s) by (apply (Permutation_in _ P), filter_In; apply Z.eqb_eq in E; auto).
    destruct (drop_covers s x J) as (y & Y & S). apply same_execution_iff in S as [S _]. exists y. auto.
Qed.
