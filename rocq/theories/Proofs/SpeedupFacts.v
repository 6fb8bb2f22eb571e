(** What the speedups say. *)
From Coq Require Import List ZArith Bool Ascii String Reals Lia Lra Permutation SpecFloat.
From Flocq Require Import Core BinarySingleNaN Relative.
From Verif Require Import Model.Base Model.Float Model.Decimal Model.ConfigM Model.RuntimeM Model.CreateDatasetM Model.WriteOptM Model.AnalyzeM Model.SpeedupM
  Spec.DatasetSpec Spec.RuntimeSpec Spec.CreateDatasetSpec Spec.AnalyzeSpec Spec.WriteOptSpec Spec.SpeedupSpec
  Proofs.CreateDatasetFacts Proofs.FloatFacts Proofs.FloatConv Proofs.KokkosDoubles Proofs.RelaxedFloats Proofs.AnalyzeFacts Proofs.AnalyzeRuns.
From Coq Require Import List.
Import ListNotations.
Local Open Scope R_scope.

Lemma overall_rnd t : overall t = rnd64 (B2R (fst t) + B2R (snd t)).
Proof. reflexivity. Qed.
Lemma zero_add (x : f64) : is_finite x = true -> is_finite (add64 zero64 x) = true /\ B2R (add64 zero64 x) = B2R x.
Proof.
  intros F. assert (E : rnd64 (B2R zero64 + B2R x) = B2R x).
  { cbn [zero64 B2R]. rewrite Rplus_0_l. apply round_generic; [typeclasses eauto|]. apply (generic_format_B2R 53 1024). }
  destruct (add64_spec zero64 x eq_refl F) as [A B].
  - rewrite E. apply (abs_B2R_lt_emax 53 1024).
  - rewrite E in B. auto.
Qed.
Lemma pair_value t : ordinary_pair t -> is_finite (pair_sum t) = true /\ B2R (pair_sum t) = overall t /\ bpow radix2 (-500) <= overall t <= bpow radix2 500.
Proof.
  intros (F1 & F2 & _ & _ & R). destruct (zero_add _ F1) as [A B].
  assert (R1 : bpow radix2 (-500) <= overall t <= bpow radix2 500).
  { rewrite overall_rnd. apply rnd64_between; [apply fmt64_bpow; lia|apply fmt64_bpow; lia|exact R]. }
  unfold pair_sum. destruct (add64_spec (add64 zero64 (fst t)) (snd t) A F2) as [C D].
  - rewrite B, <- overall_rnd. assert (P := bpow_gt_0 radix2 (-500)). rewrite Rabs_pos_eq by lra. apply Rle_lt_trans with (bpow radix2 500); [lra|apply bpow_lt; lia].
  - rewrite B, <- overall_rnd in D. auto.
Qed.
Lemma single_pair x : ordinary x -> ordinary_pair (x, zero64) /\ overall (x, zero64) = B2R x.
Proof.
  intros [F R]. assert (P := bpow_gt_0 radix2 (-500)). split.
  - unfold ordinary_pair. cbn [fst snd zero64 B2R]. rewrite Rplus_0_r. repeat split; [exact F|lra|lra|apply R|apply R].
  - rewrite overall_rnd. cbn [fst snd zero64 B2R]. rewrite Rplus_0_r. apply round_generic; [typeclasses eauto|]. apply (generic_format_B2R 53 1024).
Qed.
Lemma quotient_range a b : bpow radix2 (-500) <= a <= bpow radix2 500 -> bpow radix2 (-500) <= b <= bpow radix2 500 -> 0 <= a / b <= bpow radix2 1000.
Proof.
  intros A B. assert (P := bpow_gt_0 radix2 (-500)). split; [apply Rmult_le_pos; [lra|]; apply Rlt_le, Rinv_0_lt_compat; lra|].
  apply Rmult_le_reg_r with b; [lra|]. unfold Rdiv. rewrite Rmult_assoc, Rinv_l, Rmult_1_r by lra. apply Rle_trans with (bpow radix2 500); [lra|].
  replace 500%Z with (1000 + -500)%Z at 1 by reflexivity. rewrite bpow_plus. apply Rmult_le_compat_l; [apply bpow_ge_0|lra].
Qed.
Lemma speedup_value x t : ordinary x -> ordinary_pair t -> exists q, speedup (x, zero64) t = Ok q /\ is_finite q = true /\ B2R q = rnd64 (B2R x / overall t).
Proof.
  intros OX OT. destruct (single_pair x OX) as [PX VX]. destruct (pair_value _ PX) as (F1 & V1 & _). rewrite VX in V1. destruct (pair_value t OT) as (F2 & V2 & R2).
  assert (P := bpow_gt_0 radix2 (-500)). assert (N : eq64 (pair_sum t) zero64 = false).
  { unfold eq64. rewrite (Beqb_correct 53 1024 (pair_sum t) zero64 F2 eq_refl), V2. apply Req_bool_false. cbn [zero64 B2R]. lra. }
  unfold speedup. rewrite N. eexists. split; [reflexivity|]. assert (Q := quotient_range (B2R x) (overall t) (proj2 OX) R2).
  destruct (div64_spec (pair_sum (x, zero64)) (pair_sum t) F1) as [A B]; [rewrite V2; lra| |rewrite V1, V2 in B; auto].
  rewrite V1, V2. assert (R3 : 0 <= rnd64 (B2R x / overall t) <= bpow radix2 1000) by (apply rnd64_between; [apply generic_format_0|apply fmt64_bpow; lia|exact Q]).
  rewrite Rabs_pos_eq by lra. apply Rle_lt_trans with (bpow radix2 1000); [lra|apply bpow_lt; lia].
Qed.

(** The quotient of a double by a greater one is rounded to less than 1. *)
Lemma below_one s m : fmt64 s -> fmt64 m -> 0 < s -> s < m -> rnd64 (s / m) < 1.
Proof.
  intros FS FM S L. assert (U := unit_small).
  assert (G : s * bpow radix2 (-53) <= ulp radix2 (fexp 53 1024) s).
  { apply Rlt_le. rewrite <- (Rabs_pos_eq s) at 1 by lra. exact (ulp_FLT_gt radix2 (-1074) 53 s). }
  assert (M : s * (1 + bpow radix2 (-53)) <= m).
  { assert (H := succ_le_lt radix2 (fexp 53 1024) s m FS FM L). rewrite succ_eq_pos in H by lra. lra. }
  assert (Q : s / m <= / (1 + bpow radix2 (-53))).
  { apply Rmult_le_reg_r with (m * (1 + bpow radix2 (-53))); [apply Rmult_lt_0_compat; lra|]. field_simplify; lra. }
  assert (QU : / (1 + bpow radix2 (-53)) < 1 - bpow radix2 (-53) / 2).
  { apply Rmult_lt_reg_r with (1 + bpow radix2 (-53)); [lra|]. rewrite Rinv_l by lra. nra. }
  assert (H0 : 0 < s / m) by (apply Rmult_lt_0_compat; [lra|apply Rinv_0_lt_compat; lra]).
  destruct (Rle_or_lt (/ 2) (s / m)) as [K|K].
  - assert (E := error_le_half_ulp radix2 (fexp 53 1024) (fun z => negb (Z.even z)) (s / m)).
    assert (UL : ulp radix2 (fexp 53 1024) (s / m) = bpow radix2 (-53)).
    { rewrite ulp_neq_0 by lra. unfold cexp. rewrite (mag_unique radix2 (s / m) 0); [reflexivity|]. rewrite Rabs_pos_eq by lra. cbn. lra. }
    rewrite UL in E. apply Rabs_le_inv in E. change (round radix2 (fexp 53 1024) (Znearest (fun z => negb (Z.even z))) (s / m)) with (rnd64 (s / m)) in E. lra.
  - apply Rle_lt_trans with (/ 2); [|lra]. change (/ 2) with (bpow radix2 (-1)). apply rnd64_between with (lo := 0); [apply generic_format_0|apply fmt64_bpow; lia|]. cbn. lra.
Qed.
Lemma at_least_one s m : fmt64 s -> fmt64 m -> 0 < s -> 0 < m -> (1 <= rnd64 (s / m) <-> m <= s).
Proof.
  intros FS FM S M. split; intros H.
  - apply Rnot_lt_le. intros L. assert (B := below_one s m FS FM S L). lra.
  - assert (ONE : 1 = rnd64 1) by (symmetry; apply round_generic; [typeclasses eauto|apply (fmt64_bpow 0); lia]). rewrite ONE.
    apply round_le; [typeclasses eauto|typeclasses eauto|]. apply Rmult_le_reg_r with m; [lra|]. unfold Rdiv. rewrite Rmult_assoc, Rinv_l by lra. lra.
Qed.

Lemma best_fold l : forall x, Forall (fun kv : bytes * f64 => is_finite (snd kv) = true) (x :: l) ->
  In (fold_left (fun best y => if lt64 (snd y) (snd best) then y else best) l x) (x :: l) /\
  Forall (fun kv => B2R (snd (fold_left (fun best y => if lt64 (snd y) (snd best) then y else best) l x)) <= B2R (snd kv)) (x :: l).
Proof.
  induction l as [|y l IH]; intros x F; cbn [fold_left]; [split; [left; reflexivity|repeat constructor; apply Rle_refl]|].
  inversion F as [|? ? FX F1 E1]; subst. inversion F1 as [|? ? FY F2 E2]; subst.
  assert (D : lt64 (snd y) (snd x) = Rlt_bool (B2R (snd y)) (B2R (snd x))) by (apply (Bltb_correct 53 1024); assumption).
  destruct (lt64 (snd y) (snd x)).
  - destruct (IH y) as [A B]; [exact F1|]. split; [right; exact A|]. constructor; [|exact B]. assert (HB := Forall_inv B). cbv beta in HB |- *.
    destruct (Rlt_bool_spec (B2R (snd y)) (B2R (snd x))) as [K|K]; [exact (Rle_trans _ _ _ HB (Rlt_le _ _ K))|discriminate D].
  - destruct (IH x) as [A B]; [constructor; assumption|]. assert (HB := Forall_inv B). assert (B2 := Forall_inv_tail B). cbv beta in HB. split; [destruct A as [A|A]; [left; exact A|right; right; exact A]|].
    constructor; [exact HB|]. constructor; [|exact B2]. destruct (Rlt_bool_spec (B2R (snd y)) (B2R (snd x))) as [K|K]; [discriminate D|exact (Rle_trans _ _ _ HB K)].
Qed.
Lemma best_least l : l <> [] -> Forall (fun kv : bytes * f64 => ordinary (snd kv)) l ->
  exists best, best_static l = Ok best /\ In best l /\ forall kv, In kv l -> B2R (snd best) <= B2R (snd kv).
Proof.
  destruct l as [|x l]; intros N F; [congruence|]. destruct (best_fold l x) as [A B].
  - eapply Forall_impl; [|exact F]. intros kv [K _]. exact K.
  - eexists. split; [reflexivity|]. split; [exact A|]. rewrite Forall_forall in B. exact B.
Qed.

Lemma all_names (A : Type) (f : nat -> outcome A) (k : nat -> bytes) : forall js (l : list (bytes * A)),
  map_all (fun j => let* t := f j in Ok (k j, t)) js = Ok l -> map fst l = map k js.
Proof.
  induction js as [|j js IH]; intros l E; cbn [map_all] in E.
  - injection E as <-. reflexivity.
  - destruct (f j) as [t| | | |]; cbn [bind] in E; try discriminate E. destruct (map_all (fun j => let* t := f j in Ok (k j, t)) js) as [r| | | |] eqn:ER; cbn [bind] in E; try discriminate E.
    assert (L : l = (k j, t) :: r) by congruence. subst l. cbn [map fst]. f_equal. apply IH. reflexivity.
Qed.
Lemma first_static num data rank n l : (0 < n)%nat -> static_times num data rank n = Ok l -> exists t r, l = ($"Static,0", t) :: r.
Proof.
  intros N E. apply (all_names f64 (fun j => execution_time num data rank ($"Static," ++ print_Z (Z.of_nat j))) (fun j => $"Static," ++ print_Z (Z.of_nat j))) in E.
  destruct n as [|n]; [lia|]. destruct l as [|[k t] r]; [discriminate E|]. exists t, r. cbn [map seq fst] in E. f_equal. f_equal.
  change (k = $"Static," ++ print_Z (Z.of_nat 0)). congruence.
Qed.

Theorem speedups_say num data rank n l t : (0 < n)%nat -> static_times num data rank n = Ok l -> Forall (fun kv => ordinary (snd kv)) l -> ordinary_pair t ->
  exists a b default, speedups l t = Ok (a, b) /\ is_finite a = true /\ is_finite b = true /\ In ($"Static,0", default) l /\
    (1 <= B2R a <-> overall t <= B2R default) /\
    (1 <= B2R b <-> forall kv, In kv l -> overall t <= B2R (snd kv)) /\
    B2R b <= B2R a.
Proof.
  intros N E F OT. destruct (first_static _ _ _ _ _ N E) as (d & r & ->). assert (NE : ($"Static,0", d) :: r <> []) by discriminate. destruct (best_least _ NE F) as (best & EB & IB & LB).
  rewrite Forall_forall in F. assert (OD : ordinary d) by (apply (F ($"Static,0", d)); left; reflexivity). assert (OB := F best IB).
  destruct (speedup_value d t OD OT) as (a & EA & FA & VA). destruct (speedup_value (snd best) t OB OT) as (b & EB2 & FB & VB).
  destruct (pair_value t OT) as (FT & VT & RT). assert (P := bpow_gt_0 radix2 (-500)).
  assert (GT : fmt64 (overall t)) by (rewrite <- VT; apply (generic_format_B2R 53 1024)).
  exists a, b, d. split.
  { unfold speedups. rewrite EB. cbn [bind find fst]. replace (bytes_eqb ($"Static,0") ($"Static,0")) with true by reflexivity. cbn [snd]. rewrite EA. cbn [bind]. rewrite EB2. reflexivity. }
  split; [exact FA|]. split; [exact FB|]. split; [left; reflexivity|]. rewrite VA, VB. split; [|split].
  - apply at_least_one; [apply (generic_format_B2R 53 1024)|exact GT|destruct OD; lra|lra].
  - rewrite at_least_one; [|apply (generic_format_B2R 53 1024)|exact GT|destruct OB; lra|lra]. split.
    + intros H kv I. specialize (LB kv I). lra.
    + intros H. apply H. exact IB.
  - apply round_le; [typeclasses eauto|typeclasses eauto|]. apply Rmult_le_compat_r; [apply Rlt_le, Rinv_0_lt_compat; lra|]. apply (LB ($"Static,0", d)). left. reflexivity.
Qed.

(** A rank without executions. *)
Lemma idle_times num rank keep ss : idle ss rank -> times_in num rank keep ss = [].
Proof.
  intros I. unfold times_in. induction ss as [|s ss IH]; [reflexivity|]. cbn [flat_map]. rewrite IH.
  2:{ intros j region idx (s' & e & J & M). apply (I j region idx). exists s', e. split; [right; exact J|exact M]. }
  rewrite app_nil_r. destruct (Z.eqb_spec (tr_rank (sr_trace s)) rank) as [R|R]; [|reflexivity]. cbn [andb]. destruct (keep s); [|reflexivity].
  destruct (tr_entries (sr_trace s)) as [|e es] eqn:EE; [reflexivity|]. exfalso. apply (I (sr_setting s) (tr_region (sr_trace s)) (e_index e)).
  exists s, e. repeat split; [left; reflexivity|exact R|]. rewrite EE. left. reflexivity.
Qed.
Lemma idle_rows num rank ss : idle ss rank -> of_rank rank (rows_of num ss) = [].
Proof.
  intros I. destruct (of_rank rank (rows_of num ss)) as [|r rs] eqn:E; [reflexivity|]. exfalso.
  assert (J : In r (of_rank rank (rows_of num ss))) by (rewrite E; left; reflexivity). unfold of_rank in J. apply filter_In in J as [J K].
  apply in_rows in J as (s & e & A & B & ->). cbn [o_rank] in K. apply Z.eqb_eq in K. apply (I (sr_setting s) (tr_region (sr_trace s)) (e_index e)). exists s, e. repeat split; assumption.
Qed.
Lemma best_outcome l : best_static l = Throw \/ exists best, best_static l = Ok best.
Proof. destruct l; [left; reflexivity|right; eexists; reflexivity]. Qed.
Theorem idle_throws num n ss dir rank s : campaign n ss dir -> idle ss rank -> arranged (rows_of num ss) rank s ->
  exists data l, load_traces dir (static_settings n) = Ok data /\ static_times num data rank n = Ok l /\ Forall (fun kv => snd kv = zero64) l /\
    speedups l (opt_time s, zero64) = Throw.
Proof.
  intros CP I [P _]. rewrite (idle_rows num rank ss I) in P. apply Permutation_nil in P. subst s.
  destruct (loaded n ss dir CP) as (ts & _ & L & _). exists (concat_tables (map table_of ts)).
  assert (T : forall j, execution_time num (concat_tables (map table_of ts)) rank ($"Static," ++ print_Z j) = Ok zero64).
  { intros j. destruct (reported num n ss dir rank j CP) as (data & l & L2 & E & PL). rewrite L in L2. assert (D : data = concat_tables (map table_of ts)) by congruence. subst data.
    rewrite (idle_times num rank _ ss I) in PL. apply Permutation_sym, Permutation_nil in PL. subst l. exact E. }
  assert (M : forall js, map_all (fun j => let name := $"Static," ++ print_Z (Z.of_nat j) in let* t := execution_time num (concat_tables (map table_of ts)) rank name in Ok (name, t)) js
                = Ok (map (fun j => ($"Static," ++ print_Z (Z.of_nat j), zero64)) js)).
  { induction js as [|j js IH]; [reflexivity|]. cbn [map_all map]. cbv zeta. rewrite T. cbn [bind]. cbv zeta in IH. rewrite IH. reflexivity. }
  eexists. split; [exact L|]. split; [apply M|]. split; [apply Forall_map, Forall_forall; intros; reflexivity|].
  unfold speedups. destruct (best_outcome (map (fun j => ($"Static," ++ print_Z (Z.of_nat j), zero64)) (seq 0 n))) as [->|[best ->]]; [reflexivity|].
  cbn [bind]. destruct (find _ _) as [f|]; reflexivity.
Qed.

(** A model under which no time was recorded, whatever the static policies took. *)
Theorem zero_throws l x y : is_finite x = true -> is_finite y = true -> B2R x = 0 -> B2R y = 0 -> speedups l (x, y) = Throw.
Proof.
  intros FX FY VX VY. destruct (zero_add x FX) as [A B].
  assert (Z0 : rnd64 (B2R (add64 zero64 x) + B2R y) = 0) by (rewrite B, VX, VY, Rplus_0_r; apply round_0; typeclasses eauto).
  assert (S : eq64 (pair_sum (x, y)) zero64 = true).
  { unfold pair_sum. cbn [fst snd]. destruct (add64_spec (add64 zero64 x) y A FY) as [C D]; [rewrite Z0, Rabs_R0; apply bpow_gt_0|].
    unfold eq64. rewrite (Beqb_correct 53 1024 _ zero64 C eq_refl), D, Z0. apply Req_bool_true. reflexivity. }
  unfold speedups. destruct (best_outcome l) as [->|[best ->]]; [reflexivity|]. cbn [bind]. destruct (find _ l) as [f|]; [|reflexivity].
  unfold speedup. rewrite S. reflexivity.
Qed.
