(** Lemmas on the bundled test program. *)
From Coq Require Import ZArith Bool Ascii String Lia Permutation List.
From Flocq Require Import BinarySingleNaN.
From Verif Require Import Model.Base Model.Decimal Model.Float Model.DatasetM Model.ModelStringM Model.PolicyModelsM Model.ConfigM Model.RuntimeM Model.TestM
  Spec.ModelStringSpec Spec.DatasetSpec Spec.DatasetClient Spec.TreeSpec Spec.ForestSpec Spec.RuntimeSpec
  Proofs.TreeFacts Proofs.ModelStringFacts Proofs.RuntimeFacts Proofs.RuntimeOps Proofs.RuntimeAccount Proofs.RuntimeRecords Proofs.RuntimeRegistry Proofs.RuntimeCreate Proofs.RuntimeTraining Proofs.RuntimeWatch
  Proofs.RuntimeLearn Proofs.RuntimeRange Proofs.RuntimeTraceDefects Proofs.KokkosTrain Proofs.KokkosMeasured Spec.SafeClient Proofs.SafeModels Proofs.SafeSteps Proofs.SafeExamples.
Import ListNotations.
Open Scope Z_scope.

(** The same calls with the context named. *)
Definition named_execution (started ended : nat -> Z * Z) (D : nat -> draws) (j : nat) (x : Z) : list op :=
  [OpBegin 0 false (started j); OpSetFeature 0 (Some (0%nat, Sync)) (f32_of_Z x); OpGetPolicy 0 (Some (0%nat, Sync)) (D j); OpEnd 0 (Some (0%nat, Sync)) (ended j) None].
Fixpoint named_iteration (started ended : nat -> Z * Z) (D : nat -> draws) (j : nat) (xs : list Z) : list op :=
  match xs with [] => [] | x :: rest => named_execution started ended D j x ++ named_iteration started ended D (S j) rest end.

Section Runs.
Variable P : platform.

Definition runs_sync (w : world) : Prop := resolve w 0 None = Ok (0%nat, Sync).

Lemma runs_sync_intro w R : nth_error (w_regions w) 0 = Some R -> r_alive R = true -> r_current R = Some (0%nat, Sync) -> runs_sync w.
Proof. intros E A C. unfold runs_sync, resolve, get_region. rewrite E, A. cbn. rewrite C. reflexivity. Qed.
Lemma runs_sync_elim w : runs_sync w -> exists R, nth_error (w_regions w) 0 = Some R /\ r_alive R = true /\ r_current R = Some (0%nat, Sync).
Proof.
  unfold runs_sync, resolve. intros H. apply bind_inv in H. destruct H as (R & G & H). apply get_region_ok in G. destruct G as [G A]. exists R. split; [exact G|]. split; [exact A|].
  destruct (r_current R) as [p|]; inversion H; reflexivity.
Qed.

Lemma begin_sync w now w' x : step P w (OpBegin 0 false now) = Ok (w', x) -> runs_sync w'.
Proof.
  cbn [step]. intros H. apply bind_inv in H. destruct H as ([w1 p] & H & E). inversion E; subst w1 x. clear E. unfold begin_context in H.
  apply bind_inv in H. destruct H as (R & G & H). destruct (r_idx _ =? idx_max); [discriminate H|]. apply bind_inv in H. destruct H as (c & EC & H). inversion H; subst.
  apply get_region_ok in G. destruct G as [G A]. assert (L : (0 < List.length (w_regions w))%nat) by (apply nth_error_Some; congruence).
  match goal with |- runs_sync (set_context ?v ?p ?c) => destruct (set_context_regions v p c 0 (with_idx (RuntimeM.with_current (with_sync R (mkContext [] (c_policy (r_sync R)) (c_idx (r_sync R)) (c_timer (r_sync R)))) (Some (0%nat, Sync))) (r_idx R + 1))) as (R' & E' & _ & A' & _ & _ & _ & _ & C' & _) end.
  - cbn [set_region w_regions]. rewrite nth_set_same by exact L. reflexivity.
  - intros X. assert (Y := eq_trans (eq_sym EC) X). discriminate Y.
  - eapply runs_sync_intro; [exact E'|rewrite A'; exact A|rewrite C'; reflexivity].
Qed.

Lemma set_feature_sync w p y w' x : runs_sync w -> step P w (OpSetFeature 0 p y) = Ok (w', x) -> runs_sync w'.
Proof.
  intros S H. cbn [step] in H. apply bind_inv in H. destruct H as (? & _ & H). apply bind_inv in H. destruct H as (q & _ & H). apply bind_inv in H. destruct H as (w1 & H & E). inversion E; subst w1 x. clear E.
  unfold set_feature in H. apply bind_inv in H. destruct H as (c & EC & H). inversion H; subst. apply runs_sync_elim in S. destruct S as (R & ER & A & C).
  destruct (set_context_regions w q (mkContext (c_features c ++ [y]) (c_policy c) (c_idx c) (c_timer c)) 0 R ER) as (R' & E' & _ & A' & _ & _ & _ & _ & C' & _); [rewrite EC; discriminate|].
  eapply runs_sync_intro; [exact E'|congruence|congruence].
Qed.

Lemma get_policy_sync w p D w' x : runs_sync w -> step P w (OpGetPolicy 0 p D) = Ok (w', x) -> runs_sync w' /\ exists k, x = GotPolicy k.
Proof.
  intros S H. cbn [step] in H. apply bind_inv in H. destruct H as (q & _ & H). apply bind_inv in H. destruct H as ([w1 k] & H & E). inversion E; subst w1 x. clear E. split; [|eauto].
  unfold get_policy_index in H. apply bind_inv in H. destruct H as (R & G & H). apply bind_inv in H. destruct H as (c & _ & H). apply bind_inv in H. destruct H as ([choice m] & _ & H).
  apply bind_inv in H. destruct H as (w1 & T & H). apply bind_inv in H. destruct H as (c' & EC & H). inversion H; subst. clear H.
  apply runs_sync_elim in S. destruct S as (R0 & ER & A & C). apply get_region_ok in G. destruct G as [G _]. rewrite ER in G. inversion G; subst R0. clear G.
  assert (RW : w_regions w1 = w_regions w). { unfold trace_policy in T. destruct (negb _); [inversion T; reflexivity|]. apply bind_inv in T. destruct T as (fs & _ & T). inversion T; reflexivity. }
  match type of EC with get_context ?v _ = _ => destruct (set_context_regions v q (mkContext (c_features c') k (c_idx c') (c_timer c')) 0 (with_model R m)) as (R' & E' & _ & A' & _ & _ & _ & _ & C' & _) end.
  - cbn [set_region w_regions]. rewrite nth_set_same by (rewrite RW; apply nth_error_Some; congruence). reflexivity.
  - rewrite EC. discriminate.
  - eapply runs_sync_intro; [exact E'|rewrite A'; exact A|rewrite C'; exact C].
Qed.

Lemma resolved w p : runs_sync w -> p = None \/ p = Some (0%nat, Sync) -> resolve w 0 p = Ok (0%nat, Sync).
Proof. intros S [->| ->]; [exact S|reflexivity]. Qed.

Variable started ended : nat -> Z * Z.
Variable D : nat -> draws.

(** The results of an execution. *)
Lemma execution_run32 w b d e (x : f32) w' ys : run P w [OpBegin 0 false b; OpSetFeature 0 None x; OpGetPolicy 0 None d; OpEnd 0 None e None] = Ok (w', ys) ->
  run P w [OpBegin 0 false b; OpSetFeature 0 (Some (0%nat, Sync)) x; OpGetPolicy 0 (Some (0%nat, Sync)) d; OpEnd 0 (Some (0%nat, Sync)) e None] = Ok (w', ys) /\
  exists k, ys = [GotContext (0%nat, Sync); Done; GotPolicy k; Done].
Proof.
  intros H. cbn [run] in H. apply bind_inv in H. destruct H as ([w1 x1] & E1 & H). apply bind_inv in H. destruct H as ([w5 y5] & H & X). inversion X; subst w5 ys. clear X.
  apply bind_inv in H. destruct H as ([w2 x2] & E2 & H). apply bind_inv in H. destruct H as ([w5 z5] & H & X). inversion X; subst w5 y5. clear X.
  apply bind_inv in H. destruct H as ([w3 x3] & E3 & H). apply bind_inv in H. destruct H as ([w5 v5] & H & X). inversion X; subst w5 z5. clear X.
  apply bind_inv in H. destruct H as ([w4 x4] & E4 & H). cbn [bind] in H. inversion H; subst w4 v5. clear H.
  assert (S1 := begin_sync _ _ _ _ E1). assert (S2 := set_feature_sync _ _ _ _ _ S1 E2). destruct (get_policy_sync _ _ _ _ _ S2 E3) as [S3 (k & ->)].
  assert (X1 := step_shape _ _ _ _ _ E1). cbn [shape] in X1. subst x1.
  assert (N2 : step P w1 (OpSetFeature 0 (Some (0%nat, Sync)) x) = Ok (w2, x2)) by (rewrite <- E2; cbn [step]; rewrite S1; reflexivity).
  assert (N3 : step P w2 (OpGetPolicy 0 (Some (0%nat, Sync)) d) = Ok (w3, GotPolicy k)) by (rewrite <- E3; cbn [step]; rewrite S2; reflexivity).
  assert (N4 : step P w3 (OpEnd 0 (Some (0%nat, Sync)) e None) = Ok (w', x4)) by (rewrite <- E4; cbn [step]; rewrite S3; reflexivity).
  split.
  - cbn [run]. rewrite E1. cbn [bind]. rewrite N2. cbn [bind]. rewrite N3. cbn [bind]. rewrite N4. reflexivity.
  - exists k. clear E3 E4 N3. assert (x2 = Done).
    { cbn [step] in N2. apply bind_inv in N2. destruct N2 as (? & _ & N2). cbn [resolve bind] in N2. apply bind_inv in N2. destruct N2 as (? & _ & N2). inversion N2; reflexivity. }
    assert (x4 = Done).
    { cbn [step] in N4. apply bind_inv in N4. destruct N4 as (? & _ & N4). cbn [resolve bind] in N4. apply bind_inv in N4. destruct N4 as (? & _ & N4). inversion N4; reflexivity. }
    subst. reflexivity.
Qed.

Lemma execution_run w j x w' ys : run P w (test_execution started ended D j x) = Ok (w', ys) ->
  run P w (named_execution started ended D j x) = Ok (w', ys) /\ exists k, ys = [GotContext (0%nat, Sync); Done; GotPolicy k; Done].
Proof. apply execution_run32. Qed.

Lemma run_app a b w w' ys : run P w (a ++ b) = Ok (w', ys) -> exists v y1 y2, run P w a = Ok (v, y1) /\ run P v b = Ok (w', y2) /\ ys = y1 ++ y2.
Proof.
  revert w ys. induction a as [|o a IH]; cbn [app run]; intros w ys H; [eauto 6|].
  apply bind_inv in H. destruct H as ([w1 x] & E & H). apply bind_inv in H. destruct H as ([w2 zs] & H & X). inversion X; subst. destruct (IH _ _ H) as (v & y1 & y2 & A & B & ->).
  exists v, (x :: y1), y2. rewrite E. cbn [bind]. rewrite A. auto.
Qed.
Lemma run_join a b w v y1 w' y2 : run P w a = Ok (v, y1) -> run P v b = Ok (w', y2) -> run P w (a ++ b) = Ok (w', y1 ++ y2).
Proof.
  revert w y1. induction a as [|o a IH]; cbn [app run]; intros w y1 H K; [inversion H; subst; exact K|].
  apply bind_inv in H. destruct H as ([w1 x] & E & H). apply bind_inv in H. destruct H as ([w2 zs] & H & X). inversion X; subst. rewrite E. cbn [bind]. rewrite (IH _ _ H K). reflexivity.
Qed.

(** The measurements of an iteration. *)
Fixpoint iteration_data (j : nat) (xs ks : list Z) : list meas :=
  match xs, ks with
  | x :: xs, k :: ks => ([f32_of_Z x], k, sub64 (clock_seconds (ended j)) (clock_seconds (started j))) :: iteration_data (S j) xs ks
  | _, _ => []
  end.
Lemma iteration_data_length xs : forall j ks, List.length ks = List.length xs -> List.length (iteration_data j xs ks) = List.length xs.
Proof. induction xs as [|x xs IH]; intros j [|k ks] L; cbn in *; try discriminate; auto. Qed.

Lemma iteration_run xs : forall j w w' ys, run P w (test_iteration started ended D j xs) = Ok (w', ys) ->
  run P w (named_iteration started ended D j xs) = Ok (w', ys) /\
  List.length (answers (test_iteration started ended D j xs) ys 0) = List.length xs /\
  forall ms, fold_left (follow 0) (combine (named_iteration started ended D j xs) ys) (Some (Idle, ms)) =
    Some (Idle, ms ++ iteration_data j xs (answers (test_iteration started ended D j xs) ys 0)).
Proof.
  induction xs as [|x xs IH]; intros j w w' ys H; cbn [test_iteration named_iteration] in *.
  - cbn in H. inversion H; subst. cbn. split; [reflexivity|]. split; [reflexivity|]. intros ms. rewrite app_nil_r. reflexivity.
  - apply run_app in H. destruct H as (v & y1 & y2 & A & B & ->). destruct (IH _ _ _ _ B) as (B1 & B2 & B3). apply execution_run in A. destruct A as (A1 & k & ->).
    split; [eapply run_join; eauto|]. split; [cbn; rewrite B2; reflexivity|]. intros ms. cbn -[iteration_data test_iteration named_iteration]. rewrite B3, <- app_assoc. reflexivity.
Qed.
End Runs.
