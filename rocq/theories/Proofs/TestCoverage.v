(** The first outer iteration of the bundled test program. *)
From Coq Require Import ZArith Bool Ascii String Reals Lia Lra SpecFloat List.
From Flocq Require Import Core BinarySingleNaN.
From Verif Require Import Model.Base Model.Float Model.Decimal Model.DatasetM Model.ModelStringM Model.PolicyModelsM Model.ConfigM Model.RuntimeM Model.TestM
  Spec.DatasetSpec Spec.DatasetClient Spec.PolicyModelsSpec Spec.TreeSpec Spec.ForestSpec Spec.RuntimeSpec Spec.TimerSpec
  Proofs.TreeFacts Proofs.FloatFacts Proofs.FloatConv Proofs.EmaBounds Proofs.TimerFacts Proofs.RuntimeFacts Proofs.RuntimeOps Proofs.RuntimeCreate Proofs.RuntimeWatch Proofs.RuntimeLearn Proofs.PolicyModelsFacts
  Proofs.SafeSteps Proofs.KokkosMeasured Proofs.RuntimeRecords Proofs.RuntimeClient Proofs.TestProgram Proofs.TestVerdict Proofs.Separated Spec.SafeClient.
Import ListNotations.
Open Scope Z_scope.

Section Coverage.
Variable P : platform.
Variable c : config.
Variable files : list (bytes * bytes).
Variable started ended : nat -> Z * Z.
Variable D : nat -> draws.
Variable init : nat -> nat -> f64.
Hypothesis HS : sorter_ok (p_sort P).
Hypothesis HP : picker_ok (p_pick P).
Hypothesis PL : plain c.
Hypothesis DO : forall j, draws_ok (D j).
Hypothesis GP : cf_global_period c = 0.
Hypothesis RP : cf_region_period c = 0.

(** ** Nothing is trained *)

Definition young (m : model) : Prop := exists n t e, m = MTree n true t (Some e).
Lemma young_trainable m : young m -> m_trainable m = true.
Proof. intros (n & t & e & ->). reflexivity. Qed.

Definition steady (w : world) : Prop := w_config w = c /\ exists R, nth_error (w_regions w) 0 = Some R /\ young (r_model R) /\ r_min_training R = 0.

Lemma steady_region w R : w_config w = c -> nth_error (w_regions w) 0 <> None -> young (r_model R) -> r_min_training R = 0 -> steady (set_region w 0 R).
Proof.
  intros C N T M. split; [exact C|]. exists R. split; [|auto]. cbn [set_region w_regions]. apply nth_set_same. apply nth_error_Some. exact N.
Qed.
Lemma steady_nth w : steady w -> nth_error (w_regions w) 0 <> None.
Proof. intros (_ & R & E & _). congruence. Qed.

Lemma steady_context w p cx : steady w -> steady (set_context w p cx).
Proof.
  intros (C & R & E & T & M). unfold set_context. destruct (nth_error (w_regions w) (fst p)) as [Rp|] eqn:EP; [|split; eauto].
  destruct p as [[|i] [|k]]; cbn [fst snd] in *; try (apply steady_region; [exact C|congruence| |]; rewrite E in EP; injection EP as <-; assumption);
    (split; [exact C|]; exists R; split; [|auto]; cbn [set_region w_regions]; rewrite nth_set_nth_neq by lia; exact E).
Qed.

Lemma steady_begin w b w' x : steady w -> step P w (OpBegin 0 false b) = Ok (w', x) -> steady w'.
Proof.
  intros S H. cbn [step] in H. apply bind_inv in H as ([w1 p] & H & E). injection E as <- <-. unfold begin_context in H.
  apply bind_inv in H as (R & G & H). destruct (r_idx _ =? idx_max); [discriminate H|]. apply bind_inv in H as (cx & EC & H). injection H as <- <-.
  apply get_region_ok in G as [G _]. apply steady_context. destruct S as (C & R0 & E0 & T & M). rewrite E0 in G. injection G as ->.
  apply steady_region; [exact C|congruence|exact T|exact M].
Qed.

Lemma steady_feature w p y w' x : steady w -> step P w (OpSetFeature 0 p y) = Ok (w', x) -> steady w'.
Proof.
  intros S H. cbn [step] in H. apply bind_inv in H as (? & _ & H). apply bind_inv in H as (q & _ & H). apply bind_inv in H as (w1 & H & E). injection E as <- <-.
  unfold set_feature in H. apply bind_inv in H as (cx & EC & H). injection H as <-. apply steady_context. exact S.
Qed.

Lemma asked_young d m y k m' : m_get_index P d m y = Ok (k, m') -> young m -> young m'.
Proof.
  intros E (n & t & e & ->). cbn [m_get_index negb] in E. apply bind_inv in E as ([k' e'] & _ & E). injection E as <- <-. exists n, t, e'. reflexivity.
Qed.

Lemma steady_policy w p d w' x : steady w -> step P w (OpGetPolicy 0 p d) = Ok (w', x) -> steady w'.
Proof.
  intros S H. cbn [step] in H. apply bind_inv in H as (q & _ & H). apply bind_inv in H as ([w1 k] & H & E). injection E as <- <-.
  unfold get_policy_index in H. apply bind_inv in H as (R & G & H). apply bind_inv in H as (cx & _ & H). apply bind_inv in H as ([ch m] & EM & H).
  apply bind_inv in H as (w2 & T & H). apply bind_inv in H as (c' & EC & H). injection H as <- <-. apply steady_context.
  assert (RW : w_regions w2 = w_regions w /\ w_config w2 = w_config w).
  { unfold trace_policy in T. destruct (negb _); [injection T as <-; auto|]. apply bind_inv in T as (fs & _ & T). injection T as <-. auto. }
  destruct RW as [R1 R2]. apply get_region_ok in G as [G _]. destruct S as (C & R0 & E0 & TR & M). rewrite E0 in G. injection G as ->.
  apply steady_region; [congruence|rewrite R1; congruence| |exact M]. cbn [with_model r_model]. exact (asked_young _ _ _ _ _ EM TR).
Qed.

Lemma steady_collect w x w' : steady w -> collect_context P w 0 (0%nat, Sync) x = Ok w' -> steady w'.
Proof.
  intros (C & R0 & E0 & TR & M) H. unfold collect_context in H. apply bind_inv in H as (R & G & H). apply get_region_ok in G as [G AL]. rewrite E0 in G. injection G as ->.
  apply bind_inv in H as (cx & _ & H). apply bind_inv in H as (R1 & E1 & H).
  assert (K : young (r_model R1) /\ r_min_training R1 = 0).
  { destruct (truthy (cf_trace_csv (w_config w))); cbn [with_trace r_model] in E1; (destruct (truthy (cf_persistent (w_config w)) || m_trainable (r_model R)); [apply bind_inv in E1 as (d & _ & E1)|]; injection E1 as <-; split; assumption). }
  destruct K as [K1 K2]. apply bind_inv in H as (w2 & E2 & H). cbn [is_sync_of fst snd Nat.eqb] in H. 
  assert (S2 : steady (count_execution (set_region w 0 R1))).
  { destruct (steady_region w R1 C ltac:(congruence) K1 K2) as (A1 & R2 & A2 & A3). split; [exact A1|]. exists R2. auto. }
  assert (w2 = count_execution (set_region w 0 R1)) as ->.
  { clear H. revert S2 E2. generalize (count_execution (set_region w 0 R1)) as v. intros v (VC & Rv & EV & VT & VM) E2. unfold auto_train in E2. apply bind_inv in E2 as (R2 & G & E2). apply get_region_ok in G as [G _].
    rewrite EV in G. injection G as ->. rewrite (young_trainable _ VT), VC, GP, RP, VM in E2. cbn in E2. injection E2 as <-. reflexivity. }
  change (is_sync_of 0 (0%nat, Sync)) with true in H. cbn [bind] in H. apply bind_inv in H as (R2 & G & H). injection H as <-. destruct S2 as (A1 & R3 & A2 & A3 & A4).
  apply get_region_ok in G as [G _]. rewrite A2 in G. injection G as ->. apply steady_region; [exact A1|congruence|exact A3|exact A4].
Qed.

Lemma steady_end w e w' x : steady w -> step P w (OpEnd 0 (Some (0%nat, Sync)) e None) = Ok (w', x) -> steady w'.
Proof.
  intros S H. cbn [step] in H. apply bind_inv in H as (? & _ & H). cbn [resolve bind] in H. apply bind_inv in H as (w1 & H & E). injection E as <- <-.
  unfold end_context in H. apply bind_inv in H as (cx & _ & H). change (is_sync_of 0 (0%nat, Sync)) with true in H. cbv iota zeta in H.
  apply bind_inv in H as ([m|] & _ & H); [|discriminate H]. eapply steady_collect; [|exact H]. apply steady_context. exact S.
Qed.

Lemma steady_iteration xs : forall j w w' ys, steady w -> run P w (named_iteration started ended D j xs) = Ok (w', ys) -> steady w'.
Proof.
  induction xs as [|x xs IH]; intros j w w' ys S H; cbn [named_iteration] in H; [cbn [run] in H; injection H as <- <-; exact S|].
  apply run_app in H as (v & y1 & y2 & A & B & ->). eapply IH; [|exact B]. clear B IH. unfold named_execution in A. cbn [run] in A.
  apply bind_inv in A as ([w1 x1] & E1 & A). apply bind_inv in A as ([u1 z1] & A & X1). apply bind_inv in A as ([w2 x2] & E2 & A). apply bind_inv in A as ([u2 z2] & A & X2).
  apply bind_inv in A as ([w3 x3] & E3 & A). apply bind_inv in A as ([u3 z3] & A & X3). apply bind_inv in A as ([w4 x4] & E4 & A). cbn [bind] in A.
  injection A as <- <-. injection X3 as <- <-. injection X2 as <- <-. injection X1 as <- <-.
  eapply steady_end; [|exact E4]. eapply steady_policy; [|exact E3]. eapply steady_feature; [|exact E2]. eapply steady_begin; [|exact E1]. exact S.
Qed.

(** ** The answers *)

Lemma test_created w x : step P (start_world c files) (test_region init) = Ok (w, x) -> x = GotRegion 0 /\ steady w /\
  exists R, nth_error (w_regions w) 0 = Some R /\ exploring (r_model R) (MRoundRobin 4 (-1)).
Proof.
  intros H. cbn [step test_region] in H. apply bind_inv in H as ([w1 r] & H & E). injection E as <- <-.
  destruct (new_region_empty P _ _ _ _ _ _ _ _ _ _ H (test_starts_empty c PL)) as (mn0 & ps0 & mn & ps & info' & m0 & m1 & m & R & EP & ER & EC & EL & EM & -> & -> & ->).
  split; [reflexivity|]. change (parse_policy_model test_text = Ok (mn0, ps0)) in EP. rewrite parsed_test in EP. injection EP as <- <-.
  assert (EQ : mn = $"DecisionTree" /\ ps = [($"max_depth", $"3")]).
  { unfold resolve_static_region in ER. change (bytes_eqb ($"DecisionTree") ($"StaticRegion")) with false in ER. cbv iota in ER. injection ER as <- <- _. auto. }
  destruct EQ as [-> ->]. unfold load_models in EL. cbn [bind] in EL. change (param_find ($"load") [($"max_depth", $"3")]) with (@None bytes) in EL. cbv iota in EL. injection EL as <-.
  assert (m = m0) by (apply EM; discriminate). subst m0. clear EM.
  destruct (created_exploring P ($"DecisionTree") _ _ _ _ _ (or_introl eq_refl) EC) as (e & XE & CE).
  assert (e = MRoundRobin 4 (-1)) as -> by (vm_compute in CE; injection CE as <-; reflexivity).
  split.
  - split; [reflexivity|]. eexists. split; [reflexivity|]. cbn [r_model r_min_training]. split; [|reflexivity]. destruct XE as [(n & t & ->)|(n & f & ->)]; [exists n, t, (MRoundRobin 4 (-1)); reflexivity|]. vm_compute in EC. discriminate EC.
  - eexists. split; [reflexivity|exact XE].
Qed.

Lemma same_answers l : forall j ys, answers (test_iteration started ended D j l) ys 0 = answers (named_iteration started ended D j l) ys 0.
Proof.
  induction l as [|x l IH]; intros j ys; [reflexivity|]. cbn [test_iteration named_iteration test_execution named_execution app].
  destruct ys as [|y1 [|y2 [|y3 [|y4 ys]]]]; try reflexivity. cbn [answers]. rewrite IH. reflexivity.
Qed.

Definition first_calls : list op := test_region init :: test_iteration started ended D 0 test_features.
Definition in_turn : list Z := map (fun k => Z.of_nat k mod 4) (seq 0 64).

Lemma turns calls l e : ask P (MRoundRobin 4 (-1)) calls = Ok (l, e) -> List.length l = 64%nat -> l = in_turn.
Proof.
  intros AN LA. destruct (round_robin_answers P 1 4 init ltac:(lia)) as (m & CM & RR). assert (m = MRoundRobin 4 (-1)) as -> by (vm_compute in CM; injection CM as <-; reflexivity).
  destruct (RR calls) as (m' & RR'). rewrite AN in RR'. injection RR' as RR' _. rewrite RR' in LA |- *. rewrite map_length, seq_length in LA. rewrite LA. reflexivity.
Qed.

Lemma first_iteration w xs : run P (start_world c files) first_calls = Ok (w, xs) ->
  answers first_calls xs 0 = in_turn /\
  exists R, nth_error (w_regions w) 0 = Some R /\ insert_all [] (iteration_data started ended 0 test_features in_turn) = Ok (r_dataset R).
Proof.
  intros H. unfold first_calls in *. cbn [run] in H. apply bind_inv in H as ([w0 x0] & E0 & H). apply bind_inv in H as ([w1 ys] & H & X). injection X as <- <-.
  destruct (test_created _ _ E0) as (-> & S0 & R0 & ER0 & EX0). destruct (iteration_run P started ended D _ _ _ _ _ H) as (N1 & LA & FO).
  assert (S1 := steady_iteration _ _ _ _ _ S0 N1). destruct S1 as (C1 & R & ER & TR & _). apply young_trainable in TR.
  destruct (explores P _ _ _ _ _ _ _ _ N1 ER0 EX0 ER TR) as (e' & _ & AN).
  assert (A : answers (test_iteration started ended D 0 test_features) ys 0 = in_turn).
  { rewrite same_answers in *. exact (turns _ _ _ AN LA). }
  change (answers (test_region init :: test_iteration started ended D 0 test_features) (GotRegion 0 :: ys) 0) with (answers (test_iteration started ended D 0 test_features) ys 0).
  split; [exact A|]. exists R. split; [exact ER|]. rewrite A in FO.
  destruct (named_kinds started ended D DO test_features 0) as (K1 & K2 & _).
  destruct (client_dataset P c files (named_explore started ended D init) w1 (GotRegion 0 :: ys) 0 R Idle (iteration_data started ended 0 test_features in_turn)) as (log & k & _ & _ & _ & INS & _ & KK).
  - unfold named_explore. cbn [run]. rewrite E0. cbn [bind]. rewrite N1. reflexivity.
  - exact K2.
  - unfold followed, named_explore. cbn [combine fold_left]. exact (FO []).
  - exact ER.
  - intros nf nm np mt info yaml init0 IN. unfold named_explore in IN. cbn [combine] in IN. destruct IN as [IN|IN].
    + inversion IN; subst. exact (test_starts_empty c PL).
    + exfalso. apply in_combine_l in IN. rewrite Forall_forall in K1. exact (K1 _ IN).
  - specialize (KK ltac:(unfold keeps; rewrite TR; apply orb_true_r)). rewrite KK, firstn_all in INS. exact INS.
Qed.
Lemma first_runs : exists w xs, run P (start_world c files) first_calls = Ok (w, xs).
Proof.
  destruct (test_fails P c files started ended D init HS HP PL DO) as (w & xs & _ & _ & H & _).
  change (test_explore started ended D init) with (first_calls ++ [OpTrainAll 0 true]) in H. apply run_app in H as (v & y1 & _ & A & _). exists v, y1. exact A.
Qed.

Definition pair_eqb (a b : Z * Z) : bool := (fst a =? fst b) && (snd a =? snd b).
Lemma pairs_in_turn : forallb (fun f => forallb (fun p => Nat.eqb (List.length (filter (pair_eqb (f, p)) (combine test_features in_turn))) 4) [0; 1; 2; 3]) [0; 1; 2; 3] = true.
Proof. vm_compute. reflexivity. Qed.
Lemma in_four f : 0 <= f < 4 -> In f [0; 1; 2; 3].
Proof. intros H. cbn. lia. Qed.
Lemma pair_tried f p : 0 <= f < 4 -> 0 <= p < 4 -> List.length (filter (pair_eqb (f, p)) (combine test_features in_turn)) = 4%nat.
Proof.
  intros HF HQ. assert (A := pairs_in_turn). rewrite forallb_forall in A. specialize (A f (in_four f HF)). rewrite forallb_forall in A. specialize (A p (in_four p HQ)).
  apply Nat.eqb_eq in A. exact A.
Qed.
Lemma pair_occurs f p : 0 <= f < 4 -> 0 <= p < 4 -> exists i, nth_error (combine test_features in_turn) i = Some (f, p).
Proof.
  intros HF HQ. assert (A := pair_tried f p HF HQ). destruct (filter (pair_eqb (f, p)) (combine test_features in_turn)) as [|[a b] l] eqn:E; [discriminate A|].
  assert (I : In (a, b) (filter (pair_eqb (f, p)) (combine test_features in_turn))) by (rewrite E; left; reflexivity). apply filter_In in I as [I Q].
  apply andb_prop in Q as [Q1 Q2]. apply Z.eqb_eq in Q1, Q2. cbn [fst snd] in Q1, Q2. subst a b. apply In_nth_error. exact I.
Qed.
(** ** What the measurements say *)

Lemma iteration_data_in l : forall j ks m, In m (iteration_data started ended j l ks) <->
  exists i x k, nth_error (combine l ks) i = Some (x, k) /\ m = ([f32_of_Z x], k, sub64 (clock_seconds (ended (j + i))) (clock_seconds (started (j + i)))).
Proof.
  induction l as [|x l IH]; intros j ks m; cbn [iteration_data combine]; [split; [intros []|intros ([|i] & ? & ? & A & _); discriminate A]|].
  destruct ks as [|k ks]; [split; [intros []|intros ([|i] & ? & ? & A & _); discriminate A]|]. cbn [In]. rewrite IH. split.
  - intros [<-|(i & y & q & A & ->)]; [exists 0%nat, x, k; rewrite Nat.add_0_r; split; reflexivity|]. exists (S i), y, q. rewrite Nat.add_succ_r. split; [exact A|reflexivity].
  - intros ([|i] & y & q & A & ->); cbn [nth_error] in A.
    + injection A as <- <-. left. rewrite Nat.add_0_r. reflexivity.
    + right. exists i, y, q. rewrite Nat.add_succ_r. split; [exact A|reflexivity].
Qed.

Lemma iteration_metrics f l ks q m : small_feature f -> Forall small_feature l -> In m (metrics_for [f32_of_Z f] q (iteration_data started ended 0 l ks)) ->
  exists i, nth_error (combine l ks) i = Some (f, q) /\ m = sub64 (clock_seconds (ended i)) (clock_seconds (started i)).
Proof.
  intros SF SL I. unfold metrics_for in I. apply in_map_iff in I as (x & <- & I). apply filter_In in I as [I Q]. apply iteration_data_in in I as (i & y & k & N & ->).
  unfold same_key in Q. cbn [m_features m_policy fst snd same_features] in Q. apply andb_prop in Q as [Q1 Q2]. apply Z.eqb_eq in Q2 as <-. rewrite andb_true_r in Q1.
  assert (SY : small_feature y). { rewrite Forall_forall in SL. apply SL. apply nth_error_In in N. apply in_combine_l in N. exact N. }
  assert (f = y) as <-.
  { assert (BF : forall z, small_feature z -> is_finite (f32_of_Z z) = true /\ B2R (f32_of_Z z) = IZR z) by (intros z [->|[->|[->| ->]]]; apply f32_of_Z_spec; lia).
    destruct (BF f SF) as [F1 V1]. destruct (BF y SY) as [F2 V2]. rewrite Beqb_correct, V1, V2 in Q1 by assumption.
    destruct (Req_dec (IZR f) (IZR y)) as [E|NE]; [apply eq_IZR; exact E|]. rewrite Req_bool_false in Q1 by exact NE. discriminate Q1. }
  exists i. split; [exact N|reflexivity].
Qed.

Lemma small_in f : 0 <= f < 4 -> small_feature f.
Proof. intros H. unfold small_feature. lia. Qed.

Lemma turn_pairs_length : List.length (combine test_features in_turn) = 64%nat.
Proof. reflexivity. Qed.

Lemma data_knows w xs k : run P (start_world c files) first_calls = Ok (w, xs) -> 0 <= k <= 52 ->
  (forall j, (j < 64)%nat -> reading k (started j) /\ reading k (ended j) /\ nanoseconds (started j) <= nanoseconds (ended j)) ->
  (forall i j f p, nth_error (combine test_features (answers first_calls xs 0)) i = Some (f, f) ->
     nth_error (combine test_features (answers first_calls xs 0)) j = Some (f, p) -> p <> f ->
     (elapsed (started i) (ended i) + 2 * clock_error k < elapsed (started j) (ended j))%R) ->
  exists R, nth_error (w_regions w) 0 = Some R /\ forall f, 0 <= f < 4 -> best_policy_for [f32_of_Z f] (ds_to_vector (r_dataset R)) f.
Proof.
  intros H K RD SEP. destruct (first_iteration _ _ H) as (A & R & ER & INS). rewrite A in SEP. exists R. split; [exact ER|]. intros f HF.
  assert (SMALL := test_features_small). assert (SF := small_in f HF).
  apply (separated_best (iteration_data started ended 0 test_features in_turn)).
  - apply Forall_forall. intros m I. apply iteration_data_in in I as (i & y & q & N & ->). unfold no_nan_features. cbn [m_features fst]. constructor; [|constructor].
    rewrite Forall_forall in SMALL. apply nth_error_In in N. apply in_combine_l in N. apply (small_number y (SMALL y N)).
  - exact INS.
  - constructor; [|constructor]. apply (small_number f SF).
  - intros q m I. destruct (iteration_metrics f _ _ q m SF SMALL I) as (i & N & ->). assert (LT : (i < 64)%nat) by (rewrite <- turn_pairs_length; apply nth_error_Some; congruence).
    destruct (RD i LT) as (R1 & R2 & R3). exact (time_halvable k _ _ R1 R2 K R3).
  - destruct (pair_occurs f f HF HF) as (i & N). intros E.
    assert (I : In (sub64 (clock_seconds (ended i)) (clock_seconds (started i))) (metrics_for [f32_of_Z f] f (iteration_data started ended 0 test_features in_turn))).
    { unfold metrics_for. apply in_map_iff. exists ([f32_of_Z f], f, sub64 (clock_seconds (ended i)) (clock_seconds (started i))). split; [reflexivity|]. apply filter_In. split.
      - apply iteration_data_in. exists i, f, f. split; [exact N|reflexivity].
      - unfold same_key. cbn [m_features m_policy fst snd same_features]. rewrite Z.eqb_refl, !andb_true_r. destruct SF as [->|[->|[->| ->]]]; reflexivity. }
    rewrite E in I. exact I.
  - intros q m m' NQ I I'. destruct (iteration_metrics f _ _ f m SF SMALL I) as (i & N & ->). destruct (iteration_metrics f _ _ q m' SF SMALL I') as (j & N' & ->).
    assert (X := SEP i j f q N N' NQ).
    assert (LI : (i < 64)%nat) by (rewrite <- turn_pairs_length; apply nth_error_Some; congruence). assert (LJ : (j < 64)%nat) by (rewrite <- turn_pairs_length; apply nth_error_Some; congruence).
    destruct (RD i LI) as (A1 & A2 & A3). destruct (RD j LJ) as (B1 & B2 & B3).
    destruct (time_spec k _ _ A1 A2 K A3) as (_ & _ & EA). destruct (time_spec k _ _ B1 B2 K B3) as (_ & _ & EB). apply Rabs_le_inv in EA. apply Rabs_le_inv in EB. lra.
Qed.
Lemma all_pairs_tried : exists w xs, run P (start_world c files) first_calls = Ok (w, xs) /\ answers first_calls xs 0 = map (fun j => Z.of_nat j mod 4) (seq 0 64) /\
  forall f p, 0 <= f < 4 -> 0 <= p < 4 -> List.length (filter (fun x => (f =? fst x) && (p =? snd x)) (combine test_features (answers first_calls xs 0))) = 4%nat.
Proof.
  destruct first_runs as (w & xs & H). exists w, xs. destruct (first_iteration _ _ H) as (-> & _). split; [exact H|]. split; [reflexivity|]. intros f p HF HQ. exact (pair_tried f p HF HQ).
Qed.

Lemma turn_pair i f p : nth_error (combine test_features in_turn) i = Some (f, p) -> (i < 64)%nat /\ f = nth i test_features 0 /\ p = Z.of_nat i mod 4.
Proof.
  intros N. assert (L : (i < 64)%nat) by (rewrite <- turn_pairs_length; apply nth_error_Some; congruence). split; [exact L|].
  assert (forallb (fun i => match nth_error (combine test_features in_turn) i with Some (a, b) => (a =? nth i test_features 0) && (b =? Z.of_nat i mod 4) | None => false end) (seq 0 64) = true) as A by (vm_compute; reflexivity).
  rewrite forallb_forall in A. specialize (A i ltac:(apply in_seq; lia)). rewrite N in A. apply andb_prop in A as [A B]. apply Z.eqb_eq in A, B. auto.
Qed.

Lemma knows_and_loses k : 0 <= k <= 52 ->
  (forall j, (j < 64)%nat -> reading k (started j) /\ reading k (ended j) /\ nanoseconds (started j) <= nanoseconds (ended j)) ->
  (forall i j, (i < 64)%nat -> (j < 64)%nat -> nth i test_features 0 = nth j test_features 0 -> nth i test_features 0 = Z.of_nat i mod 4 -> nth j test_features 0 <> Z.of_nat j mod 4 ->
     (elapsed (started i) (ended i) + 2 * clock_error k < elapsed (started j) (ended j))%R) ->
  exists w xs R w1 w2 ys, run P (start_world c files) first_calls = Ok (w, xs) /\ nth_error (w_regions w) 0 = Some R /\
    (forall f, 0 <= f < 4 -> best_policy_for [f32_of_Z f] (ds_to_vector (r_dataset R)) f) /\
    run P w [OpTrainAll 0 true] = Ok (w1, [Done]) /\ run P w1 (test_exploit started ended D) = Ok (w2, ys) /\
    matched test_features (answers (test_exploit started ended D) ys 0) = 16.
Proof.
  intros K RD SEP. destruct (test_fails P c files started ended D init HS HP PL DO) as (w1 & xs & w2 & ys & H & H2 & _ & M).
  change (test_explore started ended D init) with (first_calls ++ [OpTrainAll 0 true]) in H. apply run_app in H as (w & y1 & y2 & A & B & ->).
  destruct (data_knows w y1 k A K RD) as (R & ER & BEST).
  - intros i j f p NI NJ NE. destruct (first_iteration _ _ A) as (AN & _). rewrite AN in NI, NJ. destruct (turn_pair _ _ _ NI) as (LI & I1 & I2). destruct (turn_pair _ _ _ NJ) as (LJ & J1 & J2).
    apply (SEP i j LI LJ); congruence.
  - exists w, y1, R, w1, w2, ys. do 3 (split; [assumption|]). split; [|auto]. rewrite B. f_equal. f_equal. cbn [run] in B. apply bind_inv in B as ([v x] & E & B). cbn [bind] in B. injection B as _ <-.
    cbn [step] in E. apply bind_inv in E as (v' & _ & E). injection E as _ <-. reflexivity.
Qed.
End Coverage.

(** ** A clock for which an execution with the matching policy takes 10 ms and any other 50 ms *)

Definition clock_started (j : nat) : Z * Z := (Z.of_nat j, 0).
Definition clock_ended (j : nat) : Z * Z := (Z.of_nat j, if nth j test_features 0 =? Z.of_nat j mod 4 then 10000000 else 50000000).

Lemma clock_readings j : (j < 64)%nat -> reading 6 (clock_started j) /\ reading 6 (clock_ended j) /\ nanoseconds (clock_started j) <= nanoseconds (clock_ended j).
Proof.
  intros L. unfold reading, nanoseconds, clock_started, clock_ended. cbn [fst snd]. change (2 ^ 6) with 64. destruct (_ =? _); lia.
Qed.

Lemma clock_separates i j : nth i test_features 0 = Z.of_nat i mod 4 -> nth j test_features 0 <> Z.of_nat j mod 4 ->
  (elapsed (clock_started i) (clock_ended i) + 2 * clock_error 6 < elapsed (clock_started j) (clock_ended j))%R.
Proof.
  intros A B. assert (E := error_small 6 ltac:(lia)).
  unfold elapsed, nanoseconds, clock_started, clock_ended. cbn [fst snd]. apply Z.eqb_eq in A. apply Z.eqb_neq in B. rewrite A, B.
  replace (1000000000 * Z.of_nat i + 10000000 - (1000000000 * Z.of_nat i + 0)) with 10000000 by lia. replace (1000000000 * Z.of_nat j + 50000000 - (1000000000 * Z.of_nat j + 0)) with 50000000 by lia. lra.
Qed.

Lemma defaults_periods mpi mkdir open_trace c : apollo_instance mpi (fun _ => None) mkdir open_trace = Ok c -> cf_global_period c = 0 /\ cf_region_period c = 0.
Proof.
  intros H. assert (K : match read_config (fun _ => None) with Ok c => (cf_global_period c =? 0) && (cf_region_period c =? 0) | _ => false end = true) by (vm_compute; reflexivity).
  unfold apollo_instance, apollo_ctor in H. destruct (read_config (fun _ => None)) as [c0| | | |]; try discriminate K. cbn [bind] in H.
  destruct (check_config mpi c0); cbn [bind] in H; try discriminate H.
  destruct (create_dir mkdir _); cbn [bind] in H; try discriminate H.
  destruct (if truthy (cf_persistent c0) then _ else _); cbn [bind] in H; try discriminate H.
  destruct (if truthy (cf_trace_csv c0) then create_dir _ _ else _); cbn [bind] in H; try discriminate H.
  destruct (if truthy (cf_store_models c0) then _ else _); cbn [bind] in H; try discriminate H.
  destruct (truthy (cf_trace_csv c0) && negb open_trace); [discriminate H|]. injection H as <-. apply andb_prop in K as [K1 K2]. apply Z.eqb_eq in K1, K2. auto.
Qed.
