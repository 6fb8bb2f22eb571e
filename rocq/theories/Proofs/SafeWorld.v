(** Worlds in which every region can train, and the training itself. *)
From Coq Require Import ZArith Bool Ascii String Lia List.
From Flocq Require Import BinarySingleNaN.
From Verif Require Import Model.Base Model.Float Model.Decimal Model.DatasetM Model.ParserM Model.DatasetIO
  Model.PolicyNetM Model.ModelStringM Model.PolicyModelsM Model.ConfigM Model.RuntimeM
  Spec.DatasetSpec Spec.DatasetClient Spec.TreeSpec Spec.ForestSpec Spec.PolicyNetSpec Spec.RuntimeSpec Spec.SafeClient
  Proofs.TreeFacts Proofs.MapFacts Proofs.KeyOrder Proofs.DatasetFacts Proofs.BestPolicy Proofs.PolicyRange Proofs.RuntimeFacts Proofs.RuntimeTraceDefects Proofs.SafeModels.
Import ListNotations.
Open Scope Z_scope.

Lemma Forall_set_nth {A} (Q : A -> Prop) l n x : Forall Q l -> Q x -> Forall Q (set_nth l n x).
Proof. intros F H. revert n. induction F; intros [|n]; cbn; auto. Qed.

Lemma Forall_nth_error {A} (Q : A -> Prop) l n x : Forall Q l -> nth_error l n = Some x -> Q x.
Proof. intros F E. rewrite Forall_forall in F. apply F. eapply nth_error_In; eauto. Qed.

Lemma truthy_zero z : z = 0 -> truthy z = false.
Proof. intros ->. reflexivity. Qed.
Lemma truthy_nonzero z : truthy z = true <-> z <> 0.
Proof. unfold truthy. destruct (Z.eqb_spec z 0); split; intros H; auto; try discriminate; congruence. Qed.

Section World.
Variable P : platform.
Variable c : config.

(** Features a region can take. *)
Definition feat_ok (R : region) (fs : list f32) : Prop :=
  Z.of_nat (List.length fs) = r_num_features R /\ Forall (fun x => is_nan x = false) fs /\
  (cf_trace_policy c <> 0 \/ cf_trace_best c <> 0 -> Forall (fun x => ~ unprintable x) fs) /\
  (mentions_net (r_model_info R) -> Forall encodable fs).

(** The synchronous context: its policy is one of the region's, its timer a clock. *)
Definition sync_ok (n : Z) (x : context) : Prop := in_range n (c_policy x) /\ exists b e, c_timer x = Clock b e.

Record region_ok (R : region) : Prop := {
  ro_alive : r_alive R = true;
  ro_features : 0 <= r_num_features R;
  ro_policies : 1 <= r_num_policies R <= 1024;
  ro_good : good (r_num_policies R) (r_model R);
  ro_fine : fine (Z.to_nat (r_num_features R)) (r_model R);
  ro_net : with_net (r_model R) -> mentions_net (r_model_info R);
  ro_wf : wfd (r_dataset R);
  ro_data : data_in (r_num_policies R) (r_dataset R);
  ro_keys : Forall (fun e : key * f64 => feat_ok R (fst (fst e))) (r_dataset R);
  ro_sync : sync_ok (r_num_policies R) (r_sync R);
  ro_heap : forall k x, nth_error (r_heap R) k = Some (Some x) -> in_range (r_num_policies R) (c_policy x)
}.

Record sane (w : world) : Prop := {
  sn_config : w_config w = c;
  sn_nodup : NoDup (map snd (w_registry w));
  sn_registered : forall i, In i (map snd (w_registry w)) -> (i < List.length (w_regions w))%nat;
  sn_regions : Forall region_ok (w_regions w)
}.

(** The networks have been trained at most [b] times; the data sets have at most [s] entries. *)
Definition within (b : nat -> Z) (w : world) : Prop := forall i R, nth_error (w_regions w) i = Some R -> trainings (r_model R) <= b i.
Definition small (s : Z) (w : world) : Prop := forall i R, nth_error (w_regions w) i = Some R -> ds_size (r_dataset R) <= s.

Lemma sane_region w r R : sane w -> nth_error (w_regions w) r = Some R -> region_ok R.
Proof. intros S E. eapply Forall_nth_error; [apply S|exact E]. Qed.

Lemma sane_get w r R : sane w -> nth_error (w_regions w) r = Some R -> get_region w r = Ok R.
Proof. intros S E. unfold get_region. rewrite E, (ro_alive _ (sane_region _ _ _ S E)). reflexivity. Qed.

Lemma sane_set w r R : sane w -> region_ok R -> sane (set_region w r R).
Proof.
  intros [S1 S2 S3 S4] H. constructor; cbn; auto.
  - intros i I. rewrite set_nth_length. auto.
  - apply Forall_set_nth; auto.
Qed.

Lemma sane_files w f : sane w -> sane (set_files w f).
Proof. intros [S1 S2 S3 S4]. constructor; auto. Qed.

Lemma sane_count w : sane w -> sane (count_execution w).
Proof. intros [S1 S2 S3 S4]. constructor; auto. Qed.

Lemma within_set b w r R : within b w -> trainings (r_model R) <= b r -> within b (set_region w r R).
Proof.
  intros H HR i Ri E. cbn in E. rewrite nth_set_nth in E. destruct (Nat.eqb_spec i r) as [->|]; [|exact (H i Ri E)].
  destruct (nth_error (w_regions w) r); [inversion E; subst; exact HR|discriminate E].
Qed.

Lemma within_weaken b b' w : within b w -> (forall i, b i <= b' i) -> within b' w.
Proof. intros H L i R E. specialize (H i R E). specialize (L i). lia. Qed.

Lemma small_set s w r R : small s w -> ds_size (r_dataset R) <= s -> small s (set_region w r R).
Proof.
  intros H HR i Ri E. cbn in E. rewrite nth_set_nth in E. destruct (Nat.eqb_spec i r) as [->|]; [|exact (H i Ri E)].
  destruct (nth_error (w_regions w) r); [inversion E; subst; exact HR|discriminate E].
Qed.

(** ** Traces *)

Lemma trace_features_ok l : Forall (fun x => ~ unprintable x) l -> exists s, trace_features l = Ok s.
Proof.
  induction 1 as [|x l H F (s & IH)]; cbn [trace_features]; [eauto|].
  destruct (int_cases x) as [(z & ->)|E]; [|exfalso; apply H; apply unprintable_undefined; exact E].
  cbn [bind]. rewrite IH. cbn [bind]. eauto.
Qed.

Lemma trace_lines_ok (b : best_map) : Forall (fun e => Forall (fun x => ~ unprintable x) (fst e)) b -> exists s, trace_best_lines b = Ok s.
Proof.
  induction 1 as [|[f [p x]] b H F (s & IH)]; cbn [trace_best_lines]; [eauto|].
  destruct (trace_features_ok f H) as (fs & ->). cbn [bind]. rewrite IH. cbn [bind]. eauto.
Qed.

Lemma trace_best_ok w R step : sane w -> region_ok R -> exists w', trace_best w R step = Ok w' /\ sane w' /\ w_regions w' = w_regions w.
Proof.
  intros S H. unfold trace_best. rewrite (sn_config _ S). destruct (truthy (cf_trace_best c)) eqn:T; cbn [negb]; [|eauto].
  apply truthy_nonzero in T. cbn [ds_find_min].
  destruct (trace_lines_ok (fold_left min_step (r_dataset R) [])) as (s & ->).
  - apply Forall_forall. intros e I. assert (I' : In (fst e) (map fst (fold_left min_step (r_dataset R) []))) by (apply in_map; exact I).
    apply best_incl in I'. cbn [map app] in I'. apply in_map_iff in I' as (d & <- & I'). assert (K := ro_keys _ H). rewrite Forall_forall in K.
    destruct (K _ I') as (_ & _ & U & _). apply U. auto.
  - cbn [bind]. eexists. split; [reflexivity|]. split; [apply sane_files; exact S|reflexivity].
Qed.

(** ** Training *)

Lemma region_ok_model R m : region_ok R -> good (r_num_policies R) m -> fine (Z.to_nat (r_num_features R)) m -> (with_net m -> with_net (r_model R)) ->
  region_ok (with_model R m).
Proof. intros [A1 A2 A3 A4 A5 A6 A7 A8 A9 A10 A11] G F W. constructor; auto. Qed.

Hypothesis HS : sorter_ok (p_sort P).
Hypothesis HP : picker_ok (p_pick P).
Hypothesis PL : plain c.

Lemma store_model_ok w m path s : sane w -> m_store m = Ok s -> exists w', store_model w m path = Ok w' /\ sane w' /\ w_regions w' = w_regions w.
Proof.
  intros S E. unfold store_model. rewrite E. cbn [bind]. destruct s; eexists; (split; [reflexivity|]); split; auto using sane_files.
Qed.

Lemma train_body_ok b w r R step : sane w -> nth_error (w_regions w) r = Some R -> within b w -> small (2 ^ 24) w -> b r < int_max ->
  exists w', train_body P w r step = Ok w' /\ sane w' /\ within (fun i => if Nat.eqb i r then b i + 1 else b i) w' /\ small (2 ^ 24) w'.
Proof.
  intros S E WB SM BR. assert (OK := sane_region _ _ _ S E). unfold train_body. rewrite (sane_get _ _ _ S E). cbn [bind].
  assert (WK : within (fun i => if Nat.eqb i r then b i + 1 else b i) w).
  { eapply within_weaken; [exact WB|]. intros i. destruct (Nat.eqb i r); lia. }
  destruct (Z.leb_spec (ds_size (r_dataset R)) 0); [eauto 10|].
  rewrite (sn_config _ S). rewrite (proj2 (truthy_nonzero _) (pl_region _ PL)). cbn [negb].
  destruct (trace_best_ok w R step S OK) as (w1 & E1 & S1 & ER1). rewrite E1. cbn [bind].
  assert (K := ro_keys _ OK).
  destruct (train_fine P (r_num_policies R) (Z.to_nat (r_num_features R)) (r_model R) (r_dataset R) HS HP (ro_policies _ OK) (ro_good _ OK) (ro_fine _ OK))
    as (m & s & EM & ES & FM & TM & WM).
  - intros X. rewrite X in H. cbn in H. lia.
  - exact (SM r R E).
  - apply OK.
  - apply OK.
  - eapply Forall_impl; [|exact K]. intros e (L & N & _). split; [|exact N]. assert (0 <= r_num_features R) by apply OK. lia.
  - intros W. apply (ro_net _ OK) in W. eapply Forall_impl; [|exact K]. intros e (_ & _ & _ & N). auto.
  - specialize (WB r R E). lia.
  - rewrite EM. cbn [bind]. assert (ROM : region_ok (with_model R m)).
    { apply region_ok_model; auto. eapply train_in; [apply OK|apply OK|exact EM]. }
    assert (S2 : sane (set_region w1 r (with_model R m))) by (apply sane_set; auto).
    assert (W2 : within (fun i => if Nat.eqb i r then b i + 1 else b i) (set_region w1 r (with_model R m))).
    { apply within_set; [intros i Ri Ei; rewrite ER1 in Ei; exact (WK i Ri Ei)|]. rewrite Nat.eqb_refl. cbn. specialize (WB r R E). lia. }
    assert (M2 : small (2 ^ 24) (set_region w1 r (with_model R m))).
    { apply small_set; [intros i Ri Ei; rewrite ER1 in Ei; exact (SM i Ri Ei)|]. cbn. exact (SM r R E). }
    set (w2 := set_region w1 r (with_model R m)) in *. rewrite (sn_config _ S2), (truthy_zero _ (pl_retrain _ PL)).
    destruct (truthy (cf_store_models c)); [|eauto 10].
    destruct (store_model_ok w2 m (model_step_file c (w_rank w2) step (m_name m) (r_name R)) s S2 ES) as (w3 & E3 & S3 & ER3). rewrite E3. cbn [bind].
    destruct (store_model_ok w3 m (model_latest_file (w_config w3) (w_rank w3) (m_name m) (r_name R)) s S3 ES) as (w4 & E4 & S4 & ER4).
    exists w4. split; [exact E4|]. split; [exact S4|]. split; [intros i Ri Ei|intros i Ri Ei]; rewrite ER4, ER3 in Ei; [exact (W2 i Ri Ei)|exact (M2 i Ri Ei)].
Qed.

Lemma train_quietly_ok b w r R step : sane w -> nth_error (w_regions w) r = Some R -> within b w -> small (2 ^ 24) w -> b r < int_max ->
  exists w', train_quietly P w r step = Ok w' /\ sane w' /\ within (fun i => if Nat.eqb i r then b i + 1 else b i) w' /\ small (2 ^ 24) w'.
Proof.
  intros S E WB SM BR. unfold train_quietly. rewrite (sane_get _ _ _ S E). cbn [bind]. destruct (m_trainable (r_model R)); cbn [negb].
  - eapply train_body_ok; eauto.
  - exists w. split; [reflexivity|]. split; [exact S|]. split; [|exact SM]. eapply within_weaken; [exact WB|]. intros i. destruct (Nat.eqb i r); lia.
Qed.

Lemma same_length w w' Q : training P Q w w' -> List.length (w_regions w') = List.length (w_regions w).
Proof. intros [_ F]. eapply Forall2_length'; eauto. Qed.

(** Every region of a list without repetitions. *)
Lemma each_quietly_ok (st : world -> Z) (b : nat -> Z) : (forall i, b i + 1 <= int_max) -> forall rs w, sane w -> NoDup rs ->
  (forall i, In i rs -> (i < List.length (w_regions w))%nat) ->
  (forall i R, nth_error (w_regions w) i = Some R -> trainings (r_model R) <= b i + 1 /\ (In i rs -> trainings (r_model R) <= b i)) -> small (2 ^ 24) w ->
  exists w', each_region (fun w r => train_quietly P w r (st w)) w rs = Ok w' /\ sane w' /\ within (fun i => b i + 1) w' /\ small (2 ^ 24) w'.
Proof.
  intros HB. induction rs as [|r rs IH]; intros w S ND V WB SM; cbn [each_region].
  - exists w. split; [reflexivity|]. split; [exact S|]. split; [|exact SM]. intros i R E. apply (WB i R E).
  - inversion ND as [|? ? NI ND']; subst. destruct (nth_error (w_regions w) r) as [R|] eqn:E.
    2:{ apply nth_error_None in E. specialize (V r (or_introl eq_refl)). lia. }
    destruct (train_quietly_ok (fun i => if in_dec Nat.eq_dec i (r :: rs) then b i else b i + 1) w r R (st w) S E) as (w1 & E1 & S1 & W1 & M1).
    + intros i Ri Ei. destruct (in_dec Nat.eq_dec i (r :: rs)) as [I|I]; apply (WB i Ri Ei); auto.
    + exact SM.
    + specialize (HB r). destruct (in_dec Nat.eq_dec r (r :: rs)) as [|N]; [lia|]. exfalso. apply N. left. reflexivity.
    + rewrite E1. cbn [bind]. assert (T := train_quietly_training P (fun _ _ _ => True) _ _ _ _ E1 (fun _ _ _ => I)). apply IH; auto.
      * intros i Ii. rewrite (same_length _ _ _ T). apply V. right. exact Ii.
      * intros i Ri Ei. specialize (W1 i Ri Ei). cbn beta in W1. destruct (Nat.eqb_spec i r) as [->|N].
        -- destruct (in_dec Nat.eq_dec r (r :: rs)) as [_|N]; [|exfalso; apply N; left; reflexivity]. split; [lia|]. intros X. contradiction.
        -- destruct (in_dec Nat.eq_dec i (r :: rs)) as [X|X]; [split; [lia|]; intros _; exact W1|]. split; [lia|]. intros Y. exfalso. apply X. right. exact Y.
Qed.

Lemma auto_train_ok (b : nat -> Z) w r R : sane w -> nth_error (w_regions w) r = Some R -> within b w -> small (2 ^ 24) w -> (forall i, b i + 1 <= int_max) ->
  exists w', auto_train P w r = Ok w' /\ sane w' /\ within (fun i => b i + 1) w' /\ small (2 ^ 24) w'.
Proof.
  intros S E WB SM HB. unfold auto_train. rewrite (sane_get _ _ _ S E). cbn [bind].
  assert (WK : within (fun i => b i + 1) w) by (eapply within_weaken; [exact WB|]; intros; lia).
  assert (Q : forall st, exists w', train_quietly P w r st = Ok w' /\ sane w' /\ within (fun i => b i + 1) w' /\ small (2 ^ 24) w').
  { intros st. destruct (train_quietly_ok b w r R st S E WB SM) as (w' & E' & S' & W' & M'); [specialize (HB r); lia|].
    exists w'. split; [exact E'|]. split; [exact S'|]. split; [|exact M']. eapply within_weaken; [exact W'|]. intros i. cbn beta. destruct (Nat.eqb i r); lia. }
  destruct (m_trainable (r_model R)); cbn [negb]; [|eauto 10].
  destruct (truthy _ && _).
  - unfold train_all_by. rewrite (sn_config _ S), (truthy_zero _ (pl_collective _ PL)). unfold train_regions_by.
    rewrite (sn_config _ S), (truthy_zero _ (pl_single _ PL)).
    apply (each_quietly_ok (fun w => to_int (w_executions w)) b HB); [exact S|apply S|apply S| |exact SM].
    intros i Ri Ei. specialize (WB i Ri Ei). lia.
  - destruct (truthy _ && _); [apply Q|]. destruct (_ && _); [apply Q|]. eauto 10.
Qed.
End World.
