(** Regions with a measurement without features. *)
From Coq Require Import ZArith Bool Ascii String Lia List Sorted Permutation SpecFloat.
From Flocq Require Import BinarySingleNaN.
From Verif Require Import Model.Base Model.Float Model.DatasetM Model.TreeM Model.PolicyModelsM Model.ConfigM Model.RuntimeM
  Spec.DatasetSpec Spec.TreeSpec Spec.PolicyModelsSpec Spec.RuntimeSpec Spec.RaggedSpec
  Proofs.MapFacts Proofs.KeyOrder Proofs.DatasetFacts Proofs.BestPolicy Proofs.TreeFacts Proofs.TreeRagged
  Proofs.RuntimeSettled Proofs.RuntimeFacts Proofs.RuntimeAccount Proofs.RuntimePersist.
Import ListNotations.
Open Scope Z_scope.

Lemma same_features_ok f : forall g, same_features f g = true -> fok f.
Proof.
  intros g H. apply fok_Forall. revert g H. induction f as [|x f IH]; intros [|y g] H; cbn in H; try discriminate H; constructor.
  - apply andb_prop in H. destruct H as [H _]. destruct x; try reflexivity. discriminate H.
  - apply andb_prop in H. destruct H as [_ H]. exact (IH g H).
Qed.

Lemma le_both (x y : f64) : Bleb x y = true -> Bleb y x = true -> Beqb x y = true.
Proof.
  intros A B. assert (S := Bcompare_swap _ _ x y). unfold Bleb, Beqb, Bcompare in *. unfold SFleb, SFeqb in *.
  destruct (SFcompare (B2SF x) (B2SF y)) as [[| |]|]; try discriminate A; [reflexivity|]. cbn in S. rewrite S in B. discriminate B.
Qed.

Section Best.
Variable d : dataset.
Hypothesis W : wfd d.
Hypothesis N : forall f p m, In (f, p, m) (ds_to_vector d) -> is_nan m = false.

Lemma metrics_ok : Forall (fun e : key * f64 => is_nan (snd e) = false) d.
Proof. apply Forall_forall. intros [[f p] m] I. cbn. apply (N f p m). apply In_to_vector. exact I. Qed.

(** A best policy is among the responses. *)
Lemma best_response fs rs best f p : ds_find_min d [] [] = (fs, rs, best) -> best_policy_for f (ds_to_vector d) p -> In p rs.
Proof.
  intros E (g & m & I & S & MIN). destruct (find_min_spec d [] [] W metrics_ok) as (best' & E' & _ & FO & C & B). rewrite E' in E. injection E as <- <- <-. cbn [app].
  assert (X := C g p m I). apply existsb_exists in X. destruct X as (f0 & I0 & S0). apply in_map_iff in I0. destruct I0 as ([f0' [p0 m0]] & <- & I0). cbn [fst] in S0.
  destruct (B _ _ _ I0) as ((g0 & J0 & T0) & MIN0). assert (OF := same_features_ok _ _ S). assert (OG := same_features_ok _ _ S0). assert (O0 := same_features_ok _ _ T0).
  assert (OG0 : fok g0). { apply -> In_to_vector in J0. apply (wf_In_P _ _ _ _ W J0). }
  assert (SG0 : same_features f0' g = true) by (rewrite same_features_sym; assumption).
  destruct (MIN0 g p m I SG0) as [A1 A2].
  assert (SF : same_features f g0 = true) by (apply (same_features_trans f f0' g0); auto; apply (same_features_trans f g f0'); auto).
  destruct (MIN g0 p0 m0 J0 SF) as [B1 B2]. assert (Q := le_both _ _ A1 B1). assert (Q' := le_both _ _ B1 A1). assert (p = p0) by (specialize (A2 Q); specialize (B2 Q'); lia). subst p0.
  apply in_map_iff. exists (f0', (p, m0)). auto.
Qed.

Lemma first_row_empty fs rs best p m : ds_find_min d [] [] = (fs, rs, best) -> In ([], p, m) (ds_to_vector d) -> misfit fs /\ List.length rs = List.length fs.
Proof.
  intros E I. destruct (find_min_spec d [] [] W metrics_ok) as (best' & E' & S & _ & C & _). rewrite E' in E. injection E as <- <- <-. cbn [app].
  split; [|rewrite !map_length; reflexivity].
  assert (X := C _ _ _ I). apply existsb_exists in X. destruct X as (f0 & I0 & S0). destruct f0 as [|x f0]; [|discriminate S0].
  destruct (map fst best') as [|g l] eqn:EG; [destruct I0|]. assert (g = []) as ->.
  { destruct I0 as [X|I0]; [exact X|]. inversion S as [|? ? _ FA]; subst. rewrite Forall_forall in FA. destruct (FA _ I0) as (n & _ & L & _). cbn in L. lia. }
  exists [], l, [], 0%nat. split; [reflexivity|]. split; [left; reflexivity|]. split; [cbn; lia|]. intros x X. discriminate X.
Qed.

(** The rows are at most as many as the records, their policies among the recorded ones. *)
Lemma rows_few fs rs best : ds_find_min d [] [] = (fs, rs, best) ->
  (List.length fs <= List.length d)%nat /\ (List.length (nodup Z.eq_dec rs) <= List.length (nodup Z.eq_dec (map m_policy (ds_to_vector d))))%nat.
Proof.
  intros E. assert (LM : forall l b, (List.length (fold_left min_step l b) <= List.length b + List.length l)%nat).
  { induction l as [|[[f p] m] l IH]; intros b; cbn [fold_left List.length]; [lia|]. eapply Nat.le_trans; [apply IH|]. rewrite Nat.add_succ_r, <- Nat.add_succ_l. apply Nat.add_le_mono_r.
    unfold min_step. destruct (map_find vec_lt f b) as [[q n]|].
    - destruct (lt64 m n); rewrite ?length_update; apply Nat.le_succ_diag_r || apply le_S, le_n.
    - rewrite length_add. apply le_n. }
  unfold ds_find_min in E. injection E as <- <- <-. cbn [app]. split; [rewrite map_length; exact (LM d [])|].
  apply NoDup_incl_length; [apply NoDup_nodup|]. intros p IP. apply nodup_In. apply nodup_In in IP. apply in_map_iff in IP. destruct IP as ([f [q m]] & <- & IB). cbn [fst snd].
  destruct (find_min_policies_in d f q m [] [] W IB) as (f' & I'). apply in_map_iff. exists (f', q, m). auto.
Qed.
End Best.

Section Platform.
Variable P : platform.
Hypothesis SO : sorter_ok (p_sort P).

Lemma train_empty d np tr md e p0 m0 f g p q : wfd d -> (forall f p m, In (f, p, m) (ds_to_vector d) -> is_nan m = false) -> 0 < md ->
  In ([], p0, m0) (ds_to_vector d) -> best_policy_for f (ds_to_vector d) p -> best_policy_for g (ds_to_vector d) q -> p <> q ->
  ds_size d * (2 * Z.of_nat (List.length (nodup Z.eq_dec (map m_policy (ds_to_vector d)))) + 6) < 2 ^ 22 ->
  m_train P (MTree np tr (new_dtree md) e) d = UB.
Proof.
  intros W N MD I0 BF BG D K. cbn [m_train]. destruct (ds_find_min d [] []) as [[fs rs] best] eqn:E.
  destruct (first_row_empty d W N _ _ _ _ _ E I0) as [MF L]. destruct (rows_few d W _ _ _ E) as [LE LK].
  rewrite (train_misfit (p_sort P) md [] (new_dtree md) fs rs SO); [reflexivity|constructor|exact MD|exact L|exact MF| |].
  - exists p, q. split; [exact (best_response d W N _ _ _ _ _ E BF)|]. split; [exact (best_response d W N _ _ _ _ _ E BG)|exact D].
  - cbn [map List.concat app]. unfold ds_size in K. clear - K LE LK. apply inj_le in LE. apply inj_le in LK. set (a := Z.of_nat (List.length fs)) in *. set (b := Z.of_nat (List.length (nodup Z.eq_dec rs))) in *.
    set (A := Z.of_nat (List.length d)) in *. set (B := Z.of_nat (List.length (nodup Z.eq_dec (map m_policy (ds_to_vector d))))) in *. assert (0 <= a) by (unfold a; lia). assert (0 <= b) by (unfold b; lia). nia.
Qed.

Lemma region_train_empty c files os w xs r R np md e st force p0 m0 f g p q :
  run P (start_world c files) os = Ok (w, xs) -> forallb explicit os = true -> nth_error (w_regions w) r = Some R -> r_alive R = true ->
  r_model R = MTree np true (new_dtree md) e -> 0 < md -> cf_region_model c <> 0 -> cf_trace_best c = 0 ->
  (forall f p m, In (f, p, m) (ds_to_vector (r_dataset R)) -> is_nan m = false) ->
  In ([], p0, m0) (ds_to_vector (r_dataset R)) -> best_policy_for f (ds_to_vector (r_dataset R)) p -> best_policy_for g (ds_to_vector (r_dataset R)) q -> p <> q ->
  ds_size (r_dataset R) * (2 * Z.of_nat (List.length (nodup Z.eq_dec (map m_policy (ds_to_vector (r_dataset R))))) + 6) < 2 ^ 22 ->
  step P w (OpTrain r st false force) = UB.
Proof.
  intros H EX ER AL EM MD RM TB NN I0 BF BG D K. assert (W := saved_region_wf P _ _ _ _ _ _ _ H ER).
  destruct (inv_run P (start_world c files) eq_refl eq_refl eq_refl _ _ _ EX H) as (log & J). assert (C := i_config _ _ _ _ _ J). cbn in C.
  assert (TB' : cf_trace_best (w_config w) = 0) by (rewrite (same_config_field cf_trace_best _ _ (fun _ => eq_refl) C); exact TB).
  assert (RM' : cf_region_model (w_config w) <> 0) by (rewrite (same_config_field cf_region_model _ _ (fun _ => eq_refl) C); exact RM).
  assert (G : get_region w r = Ok R) by (unfold get_region; rewrite ER, AL; reflexivity).
  cbn [step]. unfold region_train. rewrite G. cbn [bind]. rewrite EM. cbn [m_trainable negb]. rewrite andb_false_r. cbn [bind]. unfold train_body. rewrite G. cbn [bind].
  assert (DS : 0 < ds_size (r_dataset R)). { destruct (r_dataset R); [destruct I0|]. unfold ds_size. cbn [List.length]. lia. }
  destruct (Z.leb_spec (ds_size (r_dataset R)) 0); [lia|]. unfold truthy at 1. destruct (Z.eqb_spec (cf_region_model (w_config w)) 0); [contradiction|]. cbn [negb].
  unfold trace_best, truthy. rewrite TB'. cbn [Z.eqb negb bind]. rewrite EM, (train_empty _ _ _ _ _ _ _ _ _ _ _ W NN MD I0 BF BG D K). reflexivity.
Qed.
End Platform.
