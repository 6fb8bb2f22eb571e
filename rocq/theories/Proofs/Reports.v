(** The traces of policies and of best policies. *)
From Coq Require Import ZArith Bool Ascii String Lia Sorted List.
From Flocq Require Import Core BinarySingleNaN.
From Verif Require Import Model.Base Model.Decimal Model.Float Model.DatasetM Model.ModelStringM Model.PolicyModelsM Model.ConfigM Model.RuntimeM
  Spec.DatasetSpec Spec.RuntimeSpec Spec.TraceSpec
  Proofs.TreeFacts Proofs.DecimalInt Proofs.ModelStringFacts Proofs.DatasetFacts Proofs.BestPolicy Proofs.RuntimeFacts Proofs.RuntimeSettled Proofs.RuntimeAccount Proofs.RuntimeRegistry Proofs.RuntimeData Proofs.RuntimeNames Proofs.RuntimeTraining
  Proofs.RuntimeTraceDefects Proofs.RuntimeFiles Proofs.RuntimeStored Proofs.RuntimeCollect Proofs.RuntimePersist Proofs.MpiTrace Proofs.KokkosTrain.
Import ListNotations.
Open Scope Z_scope.

Lemma contents_append path text f : contents path (file_append path text f) = contents path f ++ text.
Proof. unfold contents, file_append. rewrite find_write. reflexivity. Qed.

(** ** The trace of the policies *)

Lemma digits_slash s : Forall isdig s -> ~ In "/"%char s.
Proof. intros F I. rewrite Forall_forall in F. apply F in I. discriminate. Qed.
Lemma digit_slash z : ~ In "/"%char (print_Z z).
Proof.
  unfold print_Z. destruct (z <? 0).
  - intros [E|E]; [discriminate|]. revert E. apply digits_slash, print_nonneg_digits.
  - apply digits_slash, print_nonneg_digits.
Qed.
Lemma kept_field {A} (f : config -> A) c c' : (forall c, f (with_period c 0) = f c) -> with_period c' 0 = with_period c 0 -> f c' = f c.
Proof. intros E H. rewrite <- (E c), <- (E c'), H. reflexivity. Qed.

Lemma policies_apart c rank : ~ training_file c rank (policy_file rank).
Proof.
  assert (NS : ~ In "/"%char (policy_file rank)).
  { unfold policy_file. intros X. apply in_app_or in X. destruct X as [X|X]; [cbn in X; intuition discriminate|]. apply in_app_or in X. destruct X as [X|X]; [eapply digit_slash; eauto|cbn in X; intuition discriminate]. }
  assert (SL : forall a b, policy_file rank <> a ++ $"/" ++ b).
  { intros a b X. apply NS. rewrite X. apply in_or_app. right. left. reflexivity. }
  intros [(st & mn & nm & E)|[(mn & nm & E)|[(nm & E)|[(st & nm & E)|E]]]].
  - exact (SL _ _ E).
  - exact (SL _ _ E).
  - exact (SL _ _ E).
  - discriminate E.
  - exact (SL _ _ E).
Qed.

Section Platform.
Variable P : platform.

Lemma asks_or_not o : (exists r p D, o = OpGetPolicy r p D) \/ (forall r p D, o <> OpGetPolicy r p D).
Proof. destruct o; try (right; discriminate). left. eauto. Qed.

Lemma policy_trace_run os : forall w w' xs, run P w os = Ok (w', xs) ->
  (cf_trace_policy (w_config w) = 0 -> file_find (policy_file (w_rank w)) (w_files w') = file_find (policy_file (w_rank w)) (w_files w)) /\
  (cf_trace_policy (w_config w) <> 0 -> contents (policy_file (w_rank w)) (w_files w') = contents (policy_file (w_rank w)) (w_files w) ++ List.concat (policy_lines P w os)).
Proof.
  induction os as [|o os IH]; intros w w' xs H; cbn [run] in H.
  - inversion H; subst. split; [reflexivity|]. intros _. cbn. rewrite app_nil_r. reflexivity.
  - apply bind_inv in H. destruct H as ([w1 x] & E1 & H). apply bind_inv in H. destruct H as ([w2 ys] & E2 & H). inversion H; subst. clear H.
    destruct (IH _ _ _ E2) as [A B]. destruct (own_step P _ _ _ _ E1) as (C1 & R1 & _). rewrite R1 in A, B. rewrite (kept_field cf_trace_policy _ _ (fun _ => eq_refl) C1) in A, B.
    cbn [policy_lines]. rewrite E1. destruct (asks_or_not o) as [(r & p & D & ->)|N].
    + destruct (ask_files P _ _ _ _ _ _ E1) as (q & R & c & k & EQ & ER & EC & -> & _ & _ & F0 & F1). split.
      * intros T. rewrite (A T), (F0 T). reflexivity.
      * intros T. rewrite (B T), ER. destruct (F1 T) as (fs & EF & ->). change (policies_file (w_rank w)) with (policy_file (w_rank w)). rewrite contents_append. cbn [app List.concat].
        apply traced_text in EF. subst fs. unfold policy_line, whole_features, call_features. rewrite EQ, EC. rewrite <- !app_assoc. reflexivity.
    + destruct (wrote_step P _ _ _ _ N E1) as (_ & _ & F). destruct (F (policy_file (w_rank w))) as [_ K]. specialize (K (policies_apart _ _)). unfold contents in *. rewrite K in A, B.
      split; [exact A|]. intros T. rewrite (B T). f_equal. destruct o; try reflexivity. exfalso. eapply N. reflexivity.
Qed.

(** ** The trace of the best policies *)

Definition raw_report (rank : Z) (name : bytes) (d : dataset) : bytes :=
  $"=== Rank " ++ print_Z rank ++ $" BEST POLICIES Region " ++ name ++ $" ===" ++ [nl] ++ List.concat (map best_line (fold_left min_step d [])).

Lemma best_lines_text b : forall s, trace_best_lines b = Ok s -> s = List.concat (map best_line b).
Proof.
  induction b as [|[f [p x]] b IH]; intros s H; cbn [trace_best_lines] in H; [inversion H; reflexivity|].
  apply bind_inv in H. destruct H as (fs & EF & H). apply bind_inv in H. destruct H as (t & ET & H). apply traced_text in EF. apply IH in ET. subst fs t. injection H as <-.
  cbn [map List.concat]. unfold best_line. cbn [fst snd]. unfold whole_features. rewrite <- !app_assoc. reflexivity.
Qed.

Lemma best_yaml c rank st st2 mn nm name : best_file st rank name <> model_step_file c rank st2 mn nm /\ best_file st rank name <> model_latest_file c rank mn nm.
Proof.
  assert (G : forall a b, a ++ $"-best_policies.txt" <> b ++ $".yaml").
  { intros a b X. apply (f_equal (@rev ascii)) in X. rewrite !rev_app_distr in X. discriminate X. }
  split; intros X.
  - apply (G ($"step-" ++ print_Z st ++ $"-rank-" ++ print_Z rank ++ $"-" ++ name) (cf_output_dir c ++ $"/" ++ cf_models_dir c ++ $"/" ++ mn ++ $"-step-" ++ print_Z st2 ++ $"-rank-" ++ print_Z rank ++ $"-" ++ nm)).
    rewrite <- !app_assoc. exact X.
  - apply (G ($"step-" ++ print_Z st ++ $"-rank-" ++ print_Z rank ++ $"-" ++ name) (cf_output_dir c ++ $"/" ++ cf_models_dir c ++ $"/" ++ mn ++ $"-latest" ++ $"-rank-" ++ print_Z rank ++ $"-" ++ nm)).
    rewrite <- !app_assoc. exact X.
Qed.

Lemma best_inj st rank a b : best_file st rank a = best_file st rank b -> a = b.
Proof. unfold best_file. intros X. apply app_inv_head in X. apply app_inv_head in X. apply app_inv_head in X. apply app_inv_head in X. apply app_inv_head in X. apply app_inv_tail in X. exact X. Qed.

Lemma store_keeps w m path w' other : store_model w m path = Ok w' -> other <> path -> file_find other (w_files w') = file_find other (w_files w) /\ w_config w' = w_config w /\ w_rank w' = w_rank w.
Proof.
  unfold store_model. intros H N. apply bind_inv in H. destruct H as (s & _ & H). destruct s; inversion H; [|auto]. cbn [set_files w_files w_config w_rank]. split; [apply find_write_other; exact N|auto].
Qed.

Lemma train_body_report w r st w' R : train_body P w r st = Ok w' -> nth_error (w_regions w) r = Some R -> 0 < ds_size (r_dataset R) -> cf_trace_best (w_config w) <> 0 ->
  file_find (best_file st (w_rank w) (r_name R)) (w_files w') = Some (raw_report (w_rank w) (r_name R) (r_dataset R)) /\
  forall name, name <> r_name R -> file_find (best_file st (w_rank w) name) (w_files w') = file_find (best_file st (w_rank w) name) (w_files w).
Proof.
  unfold train_body. intros H ER SZ TB. apply bind_inv in H. destruct H as (R0 & G & H). apply get_region_ok in G. destruct G as [G _]. rewrite ER in G. inversion G; subst R0. clear G.
  destruct (Z.leb_spec (ds_size (r_dataset R)) 0); [lia|]. destruct (negb _); [discriminate|]. apply bind_inv in H. destruct H as (w1 & E1 & H). apply bind_inv in H. destruct H as (m & _ & H).
  destruct (truthy (cf_retrain _)); [discriminate|].
  unfold trace_best in E1. unfold truthy at 1 in E1. rewrite (proj2 (Z.eqb_neq _ _) TB) in E1. cbn [negb] in E1. cbn [ds_find_min] in E1.
  apply bind_inv in E1. destruct E1 as (ls & EL & E1). apply best_lines_text in EL. subst ls. injection E1 as <-.
  assert (K : forall name, file_find (best_file st (w_rank w) name) (w_files w') = file_find (best_file st (w_rank w) name) (file_write (best_file st (w_rank w) (r_name R)) (raw_report (w_rank w) (r_name R) (r_dataset R)) (w_files w))).
  { intros name. destruct (truthy (cf_store_models _)); [|inversion H; reflexivity]. apply bind_inv in H. destruct H as (w2 & E2 & H).
    destruct (store_keeps _ _ _ _ (best_file st (w_rank w) name) E2 (proj1 (best_yaml _ _ _ _ _ _ _))) as (A & _ & R2). rewrite R2 in H.
    destruct (store_keeps _ _ _ _ (best_file st (w_rank w) name) H (proj2 (best_yaml _ _ _ st _ _ _))) as (B & _ & _). rewrite B, A. reflexivity. }
  split; [rewrite K; apply find_write|]. intros name N. rewrite K. apply find_write_other. intros X. apply N. apply best_inj in X. exact X.
Qed.

Lemma train_body_nothing w r st w' R : train_body P w r st = Ok w' -> nth_error (w_regions w) r = Some R -> ds_size (r_dataset R) <= 0 -> w' = w.
Proof.
  unfold train_body. intros H ER SZ. apply bind_inv in H. destruct H as (R0 & G & H). apply get_region_ok in G. destruct G as [G _]. rewrite ER in G. inversion G; subst R0.
  destruct (Z.leb_spec (ds_size (r_dataset R)) 0); [inversion H; reflexivity|lia].
Qed.

Lemma quietly_report w r st w' R : train_quietly P w r st = Ok w' -> nth_error (w_regions w) r = Some R -> cf_trace_best (w_config w) <> 0 ->
  (m_trainable (r_model R) = true -> 0 < ds_size (r_dataset R) ->
     file_find (best_file st (w_rank w) (r_name R)) (w_files w') = Some (raw_report (w_rank w) (r_name R) (r_dataset R))) /\
  forall name, name <> r_name R -> file_find (best_file st (w_rank w) name) (w_files w') = file_find (best_file st (w_rank w) name) (w_files w).
Proof.
  unfold train_quietly. intros H ER TB. apply bind_inv in H. destruct H as (R0 & G & H). apply get_region_ok in G. destruct G as [G _]. rewrite ER in G. inversion G; subst R0. clear G.
  destruct (m_trainable (r_model R)); cbn [negb] in H; [|inversion H; subst; split; [discriminate|reflexivity]].
  destruct (Z.lt_ge_cases 0 (ds_size (r_dataset R))) as [L|L].
  - destruct (train_body_report _ _ _ _ _ H ER L TB) as [A B]. split; auto.
  - rewrite (train_body_nothing _ _ _ _ _ H ER L). split; [lia|reflexivity].
Qed.

(** Regions with names of their own, trained one after the other. *)
Lemma each_report st rs : NoDup rs -> forall w w', each_region (fun w r => train_quietly P w r st) w rs = Ok w' -> cf_trace_best (w_config w) <> 0 ->
  (forall i j Ri Rj, In i rs -> In j rs -> nth_error (w_regions w) i = Some Ri -> nth_error (w_regions w) j = Some Rj -> r_name Ri = r_name Rj -> i = j) ->
  (forall i Ri, In i rs -> nth_error (w_regions w) i = Some Ri -> m_trainable (r_model Ri) = true -> 0 < ds_size (r_dataset Ri) ->
     file_find (best_file st (w_rank w) (r_name Ri)) (w_files w') = Some (raw_report (w_rank w) (r_name Ri) (r_dataset Ri))) /\
  (forall name, (forall i Ri, In i rs -> nth_error (w_regions w) i = Some Ri -> r_name Ri <> name) ->
     file_find (best_file st (w_rank w) name) (w_files w') = file_find (best_file st (w_rank w) name) (w_files w)).
Proof.
  intros ND. induction ND as [|r rs NI ND IH]; intros w w' H TB DI; cbn [each_region] in H.
  - inversion H; subst. split; [contradiction|reflexivity].
  - apply bind_inv in H. destruct H as (w1 & E1 & H). destruct (train_quietly_exact _ _ _ _ _ E1) as ((K1 & K2 & K3 & K4) & L1 & X1).
    assert (ER : exists R, nth_error (w_regions w) r = Some R).
    { unfold train_quietly in E1. apply bind_inv in E1. destruct E1 as (R & G & _). apply get_region_ok in G. destruct G. eauto. }
    destruct ER as (R & ER). destruct (quietly_report _ _ _ _ _ E1 ER TB) as [A B].
    assert (X1' : forall i Ri', nth_error (w_regions w1) i = Some Ri' -> exists Ri, nth_error (w_regions w) i = Some Ri /\ r_name Ri' = r_name Ri).
    { intros i Ri' Ei. destruct (nth_error (w_regions w) i) as [Ri|] eqn:E; [|apply nth_error_None in E; assert (Y : nth_error (w_regions w1) i <> None) by congruence; apply nth_error_Some in Y; lia].
      destruct (X1 _ _ E) as (m & Em & _). rewrite Ei in Em. inversion Em. exists Ri. auto. }
    destruct (IH _ _ H) as [C D].
    { congruence. }
    { intros i j Ri Rj Ii Ij Ei Ej EN. destruct (X1' _ _ Ei) as (Ri0 & Ei0 & N1). destruct (X1' _ _ Ej) as (Rj0 & Ej0 & N2). eapply DI; [right; exact Ii|right; exact Ij|exact Ei0|exact Ej0|congruence]. }
    rewrite K2 in C, D. split.
    + intros i Ri [<-|Ii] Ei T SZ.
      * rewrite ER in Ei. inversion Ei; subst Ri. rewrite D; [apply A; assumption|]. intros j Rj Ij Ej EN. destruct (X1' _ _ Ej) as (Rj0 & Ej0 & N2). apply NI.
        rewrite (DI r j R Rj0); [exact Ij|left; reflexivity|right; exact Ij|exact ER|exact Ej0|congruence].
      * assert (NE : i <> r) by (intros ->; contradiction). destruct (X1 _ _ Ei) as (m & Em & Q). apply Nat.eqb_neq in NE. rewrite NE in Q. cbn [andb] in Q. subst m. rewrite with_model_same in Em. exact (C _ _ Ii Em T SZ).
    + intros name N. rewrite D.
      * apply B. intros X. apply (N r R); [left; reflexivity|exact ER|congruence].
      * intros j Rj Ij Ej. destruct (X1' _ _ Ej) as (Rj0 & Ej0 & N2). rewrite N2. apply (N j); [right; exact Ij|exact Ej0].
Qed.

(** What is written is a report. *)
Lemma raw_reported w st R : wfd (r_dataset R) -> file_find (best_file st (w_rank w) (r_name R)) (w_files w) = Some (raw_report (w_rank w) (r_name R) (r_dataset R)) -> reported w st R.
Proof.
  intros W F N. exists (raw_report (w_rank w) (r_name R) (r_dataset R)). split; [|exact F].
  destruct (find_min_spec (r_dataset R) [] [] W) as (best & E & S & _ & A & B).
  { apply Forall_forall. intros [[f p] m] I. apply (N f p m). apply (proj2 (In_to_vector _ _ _ _)). exact I. }
  unfold ds_find_min in E. injection E as _ _ E. exists best. split; [split; [exact S|split; [exact A|exact B]]|]. unfold raw_report. rewrite E. reflexivity.
Qed.

Lemma start_wf c files : all_wf (start_world c files).
Proof. intros i R E. destruct i; discriminate E. Qed.

(** Region::train. *)
Lemma train_reports c files os w xs r st collect force w' y R R' :
  run P (start_world c files) os = Ok (w, xs) -> step P w (OpTrain r st collect force) = Ok (w', y) -> cf_trace_best c <> 0 ->
  nth_error (w_regions w) r = Some R -> force = true \/ m_trainable (r_model R) = true ->
  nth_error (w_regions w') r = Some R' -> 0 < ds_size (r_dataset R') -> reported w' st R'.
Proof.
  intros H E TB ER FT ER' SZ. assert (W := wf_run P os _ _ _ (start_wf c files) H). assert (W' := wf_step P _ _ _ _ W E).
  destruct (own_run P _ _ _ _ H) as (C1 & _). destruct (own_step P _ _ _ _ E) as (C2 & RK & _). cbn [w_config start_world] in C1.
  cbn [step] in E. apply bind_inv in E. destruct E as (v & E & Q). inversion Q; subst v. clear Q. unfold region_train in E. apply bind_inv in E. destruct E as (R0 & G & E).
  apply get_region_ok in G. destruct G as [G _]. rewrite ER in G. inversion G; subst R0. clear G.
  assert (X : negb force && negb (m_trainable (r_model R)) = false) by (destruct FT as [->| ->]; [reflexivity|apply andb_false_r]). rewrite X in E. clear X.
  apply bind_inv in E. destruct E as (w1 & E1 & E). destruct (train_body_exact P _ _ _ _ E) as ((K1 & K2 & K3 & K4) & L & X).
  assert (E1' : exists R1, nth_error (w_regions w1) r = Some R1).
  { destruct (nth_error (w_regions w1) r) eqn:N; [eauto|]. apply nth_error_None in N. assert (Y : nth_error (w_regions w') r <> None) by congruence. apply nth_error_Some in Y. lia. }
  destruct E1' as (R1 & ER1). destruct (X _ _ ER1) as (m & Em & _). rewrite ER' in Em. inversion Em; subst R'. clear Em. cbn [r_dataset with_model] in SZ.
  apply raw_reported; [exact (W' _ _ ER')|]. rewrite K2. cbn [r_name r_dataset with_model].
  apply (train_body_report _ _ _ _ _ E ER1 SZ). rewrite <- K1. rewrite (kept_field cf_trace_best (w_config w) _ (fun _ => eq_refl) C2), (kept_field cf_trace_best c _ (fun _ => eq_refl) C1). exact TB.
Qed.

Lemma own_names w : registry_ok w -> forall i j Ri Rj, In i (map snd (w_registry w)) -> In j (map snd (w_registry w)) ->
  nth_error (w_regions w) i = Some Ri -> nth_error (w_regions w) j = Some Rj -> r_name Ri = r_name Rj -> i = j.
Proof.
  intros [_ RG] i j Ri Rj Ii Ij Ei Ej EN.
  assert (G : forall k Rk, In k (map snd (w_registry w)) -> nth_error (w_regions w) k = Some Rk -> first_named (region_names w) (r_name Rk) k).
  { intros k Rk Ik Ek. apply in_map_iff in Ik. destruct Ik as ([n k'] & Q & Ik). cbn in Q. subst k'. apply RG in Ik.
    assert (n = r_name Rk); [|subst n; exact Ik]. destruct Ik as [Ik _]. unfold region_names in Ik. rewrite nth_error_map, Ek in Ik. cbn in Ik. congruence. }
  destruct (G _ _ Ii Ei) as [A1 A2]. destruct (G _ _ Ij Ej) as [B1 B2]. rewrite EN in *.
  destruct (lt_eq_lt_dec i j) as [[L|L]|L]; [exfalso; exact (B2 _ L A1)|exact L|exfalso; exact (A2 _ L B1)].
Qed.

(** Apollo::train with no executions left to collect. *)
Lemma train_all_reports c files os w xs st collect w' y i R R' :
  run P (start_world c files) os = Ok (w, xs) -> step P w (OpTrainAll st collect) = Ok (w', y) -> cf_trace_best c <> 0 -> cf_single_model c = 0 ->
  (collect = true -> forall j Rj, nth_error (w_regions w) j = Some Rj -> r_pending Rj = []) ->
  first_named (region_names w) (r_name R) i -> nth_error (w_regions w) i = Some R -> m_trainable (r_model R) = true ->
  nth_error (w_regions w') i = Some R' -> 0 < ds_size (r_dataset R') -> reported w' st R'.
Proof.
  intros H E TB SM ID FN ER T ER' SZ. assert (W := wf_run P os _ _ _ (start_wf c files) H). assert (W' := wf_step P _ _ _ _ W E).
  destruct (own_run P _ _ _ _ H) as (C1 & _). destruct (own_step P _ _ _ _ E) as (_ & RK & _). cbn [w_config start_world] in C1.
  destruct (names_run P _ _ _ _ (start_names c files) H) as [RG _]. assert (IN : In i (map snd (w_registry w))) by (apply in_map_iff; exists (r_name R, i); split; [reflexivity|apply RG; exact FN]).
  cbn [step] in E. apply bind_inv in E. destruct E as (v & E & Q). inversion Q; subst v. clear Q. unfold apollo_train, train_all_by, train_regions_by in E.
  destruct (truthy (cf_collective _)); [discriminate|]. rewrite (kept_field cf_single_model c _ (fun _ => eq_refl) C1), SM in E. cbn [truthy Z.eqb negb] in E.
  assert (E' : each_region (fun w r => train_quietly P w r st) w (map snd (w_registry w)) = Ok w').
  { destruct collect; [rewrite each_idle in E; [exact E|exact (ID eq_refl)]|exact E]. }
  clear E. destruct (registry_nodup _ RG) as [ND _].
  destruct (each_region_exact P (fun w r => train_quietly P w r st) _ (fun w r w1 E => ex_intro _ _ E) ND _ _ E') as ((K1 & K2 & _) & _ & X).
  destruct (X _ _ ER) as (m & Em & _). rewrite ER' in Em. inversion Em; subst R'. clear Em. cbn [r_dataset with_model] in SZ.
  apply raw_reported; [exact (W' _ _ ER')|]. rewrite K2. cbn [r_name r_dataset with_model].
  assert (TB' : cf_trace_best (w_config w) <> 0) by (rewrite (kept_field cf_trace_best c _ (fun _ => eq_refl) C1); exact TB).
  exact (proj1 (each_report st _ ND _ _ E' TB' (own_names _ RG)) i R IN ER T SZ).
Qed.

Lemma to_int_as n : as_int n (to_int n).
Proof.
  unfold as_int, to_int. assert (B := Z.mod_pos_bound n (2 ^ 32) ltac:(lia)). assert (D := Z.div_mod n (2 ^ 32) ltac:(lia)).
  destruct (Z.ltb_spec (n mod 2 ^ 32) (2 ^ 31)); (split; [lia|]); [exists (n / 2 ^ 32)|exists (n / 2 ^ 32 + 1)]; lia.
Qed.

Lemma each_step rs : forall w, each_region (fun w r => train_quietly P w r (to_int (w_executions w))) w rs = each_region (fun w' r => train_quietly P w' r (to_int (w_executions w))) w rs.
Proof.
  induction rs as [|r rs IH]; intros w; [reflexivity|]. cbn [each_region]. destruct (train_quietly P w r _) as [w1| | | |] eqn:E; try reflexivity. cbn [bind].
  destruct (train_quietly_exact P _ _ _ _ E) as ((_ & _ & _ & K4) & _). rewrite IH, K4. reflexivity.
Qed.

(** Region::autoTrain. *)
Lemma auto_report w r R w' : auto_train P w r = Ok w' -> nth_error (w_regions w) r = Some R -> registry_ok w -> cf_trace_best (w_config w) <> 0 -> m_trainable (r_model R) = true ->
  (global_due (w_config w) (w_executions w) -> cf_single_model (w_config w) = 0 -> forall i Ri, In i (map snd (w_registry w)) -> nth_error (w_regions w) i = Some Ri ->
     m_trainable (r_model Ri) = true -> 0 < ds_size (r_dataset Ri) ->
     file_find (best_file (to_int (w_executions w)) (w_rank w) (r_name Ri)) (w_files w') = Some (raw_report (w_rank w) (r_name Ri) (r_dataset Ri))) /\
  (~ global_due (w_config w) (w_executions w) -> region_due (w_config w) (r_idx R) \/ enough R -> 0 < ds_size (r_dataset R) ->
     file_find (best_file (r_idx R) (w_rank w) (r_name R)) (w_files w') = Some (raw_report (w_rank w) (r_name R) (r_dataset R))).
Proof.
  unfold auto_train. intros H ER RG TB T. apply bind_inv in H. destruct H as (R0 & G & H). apply get_region_ok in G. destruct G as [G _]. rewrite ER in G. inversion G; subst R0. clear G.
  rewrite T in H. cbn [negb] in H. destruct (truthy (cf_global_period (w_config w)) && _) eqn:EG.
  - apply global_due_b in EG. split; [|intros N; contradiction]. intros _ SM i Ri Ii Ei Ti SZ.
    unfold train_all_by, train_regions_by in H. destruct (truthy (cf_collective _)); [discriminate|]. rewrite SM in H. cbn [truthy Z.eqb negb] in H. rewrite each_step in H.
    exact (proj1 (each_report _ _ (proj1 (registry_nodup _ RG)) _ _ H TB (own_names _ RG)) i Ri Ii Ei Ti SZ).
  - assert (NG : ~ global_due (w_config w) (w_executions w)) by (intros GD; apply global_due_b in GD; congruence). split; [intros; contradiction|]. intros _ ON SZ.
    assert (QR : train_quietly P w r (r_idx R) = Ok w').
    { destruct (truthy (cf_region_period (w_config w)) && _) eqn:EP; [exact H|]. destruct ((0 <? r_min_training R) && _) eqn:EM; [exact H|].
      exfalso. destruct ON as [A|A]; [apply region_due_b in A|apply enough_b in A]; congruence. }
    exact (proj1 (quietly_report _ _ _ _ _ QR ER TB) T SZ).
Qed.

(** The end of an execution. *)
Lemma collect_report w r p x w' R R' : collect_context P w r p x = Ok w' -> all_wf w -> registry_ok w -> cf_trace_best (w_config w) <> 0 ->
  nth_error (w_regions w) r = Some R -> nth_error (w_regions w') r = Some R' -> m_trainable (r_model R) = true ->
  (global_due (w_config w) ((w_executions w + 1) mod 2 ^ 64) -> cf_single_model (w_config w) = 0 -> forall i Ri Ri', In i (map snd (w_registry w)) -> nth_error (w_regions w) i = Some Ri ->
     m_trainable (r_model Ri) = true -> nth_error (w_regions w') i = Some Ri' -> 0 < ds_size (r_dataset Ri') -> reported w' (to_int ((w_executions w + 1) mod 2 ^ 64)) Ri') /\
  (~ global_due (w_config w) ((w_executions w + 1) mod 2 ^ 64) -> region_due (w_config w) (r_idx R) \/ enough R' -> reported w' (r_idx R) R').
Proof.
  intros H W RG TB ER ER' T. assert (W' := wf_collect P _ _ _ _ _ W H). unfold collect_context in H.
  apply bind_inv in H. destruct H as (R0 & G & H). apply get_region_ok in G. destruct G as [G AR]. rewrite ER in G. inversion G; subst R0. clear G. apply bind_inv in H. destruct H as (c & EC & H).
  apply bind_inv in H. destruct H as (R1 & ER1 & H). apply bind_inv in H. destruct H as (w1 & E1 & H).
  apply bind_inv in H. destruct H as (w2 & E2 & H). apply bind_inv in H. destruct H as (R2 & ER2 & H). inversion H; subst w'. clear H.
  set (w0 := count_execution (set_region w r R1)) in *.
  assert (HR1 : r_model R1 = r_model R /\ r_name R1 = r_name R /\ r_min_training R1 = r_min_training R /\ r_idx R1 = r_idx R /\ r_alive R1 = r_alive R /\ 0 < ds_size (r_dataset R1)).
  { destruct (truthy (cf_trace_csv _)); cbn [r_model with_trace r_dataset] in ER1; rewrite T, orb_true_r in ER1;
      apply bind_inv in ER1; destruct ER1 as (d & ED & ER1); inversion ER1; subst R1; unfold moved_features; destruct (is_sync_of r p); cbn; repeat split; auto; eapply insert_nonempty; eauto. }
  destruct HR1 as (M1 & M2 & M3 & M4 & M5 & M6).
  assert (G0 : nth_error (w_regions w0) r = Some R1) by (cbn; rewrite nth_set_nth, Nat.eqb_refl, ER; reflexivity).
  assert (RG0 : registry_ok w0).
  { apply (registry_same w); [reflexivity| |exact RG]. apply names_same; [cbn; apply set_nth_length|]. intros i Ri Ei. cbn. rewrite nth_set_nth. destruct (Nat.eqb_spec i r) as [->|]; [|eauto].
    rewrite ER in *. inversion Ei; subst Ri. eauto. }
  assert (AU : get_region w0 r = Ok R1) by (apply get_region_ok; split; [exact G0|congruence]).
  destruct (auto_train_exact P w0 r R1 w1 E1 AU (proj1 (registry_nodup _ RG0))) as ((K1 & K2 & K3 & K4) & L1 & X1).
  rewrite <- M1 in T. destruct (auto_report _ _ _ _ E1 G0 RG0 TB T) as [A B].
  apply get_region_ok in ER2. destruct ER2 as [ER2 _].
  assert (D2 : w_files w2 = w_files w1 /\ w_rank w2 = w_rank w1 /\
  forall i Ri', nth_error (set_nth (w_regions w2) r (with_current R2 None)) i = Some Ri' ->
      exists Ri, nth_error (w_regions w1) i = Some Ri /\ r_dataset Ri' = r_dataset Ri /\ r_name Ri' = r_name Ri /\ r_min_training Ri' = r_min_training Ri).
  { assert (D : w_files w2 = w_files w1 /\ w_rank w2 = w_rank w1 /\ forall i Ri', nth_error (w_regions w2) i = Some Ri' ->
      exists Ri, nth_error (w_regions w1) i = Some Ri /\ r_dataset Ri' = r_dataset Ri /\ r_name Ri' = r_name Ri /\ r_min_training Ri' = r_min_training Ri).
    { destruct (is_sync_of r p).
      - inversion E2; subst w2. split; [reflexivity|]. split; [reflexivity|]. eauto.
      - apply delete_context_inv in E2. destruct E2 as (o & k & Ro & c' & -> & EO & EK & ->). cbn. split; [reflexivity|]. split; [reflexivity|]. intros i Ri' Ei. rewrite nth_set_nth in Ei.
        destruct (Nat.eqb_spec i o) as [->|]; [|eauto]. rewrite EO in Ei. inversion Ei. exists Ro. split; [exact EO|]. repeat split. }
    destruct D as (F & K & D). split; [exact F|]. split; [exact K|]. intros i Ri' Ei. rewrite nth_set_nth in Ei. destruct (Nat.eqb_spec i r) as [->|]; [|apply D; exact Ei].
    rewrite ER2 in Ei. inversion Ei; subst Ri'. exact (D _ _ ER2). }
  destruct D2 as (F2 & RK2 & D2).
  assert (BACK : forall i Ri', nth_error (set_nth (w_regions w2) r (with_current R2 None)) i = Some Ri' ->
    exists Ri0, nth_error (w_regions w0) i = Some Ri0 /\ r_dataset Ri' = r_dataset Ri0 /\ r_name Ri' = r_name Ri0 /\ r_min_training Ri' = r_min_training Ri0).
  { intros i Ri' Ei. destruct (D2 _ _ Ei) as (Ri1 & Ei1 & Q1 & Q2 & Q3). destruct (nth_error (w_regions w0) i) as [Ri0|] eqn:E0.
    - destruct (X1 _ _ E0) as (m & Em & _). rewrite Ei1 in Em. inversion Em; subst Ri1. exists Ri0. auto.
    - exfalso. apply nth_error_None in E0. assert (Y : nth_error (w_regions w1) i <> None) by congruence. apply nth_error_Some in Y. lia. }
  cbn [w_regions set_region] in ER'. split.
  - intros GD SM i Ri Ri' Ii Ei Ti Ei' SZ. cbn [w_regions set_region] in Ei'. destruct (BACK _ _ Ei') as (Ri0 & Ei0 & Q1 & Q2 & _).
    assert (TI : m_trainable (r_model Ri0) = true).
    { cbn in Ei0. rewrite nth_set_nth in Ei0. destruct (Nat.eqb_spec i r) as [->|]; [rewrite ER in Ei0; inversion Ei0; subst; exact T|congruence]. }
    apply raw_reported; [exact (W' _ _ Ei')|]. cbn [w_rank w_files set_region]. rewrite F2, RK2, K2, Q1, Q2. rewrite Q1 in SZ.
    exact (A GD SM i Ri0 Ii Ei0 TI SZ).
  - intros NG ON. destruct (BACK _ _ ER') as (R10 & E10 & Q1 & Q2 & Q3). rewrite G0 in E10. inversion E10; subst R10. clear E10.
    apply raw_reported; [exact (W' _ _ ER')|]. cbn [w_rank w_files set_region]. rewrite F2, RK2, K2, Q1, Q2. rewrite <- M4. apply B; [exact NG| |exact M6].
    destruct ON as [ON|ON]; [left; rewrite M4; exact ON|right; unfold enough in *; rewrite <- Q1, <- Q3; exact ON].
Qed.

Lemma collected_reports c files os w xs r p x w' R R' :
  run P (start_world c files) os = Ok (w, xs) -> forallb explicit os = true -> collect_context P w r p x = Ok w' -> cf_trace_best c <> 0 ->
  nth_error (w_regions w) r = Some R -> nth_error (w_regions w') r = Some R' -> m_trainable (r_model R) = true ->
  end_report c os xs w w' r R'.
Proof.
  intros H EX E TB ER ER' T. destruct (inv_run P (start_world c files) eq_refl eq_refl eq_refl _ _ _ EX H) as (log & I).
  destruct (own_run P _ _ _ _ H) as (C1 & _). cbn [w_config start_world] in C1.
  assert (TB' : cf_trace_best (w_config w) <> 0) by (rewrite (kept_field cf_trace_best c _ (fun _ => eq_refl) C1); exact TB).
  destruct (collect_report _ _ _ _ _ _ _ E (wf_run P os _ _ _ (start_wf c files) H) (i_reg _ _ _ _ _ I) TB' ER ER' T) as [A B].
  unfold end_report. rewrite (i_idx _ _ _ _ _ I _ _ ER) in B. split.
  - intros GD SM i Ri Ri' FN Ei Ti Ei' SZ. exists (to_int ((w_executions w + 1) mod 2 ^ 64)). split; [apply to_int_as|].
    apply (A GD ltac:(rewrite (kept_field cf_single_model c _ (fun _ => eq_refl) C1); exact SM) i Ri); auto.
    apply in_map_iff. exists (r_name Ri, i). split; [reflexivity|]. apply (i_reg _ _ _ _ _ I). exact FN.
  - exact B.
Qed.

Lemma end_reports c files os w xs r now early w' y R R' :
  run P (start_world c files) os = Ok (w, xs) -> forallb explicit os = true -> step P w (OpEnd r (Some (r, Sync)) now early) = Ok (w', y) -> cf_trace_best c <> 0 ->
  nth_error (w_regions w) r = Some R -> nth_error (w_regions w') r = Some R' -> m_trainable (r_model R) = true ->
  end_report c os xs w w' r R'.
Proof.
  intros H EX ST TB ER ER' T. destruct (inv_run P (start_world c files) eq_refl eq_refl eq_refl _ _ _ EX H) as (log & I).
  destruct (own_run P _ _ _ _ H) as (C1 & _). cbn [w_config start_world] in C1.
  cbn in ST. apply bind_inv in ST. destruct ST as (R0 & ER0 & ST). apply bind_inv in ST. destruct ST as (v & HE & E). inversion E; subst v. clear E.
  unfold end_context in HE. apply bind_inv in HE. destruct HE as (cx & EC & HE). cbn [is_sync_of] in HE. rewrite Nat.eqb_refl in HE.
  apply bind_inv in HE. destruct HE as (d & ED & HE). destruct d as [x|]; [|discriminate].
  assert (W := wf_run P os _ _ _ (start_wf c files) H). assert (RG := i_reg _ _ _ _ _ I).
  match type of HE with collect_context P ?v _ _ _ = _ => set (w1 := v) in * end.
  assert (W1 : all_wf w1) by (apply wf_context; exact W).
  assert (SAME : w_config w1 = w_config w /\ w_executions w1 = w_executions w /\ w_registry w1 = w_registry w /\ List.length (w_regions w1) = List.length (w_regions w) /\
  forall i Ri, nth_error (w_regions w) i = Some Ri -> exists Ri1, nth_error (w_regions w1) i = Some Ri1 /\ r_name Ri1 = r_name Ri /\ r_model Ri1 = r_model Ri /\ r_idx Ri1 = r_idx Ri).
  { unfold w1, set_context. cbn [fst snd]. rewrite ER. cbn. rewrite set_nth_length. do 4 (split; [reflexivity|]). intros i Ri Ei. rewrite nth_set_nth.
    destruct (Nat.eqb_spec i r) as [->|]; [|exists Ri; auto]. rewrite ER in *. inversion Ei; subst Ri. eexists. split; [reflexivity|]. repeat split. }
  clearbody w1. destruct SAME as (S1 & S2 & S3 & S4 & S5). destruct (S5 _ _ ER) as (R1 & ER1 & N1 & M1 & I1).
  assert (RG1 : registry_ok w1). { apply (registry_same w); [exact S3| |exact RG]. apply names_same; [exact S4|]. intros i Ri Ei. destruct (S5 _ _ Ei) as (Ri1 & Q1 & Q2 & _). eauto. }
  assert (TB' : cf_trace_best (w_config w1) <> 0) by (rewrite S1, (kept_field cf_trace_best c _ (fun _ => eq_refl) C1); exact TB). rewrite <- M1 in T.
  destruct (collect_report _ _ _ _ _ _ _ HE W1 RG1 TB' ER1 ER' T) as [A B].
  rewrite I1, (i_idx _ _ _ _ _ I _ _ ER) in B. rewrite S1, S2 in A, B. unfold end_report. split.
  - intros GD SM i Ri Ri' FN Ei Ti Ei' SZ. exists (to_int ((w_executions w + 1) mod 2 ^ 64)). split; [apply to_int_as|].
    destruct (S5 _ _ Ei) as (Ri1 & Ei1 & _ & MM & _).
    apply (A GD ltac:(rewrite (kept_field cf_single_model c _ (fun _ => eq_refl) C1); exact SM) i Ri1); auto.
    + rewrite S3. apply in_map_iff. exists (r_name Ri, i). split; [reflexivity|]. apply RG. exact FN.
    + congruence.
  - exact B.
Qed.
End Platform.
