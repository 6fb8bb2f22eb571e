(** Lemmas on the runtime: where models are stored and loaded from. *)
From Coq Require Import ZArith Bool Ascii String Lia List Permutation Sorted.
From Verif Require Import Model.Base Model.Decimal Model.Float Model.DatasetM Model.ParserM Model.DatasetIO Model.ModelStringM Model.PolicyModelsM Model.ConfigM Model.RuntimeM
  Spec.DatasetSpec Spec.DatasetClient Spec.RuntimeSpec
  Proofs.TreeFacts Proofs.RuntimeFacts Proofs.RuntimeCollect Proofs.RuntimeMoves Proofs.RuntimePending Proofs.RuntimeOps
  Proofs.RuntimeSettled Proofs.RuntimeNew Proofs.RuntimeRegistry Proofs.RuntimeAccount Proofs.RuntimeRecords Proofs.RuntimeClient
  Proofs.RuntimeCurrent Proofs.RuntimeCreate Proofs.RuntimeTraining Proofs.ModelStringFacts.
Import ListNotations.
Open Scope Z_scope.

Lemma find_write path text f : file_find path (file_write path text f) = Some text.
Proof.
  induction f as [|[p s] f IH]; cbn; [rewrite bytes_eqb_refl; reflexivity|].
  destruct (bytes_eqb path p) eqn:E; cbn; rewrite E; auto.
Qed.

Lemma latest_is_loaded c rank mn name : model_latest_file c rank mn name = model_load_file c rank mn name.
Proof. 
  unfold model_latest_file, model_load_file. change ($"-latest-rank-") with ($"-latest" ++ $"-rank-"). rewrite !app_assoc. reflexivity.
 Qed.

Section Platform.
Variable P : platform.

Lemma create_name mn nf np ps init m : create_model P mn nf np ps init = Ok m ->
  m_name m = mn \/ exists z, m_name m = $"Static," ++ print_Z z.
Proof.
  unfold create_model. generalize 2%nat. intros fuel. cbn [create_fuel].
  destruct (bytes_eqb mn ($"Static")) eqn:E1.
  { intros H. unfold create_static in H. right. apply bind_inv in H. destruct H as (z & _ & H). destruct (z <? 0); [discriminate H|].
    inversion H. cbn. eauto. }
  destruct (bytes_eqb mn ($"DatasetMap")) eqn:E2.
  { intros H. apply bytes_eqb_eq in E2. inversion H. auto. }
  destruct (bytes_eqb mn ($"Random")) eqn:E3.
  { intros H. apply bytes_eqb_eq in E3. unfold new_random in H. destruct (np <? 1); [discriminate H|inversion H; auto]. }
  destruct (bytes_eqb mn ($"RoundRobin")) eqn:E4.
  { intros H. apply bytes_eqb_eq in E4. inversion H. auto. }
  destruct (bytes_eqb mn ($"DecisionTree")) eqn:E5.
  { intros H. apply bytes_eqb_eq in E5. do 2 (apply bind_inv in H; destruct H as (? & _ & H)). inversion H. auto. }
  destruct (bytes_eqb mn ($"RandomForest")) eqn:E6.
  { intros H. apply bytes_eqb_eq in E6. do 3 (apply bind_inv in H; destruct H as (? & _ & H)). inversion H. auto. }
  destruct (bytes_eqb mn ($"PolicyNet")) eqn:E7.
  { intros H. apply bytes_eqb_eq in E7. unfold create_net in H. do 5 (apply bind_inv in H; destruct H as (? & _ & H)).
    destruct (_ || _); [discriminate H|]. inversion H. auto. }
  destruct (bytes_eqb mn ($"Optimal")) eqn:E8.
  { intros H. apply bytes_eqb_eq in E8. inversion H. auto. }
  discriminate.
Qed.

(** The model of a region that can be stored has the name it was asked for by. *)
Lemma stored_name c files os w xs r R text :
  run P (start_world c files) os = Ok (w, xs) -> forallb explicit os = true -> nth_error (w_regions w) r = Some R ->
  m_store (r_model R) = Ok (Some text) -> m_name (r_model R) = r_model_name R.
Proof.
  intros H EX ER MS. destruct (inv_run P (start_world c files) eq_refl eq_refl eq_refl _ _ _ EX H) as (log & I).
  destruct (region_origin P _ _ _ _ _ _ _ _ EX I ER) as (h1 & nf & nm & np & mt & info & yaml & init & h2 & log1 & wb & w1 & R1 & _ & I1 & HN & ER1 & _ & ST1 & NM & _).
  destruct (new_region_spec P _ _ _ _ _ _ _ _ _ _ HN) as (-> & v & mn0 & ps0 & mn & ps & info' & m0 & _ & _ & CM & (GL & ws & R2 & EV & FW & BL & NA) & EW & _).
  rewrite EW, EV, nth_last in ER1 by (eapply Forall2_length'; eauto). inversion ER1; subst R2. destruct NA as (N1 & N2 & _).
  destruct ST1 as (_ & _ & _ & _ & _ & S6). rewrite S6, N1. rewrite N2 in NM. destruct (create_name _ _ _ _ _ _ CM) as [E|(z & E)]; [congruence|].
  exfalso. rewrite E in NM. destruct (r_model R); cbn in MS, NM; try discriminate MS; discriminate NM.
Qed.

Lemma store_model_files w m path w' text : store_model w m path = Ok w' -> m_store m = Ok (Some text) ->
  w' = set_files w (file_write path text (w_files w)).
Proof. unfold store_model. intros H E. rewrite E in H. cbn in H. inversion H. reflexivity. Qed.

Lemma train_body_stores w r st w' R' text : train_body P w r st = Ok w' -> nth_error (w_regions w') r = Some R' -> 0 < ds_size (r_dataset R') ->
  cf_store_models (w_config w) <> 0 -> m_store (r_model R') = Ok (Some text) ->
  file_find (model_latest_file (w_config w) (w_rank w) (m_name (r_model R')) (r_name R')) (w_files w') = Some text.
Proof.
  unfold train_body. intros H ER' SZ ST MS. apply bind_inv in H. destruct H as (R & ER & H). apply get_region_ok in ER. destruct ER as [ER _].
  destruct (Z.leb_spec (ds_size (r_dataset R)) 0) as [L|L].
  - inversion H; subst w'. rewrite ER in ER'. inversion ER'; subst. lia.
  - destruct (negb _); [discriminate|]. apply bind_inv in H. destruct H as (w1 & E1 & H).
    destruct (trace_best_training P (fun _ _ _ => True) _ _ _ _ E1) as [[(G1 & G2 & _) _] S1].
    apply bind_inv in H. destruct H as (m & Em & H). destruct (truthy (cf_retrain _)); [discriminate|].
    cbn [w_config set_region w_rank] in H. rewrite G1, G2 in H. unfold truthy in H. apply Z.eqb_neq in ST. rewrite ST in H. cbn [negb] in H.
    apply bind_inv in H. destruct H as (w2 & E2 & H).
    assert (EM : w_regions w' = set_nth (w_regions w) r (with_model R m)).
    { apply store_model_same in E2, H. destruct E2 as [_ A], H as [_ B]. rewrite B, A. cbn. rewrite S1. reflexivity. }
    rewrite EM, nth_set_nth, Nat.eqb_refl, ER in ER'. inversion ER'; subst R'. cbn [r_model with_model r_name] in *.
    rewrite (store_model_files _ _ _ _ _ H MS). rewrite (store_model_files _ _ _ _ _ E2 MS). cbn [w_files set_files w_config w_rank set_region].
    rewrite G1, G2. apply find_write.
Qed.

Lemma stored_where_loaded c files os w xs r st collect force w' y R' text :
  run P (start_world c files) os = Ok (w, xs) -> forallb explicit os = true ->
  step P w (OpTrain r st collect force) = Ok (w', y) -> nth_error (w_regions w') r = Some R' ->
  force = true \/ (exists R, nth_error (w_regions w) r = Some R /\ m_trainable (r_model R) = true) ->
  0 < ds_size (r_dataset R') -> cf_store_models c <> 0 -> m_store (r_model R') = Ok (Some text) ->
  file_find (model_load_file c 0 (r_model_name R') (r_name R')) (w_files w') = Some text /\
  forall w2 ps m, w_files w2 = w_files w' -> cf_output_dir (w_config w2) = cf_output_dir c -> cf_models_dir (w_config w2) = cf_models_dir c -> w_rank w2 = 0 ->
    param_find ($"load") ps = Some [] -> load_models w2 (r_name R') [] (r_model_name R') ps m = m_load m (Some text).
Proof.
  intros H EX ST ER' TR SZ SM MS. destruct (inv_run P (start_world c files) eq_refl eq_refl eq_refl _ _ _ EX H) as (log & I).
  assert (H2 : run P (start_world c files) (os ++ [OpTrain r st collect force]) = Ok (w', xs ++ [y])) by (eapply run_snoc; eauto).
  assert (EX2 : forallb explicit (os ++ [OpTrain r st collect force]) = true) by (rewrite forallb_app, EX; reflexivity).
  assert (FF : file_find (model_load_file c 0 (r_model_name R') (r_name R')) (w_files w') = Some text).
  { rewrite <- (stored_name _ _ _ _ _ _ _ _ H2 EX2 ER' MS), <- latest_is_loaded.
    cbn in ST. apply bind_inv in ST. destruct ST as (w1 & ST & E). inversion E; subst w1. clear E. unfold region_train in ST.
    apply bind_inv in ST. destruct ST as (R & ER & ST). apply get_region_ok in ER. destruct ER as [ER _].
    assert (TT : negb force && negb (m_trainable (r_model R)) = false).
    { destruct TR as [->|(R0 & E0 & T)]; auto. rewrite ER in E0. inversion E0; subst R0. rewrite T, andb_false_r. reflexivity. }
    rewrite TT in ST. apply bind_inv in ST. destruct ST as (w1 & EC & ST).
    assert (C1 : w_config w1 = w_config w /\ w_rank w1 = w_rank w).
    { destruct collect; [|inversion EC; subst; auto].
      assert (NS : forall p, In p (pending w r) -> is_sync_of r p = false).
      { intros p IN. assert (N := i_heap _ _ _ _ _ I _ _ IN). destruct p as [o [|k]]; auto. exfalso. apply N. reflexivity. }
      destruct (collect_pending_spec P any_own _ _ _ _ _ _ EC (i_views _ _ _ _ _ I) NS) as (l & kept & MV & _).
      apply moves_moved in MV. destruct MV as (A & B & _). auto. }
    destruct C1 as [C1 C2]. assert (C := i_config _ _ _ _ _ I). cbn in C.
    assert (RK : w_rank w = 0) by exact (i_rank _ _ _ _ _ I).
    assert (SMW : cf_store_models (w_config w1) <> 0) by (rewrite C1, (same_config_field cf_store_models _ _ (fun _ => eq_refl) C); exact SM).
    assert (T := train_body_stores _ _ _ _ _ _ ST ER' SZ SMW MS).
    rewrite C1, C2, RK in T. unfold model_latest_file in *.
    rewrite (same_config_field cf_output_dir _ _ (fun _ => eq_refl) C), (same_config_field cf_models_dir _ _ (fun _ => eq_refl) C) in T. exact T. }
  split; auto. intros w2 ps m F1 F2 F3 F4 PL. unfold load_models. cbn [bind]. rewrite PL. unfold model_load_file in *. rewrite F2, F3, F4, F1, FF. reflexivity.
Qed.

Lemma stored_path c files os w xs r R text :
  run P (start_world c files) os = Ok (w, xs) -> forallb explicit os = true -> nth_error (w_regions w) r = Some R ->
  m_store (r_model R) = Ok (Some text) -> forall c' rank,
  model_latest_file c' rank (m_name (r_model R)) (r_name R) = model_load_file c' rank (r_model_name R) (r_name R).
Proof. intros H EX ER MS c' rank. rewrite (stored_name _ _ _ _ _ _ _ _ H EX ER MS). apply latest_is_loaded. Qed.
End Platform.
