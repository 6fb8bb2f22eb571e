(** Training that collects pending executions can train twice. *)
From Coq Require Import ZArith Bool Ascii String Lia List.
From Verif Require Import Model.Base Model.Float Model.DatasetM Model.ParserM Model.DatasetIO Model.TreeM Model.ForestM Model.ModelStringM Model.PolicyModelsM Model.ConfigM Model.RuntimeM
  Spec.DatasetSpec Spec.TreeSpec Spec.ForestSpec Spec.RuntimeSpec Proofs.TreeFacts Proofs.ForestFacts Proofs.ModelStringFacts Proofs.RuntimeFacts Proofs.RuntimeSettled Proofs.RuntimeNew Proofs.RuntimeRegistry
  Proofs.RuntimeTraining Proofs.RuntimeWatch Proofs.RuntimeLearn Proofs.RuntimePersist Proofs.ForestLearn.
Import ListNotations.
Open Scope Z_scope.

Section Platform.
Variable P : platform.

(** A trained forest has at least the trees it says. *)
Definition full (m : model) : Prop :=
  match m with MForest _ tr f _ => tr = false -> f_num_trees f <= Z.of_nat (List.length (f_trees f)) | _ => True end.

Lemma f_train_count srt pick f features responses f' : f_train srt pick f features responses = Ok f' ->
  f_num_trees f' = f_num_trees f /\ f_num_classes f' = f_num_classes f /\ List.length (f_trees f') = (List.length (f_trees f) + Z.to_nat (f_num_trees f))%nat.
Proof.
  unfold f_train. intros E. apply bind_inv in E as (ts & ET & E). injection E as <-. cbn [f_num_trees f_num_classes f_trees]. rewrite app_length, (train_loop_length _ _ _ _ _ _ _ _ ET). auto.
Qed.

Lemma full_train m d m' : full m -> m_train P m d = Ok m' -> full m'.
Proof.
  destruct m as [| | | | |n tr t e|n tr f e|]; cbn [m_train]; intros G E; try (injection E as <-; exact Logic.I).
  - destruct (ds_find_min d [] []) as [[fs rs] best]. apply bind_inv in E as (t' & _ & E). injection E as <-. exact Logic.I.
  - destruct (ds_find_min d [] []) as [[fs rs] best]. apply bind_inv in E as (f' & EF & E). injection E as <-. cbn [full]. intros _.
    apply f_train_count in EF as (A & _ & B). lia.
  - apply bind_inv in E as (t' & _ & E). injection E as <-. exact Logic.I.
Qed.
Lemma full_get D m x k m' : full m -> m_get_index P D m x = Ok (k, m') -> full m'.
Proof.
  intros G E. destruct m as [| |n last|q| |n [|] t e|n [|] f e|]; cbn [m_get_index negb] in E; try (apply bind_inv in E; destruct E as (c & _ & E); injection E as _ <-; exact G).
  - injection E as _ <-. exact G.
  - destruct (1 <? count); injection E as _ <-; exact Logic.I.
  - destruct (n =? 0); [discriminate|]. injection E as _ <-. exact Logic.I.
  - destruct q; [discriminate E|]. injection E as _ <-. exact Logic.I.
  - destruct (nan_free x); cbn in E; [|discriminate]. destruct (map_find _ _ _) as [[? ?]|]; [|discriminate E]. injection E as _ <-. exact Logic.I.
  - destruct e as [e|]; [|discriminate]. apply bind_inv in E as ([c e'] & _ & E). injection E as _ <-. exact Logic.I.
  - destruct e as [e|]; [|discriminate]. apply bind_inv in E as ([c e'] & _ & E). injection E as _ <-. exact G.
  - apply bind_inv in E as ([c N] & _ & E). injection E as _ <-. exact Logic.I.
Qed.
Lemma full_create name nf np ps init m : create_model P name nf np ps init = Ok m -> full m.
Proof.
  unfold create_model. generalize 2%nat. intros f. cbn [create_fuel].
  destruct (bytes_eqb name ($"Static")). { unfold create_static. intros E. apply bind_inv in E as (p & _ & E). destruct (p <? 0); inversion E; exact Logic.I. }
  destruct (bytes_eqb name ($"DatasetMap")). { intros E; inversion E; exact Logic.I. }
  destruct (bytes_eqb name ($"Random")). { unfold new_random. destruct (_ <? _); intros E; inversion E; exact Logic.I. }
  destruct (bytes_eqb name ($"RoundRobin")). { intros E; inversion E; exact Logic.I. }
  destruct (bytes_eqb name ($"DecisionTree")).
  { intros E. apply bind_inv in E as (md & _ & E). apply bind_inv in E as (e & _ & E). inversion E; subst. exact Logic.I. }
  destruct (bytes_eqb name ($"RandomForest")).
  { intros E. apply bind_inv in E as (nt & _ & E). apply bind_inv in E as (md & _ & E). apply bind_inv in E as (e & _ & E). inversion E; subst. discriminate. }
  destruct (bytes_eqb name ($"PolicyNet")).
  { unfold create_net. intros E. repeat (apply bind_inv in E as (? & _ & E)). destruct ((nf <? 0) || (np <? 0)); [discriminate E|]. inversion E; exact Logic.I. }
  destruct (bytes_eqb name ($"Optimal")); intros E; inversion E; exact Logic.I.
Qed.

(** C117. *)
Lemma trained_twice c files os w xs r R n f e w1 x1 R1 n1 f1 e1 st w' x : run P (start_world c files) os = Ok (w, xs) ->
  (forall os1 o os2 w1 xs1, os = os1 ++ o :: os2 -> run P (start_world c files) os1 = Ok (w1, xs1) -> no_load w1 o) ->
  nth_error (w_regions w) r = Some R -> r_model R = MForest n true f e ->
  step P w (OpCollect r) = Ok (w1, x1) -> nth_error (w_regions w1) r = Some R1 -> r_model R1 = MForest n1 false f1 e1 -> 0 < ds_size (r_dataset R1) ->
  step P w (OpTrain r st true false) = Ok (w', x) ->
  exists R' f2, nth_error (w_regions w') r = Some R' /\ r_model R' = MForest n1 false f2 e1 /\ f_num_trees f2 = f_num_trees f1 /\
    Z.of_nat (List.length (f_trees f2)) = Z.of_nat (List.length (f_trees f1)) + Z.max 0 (f_num_trees f1) /\ f_num_trees f1 <= Z.of_nat (List.length (f_trees f1)) /\
    (cf_store_models (w_config w1) <> 0 -> 1 <= f_num_trees f1 -> writable_forest f2 ->
      exists text, file_find (model_latest_file (w_config w1) (w_rank w1) ($"RandomForest") (r_name R')) (w_files w') = Some text /\
        forall a b, f_load (new_forest (f_num_classes f2) a b) text = Abort).
Proof.
  intros H NL ER EM EC ER1 EM1 SZ ET.
  assert (FU : full (r_model R1)).
  { apply (every_run P full full_train full_get full_create (os ++ [OpCollect r]) (start_world c files) w1 (xs ++ [x1])) with (i := r).
    - intros [|i] Q EQ; discriminate EQ.
    - clear NL ET. revert H. generalize (start_world c files) xs. induction os as [|o os IH]; intros v ys; cbn [run app].
      + intros H. injection H as -> <-. cbn [app]. rewrite EC. reflexivity.
      + intros H. apply bind_inv in H as ([v1 y] & E1 & H). apply bind_inv in H as ([v2 zs] & E2 & H). injection H as -> <-. rewrite E1. cbn [bind]. rewrite (IH _ _ E2). reflexivity.
    - intros os1 o os2 v ys EQ RV. destruct os2 as [|o2 os2 _] using rev_ind.
      + apply app_inj_tail in EQ as [_ <-]. exact Logic.I.
      + rewrite app_comm_cons, app_assoc in EQ. apply app_inj_tail in EQ as [-> _]. eapply NL; [reflexivity|exact RV].
    - exact ER1. }
  rewrite EM1 in FU. specialize (FU eq_refl).
  cbn [step] in ET, EC. apply bind_inv in ET as (w2 & ET & EQ). injection EQ as <- _. apply bind_inv in EC as (w3 & EC & EQ). injection EQ as <- _.
  unfold region_train in ET. apply bind_inv in ET as (R0 & G0 & ET). apply get_region_ok in G0 as [G0 _]. rewrite ER in G0. injection G0 as <-.
  rewrite EM in ET. cbn [m_trainable negb andb] in ET. rewrite EC in ET. cbn [bind] in ET.
  unfold train_body in ET. apply bind_inv in ET as (R2 & G2 & ET). apply get_region_ok in G2 as [G2 _]. rewrite ER1 in G2. injection G2 as <-.
  destruct (Z.leb_spec (ds_size (r_dataset R1)) 0) as [|_]; [lia|]. destruct (negb _); [discriminate ET|]. apply bind_inv in ET as (w4 & TB & ET).
  assert (SW : w_regions w4 = w_regions w3 /\ w_config w4 = w_config w3 /\ w_rank w4 = w_rank w3).
  { unfold trace_best in TB. destruct (negb _); [injection TB as <-; auto|]. destruct (ds_find_min _ _ _) as [[? ?] ?]. apply bind_inv in TB as (txt & _ & TB). injection TB as <-. auto. }
  destruct SW as (S1 & S2 & S3). apply bind_inv in ET as (m & TM & ET). rewrite EM1 in TM. cbn [m_train] in TM. destruct (ds_find_min _ _ _) as [[fs rs] best].
  apply bind_inv in TM as (f2 & FT & TM). injection TM as <-. destruct (f_train_count _ _ _ _ _ _ FT) as (A1 & A2 & A3).
  destruct (truthy (cf_retrain _)); [discriminate ET|]. set (R' := with_model R1 (MForest n1 false f2 e1)) in *.
  assert (E4 : nth_error (w_regions (set_region w4 r R')) r = Some R'). { cbn [set_region w_regions]. rewrite nth_set_nth, Nat.eqb_refl, S1, ER1. reflexivity. }
  assert (X : w_regions w2 = w_regions (set_region w4 r R')).
  { destruct (truthy (cf_store_models _)); [|injection ET as <-; reflexivity]. apply bind_inv in ET as (w5 & ST1 & ET). apply store_model_same in ST1 as [_ ST1], ET as [_ ET]. congruence. }
  exists R', f2. rewrite X. split; [exact E4|]. split; [reflexivity|]. split; [exact A1|]. split; [lia|]. split; [exact FU|].
  intros SM NT W. destruct (excess_trees_abort f2 0 0 W) as (text & SV & _); [lia|]. exists text. split.
  - change (w_config (set_region w4 r R')) with (w_config w4) in ET. rewrite S2 in ET. unfold truthy in ET. apply Z.eqb_neq in SM. rewrite SM in ET. cbn [negb] in ET.
    apply bind_inv in ET as (w5 & ST1 & ET). unfold store_model in ET. cbn [m_store] in ET. rewrite SV in ET. cbn [bind] in ET. injection ET as <-. cbn [set_files w_files]. 
    replace (w_rank (set_region w4 r R')) with (w_rank w3) in * by (cbn [set_region w_rank]; congruence).
    change (m_name (MForest n1 false f2 e1)) with ($"RandomForest"). change (r_name R') with (r_name R1). cbn [set_region w_config]. rewrite ?S2. 
    match goal with |- context [file_write ?p _ _] => match goal with |- file_find ?q _ = _ => assert (EQ : q = p) end end.
    { destruct (store_model_same _ _ _ _ ST1) as [SG _]. unfold same_globals in SG. cbn [set_region w_config w_rank] in SG. destruct SG as (Q1 & Q2 & _). f_equal; congruence. }
    rewrite EQ. apply find_written.
  - intros a b. destruct (excess_trees_abort f2 a b W) as (text' & SV' & AB); [lia|]. rewrite SV in SV'. injection SV' as <-. exact AB.
Qed.
End Platform.
