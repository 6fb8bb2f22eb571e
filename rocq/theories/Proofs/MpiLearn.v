(** Decision trees in jobs: a trained tree answers with one policy on every rank. *)
From Coq Require Import ZArith Bool Ascii String Lia List.
From Verif Require Import Model.Base Model.Float Model.DatasetM Model.TreeM Model.PolicyModelsM Model.ConfigM Model.RuntimeM Model.MpiM
  Spec.DatasetSpec Spec.TreeSpec Spec.PolicyModelsSpec Spec.RuntimeSpec Spec.MpiSpec Proofs.TreeFacts Proofs.TreeLabels Proofs.ModelStringFacts Proofs.RuntimeFacts Proofs.RuntimeTraining
  Proofs.RuntimePreserve Proofs.RuntimeWatch Proofs.RuntimeLearn Proofs.MpiGather Proofs.MpiJobs.
Import ListNotations.
Open Scope Z_scope.

(** ** What receiving changes *)

Definition only_data (w w' : world) : Prop :=
  w_config w' = w_config w /\ w_registry w' = w_registry w /\ List.length (w_regions w') = List.length (w_regions w) /\
  forall i R, nth_error (w_regions w) i = Some R -> exists d, nth_error (w_regions w') i = Some (with_dataset R d) /\ (0 < ds_size (r_dataset R) -> 0 < ds_size d).

Lemma only_data_refl w : only_data w w.
Proof. repeat split. intros i R E. exists (r_dataset R). rewrite with_dataset_same. auto. Qed.
Lemma only_data_trans a b c : only_data a b -> only_data b c -> only_data a c.
Proof.
  intros (A1 & A2 & A3 & A4) (B1 & B2 & B3 & B4). do 3 (split; [congruence|]). intros i R E. destruct (A4 _ _ E) as (d & E1 & L1). destruct (B4 _ _ E1) as (d' & E2 & L2).
  exists d'. split; [exact E2|]. auto.
Qed.

Lemma insert_only w x w' : insert_record w x = Ok w' -> only_data w w'.
Proof.
  destruct x as [[[[k fs] p] nm] m]. cbn [insert_record]. destruct (k =? w_rank w); [intros H; injection H as <-; apply only_data_refl|]. intros H. apply bind_inv in H as (n & _ & H).
  destruct (map_find _ _ _) as [r|]; [|injection H as <-; apply only_data_refl]. apply bind_inv in H as (R & ER & H). apply bind_inv in H as (d & ED & H). injection H as <-.
  apply get_region_ok in ER as [ER _]. split; [reflexivity|]. split; [reflexivity|]. split; [cbn [set_region w_regions]; apply set_nth_len|].
  intros i Ri Ei. cbn [set_region w_regions]. destruct (Nat.eq_dec r i) as [->|NE].
  - rewrite ER in Ei. injection Ei as <-. exists d. split; [eapply set_nth_same; exact ER|]. intros _. eapply insert_nonempty; exact ED.
  - exists (r_dataset Ri). rewrite set_nth_other by exact NE. rewrite with_dataset_same. auto.
Qed.
Lemma loop_only M m fuel : forall w pos text w' text', receive_loop M fuel w m pos text = Ok (w', text') -> only_data w w'.
Proof.
  induction fuel as [|fuel IH]; intros w pos text w' text' H; cbn [receive_loop] in H; destruct (_ <=? _); try discriminate; try (injection H as <- _; apply only_data_refl).
  apply bind_inv in H as ([x q] & _ & H). apply bind_inv in H as (t & _ & H). apply bind_inv in H as (w1 & E & H). eapply only_data_trans; [eapply insert_only; exact E|eapply IH; exact H].
Qed.
Lemma receive_only M w m st w' : receive M w m st = Ok w' -> only_data w w'.
Proof.
  unfold receive. intros H. apply bind_inv in H as ([w1 t] & E & H). apply loop_only in E. destruct (truthy _); injection H as <-; exact E.
Qed.
Lemma gather_only M ws st ws' i w : gather M ws st = Ok ws' -> nth_error ws i = Some w -> exists w', nth_error ws' i = Some w' /\ only_data w w'.
Proof.
  unfold gather. intros H E. apply bind_inv in H as (bufs & _ & H). apply bind_inv in H as (m & _ & H). apply on_each_inv in H.
  revert i E. induction H as [|x y l l' E1 H IH]; intros [|i] E; try discriminate; cbn in *; [|apply IH; exact E].
  injection E as <-. exists y. split; [reflexivity|]. eapply receive_only; exact E1.
Qed.

(** Apollo::train on rank [i]. *)
Lemma collective_rank M P ws st c ws' i w : collective_train M P ws st c = Ok ws' -> nth_error ws i = Some w ->
  exists v w', only_data w v /\ train_regions_by P (fun w r => region_train P w r st c false) v = Ok w' /\ nth_error ws' i = Some w'.
Proof.
  unfold collective_train. destruct (forallb _ _); [|discriminate]. intros H E. apply bind_inv in H as (ws1 & E1 & H). destruct (gather_only _ _ _ _ _ _ E1 E) as (v & EV & OD).
  apply on_each_inv in H. assert (X : forall l l' i, Forall2 (fun x y => train_regions_by P (fun w r => region_train P w r st c false) x = Ok y) l l' -> nth_error l i = Some v ->
    exists w', train_regions_by P (fun w r => region_train P w r st c false) v = Ok w' /\ nth_error l' i = Some w').
  { clear. intros l l' i F. revert i. induction F as [|x y l l' E F IH]; intros [|i] H; try discriminate; cbn in *; [injection H as <-; eauto|apply IH; exact H]. }
  destruct (X _ _ _ H EV) as (w' & T & E'). exists v, w'. auto.
Qed.

Section Platform.
Variable P : platform.

(** ** Trees stay grown *)

Definition all_grown (single persistent : Z) (w : world) : Prop := watched (grown P) single persistent w.

Lemma grown_data single persistent w w' : only_data w w' -> all_grown single persistent w -> all_grown single persistent w'.
Proof.
  intros (C & _ & L & X) (G & S & T). split; [|rewrite C; auto]. intros i R' E'. destruct (nth_error (w_regions w) i) as [R|] eqn:E.
  - destruct (X _ _ E) as (d & E1 & _). rewrite E1 in E'. injection E' as <-. exact (G _ _ E).
  - apply nth_error_None in E. assert (Y : nth_error (w_regions w') i <> None) by congruence. apply nth_error_Some in Y. lia.
Qed.

Lemma watched_trains Q single persistent w st c w' : closed P Q single persistent true -> watched Q single persistent w ->
  train_regions_by P (fun w r => region_train P w r st c false) w = Ok w' -> watched Q single persistent w' /\ List.length (w_regions w') = List.length (w_regions w).
Proof.
  intros C W H. apply watched_holds in W. assert (PR := J_preserved P Q single persistent true C (List.length (w_regions w))).
  assert (HW : holds (J Q) single persistent (List.length (w_regions w)) w').
  { unfold train_regions_by in H. destruct (truthy (cf_single_model (w_config w))) eqn:S.
    - apply bind_inv in H as (d & _ & H). eapply holds_each_on; [exact PR| |exact W|exact H]. destruct W as (_ & <- & _). exact S.
    - eapply holds_each; [exact PR| |exact W|exact H]. intros w0 r0 w1 W0 E0. eapply holds_region_train; [exact PR|exact W0| |exact E0]. discriminate. }
  apply holds_watched in HW. exact HW.
Qed.

Lemma grown_one single persistent w o w' x : all_grown single persistent w -> no_load w o -> step P w o = Ok (w', x) -> all_grown single persistent w'.
Proof.
  intros (G & S & T) NL E. assert (RUN : run P w [o] = Ok (w', [x])) by (cbn [run]; rewrite E; reflexivity). destruct (settings_run P _ _ _ _ RUN) as [S1 T1]. split; [|split; congruence].
  eapply grown_run; [exact G|exact RUN|]. intros os1 o' os2 w1 xs1 EQ R1. destruct os1 as [|o1 os1]; [|destruct os1; discriminate EQ]. cbn in EQ. injection EQ as <- _. cbn in R1. injection R1 as <- _. exact NL.
Qed.

Lemma grown_job M i os : forall single persistent ws ws' w, nth_error ws i = Some w -> all_grown single persistent w -> job_run M P ws os = Ok ws' ->
  (forall os1 o os2 ws1 w1, os = os1 ++ Local i o :: os2 -> job_run M P ws os1 = Ok ws1 -> nth_error ws1 i = Some w1 -> no_load w1 o) ->
  exists w', nth_error ws' i = Some w' /\ all_grown single persistent w'.
Proof.
  induction os as [|o os IH]; intros single persistent ws ws' w E G H NL; cbn [job_run] in H; [injection H as <-; eauto|].
  apply bind_inv in H as (ws1 & E1 & H).
  assert (X : exists w1, nth_error ws1 i = Some w1 /\ all_grown single persistent w1).
  { destruct o as [k o|st c]; cbn [job_step] in E1.
    - destruct (nth_error ws k) as [v|] eqn:EK; [|discriminate E1]. apply bind_inv in E1 as ([v' x] & EV & E1). injection E1 as <-. destruct (Nat.eq_dec k i) as [->|NE].
      + rewrite E in EK. injection EK as <-. exists v'. split; [eapply set_nth_same; exact E|]. eapply grown_one; [exact G| |exact EV]. apply (NL [] o os ws w); [reflexivity|reflexivity|exact E].
      + exists w. rewrite set_nth_other by exact NE. auto.
    - destruct (collective_rank _ _ _ _ _ _ _ _ E1 E) as (v & w1 & OD & T & E2). exists w1. split; [exact E2|].
      eapply watched_trains; [apply grown_closed|eapply grown_data; [exact OD|exact G]|exact T]. }
  destruct X as (w1 & EW & G1). eapply IH; [exact EW|exact G1|exact H|].
  intros os1 o' os2 ws2 w2 -> R1 E2. apply (NL (o :: os1) o' os2 ws2 w2); [reflexivity| |exact E2]. cbn [job_run]. rewrite E1. exact R1.
Qed.

(** ** One answer *)

Lemma start_rank cs i c files : nth_error cs i = Some (c, files) -> nth_error (start_job cs) i = Some (mkWorld c (Z.of_nat i) [] [] 0 files).
Proof.
  unfold start_job. intros E. rewrite nth_error_map.
  assert (X : nth_error (combine (seq 0 (List.length cs)) cs) i = Some (i, (c, files))).
  { assert (G : forall l k i, nth_error l i = Some (c, files) -> nth_error (combine (seq k (List.length l)) l) i = Some ((k + i)%nat, (c, files))).
    { induction l as [|y l IH]; intros k [|j] H; try discriminate; cbn in *; [injection H as ->; rewrite Nat.add_0_r; reflexivity|]. rewrite (IH (S k) _ H). f_equal. f_equal. lia. }
    exact (G _ 0%nat _ E). }
  rewrite X. reflexivity.
Qed.

Lemma one_answer_world single persistent w r R n t e os w2 xs2 : sorter_ok (p_sort P) -> all_grown single persistent w ->
  nth_error (w_regions w) r = Some R -> r_model R = MTree n false t e -> run P w os = Ok (w2, xs2) -> single = 0 -> Forall unforced os ->
  exists k, Forall (eq k) (answers os xs2 r).
Proof.
  intros SO (G & S & _) ER EM H2 S0 UF. specialize (G _ _ ER). rewrite EM in G. destruct G as (md & h & T & HN). destruct (constant_prediction _ _ _ _ SO T (HN eq_refl)) as (k & _ & K & _).
  assert (PR : predicts (r_model R) (dt_predict t)) by (left; eauto). rewrite S0 in S.
  destruct (exploits P _ _ _ _ _ _ _ H2 ER PR S UF) as [A _]. exists k. revert A. generalize (asked P w os r). induction (answers os xs2 r) as [|a l IH]; intros q A; constructor.
  - destruct q as [|[D f] q]; [discriminate A|]. cbn in A. injection A as A1 A2. symmetry. eapply K; eauto.
  - destruct q as [|[D f] q]; [discriminate A|]. cbn in A. injection A as A1 A2. eauto.
Qed.

Lemma job_one_answer M cs os ws i c files w r R n t e os2 w2 xs2 : sorter_ok (p_sort P) ->
  job_run M P (start_job cs) os = Ok ws -> nth_error cs i = Some (c, files) -> nth_error ws i = Some w ->
  (forall os1 o os2 ws1 w1, os = os1 ++ Local i o :: os2 -> job_run M P (start_job cs) os1 = Ok ws1 -> nth_error ws1 i = Some w1 -> no_load w1 o) ->
  nth_error (w_regions w) r = Some R -> r_model R = MTree n false t e ->
  run P w os2 = Ok (w2, xs2) -> cf_single_model c = 0 -> Forall unforced os2 ->
  exists k, Forall (eq k) (answers os2 xs2 r).
Proof.
  intros SO H EC EW NL ER EM H2 S UF.
  destruct (grown_job M i os (cf_single_model c) (cf_persistent c) (start_job cs) ws _ (start_rank _ _ _ _ EC)) as (w' & EW' & G).
  - split; [|split; reflexivity]. intros [|j] Q EQ; discriminate EQ.
  - exact H.
  - exact NL.
  - rewrite EW in EW'. injection EW' as <-. eapply one_answer_world; eauto.
Qed.
End Platform.
