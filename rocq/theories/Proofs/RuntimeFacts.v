(** Lemmas on the runtime: what each function can change. *)
From Coq Require Import ZArith Bool Ascii String Lia List.
From Verif Require Import Model.Base Model.Float Model.Decimal Model.DatasetM Model.ParserM Model.DatasetIO
  Model.ModelStringM Model.PolicyModelsM Model.ConfigM Model.RuntimeM Proofs.TreeFacts.
Import ListNotations.
Open Scope Z_scope.

(** ** Lists *)

Lemma set_nth_length {A} (l : list A) n x : length (set_nth l n x) = length l.
Proof. revert n. induction l; intros [|n]; cbn; auto. Qed.

Lemma nth_set_nth_eq {A} (l : list A) n x y : nth_error l n = Some y -> nth_error (set_nth l n x) n = Some x.
Proof. revert n. induction l; intros [|n]; cbn; auto; discriminate. Qed.

Lemma nth_set_nth_neq {A} (l : list A) n m x : m <> n -> nth_error (set_nth l n x) m = nth_error l m.
Proof. revert n m. induction l; intros [|n] [|m] H; cbn; auto; try lia. Qed.

Lemma set_nth_out {A} (l : list A) n x : nth_error l n = None -> set_nth l n x = l.
Proof. revert n. induction l; intros [|n]; cbn; auto; try discriminate. intros H. rewrite IHl; auto. Qed.

Lemma nth_set_nth {A} (l : list A) n m x :
  nth_error (set_nth l n x) m = if Nat.eqb m n then (match nth_error l n with Some _ => Some x | None => None end) else nth_error l m.
Proof.
  destruct (Nat.eqb_spec m n) as [->|N]; [|apply nth_set_nth_neq; auto].
  destruct (nth_error l n) eqn:E; [eapply nth_set_nth_eq; eauto|]. rewrite set_nth_out; auto.
Qed.

Lemma Forall2_nth {A B} (R : A -> B -> Prop) l l' : Forall2 R l l' ->
  forall i a, nth_error l i = Some a -> exists b, nth_error l' i = Some b /\ R a b.
Proof. induction 1; intros [|i] b E; cbn in *; try discriminate; [inversion E; subst; eauto|auto]. Qed.

Lemma Forall2_set_nth {A} (R : A -> A -> Prop) l n a b : (forall x, R x x) -> nth_error l n = Some a -> R a b ->
  Forall2 R l (set_nth l n b).
Proof.
  intros HR. revert n. induction l as [|c l IH]; intros [|n] E H; cbn in *; try discriminate.
  - inversion E; subst. constructor; auto. clear - HR. induction l; auto.
  - constructor; auto.
Qed.

Lemma Forall2_refl {A} (R : A -> A -> Prop) l : (forall x, R x x) -> Forall2 R l l.
Proof. intros H. induction l; auto. Qed.

Lemma Forall2_trans {A} (R : A -> A -> Prop) l m n : (forall x y z, R x y -> R y z -> R x z) ->
  Forall2 R l m -> Forall2 R m n -> Forall2 R l n.
Proof. intros T H. revert n. induction H; intros n H'; inversion H'; subst; constructor; eauto. Qed.

Lemma Forall2_length' {A B} (R : A -> B -> Prop) l l' : Forall2 R l l' -> length l' = length l.
Proof. induction 1; cbn; auto. Qed.

(** ** Regions and contexts *)

Lemma get_region_ok w r R : get_region w r = Ok R <-> nth_error (w_regions w) r = Some R /\ r_alive R = true.
Proof.
  unfold get_region. destruct (nth_error (w_regions w) r) as [R'|].
  - destruct (r_alive R') eqn:E; split.
    + intros H; inversion H; subst; auto.
    + intros [H _]; inversion H; auto.
    + discriminate.
    + intros [H A]; inversion H; subst; congruence.
  - split; [discriminate|intros [H _]; discriminate].
Qed.

Lemma regions_set_region w r R : w_regions (set_region w r R) = set_nth (w_regions w) r R.
Proof. reflexivity. Qed.

(** The worlds agree on everything but the regions and the files. *)
Definition same_globals (w w' : world) : Prop :=
  w_config w' = w_config w /\ w_rank w' = w_rank w /\ w_registry w' = w_registry w /\ w_executions w' = w_executions w.

Lemma same_globals_refl w : same_globals w w.
Proof. repeat split. Qed.

Lemma same_globals_trans a b c : same_globals a b -> same_globals b c -> same_globals a c.
Proof. unfold same_globals. intuition congruence. Qed.

Section Platform.
Variable P : platform.

(** ** Training *)

(** [m'] comes from [m] by training on data sets that [Q] allows. *)
Inductive trained_by (Q : model -> dataset -> Prop) : model -> model -> Prop :=
| tb_refl m : trained_by Q m m
| tb_step m d m1 m2 : Q m d -> m_train P m d = Ok m1 -> trained_by Q m1 m2 -> trained_by Q m m2.

Lemma trained_by_trans Q a b c : trained_by Q a b -> trained_by Q b c -> trained_by Q a c.
Proof. induction 1; auto. intros. econstructor; eauto. Qed.

Lemma trained_by_one (Q : model -> dataset -> Prop) m d m' : Q m d -> m_train P m d = Ok m' -> trained_by Q m m'.
Proof. intros. econstructor; eauto. constructor. Qed.

Lemma trained_by_weaken (Q Q' : model -> dataset -> Prop) m m' : (forall m d, Q m d -> Q' m d) -> trained_by Q m m' -> trained_by Q' m m'.
Proof. intros H. induction 1; econstructor; eauto. Qed.

(** Only the model has changed, by training. *)
Definition retrained (Q : dataset -> model -> dataset -> Prop) (R R' : region) : Prop :=
  exists m, R' = with_model R m /\ trained_by (Q (r_dataset R)) (r_model R) m.

Lemma with_model_same R : with_model R (r_model R) = R.
Proof. destruct R; reflexivity. Qed.

Lemma retrained_refl Q R : retrained Q R R.
Proof. exists (r_model R). split; [symmetry; apply with_model_same|constructor]. Qed.

Lemma retrained_trans Q a b c : retrained Q a b -> retrained Q b c -> retrained Q a c.
Proof.
  intros (m & -> & T) (m' & -> & T'). exists m'. split; [reflexivity|]. cbn in T'. eapply trained_by_trans; eauto.
Qed.

(** A transition that only trains models and writes files. *)
Definition training (Q : dataset -> model -> dataset -> Prop) (w w' : world) : Prop :=
  same_globals w w' /\ Forall2 (retrained Q) (w_regions w) (w_regions w').

Lemma training_refl Q w : training Q w w.
Proof. split; [apply same_globals_refl|apply Forall2_refl, retrained_refl]. Qed.

Lemma training_trans Q a b c : training Q a b -> training Q b c -> training Q a c.
Proof.
  intros [G F] [G' F']. split; [eapply same_globals_trans; eauto|].
  eapply Forall2_trans; [apply retrained_trans|exact F|exact F'].
Qed.

Lemma training_files Q w f : training Q w (set_files w f).
Proof. split; [repeat split|apply Forall2_refl, retrained_refl]. Qed.

Lemma training_set Q w r R m : get_region w r = Ok R -> trained_by (Q (r_dataset R)) (r_model R) m ->
  training Q w (set_region w r (with_model R m)).
Proof.
  intros E T. apply get_region_ok in E. destruct E as [E _]. split; [repeat split|].
  cbn. eapply Forall2_set_nth; [apply retrained_refl|exact E|]. exists m; auto.
Qed.

Lemma trace_best_training Q w R step w' : trace_best w R step = Ok w' -> training Q w w' /\ w_regions w' = w_regions w.
Proof.
  unfold trace_best. destruct (negb _).
  - intros H; inversion H; subst. split; [apply training_refl|auto].
  - destruct (ds_find_min (r_dataset R) [] []) as [[? ?] best]. intros H. apply bind_inv in H. destruct H as (txt & _ & H).
    inversion H; subst. split; [apply training_files|auto].
Qed.

Lemma store_model_training Q w m path w' : store_model w m path = Ok w' -> training Q w w'.
Proof.
  unfold store_model. intros H. apply bind_inv in H. destruct H as (s & _ & H).
  destruct s; inversion H; subst; [apply training_files|apply training_refl].
Qed.

Lemma train_body_training (Q : dataset -> model -> dataset -> Prop) w r step w' : train_body P w r step = Ok w' ->
  (forall R, get_region w r = Ok R -> Q (r_dataset R) (r_model R) (r_dataset R)) -> training Q w w'.
Proof.
  unfold train_body. intros H HQ. apply bind_inv in H. destruct H as (R & ER & H). specialize (HQ _ ER).
  destruct (ds_size (r_dataset R) <=? 0); [inversion H; subst; apply training_refl|].
  destruct (negb _); [discriminate|].
  apply bind_inv in H. destruct H as (w1 & E1 & H). destruct (trace_best_training Q _ _ _ _ E1) as [T1 S1].
  apply bind_inv in H. destruct H as (m & Em & H).
  assert (T2 : training Q w1 (set_region w1 r (with_model R m))).
  { apply training_set; [|eapply trained_by_one; eauto]. apply get_region_ok in ER. apply get_region_ok. rewrite S1. exact ER. }
  destruct (truthy _); [discriminate|].
  assert (T3 := training_trans _ _ _ _ T1 T2).
  destruct (truthy _); [|inversion H; subst; exact T3].
  apply bind_inv in H. destruct H as (w2 & E2 & H).
  eapply training_trans; [exact T3|]. eapply training_trans; eapply store_model_training; eauto.
Qed.

Lemma train_quietly_training (Q : dataset -> model -> dataset -> Prop) w r step w' : train_quietly P w r step = Ok w' ->
  (forall own m, m_trainable m = true -> Q own m own) -> training Q w w'.
Proof.
  unfold train_quietly. intros H HQ. apply bind_inv in H. destruct H as (R & ER & H).
  destruct (negb (m_trainable (r_model R))) eqn:E; [inversion H; subst; apply training_refl|].
  apply (train_body_training _ _ _ _ _ H). intros R' ER'. rewrite ER in ER'. inversion ER'; subst.
  apply HQ. apply negb_false_iff; auto.
Qed.

Lemma train_each_on_training (Q : dataset -> model -> dataset -> Prop) rs d : (forall own m, Q own m d) ->
  forall w w', train_each_on P w rs d = Ok w' -> training Q w w'.
Proof.
  intros HQ. induction rs as [|r rs IH]; cbn; intros w w' H.
  - inversion H; subst. apply training_refl.
  - apply bind_inv in H. destruct H as (R & ER & H). apply bind_inv in H. destruct H as (m & Em & H).
    eapply training_trans; [|eapply IH; eauto]. apply training_set; auto. eapply trained_by_one; eauto.
Qed.

Lemma each_region_training Q f rs : (forall w r w', f w r = Ok w' -> training Q w w') ->
  forall w w', each_region f w rs = Ok w' -> training Q w w'.
Proof.
  intros HF. induction rs as [|r rs IH]; cbn; intros w w' H.
  - inversion H; subst. apply training_refl.
  - apply bind_inv in H. destruct H as (w1 & E & H). eapply training_trans; eauto.
Qed.

(** What automatic training may do: a trainable model on its own data, or under SINGLE_MODEL any model on merged data. *)
Definition auto_data (c : config) (own : dataset) (m : model) (d : dataset) : Prop :=
  truthy (cf_single_model c) = true \/ (m_trainable m = true /\ d = own).

Lemma auto_train_training w r w' : auto_train P w r = Ok w' -> training (auto_data (w_config w)) w w'.
Proof.
  unfold auto_train. intros H. apply bind_inv in H. destruct H as (R & ER & H).
  assert (HQ : forall own m, m_trainable m = true -> auto_data (w_config w) own m own) by (intros; right; auto).
  destruct (negb _); [inversion H; subst; apply training_refl|].
  destruct (_ && _).
  - unfold train_all_by, train_regions_by in H. destruct (truthy (cf_collective _)); [discriminate|].
    destruct (truthy (cf_single_model (w_config w))) eqn:ES.
    + apply bind_inv in H. destruct H as (d & _ & H). eapply train_each_on_training; eauto.
      intros; left; auto.
    + eapply each_region_training; [|exact H]. intros v x v' E. cbn in E. eapply train_quietly_training; eauto.
  - destruct (_ && _); [eapply train_quietly_training; eauto|].
    destruct (_ && _); [eapply train_quietly_training; eauto|]. inversion H; subst. apply training_refl.
Qed.

Lemma training_region Q w w' i R : training Q w w' -> nth_error (w_regions w) i = Some R ->
  exists R', nth_error (w_regions w') i = Some R' /\ retrained Q R R'.
Proof. intros [_ F] E. eapply Forall2_nth; eauto. Qed.

Lemma training_region_back Q w w' i R' : training Q w w' -> nth_error (w_regions w') i = Some R' ->
  exists R, nth_error (w_regions w) i = Some R /\ retrained Q R R'.
Proof.
  intros [G F] E. assert (L := Forall2_length' _ _ _ F).
  assert (I : (i < length (w_regions w))%nat). { rewrite <- L. apply nth_error_Some. congruence. }
  destruct (nth_error (w_regions w) i) as [R|] eqn:ER; [|apply nth_error_None in ER; lia].
  destruct (Forall2_nth _ _ _ F _ _ ER) as (R2 & E2 & T). exists R. split; auto. congruence.
Qed.

Lemma training_context Q w w' p : training Q w w' -> get_context w' p = get_context w p.
Proof.
  intros T. unfold get_context. destruct (nth_error (w_regions w) (fst p)) as [R|] eqn:E.
  - destruct (training_region _ _ _ _ _ T E) as (R' & E' & m & -> & _). rewrite E'. cbn. reflexivity.
  - destruct (nth_error (w_regions w') (fst p)) as [R'|] eqn:E'; auto.
    destruct (training_region_back _ _ _ _ _ T E') as (R & ER & _). congruence.
Qed.
End Platform.
