(** Exploring, training and exploiting during a run. *)
From Coq Require Import ZArith Bool Ascii String Lia List.
From Verif Require Import Model.Base Model.Float Model.DatasetM Model.ParserM Model.DatasetIO Model.TreeM Model.ForestM Model.ModelStringM Model.PolicyModelsM Model.ConfigM Model.RuntimeM
  Spec.DatasetSpec Spec.TreeSpec Spec.PolicyModelsSpec Spec.RuntimeSpec Proofs.TreeFacts Proofs.TreeLabels Proofs.ModelStringFacts Proofs.RuntimeFacts Proofs.RuntimeRegistry Proofs.RuntimeAccount Proofs.RuntimeTraining
  Proofs.RuntimePreserve Proofs.RuntimeWatch.
Import ListNotations.
Open Scope Z_scope.

Section Platform.
Variable P : platform.

(** ** One region during a run *)

Section Region.
Variable r0 : nat.
Variable Q : model -> dataset -> Prop.
Variables single persistent : Z.
Variable forced : bool.
Hypothesis QT : forall m0 d0 m d m', Q m0 d0 -> Q m d -> forced = true \/ m_trainable m0 = true -> m_train P m d = Ok m' -> Q m' d.
Hypothesis QS : forall m d d2 m', truthy single = true -> Q m d -> m_train P m d2 = Ok m' -> Q m' d.
Hypothesis QI : forall m d f p x d', truthy persistent || m_trainable m = true -> Q m d -> ds_insert d f p x = Ok d' -> Q m d'.

Definition here (w : world) : Prop :=
  (exists R, nth_error (w_regions w) r0 = Some R /\ Q (r_model R) (r_dataset R)) /\ cf_single_model (w_config w) = single /\ cf_persistent (w_config w) = persistent.

Definition at_r (i : nat) (m : model) (d : dataset) : Prop := i = r0 -> Q m d.

Lemma at_r_closed : closed P at_r single persistent forced.
Proof. constructor; unfold at_r; intros; eauto. Qed.

Lemma here_watched w : here w <-> watched at_r single persistent w /\ (r0 < List.length (w_regions w))%nat.
Proof.
  split.
  - intros ((R & ER & H) & S & T). split; [split; [|auto]|apply nth_error_Some; congruence]. intros i Ri Ei ->. rewrite ER in Ei. inversion Ei; subst. auto.
  - intros ((H & S & T) & L). split; [|auto]. destruct (nth_error (w_regions w) r0) as [R|] eqn:E; [|apply nth_error_None in E; lia]. exists R. split; auto. exact (H _ _ E eq_refl).
Qed.

Lemma here_step w o w' x : here w -> step P w o = Ok (w', x) ->
  match o with OpGetPolicy r _ _ => r <> r0 | OpTrain _ _ _ force => force = true -> forced = true | _ => True end -> here w'.
Proof.
  intros H E O. apply here_watched in H. destruct H as [H L]. apply here_watched.
  assert (ORD : match o with OpRegion _ _ _ _ _ _ _ | OpGetPolicy _ _ _ => False | OpTrain _ _ _ force => force = true -> forced = true | _ => True end ->
    watched at_r single persistent w' /\ (r0 < List.length (w_regions w'))%nat).
  { intros K. destruct (watched_step P at_r single persistent forced at_r_closed _ _ _ _ H E K) as [A B]. rewrite B. auto. }
  destruct o as [nf nm np mt info yaml init|r async now|r fs now|r p y|r p D|r p now early|r p y|r st collect force|st collect|r|r waits|waits|p ms]; try (apply ORD; auto; fail).
  - cbn in E. apply bind_inv in E. destruct E as ([w1 r] & E1 & E). inversion E; subst. destruct (watched_region P at_r single persistent forced at_r_closed _ _ _ _ _ _ _ _ _ _ H E1) as [A B].
    + right. intros m d X. exfalso. lia.
    + split; auto. lia.
  - split.
    + eapply watched_get_policy; [exact H|exact E|]. intros R y k m ER EM HQ X. contradiction.
    + cbn in E. apply bind_inv in E. destruct E as (q & EQ & E). apply bind_inv in E. destruct E as ([w1 k] & E1 & E). inversion E; subst.
      destruct (get_policy_exact _ _ _ _ _ _ _ E1) as (R & c & m & _ & _ & _ & _ & EL & _). lia.
Qed.
End Region.

(** The call on the region itself. *)
Lemma ask_step w r p D w' x R : step P w (OpGetPolicy r p D) = Ok (w', x) -> nth_error (w_regions w) r = Some R ->
  exists k m R', x = GotPolicy k /\ m_get_index P D (r_model R) (call_features w r p) = Ok (k, m) /\
    nth_error (w_regions w') r = Some R' /\ r_model R' = m /\ r_dataset R' = r_dataset R /\ w_config w' = w_config w.
Proof.
  cbn [step]. intros E ER. apply bind_inv in E. destruct E as (q & EQ & E). apply bind_inv in E. destruct E as ([w1 k] & E1 & E). inversion E; subst.
  destruct (get_policy_exact _ _ _ _ _ _ _ E1) as (R1 & c & m & ER1 & EC & EM & EW & _ & ES). rewrite ER in ER1. inversion ER1; subst R1.
  destruct (ES _ _ ER) as (R' & A & B1 & B2). rewrite Nat.eqb_refl in B1. exists k, m, R'. split; [reflexivity|]. unfold call_features. rewrite EQ, EC. auto.
Qed.

(** ** Exploring *)

Definition learner (m : model) : Prop := match m with MTree _ _ _ _ | MForest _ _ _ _ => True | _ => False end.

Lemma learner_train m d m' : learner m -> m_train P m d = Ok m' -> learner m' /\ m_trainable m' = false.
Proof.
  destruct m; try contradiction; intros _ E; cbn [m_train] in E; destruct (ds_find_min d [] []) as [[fs rs] best]; apply bind_inv in E; destruct E as (t & _ & E); inversion E; subst; cbn; auto.
Qed.

Lemma learner_get m D x k m' : learner m -> m_trainable m = false -> m_get_index P D m x = Ok (k, m') -> m' = m.
Proof.
  destruct m as [| | | | |n [|] t e|n [|] f e|]; try contradiction; cbn [m_trainable]; intros _ T E; try discriminate T; cbn [m_get_index negb] in E; apply bind_inv in E;
    destruct E as (c & _ & E); inversion E; subst; auto.
Qed.

(** Once trained a tree or forest stays trained. *)
Definition done (m : model) (d : dataset) : Prop := learner m /\ m_trainable m = false.

Lemma done_stays os : forall w w' xs r R, run P w os = Ok (w', xs) -> nth_error (w_regions w) r = Some R -> done (r_model R) (r_dataset R) ->
  exists R', nth_error (w_regions w') r = Some R' /\ done (r_model R') (r_dataset R').
Proof.
  induction os as [|o os IH]; intros w w' xs r R H ER DN.
  - cbn in H. inversion H; subst. eauto.
  - cbn [run] in H. apply bind_inv in H. destruct H as ([w1 x] & E1 & H). apply bind_inv in H. destruct H as ([w2 xs2] & E2 & H). inversion H; subst. clear H.
    assert (K : exists R1, nth_error (w_regions w1) r = Some R1 /\ done (r_model R1) (r_dataset R1)).
    { assert (GP : (exists p D, o = OpGetPolicy r p D) \/ match o with OpGetPolicy i _ _ => i <> r | _ => True end).
      { destruct o as [| | | |i p D| | | | | | | |]; auto. destruct (Nat.eq_dec i r) as [->|]; eauto. }
      destruct GP as [(p & D & ->)|GP].
      - destruct (ask_step _ _ _ _ _ _ _ E1 ER) as (k & m & R1 & _ & EM & ER1 & X1 & X2 & _). exists R1. split; auto. destruct DN as [L T].
        rewrite (learner_get _ _ _ _ _ L T EM) in X1. rewrite X1. split; auto.
      - assert (HH : here r done (cf_single_model (w_config w1)) (cf_persistent (w_config w1)) w1 \/ True) by auto. clear HH.
        destruct (here_step r done (cf_single_model (w_config w)) (cf_persistent (w_config w)) true) with (w := w) (o := o) (w' := w1) (x := x) as (A & _); auto.
        + intros m0 d0 m d m' _ [L _] _ T. exact (learner_train _ _ _ L T).
        + intros m d d2 m' _ [L _] T. exact (learner_train _ _ _ L T).
        + split; [eauto|auto].
        + destruct o; auto. }
    destruct K as (R1 & ER1 & DN1). eapply IH; eauto.
Qed.

Definition same_but_explorer (m m' : model) (e' : model) : Prop :=
  match m with
  | MTree n true t _ => m' = MTree n true t (Some e')
  | MForest n true f _ => m' = MForest n true f (Some e')
  | _ => False
  end.

Lemma explores os : forall w w' xs r R R' e, run P w os = Ok (w', xs) -> nth_error (w_regions w) r = Some R -> exploring (r_model R) e ->
  nth_error (w_regions w') r = Some R' -> m_trainable (r_model R') = true ->
  exists e', exploring (r_model R') e' /\ ask P e (asked P w os r) = Ok (answers os xs r, e').
Proof.
  induction os as [|o os IH]; intros w w' xs r R R' e H ER EX ER' T.
  - cbn in H. inversion H; subst. rewrite ER in ER'. inversion ER'; subst. exists e. split; auto.
  - cbn [run] in H. apply bind_inv in H. destruct H as ([w1 x] & E1 & H). apply bind_inv in H. destruct H as ([w2 xs2] & E2 & H). inversion H; subst. clear H.
    assert (L : learner (r_model R) /\ m_trainable (r_model R) = true) by (destruct EX as [(n & t & ->)|(n & f & ->)]; cbn; auto).
    assert (GP : (exists p D, o = OpGetPolicy r p D) \/ match o with OpGetPolicy i _ _ => i <> r | _ => True end).
    { destruct o as [| | | |i p D| | | | | | | |]; auto. destruct (Nat.eq_dec i r) as [->|]; eauto. }
    destruct GP as [(p & D & ->)|GP].
    + destruct (ask_step _ _ _ _ _ _ _ E1 ER) as (k & m & R1 & -> & EM & ER1 & X1 & X2 & _).
      assert (G : exists e1, m_get_index P D e (call_features w r p) = Ok (k, e1) /\ exploring m e1).
      { destruct EX as [(n & t & EX)|(n & f & EX)]; rewrite EX in EM; cbn [m_get_index negb] in EM; apply bind_inv in EM; destruct EM as ([c e1] & EM & EQ); inversion EQ; subst;
          exists e1; split; auto; [left|right]; eauto. }
      destruct G as (e1 & G1 & G2). rewrite <- X1 in G2. destruct (IH _ _ _ _ _ _ _ E2 ER1 G2 ER' T) as (e' & A & B). exists e'. split; auto.
      cbn [asked answers]. rewrite Nat.eqb_refl, E1. cbn [app ask]. rewrite G1. cbn [bind]. rewrite B. reflexivity.
    + assert (K : exists R1, nth_error (w_regions w1) r = Some R1 /\ (r_model R1 = r_model R \/ done (r_model R1) (r_dataset R1))).
      { destruct (here_step r (fun m d => m = r_model R \/ done m d) (cf_single_model (w_config w)) (cf_persistent (w_config w)) true) with (w := w) (o := o) (w' := w1) (x := x) as (A & _); auto.
        - intros m0 d0 m d m' _ [->|[LL _]] _ TT; right; eapply learner_train; eauto. apply L.
        - intros m d d2 m' _ [->|[LL _]] TT; right; eapply learner_train; eauto. apply L.
        - split; [eauto|auto].
        - destruct o; auto. }
      destruct K as (R1 & ER1 & [EM|DN]).
      * rewrite <- EM in EX. destruct (IH _ _ _ _ _ _ _ E2 ER1 EX ER' T) as (e' & A & B). exists e'. split; auto.
        assert (N1 : asked P w (o :: os) r = asked P w1 os r).
        { cbn [asked]. rewrite E1. destruct o as [| | | |i p D| | | | | | | |]; auto. apply Nat.eqb_neq in GP. rewrite GP. reflexivity. }
        assert (N2 : answers (o :: os) (x :: xs2) r = answers os xs2 r).
        { cbn [answers]. destruct o as [| | | |i p D| | | | | | | |]; auto. apply Nat.eqb_neq in GP. rewrite GP. destruct x; reflexivity. }
        rewrite N1, N2. exact B.
      * exfalso. destruct (done_stays _ _ _ _ _ _ E2 ER1 DN) as (R2 & ER2 & _ & D2). congruence.
Qed.

(** What a region explores with from its creation on. *)
Lemma created_exploring name nf np ps init m : name = $"DecisionTree" \/ name = $"RandomForest" -> create_model P name nf np ps init = Ok m ->
  exists e, exploring m e /\ create_model P (match param_find ($"explore") ps with Some s => s | None => $"RoundRobin" end) nf np [] init = Ok e.
Proof.
  assert (F : forall s, create_fuel P 2 s nf np [] init = create_fuel P 3 s nf np [] init).
  { intros s. reflexivity. }
  unfold create_model. intros [->| ->] E; remember 2%nat as two; cbn [create_fuel] in E; subst two; cbn [bytes_eqb] in E.
  - change (bytes_eqb ($"DecisionTree") ($"Static")) with false in E. change (bytes_eqb ($"DecisionTree") ($"DatasetMap")) with false in E.
    change (bytes_eqb ($"DecisionTree") ($"Random")) with false in E. change (bytes_eqb ($"DecisionTree") ($"RoundRobin")) with false in E.
    change (bytes_eqb ($"DecisionTree") ($"DecisionTree")) with true in E. cbv iota in E.
    apply bind_inv in E. destruct E as (md & _ & E). apply bind_inv in E. destruct E as (e & EE & E). inversion E; subst. exists e. split; [left; eauto|].
    destruct (param_find ($"explore") ps); rewrite F in EE; exact EE.
  - change (bytes_eqb ($"RandomForest") ($"Static")) with false in E. change (bytes_eqb ($"RandomForest") ($"DatasetMap")) with false in E.
    change (bytes_eqb ($"RandomForest") ($"Random")) with false in E. change (bytes_eqb ($"RandomForest") ($"RoundRobin")) with false in E.
    change (bytes_eqb ($"RandomForest") ($"DecisionTree")) with false in E. change (bytes_eqb ($"RandomForest") ($"RandomForest")) with true in E. cbv iota in E.
    apply bind_inv in E. destruct E as (nt & _ & E). apply bind_inv in E. destruct E as (md & _ & E). apply bind_inv in E. destruct E as (e & EE & E). inversion E; subst. exists e. split; [right; eauto|].
    destruct (param_find ($"explore") ps); rewrite F in EE; exact EE.
Qed.

(** ** Training ends it *)

Lemma training_ends w r st collect force w' y R R' e : step P w (OpTrain r st collect force) = Ok (w', y) -> nth_error (w_regions w) r = Some R -> exploring (r_model R) e ->
  nth_error (w_regions w') r = Some R' -> 0 < ds_size (r_dataset R') -> exists predict, predicts (r_model R') predict.
Proof.
  intros E ER EX ER' SZ. assert (L : learner (r_model R) /\ m_trainable (r_model R) = true) by (destruct EX as [(n & t & ->)|(n & f & ->)]; cbn; auto).
  enough (D : learner (r_model R') /\ m_trainable (r_model R') = false).
  { destruct D as [D1 D2]. destruct (r_model R') as [| | | | |n tr t e'|n tr f e'|]; try contradiction; cbn in D2; subst tr; eexists; [left|right]; eauto. }
  cbn [step] in E. apply bind_inv in E. destruct E as (w0 & E & EQ). inversion EQ; subst w0 y. clear EQ. unfold region_train in E. apply bind_inv in E. destruct E as (R1 & ER1 & E).
  apply get_region_ok in ER1. destruct ER1 as [ER1 _]. rewrite ER in ER1. inversion ER1; subst R1. rewrite (proj2 L) in E. cbn [negb] in E. rewrite andb_false_r in E.
  apply bind_inv in E. destruct E as (w1 & EC & E).
  assert (K : exists R1, nth_error (w_regions w1) r = Some R1 /\ learner (r_model R1)).
  { destruct collect; [|inversion EC; subst; exists R; split; [auto|apply L]].
    destruct (here_step r (fun m _ => learner m) (cf_single_model (w_config w)) (cf_persistent (w_config w)) true) with (w := w) (o := OpCollect r) (w' := w1) (x := Done) as (A & _); auto.
    - intros. eapply learner_train; eauto.
    - intros. eapply learner_train; eauto.
    - split; [|auto]. exists R. split; [auto|apply L].
    - cbn [step]. rewrite EC. reflexivity. }
  destruct K as (R1 & K1 & K2). destruct (train_body_exact P _ _ _ _ E) as (_ & _ & TB). destruct (TB _ _ K1) as (m & TB1 & TB2). rewrite Nat.eqb_refl in TB2.
  rewrite ER' in TB1. inversion TB1; subst R'. cbn in SZ |- *. destruct TB2 as [TB2 _]. eapply learner_train; [exact K2|]. apply TB2. exact SZ.
Qed.

(** ** Exploiting *)

Lemma exploits os : forall w w' xs r R predict, run P w os = Ok (w', xs) -> nth_error (w_regions w) r = Some R -> predicts (r_model R) predict ->
  cf_single_model (w_config w) = 0 -> Forall unforced os ->
  map (fun c => predict (snd c)) (asked P w os r) = map Ok (answers os xs r) /\
  exists R', nth_error (w_regions w') r = Some R' /\ r_model R' = r_model R /\ (cf_persistent (w_config w) = 0 -> r_dataset R' = r_dataset R).
Proof.
  induction os as [|o os IH]; intros w w' xs r R predict H ER PR S UF.
  - cbn in H. inversion H; subst. split; [reflexivity|]. eauto.
  - cbn [run] in H. apply bind_inv in H. destruct H as ([w1 x] & E1 & H). apply bind_inv in H. destruct H as ([w2 xs2] & E2 & H). inversion H; subst. clear H.
    inversion UF; subst.
    assert (L : learner (r_model R) /\ m_trainable (r_model R) = false) by (destruct PR as [(n & t & e & -> & _)|(n & f & e & -> & _)]; cbn; auto).
    assert (GP : (exists p D, o = OpGetPolicy r p D) \/ match o with OpGetPolicy i _ _ => i <> r | _ => True end).
    { destruct o as [| | | |i p D| | | | | | | |]; auto. destruct (Nat.eq_dec i r) as [->|]; eauto. }
    destruct GP as [(p & D & ->)|GP].
    + destruct (ask_step _ _ _ _ _ _ _ E1 ER) as (k & m & R1 & -> & EM & ER1 & X1 & X2 & X3).
      assert (m = r_model R) by (eapply learner_get; [apply L|apply L|exact EM]). subst m.
      assert (G : predict (call_features w r p) = Ok k).
      { destruct PR as [(n & t & e & PR & ->)|(n & f & e & PR & ->)]; rewrite PR in EM; cbn [m_get_index negb] in EM; apply bind_inv in EM; destruct EM as (c & EM & EQ); inversion EQ; subst; exact EM. }
      rewrite <- H in PR. rewrite <- X3 in S. destruct (IH _ _ _ _ _ _ E2 ER1 PR S) as (A & R' & B1 & B2 & B3); auto. split.
      * cbn [asked answers]. rewrite Nat.eqb_refl, E1. cbn [app map snd]. rewrite G, A. reflexivity.
      * exists R'. split; auto. split; [congruence|]. intros T. rewrite X3 in B3. rewrite B3 by auto. exact X2.
    + assert (K : (exists R1, nth_error (w_regions w1) r = Some R1 /\ r_model R1 = r_model R /\ (cf_persistent (w_config w) = 0 -> r_dataset R1 = r_dataset R)) /\
        cf_single_model (w_config w1) = 0 /\ cf_persistent (w_config w1) = cf_persistent (w_config w)).
      { apply (here_step r (fun m d => m = r_model R /\ (cf_persistent (w_config w) = 0 -> d = r_dataset R)) 0 (cf_persistent (w_config w)) false) with (w := w) (o := o) (x := x); auto.
        - intros m0 d0 m d m' [-> _] _ [FF|TT] _; [discriminate FF|]. rewrite (proj2 L) in TT. discriminate TT.
        - intros m d d2 m' TT. discriminate TT.
        - intros m d f p y d' TT [-> HD] EI. split; auto. intros T. rewrite T, (proj2 L) in TT. discriminate TT.
        - split; [exists R; auto|auto].
        - destruct o; auto. cbn in *. congruence. }
      destruct K as ((R1 & ER1 & EM & ED) & S1 & T1). rewrite <- EM in PR. destruct (IH _ _ _ _ _ _ E2 ER1 PR S1) as (A & R' & B1 & B2 & B3); auto. split.
      * assert (N1 : asked P w (o :: os) r = asked P w1 os r).
        { cbn [asked]. rewrite E1. destruct o as [| | | |i p D| | | | | | | |]; auto. apply Nat.eqb_neq in GP. rewrite GP. reflexivity. }
        assert (N2 : answers (o :: os) (x :: xs2) r = answers os xs2 r).
        { cbn [answers]. destruct o as [| | | |i p D| | | | | | | |]; auto. apply Nat.eqb_neq in GP. rewrite GP. destruct x; reflexivity. }
        rewrite N1, N2. exact A.
      * exists R'. split; auto. split; [congruence|]. intros T. rewrite <- ED by auto. apply B3. congruence.
Qed.

(** ** Settings that no call changes *)

Lemma settings_run os : forall w w' xs, run P w os = Ok (w', xs) ->
  cf_single_model (w_config w') = cf_single_model (w_config w) /\ cf_persistent (w_config w') = cf_persistent (w_config w).
Proof.
  induction os as [|o os IH]; intros w w' xs H.
  - cbn in H. inversion H; subst. auto.
  - cbn [run] in H. apply bind_inv in H. destruct H as ([w1 x] & E1 & H). apply bind_inv in H. destruct H as ([w2 xs2] & E2 & H). inversion H; subst. clear H.
    destruct (IH _ _ _ E2) as [A B]. rewrite A, B. clear A B IH E2.
    assert (C : closed P (fun _ _ _ => True) (cf_single_model (w_config w)) (cf_persistent (w_config w)) true) by (constructor; auto).
    assert (W : watched (fun _ _ _ => True) (cf_single_model (w_config w)) (cf_persistent (w_config w)) w) by (split; auto).
    enough (W1 : watched (fun _ _ _ => True) (cf_single_model (w_config w)) (cf_persistent (w_config w)) w1) by apply W1.
    assert (ORD : match o with OpRegion _ _ _ _ _ _ _ | OpGetPolicy _ _ _ => False | OpTrain _ _ _ force => force = true -> true = true | _ => True end ->
      watched (fun _ _ _ => True) (cf_single_model (w_config w)) (cf_persistent (w_config w)) w1) by (intros K; eapply watched_step; eauto).
    destruct o as [nf nm np mt info yaml init|r async now|r fs now|r p y|r p D|r p now early|r p y|r st collect force|st collect|r|r waits|waits|p ms]; try (apply ORD; auto; fail).
    + cbn in E1. apply bind_inv in E1. destruct E1 as ([v r] & E & E1). inversion E1; subst. destruct (watched_region P _ _ _ true C _ _ _ _ _ _ _ _ _ _ W E) as [A _]; auto.
    + eapply watched_get_policy; [exact W|exact E1|]. auto.
Qed.

(** ** Trees answer with one policy *)

Definition grown (i : nat) (m : model) (d : dataset) : Prop :=
  match m with
  | MTree _ tr t _ => exists md h, trained (p_sort P) md h t /\ (tr = false -> h <> [])
  | _ => True
  end.

Lemma grown_train i m d d2 m' : grown i m d -> m_train P m d2 = Ok m' -> grown i m' d.
Proof.
  destruct m as [| | | | |n tr t e|n tr f e|]; cbn [m_train]; intros G E; try (inversion E; subst; exact Logic.I).
  - destruct (ds_find_min d2 [] []) as [[fs rs] best]. apply bind_inv in E. destruct E as (t' & ET & E). inversion E; subst. destruct G as (md & h & G & _).
    exists md, (h ++ [(fs, rs)]). split; [econstructor; eauto|]. intros _ X. apply app_eq_nil in X. destruct X as [_ X]. discriminate X.
  - destruct (ds_find_min d2 [] []) as [[fs rs] best]. apply bind_inv in E. destruct E as (t' & ET & E). inversion E; subst. exact Logic.I.
  - apply bind_inv in E. destruct E as (t' & ET & E). inversion E; subst. exact Logic.I.
Qed.

Lemma grown_get i D m x k m' d : grown i m d -> m_get_index P D m x = Ok (k, m') -> grown i m' d.
Proof.
  intros G E. destruct m as [| |n last|q| |n [|] t e|n [|] f e|]; cbn [m_get_index negb] in E; try (apply bind_inv in E; destruct E as (c & _ & E); inversion E; subst; exact G).
  - inversion E; subst; exact G.
  - destruct (1 <? count); inversion E; subst; exact Logic.I.
  - destruct (n =? 0); [discriminate|]. inversion E; subst. exact Logic.I.
  - destruct q; inversion E; subst. exact Logic.I.
  - destruct (nan_free x); cbn in E; [|discriminate]. destruct (map_find _ _ _) as [[? ?]|]; inversion E; subst. exact Logic.I.
  - destruct e as [e|]; [|discriminate]. apply bind_inv in E. destruct E as ([c e'] & _ & E). inversion E; subst. exact G.
  - destruct e as [e|]; [|discriminate]. apply bind_inv in E. destruct E as ([c e'] & _ & E). inversion E; subst. exact Logic.I.
  - apply bind_inv in E. destruct E as ([c N] & _ & E). inversion E; subst. exact Logic.I.
Qed.

Lemma create_grown i name nf np ps init m : create_model P name nf np ps init = Ok m -> grown i m [].
Proof.
  unfold create_model. generalize 2%nat. intros f. cbn [create_fuel].
  destruct (bytes_eqb name ($"Static")). { unfold create_static. intros E. apply bind_inv in E. destruct E as (p & _ & E). destruct (p <? 0); inversion E; exact Logic.I. }
  destruct (bytes_eqb name ($"DatasetMap")). { intros E; inversion E; exact Logic.I. }
  destruct (bytes_eqb name ($"Random")). { unfold new_random. destruct (_ <? _); intros E; inversion E; exact Logic.I. }
  destruct (bytes_eqb name ($"RoundRobin")). { intros E; inversion E; exact Logic.I. }
  destruct (bytes_eqb name ($"DecisionTree")).
  { intros E. apply bind_inv in E. destruct E as (md & _ & E). apply bind_inv in E. destruct E as (e & _ & E). inversion E; subst. exists md, []. split; [constructor|discriminate]. }
  destruct (bytes_eqb name ($"RandomForest")).
  { intros E. apply bind_inv in E. destruct E as (nt & _ & E). apply bind_inv in E. destruct E as (md & _ & E). apply bind_inv in E. destruct E as (e & _ & E). inversion E; subst. exact Logic.I. }
  destruct (bytes_eqb name ($"PolicyNet")).
  { unfold create_net. intros E. repeat (apply bind_inv in E; destruct E as (? & _ & E)). destruct ((nf <? 0) || (np <? 0)); [discriminate E|]. inversion E; exact Logic.I. }
  destruct (bytes_eqb name ($"Optimal")); intros E; inversion E; exact Logic.I.
Qed.

Lemma grown_closed single persistent : closed P grown single persistent true.
Proof.
  constructor.
  - intros i m0 d0 m d m' _ G _ E. eapply grown_train; eauto.
  - intros i m d d2 m' _ G E. eapply grown_train; eauto.
  - intros i m d f p x d' _ G _. exact G.
Qed.

Lemma grown_run os : forall w w' xs, (forall i R, nth_error (w_regions w) i = Some R -> grown i (r_model R) (r_dataset R)) -> run P w os = Ok (w', xs) ->
  (forall os1 o os2 w1 xs1, os = os1 ++ o :: os2 -> run P w os1 = Ok (w1, xs1) -> no_load w1 o) ->
  forall i R, nth_error (w_regions w') i = Some R -> grown i (r_model R) (r_dataset R).
Proof.
  induction os as [|o os IH]; intros w w' xs G H NL.
  - cbn in H. inversion H; subst. exact G.
  - cbn [run] in H. apply bind_inv in H. destruct H as ([w1 x] & E1 & H). apply bind_inv in H. destruct H as ([w2 xs2] & E2 & H). inversion H; subst. clear H.
    apply (IH w1 w' xs2); auto.
    2:{ intros os1 o' os2 v ys -> R1. apply (NL (o :: os1) o' os2 v (x :: ys)); [reflexivity|]. cbn [run]. rewrite E1. cbn [bind]. rewrite R1. reflexivity. }
    assert (C := grown_closed (cf_single_model (w_config w)) (cf_persistent (w_config w))).
    assert (W : watched grown (cf_single_model (w_config w)) (cf_persistent (w_config w)) w) by (split; auto).
    enough (W1 : watched grown (cf_single_model (w_config w)) (cf_persistent (w_config w)) w1) by apply W1.
    assert (ORD : match o with OpRegion _ _ _ _ _ _ _ | OpGetPolicy _ _ _ => False | OpTrain _ _ _ force => force = true -> true = true | _ => True end ->
      watched grown (cf_single_model (w_config w)) (cf_persistent (w_config w)) w1) by (intros K; eapply watched_step; eauto).
    destruct o as [nf nm np mt info yaml init|r async now|r fs now|r p y|r p D|r p now early|r p y|r st collect force|st collect|r|r waits|waits|p ms]; try (apply ORD; auto; fail).
    + cbn in E1. apply bind_inv in E1. destruct E1 as ([v r] & E & E1). inversion E1; subst. destruct (watched_region P grown _ _ true C _ _ _ _ _ _ _ _ _ _ W E) as [A _]; auto.
      left. split; [apply (NL [] _ os w []); reflexivity|]. intros. eapply create_grown; eauto.
    + eapply watched_get_policy; [exact W|exact E1|]. intros R y k m ER EM HG. eapply grown_get; eauto.
Qed.

Lemma one_answer c files os w xs r R n t e os2 w2 xs2 : sorter_ok (p_sort P) ->
  run P (start_world c files) os = Ok (w, xs) ->
  (forall os1 o os2 w1 xs1, os = os1 ++ o :: os2 -> run P (start_world c files) os1 = Ok (w1, xs1) -> no_load w1 o) ->
  nth_error (w_regions w) r = Some R -> r_model R = MTree n false t e ->
  run P w os2 = Ok (w2, xs2) -> cf_single_model c = 0 -> Forall unforced os2 ->
  exists k, Forall (eq k) (answers os2 xs2 r).
Proof.
  intros SO H NL ER EM H2 S UF. assert (G : grown r (r_model R) (r_dataset R)). { eapply grown_run; [|exact H|exact NL|exact ER]. intros [|i] Q EQ; discriminate EQ. }
  rewrite EM in G. destruct G as (md & h & T & HN). destruct (constant_prediction _ _ _ _ SO T (HN eq_refl)) as (k & _ & K & _).
  assert (PR : predicts (r_model R) (dt_predict t)) by (left; eauto).
  rewrite <- (proj1 (settings_run _ _ _ _ H) : _ = cf_single_model c) in S. destruct (exploits _ _ _ _ _ _ _ H2 ER PR S UF) as [A _]. exists k. revert A. generalize (asked P w os2 r). induction (answers os2 xs2 r) as [|a l IH]; intros q A; constructor.
  - destruct q as [|[D f] q]; [discriminate A|]. cbn in A. injection A as A1 A2. symmetry. eapply K; eauto.
  - destruct q as [|[D f] q]; [discriminate A|]. cbn in A. injection A as A1 A2. eauto.
Qed.

(** ** One model for all regions *)

Lemma single_trains c files os w xs st collect w' y : run P (start_world c files) os = Ok (w, xs) -> forallb explicit os = true ->
  cf_single_model c <> 0 -> step P w (OpTrainAll st collect) = Ok (w', y) ->
  exists d, all_data w d /\ forall i R, nth_error (w_regions w) i = Some R -> exists R', nth_error (w_regions w') i = Some R' /\ r_dataset R' = r_dataset R /\
    (In i (map snd (w_registry w)) -> m_train P (r_model R) d = Ok (r_model R')) /\ (~ In i (map snd (w_registry w)) -> r_model R' = r_model R).
Proof.
  intros H EX S E. destruct (inv_run P (start_world c files) eq_refl eq_refl eq_refl _ _ _ EX H) as (log & I).
  assert (CF := proj1 (settings_run _ _ _ _ H)). cbn in CF.
  assert (ND := proj1 (registry_nodup _ (i_reg _ _ _ _ _ I))). cbn [step] in E. apply bind_inv in E. destruct E as (w1 & E & EQ). inversion EQ; subst w1 y. clear EQ.
  unfold apollo_train, train_all_by, train_regions_by in E. destruct (truthy (cf_collective _)); [discriminate|].
  assert (TS : truthy (cf_single_model (w_config w)) = true) by (unfold truthy; apply negb_true_iff, Z.eqb_neq; congruence). rewrite TS in E.
  apply bind_inv in E. destruct E as (d & EM & E). exists d. split; [apply merge_all in EM; exact EM|].
  destruct (train_each_on_exact P _ _ ND _ _ E) as (_ & _ & X). intros i R ER. destruct (X _ _ ER) as (m & EM' & K). eexists. split; [exact EM'|]. split; [reflexivity|]. cbn.
  destruct (mem i (map snd (w_registry w))) eqn:MI.
  - apply mem_in in MI. split; [auto|contradiction].
  - split; auto. intros IN. apply mem_in in IN. congruence.
Qed.
End Platform.
