(** Trained forests answer with one class, in memory and in a running region. *)
From Coq Require Import ZArith Bool Ascii String Lia List.
From Verif Require Import Model.Base Model.Float Model.DatasetM Model.TreeM Model.ForestM Model.ModelStringM Model.PolicyModelsM Model.ConfigM Model.RuntimeM
  Spec.DatasetSpec Spec.TreeSpec Spec.ForestSpec Spec.PolicyModelsSpec Spec.RuntimeSpec Proofs.TreeFacts Proofs.TreeLabels Proofs.ForestFacts Proofs.ModelStringFacts Proofs.RuntimeFacts Proofs.RuntimeTraining
  Proofs.RuntimePreserve Proofs.RuntimeWatch Proofs.RuntimeLearn.
Import ListNotations.
Open Scope Z_scope.

(** ** In memory *)

Lemma sample_loop_drawn pick n features responses : picker_ok pick -> List.length features = n -> List.length responses = n -> (0 < n)%nat ->
  forall todo k, exists fs, sample_loop pick n todo k features responses = Ok (fs, map (fun i => nth (pick n i) responses 0) (seq k todo)) /\ List.length fs = todo /\ incl fs features.
Proof.
  intros HP LF LR N. induction todo as [|todo IH]; intros k; cbn [sample_loop seq map].
  - exists []. repeat split. intros x [].
  - assert (B := HP n k N). rewrite (vec_get_nth features _ []), (vec_get_nth responses _ 0) by lia. cbn [bind].
    destruct (IH (S k)) as (fs & -> & L & I). cbn [bind]. eexists. split; [reflexivity|]. split; [cbn; lia|].
    intros x [<-|H]; auto. apply nth_In. lia.
Qed.

Lemma seq_from k : forall n, seq k n = map (Nat.add k) (seq 0 n).
Proof.
  intros n. revert k. induction n as [|n IH]; intros k; cbn [seq map]; [reflexivity|]. f_equal; [lia|]. rewrite (IH (S k)), (IH 1%nat), map_map. apply map_ext. intros a. lia.
Qed.

Definition learned (srt : sorter) (t : dtree) : Prop := exists md h, trained srt md h t /\ h <> [].

Definition grown_on (srt : sorter) (features : list (list f32)) (t : dtree) (rs : list Z) : Prop :=
  exists md fs, trained srt md [(fs, rs)] t /\ incl fs features /\ List.length fs = List.length rs.

Lemma train_loop_grown srt pick md features responses : picker_ok pick -> features <> [] -> List.length responses = List.length features ->
  forall todo j ts, train_loop srt pick md todo (j * List.length responses) features responses = Ok ts ->
  Forall2 (grown_on srt features) ts (map (drawn pick responses) (seq j todo)).
Proof.
  intros HP NE L. assert (N : (0 < List.length features)%nat) by (destruct features; [congruence|cbn; lia]).
  induction todo as [|todo IH]; intros j ts; cbn [train_loop seq map]; [intros E; injection E as <-; constructor|].
  destruct (sample_loop_drawn pick (List.length features) features responses HP eq_refl L N (List.length features) (j * List.length responses)) as (fs & -> & LF & IF).
  cbn [bind]. intros E. apply bind_inv in E as (t & ET & E). apply bind_inv in E as (us & EU & E). injection E as <-.
  assert (ED : map (fun i => nth (pick (List.length features) i) responses 0) (seq (j * List.length responses) (List.length features)) = drawn pick responses j).
  { unfold drawn. cbv zeta. rewrite <- L, seq_from, map_map. reflexivity. }
  rewrite ED in ET. constructor.
  - exists md, fs. split; [|split; [exact IF|]].
    + apply (trained_more srt md [] (new_dtree md)); [constructor|exact ET].
    + unfold drawn. rewrite map_length, seq_length, LF. symmetry. exact L.
  - apply IH. rewrite <- EU. f_equal. rewrite L. lia.
Qed.

Lemma grown_votes srt features t rs : sorter_ok srt -> grown_on srt features t rs ->
  exists m, is_minimum m rs /\ (forall x v, dt_predict t x = Ok v -> v = m) /\
    (forall x, (forall f, In f features -> (List.length f <= List.length x)%nat) -> dt_predict t x = Ok m).
Proof.
  intros HS (md & fs & T & I & LL). destruct (constant_prediction _ _ _ _ HS T ltac:(discriminate)) as (m & M & U & X).
  cbn [map snd List.concat] in M. rewrite app_nil_r in M. exists m. split; [exact M|]. split; [exact U|].
  intros x H. apply X. intros s IS. inversion T as [|h t0 fs0 rs0 t' HT E EQ]; subst. destruct h as [|? h]; [|destruct h; discriminate EQ].
  cbn in EQ. injection EQ as -> ->. apply dt_train_inv in E as (_ & _ & _ & _ & _ & E). apply build_tree_data in E; [|exact HS].
  eapply Permutation.Permutation_in in IS; [|apply Permutation.Permutation_sym; exact E]. destruct s as [f c]. apply H, I. eapply in_combine_l. exact IS.
Qed.

Lemma votes_inv k x : forall ts counts c, votes ts k x counts = Ok c -> exists vs, Forall2 (fun t v => dt_predict t x = Ok v) ts vs /\ Forall (fun v => 0 <= v < k) vs.
Proof.
  induction ts as [|t ts IH]; intros counts c; cbn [votes]; [intros _; exists []; split; constructor|].
  intros E. apply bind_inv in E as (v & EV & E). destruct ((0 <=? v) && (v <? k)) eqn:B; [|discriminate E].
  destruct (IH _ _ E) as (vs & A & C). exists (v :: vs). apply andb_prop in B as [B1 B2]. apply Z.leb_le in B1. apply Z.ltb_lt in B2. split; constructor; auto.
Qed.

Lemma predict_inv f x v : f_predict f x = Ok v -> exists vs, votes_for x f vs /\ Forall (fun v => 0 <= v < f_num_classes f) vs /\ plurality (f_num_classes f) vs v.
Proof.
  intros E. assert (K : 1 <= f_num_classes f). { unfold f_predict in E. destruct (Z.leb_spec (f_num_classes f) 0); [discriminate E|lia]. }
  assert (X : exists vs, votes_for x f vs /\ Forall (fun v => 0 <= v < f_num_classes f) vs).
  { unfold f_predict in E. destruct (f_num_classes f <=? 0); [discriminate E|]. apply bind_inv in E as (c & E & _). eapply votes_inv. exact E. }
  destruct X as (vs & A & B). destruct (forest_votes f x vs K A B) as (c & EC & PL). rewrite E in EC. injection EC as <-. eauto.
Qed.

Lemma plurality_unique k vs c d : plurality k vs c -> plurality k vs d -> c = d.
Proof.
  intros (A1 & A2 & A3) (B1 & B2 & B3). destruct (Z.lt_trichotomy c d) as [H|[H|H]]; auto.
  - specialize (B3 c ltac:(lia)). specialize (A2 d B1). lia.
  - specialize (A3 d ltac:(lia)). specialize (B2 c A1). lia.
Qed.

(** C115. *)
Lemma trained_forest_answer srt pick nc nt md features responses f : sorter_ok srt -> picker_ok pick -> features <> [] -> List.length responses = List.length features ->
  f_train srt pick (new_forest nc nt md) features responses = Ok f ->
  exists ms, Forall2 (fun j m => is_minimum m (drawn pick responses j)) (seq 0 (Z.to_nat nt)) ms /\
    (forall x v, f_predict f x = Ok v -> Forall (fun m => 0 <= m < nc) ms /\ plurality nc ms v) /\
    (1 <= nc -> Forall (fun r => 0 <= r < nc) responses -> exists v, plurality nc ms v /\
      forall x, (forall y, In y features -> (List.length y <= List.length x)%nat) -> f_predict f x = Ok v).
Proof.
  intros HS HP NE L E. unfold f_train in E. cbn [f_max_depth f_num_trees f_trees f_num_classes new_forest app] in E. apply bind_inv in E as (ts & ET & E). injection E as <-.
  assert (G := train_loop_grown srt pick md features responses HP NE L (Z.to_nat nt) 0 ts ET).
  assert (X : exists ms, Forall2 (fun j m => is_minimum m (drawn pick responses j)) (seq 0 (Z.to_nat nt)) ms /\
    Forall2 (fun t m => (forall x v, dt_predict t x = Ok v -> v = m) /\
      (forall x, (forall f, In f features -> (List.length f <= List.length x)%nat) -> dt_predict t x = Ok m)) ts ms).
  { clear ET. revert ts G. generalize (Z.to_nat nt) at 1 2. intros n. generalize 0%nat. induction n as [|n IH]; intros k ts G; cbn [seq map] in G; inversion G as [|t rs ts' ? G1 G2]; subst.
    - exists []. split; constructor.
    - destruct (grown_votes _ _ _ _ HS G1) as (m & M & U). destruct (IH _ _ G2) as (ms & A & B). exists (m :: ms). cbn [seq]. split; constructor; auto. }
  destruct X as (ms & A & B). exists ms. split; [exact A|]. split.
  - intros x v EV. apply predict_inv in EV as (vs & V & R & PL). cbn [f_num_classes] in PL, R. replace ms with vs; [auto|].
    unfold votes_for in V. cbn [f_trees] in V. clear - V B. revert vs V. induction B as [|t m ts ms [U _] B IH]; intros vs V; inversion V; subst; [reflexivity|]. f_equal; [eapply U; eauto|eauto].
  - intros K R. assert (RM : Forall (fun v => 0 <= v < nc) ms).
    { clear - A R HP NE L. revert A. generalize (seq 0 (Z.to_nat nt)). intros l A. induction A as [|j m l ms [IM _] A IH]; constructor; auto.
      unfold drawn in IM. apply in_map_iff in IM as (i & <- & _). rewrite Forall_forall in R. apply R. apply nth_In. apply HP. rewrite L. destruct features; [congruence|cbn; lia]. }
    assert (V : forall x, (forall y, In y features -> (List.length y <= List.length x)%nat) -> votes_for x (mkForest ts nc nt md) ms).
    { intros x LX. unfold votes_for. cbn [f_trees]. clear - B LX. induction B as [|t m ts ms [_ U] B IH]; constructor; auto. }
    assert (PV : exists v, plurality nc ms v).
    { destruct (forest_votes (mkForest (map (fun c => mkTree [] [] (Node zero32 1 c (-1) zero32 Null Null []) 1 1) ms) nc nt md) [] ms K) as (v & _ & PL); [|exact RM|exists v; exact PL].
      unfold votes_for. cbn [f_trees]. clear. induction ms; constructor; auto. }
    destruct PV as (v & PV). exists v. split; [exact PV|]. intros x LX.
    destruct (forest_votes (mkForest ts nc nt md) x ms K (V x LX) RM) as (c & EC & PL). rewrite EC. f_equal. eapply plurality_unique; eauto.
Qed.

(** The smallest class, drawn for every tree, is the answer to everything. *)
Lemma smallest_drawn srt pick nc nt md features responses f m : sorter_ok srt -> picker_ok pick -> features <> [] -> List.length responses = List.length features ->
  f_train srt pick (new_forest nc nt md) features responses = Ok f -> 1 <= nt ->
  is_minimum m responses -> (forall j, (j < Z.to_nat nt)%nat -> In m (drawn pick responses j)) ->
  forall x v, f_predict f x = Ok v -> v = m.
Proof.
  intros HS HP NE L E NT [MI MM] D x v EV. destruct (trained_forest_answer _ _ _ _ _ _ _ _ HS HP NE L E) as (ms & A & U & _). specialize (U _ _ EV).
  assert (EM : ms = repeat m (Z.to_nat nt)).
  { assert (X : forall l ms, Forall2 (fun j m => is_minimum m (drawn pick responses j)) l ms -> (forall j, In j l -> (j < Z.to_nat nt)%nat) -> ms = repeat m (List.length l)).
    { clear - D MM HP NE L. intros l ms A. induction A as [|j k l ms [I1 I2] A IH]; intros B; cbn; [reflexivity|]. f_equal; [|apply IH; intros; apply B; right; auto].
      specialize (D j (B j (or_introl eq_refl))). apply I2 in D. apply Z.le_antisymm; [exact D|]. apply MM. unfold drawn in I1. apply in_map_iff in I1 as (i & <- & _). apply nth_In, HP.
      rewrite L. destruct features; [congruence|cbn; lia]. }
    rewrite (X _ _ A); [rewrite seq_length; reflexivity|]. intros j IJ. apply in_seq in IJ. lia. }
  subst ms. destruct U as (RM & RV & MAX & SM). destruct (Z.eq_dec v m) as [|NV]; auto. exfalso.
  assert (C0 : count_occ Z.eq_dec (repeat m (Z.to_nat nt)) v = 0%nat) by (apply count_occ_not_In; intros I; apply repeat_spec in I; congruence).
  assert (CM : count_occ Z.eq_dec (repeat m (Z.to_nat nt)) m = Z.to_nat nt) by (clear; induction (Z.to_nat nt); cbn; auto; destruct (Z.eq_dec m m); congruence).
  assert (RMM : 0 <= m < nc). { rewrite Forall_forall in RM. apply RM. destruct (Z.to_nat nt) eqn:EN; [lia|]. left. reflexivity. }
  specialize (MAX m RMM). lia.
Qed.

Lemma learned_constant srt k x y : sorter_ok srt -> forall ts counts c d, Forall (learned srt) ts -> votes ts k x counts = Ok c -> votes ts k y counts = Ok d -> c = d.
Proof.
  intros HS. induction ts as [|t ts IH]; intros counts c d F; cbn [votes]; [intros A B; injection A as <-; injection B as <-; reflexivity|].
  intros A B. apply bind_inv in A as (u & EU & A). apply bind_inv in B as (v & EV & B). inversion F as [|? ? (md & h & T & NH) F']; subst.
  destruct (constant_prediction _ _ _ _ HS T NH) as (m & _ & U & _). apply U in EU, EV. subst u v.
  destruct ((0 <=? m) && (m <? k)); [|discriminate A]. eauto.
Qed.
Lemma learned_predict srt f x y u v : sorter_ok srt -> Forall (learned srt) (f_trees f) -> f_predict f x = Ok u -> f_predict f y = Ok v -> u = v.
Proof.
  unfold f_predict. intros HS F A B. destruct (_ <=? 0); [discriminate A|]. apply bind_inv in A as (c & EC & A). apply bind_inv in B as (d & ED & B).
  rewrite (learned_constant srt _ _ _ HS _ _ _ _ F EC ED) in A. destruct d; [discriminate A|]. congruence.
Qed.
Lemma train_loop_learned srt pick md features responses : forall todo k ts, train_loop srt pick md todo k features responses = Ok ts -> Forall (learned srt) ts.
Proof.
  induction todo as [|todo IH]; intros k ts; cbn [train_loop]; [intros E; injection E as <-; constructor|].
  intros E. apply bind_inv in E as ([fs rs] & _ & E). apply bind_inv in E as (t & ET & E). apply bind_inv in E as (us & EU & E). injection E as <-. constructor; [|eauto].
  exists md, [(fs, rs)]. split; [|discriminate]. apply (trained_more srt md [] (new_dtree md)); [constructor|exact ET].
Qed.

(** ** In a run *)

Section Platform.
Variable P : platform.

(** A property of models that training, answering and creating keep holds of every region of a run without loads. *)
Section Kept.
Variable Q : model -> Prop.
Hypothesis QT : forall m d m', Q m -> m_train P m d = Ok m' -> Q m'.
Hypothesis QG : forall D m x k m', Q m -> m_get_index P D m x = Ok (k, m') -> Q m'.
Hypothesis QC : forall name nf np ps init m, create_model P name nf np ps init = Ok m -> Q m.

Definition every (i : nat) (m : model) (d : dataset) : Prop := Q m.

Lemma every_closed single persistent : closed P every single persistent true.
Proof. constructor; unfold every; intros; eauto. Qed.

Lemma every_run os : forall w w' xs, (forall i R, nth_error (w_regions w) i = Some R -> Q (r_model R)) -> run P w os = Ok (w', xs) ->
  (forall os1 o os2 w1 xs1, os = os1 ++ o :: os2 -> run P w os1 = Ok (w1, xs1) -> no_load w1 o) ->
  forall i R, nth_error (w_regions w') i = Some R -> Q (r_model R).
Proof.
  induction os as [|o os IH]; intros w w' xs G H NL.
  - cbn in H. injection H as <- <-. exact G.
  - cbn [run] in H. apply bind_inv in H as ([w1 x] & E1 & H). apply bind_inv in H as ([w2 xs2] & E2 & H). injection H as <- <-.
    apply (IH w1 w2 xs2); auto.
    2:{ intros os1 o' os2 v ys -> R1. apply (NL (o :: os1) o' os2 v (x :: ys)); [reflexivity|]. cbn [run]. rewrite E1. cbn [bind]. rewrite R1. reflexivity. }
    assert (C := every_closed (cf_single_model (w_config w)) (cf_persistent (w_config w))).
    assert (W : watched every (cf_single_model (w_config w)) (cf_persistent (w_config w)) w) by (split; auto).
    enough (W1 : watched every (cf_single_model (w_config w)) (cf_persistent (w_config w)) w1) by apply W1.
    assert (ORD : match o with OpRegion _ _ _ _ _ _ _ | OpGetPolicy _ _ _ => False | OpTrain _ _ _ force => force = true -> true = true | _ => True end ->
      watched every (cf_single_model (w_config w)) (cf_persistent (w_config w)) w1) by (intros K; eapply watched_step; eauto).
    destruct o as [nf nm np mt info yaml init|r async now|r fs now|r p y|r p D|r p now early|r p y|r st collect force|st collect|r|r waits|waits|p ms]; try (apply ORD; auto; fail).
    + cbn in E1. apply bind_inv in E1 as ([v r] & E & E1). injection E1 as <- <-. destruct (watched_region P every _ _ true C _ _ _ _ _ _ _ _ _ _ W E) as [A _]; auto.
      left. split; [apply (NL [] _ os w []); reflexivity|]. intros. unfold every. eapply QC; eauto.
    + eapply watched_get_policy; [exact W|exact E1|]. intros R y k m ER EM HG. eapply QG; eauto.
Qed.
End Kept.

Definition planted (m : model) : Prop := match m with MForest _ _ f _ => Forall (learned (p_sort P)) (f_trees f) | _ => True end.

Lemma planted_train m d m' : planted m -> m_train P m d = Ok m' -> planted m'.
Proof.
  destruct m as [| | | | |n tr t e|n tr f e|]; cbn [m_train]; intros G E; try (injection E as <-; exact Logic.I).
  - destruct (ds_find_min d [] []) as [[fs rs] best]. apply bind_inv in E as (t' & _ & E). injection E as <-. exact Logic.I.
  - destruct (ds_find_min d [] []) as [[fs rs] best]. apply bind_inv in E as (f' & EF & E). injection E as <-. cbn [planted] in *.
    unfold f_train in EF. apply bind_inv in EF as (ts & ET & EF). injection EF as <-. cbn [f_trees]. apply Forall_app. split; [exact G|]. eapply train_loop_learned. exact ET.
  - apply bind_inv in E as (t' & _ & E). injection E as <-. exact Logic.I.
Qed.

Lemma planted_get D m x k m' : planted m -> m_get_index P D m x = Ok (k, m') -> planted m'.
Proof.
  intros G E. destruct m as [| |n last|q| |n [|] t e|n [|] f e|]; cbn [m_get_index negb] in E; try (apply bind_inv in E; destruct E as (c & _ & E); injection E as _ <-; exact G).
  - injection E as _ <-. exact G.
  - destruct (1 <? count); injection E as _ <-; exact Logic.I.
  - destruct (n =? 0); [discriminate|]. injection E as _ <-. exact Logic.I.
  - destruct q; [discriminate E|]. injection E as _ <-. exact Logic.I.
  - destruct (nan_free x); cbn in E; [|discriminate]. destruct (map_find _ _ _) as [[? ?]|]; [|discriminate E]. injection E as _ <-. exact Logic.I.
  - destruct e as [e|]; [|discriminate]. apply bind_inv in E as ([c e'] & _ & E). injection E as _ <-. exact Logic.I.
  - destruct e as [e|]; [|discriminate]. apply bind_inv in E as ([c e'] & _ & E). injection E as _ <-. exact G.
  - apply bind_inv in E as ([c N] & _ & E). injection E as _ <-. exact Logic.I.
Qed.

Lemma create_planted name nf np ps init m : create_model P name nf np ps init = Ok m -> planted m.
Proof.
  unfold create_model. generalize 2%nat. intros f. cbn [create_fuel].
  destruct (bytes_eqb name ($"Static")). { unfold create_static. intros E. apply bind_inv in E as (p & _ & E). destruct (p <? 0); inversion E; exact Logic.I. }
  destruct (bytes_eqb name ($"DatasetMap")). { intros E; inversion E; exact Logic.I. }
  destruct (bytes_eqb name ($"Random")). { unfold new_random. destruct (_ <? _); intros E; inversion E; exact Logic.I. }
  destruct (bytes_eqb name ($"RoundRobin")). { intros E; inversion E; exact Logic.I. }
  destruct (bytes_eqb name ($"DecisionTree")).
  { intros E. apply bind_inv in E as (md & _ & E). apply bind_inv in E as (e & _ & E). inversion E; subst. exact Logic.I. }
  destruct (bytes_eqb name ($"RandomForest")).
  { intros E. apply bind_inv in E as (nt & _ & E). apply bind_inv in E as (md & _ & E). apply bind_inv in E as (e & _ & E). inversion E; subst. constructor. }
  destruct (bytes_eqb name ($"PolicyNet")).
  { unfold create_net. intros E. repeat (apply bind_inv in E as (? & _ & E)). destruct ((nf <? 0) || (np <? 0)); [discriminate E|]. inversion E; exact Logic.I. }
  destruct (bytes_eqb name ($"Optimal")); intros E; inversion E; exact Logic.I.
Qed.

Lemma forest_one_answer c files os w xs r R n f e os2 w2 xs2 : sorter_ok (p_sort P) ->
  run P (start_world c files) os = Ok (w, xs) ->
  (forall os1 o os2 w1 xs1, os = os1 ++ o :: os2 -> run P (start_world c files) os1 = Ok (w1, xs1) -> no_load w1 o) ->
  nth_error (w_regions w) r = Some R -> r_model R = MForest n false f e ->
  run P w os2 = Ok (w2, xs2) -> cf_single_model c = 0 -> Forall unforced os2 ->
  exists k, Forall (eq k) (answers os2 xs2 r).
Proof.
  intros SO H NL ER EM H2 S UF.
  assert (G : planted (r_model R)). { eapply (every_run planted planted_train planted_get create_planted os _ _ _); [|exact H|exact NL|exact ER]. intros [|i] Q EQ; discriminate EQ. }
  rewrite EM in G. cbn [planted] in G. assert (PR : predicts (r_model R) (f_predict f)) by (right; eauto).
  rewrite <- (proj1 (settings_run P _ _ _ _ H) : _ = cf_single_model c) in S. destruct (exploits P _ _ _ _ _ _ _ H2 ER PR S UF) as [A _].
  destruct (answers os2 xs2 r) as [|a l]; [exists 0; constructor|]. exists a.
  revert A. generalize (asked P w os2 r). intros [|[D x] q] A; [discriminate A|]. cbn [map snd] in A. injection A as A1 A2. constructor; [reflexivity|].
  revert q A2. induction l as [|b l IH]; intros q A2; constructor; destruct q as [|[D' y] q]; try discriminate A2; cbn [map snd] in A2; injection A2 as B1 B2; [|eauto].
  eapply learned_predict; eauto.
Qed.
End Platform.
