(** Policies returned by the runtime are in range. *)
From Coq Require Import ZArith Bool Ascii String Lia List.
From Verif Require Import Model.Base Model.Float Model.DatasetM Model.ParserM Model.DatasetIO Model.ForestM Model.ModelStringM Model.PolicyModelsM Model.ConfigM Model.RuntimeM
  Spec.RuntimeSpec Proofs.TreeFacts Proofs.ModelStringFacts Proofs.RuntimeFacts Proofs.PolicyRange Proofs.RuntimePreserve.
Import ListNotations.
Open Scope Z_scope.

Definition ranged (i : nat) (R : region) : Prop :=
  (forall p, r_current R = Some p -> fst p = i) /\ Forall (fun p => fst p = i) (r_pending R) /\
  (1 <= r_num_policies R ->
     good (r_num_policies R) (r_model R) /\ data_in (r_num_policies R) (r_dataset R) /\ in_range (r_num_policies R) (c_policy (r_sync R)) /\
     forall k c, nth_error (r_heap R) k = Some (Some c) -> in_range (r_num_policies R) (c_policy c)).

Definition as_many (w0 : world) (i : nat) (R : region) : Prop :=
  forall R0, nth_error (w_regions w0) i = Some R0 -> r_num_policies R = r_num_policies R0.

Definition kept_range (w0 : world) (i : nat) (R : region) : Prop := ranged i R /\ as_many w0 i R.

Definition own_ptr (i : nat) (p : ctxptr) : Prop := fst p = i.

Lemma context_in w p c R : (forall i R, nth_error (w_regions w) i = Some R -> ranged i R) -> get_context w p = Ok c ->
  nth_error (w_regions w) (fst p) = Some R -> 1 <= r_num_policies R -> in_range (r_num_policies R) (c_policy c).
Proof.
  intros H E ER N. unfold get_context in E. rewrite ER in E. destruct (H _ _ ER) as (_ & _ & K). specialize (K N). destruct K as (_ & _ & K1 & K2).
  destruct (snd p) as [|k]; [destruct (r_alive R); [inversion E; subst; auto|discriminate]|].
  destruct (nth_error (r_heap R) k) as [[c1|]|] eqn:EK; try discriminate. inversion E; subst. eauto.
Qed.

Section Platform.
Variable P : platform.

Lemma range_preserved w0 persistent len : preserved P (kept_range w0) own_ptr 0 persistent true len.
Proof.
  constructor; unfold own_ptr, kept_range; try (intros; cbn; reflexivity).
  - intros i R p [(H & _) _] E. auto.
  - intros i R p [(_ & H & _) _] IN. rewrite Forall_forall in H. auto.
  - intros i R t [(A & B & D) S]. split; [split; [exact A|split; [exact B|exact D]]|exact S].
  - intros i R p [(A & B & D) S] HP. split; [split; [exact HP|split; [exact B|exact D]]|exact S].
  - intros i R ps [(A & B & D) S] HP. split; [split; [exact A|split; [exact HP|exact D]]|exact S].
  - intros i R t [(A & B & D) S]. split; [split; [exact A|split; [exact B|exact D]]|exact S].
  - intros i R t [(A & B & D) S]. split; [split; [exact A|split; [exact B|exact D]]|exact S].
  - intros i R c [(A & B & D) S] EP. split; [split; [exact A|split; [exact B|]]|exact S]. cbn. rewrite EP. exact D.
  - intros i R k c0 c [(A & B & D) S] EH EP. split; [split; [exact A|split; [exact B|]]|exact S]. cbn. intros N. destruct (D N) as (D1 & D2 & D3 & D4).
    split; [exact D1|]. split; [exact D2|]. split; [exact D3|]. intros k' c'. rewrite nth_set_nth. destruct (Nat.eqb k' k); [|apply D4].
    rewrite EH. intros E; inversion E; subst. rewrite EP. eapply D4; eauto.
  - intros i R k [(A & B & D) S]. split; [split; [exact A|split; [exact B|]]|exact S]. cbn. intros N. destruct (D N) as (D1 & D2 & D3 & D4).
    split; [exact D1|]. split; [exact D2|]. split; [exact D3|]. intros k' c'. rewrite nth_set_nth. destruct (Nat.eqb k' k); [|apply D4].
    destruct (nth_error (r_heap R) k); discriminate.
  - intros i R t [(A & B & D) S]. split; [split; [exact A|split; [exact B|]]|exact S]. cbn. intros N. destruct (D N) as (D1 & D2 & D3 & D4).
    split; [exact D1|]. split; [exact D2|]. split; [exact D3|]. intros k' c' E. destruct (Nat.lt_ge_cases k' (List.length (r_heap R))) as [L|L].
    + rewrite nth_error_app1 in E by auto. eauto.
    + rewrite nth_error_app2 in E by auto. destruct (k' - List.length (r_heap R))%nat as [|[|]]; cbn in E; try discriminate. inversion E; subst. cbn. unfold in_range. lia.
  - intros i R0 R m _ [(A & B & D) S] _ T. split; [split; [exact A|split; [exact B|]]|exact S]. cbn. intros N. destruct (D N) as (D1 & D2 & D3 & D4).
    split; [|split; [exact D2|split; [exact D3|exact D4]]]. eapply train_in; eauto.
  - intros i R d m T. discriminate T.
  - intros w i R p c x d H ER HG EC _ EI. destruct (proj1 H _ _ ER) as [(A & B & D) S]. split; [split; [exact A|split; [exact B|]]|exact S]. cbn. intros N.
    destruct (D N) as (D1 & D2 & D3 & D4). split; [exact D1|]. split; [|split; [exact D3|exact D4]]. eapply insert_in; [exact EI| |exact D2].
    eapply context_in; [|exact EC|rewrite HG; exact ER|exact N]. intros j Q EQ. apply (proj1 H _ _ EQ).
Qed.

Definition all_ranged (w : world) : Prop := (forall i R, nth_error (w_regions w) i = Some R -> ranged i R) /\ cf_single_model (w_config w) = 0.

Definition holds_now w : all_ranged w -> holds (kept_range w) 0 (cf_persistent (w_config w)) (List.length (w_regions w)) w.
Proof.
  intros [A S]. split; [|auto]. intros i R E. split; auto. intros R0 E0. congruence.
Qed.

Lemma holds_then w0 persistent w : holds (kept_range w0) 0 persistent (List.length (w_regions w0)) w ->
  all_ranged w /\ forall i R, nth_error (w_regions w0) i = Some R -> exists R', nth_error (w_regions w) i = Some R' /\ r_num_policies R' = r_num_policies R.
Proof.
  intros (A & S & _ & L). split; [split; [intros i R E; apply (A _ _ E)|exact S]|]. intros i R E.
  destruct (nth_error (w_regions w) i) as [R'|] eqn:E'.
  - exists R'. split; auto. apply (proj2 (A _ _ E')). exact E.
  - exfalso. apply nth_error_None in E'. assert (nth_error (w_regions w0) i <> None) by congruence. apply nth_error_Some in H. lia.
Qed.

Lemma get_policy_in w r p D w' k : all_ranged w -> get_policy_index P w r p D = Ok (w', k) -> fst p = r -> draws_ok D ->
  all_ranged w' /\ (forall i R, nth_error (w_regions w) i = Some R -> exists R', nth_error (w_regions w') i = Some R' /\ r_num_policies R' = r_num_policies R) /\
  exists R, nth_error (w_regions w) r = Some R /\ (1 <= r_num_policies R -> in_range (r_num_policies R) k).
Proof.
  intros AR E FP HD. unfold get_policy_index in E. apply bind_inv in E. destruct E as (R & ER & E). apply get_region_ok in ER. destruct ER as [ER AL].
  apply bind_inv in E. destruct E as (c & EC & E). apply bind_inv in E. destruct E as ([ch m] & EM & E). apply bind_inv in E. destruct E as (w1 & E1 & E).
  assert (W1 : w_regions w1 = w_regions w /\ w_config w1 = w_config w).
  { unfold trace_policy in E1. destruct (negb _); [inversion E1; subst; auto|]. apply bind_inv in E1. destruct E1 as (? & _ & E1). inversion E1; subst. auto. }
  destruct W1 as [W1 W2]. apply bind_inv in E. destruct E as (c' & EC' & E). inversion E; subst. clear E.
  destruct AR as [A S]. destruct (A _ _ ER) as (A1 & A2 & A3).
  assert (K : 1 <= r_num_policies R -> in_range (r_num_policies R) k /\ good (r_num_policies R) m).
  { intros N. destruct (A3 N) as (G & _). exact (get_in P _ D _ N HD G _ _ _ EM). }
  set (w2 := set_region w1 (fst p) (with_model R m)) in *.
  assert (E2 : nth_error (w_regions w2) (fst p) = Some (with_model R m)) by (unfold w2; cbn; eapply nth_set_nth_eq; rewrite W1; eauto).
  set (nc := mkContext (c_features c') k (c_idx c') (c_timer c')) in *.
  set (R' := match snd p with Sync => with_sync (with_model R m) nc | Heap j => with_heap (with_model R m) (set_nth (r_heap R) j (Some nc)) end).
  assert (ES : set_context w2 p nc = set_region w2 (fst p) R') by (unfold set_context, R'; rewrite E2; destruct (snd p); reflexivity).
  assert (RN : forall i, nth_error (w_regions (set_context w2 p nc)) i = if Nat.eqb i (fst p) then Some R' else nth_error (w_regions w) i).
  { intros i. rewrite ES. unfold w2. cbn. rewrite !nth_set_nth, W1, Nat.eqb_refl, ER. destruct (Nat.eqb i (fst p)); reflexivity. }
  assert (NP : r_num_policies R' = r_num_policies R) by (unfold R'; destruct (snd p); reflexivity).
  split; [split|split].
  - intros i Q. rewrite RN. destruct (Nat.eqb_spec i (fst p)) as [->|]; [|apply A]. intros E; inversion E; subst Q.
    split; [|split].
    + intros q. unfold R'. destruct (snd p); exact (A1 q).
    + unfold R'. destruct (snd p); exact A2.
    + rewrite NP. intros N. destruct (A3 N) as (B1 & B2 & B3 & B4). destruct (K N) as [K1 K2]. unfold R'. destruct (snd p) as [|j]; cbn.
      * split; [exact K2|]. split; [exact B2|]. split; [exact K1|exact B4].
      * split; [exact K2|]. split; [exact B2|]. split; [exact B3|]. intros k' c1. rewrite nth_set_nth. destruct (Nat.eqb k' j); [|apply B4].
        destruct (nth_error (r_heap R) j); [|discriminate]. intros E1'; inversion E1'; subst. exact K1.
  - rewrite ES. unfold w2. cbn. rewrite W2. exact S.
  - intros i Q EQ. rewrite RN. destruct (Nat.eqb_spec i (fst p)) as [->|]; [|eauto]. rewrite ER in EQ. inversion EQ; subst Q. eauto.
  - exists R. split; auto. intros N. apply K. exact N.
Qed.

Lemma resolve_own w r p q : all_ranged w -> resolve w r p = Ok q -> (forall s, p = Some s -> fst s = r) -> fst q = r.
Proof.
  intros [A _] E K. destruct p as [s|]; cbn in E; [inversion E; subst; auto|]. apply bind_inv in E. destruct E as (R & ER & E).
  destruct (r_current R) eqn:RC; [|discriminate]. inversion E; subst. apply get_region_ok in ER. destruct (A _ _ (proj1 ER)) as (H & _). auto.
Qed.

Lemma nth_snoc {A} (l : list A) x i y : nth_error (l ++ [x]) i = Some y -> nth_error l i = Some y \/ i = List.length l /\ y = x.
Proof.
  intros E. destruct (Nat.lt_ge_cases i (List.length l)) as [L|L].
  - rewrite nth_error_app1 in E by auto. auto.
  - rewrite nth_error_app2 in E by auto. destruct (i - List.length l)%nat as [|[|]] eqn:X; cbn in E; try discriminate. inversion E; subst. right. split; auto. lia.
Qed.

Lemma new_region_in w nf nm np mt info yaml init w' r : all_ranged w -> no_load w (OpRegion nf nm np mt info yaml init) ->
  new_region P w nf nm np mt info yaml init = Ok (w', r) ->
  all_ranged w' /\ (forall i R, nth_error (w_regions w) i = Some R -> exists R', nth_error (w_regions w') i = Some R' /\ r_num_policies R' = r_num_policies R) /\
  exists R, nth_error (w_regions w') r = Some R /\ r_num_policies R = np.
Proof.
  intros [A S] (NY & NP & NL) H. subst yaml. unfold new_region in H. apply bind_inv in H. destruct H as ([mn0 ps0] & E1 & H). specialize (NL _ _ E1).
  destruct NL as (N1 & N2 & N3 & N4). apply bind_inv in H. destruct H as ([[mn ps] info'] & E2 & H).
  assert (RS : mn <> $"Optimal" /\ mn <> $"DatasetMap" /\ param_find ($"load") ps = None /\ param_find ($"load-dataset") ps = None).
  { unfold resolve_static_region in E2. destruct (bytes_eqb mn0 _); [|inversion E2; subst; auto]. destruct (param_find (region_name nm) ps0); [|discriminate].
    inversion E2; subst. split; [discriminate|]. split; [discriminate|]. split; reflexivity. }
  clear N1 N2 N3 N4. destruct RS as (N1 & N2 & N3 & N4).
  apply bind_inv in H. destruct H as (m0 & E3 & H). apply bind_inv in H. destruct H as (m1 & E4 & H).
  unfold load_models in E4. cbn [bind] in E4. rewrite N3 in E4. inversion E4; subst m1. clear E4.
  set (R0 := mkRegion true (region_name nm) nf np mt info' mn m0 [] 0 None (mkContext [] 0 0 (Clock None None)) [] [] []) in *.
  set (w1 := mkWorld _ _ (w_regions w ++ [R0]) _ _ _) in *.
  assert (AR1 : all_ranged w1).
  { split; [|exact S]. intros i R E. unfold w1 in E. cbn in E. apply nth_snoc in E. destruct E as [E|[-> ->]]; [auto|].
    split; [discriminate|]. split; [constructor|]. cbn. intros N. split; [eapply create_in; [exact N|exact E3]|]. split; [constructor|]. split; [unfold in_range; lia|].
    intros [|k] c E; discriminate. }
  assert (C := range_preserved w1 (cf_persistent (w_config w1)) (List.length (w_regions w1))).
  assert (H1 := holds_now w1 AR1).
  apply bind_inv in H. destruct H as (w2 & EP & H).
  assert (H2 : holds (kept_range w1) 0 (cf_persistent (w_config w1)) (List.length (w_regions w1)) w2).
  { unfold load_persistent in EP. destruct (truthy (cf_persistent (w_config w1))) eqn:TP; [|inversion EP; subst; auto].
    destruct NP as [NP|NP]. { exfalso. unfold truthy, w1 in TP. cbn in TP. rewrite NP in TP. discriminate. }
    apply bind_inv in EP. destruct EP as (w3 & E5 & EP).
    change (file_find (dataset_file (w_config w1) (region_name nm)) (w_files w1)) with (file_find (dataset_file (w_config w) (firstn 63 (cstr nm))) (w_files w)) in E5.
    rewrite NP in E5. inversion E5; subst w3. eapply holds_auto_train; [exact C|exact H1|exact EP]. }
  unfold load_and_train in H. rewrite N4 in H. cbn [bind] in H. unfold load_optimal, load_dataset_map in H.
  apply bytes_eqb_neq in N1, N2. rewrite N1, N2 in H. cbn [bind] in H. apply bind_inv in H. destruct H as (w3 & E6 & H).
  assert (H3 : holds (kept_range w1) 0 (cf_persistent (w_config w1)) (List.length (w_regions w1)) w3).
  { destruct (truthy (cf_trace_csv (w_config w2))); [|inversion E6; subst; auto]. apply bind_inv in E6. destruct E6 as (R & ER & E6). inversion E6; subst.
    eapply holds_set; [exact C|exact H2|]. destruct (proj1 H2 _ _ (proj1 (proj1 (get_region_ok _ _ _) ER))) as [(B1 & B2 & B3) B4]. split; [split; [exact B1|split; [exact B2|exact B3]]|exact B4]. }
  inversion H; subst. clear H. apply holds_then in H3. destruct H3 as [[A3 S3] ST]. split; [split; [exact A3|exact S3]|]. split.
  - intros i R E. apply ST. unfold w1. cbn. rewrite nth_error_app1; auto. apply nth_error_Some. congruence.
  - destruct (ST (List.length (w_regions w)) R0) as (R' & ER' & EN); [unfold w1; cbn; rewrite nth_error_app2, Nat.sub_diag by auto; reflexivity|].
    exists R'. split; [exact ER'|exact EN].
Qed.

Lemma range_step w o w' x : all_ranged w -> own_context o -> fair o -> no_load w o -> step P w o = Ok (w', x) ->
  all_ranged w' /\ (forall i R, nth_error (w_regions w) i = Some R -> exists R', nth_error (w_regions w') i = Some R' /\ r_num_policies R' = r_num_policies R) /\
  match o, x with
  | OpGetPolicy r _ _, GotPolicy k => exists R, nth_error (w_regions w) r = Some R /\ (1 <= r_num_policies R -> in_range (r_num_policies R) k)
  | OpRegion _ _ np _ _ _ _, GotRegion r => exists R, nth_error (w_regions w') r = Some R /\ r_num_policies R = np
  | _, _ => True
  end.
Proof.
  intros AR OC FA NL H.
  assert (ORD : ordinary own_ptr true o -> all_ranged w' /\ (forall i R, nth_error (w_regions w) i = Some R -> exists R', nth_error (w_regions w') i = Some R' /\ r_num_policies R' = r_num_policies R)).
  { intros O. apply (holds_then w (cf_persistent (w_config w))). eapply holds_step; [apply range_preserved|apply holds_now; exact AR|exact O|exact H]. }
  destruct o as [nf nm np mt info yaml init|r async now|r fs now|r p y|r p D|r p now early|r p y|r st collect force|st collect|r|r waits|waits|p ms];
    try (destruct ORD as [K1 K2]; [cbn; try exact Logic.I; try (destruct p; [exact OC|exact Logic.I]); auto|split; [exact K1|split; [exact K2|exact Logic.I]]]; fail).
  - cbn in H. apply bind_inv in H. destruct H as ([w1 r] & E1 & H). inversion H; subst. eapply new_region_in; eauto.
  - cbn in H. apply bind_inv in H. destruct H as (q & EQ & H). apply bind_inv in H. destruct H as ([w1 k] & E1 & H). inversion H; subst.
    eapply get_policy_in; [exact AR|exact E1| |exact FA]. eapply resolve_own; [exact AR|exact EQ|]. intros s ->. exact OC.
Qed.

Lemma range_run os : forall w w' xs, all_ranged w -> run P w os = Ok (w', xs) -> Forall own_context os -> Forall fair os ->
  (forall os1 o os2 w1 xs1, os = os1 ++ o :: os2 -> run P w os1 = Ok (w1, xs1) -> no_load w1 o) ->
  all_ranged w' /\ (forall i R, nth_error (w_regions w) i = Some R -> exists R', nth_error (w_regions w') i = Some R' /\ r_num_policies R' = r_num_policies R) /\
  (forall r p D k, In (OpGetPolicy r p D, GotPolicy k) (combine os xs) ->
     exists R, nth_error (w_regions w') r = Some R /\ (1 <= r_num_policies R -> in_range (r_num_policies R) k)) /\
  (forall nf nm np mt info yaml init r, In (OpRegion nf nm np mt info yaml init, GotRegion r) (combine os xs) ->
     exists R, nth_error (w_regions w') r = Some R /\ r_num_policies R = np).
Proof.
  induction os as [|o os IH]; intros w w' xs AR H FO FF NL.
  - cbn in H. inversion H; subst. split; [exact AR|]. split; [eauto|]. split; cbn; contradiction.
  - cbn [run] in H. apply bind_inv in H. destruct H as ([w1 x] & E1 & H). apply bind_inv in H. destruct H as ([w2 xs2] & E2 & H). inversion H; subst. clear H.
    inversion FO; inversion FF; subst. destruct (range_step w o w1 x AR) as (AR1 & ST1 & K1); auto. { apply (NL [] o os w []); reflexivity. }
    destruct (IH w1 w' xs2 AR1 E2) as (AR2 & ST2 & K2 & K3); auto.
    { intros os1 o' os2 v ys -> R1. apply (NL (o :: os1) o' os2 v (x :: ys)); [reflexivity|]. cbn [run]. rewrite E1. cbn [bind]. rewrite R1. reflexivity. }
    split; [exact AR2|]. split; [|split].
    + intros i R E. destruct (ST1 _ _ E) as (R1 & F1 & G1). destruct (ST2 _ _ F1) as (R2 & F2 & G2). exists R2. split; [auto|congruence].
    + cbn. intros r p D k [E|IN]; [|eauto]. inversion E; subst. destruct K1 as (R & ER & K1). destruct (ST1 _ _ ER) as (R1 & F1 & G1). destruct (ST2 _ _ F1) as (R2 & F2 & G2).
      exists R2. split; [auto|]. replace (r_num_policies R2) with (r_num_policies R) by congruence. exact K1.
    + cbn. intros nf nm np mt info yaml init r [E|IN]; [|eauto]. inversion E; subst. destruct K1 as (R & ER & K1). destruct (ST2 _ _ ER) as (R2 & F2 & G2).
      exists R2. split; [auto|congruence].
Qed.

Lemma policies_in_range c files os w xs :
  run P (start_world c files) os = Ok (w, xs) -> cf_single_model c = 0 -> Forall own_context os -> Forall fair os ->
  (forall os1 o os2 w1 xs1, os = os1 ++ o :: os2 -> run P (start_world c files) os1 = Ok (w1, xs1) -> no_load w1 o) ->
  forall nf nm np mt info yaml init r, In (OpRegion nf nm np mt info yaml init, GotRegion r) (combine os xs) -> 1 <= np ->
    (forall p D k, In (OpGetPolicy r p D, GotPolicy k) (combine os xs) -> 0 <= k < np) /\
    (forall R n t f e x, nth_error (w_regions w) r = Some R -> r_model R = MForest n t f e -> f_predict f x <> Abort).
Proof.
  intros H S FO FF NL nf nm np mt info yaml init r IN N.
  destruct (range_run os (start_world c files) w xs) as ([A _] & _ & K2 & K3); auto.
  { split; [|exact S]. intros [|i] R E; discriminate. }
  destruct (K3 _ _ _ _ _ _ _ _ IN) as (R & ER & EN). split.
  - intros p D k IN2. destruct (K2 _ _ _ _ IN2) as (R' & ER' & K). rewrite ER in ER'. inversion ER'; subst R'. rewrite EN in K. apply K. exact N.
  - intros R' n t f e x ER' EM. rewrite ER in ER'. inversion ER'; subst R'. destruct (A _ _ ER) as (_ & _ & K). rewrite EN in K. destruct (K N) as (G & _).
    rewrite EM in G. cbn in G. assert (Q := f_predict_in np f x (proj1 G)). intros F. rewrite F in Q. exact Q.
Qed.
End Platform.
