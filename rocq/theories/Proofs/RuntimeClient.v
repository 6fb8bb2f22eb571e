(** Lemmas on the runtime: synchronous clients. *)
From Coq Require Import ZArith Bool Ascii String Lia List Permutation.
From Verif Require Import Model.Base Model.Float Model.Decimal Model.DatasetM Model.ParserM Model.DatasetIO
  Model.NetM Model.PolicyNetM Model.ModelStringM Model.PolicyModelsM Model.ConfigM Model.RuntimeM
  Spec.DatasetSpec Spec.DatasetClient Spec.RuntimeSpec
  Proofs.TreeFacts Proofs.RuntimeFacts Proofs.RuntimeCollect Proofs.RuntimeMoves Proofs.RuntimePending Proofs.RuntimeOps
  Proofs.RuntimeSettled Proofs.RuntimeNew Proofs.RuntimeAccount.
Import ListNotations.
Open Scope Z_scope.

Lemma followed_snoc r h e : followed r (h ++ [e]) = follow r (followed r h) e.
Proof. unfold followed. rewrite fold_left_app. reflexivity. Qed.

(** Calls not about a region leave its synchronous context alone. *)
Lemma not_about_features h log l o x r : balanced h log -> about r o = false -> (forall p, x = GotContext p -> begins o = Some (fst p)) ->
  features_of (h ++ [(o, x)]) (log ++ l) (r, Sync) = features_of h log (r, Sync) /\
  policy_of (h ++ [(o, x)]) (r, Sync) = policy_of h (r, Sync) /\
  started_of (h ++ [(o, x)]) r = started_of h r /\
  filter (fun y => Nat.eqb (fst y) r) (end_call (o, x)) = [].
Proof.
  intros B A G. rewrite features_next, policy_snoc, started_snoc by auto. clear B.
  assert (CE : forall p, Nat.eqb (fst p) r = false -> ctx_eqb p (r, Sync) = false) by (intros [a b] E; unfold ctx_eqb; cbn in *; rewrite E; auto).
  destruct o; cbn in *; auto.
  - destruct x as [| |p|]; cbn; auto; [destruct async; rewrite ?A; auto| | |]; try (destruct async; rewrite ?A; auto).
    + rewrite (CE p); auto. assert (Y := G p eq_refl). congruence.
    + rewrite (CE p); auto. assert (Y := G p eq_refl). congruence.
  - destruct x as [| |p|]; cbn; rewrite ?A; auto. rewrite (CE p); auto. assert (Y := G p eq_refl). congruence.
  - apply orb_false_iff in A. destruct A as [A1 A2]. destruct p as [p|]; auto. rewrite CE by auto. auto.
  - apply orb_false_iff in A. destruct A as [A1 A2]. destruct p as [p|]; auto. destruct x; auto. rewrite CE by auto. auto.
  - apply orb_false_iff in A. destruct A as [A1 A2]. destruct p as [p|]; cbn; auto. rewrite A1, CE by auto. auto.
  - apply orb_false_iff in A. destruct A as [A1 A2]. destruct p as [p|]; cbn; auto. rewrite A1, CE by auto. auto.
Qed.

Lemma records_balanced P w0 h log w : records P w0 h log w -> balanced h log.
Proof. induction 1; [intros r; reflexivity|]. eapply taken_balanced; eauto. Qed.

(** The phase of the client and what the history says. *)
Definition in_phase (h : history) (log : list entry) (r : nat) (ph : phase) : Prop :=
  match ph with
  | Idle => True
  | Running start fs c => features_of h log (r, Sync) = fs /\ started_of h r = Some start /\
      match c with Some c => policy_of h (r, Sync) = c | None => True end
  end.

Lemma follow_ends r ph ms o x ph' ms' : follow r (Some (ph, ms)) (o, x) = Some (ph', ms') ->
  forall p, In (r, p) (end_call (o, x)) -> p = (r, Sync).
Proof.
  intros F p I. destruct o as [nf nm np mt info yaml init|r' async now|r' gs now|r' q y|r' q D|r' q now early|r' q y|r' st collect force|st collect|r'|r' ws|ws|q msec]; try contradiction.
  - destruct q as [q|]; [|contradiction]. cbn in I. destruct I as [I|[]]. inversion I; subst r' q. clear I.
    unfold follow in F. cbn [fst about] in F. rewrite Nat.eqb_refl in F. cbn [orb negb andb] in F.
    destruct ph as [|start fs [c|]]; try discriminate. cbn in F. destruct (ctx_eqb p (r, Sync)) eqn:E; [|discriminate]. apply ctx_eqb_eq; auto.
  - destruct q as [q|]; [|contradiction]. cbn in I. destruct I as [I|[]]. inversion I; subst r' q. clear I.
    unfold follow in F. cbn [fst about] in F. rewrite Nat.eqb_refl in F. cbn [orb negb andb] in F.
    destruct ph as [|start fs [c|]]; discriminate.
Qed.

Lemma followed_ends r h : forall s, followed r h = Some s -> forall p, In p (ended_on h r) -> p = (r, Sync).
Proof.
  induction h as [|[o x] h IH] using rev_ind; intros [ph' ms'] F p I; [destruct I|]. rewrite followed_snoc in F.
  destruct (followed r h) as [[ph ms]|]; [|discriminate]. rewrite ended_on_snoc in I. apply in_app_or in I. destruct I as [I|I]; [eapply IH; eauto|].
  apply in_map_iff in I. destruct I as ([r' p'] & E & I). cbn in E. subst p'. apply filter_In in I. destruct I as [I X]. cbn in X.
  apply Nat.eqb_eq in X. subst r'. eapply follow_ends; eauto.
Qed.

Section Platform.
Variable P : platform.
Variable w0 : world.

Lemma step_context w o w' p : step P w o = Ok (w', GotContext p) -> begins o = Some (fst p).
Proof.
  intros ST. destruct o as [nf nm np mt info yaml init|r async now|r fs now|r q y|r q D|r q now early|r q y|r st collect force|st collect|r|r ws|ws|q ms];
    cbn in ST.
  - apply bind_inv in ST. destruct ST as ([w1 q] & _ & E). discriminate.
  - apply bind_inv in ST. destruct ST as ([w1 q] & H & E). inversion E; subst. apply begin_context_begun in H.
    destruct H as (R & _ & -> & _). reflexivity.
  - apply bind_inv in ST. destruct ST as ([w1 q] & H & E). inversion E; subst. apply begin_features_begun in H.
    destruct H as (R & _ & -> & _). reflexivity.
  - apply bind_inv in ST. destruct ST as (? & _ & ST). apply bind_inv in ST. destruct ST as (? & _ & ST).
    apply bind_inv in ST. destruct ST as (? & _ & ST). discriminate.
  - apply bind_inv in ST. destruct ST as (? & _ & ST). apply bind_inv in ST. destruct ST as ([? ?] & _ & ST). discriminate.
  - apply bind_inv in ST. destruct ST as (? & _ & ST). apply bind_inv in ST. destruct ST as (? & _ & ST).
    apply bind_inv in ST. destruct ST as (? & _ & ST). discriminate.
  - apply bind_inv in ST. destruct ST as (? & _ & ST). apply bind_inv in ST. destruct ST as (? & _ & ST). discriminate.
  - apply bind_inv in ST. destruct ST as (? & _ & ST). discriminate.
  - apply bind_inv in ST. destruct ST as (? & _ & ST). discriminate.
  - apply bind_inv in ST. destruct ST as (? & _ & ST). discriminate.
  - apply bind_inv in ST. destruct ST as (? & _ & ST). discriminate.
  - apply bind_inv in ST. destruct ST as (? & _ & ST). discriminate.
  - discriminate.
Qed.

(** A run that follows the discipline on region [r]. *)
Lemma client_log h log w r : records P w0 h log w -> (forall e, In e log -> e_region e = r -> e_context e = (r, Sync)) ->
  forall ph ms, followed r h = Some (ph, ms) -> in_phase h log r ph /\ map e_meas (taken_for r log) = ms.
Proof.
  intros RC. induction RC as [|h log w o x l w' RC IH ST TK SD]; intros CT ph ms F.
  - cbn in F. inversion F; subst. cbn. auto.
  - assert (CT' : forall e, In e log -> e_region e = r -> e_context e = (r, Sync)) by (intros; apply CT; auto; apply in_or_app; auto).
    assert (CTL : forall e, In e l -> e_region e = r -> e_context e = (r, Sync)) by (intros; apply CT; auto; apply in_or_app; auto).
    specialize (IH CT'). clear CT CT'. rewrite followed_snoc in F.
    destruct (followed r h) as [[ph0 ms0]|] eqn:F0; [|discriminate].
    destruct (IH _ _ eq_refl) as (IP & IM). clear IH. assert (BA := records_balanced _ _ _ _ _ RC).
    unfold taken_for in *. rewrite filter_app, map_app, IM. clear IM.
    unfold follow in F. cbn [fst] in F. destruct (about r o) eqn:AB; cbn [negb] in F.
    + (* a call of this execution *)
      destruct ph0 as [|start fs c]; destruct o as [nf nm np mt info yaml init|r' async now|r' gs now|r' q y|r' q D|r' q now early|r' q y|r' st collect force|st collect|r'|r' ws|ws|q ms']; try discriminate; try (destruct c; discriminate).
      * destruct async; [discriminate|]. inversion F; subst ph ms. clear F. cbn in AB. apply Nat.eqb_eq in AB. subst r'.
        cbn in TK. subst l. cbn. rewrite !app_nil_r. split; [|reflexivity]. rewrite (features_snoc _ _ _ _ BA), started_snoc.
        cbn in ST. apply bind_inv in ST. destruct ST as ([w1 p] & HB & E). inversion E; subst. apply begin_context_begun in HB.
        destruct HB as (R & _ & -> & _). cbn. rewrite ctx_eqb_refl, Nat.eqb_refl. auto.
      * inversion F; subst ph ms. clear F. cbn in AB. apply Nat.eqb_eq in AB. subst r'.
        cbn in TK. subst l. cbn. rewrite !app_nil_r. split; [|reflexivity]. rewrite (features_snoc _ _ _ _ BA), started_snoc.
        cbn in ST. apply bind_inv in ST. destruct ST as ([w1 p] & HB & E). inversion E; subst. apply begin_features_begun in HB.
        destruct HB as (R & _ & -> & _). cbn. rewrite ctx_eqb_refl, Nat.eqb_refl. auto.
      * assert (F2 : (if Nat.eqb r' r && own r q then Some (Running start (fs ++ [y]) c, ms0) else None) = Some (ph, ms)) by (destruct c; exact F).
        clear F. rename F2 into F.
        destruct (Nat.eqb_spec r' r); [|discriminate]. subst r'. destruct q as [q|]; [|discriminate]. cbn in F.
        destruct (ctx_eqb q (r, Sync)) eqn:EQ; [|discriminate]. apply ctx_eqb_eq in EQ. subst q. inversion F; subst ph ms.
        cbn in TK. subst l. cbn. rewrite !app_nil_r. split; [|reflexivity]. destruct IP as (I1 & I2 & I3).
        rewrite (features_snoc _ _ _ _ BA), started_snoc, policy_snoc. cbn. rewrite ctx_eqb_refl, I1. auto.
      * destruct c; destruct x; discriminate || (destruct (Nat.eqb_spec r' r); [|discriminate]; subst r'; destruct q as [q|]; [|discriminate]; cbn in F;
          destruct (ctx_eqb q (r, Sync)) eqn:EQ; [|discriminate]; apply ctx_eqb_eq in EQ; subst q; inversion F; subst ph ms;
          cbn in TK; subst l; cbn; rewrite !app_nil_r; split; [|reflexivity]; destruct IP as (I1 & I2 & I3);
          rewrite (features_snoc _ _ _ _ BA), started_snoc, policy_snoc; cbn; rewrite ctx_eqb_refl; auto).
      * destruct c as [c|]; [|discriminate]. destruct (Nat.eqb_spec r' r); [|discriminate]. subst r'. destruct q as [q|]; [|discriminate]. cbn in F.
        destruct (ctx_eqb q (r, Sync)) eqn:EQ; [|discriminate]. apply ctx_eqb_eq in EQ. subst q. inversion F; subst ph ms. clear F.
        split; [exact Logic.I|]. destruct TK as (e & st & _ & -> & E1 & E2 & (E3 & E4 & E5) & E6 & E7). cbn. rewrite E1, Nat.eqb_refl. cbn.
        destruct IP as (I1 & I2 & I3). rewrite started_snoc in E6. cbn in E6. rewrite I2 in E6. inversion E6; subst st.
        unfold e_meas. rewrite E7, E3, E4, E2. rewrite (features_snoc _ _ _ _ BA), policy_snoc. cbn. rewrite ctx_eqb_refl. cbn. rewrite I1, I3. reflexivity.
    + (* something else *)
      inversion F; subst ph0 ms0. clear F.
      destruct (not_about_features h log l o x r BA AB) as (N1 & N2 & N3 & N4).
      { intros p ->. eapply step_context; eauto. }
      split; [destruct ph as [|start fs c]; cbn in *; auto; rewrite N1, N2, N3; auto|].
      assert (TN : filter (fun e => Nat.eqb (e_region e) r) l = []).
      { destruct (filter (fun e => Nat.eqb (e_region e) r) l) as [|e l'] eqn:FE; auto. exfalso.
        assert (IL : In e (filter (fun e => Nat.eqb (e_region e) r) l)) by (rewrite FE; left; auto).
        apply filter_In in IL. destruct IL as [IL EL]. apply Nat.eqb_eq in EL. assert (EC := CTL _ IL EL).
        enough (exists q k, e_context e = (q, Heap k)) as (q & k & Y) by congruence. clear FE.
        assert (AY : forall r0, asynchronous (h ++ [(o, x)]) log r0 e -> exists q k, e_context e = (q, Heap k)).
        { intros r0 (_ & _ & o' & k & ms' & E & _). eauto. }
        destruct o as [nf nm np mt info yaml init|r' async now|r' gs now|r' q y|r' q D|r' q now early|r' q y|r' st collect force|st collect|r'|r' ws|ws|q ms'];
          cbn in TK, AB; try (subst l; contradiction).
        - destruct q as [[q [|k]]|]; [| |subst l; contradiction].
          + destruct TK as (e0 & st & -> & -> & E1 & _). destruct IL as [<-|[]]. exfalso. rewrite <- EL, E1, Nat.eqb_refl in AB. discriminate.
          + rewrite Forall_forall in TK. eauto.
        - destruct q as [q|]; [|subst l; contradiction]. destruct TK as (e0 & rest & -> & E1 & _ & _ & _ & FA). destruct IL as [<-|IL].
          + exfalso. rewrite <- EL, E1, Nat.eqb_refl in AB. discriminate.
          + rewrite Forall_forall in FA. eauto.
        - destruct collect; [|subst l; contradiction]. rewrite Forall_forall in TK. eauto.
        - destruct collect; [|subst l; contradiction]. rewrite Forall_forall in TK. eauto.
        - rewrite Forall_forall in TK. eauto.
        - rewrite Forall_forall in TK. eauto. }
      rewrite TN. cbn. rewrite app_nil_r. reflexivity.
Qed.
End Platform.

Section Runs.
Variable P : platform.

Lemma client_attributed c files os w xs r R ph ms :
  run P (start_world c files) os = Ok (w, xs) -> forallb explicit os = true ->
  followed r (combine os xs) = Some (ph, ms) -> nth_error (w_regions w) r = Some R ->
  exists log h1 o h2 w1 R1 k, records P (start_world c files) (combine os xs) log w /\ map e_meas (taken_for r log) = ms /\
    kept_for r log = firstn k ms /\
    combine os xs = h1 ++ (o, GotRegion r) :: h2 /\
    run P (start_world c files) (map fst (h1 ++ [(o, GotRegion r)])) = Ok (w1, map snd (h1 ++ [(o, GotRegion r)])) /\
    nth_error (w_regions w1) r = Some R1 /\
    insert_all (r_dataset R1) (firstn k ms) = Ok (r_dataset R) /\ (k <= List.length ms)%nat /\ (keeps c R = true -> k = List.length ms).
Proof.
  intros H EX F ER. destruct (inv_run P (start_world c files) eq_refl eq_refl eq_refl _ _ _ EX H) as (log & I).
  assert (CT : forall e, In e log -> e_region e = r -> e_context e = (r, Sync)).
  { intros e IE RE. eapply followed_ends; [exact F|]. eapply Permutation_in; [symmetry; apply (i_count _ _ _ _ _ I)|].
    apply in_or_app. left. apply in_map. apply filter_In. split; auto. apply Nat.eqb_eq; auto. }
  destruct (client_log P _ _ _ _ _ (i_records _ _ _ _ _ I) CT _ _ F) as [_ M].
  destruct (i_data _ _ _ _ _ I _ _ ER) as (h1 & o & h2 & w1 & R1 & EH & RU & ER1 & DI & _).
  destruct (i_flags _ _ _ _ _ I _ _ ER) as (a & n & FL & _ & FN & _).
  assert (KF : kept_for r log = firstn a ms).
  { rewrite <- M. unfold kept_for, taken_for, of_region in *. clear - FL. revert a n FL.
    induction log as [|e log IH]; cbn; intros a n FL.
    - rewrite firstn_nil. reflexivity.
    - destruct (Nat.eqb (e_region e) r) eqn:X; cbn in *; [|eapply IH; eauto].
      destruct a as [|a]; cbn in FL.
      + destruct n as [|n]; [discriminate|]. cbn in FL. injection FL as K FL. rewrite K. cbn. rewrite (IH 0%nat n) by exact FL. reflexivity.
      + injection FL as K FL. rewrite K. cbn. rewrite (IH a n) by exact FL. reflexivity. }
  assert (LN : List.length ms = (a + n)%nat).
  { rewrite <- M, map_length. apply (f_equal (@List.length bool)) in FL. rewrite map_length, app_length, !repeat_length in FL. exact FL. }
  exists log, h1, o, h2, w1, R1, a. split; [apply (i_records _ _ _ _ _ I)|]. split; auto. split; auto. split; auto. split; auto. split; auto.
  split; [rewrite <- KF; auto|]. split; [lia|]. intros K. assert (n = 0)%nat; [|lia]. apply FN. rewrite (kept_keeps c); auto. apply (i_config _ _ _ _ _ I).
Qed.

(** ** Forgotten policies *)

Lemma policy_unasked h mid p : forallb (fun e => negb (match fst e with OpGetPolicy _ (Some q) _ => ctx_eqb q p | _ => false end)) mid = true ->
  policy_of (h ++ mid) p = policy_of h p.
Proof.
  induction mid as [|e mid IH] using rev_ind; intros H; [rewrite app_nil_r; auto|].
  rewrite forallb_app in H. apply andb_prop in H. destruct H as [H1 H2]. cbn in H2. rewrite andb_true_r in H2.
  rewrite app_assoc, policy_snoc, IH by auto. destruct e as [o x]. destruct o; cbn in *; auto. destruct p0 as [q|]; auto. destruct x; auto.
  destruct (ctx_eqb q p); auto. discriminate.
Qed.

Lemma run_app_inv w os os' w' xs : run P w (os ++ os') = Ok (w', xs) ->
  exists w1 xs1 xs2, run P w os = Ok (w1, xs1) /\ run P w1 os' = Ok (w', xs2) /\ xs = xs1 ++ xs2.
Proof.
  revert w xs. induction os as [|o os IH]; cbn; intros w xs H; [eauto 6|].
  apply bind_inv in H. destruct H as ([w2 x] & E & H). apply bind_inv in H. destruct H as ([w3 ys] & E3 & H). inversion H; subst.
  destruct (IH _ _ E3) as (w1 & xs1 & xs2 & A & B & ->). exists w1, (x :: xs1), xs2. rewrite E. cbn. rewrite A. auto.
Qed.

Lemma combine_app {A B} (a a' : list A) (b b' : list B) : List.length a = List.length b -> combine (a ++ a') (b ++ b') = combine a b ++ combine a' b'.
Proof. revert b. induction a; destruct b; cbn; intros; try discriminate; auto. f_equal. auto. Qed.

Lemma records_snoc_inv w0 h o x L w : records P w0 (h ++ [(o, x)]) L w ->
  exists log l w1, L = log ++ l /\ records P w0 h log w1 /\ step P w1 o = Ok (w, x) /\ taken (h ++ [(o, x)]) log o l /\ stored w1 (o, x) l w.
Proof.
  intros RR. remember (h ++ [(o, x)]) as hh eqn:E. destruct RR as [|h' log' w' o' x' l' w'' RC ST TK SD].
  - destruct h; discriminate.
  - apply app_inj_tail in E. destruct E as [-> E]. inversion E; subst. exists log', l', w'. auto.
Qed.

Lemma stale_policy c files os1 os2 r now early w1 xs1 w xs :
  run P (start_world c files) os1 = Ok (w1, xs1) ->
  run P (start_world c files) (os1 ++ os2 ++ [OpEnd r (Some (r, Sync)) now early]) = Ok (w, xs) ->
  forallb explicit (os1 ++ os2) = true ->
  forallb (fun o => negb (match o with OpGetPolicy _ (Some q) _ => ctx_eqb q (r, Sync) | _ => false end)) os2 = true ->
  exists log e, records P (start_world c files) (combine (os1 ++ os2 ++ [OpEnd r (Some (r, Sync)) now early]) xs) (log ++ [e]) w /\
    e_region e = r /\ e_context e = (r, Sync) /\ e_policy e = policy_of (combine os1 xs1) (r, Sync).
Proof.
  intros R1 RA EX NP.
  assert (EXA : forallb explicit (os1 ++ os2 ++ [OpEnd r (Some (r, Sync)) now early]) = true) by (rewrite app_assoc, forallb_app, EX; reflexivity).
  destruct (inv_run P (start_world c files) eq_refl eq_refl eq_refl _ _ _ EXA RA) as (L & I).
  destruct (run_app_inv _ _ _ _ _ RA) as (w1' & xs1' & xs2 & A & B & ->). rewrite R1 in A. inversion A; subst w1' xs1'. clear A.
  destruct (run_snoc_inv P _ _ _ _ _ B) as (w2 & xs2' & x & B1 & B2 & ->).
  assert (L1 : List.length os1 = List.length xs1) by (symmetry; exact (run_length P _ _ _ _ R1)).
  assert (L2 : List.length os2 = List.length xs2') by (symmetry; exact (run_length P _ _ _ _ B1)).
  assert (RR := i_records _ _ _ _ _ I).
  assert (EC : combine (os1 ++ os2 ++ [OpEnd r (Some (r, Sync)) now early]) (xs1 ++ xs2' ++ [x]) =
    (combine os1 xs1 ++ combine os2 xs2') ++ [(OpEnd r (Some (r, Sync)) now early, x)]).
  { rewrite combine_app, combine_snoc, app_assoc by auto. reflexivity. }
  rewrite EC in RR |- *. clear I EC. destruct (records_snoc_inv _ _ _ _ _ _ RR) as (log & l & w3 & -> & _ & _ & TK & _).
  destruct TK as (e & st & _ & -> & E1 & E2 & (E3 & E4 & E5) & _). exists log, e. split; auto. split; auto. split; auto.
  rewrite E4, E2, quiet_policy by reflexivity. apply policy_unasked.
  revert NP L2. clear. revert xs2'. induction os2 as [|o os2 IH]; intros [|x xs]; cbn; auto; intros; try discriminate.
  apply andb_prop in NP. destruct NP as [N1 N2]. rewrite IH by auto. rewrite andb_true_r. exact N1.
Qed.
End Runs.
