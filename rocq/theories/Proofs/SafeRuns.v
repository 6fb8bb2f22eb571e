(** Every call of a well-behaved client returns. *)
From Coq Require Import ZArith Bool Ascii String Lia List.
From Flocq Require Import BinarySingleNaN.
From Verif Require Import Model.Base Model.Float Model.Decimal Model.DatasetM Model.ParserM Model.DatasetIO
  Model.PolicyNetM Model.ModelStringM Model.PolicyModelsM Model.ConfigM Model.RuntimeM
  Spec.ModelStringSpec Spec.DatasetSpec Spec.DatasetClient Spec.TreeSpec Spec.ForestSpec Spec.PolicyNetSpec Spec.RuntimeSpec
  Proofs.TreeFacts Proofs.MapFacts Proofs.KeyOrder Proofs.DatasetFacts Proofs.ModelStringFacts Proofs.PolicyRange Proofs.RuntimeFacts Proofs.RuntimeCollect Proofs.RuntimeMoves
  Proofs.RuntimePending Proofs.RuntimeOps Proofs.SafeModels Proofs.SafeWorld Proofs.SafeCollect Spec.SafeClient.
Import ListNotations.
Open Scope Z_scope.

Lemma NoDup_app_snoc {A} (l : list A) x : NoDup l -> ~ In x l -> NoDup (l ++ [x]).
Proof.
  induction 1 as [|y l N ND IH]; intros H; cbn; [constructor; [auto|constructor]|]. constructor.
  - intros X. apply in_app_or in X. destruct X as [X|[X|[]]]; [contradiction|]. subst. apply H. left. reflexivity.
  - apply IH. intros X. apply H. right. exact X.
Qed.

Lemma map_pointwise {A B} (f : A -> B) : forall l l', List.length l' = List.length l ->
  (forall i x, nth_error l i = Some x -> exists y, nth_error l' i = Some y /\ f y = f x) -> map f l' = map f l.
Proof.
  induction l as [|x l IH]; intros [|y l'] L H; cbn in L; try (exfalso; lia); [reflexivity|]. cbn. f_equal.
  - destruct (H 0%nat x eq_refl) as (z & E & EF). cbn in E. inversion E; subst. exact EF.
  - apply IH; [lia|]. intros i z E. exact (H (S i) z E).
Qed.

(** What the client knows of a region. *)
Definition known (R : region) : Z * bytes := (r_num_features R, r_model_info R).

(** An open context. *)
Definition open_ok (w : world) (p : ctxptr) (fs : list f32) : Prop :=
  exists x, get_context w p = Ok x /\ c_features x = fs /\ ~ waiting w p /\
    match snd p with
    | Sync => exists b e, c_timer x = Clock (Some b) e
    | Heap _ => exists e, c_timer x = Events false e
    end.

Section Runs.
Variable P : platform.
Variable c : config.
Hypothesis HS : sorter_ok (p_sort P).
Hypothesis HP : picker_ok (p_pick P).
Hypothesis PL : plain c.

Record Inv (n : Z) (v : view) (w : world) : Prop := {
  iv_counts : counts c n (fun _ => n) w;
  iv_budget : budget n w;
  iv_pends : pends c w;
  iv_idx : forall i R, nth_error (w_regions w) i = Some R -> r_idx R <= n;
  iv_regions : v_regions v = map known (w_regions w);
  iv_current : forall i p, v_current v i = Some p -> exists R, nth_error (w_regions w) i = Some R /\ r_current R = Some p;
  iv_open : forall p fs, v_open v p = Some fs -> open_ok w p fs
}.

Lemma counts_more n n' kk kk' w : counts c n kk w -> n <= n' -> (forall i, kk i <= kk' i) -> counts c n' kk' w.
Proof. intros [A1 A2 A3 A4 A5] L K. constructor; auto; [lia|]. eapply within_weaken; [exact A5|]. intros i. specialize (K i). cbn beta. lia. Qed.

Lemma budget_more n n' w : budget n w -> n <= n' -> budget n' w.
Proof. unfold budget. lia. Qed.

Lemma open_frame S rc rp w w' q fs : frame S rc rp w w' -> ~ S q -> (waiting w' q -> waiting w q) -> open_ok w q fs -> open_ok w' q fs.
Proof.
  intros FR N W (x & E & EF & NW & T). exists x. split; [rewrite (fr_contexts _ _ _ _ _ FR q N); exact E|]. split; [exact EF|]. split; [auto|exact T].
Qed.

Lemma inv_frame n n' v v' w w' S rc rp : Inv n v w -> n <= n' -> counts c n' (fun _ => n') w' -> budget n' w' -> pends c w' -> frame S rc rp w w' ->
  (forall q, waiting w' q -> waiting w q \/ S q) -> v_regions v' = v_regions v ->
  (forall i p, v_current v' i = Some p -> (v_current v i = Some p /\ ~ rc i) \/ exists R, nth_error (w_regions w') i = Some R /\ r_current R = Some p) ->
  (forall q fs, v_open v' q = Some fs -> (v_open v q = Some fs /\ ~ S q) \/ open_ok w' q fs) -> Inv n' v' w'.
Proof.
  intros I L CT BU PE FR WA VR VC VO. constructor; auto.
  - intros i R' Ei'. destruct (nth_some_length _ _ _ _ (fr_length _ _ _ _ _ FR) Ei') as (R & Ei).
    destruct (fr_regions _ _ _ _ _ FR _ _ Ei) as (R1 & Ei1 & _ & ID & _). assert (R1 = R') by congruence. subst R1. rewrite ID. assert (X := iv_idx _ _ _ I _ _ Ei). lia.
  - rewrite VR, (iv_regions _ _ _ I). symmetry. apply map_pointwise; [apply FR|]. intros i R Ei.
    destruct (fr_regions _ _ _ _ _ FR _ _ Ei) as (R1 & Ei1 & (_ & E1 & _ & _ & E2 & _) & _). exists R1. split; [exact Ei1|]. unfold known. rewrite E1, E2. reflexivity.
  - intros i p Vp. destruct (VC i p Vp) as [(Vp0 & N)|X]; [|exact X]. destruct (iv_current _ _ _ I _ _ Vp0) as (R & Ei & CR).
    destruct (fr_regions _ _ _ _ _ FR _ _ Ei) as (R1 & Ei1 & _ & _ & CU & _). exists R1. split; [exact Ei1|]. rewrite (CU N). exact CR.
  - intros q fs Vq. destruct (VO q fs Vq) as [(Vq0 & N)|O]; [|exact O]. eapply open_frame; [exact FR|exact N| |eapply iv_open; eauto].
    intros X. destruct (WA q X) as [Y|Y]; [exact Y|contradiction].
Qed.

(** ** Assignments through contexts *)

Lemma set_context_ok n kk w p x x' R : counts c n kk w -> get_context w p = Ok x -> nth_error (w_regions w) (fst p) = Some R -> in_range (r_num_policies R) (c_policy x') ->
  (snd p = Sync -> exists b e, c_timer x' = Clock b e) ->
  counts c n kk (set_context w p x') /\ frame (one p) none none w (set_context w p x') /\ get_context (set_context w p x') p = Ok x'.
Proof.
  intros CT E ER IR TM. assert (T := touched_set_context w p x x' E). destruct T as (G & L & PE & RG & CX).
  assert (FR : frame (one p) none none w (set_context w p x')).
  { constructor; [exact L|apply G|intros q N; apply CX; intros X; apply N; exact X|]. intros i Ri Ei.
    destruct (RG i Ri Ei) as (Ri' & Ei' & SS & _ & ID & _ & _ & _ & CU & _). exists Ri'. split; [exact Ei'|]. split; [exact SS|]. split; [exact ID|]. split; [auto|].
    intros _. specialize (PE i). unfold pending in PE. rewrite Ei, Ei' in PE. exact PE. }
  split; [|split; [exact FR|]].
  2:{ rewrite (get_set_context _ _ x) by exact E. rewrite ctx_eqb_refl. reflexivity. }
  destruct CT as [S C1 C2 C3 C4]. assert (EX : w_executions (set_context w p x') = w_executions w) by apply G. assert (OK := sane_region _ _ _ _ S ER).
  constructor; rewrite ?EX; auto.
  - unfold set_context. rewrite ER. destruct (snd p) eqn:EP.
    + apply sane_set; [exact S|]. apply (region_ok_like c R); [exact OK|repeat split|reflexivity|reflexivity|reflexivity| |apply OK]. split; [exact IR|]. cbn. auto.
    + apply sane_set; [exact S|]. apply (region_ok_like c R); [exact OK|repeat split|reflexivity|reflexivity|reflexivity|apply OK|].
      cbn. intros j z Ej. rewrite nth_set_nth in Ej. destruct (Nat.eqb_spec j k) as [->|].
      * destruct (nth_error (r_heap R) k); [|discriminate Ej]. inversion Ej; subst. exact IR.
      * eapply ro_heap; eauto.
  - intros i Ri' Ei'. destruct (nth_some_length _ _ _ _ L Ei') as (Ri & Ei). destruct (RG i Ri Ei) as (R1 & E1 & _ & _ & _ & D & _). assert (R1 = Ri') by congruence. subst R1.
    rewrite D. exact (C3 i Ri Ei).
  - intros i Ri' Ei'. destruct (nth_some_length _ _ _ _ L Ei') as (Ri & Ei). destruct (RG i Ri Ei) as (R1 & E1 & _ & _ & _ & _ & D & _). assert (R1 = Ri') by congruence. subst R1.
    rewrite D. exact (C4 i Ri Ei).
Qed.

Lemma waiting_same w w' : List.length (w_regions w') = List.length (w_regions w) ->
  (forall i R, nth_error (w_regions w) i = Some R -> exists R', nth_error (w_regions w') i = Some R' /\ r_pending R' = r_pending R) -> forall q, waiting w' q -> waiting w q.
Proof.
  intros L H q (i & R' & Ei' & Iq). destruct (nth_some_length _ _ _ _ L Ei') as (R & Ei). destruct (H i R Ei) as (R1 & E1 & EP).
  assert (R1 = R') by congruence. subst R1. rewrite EP in Iq. exists i, R. auto.
Qed.

Lemma waiting_none S rc w w' q : frame S rc none w w' -> waiting w' q -> waiting w q.
Proof.
  intros FR. apply waiting_same; [apply FR|]. intros i R Ei. destruct (fr_regions _ _ _ _ _ FR _ _ Ei) as (R1 & Ei1 & _ & _ & _ & PE). exists R1. split; [exact Ei1|]. apply PE. intros [].
Qed.

(** Changes that touch only contexts that do not wait. *)
Lemma pends_keep S rc w w' : frame S rc none w w' -> (forall q, waiting w q -> ~ S q) -> pends c w -> pends c w'.
Proof.
  intros FR N PE i R' Ei'. destruct (nth_some_length _ _ _ _ (fr_length _ _ _ _ _ FR) Ei') as (R & Ei). destruct (fr_regions _ _ _ _ _ FR _ _ Ei) as (R1 & Ei1 & _ & _ & _ & PEi).
  assert (R1 = R') by congruence. subst R1. rewrite (PEi (fun X => X)). destruct (PE i R Ei) as [X Y]. split; [exact X|]. intros q Iq.
  eapply pend_one_frame; [exact FR| |exact (Y q Iq)]. apply N. exists i, R. auto.
Qed.

Lemma budget_keep S rc n w w' : frame S rc none w w' -> w_executions w' = w_executions w -> budget n w -> budget n w'.
Proof. intros FR EX. unfold budget. rewrite EX, (total_frame _ _ _ _ FR). auto. Qed.

Lemma set_context_executions w p x : w_executions (set_context w p x) = w_executions w.
Proof. apply set_context_globals. Qed.

(** ** What the client knows is so *)

Lemma known_region n v w r : Inv n v w -> (r < List.length (v_regions v))%nat -> exists R, nth_error (w_regions w) r = Some R.
Proof.
  intros I L. rewrite (iv_regions _ _ _ I), map_length in L. destruct (nth_error (w_regions w) r) eqn:E; [eauto|]. apply nth_error_None in E. lia.
Qed.

Lemma context_region w p x : get_context w p = Ok x -> exists R, nth_error (w_regions w) (fst p) = Some R.
Proof. unfold get_context. destruct (nth_error (w_regions w) (fst p)); [eauto|discriminate]. Qed.

Lemma open_resolves n v w r p fs : Inv n v w -> open_on v r p fs -> exists q R, meant v r p = Some q /\ resolve w r p = Ok q /\ fst q = r /\ nth_error (w_regions w) r = Some R /\
  get_region w r = Ok R /\ v_open v q = Some fs /\ open_ok w q fs.
Proof.
  intros I (q & EM & EF & EO). assert (O := iv_open _ _ _ I _ _ EO). assert (O' := O). destruct O' as (x & EX & _). destruct (context_region _ _ _ EX) as (R & ER). rewrite EF in ER.
  exists q, R. assert (G := sane_get _ _ _ _ (ct_sane _ _ _ _ (iv_counts _ _ _ I)) ER). split; [exact EM|]. split; [|auto 10].
  destruct p as [p|]; cbn in EM; unfold resolve; [inversion EM; reflexivity|]. rewrite G. cbn [bind]. destruct (iv_current _ _ _ I _ _ EM) as (R1 & E1 & C1). assert (R1 = R) by congruence. subst R1. rewrite C1. reflexivity.
Qed.

Lemma usable_feat n v w r R fs : Inv n v w -> nth_error (w_regions w) r = Some R -> usable c v r fs -> feat_ok c R fs.
Proof.
  intros I ER (nf & s & E & L & N & T & M). rewrite (iv_regions _ _ _ I) in E. rewrite (map_nth_error known _ _ ER) in E. unfold known in E. injection E as E1 E2. split; [congruence|]. split; [exact N|]. split; [exact T|]. rewrite E2. exact M.
Qed.

Lemma not_open_waiting n v w p fs : Inv n v w -> v_open v p = Some fs -> ~ waiting w p.
Proof. intros I E. destruct (iv_open _ _ _ I _ _ E) as (x & _ & _ & N & _). exact N. Qed.

Lemma fits_more n : 0 <= n -> n + 2 <= 2 ^ 24 -> fits (n + 1) (fun _ => n + 1).
Proof. intros. split; [lia|]. intros _. lia. Qed.

(** ** Calls *)

Definition call_ok (n : Z) (v : view) (w : world) (o : op) : Prop :=
  exists w' x, step P w o = Ok (w', x) /\ Inv (n + 1) (view_step c v (o, x)) w'.

Lemma set_feature_ok n v w r p x : Inv n v w -> allowed c v (OpSetFeature r p x) -> call_ok n v w (OpSetFeature r p x).
Proof.
  intros I (fs & O). destruct (open_resolves _ _ _ _ _ _ I O) as (q & R & EM & EQ & EF & ER & G & VO & y & EC & FE & NW & TM).
  assert (CT := iv_counts _ _ _ I). assert (S := ct_sane _ _ _ _ CT). rewrite <- EF in ER.
  set (y' := mkContext (c_features y ++ [x]) (c_policy y) (c_idx y) (c_timer y)).
  destruct (set_context_ok n (fun _ => n) w q y y' R CT EC ER) as (CT' & FR & EC').
  - exact (policy_in_range c w q y R S EC ER).
  - intros EP. rewrite EP in TM. destruct TM as (b & e & TM). cbn. eauto.
  - exists (set_context w q y'), Done. split.
    { cbn [step]. rewrite G. cbn [bind]. rewrite EQ. cbn [bind]. unfold set_feature. rewrite EC. reflexivity. }
    cbn [view_step]. rewrite EM, VO. eapply inv_frame with (rc := none); [exact I|lia| | | |exact FR| |reflexivity| |].
    + eapply counts_more; [exact CT'|lia|intros; cbn beta; lia].
    + eapply budget_more; [|apply Z.le_succ_diag_r]. eapply budget_keep; [exact FR|apply set_context_executions|apply I].
    + eapply pends_keep; [exact FR| |apply I]. intros z Wz X. red in X. subst z. contradiction.
    + intros z Wz. left. eapply waiting_none; eauto.
    + cbn. intros i z Ez. left. split; [exact Ez|]. intros [].
    + cbn. intros z gs Ez. destruct (ctx_eqb z q) eqn:EZ.
      * apply ctx_eqb_eq in EZ. subst z. inversion Ez; subst gs. right. exists y'. split; [exact EC'|]. split; [cbn; rewrite FE; reflexivity|].
        split; [intros X; apply NW; eapply waiting_none; eauto|exact TM].
      * left. split; [exact Ez|]. intros X. red in X. subst z. rewrite ctx_eqb_refl in EZ. discriminate.
Qed.

Lemma trace_policy_ok n kk w R y choice : counts c n kk w -> feat_ok c R (c_features y) -> exists f, trace_policy w R y choice = Ok (set_files w f).
Proof.
  intros CT F. unfold trace_policy. rewrite (sn_config _ _ (ct_sane _ _ _ _ CT)). destruct (truthy (cf_trace_policy c)) eqn:T; cbn [negb].
  - apply truthy_nonzero in T. destruct F as (_ & _ & U & _). destruct (trace_features_ok _ (U (or_introl T))) as (s & ->). cbn [bind]. eauto.
  - exists (w_files w). destruct w; reflexivity.
Qed.

Lemma get_policy_ok n v w r p D : Inv n v w -> allowed c v (OpGetPolicy r p D) -> call_ok n v w (OpGetPolicy r p D).
Proof.
  intros I (fs & O & U & SA). destruct (open_resolves _ _ _ _ _ _ I O) as (q & R & EM & EQ & EF & ER & G & VO & y & EC & FE & NW & TM).
  assert (CT := iv_counts _ _ _ I). assert (S := ct_sane _ _ _ _ CT). assert (OK := sane_region _ _ _ _ S ER). assert (FO := usable_feat _ _ _ _ _ _ I ER U).
  assert (HN : 1 <= r_num_policies R) by (assert (X := ro_policies _ _ OK); lia).
  destruct (get_fine P (r_num_policies R) (Z.to_nat (r_num_features R)) D (r_model R) HN (ro_good _ _ OK) (ro_fine _ _ OK) fs) as (ch & m & EG & FM & TM' & WN).
  - destruct FO as (L & _). lia.
  - intros W. apply (ro_net _ _ OK) in W. split; [apply FO; exact W|]. destruct SA as [_ SA]. apply (SA (r_num_features R) (r_model_info R)); [|exact W].
    rewrite (iv_regions _ _ _ I). exact (map_nth_error known _ _ ER).
  - destruct (get_in P (r_num_policies R) D (r_model R) HN (proj1 SA) (ro_good _ _ OK) _ _ _ EG) as (IR & GM).
    destruct (trace_policy_ok _ _ w R y ch CT) as (f & ET); [rewrite FE; exact FO|].
    set (w1 := set_region (set_files w f) r (with_model R m)).
    assert (CX : forall z, get_context w1 z = get_context w z).
    { intros [o u]. unfold get_context, w1. cbn. rewrite nth_set_nth, ER. destruct (Nat.eqb_spec o r) as [->|]; [rewrite ER; reflexivity|reflexivity]. }
    assert (CT1 : counts c n (fun _ => n) w1).
    { destruct CT as [C0 C1 C2 C3 C4]. constructor; auto.
      - apply sane_set; [apply sane_files; exact S|]. apply region_ok_model; auto.
      - apply small_set; [exact C3|]. exact (C3 r R ER).
      - apply within_set; [exact C4|]. cbn. rewrite TM'. exact (C4 r R ER). }
    assert (FR1 : frame none none none w w1).
    { constructor; [cbn; apply set_nth_length|reflexivity|intros z _; apply CX|]. intros i Ri Ei. unfold w1. cbn. rewrite nth_set_nth, ER. destruct (Nat.eqb_spec i r) as [->|].
      - eexists. split; [reflexivity|]. assert (Ri = R) by congruence. subst Ri. split; [repeat split|]. auto.
      - exists Ri. split; [exact Ei|]. split; [apply same_static_refl|]. auto. }
    set (y' := mkContext (c_features y) ch (c_idx y) (c_timer y)).
    assert (EC1 : get_context w1 q = Ok y) by (rewrite CX; exact EC).
    assert (ER1 : nth_error (w_regions w1) (fst q) = Some (with_model R m)) by (rewrite EF; cbn; eapply nth_set_nth_eq; eauto).
    destruct (set_context_ok n (fun _ => n) w1 q y y' (with_model R m) CT1 EC1 ER1) as (CT2 & FR2 & EC2); [exact IR| |].
    { intros EP. rewrite EP in TM. destruct TM as (b & e & TM). cbn. eauto. }
    assert (FR : frame (one q) none none w (set_context w1 q y')).
    { eapply frame_trans; [eapply frame_weaken; [exact FR1| | |]; intros ? []|exact FR2]. }
    exists (set_context w1 q y'), (GotPolicy ch). split.
    { cbn [step]. rewrite EQ. cbn [bind]. unfold get_policy_index. rewrite G, EC. cbn [bind]. rewrite FE, EG. cbn [bind]. rewrite ET. cbn [bind]. fold w1. rewrite EC1. cbn [bind].
      reflexivity. }
    cbn [view_step]. eapply inv_frame with (rc := none); [exact I|lia| | | |exact FR| |reflexivity| |].
    + eapply counts_more; [exact CT2|lia|intros; cbn beta; lia].
    + eapply budget_more; [|apply Z.le_succ_diag_r]. eapply budget_keep; [exact FR|rewrite set_context_executions; reflexivity|apply I].
    + eapply pends_keep; [exact FR| |apply I]. intros z Wz X. red in X. subst z. contradiction.
    + intros z Wz. left. eapply waiting_none; eauto.
    + intros i z Ez. left. split; [exact Ez|]. intros [].
    + intros z gs Ez. destruct (ctx_eqb z q) eqn:EZ.
      * apply ctx_eqb_eq in EZ. subst z. rewrite VO in Ez. inversion Ez; subst gs. right. exists y'. split; [exact EC2|]. split; [exact FE|].
        split; [intros X; apply NW; eapply waiting_none; eauto|exact TM].
      * left. split; [exact Ez|]. intros X. red in X. subst z. rewrite ctx_eqb_refl in EZ. discriminate.
Qed.

(** *** Ends *)

(** Closing a context leaves the others. *)
Lemma close_current v r p i z : v_current (close r p v) i = Some z -> v_current v i = Some z /\ i <> r.
Proof.
  unfold close. cbn. destruct (Nat.eqb_spec i r); [discriminate|]. destruct (meant v r p); cbn; auto.
Qed.

Lemma close_open v r p q z fs : meant v r p = Some q -> v_open (close r p v) z = Some fs -> v_open v z = Some fs /\ z <> q.
Proof.
  unfold close. intros E. cbn. rewrite E. cbn. destruct (ctx_eqb z q) eqn:EZ; [discriminate|]. intros X. split; [exact X|]. intros ->. rewrite ctx_eqb_refl in EZ. discriminate.
Qed.

Lemma close_regions v r p : v_regions (close r p v) = v_regions v.
Proof. unfold close. cbn. destruct (meant v r p); reflexivity. Qed.

Lemma inv_positive n v w : Inv n v w -> 0 <= n.
Proof. intros I. assert (X := ct_pos _ _ _ _ (iv_counts _ _ _ I)). assert (Y := ct_limit _ _ _ _ (iv_counts _ _ _ I)). lia. Qed.

Lemma end_metric_ok n v w r p x : Inv n v w -> n + 2 <= 2 ^ 24 -> allowed c v (OpEndMetric r p x) -> call_ok n v w (OpEndMetric r p x).
Proof.
  intros I NB (fs & O & U). destruct (open_resolves _ _ _ _ _ _ I O) as (q & R & EM & EQ & EF & ER & G & VO & y & EC & FE & NW & TM).
  assert (N0 := inv_positive _ _ _ I). assert (FO := usable_feat _ _ _ _ _ _ I ER U). assert (FT := fits_more n N0 NB).
  assert (CT : counts c (n + 1) (fun _ => n + 1) w) by (eapply counts_more; [apply I|lia|intros; cbn beta; lia]).
  assert (BU := iv_budget _ _ _ I). assert (BU0 := BU). unfold budget in BU.
  destruct (collect_counts P c HS HP PL (n + 1) (fun _ => n + 1) w r R q y x FT CT) as (w1 & E1 & CT1 & FR1 & EX1); auto; [lia|rewrite FE; exact FO|].
  assert (BU1 : budget (n + 1) w1) by (unfold budget; rewrite EX1, (total_frame _ _ _ _ FR1); lia).
  assert (PE1 : pends c w1) by (eapply pends_keep; [exact FR1| |apply I]; intros z Wz X; red in X; subst z; contradiction).
  destruct (collect_pending_ok P c HS HP PL (n + 1) (fun _ => n + 1) w1 r FT CT1 BU1 PE1) as (w2 & E2 & CT2 & BU2 & PE2 & FR2 & WA2).
  { rewrite (fr_length _ _ _ _ _ FR1). apply nth_error_Some. congruence. }
  exists w2, Done. split.
  { cbn [step]. rewrite EQ. cbn [bind]. unfold end_metric. rewrite E1. cbn [bind]. rewrite E2. reflexivity. }
  assert (WA : forall z, waiting w2 z -> waiting w z) by (intros z Z; eapply waiting_none; [exact FR1|]; auto).
  cbn [view_step]. eapply inv_frame with (S := fun z => z = q \/ waiting w z) (rc := one r) (rp := one r); [exact I|lia|exact CT2|exact BU2|exact PE2| | |apply close_regions| |].
  - eapply frame_trans; [eapply frame_weaken; [exact FR1| | |]|eapply frame_weaken; [exact FR2| | |]]; auto.
    + intros i [].
    + intros z Z. right. eapply waiting_none; eauto.
  - intros z Z. left. auto.
  - intros i z Z. apply close_current in Z. left. exact Z.
  - intros z gs Z. apply (close_open _ _ _ _ _ _ EM) in Z. destruct Z as [Z N]. left. split; [exact Z|]. intros [X|X]; [contradiction|]. exact (not_open_waiting _ _ _ _ _ I Z X).
Qed.

Lemma complete_frame w e : frame (one (fst e)) none none w (complete w e).
Proof.
  assert (T := complete_touched w e). destruct T as (G & L & PE & RG & CX).
  constructor; [exact L|apply G|intros q N; apply CX; intros X; apply N; exact X|]. intros i Ri Ei.
  destruct (RG i Ri Ei) as (Ri' & Ei' & SS & _ & ID & _ & _ & _ & CU & _). exists Ri'. split; [exact Ei'|]. split; [exact SS|]. split; [exact ID|]. split; [auto|].
  intros _. specialize (PE i). unfold pending in PE. rewrite Ei, Ei' in PE. exact PE.
Qed.

Lemma complete_counts n kk w e : counts c n kk w -> counts c n kk (complete w e).
Proof.
  intros CT. unfold complete. destruct (get_context w (fst e)) as [y| | | |] eqn:E; try exact CT. destruct (c_timer y) as [|[|] [|]] eqn:T; try exact CT.
  destruct (context_region _ _ _ E) as (R & ER). eapply set_context_ok; [exact CT|exact E|exact ER| |].
  - cbn. eapply policy_in_range; [apply (ct_sane _ _ _ _ CT)|exact E|exact ER].
  - intros EP. unfold get_context in E. rewrite ER, EP in E. destruct (r_alive R); inversion E; subst y.
    destruct (ro_sync _ _ (sane_region _ _ _ _ (ct_sane _ _ _ _ CT) ER)) as (_ & b & f & X). rewrite X in T. discriminate T.
Qed.

(** A pending context stays pending when its device reports. *)
Lemma complete_pend w e r q : pend_one c w r q -> pend_one c (complete w e) r q.
Proof.
  intros H. destruct (ctx_eqb q (fst e)) eqn:EQ.
  - apply ctx_eqb_eq in EQ. subst q. destruct H as (k & x & R & o & EP & EC & ER & F & T). unfold complete. rewrite EC, T.
    destruct o as [ms|]; [exists k, x, R, (Some ms); auto 10|].
    destruct (set_context_regions w (fst e) (mkContext (c_features x) (c_policy x) (c_idx x) (Events true (Some (snd e)))) r R ER) as (R' & ER' & SS & _); [congruence|].
    eexists k, _, R', _. split; [exact EP|]. split; [rewrite (get_set_context _ _ x) by exact EC; rewrite ctx_eqb_refl; reflexivity|]. split; [exact ER'|].
    split; [eapply feat_same; [exact SS|exact F]|reflexivity].
  - eapply pend_one_frame; [apply complete_frame| |exact H]. intros X. red in X. subst q. rewrite ctx_eqb_refl in EQ. discriminate.
Qed.

Lemma complete_pends w e : pends c w -> pends c (complete w e).
Proof.
  intros PE i R' Ei'. assert (FR := complete_frame w e). destruct (nth_some_length _ _ _ _ (fr_length _ _ _ _ _ FR) Ei') as (R & Ei).
  destruct (fr_regions _ _ _ _ _ FR _ _ Ei) as (R1 & Ei1 & _ & _ & _ & PEi). assert (R1 = R') by congruence. subst R1. rewrite (PEi (fun X => X)).
  destruct (PE i R Ei) as [X Y]. split; [exact X|]. intros q Iq. apply complete_pend. auto.
Qed.

Lemma complete_executions w e : w_executions (complete w e) = w_executions w.
Proof. apply complete_touched. Qed.

Lemma complete_ok n v w p ms : Inv n v w -> call_ok n v w (OpComplete p ms).
Proof.
  intros I. exists (complete w (p, ms)), Done. split; [reflexivity|]. cbn [view_step]. assert (FR := complete_frame w (p, ms)).
  eapply inv_frame with (rc := none); [exact I|lia| | | |exact FR| |reflexivity| |].
  - apply complete_counts. eapply counts_more; [apply I|lia|intros; cbn beta; lia].
  - eapply budget_more; [|apply Z.le_succ_diag_r]. eapply budget_keep; [exact FR|apply complete_executions|apply I].
  - apply complete_pends. apply I.
  - intros z Wz. left. eapply waiting_none; eauto.
  - intros i z Ez. left. split; [exact Ez|]. intros [].
  - intros z gs Ez. destruct (iv_open _ _ _ I _ _ Ez) as (x & EC & FE & NW & TM). right. exists x. split; [|split; [exact FE|split; [|exact TM]]].
    + destruct (ctx_eqb z p) eqn:EZ.
      * apply ctx_eqb_eq in EZ. subst z. unfold complete. cbn [fst]. rewrite EC. destruct (snd p); [destruct TM as (b & e & TM)|destruct TM as (e & TM)]; rewrite TM; exact EC.
      * rewrite (fr_contexts _ _ _ _ _ FR); [exact EC|]. intros X. red in X. cbn in X. subst z. rewrite ctx_eqb_refl in EZ. discriminate.
    + intros X. apply NW. eapply waiting_none; eauto.
Qed.

Lemma end_ok n v w r p now early : Inv n v w -> n + 2 <= 2 ^ 24 -> allowed c v (OpEnd r p now early) -> call_ok n v w (OpEnd r p now early).
Proof.
  intros I NB (fs & O & U). destruct (open_resolves _ _ _ _ _ _ I O) as (q & R & EM & EQ & EF & ER & G & VO & y & EC & FE & NW & TM).
  assert (N0 := inv_positive _ _ _ I). assert (FO := usable_feat _ _ _ _ _ _ I ER U). assert (FT := fits_more n N0 NB).
  assert (CT : counts c (n + 1) (fun _ => n + 1) w) by (eapply counts_more; [apply I|lia|intros; cbn beta; lia]).
  assert (BU := iv_budget _ _ _ I). assert (BU0 := BU). unfold budget in BU.
  set (y1 := mkContext (c_features y) (c_policy y) (c_idx y) (timer_stop now (c_timer y))).
  assert (ERq : nth_error (w_regions w) (fst q) = Some R) by (rewrite EF; exact ER).
  destruct (set_context_ok (n + 1) (fun _ => n + 1) w q y y1 R CT EC ERq) as (CT1 & FR1 & EC1).
  { exact (policy_in_range c w q y R (ct_sane _ _ _ _ CT) EC ERq). }
  { intros EP. rewrite EP in TM. destruct TM as (b & e & TM). cbn. rewrite TM. cbn. eauto. }
  set (w1 := set_context w q y1) in *.
  assert (EX1 : w_executions w1 = w_executions w) by apply set_context_executions.
  assert (PE1 : pends c w1) by (eapply pends_keep; [exact FR1| |apply I]; intros z Wz X; red in X; subst z; contradiction).
  destruct (fr_regions _ _ _ _ _ FR1 _ _ ER) as (R1 & ER1 & SS1 & _ & _ & PER1). specialize (PER1 (fun X => X)).
  assert (FO1 : feat_ok c R1 (c_features y1)) by (eapply feat_same; [exact SS1|]; cbn; rewrite FE; exact FO).
  assert (ST : step P w (OpEnd r p now early) = let* w := (if is_sync_of r q then
      (let* d := timer_done (c_timer y1) in match d with Some metric => collect_context P w1 r q metric | None => UB end)
     else let* R := get_region w1 r in
      collect_pending P (match early with Some ms => complete (set_region w1 r (with_pending R (r_pending R ++ [q]))) (q, ms) | None => set_region w1 r (with_pending R (r_pending R ++ [q])) end) r) in Ok (w, Done)).
  { cbn [step]. rewrite G. cbn [bind]. rewrite EQ. cbn [bind]. unfold end_context. rewrite EC. reflexivity. }
  destruct q as [o [|k]]; cbn [fst snd] in *; subst o.
  - destruct TM as (b & e & TM). cbn [is_sync_of] in ST. rewrite Nat.eqb_refl in ST. assert (TD : c_timer y1 = Clock (Some b) (Some (clock_seconds now))) by (cbn; rewrite TM; reflexivity).
    rewrite TD in ST. cbn [timer_done bind] in ST.
    destruct (collect_counts P c HS HP PL (n + 1) (fun _ => n + 1) w1 r R1 (r, Sync) y1 (sub64 (clock_seconds now) b) FT CT1) as (w2 & E2 & CT2 & FR2 & EX2); auto; [lia|].
    rewrite E2 in ST. cbn [bind] in ST. exists w2, Done. split; [exact ST|].
    assert (FR : frame (one (r, Sync)) (one r) none w w2) by (eapply frame_trans; [eapply frame_weaken; [exact FR1| | |]; auto; intros ? []|exact FR2]).
    cbn [view_step]. eapply inv_frame; [exact I|lia|exact CT2| | |exact FR| |apply close_regions| |].
    + unfold budget. rewrite EX2, EX1, (total_frame _ _ _ _ FR). lia.
    + eapply pends_keep; [exact FR| |apply I]. intros z Wz X. red in X. subst z. contradiction.
    + intros z Z. left. eapply waiting_none; eauto.
    + intros i z Z. apply close_current in Z. left. exact Z.
    + intros z gs Z. apply (close_open _ _ _ _ _ _ EM) in Z. left. exact Z.
  - destruct TM as (e & TM). cbn [is_sync_of] in ST. assert (S1 := ct_sane _ _ _ _ CT1). assert (O1 := sane_region _ _ _ _ S1 ER1).
    rewrite (sane_get _ _ _ _ S1 ER1) in ST. cbn [bind] in ST.
    set (q := (r, Heap k)) in *. set (w2 := set_region w1 r (with_pending R1 (r_pending R1 ++ [q]))) in *.
    assert (CX2 : forall z, get_context w2 z = get_context w1 z).
    { intros [o u]. unfold get_context, w2. cbn. rewrite nth_set_nth, ER1. destruct (Nat.eqb_spec o r) as [->|]; [rewrite ER1; reflexivity|reflexivity]. }
    assert (ER2 : nth_error (w_regions w2) r = Some (with_pending R1 (r_pending R1 ++ [q]))) by (cbn; eapply nth_set_nth_eq; eauto).
    assert (OLD : forall i Ri, i <> r -> nth_error (w_regions w2) i = Some Ri -> nth_error (w_regions w1) i = Some Ri).
    { intros i Ri N Ei. cbn in Ei. rewrite nth_set_nth_neq in Ei by exact N. exact Ei. }
    assert (CT2 : counts c (n + 1) (fun _ => n + 1) w2).
    { destruct CT1 as [_ C1 C2 C3 C4]. constructor; auto.
      - apply sane_set; [exact S1|]. apply (region_ok_like c R1); [exact O1|repeat split|reflexivity|reflexivity|reflexivity|apply O1|apply O1].
      - apply small_set; [exact C3|]. exact (C3 r R1 ER1).
      - apply within_set; [exact C4|]. exact (C4 r R1 ER1). }
    assert (T2 := sum_set_nth (fun R => List.length (r_pending R)) (w_regions w1) r (with_pending R1 (r_pending R1 ++ [q])) R1 ER1). cbn [r_pending with_pending] in T2.
    rewrite app_length in T2. cbn [List.length] in T2. fold (total w1) in T2. rewrite (total_frame _ _ _ _ FR1) in T2.
    assert (BU2 : budget (n + 1) w2).
    { unfold budget. change (w_executions w2) with (w_executions w1). rewrite EX1.
      change (total w2) with (list_sum (map (fun R => List.length (r_pending R)) (set_nth (w_regions w1) r (with_pending R1 (r_pending R1 ++ [q]))))). lia. }
    assert (LIFT : forall i z, pend_one c w1 i z -> pend_one c w2 i z).
    { intros i z (k' & x & Ri & o & EP & EC' & ERi & F & T). exists k', x. destruct (Nat.eqb_spec i r) as [->|N].
      - eexists _, o. split; [exact EP|]. split; [rewrite CX2; exact EC'|]. split; [exact ER2|]. split; [|exact T]. assert (Ri = R1) by congruence. subst Ri. exact F.
      - exists Ri, o. split; [exact EP|]. split; [rewrite CX2; exact EC'|]. split; [cbn; rewrite nth_set_nth_neq by exact N; exact ERi|]. auto. }
    assert (PE2 : pends c w2).
    { intros i Ri Ei. destruct (Nat.eqb_spec i r) as [->|N].
      - rewrite ER2 in Ei. inversion Ei; subst Ri. cbn [r_pending with_pending]. destruct (PE1 r R1 ER1) as [X Y]. split.
        + apply NoDup_app_snoc; [exact X|]. rewrite PER1. intros Z. apply NW. exists r, R. auto.
        + intros z Iz. apply in_app_or in Iz. destruct Iz as [Iz|[<-|[]]]; [apply LIFT; auto|]. apply LIFT. exists k, y1, R1, None. split; [reflexivity|].
          split; [exact EC1|]. split; [exact ER1|]. split; [exact FO1|]. cbn. rewrite TM. reflexivity.
      - destruct (PE1 i Ri (OLD i Ri N Ei)) as [X Y]. split; [exact X|]. intros z Iz. apply LIFT. auto. }
    assert (FR2 : frame (one q) none (one r) w w2).
    { eapply frame_trans; [eapply frame_weaken; [exact FR1| | |]; auto; intros ? []|]. constructor; [cbn; apply set_nth_length|reflexivity|intros z _; apply CX2|].
      intros i Ri Ei. destruct (Nat.eqb_spec i r) as [->|N].
      - eexists. split; [exact ER2|]. assert (Ri = R1) by congruence. subst Ri. split; [repeat split|]. split; [reflexivity|]. split; [reflexivity|]. intros X. exfalso. apply X. reflexivity.
      - exists Ri. split; [cbn; rewrite nth_set_nth_neq by exact N; exact Ei|]. split; [apply same_static_refl|]. auto. }
    assert (WA2 : forall z, waiting w2 z -> waiting w z \/ z = q).
    { intros z (i & Ri & Ei & Iz). destruct (Nat.eqb_spec i r) as [->|N].
      - rewrite ER2 in Ei. inversion Ei; subst Ri. cbn in Iz. apply in_app_or in Iz. destruct Iz as [Iz|[<-|[]]]; [|right; reflexivity]. left. exists r, R. rewrite <- PER1. auto.
      - left. eapply waiting_none; [exact FR1|]. exists i, Ri. split; [apply OLD; auto|exact Iz]. }
    set (w3 := match early with Some ms => complete w2 (q, ms) | None => w2 end) in *.
    assert (K3 : counts c (n + 1) (fun _ => n + 1) w3 /\ budget (n + 1) w3 /\ pends c w3 /\ frame (one q) none none w2 w3).
    { unfold w3. destruct early as [ms|]; [|split; [exact CT2|split; [exact BU2|split; [exact PE2|apply frame_refl]]]].
      split; [apply complete_counts; exact CT2|]. split; [eapply budget_keep; [apply complete_frame|apply complete_executions|exact BU2]|]. split; [apply complete_pends; exact PE2|].
      exact (complete_frame w2 (q, ms)). }
    destruct K3 as (CT3 & BU3 & PE3 & FR3).
    destruct (collect_pending_ok P c HS HP PL (n + 1) (fun _ => n + 1) w3 r FT CT3 BU3 PE3) as (w4 & E4 & CT4 & BU4 & PE4 & FR4 & WA4).
    { rewrite (fr_length _ _ _ _ _ FR3), (fr_length _ _ _ _ _ FR2). apply nth_error_Some. congruence. }
    change (step P w (OpEnd r p now early) = let* w := collect_pending P w3 r in Ok (w, Done)) in ST. rewrite E4 in ST. cbn [bind] in ST. exists w4, Done. split; [exact ST|].
    assert (WA3 : forall z, waiting w3 z -> z = q \/ waiting w z).
    { intros z Z. destruct (WA2 z); auto. eapply waiting_none; eauto. }
    cbn [view_step]. eapply inv_frame with (S := fun z => z = q \/ waiting w z) (rc := one r) (rp := one r); [exact I|lia|exact CT4|exact BU4|exact PE4| | |apply close_regions| |].
    + eapply frame_trans; [eapply frame_weaken; [exact FR2| | |]; auto; intros ? []|].
      eapply frame_trans; [eapply frame_weaken; [exact FR3| | |]; auto; intros ? []|]. eapply frame_weaken; [exact FR4| | |]; auto.
    + intros z Z. right. apply WA3. apply WA4. exact Z.
    + intros i z Z. apply close_current in Z. left. exact Z.
    + intros z gs Z. apply (close_open _ _ _ _ _ _ EM) in Z. destruct Z as [Z N]. left. split; [exact Z|]. intros [X|X]; [contradiction|]. exact (not_open_waiting _ _ _ _ _ I Z X).
Qed.

(** *** Training and collecting *)

Lemma train_ok n v w r st collect force : Inv n v w -> n + 2 <= 2 ^ 24 -> allowed c v (OpTrain r st collect force) -> call_ok n v w (OpTrain r st collect force).
Proof.
  intros I NB AL. cbn in AL. destruct (known_region _ _ _ _ I AL) as (R & ER). assert (N0 := inv_positive _ _ _ I).
  destruct (region_train_ok P c HS HP PL (n + 1) (fun _ => n) w r st collect force) as (w' & E & CT & BU & PE & FR & WA).
  - apply (fits_more n N0 NB).
  - eapply counts_more; [apply I|lia|intros; cbn beta; lia].
  - eapply budget_more; [apply I|lia].
  - apply I.
  - apply nth_error_Some. congruence.
  - exists w', Done. split; [cbn [step]; rewrite E; reflexivity|]. cbn [view_step].
    eapply inv_frame; [exact I|lia| |exact BU|exact PE|exact FR|intros z Z; left; auto|destruct collect; reflexivity| |].
    + eapply counts_more; [exact CT|lia|]. intros i. cbn beta. destruct (Nat.eqb i r); lia.
    + intros i z Z. left. destruct collect; cbn in Z; [|split; [exact Z|intros [X _]; discriminate X]].
      destruct (Nat.eqb_spec i r); [discriminate Z|]. split; [exact Z|]. intros [_ X]. contradiction.
    + intros z gs Z. left. assert (Z' : v_open v z = Some gs) by (destruct collect; exact Z). split; [exact Z'|]. eapply not_open_waiting; eauto.
Qed.

Lemma train_all_ok n v w st collect : Inv n v w -> n + 2 <= 2 ^ 24 -> call_ok n v w (OpTrainAll st collect).
Proof.
  intros I NB. assert (N0 := inv_positive _ _ _ I). assert (S := ct_sane _ _ _ _ (iv_counts _ _ _ I)).
  destruct (each_train_ok P c HS HP PL (n + 1) n st collect N0) with (rs := map snd (w_registry w)) (w := w) as (w' & E & CT & BU & PE & FR & WA).
  - exact NB.
  - lia.
  - apply S.
  - apply S.
  - eapply counts_more; [apply I|lia|]. intros i. destruct (in_dec _ _ _); lia.
  - eapply budget_more; [apply I|lia].
  - apply I.
  - exists w', Done. split.
    { cbn [step]. unfold apollo_train, train_all_by. rewrite (sn_config _ _ S), (truthy_zero _ (pl_collective _ PL)). unfold train_regions_by.
      rewrite (sn_config _ _ S), (truthy_zero _ (pl_single _ PL)), E. reflexivity. }
    cbn [view_step]. eapply inv_frame; [exact I|lia|exact CT|exact BU|exact PE|exact FR|intros z Z; left; auto|destruct collect; reflexivity| |].
    + intros i z Z. left. destruct collect; cbn in Z; [discriminate Z|]. split; [exact Z|]. discriminate.
    + intros z gs Z. left. assert (Z' : v_open v z = Some gs) by (destruct collect; exact Z). split; [exact Z'|]. eapply not_open_waiting; eauto.
Qed.

Lemma collect_call_ok n v w r : Inv n v w -> n + 2 <= 2 ^ 24 -> allowed c v (OpCollect r) -> call_ok n v w (OpCollect r).
Proof.
  intros I NB AL. cbn in AL. destruct (known_region _ _ _ _ I AL) as (R & ER). assert (N0 := inv_positive _ _ _ I).
  destruct (collect_pending_ok P c HS HP PL (n + 1) (fun _ => n + 1) w r) as (w' & E & CT & BU & PE & FR & WA).
  - apply (fits_more n N0 NB).
  - eapply counts_more; [apply I|lia|intros; cbn beta; lia].
  - eapply budget_more; [apply I|lia].
  - apply I.
  - apply nth_error_Some. congruence.
  - exists w', Done. split; [cbn [step]; rewrite E; reflexivity|]. cbn [view_step].
    eapply inv_frame; [exact I|lia|exact CT|exact BU|exact PE|exact FR|intros z Z; left; auto|reflexivity| |].
    + intros i z Z. cbn in Z. left. destruct (Nat.eqb_spec i r); [discriminate Z|]. auto.
    + intros z gs Z. left. split; [exact Z|]. eapply not_open_waiting; eauto.
Qed.
End Runs.
