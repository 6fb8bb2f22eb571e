(** Collecting measurements in worlds in which every region can train. *)
From Coq Require Import ZArith Bool Ascii String Lia List.
From Flocq Require Import BinarySingleNaN.
From Verif Require Import Model.Base Model.Float Model.Decimal Model.DatasetM Model.ParserM Model.DatasetIO
  Model.PolicyNetM Model.ModelStringM Model.PolicyModelsM Model.ConfigM Model.RuntimeM
  Spec.DatasetSpec Spec.DatasetClient Spec.TreeSpec Spec.ForestSpec Spec.PolicyNetSpec Spec.RuntimeSpec Spec.SafeClient
  Proofs.TreeFacts Proofs.MapFacts Proofs.KeyOrder Proofs.DatasetFacts Proofs.PolicyRange Proofs.RuntimeFacts Proofs.RuntimeCollect Proofs.RuntimeMoves Proofs.RuntimePending
  Proofs.SafeModels Proofs.SafeWorld.
Import ListNotations.
Open Scope Z_scope.

Lemma nth_some_length {A B} (l : list A) (l' : list B) i x : List.length l' = List.length l -> nth_error l' i = Some x -> exists y, nth_error l i = Some y.
Proof.
  intros L E. destruct (nth_error l i) eqn:E'; [eauto|]. apply nth_error_None in E'.
  assert (i < List.length l')%nat by (apply nth_error_Some; congruence). lia.
Qed.

(** What changes: only these contexts, the current context of these regions, the pending contexts of these regions. *)
Record frame (S : ctxptr -> Prop) (rc rp : nat -> Prop) (w w' : world) : Prop := {
  fr_length : List.length (w_regions w') = List.length (w_regions w);
  fr_registry : w_registry w' = w_registry w;
  fr_contexts : forall q, ~ S q -> get_context w' q = get_context w q;
  fr_regions : forall i R, nth_error (w_regions w) i = Some R -> exists R', nth_error (w_regions w') i = Some R' /\
    same_static R R' /\ r_idx R' = r_idx R /\ (~ rc i -> r_current R' = r_current R) /\ (~ rp i -> r_pending R' = r_pending R)
}.

Definition none {A} (_ : A) : Prop := False.
Definition one {A} (a x : A) : Prop := x = a.

Lemma frame_refl S rc rp w : frame S rc rp w w.
Proof. constructor; auto. intros i R E. exists R. split; [exact E|]. split; [apply same_static_refl|]. auto. Qed.

Lemma frame_trans S rc rp a b d : frame S rc rp a b -> frame S rc rp b d -> frame S rc rp a d.
Proof.
  intros [A1 A2 A3 A4] [B1 B2 B3 B4]. constructor; [congruence|congruence| |].
  - intros q N. rewrite (B3 q N). auto.
  - intros i R E. destruct (A4 _ _ E) as (R1 & E1 & X1 & X2 & X3 & X4). destruct (B4 _ _ E1) as (R2 & E2 & Y1 & Y2 & Y3 & Y4).
    exists R2. split; [exact E2|]. split; [eapply same_static_trans; eauto|]. split; [congruence|].
    split; intros N; [rewrite (Y3 N); auto|rewrite (Y4 N); auto].
Qed.

Lemma frame_weaken (S S' : ctxptr -> Prop) (rc rc' rp rp' : nat -> Prop) w w' : frame S rc rp w w' ->
  (forall q, S q -> S' q) -> (forall i, rc i -> rc' i) -> (forall i, rp i -> rp' i) -> frame S' rc' rp' w w'.
Proof.
  intros [A1 A2 A3 A4] HS HC HP. constructor; auto.
  intros i R E. destruct (A4 _ _ E) as (R1 & E1 & X1 & X2 & X3 & X4). exists R1. auto 10.
Qed.

Lemma frame_training P Q w w' : training P Q w w' -> frame none none none w w'.
Proof.
  intros T. assert (TT := T). destruct TT as [(_ & _ & G & _) _]. constructor; [eapply training_length; eauto|exact G| |].
  - intros q _. eapply training_context; eauto.
  - intros i R E. destruct (training_region _ _ _ _ _ _ T E) as (R' & E' & m & -> & _). exists (with_model R m). split; [exact E'|].
    split; [repeat split|]. auto.
Qed.

Lemma frame_collects P w r p x w' : collects P w r p x w' -> frame (one p) (one r) none w w'.
Proof.
  intros C. destruct (entry_of_exists _ _ _ _ _ _ C) as (e & Ee). assert (M : moves P (fun _ _ _ _ => True) w [e] w') by (eapply mv_collect; eauto; constructor).
  apply moves_moved in M. assert (EP : e_context e = p) by (destruct Ee as (R & y & _ & _ & ->); reflexivity).
  destruct C as (R & y & d & t & ER & EC & _ & _ & HP & _ & _ & G & _ & L & HI). constructor; [exact L|exact G| |].
  - intros q N. assert (NE : ctx_eqb p q = false) by (apply ctx_eqb_neq; intros X; apply N; symmetry; exact X).
    unfold get_context. destruct (nth_error (w_regions w) (fst q)) as [Ri|] eqn:Ei.
    + destruct M as (_ & _ & _ & _ & _ & M). destruct (M _ _ Ei) as (Ri' & -> & _ & A & _ & Y & _ & H & _). destruct q as [o [|k]]; cbn [fst snd] in *.
      * rewrite A, Y. unfold rest_of, wiped, kept_flags. cbn [snd filter]. rewrite EP, NE. reflexivity.
      * rewrite H. unfold gone. cbn [existsb]. rewrite EP, NE. reflexivity.
    + apply nth_error_None in Ei. rewrite <- L in Ei. apply nth_error_None in Ei. rewrite Ei. reflexivity.
  - intros i Ri Ei. destruct (HI i Ri Ei) as (Ri' & Ei' & S & A & I & Y & PE & D & T & H & CU & _). exists Ri'. split; [exact Ei'|].
    split; [exact S|]. split; [exact I|]. split; [|intros _; exact PE]. intros N. rewrite CU. destruct (Nat.eqb_spec i r) as [->|]; [|reflexivity].
    exfalso. apply N. reflexivity.
Qed.

(** The contexts that wait. *)
Definition total (w : world) : nat := list_sum (map (fun R => List.length (r_pending R)) (w_regions w)).

Lemma sum_set_nth {A} (f : A -> nat) l n x y : nth_error l n = Some y -> (list_sum (map f (set_nth l n x)) + f y = list_sum (map f l) + f x)%nat.
Proof.
  revert n. induction l as [|z l IH]; intros [|n] E; try discriminate E; cbn in *.
  - inversion E; subst. lia.
  - specialize (IH n E). unfold list_sum in IH. lia.
Qed.

Lemma sum_at_least {A} (f : A -> nat) l n y : nth_error l n = Some y -> (f y <= list_sum (map f l))%nat.
Proof.
  revert n. induction l as [|z l IH]; intros [|n] E; try discriminate E; cbn in *.
  - inversion E; subst. lia.
  - specialize (IH n E). unfold list_sum in IH. lia.
Qed.

Lemma total_same w w' : List.length (w_regions w') = List.length (w_regions w) ->
  (forall i R, nth_error (w_regions w) i = Some R -> exists R', nth_error (w_regions w') i = Some R' /\ r_pending R' = r_pending R) -> total w' = total w.
Proof.
  unfold total. generalize (w_regions w) (w_regions w'). induction l as [|R l IH]; intros [|R' l'] L H; cbn in L; try (exfalso; lia); [reflexivity|].
  cbn. f_equal.
  - destruct (H 0%nat R eq_refl) as (X & E & EP). cbn in E. inversion E; subst. rewrite EP. reflexivity.
  - apply IH; [lia|]. intros i Ri Ei. apply (H (Datatypes.S i) Ri Ei).
Qed.

Lemma total_frame S rc w w' : frame S rc none w w' -> total w' = total w.
Proof.
  intros [A1 A2 A3 A4]. apply total_same; [exact A1|]. intros i R E. destruct (A4 _ _ E) as (R' & E' & _ & _ & _ & X). exists R'. split; [exact E'|]. apply X. intros [].
Qed.

Section Collect.
Variable P : platform.
Variable c : config.
Hypothesis HS : sorter_ok (p_sort P).
Hypothesis HP : picker_ok (p_pick P).
Hypothesis PL : plain c.

Lemma feat_same R R' fs : same_static R R' -> feat_ok c R fs -> feat_ok c R' fs.
Proof. intros (_ & E1 & _ & _ & E2 & _) H. unfold feat_ok. rewrite E1, E2. exact H. Qed.

Lemma region_ok_like R R' : region_ok c R -> same_static R R' -> r_alive R' = r_alive R -> r_model R' = r_model R -> r_dataset R' = r_dataset R ->
  sync_ok (r_num_policies R) (r_sync R') -> (forall k x, nth_error (r_heap R') k = Some (Some x) -> in_range (r_num_policies R) (c_policy x)) -> region_ok c R'.
Proof.
  intros [A1 A2 A3 A4 A5 A6 A7 A8 A9 A10 A11] S EA EM ED EY EH. assert (SS := S). destruct SS as (_ & E1 & E2 & _ & E3 & _).
  constructor; rewrite ?EA, ?EM, ?ED, ?E1, ?E2, ?E3; auto.
  eapply Forall_impl; [|exact A9]. intros e. apply feat_same. exact S.
Qed.

Lemma region_ok_insert R d fs p x : region_ok c R -> feat_ok c R fs -> in_range (r_num_policies R) p -> ds_insert (r_dataset R) fs p x = Ok d -> region_ok c (with_dataset R d).
Proof.
  intros [A1 A2 A3 A4 A5 A6 A7 A8 A9 A10 A11] F HR E. constructor; auto.
  - cbn. eapply insert_wf; eauto.
  - cbn. eapply insert_in; eauto.
  - cbn. change (Forall (fun e : key * f64 => feat_ok c R (fst (fst e))) d). unfold ds_insert in E. destruct (negb _); [discriminate|].
    destruct (map_find _ _ _); inversion E.
    + apply (map_update_keys (fun k => feat_ok c R (fst k))). exact A9.
    + apply map_add_in; [exact F|exact A9].
Qed.

Lemma insert_small R d fs p x : region_ok c R -> ds_insert (r_dataset R) fs p x = Ok d -> ds_size d <= ds_size (r_dataset R) + 1.
Proof.
  intros OK E. destruct (insert_wf _ _ _ _ _ (ro_wf _ _ OK) E) as [_ F]. destruct (insert_spec _ fs p x F (ro_wf _ _ OK)) as (d' & E' & _ & _ & L).
  rewrite E in E'. inversion E'; subst d'. unfold ds_size. destruct (map_find _ _ _); lia.
Qed.

Lemma policy_in_range w p x R : sane c w -> get_context w p = Ok x -> nth_error (w_regions w) (fst p) = Some R -> in_range (r_num_policies R) (c_policy x).
Proof.
  intros S E ER. assert (OK := sane_region _ _ _ _ S ER). unfold get_context in E. rewrite ER in E. destruct (snd p).
  - destruct (r_alive R); inversion E; subst. apply (ro_sync _ _ OK).
  - destruct (nth_error (r_heap R) k) as [[y|]|] eqn:EH; inversion E; subst. eapply ro_heap; eauto.
Qed.

Lemma collect_ok (b : nat -> Z) s w r R p x metric : sane c w -> nth_error (w_regions w) r = Some R -> fst p = r -> get_context w p = Ok x -> feat_ok c R (c_features x) ->
  within b w -> small s w -> s + 1 <= 2 ^ 24 -> (forall i, b i + 1 <= int_max) ->
  exists w', collect_context P w r p metric = Ok w' /\ sane c w' /\ within (fun i => b i + 1) w' /\ small (s + 1) w'.
Proof.
  intros S E EP EC F WB SM HS1 HB. assert (OK := sane_region _ _ _ _ S E).
  assert (IR : in_range (r_num_policies R) (c_policy x)) by (eapply policy_in_range; eauto; rewrite EP; exact E).
  assert (K : exists w', collect_context P w r p metric = Ok w' /\ sane c w' /\ within (fun i => b i + 1) w').
  { unfold collect_context. rewrite (sane_get _ _ _ _ S E), EC. cbn [bind].
    set (R0 := if truthy _ then _ else R).
    assert (O0 : region_ok c R0 /\ same_static R R0 /\ r_model R0 = r_model R /\ r_dataset R0 = r_dataset R /\ r_heap R0 = r_heap R /\ r_sync R0 = r_sync R).
    { unfold R0. destruct (truthy _); [|split; [exact OK|]; split; [apply same_static_refl|auto]]. split; [|split; [repeat split|auto]].
      apply (region_ok_like R); [exact OK|repeat split|reflexivity|reflexivity|reflexivity|apply OK|apply OK]. }
    destruct O0 as (O0 & SS0 & EM0 & ED0 & EH0 & EY0).
    assert (O1 : exists R1, (if truthy (cf_persistent (w_config w)) || m_trainable (r_model R0)
        then let* d := ds_insert (r_dataset R0) (c_features x) (c_policy x) metric in Ok (with_dataset (moved_features r p x R0) d) else Ok R0) = Ok R1 /\
        region_ok c R1 /\ r_model R1 = r_model R /\ ds_size (r_dataset R1) <= ds_size (r_dataset R) + 1 /\ r_heap R1 = r_heap R).
    { destruct (_ || _).
      - destruct (insert_spec (r_dataset R0) (c_features x) (c_policy x) metric) as (d & ED & _ & _ & _).
        + apply fok_Forall. apply F.
        + apply O0.
        + rewrite ED. cbn [bind]. exists (with_dataset (moved_features r p x R0) d). split; [reflexivity|].
          assert (OM : region_ok c (moved_features r p x R0) /\ same_static R0 (moved_features r p x R0) /\ r_model (moved_features r p x R0) = r_model R0 /\
            r_dataset (moved_features r p x R0) = r_dataset R0 /\ r_heap (moved_features r p x R0) = r_heap R0).
          { unfold moved_features. destruct (is_sync_of r p) eqn:SY; [|split; [exact O0|split; [apply same_static_refl|auto]]]. split; [|split; [repeat split|auto]].
            assert (x = r_sync R). { destruct p as [o [|k]]; [|discriminate SY]. unfold get_context in EC. cbn [fst snd] in *. subst o. rewrite E in EC. destruct (r_alive R); inversion EC. reflexivity. }
            apply (region_ok_like R0); [exact O0|repeat split|reflexivity|reflexivity|reflexivity| |apply O0]. assert (Z := ro_sync _ _ O0). rewrite EY0 in Z. subst x. exact Z. }
          destruct OM as (OM & SM0 & MM & DM & HM). assert (SS1 := same_static_trans _ _ _ SS0 SM0). split.
          { rewrite <- DM in ED. eapply region_ok_insert; [exact OM|eapply feat_same; [exact SS1|exact F]| |exact ED]. destruct SS1 as (_ & _ & -> & _). exact IR. }
          split; [cbn; congruence|]. split; [|cbn; congruence]. cbn. rewrite <- ED0. eapply insert_small; [exact O0|exact ED].
      - exists R0. split; [reflexivity|]. split; [exact O0|]. split; [exact EM0|]. split; [|auto]. rewrite ED0. lia. }
    destruct O1 as (R1 & E1 & O1 & EM1 & SZ1 & EH1). rewrite E1. cbn [bind].
    set (w1 := count_execution (set_region w r R1)).
    assert (S1 : sane c w1) by (apply sane_count, sane_set; auto).
    assert (ER1 : nth_error (w_regions w1) r = Some R1) by (cbn; eapply nth_set_nth_eq; eauto).
    assert (W1 : within b w1) by (apply (within_set b w r R1 WB); rewrite EM1; exact (WB r R E)).
    assert (M1 : small (2 ^ 24) w1).
    { apply (small_set (2 ^ 24) w r R1); [intros i Ri Ei; specialize (SM i Ri Ei); lia|]. specialize (SM r R E). lia. }
    destruct (auto_train_ok P c HS HP PL b w1 r R1 S1 ER1 W1 M1 HB) as (w2 & E2 & S2 & W2 & _). rewrite E2. cbn [bind].
    assert (T := auto_train_training _ _ _ _ E2). destruct (training_region _ _ _ _ _ _ T ER1) as (R2 & ER2 & m & EW2 & _).
    assert (D : exists w3, (if is_sync_of r p then Ok w2 else delete_context w2 p) = Ok w3 /\ sane c w3 /\ within (fun i => b i + 1) w3 /\ exists R3, nth_error (w_regions w3) r = Some R3).
    { destruct p as [o q]. cbn in EP. subst o. destruct q as [|k].
      - cbn [is_sync_of]. rewrite Nat.eqb_refl. exists w2. eauto.
      - cbn [is_sync_of]. unfold delete_context. cbn [fst snd]. rewrite ER2. assert (EH2 : r_heap R2 = r_heap R) by (rewrite EW2; exact EH1).
        unfold get_context in EC. cbn in EC. rewrite E in EC. rewrite EH2. destruct (nth_error (r_heap R) k) as [[y|]|] eqn:EK; try discriminate EC.
        eexists. split; [reflexivity|]. assert (O2 := sane_region _ _ _ _ S2 ER2). split; [|split].
        + apply sane_set; [exact S2|]. apply (region_ok_like R2); [exact O2|repeat split|reflexivity|reflexivity|reflexivity|apply O2|].
          cbn. intros j z Ej. rewrite nth_set_nth in Ej. destruct (Nat.eqb_spec j k) as [->|].
          * rewrite EK in Ej. discriminate Ej.
          * eapply ro_heap; [exact O2|]. rewrite EH2. exact Ej.
        + apply (within_set _ w2 r); [exact W2|]. exact (W2 r R2 ER2).
        + eexists. cbn. eapply nth_set_nth_eq; eauto. }
    destruct D as (w3 & -> & S3 & W3 & R3 & ER3). cbn [bind]. rewrite (sane_get _ _ _ _ S3 ER3). cbn [bind]. eexists. split; [reflexivity|].
    assert (O3 := sane_region _ _ _ _ S3 ER3). split.
    - apply sane_set; [exact S3|]. apply (region_ok_like R3); [exact O3|repeat split|reflexivity|reflexivity|reflexivity|apply O3|apply O3].
    - apply (within_set _ w3 r); [exact W3|]. exact (W3 r R3 ER3). }
  destruct K as (w' & EW & S' & W'). exists w'. split; [exact EW|]. split; [exact S'|]. split; [exact W'|].
  apply collect_context_collects in EW. destruct EW as (R' & x' & d & t & ER' & EC' & HD & _ & _ & _ & _ & _ & _ & L & HI).
  rewrite (sane_get _ _ _ _ S E) in ER'. inversion ER'; subst R'. clear ER'. rewrite EC in EC'. inversion EC'; subst x'. clear EC'.
  intros i Ri' Ei'. destruct (nth_some_length _ _ _ _ L Ei') as (Ri & Ei). destruct (HI i Ri Ei) as (R2 & E2 & _ & _ & _ & _ & _ & ED & _).
  rewrite Ei' in E2. inversion E2; subst R2. rewrite ED. destruct (Nat.eqb i r); [|specialize (SM i Ri Ei); lia].
  assert (ds_size d <= ds_size (r_dataset R) + 1).
  { destruct (_ || _); [eapply insert_small; eauto|]. subst d. lia. }
  specialize (SM r R E). lia.
Qed.

(** A pending context of the region. *)
Definition pend_one (w : world) (r : nat) (p : ctxptr) : Prop :=
  exists k x R o, p = (r, Heap k) /\ get_context w p = Ok x /\ nth_error (w_regions w) r = Some R /\ feat_ok c R (c_features x) /\ c_timer x = Events true o.

Definition pend_ok (w : world) (r : nat) (ps : list ctxptr) : Prop := NoDup ps /\ forall p, In p ps -> pend_one w r p.

Lemma pend_one_frame S rc rp w w' r p : frame S rc rp w w' -> ~ S p -> pend_one w r p -> pend_one w' r p.
Proof.
  intros [A1 A2 A3 A4] N (k & x & R & o & EP & EC & ER & F & T). destruct (A4 _ _ ER) as (R' & ER' & SS & _). exists k, x, R', o.
  split; [exact EP|]. split; [rewrite (A3 p N); exact EC|]. split; [exact ER'|]. split; [eapply feat_same; eauto|exact T].
Qed.

(** The bounds in terms of the number of executions: [kk i] explicit trainings of region [i]. *)
Record counts (n : Z) (kk : nat -> Z) (w : world) : Prop := {
  ct_sane : sane c w;
  ct_pos : 0 <= w_executions w;
  ct_limit : w_executions w <= n;
  ct_small : small (w_executions w) w;
  ct_within : within (fun i => w_executions w + kk i) w
}.

Definition fits (n : Z) (kk : nat -> Z) : Prop := n <= 2 ^ 24 /\ forall i, kk i <= 2 ^ 24.

Lemma collect_counts n kk w r R p x metric : fits n kk -> counts n kk w -> w_executions w + 1 <= n -> nth_error (w_regions w) r = Some R -> fst p = r -> get_context w p = Ok x ->
  feat_ok c R (c_features x) ->
  exists w', collect_context P w r p metric = Ok w' /\ counts n kk w' /\ frame (one p) (one r) none w w' /\ w_executions w' = w_executions w + 1.
Proof.
  intros [F1 F2] [S C1 C2 C3 C4] LE ER EP EC FO.
  destruct (collect_ok (fun i => w_executions w + kk i) (w_executions w) w r R p x metric S ER EP EC FO C4 C3) as (w' & EW & S' & W' & M').
  - lia.
  - intros i. specialize (F2 i). unfold int_max. lia.
  - exists w'. split; [exact EW|]. assert (CC := collect_context_collects _ _ _ _ _ _ EW).
    assert (EX : w_executions w' = w_executions w + 1).
    { destruct CC as (_ & _ & _ & _ & _ & _ & _ & _ & _ & _ & _ & _ & EX & _). rewrite EX. apply Z.mod_small. lia. }
    split; [|split; [eapply frame_collects; eauto|exact EX]].
    constructor; [exact S'|lia|lia|rewrite EX; exact M'|]. rewrite EX. eapply within_weaken; [exact W'|]. intros i. cbn beta. lia.
Qed.

Lemma collect_loop_ok n kk r : fits n kk -> forall ps w, counts n kk w -> w_executions w + Z.of_nat (List.length ps) <= n -> pend_ok w r ps ->
  (r < List.length (w_regions w))%nat ->
  exists w' kept, collect_loop P w r ps = Ok (w', kept) /\ counts n kk w' /\ w_executions w' + Z.of_nat (List.length kept) <= w_executions w + Z.of_nat (List.length ps) /\
    pend_ok w' r kept /\ (forall p, In p kept -> In p ps) /\ frame (fun q => In q ps /\ ~ In q kept) (one r) none w w'.
Proof.
  intros FT. induction ps as [|p ps IH]; intros w CT LE [ND PO] LR; cbn [collect_loop].
  - exists w, []. split; [reflexivity|]. split; [exact CT|]. split; [lia|]. split; [split; [constructor|intros ? []]|]. split; [auto|]. apply frame_refl.
  - inversion ND as [|? ? NI ND']; subst. destruct (PO p (or_introl eq_refl)) as (k & x & R & o & EP & EC & ER & FO & ET). rewrite EC. cbn [bind]. rewrite ET.
    cbn [List.length] in LE. destruct o as [ms|]; cbn [timer_done bind].
    + destruct (collect_counts n kk w r R p x (div64 (f64_of_f32 ms) (f64_of_Z 1000)) FT CT) as (w1 & E1 & CT1 & FR1 & EX1); auto; [lia|subst p; reflexivity|].
      rewrite E1. cbn [bind]. destruct (IH w1 CT1) as (w' & kept & E' & CT' & EX' & PO' & IN' & FR').
      * lia.
      * split; [exact ND'|]. intros q Iq. eapply pend_one_frame; [exact FR1| |apply PO; right; exact Iq]. intros X. red in X. subst q. contradiction.
      * rewrite (fr_length _ _ _ _ _ FR1). exact LR.
      * exists w', kept. split; [exact E'|]. split; [exact CT'|]. split; [cbn [List.length]; lia|]. split; [exact PO'|]. split; [intros q Iq; right; auto|].
        eapply frame_trans.
        -- eapply frame_weaken; [exact FR1| |auto|auto]. intros q X. red in X. subst q. split; [left; reflexivity|]. intros X. apply NI. auto.
        -- eapply frame_weaken; [exact FR'| |auto|auto]. intros q [X Y]. split; [right; exact X|exact Y].
    + destruct (IH w CT) as (w' & kept & E' & CT' & EX' & PO' & IN' & FR').
      * lia.
      * split; [exact ND'|]. intros q Iq. apply PO. right. exact Iq.
      * exact LR.
      * rewrite E'. cbn [bind]. exists w', (p :: kept). split; [reflexivity|]. split; [exact CT'|]. split; [cbn [List.length]; lia|]. split.
        { destruct PO' as [ND2 PO2]. split; [constructor; [intros X; apply NI; auto|exact ND2]|]. intros q [<-|Iq]; [|auto].
          eapply pend_one_frame; [exact FR'| |apply PO; left; reflexivity]. intros [X _]. contradiction. }
        split; [intros q [<-|Iq]; [left; reflexivity|right; auto]|].
        eapply frame_weaken; [exact FR'| |auto|auto]. intros q [X Y]. split; [right; exact X|]. intros [<-|Z]; contradiction.
Qed.

(** The pending contexts of every region, and the executions that may still be collected. *)
Definition pends (w : world) : Prop := forall r R, nth_error (w_regions w) r = Some R -> pend_ok w r (r_pending R).
Definition budget (n : Z) (w : world) : Prop := w_executions w + Z.of_nat (total w) <= n.

Lemma pend_other w r i p q : pend_one w r p -> pend_one w i q -> i <> r -> p <> q.
Proof. intros (k & x & R & o & -> & _) (k' & x' & R' & o' & -> & _) N X. inversion X. congruence. Qed.

(** Contexts that wait in some region. *)
Definition waiting (w : world) (q : ctxptr) : Prop := exists r R, nth_error (w_regions w) r = Some R /\ In q (r_pending R).

Lemma collect_pending_ok n kk w r : fits n kk -> counts n kk w -> budget n w -> pends w -> (r < List.length (w_regions w))%nat ->
  exists w', collect_pending P w r = Ok w' /\ counts n kk w' /\ budget n w' /\ pends w' /\ frame (waiting w) (one r) (one r) w w' /\
    (forall q, waiting w' q -> waiting w q).
Proof.
  intros FT CT BU PE LR. destruct (nth_error (w_regions w) r) as [R|] eqn:ER; [|apply nth_error_None in ER; lia].
  unfold collect_pending. rewrite (sane_get _ _ _ _ (ct_sane _ _ _ CT) ER). cbn [bind].
  assert (LT := sum_at_least (fun R => List.length (r_pending R)) _ _ _ ER). cbn beta in LT. fold (total w) in LT. unfold budget in BU.
  destruct (collect_loop_ok n kk r FT (r_pending R) w CT) as (w1 & kept & E1 & CT1 & EX1 & PO1 & IN1 & FR1); [lia|apply PE; exact ER|exact LR|].
  rewrite E1. cbn [bind]. destruct (fr_regions _ _ _ _ _ FR1 _ _ ER) as (R1 & ER1 & SS1 & ID1 & CU1 & PE1). specialize (PE1 (fun X => X)).
  assert (S1 := ct_sane _ _ _ CT1). assert (O1 := sane_region _ _ _ _ S1 ER1). rewrite (sane_get _ _ _ _ S1 ER1). cbn [bind]. eexists. split; [reflexivity|].
  assert (T1 := total_frame _ _ _ _ FR1).
  assert (T2 := sum_set_nth (fun R => List.length (r_pending R)) (w_regions w1) r (with_pending R1 kept) R1 ER1). cbn [r_pending with_pending] in T2.
  fold (total w1) in T2. rewrite PE1, T1 in T2.
  assert (CTX : forall q, get_context (set_region w1 r (with_pending R1 kept)) q = get_context w1 q).
  { intros [o u]. unfold get_context. cbn. rewrite nth_set_nth, ER1. destruct (Nat.eqb_spec o r) as [->|]; [rewrite ER1; reflexivity|reflexivity]. }
  split; [|split; [|split; [|split]]].
  - constructor; cbn [w_executions set_region]; try apply CT1.
    + apply sane_set; [exact S1|]. apply (region_ok_like R1); [exact O1|repeat split|reflexivity|reflexivity|reflexivity|apply O1|apply O1].
    + apply small_set; [apply CT1|]. exact (ct_small _ _ _ CT1 r R1 ER1).
    + apply within_set; [apply CT1|]. exact (ct_within _ _ _ CT1 r R1 ER1).
  - unfold budget. cbn [w_executions set_region]. change (total (set_region w1 r (with_pending R1 kept))) with (list_sum (map (fun R => List.length (r_pending R)) (set_nth (w_regions w1) r (with_pending R1 kept)))). lia.
  - assert (LIFT : forall i q, pend_one w1 i q -> pend_one (set_region w1 r (with_pending R1 kept)) i q).
    { intros i q (k & x & Ri & o & EP & EC & ERi & F & T). exists k, x. destruct (Nat.eqb_spec i r) as [->|N].
      - exists (with_pending R1 kept), o. split; [exact EP|]. split; [rewrite CTX; exact EC|]. split; [cbn; eapply nth_set_nth_eq; eauto|].
        split; [|exact T]. assert (Ri = R1) by congruence. subst Ri. exact F.
      - exists Ri, o. split; [exact EP|]. split; [rewrite CTX; exact EC|]. split; [cbn; rewrite nth_set_nth_neq by exact N; exact ERi|]. auto. }
    intros i Ri Ei. cbn in Ei. rewrite nth_set_nth, ER1 in Ei. destruct (Nat.eqb_spec i r) as [->|N].
    + inversion Ei; subst Ri. destruct PO1 as [X Y]. split; [exact X|]. intros q Iq. apply LIFT. exact (Y q Iq).
    + destruct (nth_some_length _ _ _ _ (fr_length _ _ _ _ _ FR1) Ei) as (Ri0 & Ei0). destruct (fr_regions _ _ _ _ _ FR1 _ _ Ei0) as (Ri1 & Ei1 & _ & _ & _ & PEi).
      assert (Ri1 = Ri) by congruence. subst Ri1. rewrite (PEi (fun X => X)). destruct (PE i Ri0 Ei0) as [X Y]. split; [exact X|].
      intros q Iq. apply LIFT. eapply pend_one_frame; [exact FR1| |exact (Y q Iq)]. intros [Z _].
      destruct (PE r R ER) as [_ Y']. apply (pend_other w i r q q (Y q Iq) (Y' q Z)); auto.
  - constructor.
    + cbn. rewrite set_nth_length. apply FR1.
    + cbn. apply FR1.
    + intros q N. rewrite CTX. apply FR1. intros [X _]. apply N. exists r, R. auto.
    + intros i Ri Ei. destruct (fr_regions _ _ _ _ _ FR1 _ _ Ei) as (Ri1 & Ei1 & SSi & IDi & CUi & PEi). cbn. rewrite nth_set_nth, ER1.
      destruct (Nat.eqb_spec i r) as [->|N].
      * assert (Ri1 = R1) by congruence. subst Ri1. eexists. split; [reflexivity|]. split; [exact SSi|]. split; [exact IDi|]. split; [exact CUi|]. intros X. exfalso. apply X. reflexivity.
      * exists Ri1. split; [exact Ei1|]. split; [exact SSi|]. split; [exact IDi|]. split; [exact CUi|]. intros _. apply PEi. intros [].
  - intros q (i & Ri & Ei & Iq). cbn in Ei. rewrite nth_set_nth, ER1 in Ei. destruct (Nat.eqb_spec i r) as [->|N].
    + inversion Ei; subst Ri. exists r, R. split; [exact ER|]. apply IN1. exact Iq.
    + destruct (nth_some_length _ _ _ _ (fr_length _ _ _ _ _ FR1) Ei) as (Ri0 & Ei0). destruct (fr_regions _ _ _ _ _ FR1 _ _ Ei0) as (Ri1 & Ei1 & _ & _ & _ & PEi).
      assert (Ri1 = Ri) by congruence. subst Ri1. rewrite (PEi (fun X => X)) in Iq. exists i, Ri0. auto.
Qed.

(** Region::train: one more explicit training of the region. *)
Lemma pends_frame w w' : frame none none none w w' -> pends w -> pends w'.
Proof.
  intros FR PE i R' Ei'. destruct (nth_some_length _ _ _ _ (fr_length _ _ _ _ _ FR) Ei') as (R & Ei). destruct (fr_regions _ _ _ _ _ FR _ _ Ei) as (R1 & Ei1 & _ & _ & _ & PEi).
  assert (R1 = R') by congruence. subst R1. rewrite (PEi (fun X => X)). destruct (PE i R Ei) as [X Y]. split; [exact X|]. intros q Iq. eapply pend_one_frame; [exact FR| |exact (Y q Iq)]. intros [].
Qed.

Lemma waiting_frame w w' q : frame none none none w w' -> waiting w' q -> waiting w q.
Proof.
  intros FR (i & R' & Ei' & Iq). destruct (nth_some_length _ _ _ _ (fr_length _ _ _ _ _ FR) Ei') as (R & Ei). destruct (fr_regions _ _ _ _ _ FR _ _ Ei) as (R1 & Ei1 & _ & _ & _ & PEi).
  assert (R1 = R') by congruence. subst R1. rewrite (PEi (fun X => X)) in Iq. exists i, R. auto.
Qed.

Lemma region_train_ok n kk w r st collect force : fits n (fun i => kk i + 1) -> counts n kk w -> budget n w -> pends w -> (r < List.length (w_regions w))%nat ->
  exists w', region_train P w r st collect force = Ok w' /\ counts n (fun i => if Nat.eqb i r then kk i + 1 else kk i) w' /\ budget n w' /\ pends w' /\
    frame (waiting w) (fun i => collect = true /\ i = r) (one r) w w' /\ (forall q, waiting w' q -> waiting w q).
Proof.
  intros [FT1 FT2] CT BU PE LR. assert (FT : fits n kk) by (split; [exact FT1|]; intros i; specialize (FT2 i); cbn beta in FT2; lia).
  destruct (nth_error (w_regions w) r) as [R|] eqn:ER; [|apply nth_error_None in ER; lia].
  unfold region_train. rewrite (sane_get _ _ _ _ (ct_sane _ _ _ CT) ER). cbn [bind].
  assert (UP : forall u, counts n kk u -> counts n (fun i => if Nat.eqb i r then kk i + 1 else kk i) u).
  { intros u [X1 X2 X3 X4 X5]. constructor; auto. eapply within_weaken; [exact X5|]. intros i. cbn beta. destruct (Nat.eqb i r); lia. }
  destruct (negb force && negb (m_trainable (r_model R))).
  { exists w. split; [reflexivity|]. split; [auto|]. split; [exact BU|]. split; [exact PE|]. split; [apply frame_refl|auto]. }
  assert (K : exists w1, (if collect then collect_pending P w r else Ok w) = Ok w1 /\ counts n kk w1 /\ budget n w1 /\ pends w1 /\
    frame (waiting w) (fun i => collect = true /\ i = r) (one r) w w1 /\ (forall q, waiting w1 q -> waiting w q)).
  { destruct collect.
    - destruct (collect_pending_ok n kk w r FT CT BU PE LR) as (w1 & E1 & CT1 & BU1 & PE1 & FR1 & WA1). exists w1. split; [exact E1|]. split; [exact CT1|].
      split; [exact BU1|]. split; [exact PE1|]. split; [|exact WA1]. eapply frame_weaken; [exact FR1|auto| |auto]. intros i X. red in X. auto.
    - exists w. split; [reflexivity|]. split; [exact CT|]. split; [exact BU|]. split; [exact PE|]. split; [apply frame_refl|auto]. }
  destruct K as (w1 & -> & CT1 & BU1 & PE1 & FR1 & WA1). cbn [bind].
  destruct (fr_regions _ _ _ _ _ FR1 _ _ ER) as (R1 & ER1 & _).
  destruct (train_body_ok P c HS HP PL (fun i => w_executions w1 + kk i) w1 r R1 st (ct_sane _ _ _ CT1) ER1 (ct_within _ _ _ CT1)) as (w2 & E2 & S2 & W2 & _).
  - intros i Ri Ei. assert (X := ct_small _ _ _ CT1 i Ri Ei). assert (Y := ct_limit _ _ _ CT1). lia.
  - assert (Y := ct_limit _ _ _ CT1). specialize (FT2 r). cbn beta in FT2. unfold int_max. lia.
  - rewrite E2. exists w2. split; [reflexivity|]. assert (T := train_body_training P (fun _ _ _ => True) _ _ _ _ E2 (fun _ _ => I)).
    assert (FR2 := frame_training _ _ _ _ T). assert (EX : w_executions w2 = w_executions w1) by apply T.
    split; [|split; [|split; [|split]]].
    + constructor; [exact S2|rewrite EX; apply CT1|rewrite EX; apply CT1| |].
      * intros i Ri Ei. rewrite EX. destruct (training_region_back _ _ _ _ _ _ T Ei) as (Ri1 & Ei1 & m & -> & _). exact (ct_small _ _ _ CT1 i Ri1 Ei1).
      * rewrite EX. eapply within_weaken; [exact W2|]. intros i. cbn beta. destruct (Nat.eqb i r); lia.
    + unfold budget. rewrite EX, (total_frame _ _ _ _ FR2). exact BU1.
    + eapply pends_frame; eauto.
    + eapply frame_trans; [exact FR1|]. eapply frame_weaken; [exact FR2| | |]; intros ? [].
    + intros q Wq. apply WA1. eapply waiting_frame; eauto.
Qed.

(** Apollo::train. *)
Lemma each_train_ok n k st collect : 0 <= k -> k + 2 <= 2 ^ 24 -> n <= 2 ^ 24 -> forall rs w, NoDup rs -> (forall i, In i rs -> (i < List.length (w_regions w))%nat) ->
  counts n (fun i => if in_dec Nat.eq_dec i rs then k else k + 1) w -> budget n w -> pends w ->
  exists w', each_region (fun w r => region_train P w r st collect false) w rs = Ok w' /\ counts n (fun _ => k + 1) w' /\ budget n w' /\ pends w' /\
    frame (waiting w) (fun i => collect = true) (fun _ => True) w w' /\ (forall q, waiting w' q -> waiting w q).
Proof.
  intros K0 K1 N1. induction rs as [|r rs IH]; intros w ND V CT BU PE; cbn [each_region].
  - exists w. split; [reflexivity|]. split; [exact CT|]. split; [exact BU|]. split; [exact PE|]. split; [apply frame_refl|auto].
  - inversion ND as [|? ? NI ND']; subst.
    (* the bounds for the regions of the list, and one more for the others *)
    destruct (nth_error (w_regions w) r) as [R|] eqn:ER; [|apply nth_error_None in ER; specialize (V r (or_introl eq_refl)); lia].
    destruct (region_train_ok n (fun i => if in_dec Nat.eq_dec i (r :: rs) then k else k + 1) w r st collect false) as (w1 & E1 & CT1 & BU1 & PE1 & FR1 & WA1); auto.
    + split; [exact N1|]. intros i. destruct (in_dec Nat.eq_dec i (r :: rs)); lia.
    + apply V. left. reflexivity.
    + rewrite E1. cbn [bind]. destruct (IH w1) as (w2 & E2 & CT2 & BU2 & PE2 & FR2 & WA2); auto.
      * intros i Ii. rewrite (fr_length _ _ _ _ _ FR1). apply V. right. exact Ii.
      * destruct CT1 as [X1 X2 X3 X4 X5]. constructor; auto. eapply within_weaken; [exact X5|]. intros i. cbn beta.
        destruct (Nat.eqb_spec i r) as [->|N].
        -- destruct (in_dec Nat.eq_dec r rs); [contradiction|]. destruct (in_dec Nat.eq_dec r (r :: rs)) as [|Z]; [lia|]. exfalso. apply Z. left. reflexivity.
        -- destruct (in_dec Nat.eq_dec i (r :: rs)) as [Z|Z]; destruct (in_dec Nat.eq_dec i rs) as [Z'|Z']; try lia. exfalso. apply Z. right. exact Z'.
      * exists w2. split; [exact E2|]. split; [exact CT2|]. split; [exact BU2|]. split; [exact PE2|]. split; [|auto].
        eapply frame_trans; [eapply frame_weaken; [exact FR1| | |]|eapply frame_weaken; [exact FR2| | |]]; cbn beta; auto; intros i []; auto.
Qed.
End Collect.
