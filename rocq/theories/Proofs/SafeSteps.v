(** Every run of a well-behaved client returns: beginnings, new regions, runs. *)
From Coq Require Import ZArith Bool Ascii String Lia List.
From Flocq Require Import BinarySingleNaN.
From Verif Require Import Model.Base Model.Float Model.Decimal Model.DatasetM Model.ParserM Model.DatasetIO
  Model.PolicyNetM Model.ModelStringM Model.PolicyModelsM Model.ConfigM Model.RuntimeM
  Spec.ModelStringSpec Spec.DatasetSpec Spec.DatasetClient Spec.TreeSpec Spec.ForestSpec Spec.PolicyNetSpec Spec.RuntimeSpec
  Proofs.TreeFacts Proofs.MapFacts Proofs.KeyOrder Proofs.DatasetFacts Proofs.ModelStringFacts Proofs.PolicyRange Proofs.RuntimeFacts Proofs.RuntimeCollect Proofs.RuntimeMoves
  Proofs.RuntimePending Proofs.RuntimeOps Proofs.RuntimeAccount Proofs.RuntimeProgress Proofs.SafeModels Proofs.SafeWorld Proofs.SafeCollect Spec.SafeClient Proofs.SafeRuns.
Import ListNotations.
Open Scope Z_scope.

Lemma begin_succeeds w r R async now : get_region w r = Ok R -> r_idx R <> idx_max -> exists w' p, begin_context w r async now = Ok (w', p).
Proof.
  intros E N. destruct async; [|destruct (begin_defined w r R now E N) as (w' & H); eauto].
  unfold begin_context. rewrite E. cbn [bind]. cbn [r_idx with_heap]. destruct (Z.eqb_spec (r_idx R) idx_max); [congruence|].
  apply get_region_ok in E. destruct E as [E A]. unfold get_context. cbn [fst snd set_region w_regions]. rewrite (nth_set_nth_eq _ _ _ _ E). cbn.
  rewrite nth_error_app2 by lia. rewrite Nat.sub_diag. cbn. eauto.
Qed.

Lemma register_in name r m i : In i (map snd (register name r m)) -> i = r \/ In i (map snd m).
Proof.
  induction m as [|[n x] m IH]; cbn; [intros [<-|[]]; auto|]. destruct (bytes_lt name n); cbn; [intros [<-|[<-|H]]; auto|].
  destruct (bytes_lt n name); cbn; [|auto]. intros [<-|H]; auto. destruct (IH H); auto.
Qed.

Lemma register_nodup name r m : ~ In r (map snd m) -> NoDup (map snd m) -> NoDup (map snd (register name r m)).
Proof.
  induction m as [|[n x] m IH]; cbn; intros N ND; [constructor; auto|]. inversion ND as [|? ? NX ND']; subst.
  destruct (bytes_lt name n); cbn; [constructor; [intros [X|X]; apply N; auto|constructor; auto]|].
  destruct (bytes_lt n name); cbn; [|constructor; auto]. constructor; [|apply IH; auto].
  intros X. apply register_in in X. destruct X as [->|X]; [|contradiction]. apply N. auto.
Qed.

(** Names of models are without commas, and none is one that reads a file. *)
Lemma name_facts name : In name model_names -> free_of "," name /\ bytes_eqb name ($"StaticRegion") = false /\ bytes_eqb name ($"Optimal") = false /\
  bytes_eqb name ($"DatasetMap") = false.
Proof.
  assert (K : forall s, existsb (Ascii.eqb ",") s = false -> free_of "," s).
  { intros s H X. assert (existsb (Ascii.eqb ",") s = true) by (apply existsb_exists; exists ","%char; auto). congruence. }
  intros H. cbn [model_names In] in H. destruct H as [<-|[<-|[<-|[<-|[<-|[<-|[]]]]]]]; (split; [apply K; reflexivity|]); repeat split; reflexivity.
Qed.

Section Steps.
Variable P : platform.
Variable c : config.
Hypothesis HS : sorter_ok (p_sort P).
Hypothesis HP : picker_ok (p_pick P).
Hypothesis PL : plain c.

Notation Inv := (Inv c).

Lemma live_heap w i R k x : nth_error (w_regions w) i = Some R -> nth_error (r_heap R) k = Some (Some x) -> get_context w (i, Heap k) = Ok x.
Proof. intros E H. unfold get_context. cbn. rewrite E, H. reflexivity. Qed.

Lemma live_sync w i R : sane c w -> nth_error (w_regions w) i = Some R -> get_context w (i, Sync) = Ok (r_sync R).
Proof. intros S E. apply alive_context; auto. apply (ro_alive _ _ (sane_region _ _ _ _ S E)). Qed.

Lemma waiting_live w q : pends c w -> waiting w q -> exists x k, get_context w q = Ok x /\ snd q = Heap k.
Proof. intros PE (r & R & E & I). destruct (PE r R E) as [_ Y]. destruct (Y q I) as (k & x & R' & o & EP & EC & _). exists x, k. split; [exact EC|]. rewrite EP. reflexivity. Qed.

Lemma inv_begun n v w r async fs now w' p : Inv n v w -> begun w r async fs now w' p ->
  Inv (n + 1) (SafeClient.with_current r (Some p) (with_open p (Some fs) v)) w'.
Proof.
  intros I (R & ER & EP & G & L & PE & RG & CX & CP). assert (CT := iv_counts _ _ _ _ I). assert (S := ct_sane _ _ _ _ CT). apply get_region_ok in ER. destruct ER as [ER AR].
  assert (OK := sane_region _ _ _ _ S ER). destruct (ro_sync _ _ OK) as (SR & tb & te & ST).
  assert (EX : w_executions w' = w_executions w) by apply G.
  assert (PR : forall i Ri Ri', nth_error (w_regions w) i = Some Ri -> nth_error (w_regions w') i = Some Ri' -> r_pending Ri' = r_pending Ri).
  { intros i Ri Ri' Ei Ei'. specialize (PE i). unfold pending in PE. rewrite Ei, Ei' in PE. exact PE. }
  assert (BK : forall i Ri', nth_error (w_regions w') i = Some Ri' -> exists Ri, nth_error (w_regions w) i = Some Ri /\ same_static Ri Ri' /\ r_alive Ri' = r_alive Ri /\
     r_idx Ri' = (if Nat.eqb i r then r_idx Ri + 1 else r_idx Ri) /\ r_dataset Ri' = r_dataset Ri /\ r_model Ri' = r_model Ri /\ r_pending Ri' = r_pending Ri /\
     r_current Ri' = (if Nat.eqb i r then Some p else r_current Ri)).
  { intros i Ri' Ei'. destruct (nth_some_length _ _ _ _ L Ei') as (Ri & Ei). destruct (RG i Ri Ei) as (R1 & E1 & A1 & A2 & A3 & A4 & A5 & _ & _ & A6).
    assert (R1 = Ri') by congruence. subst R1. exists Ri. split; [exact Ei|]. split; [exact A1|]. split; [exact A2|]. split; [exact A3|]. split; [exact A4|].
    split; [exact A5|]. split; [eapply PR; eauto|exact A6]. }
  set (x0 := mkContext fs (if async then 0 else c_policy (r_sync R)) (r_idx R) (if async then Events false None else timer_start now (c_timer (r_sync R)))) in *.
  assert (FP : fst p = r) by (rewrite EP; reflexivity).
  assert (X0 : in_range (r_num_policies R) (c_policy x0)).
  { unfold x0. cbn. destruct async; [|exact SR]. assert (Y := ro_policies _ _ OK). unfold in_range. lia. }
  assert (T0 : match snd p with Sync => exists b e, c_timer x0 = Clock (Some b) e | Heap _ => exists e, c_timer x0 = Events false e end).
  { rewrite EP. unfold x0. destruct async; cbn; [eauto|]. rewrite ST. cbn. eauto. }
  assert (NWP : forall q, waiting w' q -> waiting w q).
  { intros q (i & Ri' & Ei' & Iq). destruct (BK i Ri' Ei') as (Ri & Ei & _ & _ & _ & _ & _ & EPe & _). rewrite EPe in Iq. exists i, Ri. auto. }
  assert (NW : ~ waiting w p).
  { intros X. destruct (waiting_live _ _ (iv_pends _ _ _ _ I) X) as (x & k & GX & Hk). rewrite EP in GX, Hk. destruct async; cbn in Hk; [|discriminate Hk].
    unfold get_context in GX. cbn in GX. rewrite ER in GX. rewrite (proj2 (nth_error_None _ _)) in GX by lia. discriminate GX. }
  constructor.
  - destruct CT as [_ C1 C2 C3 C4]. constructor; rewrite ?EX; auto; try lia.
    + destruct S as [S1 S2 S3 S4]. destruct G as (G1 & G2 & G3 & G4). constructor; [congruence|congruence| |].
      * intros i Ii. rewrite L. apply S3. rewrite <- G3. exact Ii.
      * apply Forall_forall. intros Ri' IRi. apply In_nth_error in IRi. destruct IRi as (i & Ei'). destruct (BK i Ri' Ei') as (Ri & Ei & SS & AL & _ & ED & EM & _).
        assert (OKi := sane_region _ _ _ _ (Build_sane _ _ S1 S2 S3 S4) Ei).
        assert (AL' : r_alive Ri' = true) by (rewrite AL; apply OKi).
        assert (NP : forall q x, fst q = i -> get_context w' q = Ok x -> in_range (r_num_policies Ri) (c_policy x)).
        { intros q x Eq Gx. destruct (ctx_eqb q p) eqn:EQ.
          - apply ctx_eqb_eq in EQ. subst q. rewrite CP in Gx. inversion Gx; subst x. assert (Ri = R) by congruence. subst Ri. exact X0.
          - assert (q <> p) by (intros ->; rewrite ctx_eqb_refl in EQ; discriminate). rewrite CX in Gx by assumption.
            eapply policy_in_range; [exact (Build_sane _ _ S1 S2 S3 S4)|exact Gx|rewrite Eq; exact Ei]. }
        apply (region_ok_like c Ri); [exact OKi|exact SS|exact AL|exact EM|exact ED| |].
        -- assert (GS := alive_context _ _ _ Ei' AL'). split; [eapply (NP (i, Sync)); [reflexivity|exact GS]|].
           destruct (ctx_eqb (i, Sync) p) eqn:EQ.
           ++ apply ctx_eqb_eq in EQ. rewrite <- EQ in CP, T0. rewrite GS in CP. inversion CP as [CE]. cbn in T0. destruct T0 as (b & e & T0). rewrite CE. eauto.
           ++ assert (NE : (i, Sync) <> p) by (intros X; rewrite X, ctx_eqb_refl in EQ; discriminate). rewrite (CX _ NE) in GS.
              rewrite (live_sync _ _ _ (Build_sane _ _ S1 S2 S3 S4) Ei) in GS. inversion GS as [GE]. destruct (ro_sync _ _ OKi) as (_ & b & e & TI). exists b, e. congruence.
        -- intros k x Hk. eapply (NP (i, Heap k)); [reflexivity|]. eapply live_heap; eauto.
    + intros i Ri' Ei'. destruct (BK i Ri' Ei') as (Ri & Ei & _ & _ & _ & ED & _). rewrite ED. exact (C3 i Ri Ei).
    + intros i Ri' Ei'. destruct (BK i Ri' Ei') as (Ri & Ei & _ & _ & _ & _ & EM & _). rewrite EM. specialize (C4 i Ri Ei). cbn beta in C4. lia.
  - assert (B := iv_budget _ _ _ _ I). unfold budget in *. rewrite EX. rewrite (total_same w w' L); [lia|]. intros i Ri Ei. destruct (RG i Ri Ei) as (Ri' & Ei' & _). exists Ri'.
    split; [exact Ei'|]. eapply PR; eauto.
  - intros i Ri' Ei'. destruct (BK i Ri' Ei') as (Ri & Ei & SS & _ & _ & _ & _ & EPe & _). rewrite EPe. destruct (iv_pends _ _ _ _ I i Ri Ei) as [X Y]. split; [exact X|].
    intros q Iq. destruct (Y q Iq) as (k & x & R1 & o & E1 & E2 & E3 & E4 & E5). exists k, x, Ri', o. split; [exact E1|]. split.
    { rewrite CX; [exact E2|]. intros ->. apply NW. exists i, Ri. auto. }
    split; [exact Ei'|]. assert (R1 = Ri) by congruence. subst R1. split; [eapply feat_same; eauto|exact E5].
  - intros i Ri' Ei'. destruct (BK i Ri' Ei') as (Ri & Ei & _ & _ & IX & _). rewrite IX. assert (X := iv_idx _ _ _ _ I i Ri Ei). destruct (Nat.eqb i r); lia.
  - cbn. rewrite (iv_regions _ _ _ _ I). symmetry. apply map_pointwise; [exact L|]. intros i Ri Ei. destruct (RG i Ri Ei) as (Ri' & Ei' & (_ & E1 & _ & _ & E2 & _) & _).
    exists Ri'. split; [exact Ei'|]. unfold known. rewrite E1, E2. reflexivity.
  - cbn. intros i q Vq. assert (X : exists Ri, nth_error (w_regions w) i = Some Ri /\ (i = r \/ r_current Ri = Some q)).
    { destruct (Nat.eqb_spec i r); [subst; eauto|]. destruct (iv_current _ _ _ _ I _ _ Vq) as (Ri & A & B). eauto. }
    destruct X as (Ri & Ei & X). destruct (RG i Ri Ei) as (Ri' & Ei' & _ & _ & _ & _ & _ & _ & _ & CU). exists Ri'. split; [exact Ei'|]. rewrite CU.
    destruct (Nat.eqb_spec i r); [exact Vq|]. destruct X as [X|X]; [contradiction|exact X].
  - cbn. intros q gs Vq. destruct (ctx_eqb q p) eqn:EQ.
    + apply ctx_eqb_eq in EQ. subst q. inversion Vq; subst gs. exists x0. split; [exact CP|]. split; [reflexivity|]. split; [auto|exact T0].
    + assert (NE : q <> p) by (intros X; rewrite X, ctx_eqb_refl in EQ; discriminate). destruct (iv_open _ _ _ _ I _ _ Vq) as (x & E1 & E2 & E3 & E4).
      exists x. split; [rewrite (CX _ NE); exact E1|]. split; [exact E2|]. split; [auto|exact E4].
Qed.

Lemma begin_ok n v w r async now : Inv n v w -> n + 2 <= 2 ^ 24 -> allowed c v (OpBegin r async now) -> call_ok P c n v w (OpBegin r async now).
Proof.
  intros I NB AL. cbn in AL. destruct (known_region _ _ _ _ _ I AL) as (R & ER). assert (G := sane_get _ _ _ _ (ct_sane _ _ _ _ (iv_counts _ _ _ _ I)) ER).
  assert (X := iv_idx _ _ _ _ I _ _ ER). destruct (begin_succeeds w r R async now G) as (w' & p & E); [unfold idx_max; lia|].
  exists w', (GotContext p). split; [cbn [step]; rewrite E; reflexivity|]. cbn [view_step]. eapply inv_begun; [exact I|]. eapply begin_context_begun. exact E.
Qed.

Lemma begin_features_ok n v w r fs now : Inv n v w -> n + 2 <= 2 ^ 24 -> allowed c v (OpBeginFeatures r fs now) -> call_ok P c n v w (OpBeginFeatures r fs now).
Proof.
  intros I NB AL. cbn in AL. destruct (known_region _ _ _ _ _ I AL) as (R & ER). assert (G := sane_get _ _ _ _ (ct_sane _ _ _ _ (iv_counts _ _ _ _ I)) ER).
  assert (X := iv_idx _ _ _ _ I _ _ ER). destruct (begin_succeeds w r R false now G) as (w1 & p & E); [unfold idx_max; lia|].
  assert (B := begin_context_begun _ _ _ _ _ _ E). destruct B as (R' & _ & _ & _ & _ & _ & _ & _ & CP).
  assert (EF : exists w', begin_features w r fs now = Ok (w', p)) by (unfold begin_features; rewrite E; cbn [bind]; rewrite CP; cbn [bind]; eauto).
  destruct EF as (w' & EF). exists w', (GotContext p). split; [cbn [step]; rewrite EF; reflexivity|]. cbn [view_step]. eapply inv_begun; [exact I|].
  eapply begin_features_begun. exact EF.
Qed.

(** A new region. *)
Lemma region_created n kk w nf name np mt info init : counts c n kk w -> 0 <= nf -> 1 <= np <= 1024 -> model_string_ok (model_string c info) ->
  exists R w', new_region P w nf name np mt info [] init = Ok (w', List.length (w_regions w)) /\ w_regions w' = w_regions w ++ [R] /\
    w_config w' = c /\ w_executions w' = w_executions w /\ (exists nm, w_registry w' = register nm (List.length (w_regions w)) (w_registry w)) /\
    region_ok c R /\ trainings (r_model R) = 0 /\ r_dataset R = [] /\ r_pending R = [] /\ r_idx R = 0 /\ r_heap R = [] /\
    known R = (nf, model_string c info).
Proof.
  intros CT Hf Hn (mn & items & EI & MO). assert (S := ct_sane _ _ _ _ CT). assert (EC := sn_config _ _ S).
  destruct (name_facts mn (mo_name _ _ MO)) as (FN & NS & NO & ND).
  destruct (parse_gives_items mn items FN (mo_items _ _ MO) (mo_documented _ _ MO)) as (ps & EP & FV).
  destruct (create_fine P init mn items ps nf np FV MO Hf) as (m & EM & FM & TM & WM); [lia|].
  assert (GM : good np m) by (eapply create_in; [|exact EM]; lia).
  assert (L1 := proj1 (FV _ _) (mo_load _ _ MO)). assert (L2 := proj1 (FV _ _) (mo_load_dataset _ _ MO)).
  set (R0 := mkRegion true (region_name name) nf np mt (model_text mn items) mn m [] 0 None (mkContext [] 0 0 (Clock None None)) [] [] []).
  assert (O0 : forall t, region_ok c (with_trace R0 t)).
  { intros t. constructor; cbn; auto.
    - exact wfd_nil.
    - constructor.
    - split; [cbn; unfold in_range; lia|cbn; eauto].
    - intros k x. destruct k; discriminate. }
  set (w1 := mkWorld (w_config w) (w_rank w) (w_regions w ++ [R0]) (w_registry w) (w_executions w) (w_files w)).
  assert (E1 : nth_error (w_regions w1) (List.length (w_regions w)) = Some R0) by (cbn; rewrite nth_error_app2, Nat.sub_diag by lia; reflexivity).
  set (w2 := if truthy (cf_trace_csv c) then set_region w1 (List.length (w_regions w)) (with_trace R0 (trace_header nf)) else w1).
  assert (NR : new_region P w nf name np mt info [] init =
     Ok (mkWorld (w_config w2) (w_rank w2) (w_regions w2) (register (region_name name) (List.length (w_regions w)) (w_registry w2)) (w_executions w2) (w_files w2), List.length (w_regions w))).
  { unfold new_region. rewrite EC. change (match info with [] => cf_policy_model c | _ => info end) with (model_string c info). rewrite EI, EP. cbn [bind].
    unfold resolve_static_region. rewrite NS. cbn [bind]. rewrite EM. cbn [bind]. unfold load_models. cbn [bind]. rewrite L1. cbn [bind]. fold R0. rewrite <- EC. fold w1.
    unfold load_persistent. cbn [w_config w1]. rewrite EC, (truthy_zero _ (pl_persistent _ PL)). cbn [bind]. unfold load_and_train. rewrite L2. cbn [bind].
    unfold load_optimal. rewrite NO. cbn [bind]. unfold load_dataset_map. rewrite ND. cbn [bind]. cbn [w_config w1]. rewrite EC. unfold w2.
    destruct (truthy (cf_trace_csv c)); [|reflexivity]. unfold get_region. rewrite E1. reflexivity. }
  assert (K : exists R, w_regions w2 = w_regions w ++ [R] /\ (R = R0 \/ exists t, R = with_trace R0 t)).
  { unfold w2. destruct (truthy _); [|exists R0; auto]. exists (with_trace R0 (trace_header nf)). split; [|eauto]. cbn.
    clear. induction (w_regions w) as [|y l IH]; cbn; [reflexivity|]. f_equal. exact IH. }
  destruct K as (R & ER & HR). assert (HR' : exists t, R = with_trace R0 t) by (destruct HR as [->|X]; [exists []; reflexivity|exact X]). destruct HR' as (t & ->).
  exists (with_trace R0 t). eexists. split; [exact NR|]. split; [exact ER|].
  split; [unfold w2; destruct (truthy _); exact EC|]. split; [unfold w2; destruct (truthy _); reflexivity|].
  split; [exists (region_name name); unfold w2; destruct (truthy _); reflexivity|]. split; [apply O0|].
  split; [exact TM|]. do 4 (split; [reflexivity|]). unfold known. cbn. rewrite EI. reflexivity.
Qed.

Lemma region_call_ok n v w nf name np mt info yaml init : Inv n v w -> allowed c v (OpRegion nf name np mt info yaml init) ->
  call_ok P c n v w (OpRegion nf name np mt info yaml init).
Proof.
  intros I (Hf & Hn & -> & MS). assert (CT := iv_counts _ _ _ _ I). assert (S := ct_sane _ _ _ _ CT).
  destruct (region_created n (fun _ => n) w nf name np mt info init CT Hf Hn MS) as (R & w' & E & ER & EC & EX & (nm & EG) & OK & TR & ED & EP & EI & EH & EK).
  exists w', (GotRegion (List.length (w_regions w))). split; [cbn [step]; rewrite E; reflexivity|]. cbn [view_step].
  assert (N0 := inv_positive _ _ _ _ I).
  assert (BK : forall i Ri, nth_error (w_regions w') i = Some Ri -> nth_error (w_regions w) i = Some Ri \/ (i = List.length (w_regions w) /\ Ri = R)).
  { intros i Ri Ei. rewrite ER in Ei. destruct (Nat.ltb_spec i (List.length (w_regions w))).
    - rewrite nth_error_app1 in Ei by assumption. auto.
    - rewrite nth_error_app2 in Ei by assumption. destruct (i - List.length (w_regions w))%nat as [|j] eqn:EJ; cbn in Ei; [|destruct j; discriminate Ei].
      inversion Ei; subst. right. split; [lia|reflexivity]. }
  assert (FW : forall i Ri, nth_error (w_regions w) i = Some Ri -> nth_error (w_regions w') i = Some Ri).
  { intros i Ri Ei. rewrite ER, nth_error_app1; [exact Ei|]. apply nth_error_Some. congruence. }
  assert (CX : forall q x, get_context w q = Ok x -> get_context w' q = Ok x).
  { intros q x Gx. destruct (context_region _ _ _ Gx) as (Rq & Eq). unfold get_context in *. rewrite (FW _ _ Eq). rewrite Eq in Gx. exact Gx. }
  constructor.
  - destruct CT as [_ C1 C2 C3 C4]. constructor; rewrite ?EX; auto; try lia.
    + constructor; [exact EC| | |].
      * rewrite EG. apply register_nodup; [|apply S]. intros X. apply (sn_registered _ _ S) in X. lia.
      * intros i Ii. rewrite EG in Ii. rewrite ER, app_length. cbn [List.length]. apply register_in in Ii. destruct Ii as [->|Ii]; [lia|]. apply (sn_registered _ _ S) in Ii. lia.
      * rewrite ER. apply Forall_app. split; [apply S|]. constructor; [exact OK|constructor].
    + intros i Ri Ei. destruct (BK i Ri Ei) as [X|(_ & ->)]; [exact (C3 i Ri X)|]. rewrite ED. cbn. lia.
    + intros i Ri Ei. destruct (BK i Ri Ei) as [X|(_ & ->)]; [specialize (C4 i Ri X); cbn beta in C4; lia|]. rewrite TR. lia.
  - assert (B := iv_budget _ _ _ _ I). unfold budget, total in *. rewrite EX, ER, map_app, list_sum_app. cbn [map]. rewrite EP. cbn. lia.
  - intros i Ri Ei. destruct (BK i Ri Ei) as [X|(-> & ->)]; [|rewrite EP; split; [constructor|intros ? []]].
    destruct (iv_pends _ _ _ _ I i Ri X) as [Y Z]. split; [exact Y|]. intros q Iq. destruct (Z q Iq) as (k & x & R1 & o & A1 & A2 & A3 & A4 & A5). exists k, x, R1, o.
    split; [exact A1|]. split; [apply CX; exact A2|]. split; [apply FW; exact A3|]. auto.
  - intros i Ri Ei. destruct (BK i Ri Ei) as [X|(-> & ->)]; [assert (Y := iv_idx _ _ _ _ I i Ri X); lia|]. rewrite EI. lia.
  - cbn. rewrite ER, map_app, (iv_regions _ _ _ _ I). cbn. rewrite EK. reflexivity.
  - cbn. intros i q Vq. destruct (iv_current _ _ _ _ I _ _ Vq) as (Ri & Ei & CR). exists Ri. auto.
  - cbn. intros q gs Vq. destruct (iv_open _ _ _ _ I _ _ Vq) as (x & E1 & E2 & E3 & E4). exists x. split; [apply CX; exact E1|]. split; [exact E2|]. split; [|exact E4].
    intros (i & Ri & Ei & Iq). destruct (BK i Ri Ei) as [X|(-> & ->)]; [|rewrite EP in Iq; destruct Iq]. apply E3. exists i, Ri. auto.
Qed.

Lemma step_ok n v w o : Inv n v w -> n + 2 <= 2 ^ 24 -> allowed c v o -> call_ok P c n v w o.
Proof.
  intros I N A. destruct o.
  - eapply region_call_ok; eassumption.
  - eapply begin_ok; eassumption.
  - eapply begin_features_ok; eassumption.
  - eapply set_feature_ok; eassumption.
  - eapply get_policy_ok; eassumption.
  - eapply end_ok; eassumption.
  - eapply end_metric_ok; eassumption.
  - eapply train_ok; eassumption.
  - eapply train_all_ok; eassumption.
  - eapply collect_call_ok; eassumption.
  - destruct A.
  - destruct A.
  - eapply complete_ok; eassumption.
Qed.

Lemma start_inv files : Inv 0 fresh_view (start_world c files).
Proof.
  constructor.
  - constructor; cbn; try lia; try (intros i R E; destruct i; discriminate E).
    constructor; cbn; [reflexivity|constructor|intros i []|constructor].
  - unfold budget, total. cbn. lia.
  - intros i R E. destruct i; discriminate E.
  - intros i R E. destruct i; discriminate E.
  - reflexivity.
  - intros i p E. discriminate E.
  - intros p fs E. discriminate E.
Qed.

Lemma runs_ok files os : Z.of_nat (List.length os) < 2 ^ 24 -> well_behaved P c files os ->
  exists w xs, run P (start_world c files) os = Ok (w, xs) /\ Inv (Z.of_nat (List.length os)) (view_of c (combine os xs)) w.
Proof.
  induction os as [|o os IH] using rev_ind; intros L W; [exists (start_world c files), []; split; [reflexivity|apply start_inv]|].
  rewrite app_length in L. cbn [List.length] in L. destruct IH as (w & xs & E & I); [lia| |].
  { intros pre o' post w1 xs1 EO R. apply (W pre o' (post ++ [o]) w1 xs1); [rewrite EO, <- app_assoc; reflexivity|exact R]. }
  destruct (step_ok _ _ _ o I) as (w' & x & S & I'); [lia|exact (W os o [] w xs eq_refl E)|].
  exists w', (xs ++ [x]). split; [exact (run_snoc P _ _ _ _ _ _ _ E S)|].
  rewrite combine_snoc by (symmetry; eapply run_length; eauto). unfold view_of in *. rewrite fold_left_app. cbn [fold_left].
  replace (Z.of_nat (List.length (os ++ [o]))) with (Z.of_nat (List.length os) + 1) by (rewrite app_length; cbn; lia). exact I'.
Qed.

(** What a shutdown needs of a region it destroys, when nothing is pending. *)
Definition rests (w : world) (i : nat) : Prop := exists R, nth_error (w_regions w) i = Some R /\ r_alive R = true /\ r_pending R = [].
Definition kept (w w' : world) : Prop := w_config w' = w_config w /\ w_registry w' = w_registry w /\
  forall i R, nth_error (w_regions w) i = Some R -> exists R', nth_error (w_regions w') i = Some R' /\ r_alive R' = r_alive R /\ r_pending R' = r_pending R.

Lemma kept_refl w : kept w w.
Proof. split; [reflexivity|]. split; [reflexivity|]. intros i R E. exists R. auto. Qed.
Lemma kept_trans a b d : kept a b -> kept b d -> kept a d.
Proof.
  intros (A1 & A2 & A3) (B1 & B2 & B3). split; [congruence|]. split; [congruence|]. intros i R E. destruct (A3 i R E) as (R1 & E1 & X1 & Y1).
  destruct (B3 i R1 E1) as (R2 & E2 & X2 & Y2). exists R2. split; [exact E2|]. split; congruence.
Qed.
Lemma kept_rests w w' i : kept w w' -> rests w i -> rests w' i.
Proof. intros (_ & _ & K) (R & E & A & P0). destruct (K i R E) as (R' & E' & A' & P'). exists R'. split; [exact E'|]. split; congruence. Qed.

Lemma kept_set_context w p x : kept w (set_context w p x).
Proof.
  unfold set_context. destruct (nth_error (w_regions w) (fst p)) as [R0|] eqn:E0; [|apply kept_refl].
  split; [destruct (snd p); reflexivity|]. split; [destruct (snd p); reflexivity|]. intros i R E. destruct (Nat.eq_dec i (fst p)) as [->|N].
  - assert (R = R0) by congruence. subst R. destruct (snd p); cbn [set_region w_regions]; rewrite (nth_set_nth_eq _ _ _ _ E0); eexists; split; try reflexivity; split; reflexivity.
  - exists R. split; [|auto]. destruct (snd p); cbn [set_region w_regions]; rewrite nth_set_nth_neq by congruence; exact E.
Qed.
Lemma kept_complete w e : kept w (complete w e).
Proof.
  unfold complete. destruct (get_context w (fst e)) as [x| | | |]; try apply kept_refl. destruct (c_timer x) as [b|b o]; try apply kept_refl.
  destruct b, o; first [apply kept_set_context|apply kept_refl].
Qed.
Lemma kept_completes es : forall w, kept w (fold_left complete es w).
Proof. induction es as [|e es IH]; intros w; [apply kept_refl|]. cbn. eapply kept_trans; [apply kept_complete|apply IH]. Qed.

Lemma kept_period w : cf_persistent (w_config (disable_global_period w)) = cf_persistent (w_config w) /\ w_regions (disable_global_period w) = w_regions w.
Proof. split; reflexivity. Qed.

Lemma destroy_ok w r waits : cf_persistent (w_config w) = 0 -> rests w r ->
  exists w', destroy_region P w r waits = Ok w' /\ cf_persistent (w_config w') = 0 /\ forall i, i <> r -> rests w i -> rests w' i.
Proof.
  intros EP (R & E & A & PE). unfold destroy_region. set (v := disable_global_period w). assert (EV : nth_error (w_regions v) r = Some R) by exact E.
  assert (D : drain P v r waits = Ok (fold_left complete (List.concat waits) v)).
  { destruct waits; cbn [drain]; unfold get_region; rewrite EV, A; cbn [bind]; rewrite PE; reflexivity. }
  rewrite D. cbn [bind]. set (u := fold_left complete (List.concat waits) v). assert (K : kept v u) by apply kept_completes.
  destruct K as (K1 & K2 & K3). destruct (K3 r R EV) as (R' & E' & A' & P'). unfold get_region. rewrite E', A', A. cbn [bind].
  assert (T : truthy (cf_persistent (w_config u)) = false) by (rewrite K1; apply truthy_zero; exact EP). rewrite T.
  eexists. split; [reflexivity|]. split; [cbn; rewrite K1; exact EP|]. intros i N RI.
  assert (RI' : rests u i) by (eapply kept_rests; [split; [exact K1|split; [exact K2|exact K3]]|exact RI]). destruct RI' as (Ri & Ei & Ai & Pi).
  exists Ri. split; [|auto]. cbn [set_region w_regions]. rewrite nth_set_nth_neq by congruence. exact Ei.
Qed.

Lemma destroy_all_ok rs : forall w waits, cf_persistent (w_config w) = 0 -> NoDup rs -> (forall i, In i rs -> rests w i) -> exists w', destroy_all P w rs waits = Ok w'.
Proof.
  induction rs as [|r rs IH]; intros w waits EP ND RS; [exists w; reflexivity|]. cbn [destroy_all]. inversion ND; subst.
  destruct (destroy_ok w r (waits r) EP) as (w' & E & EP' & K); [apply RS; left; reflexivity|]. rewrite E. cbn [bind]. apply IH; [exact EP'|assumption|].
  intros i Ii. apply K; [intros ->; contradiction|]. apply RS. right. exact Ii.
Qed.

Lemma exec_info_ok rs : forall w, (forall i, In i rs -> rests w i) -> exists s, exec_info_lines w rs = Ok s.
Proof.
  induction rs as [|r rs IH]; intros w RS; [exists []; reflexivity|]. cbn [exec_info_lines]. destruct (RS r (or_introl eq_refl)) as (R & E & A & _).
  unfold get_region. rewrite E, A. cbn [bind]. destruct (IH w) as (s & ->); [intros i Ii; apply RS; right; exact Ii|]. cbn [bind]. eauto.
Qed.

Lemma shutdown_ok n v w waits : Inv n v w -> (forall r, pending_of w r = []) -> exists w', step P w (OpShutdown waits) = Ok (w', Done).
Proof.
  intros I PE. assert (S := ct_sane _ _ _ _ (iv_counts _ _ _ _ I)).
  assert (RS : forall i, In i (map snd (w_registry w)) -> rests w i).
  { intros i Ii. assert (L := sn_registered _ _ S i Ii). apply nth_error_Some in L. destruct (nth_error (w_regions w) i) as [R|] eqn:E; [|contradiction].
    exists R. split; [exact E|]. split; [apply (ro_alive _ _ (sane_region _ _ _ _ S E))|]. specialize (PE i). unfold pending_of in PE. rewrite E in PE. exact PE. }
  assert (EP : cf_persistent (w_config w) = 0) by (rewrite (sn_config _ _ S); apply PL).
  cbn [step]. unfold shutdown. destruct (truthy (cf_exec_info (w_config w))).
  - destruct (exec_info_ok _ w RS) as (s & ->). cbn [bind]. set (u := set_files w _).
    destruct (destroy_all_ok (map snd (w_registry w)) u waits EP (sn_nodup _ _ S)) as (w' & ->); [exact RS|]. cbn [bind]. eauto.
  - cbn [bind]. destruct (destroy_all_ok (map snd (w_registry w)) w waits EP (sn_nodup _ _ S) RS) as (w' & ->). cbn [bind]. eauto.
Qed.

Theorem safe_runs files os : Z.of_nat (List.length os) < 2 ^ 24 -> well_behaved P c files os ->
  exists w xs, run P (start_world c files) os = Ok (w, xs) /\
    ((forall r, pending_of w r = []) -> forall waits, exists w', step P w (OpShutdown waits) = Ok (w', Done)).
Proof. intros L W. destruct (runs_ok files os L W) as (w & xs & E & I). exists w, xs. split; [exact E|]. intros PE waits. eapply shutdown_ok; eauto. Qed.
End Steps.
