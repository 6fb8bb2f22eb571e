(** Kokkos problems whose name is that of an earlier problem: their models are never trained. *)
From Coq Require Import ZArith Bool Ascii String Lia List.
From Verif Require Import Model.Base Model.Float Model.DatasetM Model.ParserM Model.ModelStringM Model.PolicyModelsM Model.ConfigM Model.RuntimeM Model.KokkosM
  Spec.DatasetSpec Spec.DatasetClient Spec.RuntimeSpec Spec.KokkosSpec
  Proofs.TreeFacts Proofs.RuntimeFacts Proofs.RuntimeCollect Proofs.RuntimePending Proofs.RuntimeMoves Proofs.RuntimeOps
  Proofs.RuntimeNew Proofs.RuntimeRegistry Proofs.RuntimeAccount Proofs.RuntimeClient Proofs.RuntimeCreate Proofs.RuntimeUntouched Proofs.RuntimeKept
  Proofs.RuntimeSettled Proofs.KokkosCandidates Proofs.KokkosRuns Proofs.KokkosClient Proofs.KokkosTrain.
Import ListNotations.
Open Scope Z_scope.

(** The calls the connector makes, the end without device times. *)
Definition quiet_op (o : op) : Prop := kokkos_op o /\ match o with OpEnd _ _ _ early => early = None | _ => True end.

Lemma performs_quiet hash flush before o l vs : performs hash flush before o l vs -> Forall (fun e => quiet_op (fst e)) l.
Proof.
  intros H. assert (A := performs_kind _ _ _ _ _ _ H).
  assert (B : Forall (fun e => match fst e with OpEnd _ _ _ early => early = None | _ => True end) l).
  { clear A. destruct o as [nm id cd|nm id|context cs [|t ts] now D init|context now].
    - destruct H as [-> _]. constructor.
    - destruct H as [-> _]. constructor.
    - destruct H as [-> _]. constructor.
    - rewrite performs_request in H. cbv zeta in H. destruct H as (r & create & xs & policy & vars & _ & _ & C & _ & -> & _).
      apply Forall_app. split.
      + destruct (existsb _ _); [subst; constructor|]. destruct C as (name & _ & ->). repeat constructor.
      + constructor; [reflexivity|]. apply Forall_app. split; [|repeat constructor]. rewrite Forall_map, Forall_forall. intros; exact Logic.I.
    - cbn in H. destruct H as [_ H]. destruct (open_problem before context) as [ids|]; [|subst; constructor].
      destruct H as (r & _ & ->). constructor; [reflexivity|]. destruct (_ =? 0); repeat constructor. }
  rewrite Forall_forall. rewrite Forall_forall in A, B. intros e I. split; [exact (A e I)|exact (B e I)].
Qed.

Lemma created_snoc' os o : created_names (os ++ [o]) = created_names os ++ creates o.
Proof. unfold created_names. rewrite map_app, concat_app. cbn. rewrite app_nil_r. reflexivity. Qed.

Section Platform.
Variable P : platform.
Variable hash : bytes -> Z.
Variable c : config.
Variable files : list (bytes * bytes).
Variable flush : Z.

(** A call of the connector on a region that is not registered. *)
Lemma quiet_step h w o x w' r R : run P (start_world c files) (map fst (h ++ [(o, x)])) = Ok (w', map snd (h ++ [(o, x)])) ->
  run P (start_world c files) (map fst h) = Ok (w, map snd h) -> step P w o = Ok (w', x) -> forallb explicit (map fst (h ++ [(o, x)])) = true ->
  Forall (fun e => quiet_op (fst e)) (h ++ [(o, x)]) -> no_periods c -> nth_error (w_regions w) r = Some R -> ~ In r (map snd (w_registry w)) ->
  exists R', nth_error (w_regions w') r = Some R' /\ m_trainable (r_model R') = m_trainable (r_model R).
Proof.
  intros H' H ST EX F NP ER NR.
  assert (Q : quiet_op o) by (rewrite Forall_app in F; destruct F as [_ F]; inversion F; subst; assumption).
  assert (AP : made_on o <> Some r -> exists R', nth_error (w_regions w') r = Some R' /\ m_trainable (r_model R') = m_trainable (r_model R)).
  { intros N. assert (A : apart r w w'). { eapply apart_step; eauto. apply nth_error_Some. congruence. }
    destruct (proj2 A _ ER) as (R' & E' & s & hp & ->). eauto. }
  destruct Q as [Q QE]. destruct o as [nf nm np mt info yaml init|i async now|i fs now|i p x0|i p D|i p now early|i p y|i st co fo|st co|i|i tt|tt|e tt]; cbn in Q, QE; try contradiction;
    try (apply AP; cbn; discriminate);
    (destruct (Nat.eq_dec i r) as [->|N]; [|apply AP; cbn; congruence]).
  - subst async. cbn [step] in ST. apply bind_inv in ST. destruct ST as ([w1 q] & ST & E). inversion E; subst w1 x. clear E.
    unfold begin_context in ST. apply bind_inv in ST. destruct ST as (R0 & E0 & ST). apply get_region_ok in E0. destruct E0 as [E0 _]. rewrite ER in E0. injection E0 as <-.
    destruct (_ =? idx_max); [discriminate|]. apply bind_inv in ST. destruct ST as (cx & _ & ST). injection ST as ST _. subst w'.
    match goal with |- context [set_context ?v ?p ?k] => destruct (proj2 (apart_set_context r v p k) (with_idx (with_current (with_sync R (mkContext [] (c_policy (r_sync R)) (c_idx (r_sync R)) (c_timer (r_sync R)))) (Some (r, Sync))) (r_idx R + 1))) as (R' & E' & s & hp & ->) end.
    + cbn [set_region w_regions]. rewrite nth_set_nth, Nat.eqb_refl, ER. reflexivity.
    + eexists. split; [exact E'|reflexivity].
  - cbn [step] in ST. apply bind_inv in ST. destruct ST as (R0 & _ & ST). apply bind_inv in ST. destruct ST as (q & _ & ST). apply bind_inv in ST. destruct ST as (w1 & ST & E).
    inversion E; subst w1 x. unfold set_feature in ST. apply bind_inv in ST. destruct ST as (cx & _ & ST). injection ST as <-.
    match goal with |- context [set_context ?v ?p ?k] => destruct (proj2 (apart_set_context r v p k) _ ER) as (R' & E' & s & hp & ->) end.
    eexists. split; [exact E'|reflexivity].
  - cbn [step] in ST. apply bind_inv in ST. destruct ST as (q & _ & ST). apply bind_inv in ST. destruct ST as ([w1 k] & ST & E). inversion E; subst w1 x. clear E.
    unfold get_policy_index in ST. apply bind_inv in ST. destruct ST as (R0 & E0 & ST). apply get_region_ok in E0. destruct E0 as [E0 _]. rewrite ER in E0. injection E0 as <-.
    apply bind_inv in ST. destruct ST as (cx & _ & ST). apply bind_inv in ST. destruct ST as ([choice m] & EM & ST).
    apply bind_inv in ST. destruct ST as (w2 & ET & ST). apply bind_inv in ST. destruct ST as (c2 & _ & ST). injection ST as ST _. subst w'.
    assert (RW : w_regions w2 = w_regions w).
    { unfold trace_policy in ET. destruct (negb _); [injection ET as <-; reflexivity|]. apply bind_inv in ET. destruct ET as (fs & _ & ET). injection ET as <-. reflexivity. }
    match goal with |- context [set_context ?v ?p ?k] => destruct (proj2 (apart_set_context r v p k) (with_model R m)) as (R' & E' & s & hp & ->) end.
    + cbn [set_region w_regions]. rewrite nth_set_nth, Nat.eqb_refl, RW, ER. reflexivity.
    + eexists. split; [exact E'|]. cbn. exact (get_index_trainable P _ _ _ _ _ EM).
  - subst p early.
    assert (x = Done) as ->.
    { cbn [step] in ST. apply bind_inv in ST. destruct ST as (R0 & _ & ST). apply bind_inv in ST. destruct ST as (q & _ & ST). apply bind_inv in ST. destruct ST as (w1 & _ & E). inversion E. reflexivity. }
    assert (KO : Forall (fun e => kokkos_op (fst e)) (h ++ [(OpEnd r (Some (r, Sync)) now None, Done)])).
    { rewrite Forall_forall in *. intros e I. apply F. exact I. }
    assert (EXh : forallb explicit (map fst h) = true) by (rewrite map_app, forallb_app in EX; apply andb_prop in EX; apply EX).
    destruct (end_quiet P c files h w r now w' H EXh ST) as [_ X]; [cbv zeta; auto|exact NP|]. destruct (X _ _ ER) as (R1 & E1 & EM). exists R1. split; [exact E1|]. rewrite EM. reflexivity.
Qed.

(** Regions created after another of their name explore forever. *)
Lemma never_trained : no_periods c -> starts_fresh c ->
  (forall mn ps, parse_policy_model (cf_policy_model c) = Ok (mn, ps) -> mn = $"DecisionTree" \/ mn = $"RandomForest") ->
  forall h w, run P (start_world c files) (map fst h) = Ok (w, map snd h) -> forallb explicit (map fst h) = true -> Forall (fun e => quiet_op (fst e)) h ->
  forall r r' n, (r' < r)%nat -> nth_error (created_names (map fst h)) r' = Some n -> nth_error (created_names (map fst h)) r = Some n ->
  exists R, nth_error (w_regions w) r = Some R /\ m_trainable (r_model R) = true.
Proof.
  intros NP SF LE. induction h as [|[o x] h IH] using rev_ind; intros w' H' EX F r r' n LT E1 E2.
  { destruct r; discriminate E2. }
  assert (SP := H'). rewrite map_app in SP. apply run_app_inv in SP. destruct SP as (w & xs1 & xs2 & H & ST & EQ). cbn in ST.
  apply bind_inv in ST. destruct ST as ([w1 x1] & ST & ST2). cbn in ST2. injection ST2 as -> <-.
  rewrite map_app in EQ. cbn in EQ. apply app_inj_tail in EQ. destruct EQ as [<- <-].
  assert (EXh : forallb explicit (map fst h) = true) by (rewrite map_app, forallb_app in EX; apply andb_prop in EX; apply EX).
  assert (Fh : Forall (fun e => quiet_op (fst e)) h) by (rewrite Forall_app in F; apply F).
  destruct (inv_run P (start_world c files) eq_refl eq_refl eq_refl _ _ _ EXh H) as (log & I). assert (IN := i_names _ _ _ _ _ I). rewrite combine_fst_snd in IN.
  rewrite map_app in E1, E2. cbn [map fst] in E1, E2. rewrite created_snoc' in E1, E2.
  assert (LN : List.length (created_names (map fst h)) = List.length (w_regions w)) by (rewrite <- IN; unfold region_names; apply map_length).
  destruct (Nat.lt_ge_cases r (List.length (w_regions w))) as [L|L].
  - rewrite nth_error_app1 in E1, E2 by lia. destruct (IH w H EXh Fh r r' n LT E1 E2) as (R & ER & T).
    assert (NR : ~ In r (map snd (w_registry w))).
    { intros Q. apply in_map_iff in Q. destruct Q as ([n' k] & E & Q). cbn in E. subst k. destruct (i_reg _ _ _ _ _ I) as [_ RG]. apply RG in Q. destruct Q as [Q FST].
      rewrite IN in Q, FST. apply (FST _ LT). congruence. }
    destruct (quiet_step h w o x w' r R H' H ST EX F NP ER NR) as (R' & ER' & T'). exists R'. split; [exact ER'|congruence].
  - rewrite nth_error_app2 in E2 by lia.
    destruct o as [nf nm np mt info yaml init|i async now|i fs now|i p x0|i p D|i p now early|i p y|i st co fo|st co|i|i tt|tt|e tt]; cbn [creates] in E2; try (destruct (r - _)%nat; discriminate E2).
    assert (Q : quiet_op (OpRegion nf nm np mt info yaml init)) by (rewrite Forall_app in F; destruct F as [_ F]; inversion F; subst; assumption).
    destruct Q as [(-> & -> & ->) _]. assert (r - List.length (created_names (map fst h)) = 0)%nat by (destruct (r - _)%nat as [|[|]]; [reflexivity|discriminate E2|discriminate E2]).
    assert (r = List.length (w_regions w)) as -> by lia.
    cbn [step] in ST. apply bind_inv in ST. destruct ST as ([w2 r2] & HN & E). injection E as -> _.
    assert (C := i_config _ _ _ _ _ I). cbn in C. destruct SF as (_ & S1 & S2).
    assert (CP := same_config_field cf_policy_model _ _ (fun _ => eq_refl) C). cbn in CP.
    assert (SE : starts_empty (w_config w) []).
    { split; [rewrite (same_config_field cf_persistent _ _ (fun _ => eq_refl) C); exact S1|]. rewrite CP. intros name ps X. destruct (S2 _ _ X) as (_ & A & _ & B). auto. }
    destruct (new_region_empty P _ _ _ _ _ _ _ _ _ _ HN SE) as (mn0 & ps0 & mn & ps & info' & m0 & m1 & m & R & EP & RS & EM & LM & NO & -> & -> & ->).
    rewrite CP in EP. destruct (S2 _ _ EP) as (N1 & _ & N2 & _). specialize (LE _ _ EP).
    assert (mn = mn0 /\ ps = ps0) as [-> ->].
    { unfold resolve_static_region in RS. destruct LE as [-> | ->]; injection RS as <- <- _; auto. }
    unfold load_models in LM. cbn [bind] in LM. rewrite N2 in LM. injection LM as <-. specialize (NO N1). subst m.
    eexists. cbn [w_regions]. split; [apply nth_last; reflexivity|]. cbn. eapply learner_created; eauto.
Qed.

(** ** Runs of the connector *)

Lemma krun_quiet os : forall before h K K' vss, kinv P c files flush before h K -> Forall (fun e => quiet_op (fst e)) h -> krun P hash K os = Ok (K', vss) ->
  exists g, kinv P c files flush (before ++ os) (h ++ g) K' /\ Forall (fun e => quiet_op (fst e)) (h ++ g).
Proof.
  intros before h K K' vss I F H. destruct (krun_inv P hash c files flush os _ _ _ _ _ I H) as (hs & L1 & L2 & PF & I'). exists (concat hs). split; [exact I'|].
  apply Forall_app. split; [exact F|]. apply Forall_concat. rewrite Forall_forall. intros l IN. apply In_nth_error in IN. destruct IN as (k & Ek).
  assert (Lk : (k < List.length hs)%nat) by (apply (nth_error_Some hs k); intros X; assert (Y := eq_trans (eq_sym X) Ek); discriminate Y).
  destruct (nth_error os k) as [ok|] eqn:Eok; [|apply nth_error_None in Eok; lia]. destruct (nth_error vss k) as [vk|] eqn:Evk; [|apply nth_error_None in Evk; lia].
  eapply performs_quiet. exact (PF _ _ _ _ Eok Ek Evk).
Qed.

Lemma krun_app_inv os1 : forall K os2 K' vss, krun P hash K (os1 ++ os2) = Ok (K', vss) ->
  exists K1 vss1 vss2, krun P hash K os1 = Ok (K1, vss1) /\ krun P hash K1 os2 = Ok (K', vss2).
Proof.
  induction os1 as [|o os1 IH]; intros K os2 K' vss H; [exists K, [], vss; split; [reflexivity|exact H]|]. cbn [app krun] in H.
  apply bind_inv in H. destruct H as ([K1 x] & E & H). apply bind_inv in H. destruct H as ([K2 xs] & E2 & H). inversion H; subst.
  destruct (IH _ _ _ _ E2) as (K3 & v1 & v2 & A & B). exists K3, (x :: v1), v2. split; [|exact B]. cbn [krun]. rewrite E. cbn [bind]. rewrite A. reflexivity.
Qed.

Lemma created_names_app a b : created_names (a ++ b) = created_names a ++ created_names b.
Proof. unfold created_names. rewrite map_app, concat_app. reflexivity. Qed.

Lemma named_once os ids n n' : named os ids n -> named os ids n' -> n = n'.
Proof.
  intros (a & A & ->) (b & B & ->). f_equal. f_equal. revert b B. induction A as [|id s ids a (v & D & V) A IH]; intros b B; inversion B; subst; [reflexivity|].
  match goal with X : exists _, _ |- _ => destruct X as (v' & D' & V') end. f_equal; [congruence|auto].
Qed.

(** The first request of a problem creates the next region, with the problem's name. *)
Lemma problem_region os i o ids n K vss : krun P hash (started c files flush) os = Ok (K, vss) -> nth_error os i = Some o -> problem o = Some ids ->
  existsb (same_ids ids) (problems (firstn i os)) = false -> named (firstn i os) ids n ->
  exists h, kinv P c files flush os h K /\ Forall (fun e => quiet_op (fst e)) h /\
    nth_error (created_names (map fst h)) (List.length (problems (firstn i os))) = Some (firstn 63 (cstr n)) /\
    place ids (problems os) = Some (List.length (problems (firstn i os))).
Proof.
  intros H Eo PO EX ND. assert (SP : os = firstn i os ++ o :: skipn (S i) os).
  { rewrite <- (firstn_skipn i os) at 1. f_equal. clear EX ND H. revert i Eo. induction os as [|a os IH]; intros [|i] Eo; try discriminate; [injection Eo as ->; reflexivity|]. cbn. apply IH. exact Eo. }
  rewrite SP in H. apply krun_app_inv in H. destruct H as (K1 & vss1 & vss2 & H1 & H2). cbn [krun] in H2. apply bind_inv in H2. destruct H2 as ([K2 vs] & E2 & H2).
  apply bind_inv in H2. destruct H2 as ([K3 vss3] & E3 & H2). injection H2 as <- _.
  destruct (krun_quiet _ _ _ _ _ _ (kinv_start P c files flush) (Forall_nil _) H1) as (h1 & I1 & F1). cbn [app] in I1, F1.
  destruct (kstep_inv P hash c files flush _ _ _ _ _ _ I1 E2) as (l & PF & I2).
  assert (F2 : Forall (fun e => quiet_op (fst e)) (h1 ++ l)) by (apply Forall_app; split; [exact F1|eapply performs_quiet; exact PF]).
  destruct (krun_quiet _ _ _ _ _ _ I2 F2 E3) as (h3 & I3 & F3). rewrite <- (app_assoc (firstn i os)) in I3. cbn [app] in I3. rewrite <- SP in I3.
  exists ((h1 ++ l) ++ h3). split; [exact I3|]. split; [exact F3|]. split.
  - destruct o as [| |context cs [|t ts] now D init|]; try discriminate PO. cbn [problem] in PO. injection PO as PO.
    rewrite performs_request in PF. cbv zeta in PF. rewrite PO in PF. destruct PF as (r & create & xs & policy & vars & _ & _ & CR & _ & -> & _).
    rewrite EX in CR. destruct CR as (n' & ND' & ->). rewrite (named_once _ _ _ _ ND' ND).
    rewrite !map_app, !created_names_app, <- app_assoc. rewrite nth_error_app2 by (rewrite (ki_created _ _ _ _ _ _ _ I1); lia). rewrite (ki_created _ _ _ _ _ _ _ I1), Nat.sub_diag. reflexivity.
  - rewrite SP at 1. change (o :: skipn (S i) os) with ([o] ++ skipn (S i) os). rewrite app_assoc. apply place_later. rewrite problems_snoc. unfold problem_step. rewrite PO, EX, place_snoc, (place_none _ _ EX), same_ids_refl. reflexivity.
Qed.

(** C143. *)
Lemma second_of_a_name_explores os K vss i j oi oj ids ids' n : krun P hash (started c files flush) os = Ok (K, vss) ->
  no_periods c -> starts_fresh c ->
  (forall mn ps, parse_policy_model (cf_policy_model c) = Ok (mn, ps) -> mn = $"DecisionTree" \/ mn = $"RandomForest") ->
  (i < j)%nat ->
  nth_error os i = Some oi -> problem oi = Some ids -> ~ In ids (problems (firstn i os)) -> named (firstn i os) ids n ->
  nth_error os j = Some oj -> problem oj = Some ids' -> ~ In ids' (problems (firstn j os)) -> named (firstn j os) ids' n ->
  exists r R, place ids' (problems os) = Some r /\ nth_error (w_regions (k_world K)) r = Some R /\ m_trainable (r_model R) = true.
Proof.
  intros H NP SF LE LT Ei Pi Fi Ni Ej Pj Fj Nj.
  assert (NX : forall l ps, ~ In l ps -> existsb (same_ids l) ps = false).
  { intros l ps N. destruct (existsb (same_ids l) ps) eqn:X; [|reflexivity]. exfalso. apply N. apply existsb_exists in X. destruct X as (y & IN & E). apply same_ids_true in E. subst. exact IN. }
  apply NX in Fi, Fj.
  destruct (problem_region _ _ _ _ _ _ _ H Ei Pi Fi Ni) as (h1 & I1 & _ & C1 & _).
  destruct (problem_region _ _ _ _ _ _ _ H Ej Pj Fj Nj) as (h & I & F & C2 & PL).
  assert (NM : created_names (map fst h1) = created_names (map fst h)).
  { destruct (inv_run P (start_world c files) eq_refl eq_refl eq_refl _ _ _ (ki_explicit _ _ _ _ _ _ _ I1) (ki_run _ _ _ _ _ _ _ I1)) as (log1 & J1).
    destruct (inv_run P (start_world c files) eq_refl eq_refl eq_refl _ _ _ (ki_explicit _ _ _ _ _ _ _ I) (ki_run _ _ _ _ _ _ _ I)) as (log & J).
    assert (A := i_names _ _ _ _ _ J1). assert (B := i_names _ _ _ _ _ J). rewrite combine_fst_snd in A, B. congruence. }
  rewrite NM in C1.
  assert (LL : (List.length (problems (firstn i os)) < List.length (problems (firstn j os)))%nat).
  { assert (PP : place ids (problems (firstn j os)) = Some (List.length (problems (firstn i os)))).
    { apply (place_firstn os j (S i)); [lia|]. rewrite (firstn_next _ _ _ Ei), problems_snoc. unfold problem_step. rewrite Pi, Fi, place_snoc, (place_none _ _ Fi), same_ids_refl. reflexivity. }
    clear - PP. revert PP. generalize (List.length (problems (firstn i os))). induction (problems (firstn j os)) as [|p ps IH]; intros k PP; [discriminate|]. cbn in PP.
    destruct (same_ids ids p); [injection PP as <-; cbn; lia|]. destruct (place ids ps) as [q|]; [|discriminate]. injection PP as <-. specialize (IH _ eq_refl). cbn. lia. }
  destruct (never_trained NP SF LE _ _ (ki_run _ _ _ _ _ _ _ I) (ki_explicit _ _ _ _ _ _ _ I) F _ _ _ LL C1 C2) as (R & ER & T).
  exists (List.length (problems (firstn j os))), R. auto.
Qed.
End Platform.
