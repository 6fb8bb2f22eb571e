(** What the end of a context records. *)
From Coq Require Import ZArith Bool Ascii String Lia List.
From Verif Require Import Model.Base Model.Float Model.DatasetM Model.ModelStringM Model.PolicyModelsM Model.ConfigM Model.RuntimeM Model.KokkosM
  Spec.RuntimeSpec Spec.KokkosSpec
  Proofs.TreeFacts Proofs.ModelStringFacts Proofs.RuntimeFacts Proofs.RuntimePending Proofs.RuntimeMoves Proofs.RuntimeOps Proofs.RuntimeSettled Proofs.RuntimeAccount Proofs.RuntimeClient
  Proofs.KokkosCandidates Proofs.KokkosRuns Proofs.KokkosClient Proofs.KokkosTrain.
Import ListNotations.
Open Scope Z_scope.

(** ** The last request *)

Lemma last_exists os ids : existsb (same_ids ids) (problems os) = true -> exists i, last_request os ids i.
Proof.
  induction os as [|o os IH] using rev_ind; intros H; [discriminate|].
  assert (D : {problem o = Some ids} + {problem o <> Some ids}) by (decide equality; apply list_eq_dec, Z.eq_dec). destruct D as [D|D].
  - exists (List.length os). split.
    + exists o. split; [rewrite nth_error_app2, Nat.sub_diag; auto|exact D].
    + intros j o' L E. exfalso. assert (X : (j < List.length (os ++ [o]))%nat) by (apply nth_error_Some; congruence). rewrite app_length in X. cbn in X. lia.
  - destruct IH as (i & (o1 & A & B) & C).
    + rewrite problems_snoc in H. unfold problem_step in H. destruct (problem o) as [ids'|]; [|exact H]. destruct (existsb (same_ids ids') (problems os)); [exact H|].
      rewrite existsb_app in H. apply orb_prop in H. destruct H as [H|H]; [exact H|]. cbn in H. rewrite orb_false_r in H. apply same_ids_true in H. congruence.
    + assert (L : (i < List.length os)%nat) by (apply nth_error_Some; congruence). exists i. split.
      * exists o1. split; [rewrite nth_error_app1; auto|exact B].
      * intros j o' LT E. destruct (Nat.lt_trichotomy j (List.length os)) as [X|[X|X]].
        -- rewrite nth_error_app1 in E by exact X. eauto.
        -- subst j. rewrite nth_error_app2, Nat.sub_diag in E by lia. inversion E; subst. exact D.
        -- exfalso. assert (Y : (j < List.length (os ++ [o]))%nat) by (apply nth_error_Some; congruence). rewrite app_length in Y. cbn in Y. lia.
Qed.

Lemma ended_snoc os o ids i : ended_since (os ++ [o]) ids i <->
  ended_since os ids i \/ (i < List.length os)%nat /\ exists context now, o = KEnd context now /\ open_problem os context = Some ids.
Proof.
  split.
  - intros (j & context & now & L & E & O). destruct (Nat.lt_trichotomy j (List.length os)) as [X|[X|X]].
    + left. exists j, context, now. rewrite nth_error_app1 in E by exact X. split; [exact L|]. split; [exact E|].
      rewrite firstn_app in O. replace (j - List.length os)%nat with 0%nat in O by lia. cbn [firstn] in O. rewrite app_nil_r in O. exact O.
    + right. subst j. rewrite nth_error_app2, Nat.sub_diag in E by lia. injection E as ->. split; [exact L|]. exists context, now. split; [reflexivity|].
      rewrite firstn_app, Nat.sub_diag, firstn_all in O. cbn [firstn] in O. rewrite app_nil_r in O. exact O.
    + exfalso. assert (Y : (j < List.length (os ++ [o]))%nat) by (apply nth_error_Some; congruence). rewrite app_length in Y. cbn in Y. lia.
  - intros [(j & context & now & L & E & O)|(L & context & now & -> & O)].
    + assert (Y : (j < List.length os)%nat) by (apply nth_error_Some; congruence). exists j, context, now. split; [exact L|]. rewrite nth_error_app1 by exact Y. split; [exact E|].
      rewrite firstn_app. replace (j - List.length os)%nat with 0%nat by lia. cbn [firstn]. rewrite app_nil_r. exact O.
    + exists (List.length os), context, now. split; [exact L|]. rewrite nth_error_app2, Nat.sub_diag by lia. split; [reflexivity|].
      rewrite firstn_app, Nat.sub_diag, firstn_all. cbn [firstn]. rewrite app_nil_r. exact O.
Qed.

Lemma ended_dec os ids i : ended_since os ids i \/ ~ ended_since os ids i.
Proof.
  induction os as [|o os IH] using rev_ind; [right; intros (j & ? & ? & _ & E & _); destruct j; discriminate E|]. rewrite ended_snoc. destruct IH as [Y|N]; [auto|].
  destruct (Nat.lt_ge_cases i (List.length os)) as [L|L]; [|right; intros [Y|[Y _]]; [auto|lia]].
  destruct o as [nm id cd|nm id|context' cs' tuning' now' D' init'|context' now']; try (right; intros [Y|(_ & ? & ? & X & _)]; [auto|discriminate X]).
  destruct (open_problem os context') as [ids'|] eqn:OP; [|right; intros [Y|(_ & ? & ? & X & Y)]; [auto|injection X as <- <-; rewrite OP in Y; discriminate Y]].
  destruct (list_eq_dec Z.eq_dec ids' ids) as [->|NE]; [left; right; eauto|right; intros [Y|(_ & ? & ? & X & Y)]; [auto|injection X as <- <-; congruence]].
Qed.

(** Calls that leave the synchronous context of a region as it is. *)
Definition elsewhere (r : nat) (e : op * result) : Prop :=
  (forall s, add_features (r, Sync) s e = s) /\ (forall p, last_policy (r, Sync) p e = p) /\ (forall s, started_step r s e = s).
(** Nor its policy and its start. *)
Definition lasting (r : nat) (e : op * result) : Prop :=
  (forall p, last_policy (r, Sync) p e = p) /\ (forall s, started_step r s e = s).
Lemma elsewhere_lasting r e : elsewhere r e -> lasting r e.
Proof. intros (_ & H). exact H. Qed.

Lemma lasting_all r l : Forall (lasting r) l -> forall h,
  policy_of (h ++ l) (r, Sync) = policy_of h (r, Sync) /\ started_of (h ++ l) r = started_of h r.
Proof.
  induction 1 as [|e l E F IH]; intros h; [rewrite app_nil_r; auto|]. change (e :: l) with ([e] ++ l). rewrite app_assoc.
  destruct (IH (h ++ [e])) as (B & C). rewrite B, C, policy_snoc, started_snoc. destruct E as (Y & Z). auto.
Qed.

Section Records.
Variable P : platform.
Variable w0 : world.

Lemma elsewhere_all r g : Forall (elsewhere r) g -> forall h log w, records P w0 (h ++ g) log w ->
  exists log1 l1 w1, log = log1 ++ l1 /\ records P w0 h log1 w1 /\ features_of (h ++ g) log (r, Sync) = features_of h log1 (r, Sync).
Proof.
  intros F. induction g as [|[o x] g IH] using rev_ind; intros h log w RC.
  - exists log, [], w. rewrite !app_nil_r in *. auto.
  - apply Forall_app in F. destruct F as [F E]. inversion E as [|e' l' E1 _]; subst e' l'. rewrite app_assoc in RC. destruct (records_snoc_inv P w0 _ _ _ _ _ RC) as (log2 & l2 & w2 & -> & RC2 & _ & _ & _).
    destruct (IH F _ _ _ RC2) as (log1 & l1 & w1 & -> & RC1 & E2). exists log1, (l1 ++ l2), w1. rewrite app_assoc. split; [reflexivity|]. split; [exact RC1|].
    rewrite app_assoc, features_next by (eapply records_balanced; exact RC2). rewrite (proj1 E1). exact E2.
Qed.

Lemma set_all r xs : forall h log w, records P w0 (h ++ map (fun x => (OpSetFeature r (Some (r, Sync)) x, Done)) xs) log w ->
  exists log1 w1, records P w0 h log1 w1 /\
    features_of (h ++ map (fun x => (OpSetFeature r (Some (r, Sync)) x, Done)) xs) log (r, Sync) = features_of h log1 (r, Sync) ++ xs.
Proof.
  induction xs as [|x xs IH] using rev_ind; intros h log w RC.
  - exists log, w. cbn [map] in *. rewrite !app_nil_r in *. auto.
  - rewrite map_app in *. cbn [map] in *. rewrite app_assoc in RC. destruct (records_snoc_inv P w0 _ _ _ _ _ RC) as (log2 & l2 & w2 & -> & RC2 & _ & _ & _).
    destruct (IH _ _ _ RC2) as (log1 & w1 & RC1 & E2). exists log1, w1. split; [exact RC1|].
    rewrite app_assoc, features_next by (eapply records_balanced; exact RC2). cbn [add_features]. rewrite ctx_eqb_refl. cbn [fst]. rewrite E2, app_assoc. reflexivity.
Qed.
End Records.

Lemma ctx_sync_other q r : q <> r -> ctx_eqb (q, Sync) (r, Sync) = false.
Proof. intros N. unfold ctx_eqb. cbn. apply Nat.eqb_neq in N. rewrite N. reflexivity. Qed.

Lemma begun_started h r xs : started_of (h ++ map (fun x => (OpSetFeature r (Some (r, Sync)) x, Done)) xs) r = started_of h r.
Proof.
  revert h. induction xs as [|x xs IH]; intros h; cbn [map]; [rewrite !app_nil_r; auto|]. change ((OpSetFeature r (Some (r, Sync)) x, Done) :: map (fun x => (OpSetFeature r (Some (r, Sync)) x, Done)) xs) with
    ([(OpSetFeature r (Some (r, Sync)) x, Done)] ++ map (fun x => (OpSetFeature r (Some (r, Sync)) x, Done)) xs). rewrite app_assoc.
  rewrite (IH (h ++ [(OpSetFeature r (Some (r, Sync)) x, Done)])), started_snoc. reflexivity.
Qed.

(** Every measurement of a region was kept. *)
Definition all_kept (r : nat) (log : list entry) : Prop := Forall (fun e => e_kept e = true) (taken_for r log).
Lemma all_kept_app r a b : all_kept r (a ++ b) -> all_kept r a /\ all_kept r b.
Proof. unfold all_kept, taken_for. rewrite filter_app. apply Forall_app. Qed.

Section Latest.
Variable P : platform.
Variable w0 : world.
Variable hash : bytes -> Z.
Variable flush : Z.

Lemma latest os : forall hs vss, List.length hs = List.length os -> List.length vss = List.length os ->
  (forall i o l vs, nth_error os i = Some o -> nth_error hs i = Some l -> nth_error vss i = Some vs -> performs hash flush (firstn i os) o l vs) ->
  forall ids i, last_request os ids i ->
  exists context cs tuning now D init vs r xs policy vars,
    nth_error os i = Some (KRequest context cs tuning now D init) /\ map fst cs ++ tuning = ids /\ nth_error vss i = Some vs /\ place ids (problems os) = Some r /\
    Forall2 (feature_of hash) (map snd cs) xs /\ all_declared (firstn i os) tuning vars /\ decode vars policy = Ok vs /\
    policy_of (concat hs) (r, Sync) = policy /\ started_of (concat hs) r = Some now /\
    forall log w, records P w0 (concat hs) log w -> all_kept r log ->
      (ended_since os ids i -> features_of (concat hs) log (r, Sync) = []) /\ (~ ended_since os ids i -> features_of (concat hs) log (r, Sync) = xs).
Proof.
  induction os as [|o os IH] using rev_ind; intros hs vss L1 L2 PF ids i ((oi & Ei & Pi) & LAST); [destruct i; discriminate|].
  rewrite app_length in L1, L2. cbn in L1, L2.
  destruct (exists_last (l := hs)) as (hs0 & l0 & ->); [intros ->; cbn in L1; lia|]. destruct (exists_last (l := vss)) as (vss0 & v0 & ->); [intros ->; cbn in L2; lia|].
  rewrite app_length in L1, L2. cbn in L1, L2. assert (M1 : List.length hs0 = List.length os) by lia. assert (M2 : List.length vss0 = List.length os) by lia.
  assert (PL := PF (List.length os) o l0 v0). rewrite !nth_error_app2, ?M1, ?M2, Nat.sub_diag in PL by lia. specialize (PL eq_refl eq_refl eq_refl).
  rewrite firstn_app, Nat.sub_diag, firstn_all in PL. cbn [firstn] in PL. rewrite app_nil_r in PL. rewrite concat_app. cbn [concat]. rewrite app_nil_r.
  destruct (Nat.eq_dec i (List.length os)) as [->|NE].
  - rewrite nth_error_app2, Nat.sub_diag in Ei by lia. cbn in Ei. inversion Ei; subst oi. clear Ei.
    destruct o as [| |context cs [|t ts] now D init|]; try discriminate Pi. rewrite performs_request in PL. cbv zeta in PL.
    destruct PL as (r & create & xs & policy & vars & PL & AD & CR & FE & -> & DE). cbn [problem] in Pi. injection Pi as Pi.
    exists context, cs, (t :: ts), now, D, init, v0, r, xs, policy, vars. rewrite nth_error_app2, Nat.sub_diag by lia. split; [reflexivity|]. split; [exact Pi|].
    split; [rewrite <- M2, nth_error_app2, Nat.sub_diag by lia; reflexivity|]. rewrite Pi in PL. split; [exact PL|]. split; [exact FE|].
    rewrite firstn_app, Nat.sub_diag, firstn_all. cbn [firstn]. rewrite app_nil_r. split; [exact AD|]. split; [exact DE|].
    match goal with |- policy_of (concat hs0 ++ create ++ ?b :: ?m ++ [?g]) _ = _ /\ _ =>
      replace (concat hs0 ++ create ++ b :: m ++ [g]) with ((((concat hs0 ++ create) ++ [b]) ++ m) ++ [g]) by (rewrite <- !app_assoc; reflexivity) end.
    rewrite policy_snoc, started_snoc. cbn [last_policy started_step fst]. rewrite ctx_eqb_refl. split; [reflexivity|].
    rewrite begun_started, started_snoc. cbn [started_step fst]. rewrite Nat.eqb_refl. split; [reflexivity|].
    intros log w RC _. split.
    { intros EN. exfalso. apply ended_snoc in EN. destruct EN as [(j & context2 & now2 & LT & E2 & _)|(LT & _)]; [|lia]. assert (Y : (j < List.length os)%nat) by (apply nth_error_Some; congruence). lia. }
    intros _. destruct (records_snoc_inv P w0 _ _ _ _ _ RC) as (log2 & l2 & w2 & -> & RC2 & _ & _ & _).
    rewrite features_next by (eapply records_balanced; exact RC2). cbn [add_features fst].
    destruct (set_all P w0 _ _ _ _ _ RC2) as (log3 & w3 & RC3 & E3). rewrite E3. destruct (records_snoc_inv P w0 _ _ _ _ _ RC3) as (log4 & l4 & w4 & -> & RC4 & _ & _ & _).
    rewrite features_next by (eapply records_balanced; exact RC4). cbn [add_features]. rewrite ctx_eqb_refl. reflexivity.
  - assert (LI : (i < List.length os)%nat). { assert (X : (i < List.length (os ++ [o]))%nat) by (apply nth_error_Some; congruence). rewrite app_length in X. cbn in X. lia. }
    rewrite nth_error_app1 in Ei by exact LI.
    destruct (IH hs0 vss0 M1 M2) with (ids := ids) (i := i) as (context & cs & tuning & now & D & init & vs & r & xs & policy & vars & A1 & A2 & A3 & A4 & A5 & A6 & A7 & A9 & A10 & A8).
    { intros k ok l vs E1 E2 E3. assert (LK : (k < List.length os)%nat) by (apply nth_error_Some; congruence).
      assert (X := PF k ok l vs). rewrite !nth_error_app1 in X by lia. specialize (X E1 E2 E3). rewrite firstn_app in X. replace (k - List.length os)%nat with O in X by lia. cbn [firstn] in X. rewrite app_nil_r in X. exact X. }
    { split; [eauto|]. intros j oj LT EJ. apply (LAST j oj LT). rewrite nth_error_app1; [exact EJ|]. apply nth_error_Some. congruence. }
    assert (EX : existsb (same_ids ids) (problems os) = true).
    { destruct (existsb (same_ids ids) (problems os)) eqn:X; [reflexivity|]. rewrite (place_none _ _ X) in A4. discriminate. }
    assert (PO : problem o <> Some ids). { apply (LAST (List.length os) o LI). rewrite nth_error_app2, Nat.sub_diag by lia. reflexivity. }
    assert (A4' := kept_place os o ids EX). rewrite A4 in A4'.
    assert (EW : Forall (lasting r) l0 /\ ((~ (exists context2 now2, o = KEnd context2 now2 /\ open_problem os context2 = Some ids)) -> Forall (elsewhere r) l0) /\
      ((exists context2 now2, o = KEnd context2 now2 /\ open_problem os context2 = Some ids) -> exists now2 rest, l0 = (OpEnd r (Some (r, Sync)) now2 None, Done) :: rest /\ Forall (elsewhere r) rest)).
    { destruct o as [nm id cd|nm id|context' cs' [|t ts] now' D' init'|context' now'].
      - destruct PL as [-> _]. split; [constructor|]. split; [constructor|]. intros (? & ? & X & _). discriminate X.
      - destruct PL as [-> _]. split; [constructor|]. split; [constructor|]. intros (? & ? & X & _). discriminate X.
      - destruct PL as [-> _]. split; [constructor|]. split; [constructor|]. intros (? & ? & X & _). discriminate X.
      - enough (Y : Forall (elsewhere r) l0).
        { split; [eapply Forall_impl; [|exact Y]; apply elsewhere_lasting|]. split; [intros _; exact Y|]. intros (? & ? & X & _). discriminate X. }
        rewrite performs_request in PL. cbv zeta in PL. destruct PL as (r' & create & xs' & policy' & vars' & PL & _ & CR & _ & -> & _).
        assert (NR : r' <> r). { intros ->. apply PO. cbn [problem]. apply place_nth in PL. apply place_nth in A4'. congruence. }
        assert (NC := ctx_sync_other _ _ NR). assert (NB : Nat.eqb r' r = false) by (apply Nat.eqb_neq; exact NR).
        apply Forall_app. split; [destruct (existsb _ _); [subst; constructor|]; destruct CR as (? & _ & ->); constructor; [repeat split; intros; try destruct s; reflexivity|constructor]|].
        constructor; [repeat split; intros; try destruct s; cbn [add_features last_policy started_step fst]; rewrite ?NC, ?NB; reflexivity|].
        apply Forall_app. split; [|constructor; [|constructor]; repeat split; intros; try destruct s; cbn [add_features last_policy started_step fst]; rewrite ?NC, ?NB; reflexivity].
        rewrite Forall_map, Forall_forall. intros x _. repeat split; intros; try destruct s; cbn [add_features last_policy started_step fst]; rewrite ?NC, ?NB; reflexivity.
      - cbn in PL. destruct PL as [_ PL]. destruct (open_problem os context') as [ids'|] eqn:OP.
        + destruct PL as (r' & PL & ->). assert (TR : Forall (elsewhere r) (if Z.rem (ends (os ++ [KEnd context' now'])) flush =? 0 then [(OpTrainAll 0 true, Done)] else [])).
          { destruct (_ =? 0); repeat constructor; intros; try destruct s; reflexivity. }
          split; [|split].
          * constructor; [repeat split|]. eapply Forall_impl; [|exact TR]. apply elsewhere_lasting.
          * intros N. constructor; [|exact TR]. assert (NR : r' <> r). { intros ->. apply N. exists context', now'. split; [reflexivity|]. apply place_nth in PL. apply place_nth in A4. rewrite OP. congruence. }
            assert (NC := ctx_sync_other _ _ NR). repeat split. intros [fs ks]. cbn [add_features]. rewrite NC. reflexivity.
          * intros (? & ? & X & Y). injection X as <- <-. rewrite OP in Y. injection Y as ->. rewrite A4 in PL. injection PL as <-. eauto.
        + subst l0. split; [constructor|]. split; [constructor|]. intros (? & ? & X & Y). injection X as <- <-. rewrite OP in Y. discriminate Y. }
    destruct EW as (EL & EF & EE). destruct (lasting_all _ _ EL (concat hs0)) as (B2 & B3).
    exists context, cs, tuning, now, D, init, vs, r, xs, policy, vars. rewrite B2, B3. rewrite !nth_error_app1 by lia. rewrite firstn_app. replace (i - List.length os)%nat with O by lia. cbn [firstn]. rewrite app_nil_r.
    do 9 (split; [assumption|]). intros log w RC AK.
    assert (DEC : (exists context2 now2, o = KEnd context2 now2 /\ open_problem os context2 = Some ids) \/ ~ (exists context2 now2, o = KEnd context2 now2 /\ open_problem os context2 = Some ids)).
    { destruct o as [nm id cd|nm id|context' cs' tuning' now' D' init'|context' now']; try (right; intros (? & ? & X & _); discriminate X).
      destruct (open_problem os context') as [ids'|] eqn:OP; [|right; intros (? & ? & X & Y); injection X as <- <-; rewrite OP in Y; discriminate Y].
      destruct (list_eq_dec Z.eq_dec ids' ids) as [->|N]; [left; eauto|right; intros (? & ? & X & Y); injection X as <- <-; congruence]. }
    rewrite ended_snoc. destruct DEC as [Y|N].
    + split; [intros _|intros X; exfalso; apply X; right; split; [exact LI|exact Y]].
      destruct (EE Y) as (now2 & rest & -> & FR). change ((OpEnd r (Some (r, Sync)) now2 None, Done) :: rest) with ([(OpEnd r (Some (r, Sync)) now2 None, Done)] ++ rest) in *. rewrite app_assoc in *.
      destruct (elsewhere_all P w0 _ _ FR _ _ _ RC) as (log1 & l1 & w1 & -> & RC1 & E1). rewrite E1. apply all_kept_app in AK. destruct AK as [AK _].
      destruct (records_snoc_inv P w0 _ _ _ _ _ RC1) as (log2 & l2 & w2 & -> & RC2 & _ & TK & _). rewrite features_next by (eapply records_balanced; exact RC2).
      cbn in TK. destruct TK as (e & st & _ & -> & ER & EC & _). apply all_kept_app in AK. destruct AK as [_ AK]. unfold all_kept, taken_for in AK. cbn [filter] in AK. rewrite ER, Nat.eqb_refl in AK. inversion AK as [|e' l' EK _]; subst e' l'.
      unfold kept_flags. cbn [snd filter]. rewrite EC, ctx_eqb_refl. cbn [map add_features]. rewrite ctx_eqb_refl, EK. reflexivity.
    + destruct (elsewhere_all P w0 _ _ (EF N) _ _ _ RC) as (log1 & l1 & w1 & -> & RC1 & E1). rewrite E1. apply all_kept_app in AK. destruct AK as [AK _].
      destruct (A8 _ _ RC1 AK) as [X1 X2]. split; [intros [Y|[_ Y]]; [exact (X1 Y)|destruct (N Y)]|intros Y; apply X2; tauto].
Qed.
End Latest.

(** ** The data *)

Lemma nth_set_same {A} (l : list A) n x : (n < List.length l)%nat -> nth_error (set_nth l n x) n = Some x.
Proof. intros L. rewrite nth_set_nth, Nat.eqb_refl. destruct (nth_error l n) eqn:E; [reflexivity|]. apply nth_error_None in E. lia. Qed.

Section Platform.
Variable P : platform.
Variable hash : bytes -> Z.
Variable c : config.
Variable files : list (bytes * bytes).
Variable flush : Z.

(** What one end of a synchronous execution inserts. *)
Definition inserted (w : world) (r : nat) (fs : list f32) (policy : Z) (x : f64) (w' : world) : Prop :=
  forall j R, nth_error (w_regions w) j = Some R -> exists R', nth_error (w_regions w') j = Some R' /\
    if Nat.eqb j r && keeps (w_config w) R then ds_insert (r_dataset R) fs policy x = Ok (r_dataset R') else r_dataset R' = r_dataset R.

Lemma training_data Q w w' : training P Q w w' -> forall j R, nth_error (w_regions w) j = Some R -> exists R', nth_error (w_regions w') j = Some R' /\ r_dataset R' = r_dataset R.
Proof.
  intros [_ F] j R E. destruct (Forall2_nth _ _ _ F _ _ E) as (R' & E' & (m & -> & _)). exists (with_model R m). auto.
Qed.

Lemma end_inserts h log w r now early w' start : run P (start_world c files) (map fst h) = Ok (w, map snd h) -> forallb explicit (map fst h) = true ->
  step P w (OpEnd r (Some (r, Sync)) now early) = Ok (w', Done) -> started_of h r = Some start -> inv P (start_world c files) h log w ->
  inserted w r (features_of h log (r, Sync)) (policy_of h (r, Sync)) (sub64 (clock_seconds now) (clock_seconds start)) w'.
Proof.
  intros H EX ST SO I.
  cbn in ST. apply bind_inv in ST. destruct ST as (R0 & G0 & ST). apply bind_inv in ST. destruct ST as (v & HE & E). inversion E; subst v. clear E.
  unfold end_context in HE. apply bind_inv in HE. destruct HE as (cx & EC & HE). cbn [is_sync_of] in HE. rewrite Nat.eqb_refl in HE.
  apply bind_inv in HE. destruct HE as (d & ED & HE). destruct d as [x|]; [|discriminate HE].
  destruct (i_views _ _ _ _ _ I _ _ EC) as (V1 & V2 & _ & (e & V4)). cbn [fst] in V4. rewrite V4, SO in ED. cbn in ED. injection ED as <-.
  apply get_region_ok in G0. destruct G0 as [ER A0]. unfold set_context in HE. cbn [fst snd] in HE. rewrite ER in HE.
  set (cx' := mkContext (c_features cx) (c_policy cx) (c_idx cx) (timer_stop now (c_timer cx))) in *.
  unfold collect_context in HE. apply bind_inv in HE. destruct HE as (R1 & G1 & HE). apply get_region_ok in G1. destruct G1 as [ER1 A1].
  cbn [w_regions set_region] in ER1. rewrite nth_set_same in ER1 by (apply nth_error_Some; congruence). inversion ER1; subst R1. clear ER1.
  apply bind_inv in HE. destruct HE as (c2 & EC2 & HE). unfold get_context in EC2. cbn [fst snd w_regions set_region] in EC2. rewrite nth_set_same in EC2 by (apply nth_error_Some; congruence).
  cbn [r_alive with_sync] in EC2, A1. rewrite A1 in EC2. cbn [r_sync with_sync] in EC2. inversion EC2; subst c2. clear EC2.
  apply bind_inv in HE. destruct HE as (R2 & EI & HE). apply bind_inv in HE. destruct HE as (w3 & EA & HE). apply bind_inv in HE. destruct HE as (w4 & EW & HE).
  cbn [is_sync_of] in EW. rewrite Nat.eqb_refl in EW. inversion EW; subst w4. clear EW. apply bind_inv in HE. destruct HE as (R4 & G4 & HE). inversion HE; subst w'. clear HE.
  apply auto_train_training in EA. assert (TD := training_data _ _ _ EA). clear EA. cbn [count_execution set_region w_regions] in TD.
  apply get_region_ok in G4. destruct G4 as [ER4 _].
  assert (D2 : if keeps (w_config w) R0 then ds_insert (r_dataset R0) (features_of h log (r, Sync)) (policy_of h (r, Sync)) (sub64 (clock_seconds now) (clock_seconds start)) = Ok (r_dataset R2) else r_dataset R2 = r_dataset R0).
  { assert (K : forall R5, r_dataset R5 = r_dataset R0 -> m_trainable (r_model R5) = m_trainable (r_model R0) ->
      (if truthy (cf_persistent (w_config w)) || m_trainable (r_model R5)
       then let* d := ds_insert (r_dataset R5) (c_features cx') (c_policy cx') (sub64 (clock_seconds now) (clock_seconds start)) in Ok (with_dataset (moved_features r (r, Sync) cx' R5) d) else Ok R5) = Ok R2 ->
      if keeps (w_config w) R0 then ds_insert (r_dataset R0) (features_of h log (r, Sync)) (policy_of h (r, Sync)) (sub64 (clock_seconds now) (clock_seconds start)) = Ok (r_dataset R2) else r_dataset R2 = r_dataset R0).
    { intros R5 X1 X2 X. rewrite X2 in X. fold (keeps (w_config w) R0) in X. destruct (keeps (w_config w) R0).
      - apply bind_inv in X. destruct X as (d & X & Y). inversion Y; subst R2. cbn. rewrite X1 in X. cbn [c_features c_policy cx'] in X. rewrite V1, V2 in X. exact X.
      - inversion X; subst R5. exact X1. }
    cbn [w_config set_region] in EI. destruct (truthy (cf_trace_csv (w_config w))); eapply K; [| |exact EI| | |exact EI]; reflexivity. }
  assert (LR : (r < List.length (w_regions w))%nat) by (apply nth_error_Some; congruence).
  intros j R E. cbn [set_region w_regions].
  destruct (Nat.eqb_spec j r) as [->|N]; cbn [andb].
  - rewrite ER in E. inversion E; subst R. destruct (TD r R2) as (R5 & E5 & D5); [rewrite nth_set_same; [reflexivity|rewrite set_nth_length; exact LR]|].
    rewrite E5 in ER4. inversion ER4; subst R5. exists (with_current R4 None). rewrite nth_set_same by (apply nth_error_Some; congruence). split; [reflexivity|]. cbn. rewrite D5. exact D2.
  - destruct (TD j R) as (R5 & E5 & D5); [rewrite !nth_set_nth_neq by congruence; exact E|]. exists R5. rewrite nth_set_nth_neq by congruence. auto.
Qed.

(** Training every region when nothing is pending leaves the data alone. *)
Lemma train_all_data w w' : idle w -> step P w (OpTrainAll 0 true) = Ok (w', Done) ->
  forall j R, nth_error (w_regions w) j = Some R -> exists R', nth_error (w_regions w') j = Some R' /\ r_dataset R' = r_dataset R.
Proof.
  intros ID H. cbn [step] in H. apply bind_inv in H. destruct H as (w1 & H & E). inversion E; subst w1. clear E. unfold apollo_train, train_all_by, train_regions_by in H.
  destruct (truthy (cf_collective _)); [discriminate H|]. apply (training_data (fun _ _ _ => True)). destruct (truthy (cf_single_model _)).
  - apply bind_inv in H. destruct H as (d & _ & H). eapply train_each_on_training; [|exact H]. auto.
  - rewrite each_idle in H by exact ID. eapply each_region_training; [|exact H]. intros w0 r0 w1 E. eapply train_quietly_training; [exact E|auto].
Qed.

(** The end of a context records the last request of its problem. *)
Lemma measured os K vss context now K' vs' ids : krun P hash (started c files flush) os = Ok (K, vss) -> kstep P hash K (KEnd context now) = Ok (K', vs') ->
  open_problem os context = Some ids ->
  exists i context' cs tuning start D init vs r xs policy vars,
    last_request os ids i /\ nth_error os i = Some (KRequest context' cs tuning start D init) /\ nth_error vss i = Some vs /\
    place ids (problems os) = Some r /\ Forall2 (feature_of hash) (map snd cs) xs /\ all_declared (firstn i os) tuning vars /\ decode vars policy = Ok vs /\
    exists fs, (ended_since os ids i -> fs = []) /\ (~ ended_since os ids i -> fs = xs) /\
    forall j R, nth_error (w_regions (k_world K)) j = Some R -> exists R', nth_error (w_regions (k_world K')) j = Some R' /\
      if Nat.eqb j r && keeps c R then ds_insert (r_dataset R) fs policy (sub64 (clock_seconds now) (clock_seconds start)) = Ok (r_dataset R') else r_dataset R' = r_dataset R.
Proof.
  intros H E OP. destruct (krun_inv P hash c files flush os _ _ _ _ _ (kinv_start P c files flush) H) as (hs & L1 & L2 & PF & I). cbn [app] in I, PF.
  destruct (last_exists _ _ (ki_open _ _ _ _ _ _ _ I _ _ OP)) as (i & LAST).
  destruct (latest P (start_world c files) hash flush os hs vss L1 L2 PF ids i LAST) as (context' & cs & tuning & start & D & init & vs & r & xs & policy & vars & A1 & A2 & A3 & A4 & A5 & A6 & A7 & A9 & A10 & A8).
  exists i, context', cs, tuning, start, D, init, vs, r, xs, policy, vars. do 7 (split; [assumption|]).
  destruct (krun_kind P hash c files flush _ _ _ H) as (h0 & I0 & KO0).
  assert (KO : Forall (fun e => kokkos_op (fst e)) (concat hs)).
  { apply Forall_concat. rewrite Forall_forall. intros l IN. apply In_nth_error in IN. destruct IN as (k & Ek).
    assert (Lk : (k < List.length hs)%nat) by (apply (nth_error_Some hs k); intros X; assert (Y := eq_trans (eq_sym X) Ek); discriminate Y).
    destruct (nth_error os k) as [ok|] eqn:Eok; [|apply nth_error_None in Eok; lia]. destruct (nth_error vss k) as [vk|] eqn:Evk; [|apply nth_error_None in Evk; lia].
    eapply performs_kind. exact (PF _ _ _ _ Eok Ek Evk). }
  clear h0 I0 KO0.
  cbn [kstep] in E. apply bind_inv in E. destruct E as (K1 & E & X). inversion X; subst K1 vs'. clear X. unfold end_kokkos_context in E.
  rewrite (ki_contexts _ _ _ _ _ _ _ I) in E. unfold context_view in E. rewrite OP, A4 in E. cbn [option_map] in E.
  apply bind_inv in E. destruct E as ([w1 x1] & EE & E). assert (x1 = Done) as -> by (eapply end_result; exact EE).
  destruct (inv_run P (start_world c files) eq_refl eq_refl eq_refl _ _ _ (ki_explicit _ _ _ _ _ _ _ I) (ki_run _ _ _ _ _ _ _ I)) as (log & J). rewrite combine_fst_snd in J.
  assert (INS := end_inserts _ _ _ _ _ _ _ _ (ki_run _ _ _ _ _ _ _ I) (ki_explicit _ _ _ _ _ _ _ I) EE A10 J). rewrite A9 in INS.
  assert (CF : forall R, keeps (w_config (k_world K)) R = keeps c R).
  { intros R. assert (C := i_config _ _ _ _ _ J). cbn in C. unfold keeps. rewrite (same_config_field cf_persistent _ _ (fun _ => eq_refl) C). reflexivity. }
  assert (FS : exists fs, (ended_since os ids i -> fs = []) /\ (~ ended_since os ids i -> fs = xs) /\ forall j R, nth_error (w_regions (k_world K)) j = Some R -> exists R', nth_error (w_regions w1) j = Some R' /\
      if Nat.eqb j r && keeps c R then ds_insert (r_dataset R) fs policy (sub64 (clock_seconds now) (clock_seconds start)) = Ok (r_dataset R') else r_dataset R' = r_dataset R).
  { assert (KF : forall R, nth_error (w_regions (k_world K)) r = Some R -> keeps c R = true ->
      (ended_since os ids i -> features_of (concat hs) log (r, Sync) = []) /\ (~ ended_since os ids i -> features_of (concat hs) log (r, Sync) = xs)).
    { intros R ER KR. apply (A8 log _ (i_records _ _ _ _ _ J)). assert (FL := i_flags _ _ _ _ _ J _ _ ER). rewrite CF, KR in FL. destruct FL as (a & n & EF & _ & N0 & _). rewrite (N0 eq_refl) in EF. cbn [repeat] in EF. rewrite app_nil_r in EF.
      unfold all_kept. rewrite Forall_forall. intros e IE. assert (X : In (e_kept e) (map e_kept (of_region r log))) by (apply in_map; exact IE). rewrite EF in X. exact (repeat_spec _ _ _ X). }
    destruct (ended_dec os ids i) as [Y|N].
    - exists []. split; [reflexivity|]. split; [tauto|]. intros j R ER. destruct (INS _ _ ER) as (R1 & E1 & D1). exists R1. split; [exact E1|]. rewrite CF in D1.
      destruct (Nat.eqb_spec j r) as [->|]; cbn [andb] in *; [|exact D1]. destruct (keeps c R) eqn:KR; [|exact D1]. rewrite (proj1 (KF _ ER KR) Y) in D1. exact D1.
    - exists xs. split; [tauto|]. split; [reflexivity|]. intros j R ER. destruct (INS _ _ ER) as (R1 & E1 & D1). exists R1. split; [exact E1|]. rewrite CF in D1.
      destruct (Nat.eqb_spec j r) as [->|]; cbn [andb] in *; [|exact D1]. destruct (keeps c R) eqn:KR; [|exact D1]. rewrite (proj2 (KF _ ER KR) N) in D1. exact D1. }
  destruct FS as (fs & FS1 & FS2 & FS3). exists fs. split; [exact FS1|]. split; [exact FS2|].
  destruct (int_max <? _); [discriminate E|]. destruct (k_flush K =? 0); [discriminate E|]. destruct (Z.rem _ _ =? 0).
  - apply bind_inv in E. destruct E as ([w2 x2] & ET & E). inversion E; subst K'. clear E. assert (x2 = Done) as -> by (eapply train_result; exact ET).
    set (h1 := concat hs ++ [(OpEnd r (Some (r, Sync)) now None, Done)]).
    assert (ID : idle w1).
    { unfold idle. refine (none_pending P c files h1 w1 _ _ _).
      - eapply history_snoc; [exact (ki_run _ _ _ _ _ _ _ I)|exact EE].
      - unfold h1. rewrite map_app, forallb_app, (ki_explicit _ _ _ _ _ _ _ I). reflexivity.
      - unfold h1. apply Forall_app. split; [exact KO|repeat constructor]. }
    assert (TD := train_all_data _ _ ID ET). intros j R ER. destruct (FS3 _ _ ER) as (R1 & E1 & D1). destruct (TD _ _ E1) as (R2 & E2 & D2).
    exists R2. split; [exact E2|]. rewrite D2. exact D1.
  - inversion E; subst K'. clear E. exact FS3.
Qed.
End Platform.
