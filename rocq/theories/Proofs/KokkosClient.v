(** The values a Kokkos client is given. *)
From Coq Require Import ZArith Bool Ascii String Lia List.
From Verif Require Import Model.Base Model.Float Model.ModelStringM Model.PolicyModelsM Model.ConfigM Model.RuntimeM Model.KokkosM Spec.RuntimeSpec Spec.KokkosSpec
  Proofs.TreeFacts Proofs.ModelStringFacts Proofs.RuntimeNew Proofs.RuntimeAccount Proofs.RuntimeClient Proofs.RuntimeSettled Proofs.RuntimeRange Proofs.KokkosCandidates Proofs.KokkosRuns.
Import ListNotations.
Open Scope Z_scope.

(** ** Declarations *)

Lemma firstn_next {A} (l : list A) i x : nth_error l i = Some x -> firstn (S i) l = firstn i l ++ [x].
Proof.
  revert i. induction l as [|y l IH]; intros [|i] H; cbn in *; try discriminate; [inversion H; reflexivity|]. f_equal. apply IH. exact H.
Qed.

Lemma inputs_app a b : inputs (a ++ b) = inputs a ++ inputs b.
Proof. unfold inputs. rewrite flat_map_app. reflexivity. Qed.
Lemma outputs_app a b : outputs (a ++ b) = outputs a ++ outputs b.
Proof. unfold outputs. rewrite flat_map_app. reflexivity. Qed.

Lemma declared_stable os' : forall os id, ~ In id (inputs os') -> ~ In id (outputs os') -> declared (os ++ os') id = declared os id.
Proof.
  induction os' as [|o os' IH]; intros os id A B; [rewrite app_nil_r; reflexivity|].
  change (o :: os') with ([o] ++ os') in *. rewrite inputs_app in A. rewrite outputs_app in B. rewrite app_assoc, IH.
  - rewrite declared_snoc. destruct o; cbn in *; try reflexivity; destruct (Z.eqb_spec id0 id); try reflexivity; subst; exfalso; tauto.
  - intros X. apply A. apply in_or_app. auto.
  - intros X. apply B. apply in_or_app. auto.
Qed.

Lemma declared_in os id v : declared os id = Some v -> In id (inputs os) \/ In id (outputs os).
Proof.
  revert v. induction os as [|o os IH] using rev_ind; intros v H; [discriminate|]. rewrite declared_snoc in H. rewrite inputs_app, outputs_app, !in_app_iff.
  destruct o as [nm i cd|nm i| |]; cbn [declare_step] in H; [destruct (Z.eqb_spec i id)|destruct (Z.eqb_spec i id)| |]; try (subst; cbn; tauto);
  destruct (IH _ H); tauto.
Qed.

Lemma nodup_parts {A} (a b : list A) : NoDup (a ++ b) -> forall x, In x a -> In x b -> False.
Proof.
  induction a as [|y a IH]; cbn; intros N x IA IB; [contradiction|]. inversion N; subst. destruct IA as [->|IA]; [|eauto].
  apply H1. apply in_or_app. auto.
Qed.

Lemma nodup_later {A} (a b : list A) : NoDup (a ++ b) -> NoDup b.
Proof. induction a; cbn; intros N; [exact N|]. inversion N; auto. Qed.

(** A variable once declared keeps its declaration. *)
Lemma declared_kept os os' id v : NoDup (inputs (os ++ os') ++ outputs (os ++ os')) -> declared os id = Some v -> declared (os ++ os') id = Some v.
Proof.
  intros N H. rewrite declared_stable; auto.
  - intros X. destruct (declared_in _ _ _ H) as [Y|Y].
    + rewrite inputs_app, <- app_assoc in N. eapply nodup_parts; [exact N|exact Y|]. apply in_or_app. auto.
    + eapply nodup_parts; [exact N|rewrite inputs_app; apply in_or_app; right; exact X|rewrite outputs_app; apply in_or_app; left; exact Y].
  - intros X. destruct (declared_in _ _ _ H) as [Y|Y].
    + eapply nodup_parts; [exact N|rewrite inputs_app; apply in_or_app; left; exact Y|rewrite outputs_app; apply in_or_app; right; exact X].
    + rewrite outputs_app in N. apply nodup_later in N. eapply nodup_parts; eauto.
Qed.

Lemma all_declared_kept os os' ids vars : NoDup (inputs (os ++ os') ++ outputs (os ++ os')) -> all_declared os ids vars -> all_declared (os ++ os') ids vars.
Proof. intros N H. induction H; constructor; auto. apply declared_kept; auto. Qed.

Lemma all_declared_unique os ids vars vars' : all_declared os ids vars -> all_declared os ids vars' -> vars = vars'.
Proof. intros H. revert vars'. induction H; intros vars' H'; inversion H'; subst; [reflexivity|]. f_equal; [congruence|auto]. Qed.

Lemma all_declared_later os i j ids vars vars' : NoDup (inputs os ++ outputs os) -> (j <= i)%nat ->
  all_declared (firstn j os) ids vars -> all_declared (firstn i os) ids vars' -> vars = vars'.
Proof.
  intros N L A B. assert (E : forall k, firstn k os ++ skipn k os = os) by (intros; apply firstn_skipn).
  apply (all_declared_unique os ids).
  - rewrite <- (E j). apply all_declared_kept; [rewrite E; exact N|exact A].
  - rewrite <- (E i). apply all_declared_kept; [rewrite E; exact N|exact B].
Qed.

(** The variables of a request are told apart by what they were declared as. *)
Lemma same_split (ins outs : list Z) (a b a' b' : list Z) : (forall x, In x ins -> In x outs -> False) ->
  (forall x, In x a -> In x ins) -> (forall x, In x b -> In x outs) -> (forall x, In x a' -> In x ins) -> (forall x, In x b' -> In x outs) ->
  a ++ b = a' ++ b' -> a = a' /\ b = b'.
Proof.
  intros DJ. revert a'. induction a as [|x a IH]; intros [|y a'] A B A' B' E; cbn in E.
  - auto.
  - exfalso. subst b. apply (DJ y); [apply A'|apply B]; cbn; auto.
  - exfalso. subst b'. apply (DJ x); [apply A|apply B']; cbn; auto.
  - inversion E; subst. destruct (IH a') as [-> ->]; auto; intros; cbn in *; auto.
Qed.

(** ** Where a problem was met first *)

Lemma first_request os ids : existsb (same_ids ids) (problems os) = true ->
  exists j o, nth_error os j = Some o /\ problem o = Some ids /\ existsb (same_ids ids) (problems (firstn j os)) = false.
Proof.
  induction os as [|o os IH] using rev_ind; intros H; [discriminate|]. destruct (existsb (same_ids ids) (problems os)) eqn:E.
  - destruct (IH eq_refl) as (j & o' & A & B & C). exists j, o'. assert (L : (j < List.length os)%nat) by (apply nth_error_Some; congruence).
    split; [rewrite nth_error_app1; auto|]. split; [auto|]. rewrite firstn_app. replace (j - List.length os)%nat with O by lia. cbn. rewrite app_nil_r. exact C.
  - exists (List.length os), o. split; [rewrite nth_error_app2, Nat.sub_diag; auto|]. rewrite firstn_app, Nat.sub_diag, firstn_all. cbn. rewrite app_nil_r.
    split; [|exact E]. rewrite problems_snoc in H. unfold problem_step in H. destruct (problem o) as [ids'|]; [|congruence].
    destruct (existsb (same_ids ids') (problems os)); [congruence|]. rewrite existsb_app, E in H. cbn in H. rewrite orb_false_r in H.
    apply same_ids_true in H. congruence.
Qed.

Lemma place_later os' : forall os ids r, place ids (problems os) = Some r -> place ids (problems (os ++ os')) = Some r.
Proof.
  induction os' as [|o os' IH]; intros os ids r H; [rewrite app_nil_r; exact H|]. change (o :: os') with ([o] ++ os'). rewrite app_assoc. apply IH.
  rewrite kept_place; [exact H|]. destruct (existsb (same_ids ids) (problems os)) eqn:E; [reflexivity|]. rewrite (place_none _ _ E) in H. discriminate.
Qed.

Lemma place_firstn os i j ids r : (j <= i)%nat -> place ids (problems (firstn j os)) = Some r -> place ids (problems (firstn i os)) = Some r.
Proof.
  intros L H. replace (firstn i os) with (firstn j os ++ skipn j (firstn i os)); [apply place_later; exact H|].
  replace (firstn j os) with (firstn j (firstn i os)); [apply firstn_skipn|]. rewrite firstn_firstn. f_equal. lia.
Qed.

(** ** Requests *)

Definition loads_nothing (o : op) : Prop := match o with OpRegion _ _ _ _ info yaml _ => info = [] /\ yaml = [] | _ => True end.

Lemma performs_fair hash flush before o l vs : performs hash flush before o l vs -> fair_request o ->
  Forall (fun e => fair (fst e) /\ loads_nothing (fst e)) l.
Proof.
  intros H F. destruct o as [nm id cd|nm id|context cs [|t ts] now D init|context now].
  - destruct H as [-> _]. constructor.
  - destruct H as [-> _]. constructor.
  - destruct H as [-> _]. constructor.
  - rewrite performs_request in H. cbv zeta in H. destruct H as (r & create & xs & policy & vars & _ & _ & C & _ & -> & _). cbn in F.
    apply Forall_app. split.
    + destruct (existsb _ _); [subst; constructor|]. destruct C as (name & _ & ->). repeat constructor.
    + constructor; [cbn; auto|]. apply Forall_app. split; [|constructor; [split; [exact F|exact Logic.I]|constructor]].
      rewrite Forall_map, Forall_forall. cbn. auto.
  - cbn in H. destruct H as [_ H]. destruct (open_problem before context) as [ids|]; [|subst; constructor].
    destruct H as (r & _ & ->). constructor; [cbn; auto|]. destruct (_ =? 0); repeat constructor.
Qed.

Lemma nth_map_fst {A B} (l : list (A * B)) i x : nth_error l i = Some x -> nth_error (map fst l) i = Some (fst x).
Proof. intros H. rewrite nth_error_map, H. reflexivity. Qed.

Lemma in_concat_nth {A} (ls : list (list A)) i l x : nth_error ls i = Some l -> In x l -> In x (concat ls).
Proof. intros H I. apply in_concat. exists l. split; [|exact I]. eapply nth_error_In; eauto. Qed.

Lemma combine_fst_snd {A B} (l : list (A * B)) : combine (map fst l) (map snd l) = l.
Proof. induction l as [|[a b] l IH]; cbn; congruence. Qed.

Section Platform.
Variable P : platform.
Variable hash : bytes -> Z.
Variable c : config.
Variable files : list (bytes * bytes).
Variable flush : Z.

(** The runs of the runtime behind a run of the connector never read a model or data set. *)
Lemma never_loads h w : run P (start_world c files) (map fst h) = Ok (w, map snd h) -> forallb explicit (map fst h) = true -> starts_fresh c ->
  Forall (fun e => loads_nothing (fst e)) h ->
  forall os1 o os2 w1 xs1, map fst h = os1 ++ o :: os2 -> run P (start_world c files) os1 = Ok (w1, xs1) -> no_load w1 o.
Proof.
  intros H EX (_ & S & PM) L os1 o os2 w1 xs1 E R. assert (LO : loads_nothing o).
  { assert (IN : In o (map fst h)) by (rewrite E; apply in_or_app; right; left; reflexivity). apply in_map_iff in IN. destruct IN as (e & <- & IN).
    rewrite Forall_forall in L. apply L. exact IN. }
  destruct o; try exact Logic.I. destruct LO as [-> ->]. cbn [no_load]. rewrite E in EX. rewrite forallb_app in EX. apply andb_prop in EX. destruct EX as [EX _].
  destruct (inv_run P (start_world c files) eq_refl eq_refl eq_refl _ _ _ EX R) as (log & J). assert (C := i_config _ _ _ _ _ J). cbn in C.
  assert (A : cf_persistent (w_config w1) = cf_persistent c) by exact (same_config_field cf_persistent _ _ (fun _ => eq_refl) C).
  assert (B : cf_policy_model (w_config w1) = cf_policy_model c) by exact (same_config_field cf_policy_model _ _ (fun _ => eq_refl) C).
  split; [reflexivity|]. split; [left; congruence|]. rewrite B. exact PM.
Qed.

Lemma requests os K vss : krun P hash (started c files flush) os = Ok (K, vss) -> orderly os -> Forall fair_request os -> starts_fresh c ->
  exists hs, List.length hs = List.length os /\
    (forall i o l vs, nth_error os i = Some o -> nth_error hs i = Some l -> nth_error vss i = Some vs -> performs hash flush (firstn i os) o l vs) /\
    run P (start_world c files) (map fst (concat hs)) = Ok (k_world K, map snd (concat hs)) /\
    forall i context cs tuning now D init vs l vars,
      nth_error os i = Some (KRequest context cs tuning now D init) -> tuning <> [] -> nth_error vss i = Some vs -> nth_error hs i = Some l ->
      all_declared (firstn i os) tuning vars -> Forall complete_variable vars -> product (map v_size vars) <= int_max ->
      exists r ks, in_sizes ks (map v_size vars) /\ chosen vars ks vs /\
        In (OpGetPolicy r (Some (r, Sync)) D, GotPolicy (number ks (map v_size vars))) l.
Proof.
  intros H [ND OR] FR SF. destruct (krun_inv P hash c files flush os _ _ _ _ _ (kinv_start P c files flush) H) as (hs & L1 & L2 & PF & I). cbn [app] in I, PF.
  exists hs. split; [exact L1|]. split; [exact PF|]. split; [exact (ki_run _ _ _ _ _ _ _ I)|].
  intros i context cs tuning now D init vs l vars Ei NT Ev El AD CV PB.
  destruct tuning as [|t ts]; [congruence|]. set (tuning := t :: ts) in *. assert (PFi := PF _ _ _ _ Ei El Ev).
  set (req := KRequest context cs tuning now D init) in *. unfold req, tuning in PFi. rewrite performs_request in PFi. cbv zeta in PFi. fold tuning in PFi. fold req in PFi.
  destruct PFi as (r & create & xs & policy & vars' & PL & AD' & CR & FE & EL & DE).
  assert (vars' = vars) as -> by (eapply all_declared_unique; eauto).
  rewrite <- (firstn_next _ _ _ Ei) in PL.
  assert (EXI : existsb (same_ids (map fst cs ++ tuning)) (problems (firstn (S i) os)) = true).
  { destruct (existsb (same_ids (map fst cs ++ tuning)) (problems (firstn (S i) os))) eqn:X; [reflexivity|]. rewrite (place_none _ _ X) in PL. discriminate. }
  destruct (first_request _ _ EXI) as (j & oj & Ej & Pj & Fj).
  assert (Lj : (j <= i)%nat).
  { assert (j < List.length (firstn (S i) os))%nat by (apply nth_error_Some; congruence). rewrite firstn_length in H0. lia. }
  assert (Ej' : nth_error os j = Some oj).
  { clear - Ej Lj. rewrite <- (firstn_skipn (S i) os). rewrite nth_error_app1; [exact Ej|]. apply nth_error_Some. congruence. }
  rewrite firstn_firstn in Fj. replace (Nat.min j (S i)) with j in Fj by lia.
  assert (LOS := nth_error_Some os j). destruct (nth_error hs j) as [lj|] eqn:Elj; [|apply nth_error_None in Elj; destruct LOS as [LOS _]; rewrite Ej' in LOS; specialize (LOS ltac:(discriminate)); lia].
  destruct (nth_error vss j) as [vsj|] eqn:Evj; [|apply nth_error_None in Evj; destruct LOS as [LOS _]; rewrite Ej' in LOS; specialize (LOS ltac:(discriminate)); lia].
  assert (PFj := PF _ _ _ _ Ej' Elj Evj).
  destruct oj as [| |context' cs' [|t' ts'] now' D' init'|]; try discriminate Pj. set (tuning' := t' :: ts') in *. cbn [problem] in Pj. unfold tuning' in Pj. fold tuning' in Pj.
  set (req' := KRequest context' cs' tuning' now' D' init') in *. unfold req', tuning' in PFj. rewrite performs_request in PFj. cbv zeta in PFj. fold tuning' in PFj. fold req' in PFj.
  destruct PFj as (r' & create' & xs' & policy' & vars' & PL' & ADj & CR' & _ & EL' & _).
  rewrite <- (firstn_next _ _ _ Ej') in PL'. injection Pj as Pj.
  destruct (OR context cs tuning now D init) as [O1 O2]; [eapply nth_error_In; exact Ei|].
  destruct (OR context' cs' tuning' now' D' init') as [O3 O4]; [eapply nth_error_In; exact Ej'|].
  destruct (same_split (inputs os) (outputs os) (map fst cs') tuning' (map fst cs) tuning (nodup_parts _ _ ND) O3 O4 O1 O2 Pj) as [EC ET].
  rewrite Pj in *. rewrite Fj in CR'. destruct CR' as (name & _ & CR').
  assert (vars' = vars) as ->.
  { eapply all_declared_later; [exact ND|exact Lj| |exact AD]. rewrite <- ET. exact ADj. }
  assert (r' = r) as ->.
  { assert (X := place_firstn os (S i) (S j) _ _ ltac:(lia) PL'). congruence. }
  assert (IN1 : In (OpRegion (Z.of_nat (List.length cs')) name (to_int (product (map v_size vars))) 0 [] [] init', GotRegion r) (concat hs)).
  { eapply in_concat_nth; [exact Elj|]. rewrite EL', CR'. left. reflexivity. }
  assert (IN2 : In (OpGetPolicy r (Some (r, Sync)) D, GotPolicy policy) l).
  { rewrite EL. apply in_or_app. right. right. apply in_or_app. right. left. reflexivity. }
  assert (ALL : Forall (fun e => fair (fst e) /\ loads_nothing (fst e)) (concat hs)).
  { apply Forall_concat. rewrite Forall_forall. intros x IN. apply In_nth_error in IN. destruct IN as (k & Ek).
    assert (Lk : (k < List.length hs)%nat) by (apply (nth_error_Some hs k); intros X; assert (Y := eq_trans (eq_sym X) Ek); discriminate Y).
    destruct (nth_error os k) as [ok|] eqn:Eok; [|apply nth_error_None in Eok; lia]. destruct (nth_error vss k) as [vk|] eqn:Evk; [|apply nth_error_None in Evk; lia].
    eapply performs_fair; [exact (PF _ _ _ _ Eok Ek Evk)|]. rewrite Forall_forall in FR. apply FR. eapply nth_error_In; eauto. }
  assert (POS : 1 <= product (map v_size vars)).
  { apply product_ge1. rewrite Forall_map. eapply Forall_impl; [|exact CV]. intros v [A _]. exact A. }
  assert (TI : to_int (product (map v_size vars)) = product (map v_size vars)) by (apply to_int_small; lia).
  rewrite TI in IN1. assert (RU := ki_run _ _ _ _ _ _ _ I).
  destruct (policies_in_range P c files _ _ _ RU (proj1 SF)) with (r := r) (np := product (map v_size vars)) (nf := Z.of_nat (List.length cs')) (nm := name) (mt := 0) (info := @nil ascii) (yaml := @nil ascii) (init := init')
    as [RG _].
  - exact (ki_own _ _ _ _ _ _ _ I).
  - rewrite Forall_map. eapply Forall_impl; [|exact ALL]. intros e [A _]. exact A.
  - eapply never_loads; [exact RU|exact (ki_explicit _ _ _ _ _ _ _ I)|exact SF|]. eapply Forall_impl; [|exact ALL]. intros e [_ A]. exact A.
  - rewrite combine_fst_snd. exact IN1.
  - exact POS.
  - rewrite combine_fst_snd in RG. assert (RP := RG _ _ _ (in_concat_nth _ _ _ _ El IN2)).
    assert (SZ : Forall (fun n => 0 < n) (map v_size vars)). { rewrite Forall_map. eapply Forall_impl; [|exact CV]. intros v [A _]. exact A. }
    destruct (number_unique _ SZ _ RP) as (ks & IS & EN & _). exists r, ks. split; [exact IS|].
    destruct (decode_number vars ks CV IS PB) as (vs' & DE' & CH). rewrite EN in DE'. rewrite DE in DE'. inversion DE'; subst vs'. rewrite EN. auto.
Qed.
End Platform.
