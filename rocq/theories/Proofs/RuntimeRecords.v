(** Lemmas on the runtime: what a whole run records. *)
From Coq Require Import ZArith Bool Ascii String Lia List Permutation.
From Verif Require Import Model.Base Model.Float Model.Decimal Model.DatasetM Model.ParserM Model.DatasetIO
  Model.NetM Model.PolicyNetM Model.ModelStringM Model.PolicyModelsM Model.ConfigM Model.RuntimeM
  Spec.DatasetSpec Spec.DatasetClient Spec.RuntimeSpec
  Proofs.TreeFacts Proofs.RuntimeFacts Proofs.RuntimeCollect Proofs.RuntimeMoves Proofs.RuntimePending Proofs.RuntimeOps
  Proofs.RuntimeSettled Proofs.RuntimeNew Proofs.RuntimeAccount.
Import ListNotations.
Open Scope Z_scope.

Section Platform.
Variable P : platform.

Lemma recorded_once c files os w xs : run P (start_world c files) os = Ok (w, xs) -> forallb explicit os = true ->
  exists log, records P (start_world c files) (combine os xs) log w /\
    w_executions w = Z.of_nat (List.length log) mod 2 ^ 64 /\
    NoDup (filter on_heap (map e_context log)) /\
    (forall r, Permutation (ended_on (combine os xs) r) (map e_context (taken_for r log) ++ pending_of w r)) /\
    (forall r p, In p (pending_of w r) -> on_heap p = true /\
       forall h1 o x h2, combine os xs = h1 ++ (o, x) :: h2 -> looks_at r o = true -> In p (ended_on (h1 ++ [(o, x)]) r) ->
         device_of (h1 ++ [(o, x)]) p = (true, None)) /\
    (forall r waits x, In (OpDestroy r waits, x) (combine os xs) -> pending_of w r = []).
Proof.
  intros H EX. destruct (inv_run P (start_world c files) eq_refl eq_refl eq_refl _ _ _ EX H) as (log & I). exists log.
  split; [apply (i_records _ _ _ _ _ I)|]. split; [apply (i_exec _ _ _ _ _ I)|]. split; [apply (i_nodup _ _ _ _ _ I)|].
  split; [apply (i_count _ _ _ _ _ I)|]. split.
  - intros r p IP. split; [|apply (i_looked _ _ _ _ _ I _ _ IP)].
    assert (N := i_heap _ _ _ _ _ I _ _ IP). unfold on_heap. destruct (snd p); [congruence|auto].
  - intros r waits x ID. apply (i_dead _ _ _ _ _ I _ _ _ ID).
Qed.

(** ** Context-free calls *)

Lemma named_step w o w' x : step P w o = Ok (w', x) -> ends_process o = false ->
  exists o', names o o' /\ explicit o' = true /\ step P w o' = Ok (w', x).
Proof.
  intros H E. assert (K := H). destruct o as [nf nm np mt info yaml init|r async now|r fs now|r p y|r p D|r p now early|r p y|r st collect force|st collect|r|r ws|ws|p ms];
    try discriminate; try (eexists; split; [reflexivity|]; split; [reflexivity|]; exact H);
    destruct p as [p|]; try (eexists; split; [reflexivity|]; split; [reflexivity|]; exact H); cbn in K.
  - apply bind_inv in K. destruct K as (R & ER & K). apply bind_inv in K. destruct K as (p & EP & K).
    exists (OpSetFeature r (Some p) y). split; [cbn; eauto|]. split; auto. cbn. rewrite ER. exact K.
  - apply bind_inv in K. destruct K as (p & EP & K).
    exists (OpGetPolicy r (Some p) D). split; [cbn; eauto|]. split; auto.
  - apply bind_inv in K. destruct K as (R & ER & K). apply bind_inv in K. destruct K as (p & EP & K).
    exists (OpEnd r (Some p) now early). split; [cbn; eauto|]. split; auto. cbn. rewrite ER. exact K.
  - apply bind_inv in K. destruct K as (p & EP & K).
    exists (OpEndMetric r (Some p) y). split; [cbn; eauto|]. split; auto.
Qed.

Lemma named_run : forall os w w' xs, run P w os = Ok (w', xs) -> forallb (fun o => negb (ends_process o)) os = true ->
  exists os', Forall2 names os os' /\ forallb explicit os' = true /\ run P w os' = Ok (w', xs).
Proof.
  induction os as [|o os IH]; cbn; intros w w' xs H E.
  - exists []. auto.
  - apply bind_inv in H. destruct H as ([w1 x] & S & H). apply bind_inv in H. destruct H as ([w2 ys] & RU & H). inversion H; subst.
    apply andb_prop in E. destruct E as [E1 E2]. apply negb_true_iff in E1.
    destruct (named_step _ _ _ _ S E1) as (o' & N & EX & S'). destruct (IH _ _ _ RU E2) as (os' & NS & EXS & RS).
    exists (o' :: os'). split; auto. split; [cbn; rewrite EX; auto|]. cbn. rewrite S'. cbn. rewrite RS. reflexivity.
Qed.

(** ** The end of the process *)

Lemma destroy_all_run : forall rs w waits w', destroy_all P w rs waits = Ok w' ->
  run P w (map (fun r => OpDestroy r (waits r)) rs) = Ok (w', repeat Done (List.length rs)).
Proof.
  induction rs as [|r rs IH]; cbn; intros w waits w' H; [inversion H; auto|].
  apply bind_inv in H. destruct H as (w1 & E & H). rewrite E. cbn. rewrite (IH _ _ _ H). reflexivity.
Qed.

Lemma shutdown_run w waits w' : step P w (OpShutdown waits) = Ok (w', Done) ->
  exists files, run P (set_files w files) (map (fun r => OpDestroy r (waits r)) (map snd (w_registry w))) =
    Ok (w', repeat Done (List.length (w_registry w))).
Proof.
  cbn. unfold shutdown. intros H. apply bind_inv in H. destruct H as (w2 & H & E). inversion E; subst w2. clear E.
  apply bind_inv in H. destruct H as (w1 & H1 & H2). rewrite <- (map_length snd (w_registry w)).
  destruct (truthy _).
  - apply bind_inv in H1. destruct H1 as (s & _ & H1). inversion H1; subst w1. eexists. apply destroy_all_run. exact H2.
  - inversion H1; subst w1. exists (w_files w). replace (set_files w (w_files w)) with w by (destruct w; reflexivity). apply destroy_all_run. exact H2.
Qed.
End Platform.
