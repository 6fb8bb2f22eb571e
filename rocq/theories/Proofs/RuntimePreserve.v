(** Facts about single regions that calls preserve. *)
From Coq Require Import ZArith Bool Ascii String Lia List.
From Verif Require Import Model.Base Model.Float Model.DatasetM Model.ParserM Model.DatasetIO Model.ModelStringM Model.PolicyModelsM Model.ConfigM Model.RuntimeM
  Spec.RuntimeSpec Proofs.TreeFacts Proofs.RuntimeFacts.
Import ListNotations.
Open Scope Z_scope.

Section Preserve.
Variable P : platform.
(** The fact about region number i; the contexts calls on it may name; the two settings that do not change; whether a
    forced training is allowed. *)
Variable J : nat -> region -> Prop.
Variable G : nat -> ctxptr -> Prop.
Variables single persistent : Z.
Variable forced : bool.
Variable len : nat.

Definition holds (w : world) : Prop :=
  (forall i R, nth_error (w_regions w) i = Some R -> J i R) /\
  cf_single_model (w_config w) = single /\ cf_persistent (w_config w) = persistent /\ List.length (w_regions w) = len.

(** What calls do to regions preserves the fact. A region may be trained if it was trainable when the call began. *)
Record preserved : Prop := {
  G_sync : forall i, G i (i, Sync);
  G_heap : forall i k, G i (i, Heap k);
  J_current : forall i R p, J i R -> r_current R = Some p -> G i p;
  J_pending : forall i R p, J i R -> In p (r_pending R) -> G i p;
  J_with_trace : forall i R t, J i R -> J i (with_trace R t);
  J_with_current : forall i R p, J i R -> (forall q, p = Some q -> G i q) -> J i (with_current R p);
  J_with_pending : forall i R ps, J i R -> Forall (G i) ps -> J i (with_pending R ps);
  J_with_idx : forall i R x, J i R -> J i (with_idx R x);
  J_with_alive : forall i R b, J i R -> J i (with_alive R b);
  J_with_sync : forall i R c, J i R -> c_policy c = c_policy (r_sync R) -> J i (with_sync R c);
  J_heap_set : forall i R k c0 c, J i R -> nth_error (r_heap R) k = Some (Some c0) -> c_policy c = c_policy c0 ->
    J i (with_heap R (set_nth (r_heap R) k (Some c)));
  J_heap_del : forall i R k, J i R -> J i (with_heap R (set_nth (r_heap R) k None));
  J_heap_new : forall i R t, J i R -> J i (with_heap R (r_heap R ++ [Some (mkContext [] 0 0 t)]));
  J_train : forall i R0 R m, J i R0 -> J i R -> forced = true \/ m_trainable (r_model R0) = true -> m_train P (r_model R) (r_dataset R) = Ok m -> J i (with_model R m);
  J_single : forall i R d m, truthy single = true -> J i R -> m_train P (r_model R) d = Ok m -> J i (with_model R m);
  J_insert : forall w i R p c x d, holds w -> nth_error (w_regions w) i = Some R -> G i p -> get_context w p = Ok c ->
    truthy persistent || m_trainable (r_model R) = true -> ds_insert (r_dataset R) (c_features c) (c_policy c) x = Ok d -> J i (with_dataset R d) }.
Hypothesis C : preserved.
Ltac use := pose proof C as CC; destruct CC as [G_sync G_heap J_current J_pending J_with_trace J_with_current J_with_pending J_with_idx J_with_alive J_with_sync J_heap_set J_heap_del J_heap_new J_train J_single J_insert].

Lemma holds_set w r R : holds w -> J r R -> holds (set_region w r R).
Proof.
  use.
  intros (H & S & T & L) HR. split; [|cbn; rewrite set_nth_length; auto]. cbn. intros i Q. rewrite nth_set_nth. destruct (Nat.eqb_spec i r) as [->|]; auto.
  destruct (nth_error (w_regions w) r); [|discriminate]. intros E; inversion E; subst; auto.
Qed.

Lemma holds_files w f : holds w -> holds (set_files w f).
Proof. use. intros H. exact H. Qed.

Lemma holds_region w r R : holds w -> get_region w r = Ok R -> J r R.
Proof. use. intros (H & _) E. apply get_region_ok in E. apply H, E. Qed.

Lemma holds_set_context w p c c0 : holds w -> get_context w p = Ok c0 -> c_policy c = c_policy c0 -> holds (set_context w p c).
Proof.
  use.
  intros H E EP. unfold set_context, get_context in *. destruct p as [i k]. cbn in *. destruct (nth_error (w_regions w) i) as [R|] eqn:ER; auto.
  assert (HR := proj1 H _ _ ER). destruct k as [|k].
  - destruct (r_alive R); [|discriminate]. inversion E; subst. apply holds_set; auto.
  - destruct (nth_error (r_heap R) k) as [[c1|]|] eqn:EK; try discriminate. inversion E; subst. apply holds_set; eauto.
Qed.

Lemma holds_complete w e : holds w -> holds (complete w e).
Proof.
  use.
  intros H. unfold complete. destruct (get_context w (fst e)) as [c| | | |] eqn:E; auto. destruct (c_timer c) as [|[|] [|]]; auto.
  eapply holds_set_context; eauto.
Qed.

Lemma holds_completes es : forall w, holds w -> holds (fold_left complete es w).
Proof. use. induction es; cbn; auto. intros. apply IHes, holds_complete. auto. Qed.

Lemma holds_delete w p w' : holds w -> delete_context w p = Ok w' -> holds w'.
Proof.
  use.
  intros H. unfold delete_context. destruct (nth_error (w_regions w) (fst p)) as [R|] eqn:ER; [|discriminate]. destruct (snd p) as [|k]; [discriminate|].
  destruct (nth_error (r_heap R) k) as [[c|]|]; try discriminate. intros E; inversion E; subst. apply holds_set; auto. apply J_heap_del. apply (proj1 H _ _ ER).
Qed.

Lemma holds_trace_best w R st w' : holds w -> trace_best w R st = Ok w' -> holds w'.
Proof.
  use.
  intros H. unfold trace_best. destruct (negb _); [intros E; inversion E; subst; auto|]. destruct (ds_find_min _ _ _) as [[? ?] ?].
  intros E. apply bind_inv in E. destruct E as (? & _ & E). inversion E; subst. exact H.
Qed.

Lemma holds_store_model w m path w' : holds w -> store_model w m path = Ok w' -> holds w'.
Proof. use. intros H E. unfold store_model in E. apply bind_inv in E. destruct E as ([t|] & _ & E); inversion E; subst; auto. Qed.

Lemma holds_train_body w r st w' : holds w -> (exists R0, J r R0 /\ (forced = true \/ m_trainable (r_model R0) = true)) ->
  train_body P w r st = Ok w' -> holds w'.
Proof.
  use.
  intros H T E. unfold train_body in E. apply bind_inv in E. destruct E as (R & ER & E). assert (HR := holds_region _ _ _ H ER).
  destruct T as (R0 & J0 & T).
  destruct (_ <=? 0); [inversion E; subst; auto|]. destruct (negb _); [discriminate|].
  apply bind_inv in E. destruct E as (w1 & E1 & E). apply bind_inv in E. destruct E as (m & Em & E).
  assert (H1 : holds (set_region w1 r (with_model R m))) by (apply holds_set; [eapply holds_trace_best; eauto|eauto]).
  destruct (truthy (cf_retrain _)); [discriminate|]. destruct (truthy (cf_store_models _)); [|inversion E; subst; auto].
  apply bind_inv in E. destruct E as (w2 & E2 & E). eapply holds_store_model; [|exact E]. eapply holds_store_model; [|exact E2]. auto.
Qed.

Lemma holds_train_quietly w r st w' : holds w -> train_quietly P w r st = Ok w' -> holds w'.
Proof.
  use.
  intros H E. unfold train_quietly in E. apply bind_inv in E. destruct E as (R & ER & E). destruct (m_trainable (r_model R)) eqn:T; cbn in E; [|inversion E; subst; auto].
  eapply holds_train_body; eauto. exists R. split; [eapply holds_region; eauto|auto].
Qed.

Lemma holds_each_on rs d : truthy single = true -> forall w w', holds w -> train_each_on P w rs d = Ok w' -> holds w'.
Proof.
  use.
  intros S. induction rs as [|r rs IH]; cbn; intros w w' H E; [inversion E; subst; auto|].
  apply bind_inv in E. destruct E as (R & ER & E). apply bind_inv in E. destruct E as (m & Em & E). eapply IH; [|exact E].
  apply holds_set; auto. eapply J_single; eauto. eapply holds_region; eauto.
Qed.

Lemma holds_each f rs : (forall w r w', holds w -> f w r = Ok w' -> holds w') -> forall w w', holds w -> each_region f w rs = Ok w' -> holds w'.
Proof.
  use.
  intros F. induction rs as [|r rs IH]; cbn; intros w w' H E; [inversion E; subst; auto|]. apply bind_inv in E. destruct E as (w1 & E1 & E). eauto.
Qed.

Lemma holds_train_all f w w' : (forall w r w', holds w -> f w r = Ok w' -> holds w') -> holds w -> train_all_by P f w = Ok w' -> holds w'.
Proof.
  use.
  intros F H E. unfold train_all_by, train_regions_by in E. destruct (truthy (cf_collective _)); [discriminate|]. destruct (truthy (cf_single_model (w_config w))) eqn:S.
  - apply bind_inv in E. destruct E as (d & _ & E). eapply holds_each_on; [|exact H|exact E]. destruct H as (_ & <- & _). auto.
  - eapply holds_each; eauto.
Qed.

Lemma holds_auto_train w r w' : holds w -> auto_train P w r = Ok w' -> holds w'.
Proof.
  use.
  intros H E. unfold auto_train in E. apply bind_inv in E. destruct E as (R & ER & E). destruct (negb _); [inversion E; subst; auto|].
  destruct (_ && _). { eapply holds_train_all; [|exact H|exact E]. intros. cbn in *. eapply holds_train_quietly; eauto. }
  destruct (_ && _); [eapply holds_train_quietly; eauto|]. destruct (_ && _); [eapply holds_train_quietly; eauto|]. inversion E; subst; auto.
Qed.

Lemma holds_count w : holds w -> holds (count_execution w).
Proof. use. intros H. exact H. Qed.

Lemma holds_collect_context w r p x w' : holds w -> G r p -> collect_context P w r p x = Ok w' -> holds w'.
Proof.
  use.
  intros H HG E. unfold collect_context in E. apply bind_inv in E. destruct E as (R & ER & E). apply bind_inv in E. destruct E as (c & EC & E).
  assert (HR := holds_region _ _ _ H ER). apply get_region_ok in ER. destruct ER as [ER AL].
  set (R1 := if truthy (cf_trace_csv (w_config w)) then _ else R) in *.
  assert (J1 : J r R1) by (unfold R1; destruct (truthy (cf_trace_csv (w_config w))); auto).
  apply bind_inv in E. destruct E as (R2 & E2 & E).
  assert (J2 : J r R2).
  { destruct (truthy (cf_persistent (w_config w)) || m_trainable (r_model R1)) eqn:K; [|inversion E2; subst; auto].
    apply bind_inv in E2. destruct E2 as (d & Ed & E2). inversion E2; subst. rewrite (proj1 (proj2 (proj2 H))) in K.
    assert (JD : J r (with_dataset R d)). { eapply J_insert; eauto; [|]; unfold R1 in *; destruct (truthy (cf_trace_csv (w_config w))); cbn in *; eauto. }
    assert (J3 : J r (with_dataset R1 d)). { unfold R1. destruct (truthy (cf_trace_csv (w_config w))); auto. assert (K2 := J_with_trace _ _ (r_trace R ++ trace_row w R c x) JD). exact K2. }
    unfold moved_features. destruct (is_sync_of r p) eqn:S; [|exact J3]. apply (J_with_sync _ _ (mkContext [] (c_policy c) (c_idx c) (c_timer c)) J3). cbn.
    unfold is_sync_of in S. destruct p as [q [|k]]; cbn in S; [|discriminate]. apply Nat.eqb_eq in S. subst q. unfold get_context, get_region in EC. cbn in EC. rewrite ER, AL in EC. cbn in EC. inversion EC; subst c. unfold R1. destruct (truthy (cf_trace_csv (w_config w))); reflexivity. }
  apply bind_inv in E. destruct E as (w1 & E1 & E). apply bind_inv in E. destruct E as (w2 & E3 & E). apply bind_inv in E. destruct E as (R3 & ER3 & E).
  assert (H1 : holds w1) by (eapply holds_auto_train; [|exact E1]; apply holds_count, holds_set; auto).
  assert (H2 : holds w2). { destruct (is_sync_of r p); [inversion E3; subst; auto|eapply holds_delete; eauto]. }
  inversion E; subst. apply holds_set; auto. apply J_with_current; [eapply holds_region; eauto|discriminate].
Qed.

Lemma holds_collect_loop r ps : Forall (G r) ps -> forall w w' kept, holds w -> collect_loop P w r ps = Ok (w', kept) -> holds w' /\ Forall (G r) kept.
Proof.
  use.
  induction 1 as [|p ps HG F IH]; cbn; intros w w' kept H E; [inversion E; subst; auto|].
  apply bind_inv in E. destruct E as (c & EC & E). apply bind_inv in E. destruct E as ([x|] & ED & E).
  - apply bind_inv in E. destruct E as (w1 & E1 & E). eapply IH; [|exact E]. eapply holds_collect_context; eauto.
  - apply bind_inv in E. destruct E as ([w1 kept1] & E1 & E). inversion E; subst. destruct (IH _ _ _ H E1). auto.
Qed.

Lemma holds_collect_pending w r w' : holds w -> collect_pending P w r = Ok w' -> holds w'.
Proof.
  use.
  intros H E. unfold collect_pending in E. apply bind_inv in E. destruct E as (R & ER & E). apply bind_inv in E. destruct E as ([w1 kept] & E1 & E).
  apply bind_inv in E. destruct E as (R1 & ER1 & E). inversion E; subst. assert (HR := holds_region _ _ _ H ER).
  destruct (holds_collect_loop r (r_pending R)) with (w := w) (w' := w1) (kept := kept) as [H1 F1]; auto.
  { apply Forall_forall. intros p IN. eapply J_pending; eauto. }
  apply holds_set; auto. apply J_with_pending; auto. eapply holds_region; eauto.
Qed.

Lemma holds_region_train w r st collect force w' : holds w -> (force = true -> forced = true) ->
  region_train P w r st collect force = Ok w' -> holds w'.
Proof.
  use.
  intros H FF E. unfold region_train in E. apply bind_inv in E. destruct E as (R & ER & E).
  destruct (negb force && negb (m_trainable (r_model R))) eqn:T; [inversion E; subst; auto|].
  apply bind_inv in E. destruct E as (w1 & E1 & E). eapply holds_train_body; [| |exact E].
  2: { exists R. split; [eapply holds_region; eauto|]. destruct force; auto. right. destruct (m_trainable (r_model R)); auto. }
  destruct collect; [eapply holds_collect_pending; eauto|inversion E1; subst; auto].
Qed.

Lemma holds_begin w r async now w' p : holds w -> begin_context w r async now = Ok (w', p) -> holds w' /\ G r p /\ fst p = r.
Proof.
  use.
  intros H E. unfold begin_context in E. apply bind_inv in E. destruct E as (R & ER & E). assert (HR := holds_region _ _ _ H ER).
  apply get_region_ok in ER. destruct ER as [ER AL].
  match type of E with context [if async then ?a else ?b] => assert (K : J r (fst (if async then a else b)) /\ G r (snd (if async then a else b)) /\ fst (snd (if async then a else b)) = r) end.
  { destruct async; cbn; auto. }
  destruct (if async then _ else _) as [R1 p1]. cbn in K. destruct K as (J1 & G1 & F1). destruct (r_idx R1 =? idx_max); [discriminate|].
  apply bind_inv in E. destruct E as (c & EC & E). inversion E; subst. split; auto.
  eapply holds_set_context; [|exact EC|reflexivity]. apply holds_set; auto. apply J_with_idx, J_with_current; auto. intros q Q. inversion Q; subst; auto.
Qed.

Lemma holds_end_context w r p now early w' : holds w -> G r p -> end_context P w r p now early = Ok w' -> holds w'.
Proof.
  use.
  intros H HG E. unfold end_context in E. apply bind_inv in E. destruct E as (c & EC & E).
  set (w1 := set_context w p _) in *. assert (H1 : holds w1) by (eapply holds_set_context; [exact H|exact EC|reflexivity]).
  destruct (is_sync_of r p).
  - apply bind_inv in E. destruct E as ([x|] & _ & E); [|discriminate]. eapply holds_collect_context; eauto.
  - apply bind_inv in E. destruct E as (R & ER & E). eapply holds_collect_pending; [|exact E].
    assert (H2 : holds (set_region w1 r (with_pending R (r_pending R ++ [p])))).
    { assert (HR := holds_region _ _ _ H1 ER). apply holds_set; auto. apply J_with_pending; auto. apply Forall_app. split; auto.
      apply Forall_forall. intros q IN. eapply J_pending; eauto. }
    destruct early; [apply holds_complete|]; auto.
Qed.

Lemma holds_drain r : forall waits w w', holds w -> drain P w r waits = Ok w' -> holds w'.
Proof.
  use.
  induction waits as [|b rest IH]; intros w w' H E; cbn [drain] in E; apply bind_inv in E; destruct E as (R & ER & E).
  - destruct (r_pending R); [|discriminate]. inversion E; subst. auto.
  - destruct (r_pending R); [inversion E; subst; apply (holds_completes (List.concat (b :: rest))); auto|].
    apply bind_inv in E. destruct E as (w1 & E1 & E). eapply IH; [|exact E]. eapply holds_collect_pending; [|exact E1]. apply holds_completes. auto.
Qed.

Lemma holds_destroy w r waits w' : holds w -> destroy_region P w r waits = Ok w' -> holds w'.
Proof.
  use.
  intros H E. unfold destroy_region in E. apply bind_inv in E. destruct E as (w1 & E1 & E). apply bind_inv in E. destruct E as (R & ER & E).
  assert (H1 : holds w1) by (eapply holds_drain; [|exact E1]; exact H). inversion E; subst. apply holds_set; [destruct (truthy (cf_persistent (w_config w1))); exact H1|].
  apply J_with_alive. eapply holds_region; eauto.
Qed.

Lemma holds_destroy_all waits rs : forall w w', holds w -> destroy_all P w rs waits = Ok w' -> holds w'.
Proof.
  use.
  induction rs as [|r rs IH]; cbn; intros w w' H E; [inversion E; subst; auto|]. apply bind_inv in E. destruct E as (w1 & E1 & E).
  eapply IH; [|exact E]. eapply holds_destroy; eauto.
Qed.

(** The calls treated here: all but the creation of regions and the questions for a policy. *)
Definition ordinary (o : op) : Prop :=
  match o with
  | OpRegion _ _ _ _ _ _ _ | OpGetPolicy _ _ _ => False
  | OpSetFeature r (Some p) _ | OpEnd r (Some p) _ _ | OpEndMetric r (Some p) _ => G r p
  | OpTrain _ _ _ force => force = true -> forced = true
  | _ => True
  end.

Lemma holds_resolve w r p q : holds w -> resolve w r p = Ok q -> (forall s, p = Some s -> G r s) -> G r q.
Proof.
  use.
  intros H E K. destruct p as [s|]; cbn in E; [inversion E; subst; auto|]. apply bind_inv in E. destruct E as (R & ER & E).
  destruct (r_current R) eqn:RC; [|discriminate]. inversion E; subst. eapply J_current; eauto. eapply holds_region; eauto.
Qed.
Lemma holds_step w o w' x : holds w -> ordinary o -> step P w o = Ok (w', x) -> holds w'.
Proof.
  use.
  intros H O E. destruct o as [nf nm np mt info yaml init|r async now|r fs now|r p y|r p D|r p now early|r p y|r st collect force|st collect|r|r waits|waits|p ms]; cbn in O, E.
  - destruct O.
  - apply bind_inv in E. destruct E as ([w1 p] & E1 & E). inversion E; subst. apply holds_begin in E1; auto. apply E1.
  - apply bind_inv in E. destruct E as ([w1 p] & E1 & E). inversion E; subst. unfold begin_features in E1. apply bind_inv in E1. destruct E1 as ([w2 q] & E2 & E1).
    apply bind_inv in E1. destruct E1 as (c & EC & E1). inversion E1; subst. apply holds_begin in E2; auto. destruct E2 as [H2 _].
    eapply holds_set_context; [exact H2|exact EC|reflexivity].
  - apply bind_inv in E. destruct E as (R & _ & E). apply bind_inv in E. destruct E as (q & EQ & E). apply bind_inv in E. destruct E as (w1 & E1 & E). inversion E; subst.
    unfold set_feature in E1. apply bind_inv in E1. destruct E1 as (c & EC & E1). inversion E1; subst. eapply holds_set_context; [exact H|exact EC|reflexivity].
  - destruct O.
  - apply bind_inv in E. destruct E as (R & _ & E). apply bind_inv in E. destruct E as (q & EQ & E). apply bind_inv in E. destruct E as (w1 & E1 & E). inversion E; subst.
    eapply holds_end_context; [exact H| |exact E1]. eapply holds_resolve; [exact H|exact EQ|]. intros s ->. exact O.
  - apply bind_inv in E. destruct E as (q & EQ & E). apply bind_inv in E. destruct E as (w1 & E1 & E). inversion E; subst.
    unfold end_metric in E1. apply bind_inv in E1. destruct E1 as (w2 & E2 & E1). eapply holds_collect_pending; [|exact E1].
    eapply holds_collect_context; [exact H| |exact E2]. eapply holds_resolve; [exact H|exact EQ|]. intros s ->. exact O.
  - apply bind_inv in E. destruct E as (w1 & E1 & E). inversion E; subst. eapply holds_region_train; eauto.
  - apply bind_inv in E. destruct E as (w1 & E1 & E). inversion E; subst. eapply holds_train_all; [|exact H|exact E1]. intros v r v' V EV. cbn in EV.
    eapply holds_region_train; [exact V| |exact EV]. discriminate.
  - apply bind_inv in E. destruct E as (w1 & E1 & E). inversion E; subst. eapply holds_collect_pending; eauto.
  - apply bind_inv in E. destruct E as (w1 & E1 & E). inversion E; subst. eapply holds_destroy; eauto.
  - apply bind_inv in E. destruct E as (w1 & E1 & E). inversion E; subst. unfold shutdown in E1. apply bind_inv in E1. destruct E1 as (w2 & E2 & E1).
    eapply holds_destroy_all; [|exact E1]. destruct (truthy (cf_exec_info (w_config w))); [|inversion E2; subst; auto]. apply bind_inv in E2. destruct E2 as (s & _ & E2). inversion E2; subst. exact H.
  - inversion E; subst. apply holds_complete; auto.
Qed.

End Preserve.
