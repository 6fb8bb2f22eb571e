(** A rank with collective training and a global period follows its run without them until the period is reached. *)
From Coq Require Import ZArith Bool Lia List.
From Verif Require Import Model.Base Model.Float Model.DatasetM Model.DatasetIO Model.ConfigM Model.PolicyNetM Model.PolicyModelsM Model.ModelStringM Model.RuntimeM Model.MpiM Model.JobM
  Spec.JobSpec Proofs.TreeFacts Proofs.RuntimeFacts Proofs.RuntimeCollect Proofs.RuntimeNew Proofs.RuntimeSettled Proofs.JobFacts Proofs.JobCalls.
Import ListNotations.
Open Scope Z_scope.

(** Measurements not yet taken. *)
Definition loads (l : list region) : Z := fold_right (fun R s => Z.of_nat (List.length (r_pending R)) + s) 0 l.
Lemma loads_nonneg l : 0 <= loads l.
Proof. induction l as [|R l IH]; cbn [loads fold_right]; [lia|]. fold (loads l). lia. Qed.
Lemma loads_app a b : loads (a ++ b) = loads a + loads b.
Proof. induction a as [|R a IH]; [reflexivity|]. cbn [loads fold_right app]. fold (loads (a ++ b)). fold (loads a). lia. Qed.
Lemma loads_set l : forall r R R', nth_error l r = Some R ->
  loads (set_nth l r R') = loads l - Z.of_nat (List.length (r_pending R)) + Z.of_nat (List.length (r_pending R')).
Proof.
  induction l as [|x l IH]; intros r R R' N; [destruct r; discriminate N|]. destruct r as [|r]; cbn [nth_error] in N.
  - injection N as ->. cbn [set_nth loads fold_right]. fold (loads l). lia.
  - cbn [set_nth loads fold_right]. fold (loads l). fold (loads (set_nth l r R')). rewrite (IH r R R' N). lia.
Qed.

Definition queues (w : world) : list (list ctxptr) := map r_pending (w_regions w).
Lemma loads_queues w w' : queues w' = queues w -> loads (w_regions w') = loads (w_regions w).
Proof.
  unfold queues. generalize (w_regions w). generalize (w_regions w'). induction l as [|R l IH]; intros [|R' l'] H; try discriminate H; [reflexivity|].
  cbn [map] in H. injection H as H1 H2. cbn [loads fold_right]. fold (loads l). fold (loads l'). rewrite (IH l' H2), H1. reflexivity.
Qed.
Lemma queues_set w r R R' : nth_error (w_regions w) r = Some R -> r_pending R' = r_pending R -> queues (set_region w r R') = queues w.
Proof.
  unfold queues. cbn [set_region w_regions]. revert r. induction (w_regions w) as [|x l IH]; intros r N H; [destruct r; discriminate N|].
  destruct r as [|r]; cbn [nth_error] in N; [injection N as ->; cbn [set_nth map]; rewrite H; reflexivity|]. cbn [set_nth map]. rewrite (IH _ N H). reflexivity.
Qed.
Lemma queue_of w w' r R R' : queues w' = queues w -> nth_error (w_regions w) r = Some R -> nth_error (w_regions w') r = Some R' -> r_pending R' = r_pending R.
Proof.
  unfold queues. intros H N N'. assert (A := f_equal (fun l => nth_error l r) H). cbv beta in A. rewrite (map_nth_error r_pending _ _ N), (map_nth_error r_pending _ _ N') in A. injection A as A. exact A.
Qed.

(** No region asks for training by itself. *)
Definition low (w : world) : Prop := Forall (fun R => r_min_training R <= 0) (w_regions w).
(** Every model may be trained. *)
Definition ready (w : world) : Prop := Forall (fun R => m_trainable (r_model R) = true) (w_regions w).
Definition due (w : world) : Z := w_executions w + loads (w_regions w).

(** What a call without training leaves, with at most [k] measurements more. *)
Definition near (k : Z) (w w' : world) : Prop :=
  w_config w' = w_config w /\ (ready w' -> ready w) /\ (low w -> low w') /\ w_executions w <= w_executions w' /\ due w' <= due w + k.

Lemma near_refl w : near 0 w w.
Proof. unfold near. repeat split; auto; lia. Qed.
Lemma near_trans a b x y z : near a x y -> near b y z -> near (a + b) x z.
Proof.
  unfold near. intros (A1 & A2 & A3 & A4 & A5) (B1 & B2 & B3 & B4 & B5). split; [congruence|]. split; [auto|]. split; [auto|]. lia.
Qed.
Lemma near_more a b x y : near a x y -> a <= b -> near b x y.
Proof. unfold near. intros (A1 & A2 & A3 & A4 & A5) H. split; [exact A1|]. split; [exact A2|]. split; [exact A3|]. lia. Qed.

(** The same, with no measurement taken. *)
Definition flat (w w' : world) : Prop := near 0 w w' /\ w_executions w' = w_executions w.
Lemma flat_refl w : flat w w.
Proof. split; [apply near_refl|reflexivity]. Qed.
Lemma flat_trans x y z : flat x y -> flat y z -> flat x z.
Proof. intros [A A'] [B B']. split; [eapply near_more; [eapply near_trans; [exact A|exact B]|lia]|congruence]. Qed.

Lemma set_nth_forall (Q : region -> Prop) l : forall r R, Forall Q l -> Q R -> Forall Q (set_nth l r R).
Proof. induction l as [|x l IH]; intros r R F H; [destruct r; constructor|]. inversion F; subst. destruct r; cbn [set_nth]; constructor; auto. Qed.
Lemma set_nth_back (Q : region -> Prop) l : forall r R R', nth_error l r = Some R -> (Q R' -> Q R) -> Forall Q (set_nth l r R') -> Forall Q l.
Proof.
  induction l as [|x l IH]; intros r R R' N H F; [constructor|]. destruct r as [|r]; cbn [nth_error set_nth] in *.
  - injection N as ->. inversion F; subst. constructor; auto.
  - inversion F; subst. constructor; eauto.
Qed.

Lemma near_set k w r R R' : nth_error (w_regions w) r = Some R -> (m_trainable (r_model R') = true -> m_trainable (r_model R) = true) -> r_min_training R' = r_min_training R ->
  Z.of_nat (List.length (r_pending R')) <= Z.of_nat (List.length (r_pending R)) + k -> near k w (set_region w r R').
Proof.
  intros N T M L. unfold near, ready, low, due. cbn [set_region w_config w_regions w_executions]. split; [reflexivity|]. split; [|split; [|split]].
  - apply (set_nth_back _ _ _ _ _ N T).
  - intros F. apply set_nth_forall; [exact F|]. rewrite M. rewrite Forall_forall in F. apply F. eapply nth_error_In. exact N.
  - lia.
  - rewrite (loads_set _ _ _ _ N). lia.
Qed.

Lemma region_nth w r R : get_region w r = Ok R -> nth_error (w_regions w) r = Some R.
Proof. intros H. apply get_region_ok in H. tauto. Qed.

Lemma flat_region w r R R' : get_region w r = Ok R -> (m_trainable (r_model R') = true -> m_trainable (r_model R) = true) -> r_min_training R' = r_min_training R ->
  List.length (r_pending R') = List.length (r_pending R) -> flat w (set_region w r R').
Proof. intros N T M L. split; [|reflexivity]. eapply near_set; [apply region_nth; exact N|exact T|exact M|]. rewrite L. lia. Qed.

Lemma flat_context w p c : flat w (set_context w p c).
Proof.
  unfold set_context. destruct (nth_error (w_regions w) (fst p)) as [R|] eqn:N; [|apply flat_refl].
  destruct (snd p); (split; [|reflexivity]); (eapply near_set; [exact N|auto|reflexivity|cbn [with_sync with_heap r_pending]; lia]).
Qed.
Lemma flat_files w f : flat w (set_files w f).
Proof. split; [|reflexivity]. unfold near, ready, low, due. cbn [set_files w_config w_regions w_executions]. repeat split; auto; lia. Qed.
Lemma flat_complete w e : flat w (complete w e).
Proof. unfold complete. destruct (get_context w (fst e)) as [c| | | |]; try apply flat_refl. destruct (c_timer c) as [? ?|[|] [?|]]; try apply flat_refl. apply flat_context. Qed.
Lemma flat_delete w p w' : delete_context w p = Ok w' -> flat w w'.
Proof. intros H. apply delete_context_inv in H as (o & k & R & c & _ & N & _ & ->). split; [|reflexivity]. eapply near_set; [exact N|auto|reflexivity|cbn [with_heap r_pending]; lia]. Qed.

Section Sim.
Variables (P : platform) (p : Z).
Hypothesis period : 0 < p < 2 ^ 31.

(** Training leaves this much as it is. *)
Lemma flat_training Q w w' : training P Q w w' -> flat w w'.
Proof.
  intros [(G1 & _ & _ & G4) F]. split; [|exact G4]. unfold near, ready, low, due. rewrite G4. split; [exact G1|].
  assert (A : loads (w_regions w') = loads (w_regions w) /\ (Forall (fun R => m_trainable (r_model R) = true) (w_regions w') -> Forall (fun R => m_trainable (r_model R) = true) (w_regions w)) /\
    (Forall (fun R => r_min_training R <= 0) (w_regions w) -> Forall (fun R => r_min_training R <= 0) (w_regions w'))).
  { induction F as [|R R' l l' (m & -> & T) F IH]; [auto|]. destruct IH as (I1 & I2 & I3). split; [|split].
    - cbn [loads fold_right]. fold (loads l). fold (loads l'). rewrite I1. reflexivity.
    - intros H. inversion H as [|? ? H1 H2]; subst. constructor; [|auto]. eapply trained_by_trainable; [exact T|exact H1].
    - intros H. inversion H as [|? ? H1 H2]; subst. constructor; auto. }
  destruct A as (A1 & A2 & A3). split; [exact A2|]. split; [exact A3|]. rewrite A1. lia.
Qed.

Definition calm (w : world) : Prop := no_training (w_config w) /\ low w /\ 0 <= w_executions w.

Lemma calm_near k w w' : near k w w' -> calm w -> calm w'.
Proof. intros (A1 & A2 & A3 & A4 & A5) (B1 & B2 & B3). unfold calm. rewrite A1. split; [exact B1|]. split; [auto|lia]. Qed.

(** The same rank in the job. *)
Definition W (w : world) : world :=
  mkWorld (collectively (w_config w) p) (w_rank w) (w_regions w) (w_registry w) (w_executions w) (w_files w).
Definition lift (x : outcome world) : outcome world := let* w := x in Ok (W w).

Lemma auto_still w r R : get_region w r = Ok R -> calm w -> auto_train P w r = Ok w.
Proof.
  intros G ((_ & C2 & C3 & _) & L & _). unfold auto_train. rewrite G. cbn [bind]. destruct (negb _); [reflexivity|]. rewrite C2, C3. cbn [andb].
  replace (0 <? r_min_training R) with false; [reflexivity|]. symmetry. apply Z.ltb_ge. unfold low in L. rewrite Forall_forall in L. apply L. eapply nth_error_In. apply region_nth. exact G.
Qed.

(** ** Collecting *)

Lemma record_near w r q x w1 : record_context w r q x = Ok w1 -> 0 <= w_executions w < 2 ^ 63 -> near 1 w w1 /\ w_executions w1 = w_executions w + 1 /\ queues w1 = queues w.
Proof.
  unfold record_context. intros H B. apply bind_inv in H as (R & G & H). apply bind_inv in H as (c & _ & H). apply bind_inv in H as (R' & E & H). injection H as <-.
  assert (N := region_nth _ _ _ G). assert (K : r_model R' = r_model R /\ r_min_training R' = r_min_training R /\ r_pending R' = r_pending R).
  { destruct (truthy (cf_trace_csv (w_config w))); destruct (truthy (cf_persistent (w_config w)) || _); try (injection E as <-; auto); apply bind_inv in E as (d & _ & E); injection E as <-; unfold moved_features; destruct (is_sync_of r q); auto. }
  destruct K as (K1 & K2 & K3). assert (S := flat_region w r R R' G). rewrite K1, K2, K3 in S. specialize (S (fun h => h) eq_refl eq_refl). destruct S as [(S1 & S2 & S3 & S4 & S5) _].
  assert (L : loads (set_nth (w_regions w) r R') = loads (w_regions w)) by (rewrite (loads_set _ _ _ _ N), K3; lia).
  assert (X : (w_executions w + 1) mod 2 ^ 64 = w_executions w + 1) by (apply Z.mod_small; lia).
  unfold near, due. cbn [count_execution set_region w_config w_regions w_executions]. rewrite X, L. split; [|split; [reflexivity|exact (queues_set _ _ _ _ N K3)]]. split; [reflexivity|]. split; [exact S2|]. split; [exact S3|]. lia.
Qed.

Lemma release_flat w r q w1 : release_context w r q = Ok w1 -> flat w w1.
Proof.
  unfold release_context. intros H. apply bind_inv in H as (v & E & H). apply bind_inv in H as (R & G & H). injection H as <-.
  eapply flat_trans; [|eapply flat_region; [exact G|auto|reflexivity|reflexivity]]. destruct (is_sync_of r q); [injection E as <-; apply flat_refl|eapply flat_delete; exact E].
Qed.
Lemma release_exact w r q w1 : release_context w r q = Ok w1 -> w_executions w1 = w_executions w /\ queues w1 = queues w.
Proof.
  unfold release_context. intros H. apply bind_inv in H as (v & E & H). apply bind_inv in H as (R & G & H). injection H as <-. rewrite (queues_set _ _ _ _ (region_nth _ _ _ G)) by reflexivity. cbn [set_region w_executions].
  destruct (is_sync_of r q); [injection E as <-; auto|]. apply delete_context_inv in E as (o & k & Ro & c & _ & N & _ & ->). rewrite (queues_set _ _ _ _ N) by reflexivity. auto.
Qed.

Lemma collect_near w r q x w' : collect_context P w r q x = Ok w' -> calm w -> w_executions w < 2 ^ 63 ->
  near 1 w w' /\ w_executions w' = w_executions w + 1 /\ queues w' = queues w.
Proof.
  intros H C B. rewrite collect_split in H. apply bind_inv in H as (w1 & E1 & H). apply bind_inv in H as (w2 & E2 & E3).
  assert (B' : 0 <= w_executions w < 2 ^ 63) by (destruct C as (_ & _ & C); lia). destruct (record_near _ _ _ _ _ E1 B') as (N1 & X1 & L1).
  assert (C1 := calm_near _ _ _ N1 C). assert (E2' := E2). unfold auto_train in E2'. apply bind_inv in E2' as (R & G & _). rewrite (auto_still _ _ _ G C1) in E2. injection E2 as <-.
  destruct (release_exact _ _ _ _ E3) as [X3 L3]. split; [|split; congruence]. exact (near_trans _ _ _ _ _ N1 (proj1 (release_flat _ _ _ _ E3))).
Qed.

Lemma record_lift w r q x : record_context (W w) r q x = lift (record_context w r q x).
Proof.
  unfold record_context. change (get_region (W w) r) with (get_region w r). destruct (get_region w r) as [R| | | |]; try reflexivity. cbn [bind].
  change (get_context (W w) q) with (get_context w q). destruct (get_context w q) as [c| | | |]; try reflexivity. cbn [bind].
  change (w_config (W w)) with (collectively (w_config w) p). cbn [collectively cf_trace_csv cf_persistent]. change (trace_row (W w) R c x) with (trace_row w R c x).
  match goal with |- bind ?y _ = _ => destruct y as [R'| | | |] end; reflexivity.
Qed.
Lemma release_lift w r q : release_context (W w) r q = lift (release_context w r q).
Proof.
  unfold release_context. destruct (is_sync_of r q).
  - cbn [bind]. change (get_region (W w) r) with (get_region w r). destruct (get_region w r); reflexivity.
  - assert (D : delete_context (W w) q = lift (delete_context w q)).
    { unfold delete_context. change (w_regions (W w)) with (w_regions w). destruct (nth_error (w_regions w) (fst q)) as [R|]; [|reflexivity].
      destruct (snd q) as [|k]; [reflexivity|]. destruct (nth_error (r_heap R) k) as [[c|]|]; reflexivity. }
    rewrite D. destruct (delete_context w q) as [v| | | |]; try reflexivity. cbn [lift bind]. change (get_region (W v) r) with (get_region v r). destruct (get_region v r); reflexivity.
Qed.

(** A call that came to its end in [w'], in the job. *)
Definition follows {A} (at_ : A -> world) (y : A) (z : A) (c : call A) : Prop :=
  (w_executions (at_ y) < p /\ c = Return (Ok z)) \/ (p <= w_executions (at_ y) /\ exists v k, c = Wait v p k).

Lemma follows_then {A B} (f : A -> world) (g : B -> world) a a' b b' c k : follows f a a' c -> w_executions (f a) <= w_executions (g b) ->
  (w_executions (f a) < p -> follows g b b' (k a')) -> follows g b b' (then_ c k).
Proof.
  intros [[H ->]|[H (v & k' & ->)]] M K.
  - cbn [then_]. auto.
  - right. split; [lia|]. cbn [then_]. eauto.
Qed.
Lemma follows_return {A B} (g : B -> world) b b' (x : outcome A) a k : x = Ok a -> follows g b b' (k a) -> follows g b b' (then_ (Return x) k).
Proof. intros -> H. exact H. Qed.

Definition same (w : world) : world := w.

Lemma collect_follows w r q x w' : collect_context P w r q x = Ok w' -> calm w -> ready w -> w_executions w < p ->
  follows same w' (W w') (c_collect_context P (W w) r q x).
Proof.
  intros H C T B. assert (B' : w_executions w < 2 ^ 63) by lia. assert (X := collect_near _ _ _ _ _ H C B'). destruct X as (_ & X & _).
  rewrite collect_split in H. apply bind_inv in H as (w1 & E1 & H). apply bind_inv in H as (w2 & E2 & E3).
  assert (B2 : 0 <= w_executions w < 2 ^ 63) by (destruct C as (_ & _ & C); lia). destruct (record_near _ _ _ _ _ E1 B2) as (N1 & X1 & _).
  assert (C1 := calm_near _ _ _ N1 C). assert (E2' := E2). unfold auto_train in E2'. apply bind_inv in E2' as (R & G & _). rewrite (auto_still _ _ _ G C1) in E2. injection E2 as <-.
  assert (TR : m_trainable (r_model R) = true).
  { unfold record_context in E1. apply bind_inv in E1 as (R0 & G0 & E1). apply bind_inv in E1 as (c & _ & E1). apply bind_inv in E1 as (R1 & E & E1). injection E1 as <-.
    assert (M : r_model R1 = r_model R0).
    { destruct (truthy (cf_trace_csv (w_config w))); destruct (truthy (cf_persistent (w_config w)) || _); try (injection E as <-; reflexivity); apply bind_inv in E as (d & _ & E); injection E as <-; unfold moved_features; destruct (is_sync_of r q); reflexivity. }
    apply region_nth in G. cbn [count_execution set_region w_regions] in G. rewrite (nth_set_nth_eq _ _ R1 R0 (region_nth _ _ _ G0)) in G. injection G as <-. rewrite M.
    unfold ready in T. rewrite Forall_forall in T. apply T. eapply nth_error_In. apply region_nth. exact G0. }
  unfold c_collect_context. rewrite record_lift, E1. cbn [lift bind then_]. unfold c_auto_train. change (get_region (W w1) r) with (get_region w1 r). rewrite G. cbn [then_].
  rewrite TR. cbn [negb]. change (w_config (W w1)) with (collectively (w_config w1) p). cbn [collectively cf_global_period cf_region_period]. change (w_executions (W w1)) with (w_executions w1).
  assert (TP : truthy p = true) by (unfold truthy; destruct (Z.eqb_spec p 0); [lia|reflexivity]). rewrite TP. cbn [andb]. rewrite (Z.mod_small p (2 ^ 64)) by lia.
  destruct (Z.eq_dec (w_executions w1) p) as [EP|NP].
  - right. unfold same. split; [lia|]. rewrite EP, Z_mod_same_full. cbn [Z.eqb]. unfold c_train_all. change (w_config (W w1)) with (collectively (w_config w1) p). cbn [collectively cf_collective truthy].
    change (truthy 1) with true. cbn [then_].
    assert (TI : to_int p = p).
    { unfold to_int. cbv zeta. rewrite Z.mod_small by lia. destruct (Z.ltb_spec p (2 ^ 31)); lia. }
    rewrite TI. eauto.
  - left. unfold same. split; [lia|]. rewrite Z.mod_small by lia. destruct (Z.eqb_spec (w_executions w1) 0) as [Z0|_]; [lia|]. destruct C1 as ((_ & _ & C3 & _) & L & _). rewrite C3. cbn [andb].
    replace (0 <? r_min_training R) with false by (symmetry; apply Z.ltb_ge; unfold low in L; rewrite Forall_forall in L; apply L; eapply nth_error_In; apply region_nth; exact G).
    cbn [andb then_]. rewrite release_lift, E3. reflexivity.
Qed.

Definition WL (x : world * list ctxptr) : world * list ctxptr := (W (fst x), snd x).

Lemma loop_follows r ps : forall w w' kept, collect_loop P w r ps = Ok (w', kept) -> calm w -> w_executions w + Z.of_nat (List.length ps) < 2 ^ 63 ->
  w_config w' = w_config w /\ (ready w' -> ready w) /\ (low w -> low w') /\ w_executions w <= w_executions w' /\
  w_executions w' + Z.of_nat (List.length kept) = w_executions w + Z.of_nat (List.length ps) /\ queues w' = queues w /\
  (ready w' -> w_executions w < p -> follows fst (w', kept) (WL (w', kept)) (c_collect_loop P (W w) r ps)).
Proof.
  induction ps as [|q ps IH]; intros w w' kept H C B; cbn [collect_loop] in H.
  - injection H as <- <-. repeat (split; [auto; lia|]). intros _ X. left. split; [exact X|]. reflexivity.
  - cbn [List.length] in *. apply bind_inv in H as (c & G & H). apply bind_inv in H as ([x|] & D & H).
    + apply bind_inv in H as (w1 & E1 & H). destruct (collect_near _ _ _ _ _ E1 C ltac:(lia)) as (N1 & X1 & L1). assert (C1 := calm_near _ _ _ N1 C). destruct N1 as (N1 & N2 & N3 & _).
      destruct (IH _ _ _ H C1 ltac:(lia)) as (A1 & A2 & A3 & A4 & A5 & A6 & A7). split; [congruence|]. split; [auto|]. split; [auto|]. split; [lia|]. split; [lia|]. split; [congruence|].
      intros T X. cbn [c_collect_loop]. eapply follows_return; [exact G|]. eapply follows_return; [exact D|]. cbv beta iota.
      eapply follows_then; [eapply collect_follows; [exact E1|exact C|auto|exact X]|exact A4|]. unfold same. intros X'. apply A7; assumption.
    + apply bind_inv in H as ([w1 k1] & E1 & H). injection H as <- <-. destruct (IH _ _ _ E1 C ltac:(lia)) as (A1 & A2 & A3 & A4 & A5 & A6 & A7). cbn [List.length].
      split; [exact A1|]. split; [exact A2|]. split; [exact A3|]. split; [exact A4|]. split; [lia|]. split; [exact A6|].
      intros T X. cbn [c_collect_loop]. eapply follows_return; [exact G|]. eapply follows_return; [exact D|]. cbv beta iota.
      eapply follows_then; [apply A7; assumption|reflexivity|]. intros X'. left. split; [exact X'|]. reflexivity.
Qed.

Lemma pending_follows w r w' : collect_pending P w r = Ok w' -> calm w -> due w < 2 ^ 63 ->
  near 0 w w' /\ (ready w' -> w_executions w < p -> follows same w' (W w') (c_collect_pending P (W w) r)).
Proof.
  unfold collect_pending. intros H C B. apply bind_inv in H as (R & G & H). apply bind_inv in H as ([w1 kept] & E1 & H). apply bind_inv in H as (R1 & G1 & H). injection H as <-.
  assert (LR : Z.of_nat (List.length (r_pending R)) <= loads (w_regions w)).
  { apply region_nth in G. clear - G. revert r G. induction (w_regions w) as [|x l IH]; intros r G; [destruct r; discriminate G|]. cbn [loads fold_right]. fold (loads l). assert (K := loads_nonneg l).
    destruct r as [|r]; cbn [nth_error] in G; [injection G as ->; lia|]. specialize (IH _ G). lia. }
  unfold due in B. destruct (loop_follows r (r_pending R) w w1 kept E1 C ltac:(lia)) as (A1 & A2 & A3 & A4 & A5 & A6 & A7).
  assert (SP : r_pending R1 = r_pending R).
  { eapply queue_of; [exact A6|apply region_nth; exact G|apply region_nth; exact G1]. }
  assert (RB : ready (set_region w1 r (with_pending R1 kept)) -> ready w1).
  { unfold ready. cbn [set_region w_regions]. apply (set_nth_back _ _ _ R1); [apply region_nth; exact G1|auto]. }
  split.
  - unfold near, due. cbn [set_region w_config w_regions w_executions]. rewrite (loads_set _ _ _ _ (region_nth _ _ _ G1)). cbn [with_pending r_pending]. rewrite SP, (loads_queues _ _ A6).
    split; [exact A1|]. split; [auto|]. split; [|lia]. intros L. unfold low. cbn [set_region w_regions]. apply set_nth_forall; [apply A3; exact L|].
    cbn [with_pending r_min_training]. specialize (A3 L). unfold low in A3. rewrite Forall_forall in A3. apply A3. eapply nth_error_In. apply region_nth. exact G1.
  - intros T X. unfold c_collect_pending. eapply follows_return; [exact G|]. eapply follows_then; [apply A7; [apply RB; exact T|exact X]|unfold same; cbn; lia|].
    intros X'. cbn [WL fst snd]. eapply follows_return; [exact G1|]. left. split; [exact X'|]. reflexivity.
Qed.

(** ** The other calls *)

Definition liftx {A} (x : outcome (world * A)) : outcome (world * A) := let* (w, a) := x in Ok (W w, a).

Lemma context_lift w q c : set_context (W w) q c = W (set_context w q c).
Proof. unfold set_context. change (w_regions (W w)) with (w_regions w). destruct (nth_error (w_regions w) (fst q)); [|reflexivity]. destruct (snd q); reflexivity. Qed.
Lemma complete_lift w e : complete (W w) e = W (complete w e).
Proof.
  unfold complete. change (get_context (W w) (fst e)) with (get_context w (fst e)). destruct (get_context w (fst e)) as [c| | | |]; try reflexivity.
  destruct (c_timer c) as [? ?|[|] [?|]]; try reflexivity. apply context_lift.
Qed.
Lemma begin_lift w r async now : begin_context (W w) r async now = liftx (begin_context w r async now).
Proof.
  unfold begin_context. change (get_region (W w) r) with (get_region w r). destruct (get_region w r) as [R| | | |]; try reflexivity. cbn [bind].
  destruct async; (destruct (_ =? _); [reflexivity|]).
  - match goal with |- bind (get_context (set_region (W w) r ?R') ?q) _ = _ => change (get_context (set_region (W w) r R') q) with (get_context (set_region w r R') q); destruct (get_context (set_region w r R') q); try reflexivity;
      change (set_region (W w) r R') with (W (set_region w r R')) end. cbn [bind liftx]. rewrite context_lift. reflexivity.
  - match goal with |- bind (get_context (set_region (W w) r ?R') ?q) _ = _ => change (get_context (set_region (W w) r R') q) with (get_context (set_region w r R') q); destruct (get_context (set_region w r R') q); try reflexivity;
      change (set_region (W w) r R') with (W (set_region w r R')) end. cbn [bind liftx]. rewrite context_lift. reflexivity.
Qed.
Lemma begin_flat w r async now w' q : begin_context w r async now = Ok (w', q) -> flat w w'.
Proof.
  unfold begin_context. intros H. apply bind_inv in H as (R & G & H). destruct async; (destruct (_ =? _); [discriminate H|]); apply bind_inv in H as (c & _ & H); injection H as <- _;
    (eapply flat_trans; [|apply flat_context]); (eapply flat_region; [exact G|auto|reflexivity|reflexivity]).
Qed.
Lemma policy_lift w r q D : get_policy_index P (W w) r q D = liftx (get_policy_index P w r q D).
Proof.
  unfold get_policy_index. change (get_region (W w) r) with (get_region w r). destruct (get_region w r) as [R| | | |]; try reflexivity. cbn [bind].
  change (get_context (W w) q) with (get_context w q). destruct (get_context w q) as [c| | | |]; try reflexivity. cbn [bind].
  destruct (m_get_index P D (r_model R) (c_features c)) as [[k m]| | | |]; try reflexivity. cbn [bind].
  assert (T : trace_policy (W w) R c k = lift (trace_policy w R c k)).
  { unfold trace_policy. change (w_config (W w)) with (collectively (w_config w) p). cbn [collectively cf_trace_policy]. destruct (negb _); [reflexivity|]. destruct (trace_features (c_features c)); reflexivity. }
  rewrite T. destruct (trace_policy w R c k) as [v| | | |]; try reflexivity. cbn [lift bind]. change (set_region (W v) r (with_model R m)) with (W (set_region v r (with_model R m))).
  match goal with |- bind (get_context (W ?u) q) _ = _ => change (get_context (W u) q) with (get_context u q); destruct (get_context u q); try reflexivity end. cbn [bind liftx]. rewrite context_lift. reflexivity.
Qed.
Lemma policy_flat w r q D w' k : get_policy_index P w r q D = Ok (w', k) -> flat w w'.
Proof.
  unfold get_policy_index. intros H. apply bind_inv in H as (R & G & H). apply bind_inv in H as (c & _ & H). apply bind_inv in H as ([c' m] & E & H). apply bind_inv in H as (v & T & H). apply bind_inv in H as (c2 & _ & H). injection H as <- _.
  eapply flat_trans; [|apply flat_context].
  assert (V : exists f, v = set_files w f).
  { unfold trace_policy in T. destruct (negb _); [injection T as <-; exists (w_files w); destruct w; reflexivity|]. apply bind_inv in T as (fs & _ & T). injection T as <-. eexists. reflexivity. }
  destruct V as [f ->]. eapply flat_trans; [apply (flat_files w f)|]. eapply flat_region; [exact G| |reflexivity|reflexivity]. cbn [with_model r_model]. rewrite (get_index_trainable _ _ _ _ _ _ E). auto.
Qed.

(** ** Creation *)

Lemma body_lift w r st : train_body P (W w) r st = lift (train_body P w r st).
Proof.
  unfold train_body. change (get_region (W w) r) with (get_region w r). destruct (get_region w r) as [R| | | |]; try reflexivity. cbn [bind]. destruct (_ <=? _); [reflexivity|].
  change (w_config (W w)) with (collectively (w_config w) p). cbn [collectively cf_region_model]. destruct (negb _); [reflexivity|].
  assert (T : trace_best (W w) R st = lift (trace_best w R st)).
  { unfold trace_best. change (w_config (W w)) with (collectively (w_config w) p). cbn [collectively cf_trace_best]. destruct (negb _); [reflexivity|]. destruct (ds_find_min _ _ _) as [[? ?] best]. destruct (trace_best_lines best); reflexivity. }
  rewrite T. destruct (trace_best w R st) as [v| | | |]; try reflexivity. cbn [lift bind]. destruct (m_train P (r_model R) (r_dataset R)) as [m| | | |]; try reflexivity. cbn [bind].
  change (set_region (W v) r (with_model R m)) with (W (set_region v r (with_model R m))). set (u := set_region v r (with_model R m)).
  change (w_config (W u)) with (collectively (w_config u) p). change (w_rank (W u)) with (w_rank u). cbn [collectively cf_retrain cf_store_models]. destruct (truthy (cf_retrain (w_config u))); [reflexivity|].
  destruct (truthy (cf_store_models (w_config u))); [|reflexivity].
  assert (S : forall u path, store_model (W u) m path = lift (store_model u m path)) by (intros u' path; unfold store_model; destruct (m_store m) as [[text|]| | | |]; reflexivity).
  change (model_step_file (collectively (w_config u) p)) with (model_step_file (w_config u)).
  rewrite S. destruct (store_model u m _) as [u2| | | |]; try reflexivity. cbn [lift bind]. rewrite S. reflexivity.
Qed.

Lemma load_trainable m f m' : m_load m f = Ok m' -> m_trainable m' = true -> m_trainable m = true.
Proof.
  destruct m; cbn [m_load]; intros H T; try (injection H as <-; exact T).
  - destruct f; [apply bind_inv in H as (q & _ & H)|]; injection H as <-; exact T.
  - destruct f; [apply bind_inv in H as (q & _ & H)|discriminate H]; injection H as <-; discriminate T.
  - destruct f; [apply bind_inv in H as (q & _ & H)|discriminate H]; injection H as <-; discriminate T.
  - injection H as <-. revert T. cbn [m_trainable]. unfold pn_load. repeat match goal with |- context [match ?x with _ => _ end] => destruct x end; cbn; auto; discriminate.
Qed.
Lemma load_lift w r text : load_dataset (W w) r text = lift (load_dataset w r text).
Proof. unfold load_dataset. change (get_region (W w) r) with (get_region w r). destruct (get_region w r) as [R| | | |]; try reflexivity. cbn [bind]. destruct (ds_load (r_dataset R) text) as [[d q]| | | |]; reflexivity. Qed.
Lemma load_flat w r text w' : load_dataset w r text = Ok w' -> flat w w' /\ queues w' = queues w.
Proof.
  unfold load_dataset. intros H. apply bind_inv in H as (R & G & H). apply bind_inv in H as ([d q] & _ & H). injection H as <-. split; [eapply flat_region; [exact G|auto|reflexivity|reflexivity]|].
  eapply queues_set; [apply region_nth; exact G|reflexivity].
Qed.

Definition empty_queue (w : world) (r : nat) : Prop := forall R, nth_error (w_regions w) r = Some R -> r_pending R = [].

Lemma load_train_follows w r name ps w' : load_and_train P w r name ps = Ok w' -> empty_queue w r ->
  flat w w' /\ c_load_and_train P (W w) r name ps = Return (Ok (W w')).
Proof.
  unfold load_and_train, c_load_and_train. intros H Q. destruct (param_find _ _); [|injection H as <-; split; [apply flat_refl|reflexivity]].
  change (dataset_file (w_config (W w)) name) with (dataset_file (w_config w) name). change (w_files (W w)) with (w_files w). destruct (file_find _ _) as [text|]; [|discriminate H].
  apply bind_inv in H as (w1 & E1 & H). apply bind_inv in H as (R & G & H). rewrite load_lift, E1. cbn [lift bind then_]. change (get_region (W w1) r) with (get_region w1 r). rewrite G. cbn [then_].
  destruct (_ <=? _); [discriminate H|]. destruct (load_flat _ _ _ _ E1) as [N1 Q1]. unfold region_train in H. rewrite G in H. cbn [bind negb andb] in H. unfold c_region_train. change (get_region (W w1) r) with (get_region w1 r). rewrite G. cbn [then_ negb andb].
  destruct (negb (m_trainable (r_model R))); [injection H as <-; split; [exact N1|reflexivity]|].
  assert (RP : r_pending R = []).
  { destruct (nth_error (w_regions w) r) as [R0|] eqn:N0; [|].
    - rewrite (queue_of _ _ _ _ _ Q1 N0 (region_nth _ _ _ G)). apply Q. exact N0.
    - assert (L := f_equal (@List.length _) Q1). unfold queues in L. rewrite !map_length in L. apply nth_error_None in N0. apply region_nth in G. assert (nth_error (w_regions w1) r <> None) by congruence. apply nth_error_Some in H0. lia. }
  unfold collect_pending in H. unfold c_collect_pending. change (get_region (W w1) r) with (get_region w1 r). rewrite G in *. cbn [bind then_] in *. rewrite RP in *. cbn [collect_loop c_collect_loop bind then_] in *.
  change (get_region (W w1) r) with (get_region w1 r). rewrite G in *. cbn [bind then_] in *. change (set_region (W w1) r (with_pending R [])) with (W (set_region w1 r (with_pending R []))).
  rewrite body_lift, H. split; [|reflexivity]. eapply flat_trans; [exact N1|]. apply (flat_trans _ (set_region w1 r (with_pending R []))); [eapply flat_region; [exact G|auto|reflexivity|cbn [with_pending r_pending]; rewrite RP; reflexivity]|].
  eapply flat_training. eapply (train_body_training P (fun _ _ _ => True)); [exact H|auto].
Qed.

Lemma append_flat w R reg : r_pending R = [] -> r_min_training R <= 0 -> flat w (mkWorld (w_config w) (w_rank w) (w_regions w ++ [R]) reg (w_executions w) (w_files w)).
Proof.
  intros E M. split; [|reflexivity]. unfold near, ready, low, due. cbn [w_config w_regions w_executions]. split; [reflexivity|]. split; [|split; [|split]].
  - intros F. apply Forall_app in F. tauto.
  - intros F. apply Forall_app. split; [exact F|]. constructor; [exact M|constructor].
  - lia.
  - rewrite loads_app. cbn [loads fold_right]. rewrite E. cbn [List.length]. lia.
Qed.

Lemma region_follows w nf name np mt info yaml init w' r' : new_region P w nf name np mt info yaml init = Ok (w', r') -> mt <= 0 -> calm w ->
  flat w w' /\ c_new_region P (W w) nf name np mt info yaml init = Return (Ok (W w', r')).
Proof.
  intros H M C. unfold new_region in H. unfold c_new_region. cbv zeta in *. change (w_config (W w)) with (collectively (w_config w) p) in *. cbn [collectively cf_policy_model].
  set (i0 := match info with [] => cf_policy_model (w_config w) | _ => info end) in *.
  apply bind_inv in H as ([mn ps] & E1 & H). rewrite E1. cbn [then_]. apply bind_inv in H as ([[mn' ps'] info'] & E2 & H). rewrite E2. cbn [then_].
  apply bind_inv in H as (m & E3 & H). rewrite E3. cbn [then_]. apply bind_inv in H as (m' & E4 & H). change (load_models (W w)) with (load_models w). rewrite E4. cbn [then_].
  apply bind_inv in H as (w1 & E5 & H). apply bind_inv in H as (w2 & E6 & H). apply bind_inv in H as (w3 & E7 & H). apply bind_inv in H as (w4 & E8 & H). apply bind_inv in H as (w5 & E9 & H). injection H as <- <-.
  assert (PF : truthy (cf_persistent (w_config w)) = false) by (destruct C as ((_ & _ & _ & C) & _); exact C).
  unfold load_persistent in E5. cbn [w_config] in E5. rewrite PF in E5. injection E5 as <-. unfold c_load_persistent. cbn [w_config]. change (w_config (W w)) with (collectively (w_config w) p). cbn [collectively cf_persistent]. rewrite PF. cbn [then_].
  set (R0 := mkRegion _ _ _ _ _ _ _ _ _ _ _ _ _ _ _) in *. set (w0 := mkWorld (w_config w) (w_rank w) (w_regions w ++ [R0]) (w_registry w) (w_executions w) (w_files w)) in *.
  assert (N0 : flat w w0) by (apply append_flat; [reflexivity|exact M]).
  match goal with |- _ /\ then_ (c_load_and_train P ?v ?r ?n ?q) _ = _ => change v with (W w0) end. change (List.length (w_regions (W w))) with (List.length (w_regions w)).
  destruct (load_train_follows _ _ _ _ _ E6) as [N2 E6'].
  { unfold empty_queue, w0. cbn [w_regions]. intros R N. rewrite nth_error_app2, Nat.sub_diag in N by lia. cbn [nth_error] in N. injection N as <-. reflexivity. }
  rewrite E6'. cbn [then_].
  assert (N3 : flat w2 w3 /\ load_optimal (W w2) (List.length (w_regions w)) (region_name name) mn' = Ok (W w3)).
  { unfold load_optimal in *. destruct (bytes_eqb mn' _); [|injection E7 as <-; split; [apply flat_refl|reflexivity]]. change (optimal_file (w_rank (W w2))) with (optimal_file (w_rank w2)). change (w_files (W w2)) with (w_files w2).
    destruct (file_find _ _); [|discriminate E7]. apply bind_inv in E7 as (R & G & E7). change (get_region (W w2)) with (get_region w2). rewrite G. cbn [bind]. apply bind_inv in E7 as (m2 & EM & E7). rewrite EM. cbn [bind]. injection E7 as <-. split; [|reflexivity].
    eapply flat_region; [exact G| |reflexivity|reflexivity]. cbn [with_model r_model]. apply (load_trainable _ _ _ EM). }
  destruct N3 as [N3 ->]. cbn [then_].
  assert (N4 : flat w3 w4 /\ load_dataset_map P (W w3) (List.length (w_regions w)) (region_name name) mn' = Ok (W w4)).
  { unfold load_dataset_map in *. destruct (bytes_eqb mn' _); [|injection E8 as <-; split; [apply flat_refl|reflexivity]]. change (dataset_file (w_config (W w3))) with (dataset_file (w_config w3)). change (w_files (W w3)) with (w_files w3).
    destruct (file_find _ _) as [text|]; [|discriminate E8]. rewrite load_lift. apply bind_inv in E8 as (v & EL & E8). rewrite EL. cbn [lift bind]. destruct (load_flat _ _ _ _ EL) as [NL _].
    apply bind_inv in E8 as (R & G & E8). change (get_region (W v)) with (get_region v). rewrite G. cbn [bind]. destruct (_ <=? _); [discriminate E8|]. apply bind_inv in E8 as (m2 & EM & E8). rewrite EM. cbn [bind]. injection E8 as <-. split; [|reflexivity].
    eapply flat_trans; [exact NL|]. eapply flat_region; [exact G| |reflexivity|reflexivity]. cbn [with_model r_model]. apply (train_trainable _ _ _ _ EM). }
  destruct N4 as [N4 ->]. cbn [then_]. change (w_config (W w4)) with (collectively (w_config w4) p). cbn [collectively cf_trace_csv].
  assert (N5 : flat w4 w5 /\ (if truthy (cf_trace_csv (w_config w4)) then let* R := get_region (W w4) (List.length (w_regions w)) in Ok (set_region (W w4) (List.length (w_regions w)) (with_trace R (r_trace R ++ trace_header nf))) else Ok (W w4)) = Ok (W w5)).
  { destruct (truthy (cf_trace_csv (w_config w4))); [|injection E9 as <-; split; [apply flat_refl|reflexivity]]. apply bind_inv in E9 as (R & G & E9). change (get_region (W w4)) with (get_region w4). rewrite G. cbn [bind]. injection E9 as <-.
    split; [|reflexivity]. eapply flat_region; [exact G|auto|reflexivity|reflexivity]. }
  destruct N5 as [N5 ->]. cbn [then_]. split; [|reflexivity].
  eapply flat_trans; [exact N0|]. eapply flat_trans; [exact N2|]. eapply flat_trans; [exact N3|]. eapply flat_trans; [exact N4|]. eapply flat_trans; [exact N5|].
  split; [|reflexivity]. unfold near, ready, low, due. cbn [w_config w_regions w_executions]. repeat split; auto; lia.
Qed.

(** ** Every call *)

Definition WX (x : world * result) : world * result := (W (fst x), snd x).

Lemma step_follows w o w' x : step P w o = Ok (w', x) -> measuring o -> calm w -> due w + 1 < 2 ^ 63 ->
  near 1 w w' /\ (ready w' -> w_executions w < p -> follows fst (w', x) (WX (w', x)) (c_step P (W w) o)).
Proof.
  intros H M C B. assert (L0 := loads_nonneg (w_regions w)).
  assert (plain : flat w w' -> c_step P (W w) o = Return (Ok (W w', x)) -> near 1 w w' /\ (ready w' -> w_executions w < p -> follows fst (w', x) (WX (w', x)) (c_step P (W w) o))).
  { intros [N E] S. split; [eapply near_more; [exact N|lia]|]. intros _ X. left. split; [cbn [fst]; lia|exact S]. }
  assert (counted : forall v, near 1 w v \/ near 0 w v -> v = w' -> near 1 w w') by (intros v [N|N] <-; [exact N|eapply near_more; [exact N|lia]]).
  destruct o as [nf name np mt info yaml init|r async now|r fs now|r q f|r q D|r q now early|r q metric|r st collect force|st collect|r|r waits|waits|q ms];
    unfold step in H; try (exfalso; exact M).
  - apply bind_inv in H as ([w1 r1] & E & H). injection H as <- <-. destruct (region_follows _ _ _ _ _ _ _ _ _ _ E M C) as [N S]. apply plain; [exact N|]. unfold c_step. rewrite S. reflexivity.
  - apply bind_inv in H as ([w1 q] & E & H). injection H as <- <-. apply plain; [eapply begin_flat; exact E|]. unfold c_step, step. rewrite begin_lift, E. reflexivity.
  - apply bind_inv in H as ([w1 q] & E & H). injection H as <- <-. unfold begin_features in E. apply bind_inv in E as ([w2 q2] & E2 & E). apply bind_inv in E as (c & G & E). injection E as <- <-. apply plain.
    + eapply flat_trans; [eapply begin_flat; exact E2|apply flat_context].
    + unfold c_step, step, begin_features. rewrite begin_lift, E2. cbn [liftx bind]. change (get_context (W w2) q2) with (get_context w2 q2). rewrite G. cbn [bind]. rewrite context_lift. reflexivity.
  - apply bind_inv in H as (R & G & H). apply bind_inv in H as (q' & ER & H). apply bind_inv in H as (w1 & E & H). injection H as <- <-. unfold set_feature in E. apply bind_inv in E as (c & GC & E). injection E as <-. apply plain; [apply flat_context|].
    unfold c_step, step. change (get_region (W w) r) with (get_region w r). rewrite G. cbn [bind]. change (resolve (W w) r q) with (resolve w r q). rewrite ER. cbn [bind]. unfold set_feature. change (get_context (W w) q') with (get_context w q'). rewrite GC. cbn [bind].
    rewrite context_lift. reflexivity.
  - apply bind_inv in H as (q' & ER & H). apply bind_inv in H as ([w1 k] & E & H). injection H as <- <-. apply plain; [eapply policy_flat; exact E|].
    unfold c_step, step. change (resolve (W w) r q) with (resolve w r q). rewrite ER. cbn [bind]. rewrite policy_lift, E. reflexivity.
  - apply bind_inv in H as (R0 & G0 & H). apply bind_inv in H as (q' & ER & H). apply bind_inv in H as (w1 & E & H). injection H as <- <-. unfold end_context in E. apply bind_inv in E as (c & GC & E). cbv zeta in E.
    set (w0 := set_context w q' (mkContext (c_features c) (c_policy c) (c_idx c) (timer_stop now (c_timer c)))) in *. assert (F0 : flat w w0) by apply flat_context. destruct F0 as [F0 X0].
    assert (C0 := calm_near _ _ _ F0 C). assert (B0 : due w0 + 1 < 2 ^ 63) by (destruct F0 as (_ & _ & _ & _ & F0); lia). assert (L1 := loads_nonneg (w_regions w0)). unfold due in B0.
    assert (pre : forall K, ready w1 -> follows same w1 (W w1) K ->
      follows fst (w1, Done) (WX (w1, Done)) (let! w := K in Return (Ok (w, Done)))).
    { intros K T F. eapply follows_then; [exact F|reflexivity|]. unfold same. intros X'. left. split; [exact X'|reflexivity]. }
    destruct (is_sync_of r q') eqn:SY.
    + apply bind_inv in E as ([m|] & TD & E); [|discriminate E]. destruct (collect_near _ _ _ _ _ E C0 ltac:(lia)) as (N1 & X1 & Q1). split; [exact (near_trans _ _ _ _ _ F0 N1)|].
      intros T X. unfold c_step. eapply follows_return; [exact G0|]. eapply follows_return; [exact ER|]. apply pre; [exact T|]. unfold c_end_context. eapply follows_return; [exact GC|]. cbv zeta. rewrite SY. eapply follows_return; [exact TD|]. cbv beta iota.
      rewrite context_lift. fold w0. apply collect_follows; [exact E|exact C0| |lia]. destruct N1 as (_ & N1 & _). auto.
    + apply bind_inv in E as (R & G & E). set (w2 := set_region w0 r (with_pending R (r_pending R ++ [q']))) in *.
      assert (F2 : near 1 w0 w2) by (eapply near_set; [apply region_nth; exact G|auto|reflexivity|cbn [with_pending r_pending]; rewrite app_length; cbn [List.length]; lia]).
      set (w3 := match early with Some ms => complete w2 (q', ms) | None => w2 end) in *. assert (F3 : flat w2 w3) by (unfold w3; destruct early; [apply flat_complete|apply flat_refl]). destruct F3 as [F3 X3].
      assert (N3 : near 1 w w3) by exact (near_trans _ _ _ _ _ (near_trans _ _ _ _ _ F0 F2) F3). assert (C3 := calm_near _ _ _ N3 C).
      assert (B3 : due w3 < 2 ^ 63) by (destruct N3 as (_ & _ & _ & _ & N3); lia). destruct (pending_follows _ _ _ E C3 B3) as [N4 K]. split; [exact (near_trans _ _ _ _ _ N3 N4)|].
      intros T X. unfold c_step. eapply follows_return; [exact G0|]. eapply follows_return; [exact ER|]. apply pre; [exact T|]. unfold c_end_context. eapply follows_return; [exact GC|]. cbv zeta. rewrite SY. rewrite context_lift. fold w0.
      eapply follows_return; [exact G|]. change (set_region (W w0) r (with_pending R (r_pending R ++ [q']))) with (W w2).
      replace (match early with Some ms => complete (W w2) (q', ms) | None => W w2 end) with (W w3) by (unfold w3; destruct early; [symmetry; apply complete_lift|reflexivity]).
      apply K; [exact T|]. assert (E2 : w_executions w2 = w_executions w0) by reflexivity. lia.
  - apply bind_inv in H as (q' & ER & H). apply bind_inv in H as (w1 & E & H). injection H as <- <-. unfold end_metric in E. apply bind_inv in E as (w0 & E0 & E). unfold due in B.
    destruct (collect_near _ _ _ _ _ E0 C ltac:(lia)) as (N1 & X1 & Q1). assert (C1 := calm_near _ _ _ N1 C). assert (B1 : due w0 < 2 ^ 63) by (destruct N1 as (_ & _ & _ & _ & N1); unfold due in *; lia).
    destruct (pending_follows _ _ _ E C1 B1) as [N2 K]. split; [exact (near_trans _ _ _ _ _ N1 N2)|]. intros T X. unfold c_step. eapply follows_return; [exact ER|].
    assert (T0 : ready w0) by (destruct N2 as (_ & N2 & _); auto). assert (M2 : w_executions w0 <= w_executions w1) by (destruct N2 as (_ & _ & _ & N2 & _); exact N2).
    eapply (follows_then same fst w1 (W w1)); [|reflexivity|].
    + unfold c_end_metric. eapply follows_then; [apply collect_follows; [exact E0|exact C| |exact X]|exact M2|].
      * destruct N1 as (_ & N1 & _). auto.
      * unfold same. intros X'. apply K; assumption.
    + unfold same. intros X'. left. split; [exact X'|reflexivity].
  - apply bind_inv in H as (w1 & E & H). injection H as <- <-. destruct (pending_follows _ _ _ E C ltac:(lia)) as [N K]. split; [eapply near_more; [exact N|lia]|]. intros T X. unfold c_step.
    eapply follows_then; [apply K; assumption|reflexivity|]. unfold same. intros X'. left. split; [exact X'|reflexivity].
  - injection H as <- <-. apply plain; [apply flat_complete|]. unfold c_step, step. rewrite complete_lift. reflexivity.
Qed.

Lemma run_near os : forall w w' xs, run P w os = Ok (w', xs) -> Forall measuring os -> calm w -> due w + Z.of_nat (List.length os) < 2 ^ 63 ->
  near (Z.of_nat (List.length os)) w w' /\ (ready w' -> w_executions w < p -> alone P (W w) os (if p <=? w_executions w' then Some p else None)).
Proof.
  induction os as [|o os IH]; intros w w' xs H M C B; cbn [run] in H.
  - injection H as <- _. split; [apply near_refl|]. intros _ X. replace (p <=? w_executions w) with false by (symmetry; apply Z.leb_gt; exact X). constructor.
  - apply bind_inv in H as ([w1 x] & E & H). apply bind_inv in H as ([w2 ys] & E2 & H). injection H as <- _. inversion M as [|? ? M1 M2]; subst. cbn [List.length] in *.
    destruct (step_follows _ _ _ _ E M1 C ltac:(lia)) as [N1 F1]. assert (C1 := calm_near _ _ _ N1 C). assert (B1 : due w1 + Z.of_nat (List.length os) < 2 ^ 63) by (destruct N1 as (_ & _ & _ & _ & N1); lia).
    destruct (IH _ _ _ E2 M2 C1 B1) as [N2 A2]. split; [eapply near_more; [exact (near_trans _ _ _ _ _ N1 N2)|lia]|].
    intros T X. assert (T1 : ready w1) by (destruct N2 as (_ & N2 & _); auto). destruct (F1 T1 X) as [[X1 S]|[X1 (v & k & S)]]; cbn [fst] in X1.
    + eapply alone_goes_on; [exact S|]. cbn [WX fst]. apply A2; assumption.
    + replace (p <=? w_executions w2) with true; [eapply alone_waits; exact S|]. symmetry. apply Z.leb_le. destruct N2 as (_ & _ & _ & N2 & _). lia.
Qed.
End Sim.

(** A rank of a job with collective training and the global period [p] comes to the exchange just when it measures [p]
    executions. *)
Lemma measured_alone P p i c files os n : 0 < p < 2 ^ 31 -> measures P i (c, files, os) n ->
  alone P (mkWorld (collectively c p) (Z.of_nat i) [] [] 0 files) os (if p <=? n then Some p else None).
Proof.
  intros HP (HC & HM & HL & w & xs & E & <- & T). destruct (run_near P p HP os _ w xs E HM) as [_ A].
  - split; [exact HC|]. split; [constructor|]. cbn. lia.
  - unfold due. cbn. exact HL.
  - apply A; [exact T|]. cbn. lia.
Qed.

Lemma seq_nth_error i : forall n k, (i < n)%nat -> nth_error (seq k n) i = Some (k + i)%nat.
Proof. induction i as [|i IH]; intros [|n] k H; try lia; cbn [seq nth_error]; [f_equal; lia|]. rewrite IH by lia. f_equal. lia. Qed.
Lemma nth_error_combine {A B} (l : list A) : forall (m : list B) i a b, nth_error l i = Some a -> nth_error m i = Some b -> nth_error (combine l m) i = Some (a, b).
Proof. induction l as [|x l IH]; intros m i a b HA HB; [destruct i; discriminate HA|]. destruct m as [|y m]; [destruct i; discriminate HB|]. destruct i as [|i]; cbn in *; [congruence|]. apply IH; assumption. Qed.

Lemma job_rank p plans i c files os : nth_error plans i = Some (c, files, os) ->
  nth_error (collective_job p plans) i = Some (Ready (mkWorld (collectively c p) (Z.of_nat i) [] [] 0 files) os).
Proof.
  intros E. assert (L : (i < List.length plans)%nat) by (apply nth_error_Some; congruence). unfold collective_job, new_job, start_job. rewrite map_length.
  erewrite map_nth_error; [|apply nth_error_combine; [apply map_nth_error; apply nth_error_combine; [apply seq_nth_error; exact L|apply map_nth_error; exact E]|apply map_nth_error; exact E]]. reflexivity.
Qed.
Lemma job_length p plans : List.length (collective_job p plans) = List.length plans.
Proof. unfold collective_job, new_job, start_job. repeat (rewrite map_length || rewrite combine_length || rewrite seq_length). rewrite !Nat.min_id. reflexivity. Qed.

Section Counts.
Variables (P : platform) (M : mpi) (p : Z) (plans : list plan) (ns : list Z).
Hypothesis HP : 0 < p < 2 ^ 31.
Hypothesis HC : counts P plans ns.

Lemma rank_alone i n : nth_error ns i = Some n -> exists w os, nth_error (collective_job p plans) i = Some (Ready w os) /\ alone P w os (if p <=? n then Some p else None).
Proof.
  intros E. destruct HC as [L C]. assert (LT : (i < List.length plans)%nat) by (rewrite <- L; apply nth_error_Some; congruence).
  destruct (nth_error plans i) as [[[c files] os]|] eqn:EP; [|apply nth_error_None in EP; lia]. eexists _, os. split; [apply job_rank; exact EP|]. apply measured_alone; [exact HP|]. exact (C _ _ _ EP E).
Qed.

Lemma ranks_alone b : Forall (fun n => (if p <=? n then Some p else None) = b) ns -> Forall (fun x => exists w os, x = Ready w os /\ alone P w os b) (collective_job p plans).
Proof.
  intros F. apply Forall_forall. intros x I. apply In_nth_error in I as [i I]. assert (LT : (i < List.length ns)%nat).
  { destruct HC as [-> _]. rewrite <- (job_length p). apply nth_error_Some. congruence. }
  destruct (nth_error ns i) as [n|] eqn:EN; [|apply nth_error_None in EN; lia]. destruct (rank_alone i n EN) as (w & os & E & A). rewrite E in I. injection I as <-. exists w, os. split; [reflexivity|].
  rewrite Forall_forall in F. rewrite (F n (nth_error_In _ _ EN)) in A. exact A.
Qed.

Theorem counts_differ i j a b J' : nth_error ns i = Some a -> p <= a -> nth_error ns j = Some b -> b < p -> job_runs P M (collective_job p plans) J' ->
  ~ job_ended J' /\ (job_halted P M J' -> exists v k rest v', nth_error J' i = Some (Waiting v p k rest) /\ nth_error J' j = Some (Ready v' [])).
Proof.
  intros EA HA EB HB R. destruct (rank_alone _ _ EA) as (w & os & E1 & A1). destruct (rank_alone _ _ EB) as (w' & os' & E2 & A2).
  replace (p <=? a) with true in A1 by (symmetry; apply Z.leb_le; exact HA). replace (p <=? b) with false in A2 by (symmetry; apply Z.leb_gt; exact HB).
  eapply never_ends; eassumption.
Qed.

Theorem counts_few J' : Forall (fun n => n < p) ns -> job_runs P M (collective_job p plans) J' -> job_halted P M J' -> job_ended J'.
Proof.
  intros F R H. eapply all_end; [|exact R|exact H]. apply ranks_alone. eapply Forall_impl; [|exact F]. intros n L. apply Z.leb_gt in L. cbv beta. rewrite L. reflexivity.
Qed.

Theorem counts_many : Forall (fun n => p <= n) ns ->
  exists J1 l, job_runs P M (collective_job p plans) J1 /\ all_waiting J1 = Some l /\ Forall (fun x => snd x = p) l /\ forall J', job_runs P M (collective_job p plans) J' -> job_halted P M J' -> job_runs P M J1 J'.
Proof.
  intros F. apply all_exchange. apply ranks_alone. eapply Forall_impl; [|exact F]. intros n L. apply Z.leb_le in L. cbv beta. rewrite L. reflexivity.
Qed.
End Counts.
