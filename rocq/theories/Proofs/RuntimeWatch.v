(** What calls do to the models and data sets of regions, given what training and recording do to them. *)
From Coq Require Import ZArith Bool Ascii String Lia List.
From Verif Require Import Model.Base Model.Float Model.DatasetM Model.ParserM Model.DatasetIO Model.ModelStringM Model.PolicyModelsM Model.ConfigM Model.RuntimeM
  Spec.RuntimeSpec Proofs.TreeFacts Proofs.ModelStringFacts Proofs.RuntimeFacts Proofs.RuntimePreserve Proofs.RuntimeRange.
Import ListNotations.
Open Scope Z_scope.

Section Watch.
Variable P : platform.
Variable Q : nat -> model -> dataset -> Prop.
Variables single persistent : Z.
Variable forced : bool.

Record closed : Prop := {
  Q_train : forall i m0 d0 m d m', Q i m0 d0 -> Q i m d -> forced = true \/ m_trainable m0 = true -> m_train P m d = Ok m' -> Q i m' d;
  Q_single : forall i m d d2 m', truthy single = true -> Q i m d -> m_train P m d2 = Ok m' -> Q i m' d;
  Q_insert : forall i m d f p x d', truthy persistent || m_trainable m = true -> Q i m d -> ds_insert d f p x = Ok d' -> Q i m d' }.
Hypothesis C : closed.

Definition watched (w : world) : Prop :=
  (forall i R, nth_error (w_regions w) i = Some R -> Q i (r_model R) (r_dataset R)) /\
  cf_single_model (w_config w) = single /\ cf_persistent (w_config w) = persistent.

Definition J (i : nat) (R : region) : Prop := Q i (r_model R) (r_dataset R).

Lemma J_preserved len : preserved P J (fun _ _ => True) single persistent forced len.
Proof.
  destruct C as [C1 C2 C3]. constructor; unfold J; try (intros; cbn in *; auto; fail).
  - intros i R0 R m H0 H HF T. cbn. exact (C1 i _ _ _ _ _ H0 H HF T).
  - intros i R d m T H E. cbn. eapply C2; eauto.
  - intros w i R p c x d H ER _ EC T EI. cbn. eapply C3; eauto. apply (proj1 H _ _ ER).
Qed.

Lemma watched_holds w : watched w <-> holds J single persistent (List.length (w_regions w)) w.
Proof. unfold watched, holds, J. intuition. Qed.

Lemma holds_watched len w : holds J single persistent len w -> watched w /\ List.length (w_regions w) = len.
Proof. unfold watched, holds, J. intuition. Qed.

Lemma set_context_models v p nc : w_config (set_context v p nc) = w_config v /\ List.length (w_regions (set_context v p nc)) = List.length (w_regions v) /\
  forall i Ri, nth_error (w_regions v) i = Some Ri -> exists Ri', nth_error (w_regions (set_context v p nc)) i = Some Ri' /\ r_model Ri' = r_model Ri /\ r_dataset Ri' = r_dataset Ri.
Proof.
  unfold set_context. destruct (nth_error (w_regions v) (fst p)) as [Rp|] eqn:EP; [|split; [auto|split; [auto|eauto]]].
  destruct (snd p) as [|j]; cbn; (split; [reflexivity|]; split; [apply set_nth_length|]; intros i Ri Ei; rewrite nth_set_nth; destruct (Nat.eqb_spec i (fst p)) as [->|]; [|eauto];
    rewrite Ei; rewrite EP in Ei; inversion Ei; subst; eexists; split; [reflexivity|split; reflexivity]).
Qed.

(** getPolicyIndex. *)
Lemma get_policy_exact w r p D w' k : get_policy_index P w r p D = Ok (w', k) ->
  exists R c m, nth_error (w_regions w) r = Some R /\ get_context w p = Ok c /\ m_get_index P D (r_model R) (c_features c) = Ok (k, m) /\
    w_config w' = w_config w /\ List.length (w_regions w') = List.length (w_regions w) /\
    forall i Ri, nth_error (w_regions w) i = Some Ri -> exists Ri', nth_error (w_regions w') i = Some Ri' /\
      r_model Ri' = (if Nat.eqb i r then m else r_model Ri) /\ r_dataset Ri' = r_dataset Ri.
Proof.
  unfold get_policy_index. intros E. apply bind_inv in E. destruct E as (R & ER & E). apply get_region_ok in ER. destruct ER as [ER AL].
  apply bind_inv in E. destruct E as (c & EC & E). apply bind_inv in E. destruct E as ([ch m] & EM & E). apply bind_inv in E. destruct E as (w1 & E1 & E).
  assert (W1 : w_regions w1 = w_regions w /\ w_config w1 = w_config w).
  { unfold trace_policy in E1. destruct (negb _); [inversion E1; subst; auto|]. apply bind_inv in E1. destruct E1 as (? & _ & E1). inversion E1; subst. auto. }
  destruct W1 as [W1 W2]. apply bind_inv in E. destruct E as (c' & EC' & E). inversion E; subst. clear E.
  exists R, c, m. split; [exact ER|]. split; [exact EC|]. split; [exact EM|].
  set (w2 := set_region w1 r (with_model R m)) in *. set (nc := mkContext _ _ _ _) in *. clearbody nc.
  destruct (set_context_models w2 p nc) as (S1 & S2 & S3). split; [rewrite S1; exact W2|]. split; [rewrite S2; unfold w2; cbn; rewrite set_nth_length, W1; reflexivity|].
  intros i Ri Ei. destruct (Nat.eqb_spec i r) as [->|N].
  - rewrite ER in Ei. inversion Ei; subst Ri. destruct (S3 r (with_model R m)) as (R' & A & B1 & B2); [unfold w2; cbn; eapply nth_set_nth_eq; rewrite W1; eauto|]. eauto.
  - destruct (S3 i Ri) as (R' & A & B1 & B2); [unfold w2; cbn; rewrite nth_set_nth_neq, W1 by auto; auto|]. eauto.
Qed.

Lemma watched_get_policy w r p D w' x : watched w -> step P w (OpGetPolicy r p D) = Ok (w', x) ->
  (forall R y k m, nth_error (w_regions w) r = Some R -> m_get_index P D (r_model R) y = Ok (k, m) -> Q r (r_model R) (r_dataset R) -> Q r m (r_dataset R)) -> watched w'.
Proof.
  intros (H & S & T) E K. cbn in E. apply bind_inv in E. destruct E as (q & EQ & E). apply bind_inv in E. destruct E as ([w1 k] & E1 & E). inversion E; subst. clear E.
  destruct (get_policy_exact _ _ _ _ _ _ E1) as (R & c & m & ER & EC & EM & EW & EL & ES). rewrite <- EW in *. split; [|auto].
  intros i Ri' Ei'. destruct (nth_error (w_regions w) i) as [Ri|] eqn:Ei.
  2:{ exfalso. apply nth_error_None in Ei. assert (nth_error (w_regions w') i <> None) as A by congruence. apply nth_error_Some in A. lia. }
  destruct (ES _ _ Ei) as (Ri2 & F & F1 & F2). rewrite F in Ei'. inversion Ei'; subst Ri2. rewrite F1, F2. destruct (Nat.eqb_spec i r) as [->|]; auto.
  rewrite ER in Ei. inversion Ei; subst Ri. eauto.
Qed.

(** Calls other than the creation of a region and getPolicyIndex. *)
Lemma watched_step w o w' x : watched w -> step P w o = Ok (w', x) ->
  match o with OpRegion _ _ _ _ _ _ _ | OpGetPolicy _ _ _ => False | OpTrain _ _ _ force => force = true -> forced = true | _ => True end ->
  watched w' /\ List.length (w_regions w') = List.length (w_regions w).
Proof.
  intros H E O. apply watched_holds in H. apply holds_watched. eapply holds_step; [apply J_preserved|exact H| |exact E].
  destruct o as [nf nm np mt info yaml init|r async now|r fs now|r [p|] y|r p D|r [p|] now early|r [p|] y|r st collect force|st collect|r|r waits|waits|p ms]; cbn; auto.
Qed.

(** The creation of a region: nothing is loaded, or nothing is asked of the new region. *)
Lemma watched_region w nf nm np mt info yaml init w' r : watched w ->
  new_region P w nf nm np mt info yaml init = Ok (w', r) ->
  (no_load w (OpRegion nf nm np mt info yaml init) /\ (forall name ps m, create_model P name nf np ps init = Ok m -> Q (List.length (w_regions w)) m []) \/
   forall m d, Q (List.length (w_regions w)) m d) ->
  watched w' /\ List.length (w_regions w') = S (List.length (w_regions w)).
Proof.
  intros (A & S & T) H CASE. unfold new_region in H. apply bind_inv in H. destruct H as ([mn0 ps0] & E1 & H).
  apply bind_inv in H. destruct H as ([[mn ps] info'] & E2 & H). apply bind_inv in H. destruct H as (m0 & E3 & H). apply bind_inv in H. destruct H as (m1 & E4 & H).
  set (n := List.length (w_regions w)) in *.
  set (R0 := mkRegion true (region_name nm) nf np mt info' mn m1 [] 0 None (mkContext [] 0 0 (Clock None None)) [] [] []) in *.
  set (w1 := mkWorld _ _ (w_regions w ++ [R0]) _ _ _) in *.
  assert (LEN : List.length (w_regions w1) = Datatypes.S n) by (unfold w1; cbn; rewrite app_length; cbn; unfold n; lia).
  assert (CP := J_preserved (Datatypes.S n)).
  assert (FREE : (forall m d, Q n m d) -> forall v R, holds J single persistent (Datatypes.S n) v -> holds J single persistent (Datatypes.S n) (set_region v n R)).
  { intros F v R HV. eapply holds_set; [exact CP|exact HV|]. apply F. }
  assert (SAME : no_load w (OpRegion nf nm np mt info yaml init) ->
    m1 = m0 /\ mn <> $"Optimal" /\ mn <> $"DatasetMap" /\ param_find ($"load-dataset") ps = None /\ (cf_persistent (w_config w) = 0 \/ file_find (dataset_file (w_config w) (region_name nm)) (w_files w) = None)).
  { intros (NY & NP & NL). subst yaml. specialize (NL _ _ E1). destruct NL as (N1 & N2 & N3 & N4).
    assert (RS : mn <> $"Optimal" /\ mn <> $"DatasetMap" /\ param_find ($"load") ps = None /\ param_find ($"load-dataset") ps = None).
    { unfold resolve_static_region in E2. destruct (bytes_eqb mn0 _); [|inversion E2; subst; auto]. destruct (param_find (region_name nm) ps0); [|discriminate].
      inversion E2; subst. split; [discriminate|]. split; [discriminate|]. split; reflexivity. }
    destruct RS as (M1 & M2 & M3 & M4). unfold load_models in E4. cbn [bind] in E4. rewrite M3 in E4. inversion E4; subst. auto. }
  assert (H1 : holds J single persistent (Datatypes.S n) w1).
  { split; [|split; [exact S|split; [exact T|exact LEN]]]. intros i R E. unfold w1 in E. cbn in E. apply nth_snoc in E. destruct E as [E|[-> ->]]; [exact (A _ _ E)|].
    unfold J. cbn. fold n. destruct CASE as [[NL K]|K]; [|apply K]. destruct (SAME NL) as (-> & _). exact (K _ _ _ E3). }
  apply bind_inv in H. destruct H as (w2 & EP & H).
  assert (LOAD : (forall m d, Q n m d) -> forall v text v', holds J single persistent (Datatypes.S n) v -> load_dataset v n text = Ok v' -> holds J single persistent (Datatypes.S n) v').
  { intros F v text v' HV E. unfold load_dataset in E. apply bind_inv in E; destruct E as (X & _ & E). apply bind_inv in E; destruct E as ([d1 b1] & _ & E). inversion E; subst. apply FREE; auto. }
  assert (H2 : holds J single persistent (Datatypes.S n) w2).
  { unfold load_persistent in EP. destruct (truthy (cf_persistent (w_config w1))) eqn:TP; [|inversion EP; subst; auto].
    apply bind_inv in EP. destruct EP as (w3 & E5 & EP). eapply holds_auto_train; [exact CP| |exact EP].
    destruct (file_find (dataset_file (w_config w1) (region_name nm)) (w_files w1)) as [text|] eqn:FF; [|inversion E5; subst; auto].
    destruct CASE as [[NL K]|K]; [|eapply LOAD; eauto]. destruct (SAME NL) as (_ & _ & _ & _ & [Z0|Z0]).
    - unfold w1, truthy in TP. cbn in TP. rewrite Z0 in TP. discriminate.
    - assert (FF' : file_find (dataset_file (w_config w) (region_name nm)) (w_files w) = Some text) by exact FF. congruence. }
  apply bind_inv in H. destruct H as (w3 & E5 & H).
  assert (H3 : holds J single persistent (Datatypes.S n) w3).
  { unfold load_and_train in E5. destruct (param_find ($"load-dataset") ps) eqn:FL; [|inversion E5; subst; auto].
    destruct CASE as [[NL K]|K]. { destruct (SAME NL) as (_ & _ & _ & Z0 & _). congruence. }
    destruct (file_find _ _); [|discriminate]. apply bind_inv in E5. destruct E5 as (w4 & E5 & E6). apply bind_inv in E6. destruct E6 as (R4 & E6 & E7).
    destruct (_ <=? _); [discriminate|]. eapply holds_region_train; [exact CP|eapply LOAD; eauto| |exact E7]. discriminate. }
  apply bind_inv in H. destruct H as (w4 & E6 & H).
  assert (H4 : holds J single persistent (Datatypes.S n) w4).
  { unfold load_optimal in E6. destruct (bytes_eqb mn _) eqn:BN; [|inversion E6; subst; auto].
    destruct CASE as [[NL K]|K]. { destruct (SAME NL) as (_ & Z0 & _). apply bytes_eqb_neq in Z0. congruence. }
    destruct (file_find _ _); [|discriminate]. apply bind_inv in E6. destruct E6 as (R4 & E6 & E7). apply bind_inv in E7. destruct E7 as (m4 & E7 & E8). inversion E8; subst. apply FREE; auto. }
  apply bind_inv in H. destruct H as (w5 & E7 & H).
  assert (H5 : holds J single persistent (Datatypes.S n) w5).
  { unfold load_dataset_map in E7. destruct (bytes_eqb mn _) eqn:BN; [|inversion E7; subst; auto].
    destruct CASE as [[NL K]|K]. { destruct (SAME NL) as (_ & _ & Z0 & _). apply bytes_eqb_neq in Z0. congruence. }
    destruct (file_find _ _); [|discriminate]. apply bind_inv in E7. destruct E7 as (w6 & E7 & E8). apply bind_inv in E8. destruct E8 as (R4 & E8 & E9).
    destruct (_ <=? _); [discriminate|]. apply bind_inv in E9. destruct E9 as (m4 & E9 & E10). inversion E10; subst. apply FREE; auto. eapply LOAD; eauto. }
  apply bind_inv in H. destruct H as (w6 & E8 & H).
  assert (H6 : holds J single persistent (Datatypes.S n) w6).
  { destruct (truthy (cf_trace_csv (w_config w5))); [|inversion E8; subst; auto]. apply bind_inv in E8. destruct E8 as (R & ER & E8). inversion E8; subst.
    eapply holds_set; [exact CP|exact H5|]. destruct H5 as [B _]. apply get_region_ok in ER. exact (B _ _ (proj1 ER)). }
  inversion H; subst. apply holds_watched in H6. exact H6.
Qed.
End Watch.
