(** When the number of measurements the client asked for trains a region. *)
From Coq Require Import ZArith Bool Ascii String Lia List.
From Flocq Require Import BinarySingleNaN.
From Verif Require Import Model.Base Model.Float Model.DatasetM Model.ParserM Model.DatasetIO Model.ModelStringM Model.PolicyModelsM Model.ConfigM Model.RuntimeM
  Spec.DatasetSpec Spec.DatasetClient Spec.RuntimeSpec Proofs.TreeFacts Proofs.MapFacts Proofs.KeyOrder Proofs.DatasetFacts Proofs.RuntimeFacts Proofs.RuntimeWatch Proofs.RuntimeLearn
  Proofs.RuntimeSettled Proofs.RuntimeCreate.
Import ListNotations.
Open Scope Z_scope.

Section Lit.
Variable P : platform.
Variable r0 : nat.
Variable n : Z.

(** The region learns, and is untrained exactly as long as its data set has less than [n] entries. *)
Definition settled_by (m : model) (d : dataset) : Prop := learner m /\ (m_trainable m = true <-> n <= 0 \/ ds_size d < n).
Definition good (R : region) : Prop := r_min_training R = n /\ settled_by (r_model R) (r_dataset R).
Definition lit (w : world) : Prop :=
  cf_global_period (w_config w) = 0 /\ cf_region_period (w_config w) = 0 /\ exists R, nth_error (w_regions w) r0 = Some R /\ good R.

Lemma lit_set w r R R' : lit w -> nth_error (w_regions w) r = Some R -> (r = r0 -> good R -> good R') -> lit (set_region w r R').
Proof.
  intros (A & B & Q & EQ & G) E K. split; [exact A|]. split; [exact B|]. cbn. destruct (Nat.eq_dec r r0) as [->|N].
  - rewrite E in EQ. injection EQ as <-. exists R'. split; [eapply nth_set_nth_eq; eauto|auto].
  - exists Q. split; [rewrite nth_set_nth_neq by auto; exact EQ|exact G].
Qed.

Lemma lit_files w f : lit w -> lit (set_files w f).
Proof. intros H. exact H. Qed.

Lemma lit_set_context w p c : lit w -> lit (set_context w p c).
Proof.
  intros H. unfold set_context. destruct (nth_error (w_regions w) (fst p)) as [R|] eqn:E; [|exact H].
  destruct (snd p); (eapply lit_set; [exact H|exact E|]); intros _ G; exact G.
Qed.

Lemma lit_complete w e : lit w -> lit (complete w e).
Proof.
  intros H. unfold complete. destruct (get_context w (fst e)) as [c| | | |]; auto. destruct (c_timer c) as [|[|] [|]]; auto.
  apply lit_set_context. exact H.
Qed.

Lemma lit_completes es : forall w, lit w -> lit (fold_left complete es w).
Proof. induction es; cbn; auto. intros. apply IHes, lit_complete. auto. Qed.

Lemma lit_delete w p w' : lit w -> delete_context w p = Ok w' -> lit w'.
Proof.
  intros H. unfold delete_context. destruct (nth_error (w_regions w) (fst p)) as [R|] eqn:ER; [|discriminate]. destruct (snd p) as [|k]; [discriminate|].
  destruct (nth_error (r_heap R) k) as [[c|]|]; try discriminate. intros E; inversion E; subst. eapply lit_set; [exact H|exact ER|]. intros _ G. exact G.
Qed.

(** A training of the region, or of another one. *)
Lemma store_still w m path w' : store_model w m path = Ok w' -> w_config w' = w_config w /\ w_regions w' = w_regions w.
Proof. intros E. unfold store_model in E. apply bind_inv in E. destruct E as ([t|] & _ & E); inversion E; subst; auto. Qed.

Lemma train_body_does w r st w' : train_body P w r st = Ok w' -> exists R, nth_error (w_regions w) r = Some R /\ w_config w' = w_config w /\
  (ds_size (r_dataset R) <= 0 /\ w_regions w' = w_regions w \/
   0 < ds_size (r_dataset R) /\ exists m, m_train P (r_model R) (r_dataset R) = Ok m /\ w_regions w' = set_nth (w_regions w) r (with_model R m)).
Proof.
  intros E. unfold train_body in E. apply bind_inv in E. destruct E as (R & ER & E). apply get_region_ok in ER. destruct ER as [ER _]. exists R. split; [exact ER|].
  destruct (Z.leb_spec (ds_size (r_dataset R)) 0) as [L|L]; [inversion E; subst; auto|]. destruct (negb _); [discriminate|].
  apply bind_inv in E. destruct E as (w1 & E1 & E). apply bind_inv in E. destruct E as (m & Em & E).
  assert (S1 : w_config w1 = w_config w /\ w_regions w1 = w_regions w).
  { unfold trace_best in E1. destruct (negb _); [inversion E1; subst; auto|]. destruct (ds_find_min _ _ _) as [[? ?] ?].
    apply bind_inv in E1. destruct E1 as (? & _ & E1). inversion E1; subst. auto. }
  destruct S1 as [S1 S2]. destruct (truthy (cf_retrain _)); [discriminate|].
  assert (K : w_config w' = w_config w1 /\ w_regions w' = set_nth (w_regions w1) r (with_model R m)).
  { destruct (truthy (cf_store_models _)); [|inversion E; subst; auto]. apply bind_inv in E. destruct E as (w2 & E2 & E). apply store_still in E2, E. destruct E2 as [A B], E as [C D].
    split; [rewrite C, A; reflexivity|rewrite D, B; reflexivity]. }
  destruct K as [K1 K2]. split; [congruence|]. right. split; [lia|]. exists m. split; [exact Em|]. congruence.
Qed.

Lemma lit_train_other w r st w' : r <> r0 -> lit w -> train_body P w r st = Ok w' -> lit w'.
Proof.
  intros N (A & B & Q & EQ & G) E. destruct (train_body_does _ _ _ _ E) as (R & ER & C & [[_ W]|(_ & m & _ & W)]).
  - split; [congruence|]. split; [congruence|]. rewrite W. eauto.
  - split; [congruence|]. split; [congruence|]. rewrite W. exists Q. split; [rewrite nth_set_nth_neq by auto; exact EQ|exact G].
Qed.

Lemma quietly_does w r st w' R : get_region w r = Ok R -> train_quietly P w r st = Ok w' -> m_trainable (r_model R) = false /\ w' = w \/ train_body P w r st = Ok w'.
Proof. intros ER E. unfold train_quietly in E. rewrite ER in E. cbn [bind] in E. destruct (m_trainable (r_model R)); cbn [negb] in E; [auto|]. inversion E; auto. Qed.

(** autoTrain without periods: only the number of entries counts. *)
Lemma auto_without w r w' : cf_global_period (w_config w) = 0 -> cf_region_period (w_config w) = 0 -> auto_train P w r = Ok w' ->
  exists R, nth_error (w_regions w) r = Some R /\
    ((m_trainable (r_model R) = false \/ r_min_training R <= 0 \/ ds_size (r_dataset R) < r_min_training R) /\ w' = w \/
     m_trainable (r_model R) = true /\ 0 < r_min_training R <= ds_size (r_dataset R) /\ train_body P w r (r_idx R) = Ok w').
Proof.
  intros A B E. unfold auto_train in E. apply bind_inv in E. destruct E as (R & ER & E). assert (ER' := ER). apply get_region_ok in ER. destruct ER as [ER _].
  exists R. split; [exact ER|]. rewrite A, B in E. cbn [truthy Z.eqb negb andb] in E.
  destruct (m_trainable (r_model R)) eqn:T; cbn [negb] in E; [|inversion E; subst; auto].
  destruct (Z.ltb_spec 0 (r_min_training R)) as [L|L]; cbn [andb] in E; [|inversion E; subst; left; split; [lia|auto]].
  destruct (Z.leb_spec (r_min_training R) (ds_size (r_dataset R))) as [L2|L2]; [|inversion E; subst; left; split; [lia|auto]].
  right. split; [reflexivity|]. split; [lia|]. destruct (quietly_does _ _ _ _ _ ER' E) as [[X _]|X]; [congruence|exact X].
Qed.

Lemma lit_auto_other w r w' : r <> r0 -> lit w -> auto_train P w r = Ok w' -> lit w'.
Proof.
  intros N H E. destruct (auto_without _ _ _ (proj1 H) (proj1 (proj2 H)) E) as (R & ER & [[_ ->]|(_ & _ & E1)]); [exact H|]. eapply lit_train_other; eauto.
Qed.

Lemma insert_grows d f p x d' : ds_insert d f p x = Ok d' -> ds_size d <= ds_size d'.
Proof.
  unfold ds_insert. destruct (negb (nan_free f)); [discriminate|]. unfold ds_size. destruct (map_find key_lt (f, p) d); intros E; inversion E; subst.
  - rewrite length_update. lia.
  - rewrite length_add. lia.
Qed.

(** What autoTrain does right after a measurement. *)
Lemma lit_auto_self w w' R : cf_global_period (w_config w) = 0 -> cf_region_period (w_config w) = 0 -> nth_error (w_regions w) r0 = Some R ->
  r_min_training R = n -> learner (r_model R) -> (m_trainable (r_model R) = false -> 0 < n <= ds_size (r_dataset R)) ->
  auto_train P w r0 = Ok w' -> lit w'.
Proof.
  intros A B ER M L K E. destruct (auto_without _ _ _ A B E) as (R1 & ER1 & C). rewrite ER in ER1. injection ER1 as <-.
  destruct C as [[C ->]|(T & S & E1)].
  - split; [exact A|]. split; [exact B|]. exists R. split; [exact ER|]. split; [exact M|]. split; [exact L|]. rewrite M in C. destruct (m_trainable (r_model R)) eqn:T.
    + split; [intros _; lia|reflexivity].
    + specialize (K eq_refl). split; [discriminate|lia].
  - destruct (train_body_does _ _ _ _ E1) as (R1 & ER1 & C & D). rewrite ER in ER1. injection ER1 as <-. destruct D as [[D _]|(D & m & EM & W)]; [lia|].
    destruct (learner_train _ _ _ _ L EM) as [L' T']. split; [congruence|]. split; [congruence|]. rewrite W. exists (with_model R m). split; [eapply nth_set_nth_eq; eauto|].
    split; [exact M|]. split; [exact L'|]. cbn. rewrite T'. rewrite M in S. split; [discriminate|lia].
Qed.

Lemma lit_collect_context w r p x w' : lit w -> collect_context P w r p x = Ok w' -> lit w'.
Proof.
  intros H E. unfold collect_context in E. apply bind_inv in E. destruct E as (R & ER & E). apply bind_inv in E. destruct E as (c & EC & E).
  apply get_region_ok in ER. destruct ER as [ER _].
  set (R1 := if truthy (cf_trace_csv (w_config w)) then _ else R) in *.
  assert (S1 : r_model R1 = r_model R /\ r_dataset R1 = r_dataset R /\ r_min_training R1 = r_min_training R) by (unfold R1; destruct (truthy (cf_trace_csv (w_config w))); auto).
  clearbody R1. destruct S1 as (S1 & S2 & S3). apply bind_inv in E. destruct E as (R2 & E2 & E).
  assert (S4 : r_model R2 = r_model R /\ r_min_training R2 = r_min_training R /\ ds_size (r_dataset R) <= ds_size (r_dataset R2)).
  { destruct (truthy (cf_persistent (w_config w)) || m_trainable (r_model R1)).
    - apply bind_inv in E2. destruct E2 as (d & Ed & E2). apply insert_grows in Ed. inversion E2; subst. rewrite S2 in Ed. unfold moved_features. destruct (is_sync_of r p); cbn; auto.
    - inversion E2; subst. rewrite S2. split; [exact S1|]. split; [exact S3|lia]. }
  clear E2 S1 S2 S3. destruct S4 as (S1 & S2 & S3).
  apply bind_inv in E. destruct E as (w1 & E1 & E). apply bind_inv in E. destruct E as (w2 & E3 & E). apply bind_inv in E. destruct E as (R3 & ER3 & E).
  assert (H1 : lit w1).
  { destruct H as (A & B & Q & EQ & G). destruct (Nat.eq_dec r r0) as [->|N].
    - rewrite ER in EQ. injection EQ as <-. destruct G as (G1 & G2 & G3). eapply lit_auto_self; [| | | | | |exact E1]; cbn.
      + exact A.
      + exact B.
      + eapply nth_set_nth_eq. exact ER.
      + congruence.
      + rewrite S1. exact G2.
      + rewrite S1. intros T. assert (~ (n <= 0 \/ ds_size (r_dataset R) < n)) by (intros X; apply G3 in X; congruence). lia.
    - eapply lit_auto_other; [exact N| |exact E1]. split; [exact A|]. split; [exact B|]. exists Q. cbn. split; [rewrite nth_set_nth_neq by auto; exact EQ|exact G]. }
  assert (H2 : lit w2) by (destruct (is_sync_of r p); [inversion E3; subst; auto|eapply lit_delete; eauto]).
  inversion E; subst. apply get_region_ok in ER3. eapply lit_set; [exact H2|exact (proj1 ER3)|]. intros _ G. exact G.
Qed.

Lemma lit_collect_loop r ps : forall w w' kept, lit w -> collect_loop P w r ps = Ok (w', kept) -> lit w'.
Proof.
  induction ps as [|p ps IH]; cbn; intros w w' kept H E; [inversion E; subst; auto|].
  apply bind_inv in E. destruct E as (c & EC & E). apply bind_inv in E. destruct E as ([x|] & ED & E).
  - apply bind_inv in E. destruct E as (w1 & E1 & E). eapply IH; [|exact E]. eapply lit_collect_context; eauto.
  - apply bind_inv in E. destruct E as ([w1 kept1] & E1 & E). inversion E; subst. eauto.
Qed.

Lemma lit_collect_pending w r w' : lit w -> collect_pending P w r = Ok w' -> lit w'.
Proof.
  intros H E. unfold collect_pending in E. apply bind_inv in E. destruct E as (R & ER & E). apply bind_inv in E. destruct E as ([w1 kept] & E1 & E).
  apply bind_inv in E. destruct E as (R1 & ER1 & E). inversion E; subst. apply get_region_ok in ER1. eapply lit_set; [eapply lit_collect_loop; eauto|exact (proj1 ER1)|].
  intros _ G. exact G.
Qed.

Lemma lit_region_train w r st collect force w' : r <> r0 -> lit w -> region_train P w r st collect force = Ok w' -> lit w'.
Proof.
  intros N H E. unfold region_train in E. apply bind_inv in E. destruct E as (R & ER & E). destruct (negb force && _); [inversion E; subst; auto|].
  apply bind_inv in E. destruct E as (w1 & E1 & E). eapply lit_train_other; [exact N| |exact E]. destruct collect; [eapply lit_collect_pending; eauto|inversion E1; subst; auto].
Qed.

Lemma lit_begin w r async now w' p : lit w -> begin_context w r async now = Ok (w', p) -> lit w'.
Proof.
  intros H E. unfold begin_context in E. apply bind_inv in E. destruct E as (R & ER & E). apply get_region_ok in ER. destruct ER as [ER _].
  match type of E with context [if async then ?a else ?b] => assert (K : good R -> good (fst (if async then a else b))) end.
  { intros G. destruct async; exact G. }
  destruct (if async then _ else _) as [R1 p1]. cbn in K. destruct (r_idx R1 =? idx_max); [discriminate|].
  apply bind_inv in E. destruct E as (c & EC & E). inversion E; subst. apply lit_set_context. eapply lit_set; [exact H|exact ER|]. intros _ G. exact (K G).
Qed.

Lemma lit_end_context w r p now early w' : lit w -> end_context P w r p now early = Ok w' -> lit w'.
Proof.
  intros H E. unfold end_context in E. apply bind_inv in E. destruct E as (c & EC & E).
  set (w1 := set_context w p _) in *. assert (H1 : lit w1) by (apply lit_set_context; exact H).
  destruct (is_sync_of r p).
  - apply bind_inv in E. destruct E as ([x|] & _ & E); [|discriminate]. eapply lit_collect_context; eauto.
  - apply bind_inv in E. destruct E as (R & ER & E). eapply lit_collect_pending; [|exact E]. apply get_region_ok in ER.
    assert (H2 : lit (set_region w1 r (with_pending R (r_pending R ++ [p])))) by (eapply lit_set; [exact H1|exact (proj1 ER)|]; intros _ G; exact G).
    destruct early; [apply lit_complete|]; auto.
Qed.

Lemma lit_drain r : forall waits w w', lit w -> drain P w r waits = Ok w' -> lit w'.
Proof.
  induction waits as [|b rest IH]; intros w w' H E; cbn [drain] in E; apply bind_inv in E; destruct E as (R & ER & E).
  - destruct (r_pending R); [|discriminate]. inversion E; subst. auto.
  - destruct (r_pending R); [inversion E; subst; apply (lit_completes (List.concat (b :: rest))); auto|].
    apply bind_inv in E. destruct E as (w1 & E1 & E). eapply IH; [|exact E]. eapply lit_collect_pending; [|exact E1]. apply lit_completes. auto.
Qed.

Lemma lit_destroy w r waits w' : lit w -> destroy_region P w r waits = Ok w' -> lit w'.
Proof.
  intros H E. unfold destroy_region in E. apply bind_inv in E. destruct E as (w1 & E1 & E). apply bind_inv in E. destruct E as (R & ER & E).
  assert (H1 : lit w1). { eapply lit_drain; [|exact E1]. destruct H as (_ & B & C). split; [reflexivity|]. split; [exact B|exact C]. }
  apply get_region_ok in ER. inversion E; subst. destruct (truthy (cf_persistent (w_config w1))); (eapply lit_set; [exact H1|exact (proj1 ER)|]; intros _ G; exact G).
Qed.

Lemma lit_destroy_all waits rs : forall w w', lit w -> destroy_all P w rs waits = Ok w' -> lit w'.
Proof.
  induction rs as [|r rs IH]; cbn; intros w w' H E; [inversion E; subst; auto|]. apply bind_inv in E. destruct E as (w1 & E1 & E).
  eapply IH; [|exact E]. eapply lit_destroy; eauto.
Qed.

Lemma learner_gets m D x k m' : learner m -> m_get_index P D m x = Ok (k, m') -> learner m' /\ m_trainable m' = m_trainable m.
Proof.
  destruct m; cbn; try contradiction; intros _ E.
  - destruct trainable; cbn [negb] in E; [|apply bind_inv in E; destruct E as (? & _ & E); inversion E; subst; cbn; auto].
    destruct explorer; [|discriminate E]. apply bind_inv in E; destruct E as ([? ?] & _ & E); inversion E; subst; cbn; auto.
  - destruct trainable; cbn [negb] in E; [|apply bind_inv in E; destruct E as (? & _ & E); inversion E; subst; cbn; auto].
    destruct explorer; [|discriminate E]. apply bind_inv in E; destruct E as ([? ?] & _ & E); inversion E; subst; cbn; auto.
Qed.

Lemma lit_get_policy w r p D w' k : lit w -> get_policy_index P w r p D = Ok (w', k) -> lit w'.
Proof.
  intros H E. unfold get_policy_index in E. apply bind_inv in E. destruct E as (R & ER & E). apply get_region_ok in ER. destruct ER as [ER _].
  apply bind_inv in E. destruct E as (c & EC & E). apply bind_inv in E. destruct E as ([ch m] & EM & E). apply bind_inv in E. destruct E as (w1 & E1 & E).
  assert (S1 : w_config w1 = w_config w /\ w_regions w1 = w_regions w).
  { unfold trace_policy in E1. destruct (negb _); [inversion E1; subst; auto|]. apply bind_inv in E1. destruct E1 as (? & _ & E1). inversion E1; subst. auto. }
  destruct S1 as [S1 S2]. apply bind_inv in E. destruct E as (c' & EC' & E). inversion E; subst. apply lit_set_context.
  assert (H1 : lit w1) by (unfold lit; rewrite S1, S2; exact H). eapply lit_set; [exact H1|rewrite S2; exact ER|]. intros _ (G1 & G2 & G3).
  destruct (learner_gets _ _ _ _ _ G2 EM) as [L T]. split; [exact G1|]. split; [exact L|]. cbn. rewrite T. exact G3.
Qed.

(** The creation of another region. *)
Lemma lit_new_region w nf nm np mt info yaml init w' r : lit w -> new_region P w nf nm np mt info yaml init = Ok (w', r) -> lit w'.
Proof.
  intros H E. unfold new_region in E. apply bind_inv in E. destruct E as ([mn0 ps0] & _ & E). apply bind_inv in E. destruct E as ([[mn ps] info'] & _ & E).
  apply bind_inv in E. destruct E as (m0 & _ & E). apply bind_inv in E. destruct E as (m1 & _ & E).
  set (q := List.length (w_regions w)) in *.
  match type of E with context [load_persistent P ?v _ _] => set (v0 := v) in * end.
  assert (H0 : lit v0).
  { destruct H as (A & B & Q & EQ & G). split; [exact A|]. split; [exact B|]. exists Q. split; [|exact G]. unfold v0. cbn. rewrite nth_error_app1; [exact EQ|]. apply nth_error_Some. congruence. }
  assert (N : q <> r0). { destruct H as (_ & _ & Q & EQ & _). assert (r0 < q)%nat by (apply nth_error_Some; congruence). lia. }
  clearbody v0. clear H.
  assert (SR : forall v X, lit v -> (exists Y, get_region v q = Ok Y) -> lit (set_region v q X)).
  { intros v X V (Y & EY). apply get_region_ok in EY. eapply lit_set; [exact V|exact (proj1 EY)|]. intros EQ. contradiction. }
  assert (LD : forall v text v', lit v -> load_dataset v q text = Ok v' -> lit v').
  { intros v text v' V E1. unfold load_dataset in E1. apply bind_inv in E1. destruct E1 as (R & ER & E1). apply bind_inv in E1. destruct E1 as ([d ?] & _ & E1). inversion E1; subst. eauto. }
  apply bind_inv in E. destruct E as (v1 & E1 & E).
  assert (H1 : lit v1).
  { unfold load_persistent in E1. destruct (truthy _); [|inversion E1; subst; auto]. apply bind_inv in E1. destruct E1 as (v & E2 & E1). eapply lit_auto_other; [exact N| |exact E1].
    destruct (file_find _ _); [eauto|inversion E2; subst; auto]. }
  apply bind_inv in E. destruct E as (v2 & E2 & E).
  assert (H2 : lit v2).
  { unfold load_and_train in E2. destruct (param_find _ _); [|inversion E2; subst; auto]. destruct (file_find _ _); [|discriminate].
    apply bind_inv in E2. destruct E2 as (v & E3 & E2). apply bind_inv in E2. destruct E2 as (R & _ & E2). destruct (_ <=? 0); [discriminate|]. eapply lit_region_train; [exact N| |exact E2]. eauto. }
  apply bind_inv in E. destruct E as (v3 & E3 & E).
  assert (H3 : lit v3).
  { unfold load_optimal in E3. destruct (bytes_eqb _ _); [|inversion E3; subst; auto]. destruct (file_find _ _); [|discriminate].
    apply bind_inv in E3. destruct E3 as (R & ER & E3). apply bind_inv in E3. destruct E3 as (m & _ & E3). inversion E3; subst. eauto. }
  apply bind_inv in E. destruct E as (v4 & E4 & E).
  assert (H4 : lit v4).
  { unfold load_dataset_map in E4. destruct (bytes_eqb _ _); [|inversion E4; subst; auto]. destruct (file_find _ _); [|discriminate].
    apply bind_inv in E4. destruct E4 as (v & E5 & E4). apply bind_inv in E4. destruct E4 as (R & ER & E4). destruct (_ <=? 0); [discriminate|].
    apply bind_inv in E4. destruct E4 as (m & _ & E4). inversion E4; subst. eauto. }
  apply bind_inv in E. destruct E as (v5 & E5 & E).
  assert (H5 : lit v5).
  { destruct (truthy _); [|inversion E5; subst; auto]. apply bind_inv in E5. destruct E5 as (R & ER & E5). inversion E5; subst. eauto. }
  inversion E; subst. exact H5.
Qed.

(** The calls treated here: all but explicit trainings of the region. *)
Definition no_training (o : op) : Prop := match o with OpTrainAll _ _ => False | OpTrain r _ _ _ => r <> r0 | _ => True end.

Lemma lit_step w o w' x : no_training o -> lit w -> step P w o = Ok (w', x) -> lit w'.
Proof.
  intros O H E. destruct o as [nf nm np mt info yaml init|r async now|r fs now|r p y|r p D|r p now early|r p y|r st collect force|st collect|r|r waits|waits|p ms]; cbn in O, E.
  - apply bind_inv in E. destruct E as ([w1 q] & E1 & E). inversion E; subst. eapply lit_new_region; eauto.
  - apply bind_inv in E. destruct E as ([w1 p] & E1 & E). inversion E; subst. eapply lit_begin; eauto.
  - apply bind_inv in E. destruct E as ([w1 p] & E1 & E). inversion E; subst. unfold begin_features in E1. apply bind_inv in E1. destruct E1 as ([w2 q] & E2 & E1).
    apply bind_inv in E1. destruct E1 as (c & EC & E1). inversion E1; subst. apply lit_set_context. eapply lit_begin; eauto.
  - apply bind_inv in E. destruct E as (R & _ & E). apply bind_inv in E. destruct E as (q & EQ & E). apply bind_inv in E. destruct E as (w1 & E1 & E). inversion E; subst.
    unfold set_feature in E1. apply bind_inv in E1. destruct E1 as (c & EC & E1). inversion E1; subst. apply lit_set_context. exact H.
  - apply bind_inv in E. destruct E as (q & EQ & E). apply bind_inv in E. destruct E as ([w1 k] & E1 & E). inversion E; subst. eapply lit_get_policy; eauto.
  - apply bind_inv in E. destruct E as (R & _ & E). apply bind_inv in E. destruct E as (q & EQ & E). apply bind_inv in E. destruct E as (w1 & E1 & E). inversion E; subst.
    eapply lit_end_context; eauto.
  - apply bind_inv in E. destruct E as (q & EQ & E). apply bind_inv in E. destruct E as (w1 & E1 & E). inversion E; subst.
    unfold end_metric in E1. apply bind_inv in E1. destruct E1 as (w2 & E2 & E1). eapply lit_collect_pending; [|exact E1]. eapply lit_collect_context; eauto.
  - apply bind_inv in E. destruct E as (w1 & E1 & E). inversion E; subst. eapply lit_region_train; eauto.
  - destruct O.
  - apply bind_inv in E. destruct E as (w1 & E1 & E). inversion E; subst. eapply lit_collect_pending; eauto.
  - apply bind_inv in E. destruct E as (w1 & E1 & E). inversion E; subst. eapply lit_destroy; eauto.
  - apply bind_inv in E. destruct E as (w1 & E1 & E). inversion E; subst. unfold shutdown in E1. apply bind_inv in E1. destruct E1 as (w2 & E2 & E1).
    eapply lit_destroy_all; [|exact E1]. destruct (truthy (cf_exec_info (w_config w))); [|inversion E2; subst; auto]. apply bind_inv in E2. destruct E2 as (s & _ & E2). inversion E2; subst. exact H.
  - inversion E; subst. apply lit_complete; auto.
Qed.

Lemma lit_run os : forall w w' xs, Forall no_training os -> lit w -> run P w os = Ok (w', xs) -> lit w'.
Proof.
  induction os as [|o os IH]; intros w w' xs F H E; cbn [run] in E; [inversion E; subst; auto|]. inversion F; subst.
  apply bind_inv in E. destruct E as ([w1 x] & E1 & E). apply bind_inv in E. destruct E as ([w2 xs2] & E2 & E). inversion E; subst. eapply IH; [eassumption| |exact E2]. eapply lit_step; eauto.
Qed.
End Lit.

(** ** The creation of the region *)

Section Created.
Variable P : platform.

Lemma step_length w o w' x : step P w o = Ok (w', x) ->
  match o with OpRegion _ _ _ _ _ _ _ => x = GotRegion (List.length (w_regions w)) /\ List.length (w_regions w') = S (List.length (w_regions w))
  | _ => (forall r, x <> GotRegion r) /\ List.length (w_regions w') = List.length (w_regions w) end.
Proof.
  intros E.
  assert (C : closed P (fun _ _ _ => True) (cf_single_model (w_config w)) (cf_persistent (w_config w)) true) by (constructor; auto).
  assert (W : watched (fun _ _ _ => True) (cf_single_model (w_config w)) (cf_persistent (w_config w)) w) by (split; auto).
  assert (ORD : match o with OpRegion _ _ _ _ _ _ _ | OpGetPolicy _ _ _ => False | OpTrain _ _ _ force => force = true -> true = true | _ => True end ->
    List.length (w_regions w') = List.length (w_regions w)) by (intros K; eapply watched_step; eauto).
  assert (NG : (forall nf nm np mt info yaml init, o <> OpRegion nf nm np mt info yaml init) -> forall r, x <> GotRegion r).
  { intros NO r ->. destruct (step_region _ _ _ _ _ E) as (nf & nm & np & mt & info & yaml & init & ->). eapply NO. reflexivity. }
  destruct o as [nf nm np mt info yaml init|r async now|r fs now|r p y|r p D|r p now early|r p y|r st collect force|st collect|r|r waits|waits|p ms];
    try (split; [apply NG; discriminate|apply ORD; auto]; fail).
  - cbn in E. apply bind_inv in E. destruct E as ([v r] & E & E1). inversion E1; subst. destruct (watched_region P _ _ _ true C _ _ _ _ _ _ _ _ _ _ W E) as [_ A]; [right; auto|].
    destruct (RuntimeNew.new_region_spec P _ _ _ _ _ _ _ _ _ _ E) as (-> & _). auto.
  - split; [apply NG; discriminate|]. cbn in E. apply bind_inv in E. destruct E as (q & EQ & E). apply bind_inv in E. destruct E as ([w1 k] & E1 & E). inversion E; subst.
    destruct (get_policy_exact _ _ _ _ _ _ _ E1) as (R & c & m & _ & _ & _ & _ & L & _). exact L.
Qed.

Lemma run_numbers os : forall w w' xs, run P w os = Ok (w', xs) ->
  (List.length (w_regions w) <= List.length (w_regions w'))%nat /\
  forall o r, In (o, GotRegion r) (combine os xs) -> (List.length (w_regions w) <= r < List.length (w_regions w'))%nat.
Proof.
  induction os as [|o os IH]; intros w w' xs H; cbn [run] in H.
  - inversion H; subst. split; [lia|intros ? ? []].
  - apply bind_inv in H. destruct H as ([w1 x] & E1 & H). apply bind_inv in H. destruct H as ([w2 xs2] & E2 & H). inversion H; subst. clear H.
    destruct (IH _ _ _ E2) as [A B]. assert (L := step_length _ _ _ _ E1). assert (LE : (List.length (w_regions w) <= List.length (w_regions w1))%nat) by (destruct o; lia).
    split; [lia|]. intros o' r [X|X].
    + injection X as -> ->. destruct o'; try (exfalso; eapply (proj1 L); reflexivity). destruct L as [L1 L2]. injection L1 as ->. lia.
    + specialize (B _ _ X). lia.
Qed.

(** The calls before and after the creation. *)
Lemma run_split os : forall w w' xs o x, run P w os = Ok (w', xs) -> In (o, x) (combine os xs) ->
  exists os1 os2 xs1 xs2 w1 w2, os = os1 ++ o :: os2 /\ xs = xs1 ++ x :: xs2 /\ combine os xs = combine os1 xs1 ++ (o, x) :: combine os2 xs2 /\
    run P w os1 = Ok (w1, xs1) /\ step P w1 o = Ok (w2, x) /\ run P w2 os2 = Ok (w', xs2).
Proof.
  induction os as [|a os IH]; intros w w' xs o x H I; cbn [run] in H.
  - inversion H; subst. destruct I.
  - apply bind_inv in H. destruct H as ([w1 y] & E1 & H). apply bind_inv in H. destruct H as ([w2 ys] & E2 & H). inversion H; subst. clear H. destruct I as [I|I].
    + injection I as <- <-. exists [], os, [], ys, w, w1. cbn. auto 10.
    + destruct (IH _ _ _ _ _ E2 I) as (os1 & os2 & xs1 & xs2 & v1 & v2 & -> & -> & C & R1 & S1 & R2).
      exists (a :: os1), os2, (y :: xs1), xs2, v1, v2. cbn. rewrite C. repeat split; auto. rewrite E1. cbn [bind]. rewrite R1. reflexivity.
Qed.

Lemma created_once os w w' xs o o' r : run P w os = Ok (w', xs) -> In (o, GotRegion r) (combine os xs) -> In (o', GotRegion r) (combine os xs) -> o' = o.
Proof.
  intros H I I'. destruct (run_split _ _ _ _ _ _ H I) as (os1 & os2 & xs1 & xs2 & w1 & w2 & _ & _ & C & R1 & S1 & R2). rewrite C in I'.
  assert (L := step_length _ _ _ _ S1). destruct (step_region _ _ _ _ _ S1) as (nf & nm & np & mt & info & yaml & init & EO). rewrite EO in L. destruct L as [L1 L2]. injection L1 as L1.
  apply in_app_or in I'. destruct I' as [I'|[I'|I']].
  - apply (run_numbers _ _ _ _ R1) in I'. lia.
  - injection I' as ->. reflexivity.
  - apply (run_numbers _ _ _ _ R2) in I'. lia.
Qed.

Lemma created_lit w nf nm np n info init w' r mn ps : step P w (OpRegion nf nm np n info [] init) = Ok (w', GotRegion r) ->
  cf_global_period (w_config w) = 0 -> cf_region_period (w_config w) = 0 -> cf_persistent (w_config w) = 0 ->
  parse_policy_model (match info with [] => cf_policy_model (w_config w) | _ => info end) = Ok (mn, ps) -> mn = $"DecisionTree" \/ mn = $"RandomForest" ->
  param_find ($"load") ps = None -> param_find ($"load-dataset") ps = None -> lit r n w'.
Proof.
  intros E A B C EP MN L1 L2. cbn [step] in E. apply bind_inv in E. destruct E as ([w1 r1] & E & E1). inversion E1; subst w1 r1. clear E1.
  assert (ST : starts_empty (w_config w) info).
  { split; [exact C|]. intros name ps' EP'. rewrite EP in EP'. injection EP' as <- <-. split; [|exact L2]. destruct MN as [-> | ->]; discriminate. }
  destruct (new_region_empty _ _ _ _ _ _ _ _ _ _ _ E ST) as (mn0 & ps0 & mn1 & ps1 & info' & m0 & m1 & m & R & EP0 & ER & EC & EL & EO & -> & -> & ->).
  rewrite EP in EP0. injection EP0 as <- <-.
  assert (RS : mn1 = mn /\ ps1 = ps).
  { unfold resolve_static_region in ER. destruct (bytes_eqb mn ($"StaticRegion")) eqn:BE; [|inversion ER; auto]. destruct MN as [-> | ->]; discriminate BE. }
  destruct RS as [-> ->]. unfold load_models in EL. cbn [bind] in EL. rewrite L1 in EL. inversion EL; subst m1.
  assert (EM : m = m0) by (apply EO; destruct MN as [-> | ->]; discriminate). subst m.
  destruct (created_exploring P _ _ _ _ _ _ MN EC) as (e & EX & _).
  split; [exact A|]. split; [exact B|]. eexists. cbn. split; [apply RuntimeNew.nth_last; reflexivity|]. split; [reflexivity|]. cbn.
  assert (K : learner m0 /\ m_trainable m0 = true) by (destruct EX as [(? & ? & ->)|(? & ? & ->)]; cbn; auto). destruct K as [K1 K2].
  split; [exact K1|]. rewrite K2. split; [intros _; cbn; lia|reflexivity].
Qed.

(** ** Counting keys *)

Lemma distinct_app a b : exists c, distinct_keys (a ++ b) = distinct_keys a ++ c.
Proof.
  induction a as [|k a [c IH]]; cbn; [eauto|]. rewrite IH, filter_app. eexists. reflexivity.
Qed.

Definition keys (ms : list meas) : list (list f32 * Z) := map (fun m => (m_features m, m_policy m)) ms.

Lemma distinct_prefix k ms : (List.length (distinct_keys (keys (firstn k ms))) <= List.length (distinct_keys (keys ms)))%nat.
Proof.
  rewrite <- (firstn_skipn k ms) at 2. unfold keys. rewrite map_app. destruct (distinct_app (map (fun m => (m_features m, m_policy m)) (firstn k ms)) (map (fun m => (m_features m, m_policy m)) (skipn k ms))) as [c ->].
  rewrite app_length. lia.
Qed.

Lemma insert_all_nan h : forall d d', insert_all d h = Ok d' -> Forall no_nan_features h.
Proof.
  induction h as [|m h IH]; intros d d' E; cbn [insert_all] in E; [constructor|]. apply bind_inv in E. destruct E as (d1 & E1 & E). constructor; [|eauto].
  unfold ds_insert in E1. destruct (nan_free (m_features m)) eqn:N; [|discriminate]. unfold no_nan_features. apply fok_Forall. exact N.
Qed.

Lemma insert_all_reach h : forall d ks d', reachable d ks -> insert_all d h = Ok d' -> reachable d' (ks ++ keys h).
Proof.
  induction h as [|m h IH]; intros d ks d' R E; assert (F := insert_all_nan _ _ _ E); cbn [insert_all] in E.
  - injection E as <-. cbn. rewrite app_nil_r. exact R.
  - apply bind_inv in E. destruct E as (d1 & E1 & E). inversion F; subst. replace (ks ++ keys (m :: h)) with ((ks ++ [(m_features m, m_policy m)]) ++ keys h) by (rewrite <- app_assoc; reflexivity).
    eapply IH; [|exact E]. eapply reach_insert; eauto.
Qed.

Lemma insert_all_size h d : insert_all [] h = Ok d -> ds_size d = Z.of_nat (List.length (distinct_keys (keys h))).
Proof. intros E. apply (insert_all_reach _ _ [] _ reach_empty) in E. apply reachable_size in E. exact E. Qed.

Theorem trained_when c files os w xs r R ph ms nf nm np n info init mn ps :
  run P (start_world c files) os = Ok (w, xs) -> forallb explicit os = true ->
  In (OpRegion nf nm np n info [] init, GotRegion r) (combine os xs) ->
  cf_global_period c = 0 -> cf_region_period c = 0 -> cf_persistent c = 0 ->
  parse_policy_model (match info with [] => cf_policy_model c | _ => info end) = Ok (mn, ps) -> mn = $"DecisionTree" \/ mn = $"RandomForest" ->
  param_find ($"load") ps = None -> param_find ($"load-dataset") ps = None ->
  (forall st collect, ~ In (OpTrainAll st collect) os) -> (forall st collect force, ~ In (OpTrain r st collect force) os) ->
  followed r (combine os xs) = Some (ph, ms) -> nth_error (w_regions w) r = Some R ->
  (m_trainable (r_model R) = true <-> n <= 0 \/ Z.of_nat (List.length (distinct_keys (map (fun m => (m_features m, m_policy m)) ms))) < n).
Proof.
  intros H EX I A B C EP MN L1 L2 NT NR FO ER.
  destruct (run_split _ _ _ _ _ _ H I) as (os1 & os2 & xs1 & xs2 & w1 & w2 & EO & EXS & EC & R1 & S1 & R2).
  assert (EX1 : forallb explicit os1 = true) by (rewrite EO, forallb_app in EX; apply andb_prop in EX; apply EX).
  destruct (RuntimeAccount.inv_run P (start_world c files) eq_refl eq_refl eq_refl _ _ _ EX1 R1) as (log1 & I1).
  assert (CF : same_persistent c (w_config w1)) by exact (RuntimeAccount.i_config _ _ _ _ _ I1).
  assert (G0 : cf_global_period (w_config w1) = 0). { destruct CF as [_ [CF|CF]]; congruence. }
  assert (LW : lit r n w).
  { eapply lit_run; [| |exact R2].
    - apply Forall_forall. intros o IO. assert (IN : In o os) by (rewrite EO; apply in_or_app; right; right; exact IO). destruct o; cbn; auto.
      + intros ->. exact (NR _ _ _ IN).
      + exact (NT _ _ IN).
    - eapply created_lit; [exact S1|exact G0| | | |exact MN|exact L1|exact L2].
      + rewrite (same_config_field cf_region_period _ _ (fun _ => eq_refl) CF). exact B.
      + rewrite (same_config_field cf_persistent _ _ (fun _ => eq_refl) CF). exact C.
      + rewrite (same_config_field cf_policy_model _ _ (fun _ => eq_refl) CF). exact EP. }
  destruct LW as (_ & _ & R' & ER' & _ & _ & T). rewrite ER in ER'. injection ER' as <-.
  destruct (client_dataset P _ _ _ _ _ _ _ _ _ H EX FO ER) as (log & k & _ & _ & _ & INS & LK & KK).
  { intros nf' nm' np' mt' info' yaml' init' I'. assert (Q := created_once _ _ _ _ _ _ _ H I I'). injection Q as -> -> -> -> -> -> ->.
    split; [exact C|]. intros name ps' EP'. rewrite EP in EP'. injection EP' as <- <-. split; [|exact L2]. destruct MN as [-> | ->]; discriminate. }
  apply insert_all_size in INS. fold (keys ms). destruct (m_trainable (r_model R)) eqn:TR.
  - assert (KE : k = List.length ms) by (apply KK; unfold keeps; rewrite TR; apply orb_true_r). rewrite KE, firstn_all in INS. rewrite INS in T. exact T.
  - assert (PR := distinct_prefix k ms). split; [discriminate|]. intros [X|X]; apply T; [left; exact X|right]. lia.
Qed.

Lemma distinct_incl ks : incl (distinct_keys ks) ks.
Proof.
  induction ks as [|k ks IH]; cbn; [intros ? []|]. intros x [<-|X]; [left; reflexivity|]. apply filter_In in X. right. apply IH, X.
Qed.

Lemma distinct_nodup ks : Forall kok ks -> NoDup (distinct_keys ks).
Proof.
  intros F. assert (D := distinct_pd ks). assert (K := distinct_ok _ F). induction D as [|k l FA D IH]; constructor; inversion K; subst; auto.
  intros X. rewrite Forall_forall in FA. specialize (FA _ X). rewrite keqb_refl in FA by assumption. discriminate.
Qed.

Lemma few_keys ms F np : Forall no_nan_features ms -> Forall (fun m => In (m_features m) F /\ 0 <= m_policy m < np) ms ->
  Z.of_nat (List.length (distinct_keys (keys ms))) <= Z.of_nat (List.length F) * Z.max 0 np.
Proof.
  intros N A. set (T := list_prod F (map Z.of_nat (seq 0 (Z.to_nat np)))).
  assert (L : List.length T = (List.length F * Z.to_nat np)%nat) by (unfold T; rewrite prod_length, map_length, seq_length; reflexivity).
  assert (X : (List.length (distinct_keys (keys ms)) <= List.length T)%nat).
  { apply NoDup_incl_length.
    - apply distinct_nodup. unfold keys. apply Forall_map. eapply Forall_impl; [|exact N]. intros m Nm. apply no_nan_fok. exact Nm.
    - intros k I. apply distinct_incl in I. unfold keys in I. apply in_map_iff in I. destruct I as (m & <- & I). rewrite Forall_forall in A. destruct (A _ I) as [A1 A2].
      apply in_prod; [exact A1|]. apply in_map_iff. exists (Z.to_nat (m_policy m)). split; [lia|]. apply in_seq. lia. }
  lia.
Qed.
End Created.

(** A region with few pairs of features and policy is never trained. *)
Theorem never_trained P c files os w xs r R ph ms nf nm np n info init mn ps F :
  run P (start_world c files) os = Ok (w, xs) -> forallb explicit os = true ->
  In (OpRegion nf nm np n info [] init, GotRegion r) (combine os xs) ->
  cf_global_period c = 0 -> cf_region_period c = 0 -> cf_persistent c = 0 ->
  parse_policy_model (match info with [] => cf_policy_model c | _ => info end) = Ok (mn, ps) -> mn = $"DecisionTree" \/ mn = $"RandomForest" ->
  param_find ($"load") ps = None -> param_find ($"load-dataset") ps = None ->
  (forall st collect, ~ In (OpTrainAll st collect) os) -> (forall st collect force, ~ In (OpTrain r st collect force) os) ->
  followed r (combine os xs) = Some (ph, ms) -> nth_error (w_regions w) r = Some R ->
  Forall (fun m => Forall (fun x : f32 => is_nan x = false) (m_features m) /\ In (m_features m) F /\ 0 <= m_policy m < np) ms -> 0 <= np -> Z.of_nat (List.length F) * np < n ->
  m_trainable (r_model R) = true.
Proof.
  intros H EX I A B C EP MN L1 L2 NT NR FO ER FA NP LT.
  apply (trained_when P c files os w xs r R ph ms nf nm np n info init mn ps); auto. right.
  assert (K := few_keys ms F np). fold (keys ms). rewrite Z.max_r in K by lia. enough (Z.of_nat (List.length (distinct_keys (keys ms))) <= Z.of_nat (List.length F) * np) by lia.
  apply K; [|]; (eapply Forall_impl; [|exact FA]); intros m (X & Y); [exact X|exact Y].
Qed.
