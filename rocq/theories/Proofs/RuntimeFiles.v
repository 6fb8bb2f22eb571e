(** Lemmas on the runtime: the files it writes. *)
From Coq Require Import ZArith Bool Ascii String Lia List.
From Verif Require Import Model.Base Model.Decimal Model.Float Model.DatasetM Model.ModelStringM Model.PolicyModelsM Model.ConfigM Model.RuntimeM
  Spec.RuntimeSpec Proofs.TreeFacts Proofs.RuntimeFacts Proofs.RuntimeSettled Proofs.ModelStringFacts.
Import ListNotations.
Open Scope Z_scope.

Lemma find_write_other path other text f : other <> path -> file_find other (file_write path text f) = file_find other f.
Proof.
  intros N. induction f as [|[p s] f IH]; cbn.
  - rewrite (proj2 (bytes_eqb_neq _ _) N). reflexivity.
  - destruct (bytes_eqb path p) eqn:E; cbn.
    + apply bytes_eqb_eq in E. subst p. rewrite (proj2 (bytes_eqb_neq _ _) N). reflexivity.
    + rewrite IH. reflexivity.
Qed.

Lemma find_write_kept path other text f : file_find other f <> None -> file_find other (file_write path text f) <> None.
Proof.
  induction f as [|[p s] f IH]; cbn; [congruence|]. destruct (bytes_eqb path p); cbn; destruct (bytes_eqb other p); auto; discriminate.
Qed.

(** The files of [own_file] but for the trace of the policies. *)
Definition training_file (c : config) (rank : Z) (path : bytes) : Prop :=
  (exists st mn nm, path = model_step_file c rank st mn nm) \/
  (exists mn nm, path = model_latest_file c rank mn nm) \/
  (exists nm, path = dataset_file c nm) \/
  (exists st nm, path = $"step-" ++ print_Z st ++ $"-rank-" ++ print_Z rank ++ $"-" ++ nm ++ $"-best_policies.txt") \/
  path = in_dir (cf_output_dir c) ($"apollo_exec_info.csv").

Definition wrote (w w' : world) : Prop :=
  with_period (w_config w') 0 = with_period (w_config w) 0 /\ w_rank w' = w_rank w /\
  forall path, (file_find path (w_files w) <> None -> file_find path (w_files w') <> None) /\
    (~ training_file (with_period (w_config w) 0) (w_rank w) path -> file_find path (w_files w') = file_find path (w_files w)).

Lemma wrote_same w w' : with_period (w_config w') 0 = with_period (w_config w) 0 -> w_rank w' = w_rank w -> w_files w' = w_files w -> wrote w w'.
Proof. intros A B C. split; [exact A|]. split; [exact B|]. intros path. rewrite C. auto. Qed.
Lemma wrote_refl w : wrote w w.
Proof. apply wrote_same; reflexivity. Qed.
Lemma wrote_trans a b d : wrote a b -> wrote b d -> wrote a d.
Proof.
  intros (A1 & A2 & A3) (B1 & B2 & B3). split; [congruence|]. split; [congruence|]. rewrite A1, A2 in B3. intros path. destruct (A3 path) as [X1 X2], (B3 path) as [Y1 Y2].
  split; [auto|]. intros N. rewrite Y2, X2 by exact N. reflexivity.
Qed.
Lemma wrote_file w path text : training_file (w_config w) (w_rank w) path -> wrote w (set_files w (file_write path text (w_files w))).
Proof.
  intros O. split; [reflexivity|]. split; [reflexivity|]. intros other. split.
  - apply find_write_kept.
  - intros N. apply find_write_other. intros ->. apply N. exact O.
Qed.
Lemma wrote_region w r R : wrote w (set_region w r R).
Proof. apply wrote_same; reflexivity. Qed.
Lemma wrote_context w p c : wrote w (set_context w p c).
Proof. unfold set_context. destruct (nth_error _ _); [|apply wrote_refl]. destruct (snd p); apply wrote_region. Qed.
Lemma wrote_delete w p w' : delete_context w p = Ok w' -> wrote w w'.
Proof.
  unfold delete_context. intros H. destruct (nth_error (w_regions w) (fst p)); [|discriminate]. destruct (snd p); [discriminate|].
  destruct (nth_error (r_heap _) _) as [[|]|]; inversion H. apply wrote_region.
Qed.
Lemma wrote_complete w e : wrote w (complete w e).
Proof.
  unfold complete. destruct (get_context w (fst e)); try apply wrote_refl. destruct (c_timer _) as [|[|] [|]]; try apply wrote_refl. apply wrote_context.
Qed.
Lemma wrote_completes l : forall w, wrote w (fold_left complete l w).
Proof. induction l as [|e l IH]; intros w; [apply wrote_refl|]. eapply wrote_trans; [apply wrote_complete|apply IH]. Qed.

Section Platform.
Variable P : platform.

Lemma wrote_trace_best w R st w' : trace_best w R st = Ok w' -> wrote w w'.
Proof.
  unfold trace_best. intros H. destruct (negb _); [inversion H; apply wrote_refl|]. destruct (ds_find_min _ _ _) as [[? ?] best].
  apply bind_inv in H. destruct H as (ls & _ & H). injection H as <-. apply wrote_file. do 3 right. left. exists st, (r_name R). reflexivity.
Qed.
Lemma wrote_store w m path w' : store_model w m path = Ok w' -> training_file (w_config w) (w_rank w) path -> wrote w w'.
Proof.
  unfold store_model. intros H O. apply bind_inv in H. destruct H as (s & _ & H). destruct s; inversion H; [apply wrote_file; exact O|apply wrote_refl].
Qed.
Lemma wrote_train_body w r st w' : train_body P w r st = Ok w' -> wrote w w'.
Proof.
  unfold train_body. intros H. apply bind_inv in H. destruct H as (R & _ & H). destruct (_ <=? 0); [inversion H; apply wrote_refl|].
  destruct (negb _); [discriminate|]. apply bind_inv in H. destruct H as (w1 & E1 & H). apply wrote_trace_best in E1.
  apply bind_inv in H. destruct H as (m & _ & H). destruct (truthy (cf_retrain _)); [discriminate|].
  assert (A : wrote w (set_region w1 r (with_model R m))) by (eapply wrote_trans; [exact E1|apply wrote_region]).
  destruct (truthy (cf_store_models _)); [|inversion H; exact A].
  apply bind_inv in H. destruct H as (w2 & E2 & H). apply wrote_store in E2; [|left; do 3 eexists; reflexivity]. apply wrote_store in H; [|right; left; do 2 eexists; reflexivity].
  eapply wrote_trans; [exact A|]. eapply wrote_trans; eauto.
Qed.
Lemma wrote_quietly w r st w' : train_quietly P w r st = Ok w' -> wrote w w'.
Proof.
  unfold train_quietly. intros H. apply bind_inv in H. destruct H as (R & _ & H). destruct (negb _); [inversion H; apply wrote_refl|]. eapply wrote_train_body; eauto.
Qed.
Lemma wrote_each_on d rs : forall w w', train_each_on P w rs d = Ok w' -> wrote w w'.
Proof.
  induction rs as [|r rs IH]; intros w w' H; cbn in H; [inversion H; apply wrote_refl|]. apply bind_inv in H. destruct H as (R & _ & H).
  apply bind_inv in H. destruct H as (m & _ & H). eapply wrote_trans; [apply wrote_region|eauto].
Qed.
Lemma wrote_each f rs : (forall w r w', f w r = Ok w' -> wrote w w') -> forall w w', each_region f w rs = Ok w' -> wrote w w'.
Proof.
  intros F. induction rs as [|r rs IH]; intros w w' H; cbn in H; [inversion H; apply wrote_refl|]. apply bind_inv in H. destruct H as (w1 & E & H). eapply wrote_trans; eauto.
Qed.
Lemma wrote_all f : (forall w r w', f w r = Ok w' -> wrote w w') -> forall w w', train_all_by P f w = Ok w' -> wrote w w'.
Proof.
  intros F w w' H. unfold train_all_by, train_regions_by in H. destruct (truthy (cf_collective _)); [discriminate|]. destruct (truthy (cf_single_model _)).
  - apply bind_inv in H. destruct H as (d & _ & H). eapply wrote_each_on; eauto.
  - eapply wrote_each; eauto.
Qed.
Lemma wrote_auto w r w' : auto_train P w r = Ok w' -> wrote w w'.
Proof.
  unfold auto_train. intros H. apply bind_inv in H. destruct H as (R & _ & H). destruct (negb _); [inversion H; apply wrote_refl|].
  repeat match type of H with (if ?b then _ else _) = _ => destruct b end.
  - eapply wrote_all; [|exact H]. intros w0 r0 w1 E. eapply wrote_quietly. exact E.
  - eapply wrote_quietly; eauto.
  - eapply wrote_quietly; eauto.
  - inversion H. apply wrote_refl.
Qed.
Lemma wrote_collect w r p x w' : collect_context P w r p x = Ok w' -> wrote w w'.
Proof.
  unfold collect_context. intros H. apply bind_inv in H. destruct H as (R & _ & H). apply bind_inv in H. destruct H as (c & _ & H).
  apply bind_inv in H. destruct H as (R1 & _ & H). apply bind_inv in H. destruct H as (w1 & E1 & H). apply wrote_auto in E1.
  apply bind_inv in H. destruct H as (w2 & E2 & H). apply bind_inv in H. destruct H as (R2 & _ & H). inversion H.
  assert (A : wrote w w1) by (eapply wrote_trans; [|exact E1]; apply wrote_same; reflexivity).
  eapply wrote_trans; [exact A|]. eapply wrote_trans; [|apply wrote_region]. destruct (is_sync_of r p); [inversion E2; apply wrote_refl|eapply wrote_delete; eauto].
Qed.
Lemma wrote_loop r ps : forall w w' kept, collect_loop P w r ps = Ok (w', kept) -> wrote w w'.
Proof.
  induction ps as [|p ps IH]; intros w w' kept H; cbn in H; [inversion H; apply wrote_refl|].
  apply bind_inv in H. destruct H as (c & _ & H). apply bind_inv in H. destruct H as (d & _ & H). destruct d as [x|].
  - apply bind_inv in H. destruct H as (w1 & E & H). eapply wrote_trans; [eapply wrote_collect; eauto|eauto].
  - apply bind_inv in H. destruct H as ([w1 k] & E & H). inversion H; subst. eauto.
Qed.
Lemma wrote_pending w r w' : collect_pending P w r = Ok w' -> wrote w w'.
Proof.
  unfold collect_pending. intros H. apply bind_inv in H. destruct H as (R & _ & H). apply bind_inv in H. destruct H as ([w1 k] & E & H).
  apply bind_inv in H. destruct H as (R1 & _ & H). inversion H. eapply wrote_trans; [eapply wrote_loop; eauto|apply wrote_region].
Qed.
Lemma wrote_train w r st collect force w' : region_train P w r st collect force = Ok w' -> wrote w w'.
Proof.
  unfold region_train. intros H. apply bind_inv in H. destruct H as (R & _ & H). destruct (_ && _); [inversion H; apply wrote_refl|].
  apply bind_inv in H. destruct H as (w1 & E & H). eapply wrote_trans; [|eapply wrote_train_body; eauto].
  destruct collect; [eapply wrote_pending; eauto|inversion E; apply wrote_refl].
Qed.
Lemma wrote_begin w r async now w' p : begin_context w r async now = Ok (w', p) -> wrote w w'.
Proof.
  unfold begin_context. intros H. apply bind_inv in H. destruct H as (R & _ & H). destruct async; cbv beta iota zeta in H.
  all: match type of H with (if ?b then _ else _) = _ => destruct b; [discriminate|] end.
  all: apply bind_inv in H; destruct H as (c & _ & H); inversion H; eapply wrote_trans; [|apply wrote_context]; apply wrote_region.
Qed.
Lemma wrote_load w r text w' : load_dataset w r text = Ok w' -> wrote w w'.
Proof.
  unfold load_dataset. intros H. apply bind_inv in H. destruct H as (R & _ & H). apply bind_inv in H. destruct H as ([d x] & _ & H). inversion H. apply wrote_region.
Qed.
Lemma wrote_new w nf nm np mt info yaml init w' r : new_region P w nf nm np mt info yaml init = Ok (w', r) -> wrote w w'.
Proof.
  unfold new_region. intros H. apply bind_inv in H. destruct H as ([mn ps] & _ & H). apply bind_inv in H. destruct H as ([[mn1 ps1] info1] & _ & H).
  apply bind_inv in H. destruct H as (m & _ & H). apply bind_inv in H. destruct H as (m1 & _ & H).
  apply bind_inv in H. destruct H as (w1 & E1 & H). apply bind_inv in H. destruct H as (w2 & E2 & H). apply bind_inv in H. destruct H as (w3 & E3 & H).
  apply bind_inv in H. destruct H as (w4 & E4 & H). apply bind_inv in H. destruct H as (w5 & E5 & H). inversion H. clear H.
  apply wrote_trans with w5; [|apply wrote_same; reflexivity]. eapply wrote_trans with w1; [|eapply wrote_trans with w2; [|eapply wrote_trans with w3; [|eapply wrote_trans with w4]]].
  - unfold load_persistent in E1. match type of E1 with (if ?b then _ else _) = _ => destruct b end; [|inversion E1; apply wrote_same; reflexivity].
    apply bind_inv in E1. destruct E1 as (wa & EA & E1). eapply wrote_trans; [|eapply wrote_auto; eauto].
    destruct (file_find _ _); [|inversion EA; apply wrote_same; reflexivity]. eapply wrote_trans; [|eapply wrote_load; exact EA]. apply wrote_same; reflexivity.
  - unfold load_and_train in E2. destruct (param_find _ _); [|inversion E2; apply wrote_refl]. destruct (file_find _ _); [|discriminate].
    apply bind_inv in E2. destruct E2 as (wa & EA & E2). apply bind_inv in E2. destruct E2 as (R & _ & E2). destruct (_ <=? 0); [discriminate|].
    eapply wrote_trans; [eapply wrote_load; eauto|eapply wrote_train; eauto].
  - unfold load_optimal in E3. destruct (bytes_eqb _ _); [|inversion E3; apply wrote_refl]. destruct (file_find _ _); [|discriminate].
    apply bind_inv in E3. destruct E3 as (R & _ & E3). apply bind_inv in E3. destruct E3 as (m2 & _ & E3). inversion E3. apply wrote_region.
  - unfold load_dataset_map in E4. destruct (bytes_eqb _ _); [|inversion E4; apply wrote_refl]. destruct (file_find _ _); [|discriminate].
    apply bind_inv in E4. destruct E4 as (wa & EA & E4). apply bind_inv in E4. destruct E4 as (R & _ & E4). destruct (_ <=? 0); [discriminate|].
    apply bind_inv in E4. destruct E4 as (m2 & _ & E4). inversion E4. eapply wrote_trans; [eapply wrote_load; eauto|apply wrote_region].
  - match type of E5 with (if ?b then _ else _) = _ => destruct b end; [|inversion E5; apply wrote_refl].
    apply bind_inv in E5. destruct E5 as (R & _ & E5). inversion E5. apply wrote_region.
Qed.
Lemma wrote_drain r waits : forall w w', drain P w r waits = Ok w' -> wrote w w'.
Proof.
  induction waits as [|b waits IH]; intros w w' H; cbn [drain] in H; apply bind_inv in H; destruct H as (R & _ & H); destruct (r_pending R).
  - inversion H. apply wrote_refl.
  - discriminate.
  - injection H as <-. apply wrote_completes.
  - apply bind_inv in H. destruct H as (w1 & E & H). eapply wrote_trans; [apply wrote_completes|]. eapply wrote_trans; [eapply wrote_pending; eauto|eauto].
Qed.
Lemma wrote_destroy w r waits w' : destroy_region P w r waits = Ok w' -> wrote w w'.
Proof.
  unfold destroy_region. intros H. apply bind_inv in H. destruct H as (w1 & E1 & H). apply wrote_drain in E1. apply bind_inv in H. destruct H as (R & _ & H). inversion H. clear H.
  eapply wrote_trans with (disable_global_period w); [apply wrote_same; reflexivity|]. eapply wrote_trans; [exact E1|]. eapply wrote_trans; [|apply wrote_region].
  destruct (truthy _); [|apply wrote_refl]. apply wrote_file. do 2 right. left. exists (r_name R). reflexivity.
Qed.
Lemma wrote_destroy_all waits rs : forall w w', destroy_all P w rs waits = Ok w' -> wrote w w'.
Proof.
  induction rs as [|r rs IH]; intros w w' H; cbn in H; [inversion H; apply wrote_refl|]. apply bind_inv in H. destruct H as (w1 & E & H).
  eapply wrote_trans; [eapply wrote_destroy; eauto|eauto].
Qed.

Lemma wrote_step w o w' x : (forall r p D, o <> OpGetPolicy r p D) -> step P w o = Ok (w', x) -> wrote w w'.
Proof.
  intros NG. destruct o; cbn [RuntimeM.step]; intros H.
  - apply bind_inv in H. destruct H as ([w1 r] & E & H). inversion H; subst. eapply wrote_new; eauto.
  - apply bind_inv in H. destruct H as ([w1 p] & E & H). inversion H; subst. eapply wrote_begin; eauto.
  - apply bind_inv in H. destruct H as ([w1 p] & E & H). inversion H; subst. unfold begin_features in E. apply bind_inv in E. destruct E as ([w2 p2] & E2 & E).
    apply bind_inv in E. destruct E as (c & _ & E). inversion E. eapply wrote_trans; [eapply wrote_begin; eauto|apply wrote_context].
  - apply bind_inv in H. destruct H as (R & _ & H). apply bind_inv in H. destruct H as (q & _ & H). apply bind_inv in H. destruct H as (w1 & E & H). inversion H; subst.
    unfold set_feature in E. apply bind_inv in E. destruct E as (c & _ & E). inversion E. apply wrote_context.
  - exfalso. eapply NG. reflexivity.
  - apply bind_inv in H. destruct H as (R & _ & H). apply bind_inv in H. destruct H as (q & _ & H). apply bind_inv in H. destruct H as (w1 & E & H). inversion H; subst.
    unfold end_context in E. apply bind_inv in E. destruct E as (c & _ & E). eapply wrote_trans; [apply wrote_context|]. destruct (is_sync_of r q).
    + apply bind_inv in E. destruct E as (d & _ & E). destruct d; [|discriminate]. eapply wrote_collect; eauto.
    + apply bind_inv in E. destruct E as (R1 & _ & E). apply wrote_pending in E. eapply wrote_trans; [|exact E].
      destruct early; [eapply wrote_trans; [apply wrote_region|apply wrote_complete]|apply wrote_region].
  - apply bind_inv in H. destruct H as (q & _ & H). apply bind_inv in H. destruct H as (w1 & E & H). inversion H; subst. unfold end_metric in E.
    apply bind_inv in E. destruct E as (w2 & E2 & E). eapply wrote_trans; [eapply wrote_collect; eauto|eapply wrote_pending; eauto].
  - apply bind_inv in H. destruct H as (w1 & E & H). inversion H; subst. eapply wrote_train; eauto.
  - apply bind_inv in H. destruct H as (w1 & E & H). inversion H; subst. unfold apollo_train in E. eapply wrote_all; [|exact E]. intros w0 r0 w2 E2. eapply wrote_train. exact E2.
  - apply bind_inv in H. destruct H as (w1 & E & H). inversion H; subst. eapply wrote_pending; eauto.
  - apply bind_inv in H. destruct H as (w1 & E & H). inversion H; subst. eapply wrote_destroy; eauto.
  - apply bind_inv in H. destruct H as (w1 & E & H). inversion H; subst. unfold shutdown in E. apply bind_inv in E. destruct E as (w2 & E2 & E).
    eapply wrote_trans; [|eapply wrote_destroy_all; eauto]. destruct (truthy _); [|inversion E2; apply wrote_refl].
    apply bind_inv in E2. destruct E2 as (s & _ & E2). injection E2 as <-. apply wrote_file. do 4 right. reflexivity.
  - inversion H. apply wrote_complete.
Qed.

(** ** The trace of the policies *)

Definition policies_file (rank : Z) : bytes := $"rank-" ++ print_Z rank ++ $"-policies.txt".

(** What a request adds to it, and everything else it leaves. *)
Lemma ask_files w r p D w' x : step P w (OpGetPolicy r p D) = Ok (w', x) ->
  exists q R c k, resolve w r p = Ok q /\ nth_error (w_regions w) r = Some R /\ get_context w q = Ok c /\ x = GotPolicy k /\ w_config w' = w_config w /\ w_rank w' = w_rank w /\
    (cf_trace_policy (w_config w) = 0 -> w_files w' = w_files w) /\
    (cf_trace_policy (w_config w) <> 0 -> exists fs, trace_features (c_features c) = Ok fs /\
      w_files w' = file_append (policies_file (w_rank w)) ($"Rank " ++ print_Z (w_rank w) ++ $" region " ++ r_name R ++ $" model " ++ m_name (r_model R) ++
        $" features [ " ++ fs ++ $"] policy " ++ print_Z k ++ [nl]) (w_files w)).
Proof.
  cbn [RuntimeM.step]. intros H. apply bind_inv in H. destruct H as (q & EQ & H). apply bind_inv in H. destruct H as ([w1 ch] & E & H). inversion H; subst. clear H. unfold get_policy_index in E.
  apply bind_inv in E. destruct E as (R & ER & E). apply get_region_ok in ER. destruct ER as [ER _]. apply bind_inv in E. destruct E as (c & EC & E). apply bind_inv in E. destruct E as ([ch2 m] & _ & E).
  apply bind_inv in E. destruct E as (w2 & E2 & E). apply bind_inv in E. destruct E as (c2 & _ & E). injection E as <- <-.
  exists q, R, c, ch2. split; [exact EQ|]. split; [exact ER|]. split; [exact EC|]. split; [reflexivity|].
  assert (F : forall v a b, w_config (set_context (set_region v r a) q b) = w_config v /\ w_rank (set_context (set_region v r a) q b) = w_rank v /\ w_files (set_context (set_region v r a) q b) = w_files v).
  { intros v a b. clear. unfold set_context. destruct (nth_error _ _); [|split; [reflexivity|split; reflexivity]]. destruct (snd q); (split; [reflexivity|split; reflexivity]). }
  match goal with |- context [set_context (set_region w2 r ?a) q ?b] => destruct (F w2 a b) as (-> & -> & ->) end. unfold trace_policy in E2.
  destruct (truthy (cf_trace_policy (w_config w))) eqn:T; cbn [negb] in E2; unfold truthy in T.
  - apply negb_true_iff, Z.eqb_neq in T. apply bind_inv in E2. destruct E2 as (fs & EF & E2). injection E2 as <-. split; [reflexivity|]. split; [reflexivity|]. split; [contradiction|].
    intros _. exists fs. split; [exact EF|reflexivity].
  - apply negb_false_iff, Z.eqb_eq in T. inversion E2; subst. split; [reflexivity|]. split; [reflexivity|]. split; [reflexivity|contradiction].
Qed.

Definition wrote_own (w w' : world) : Prop :=
  with_period (w_config w') 0 = with_period (w_config w) 0 /\ w_rank w' = w_rank w /\ only_own_files (with_period (w_config w) 0) (w_rank w) (w_files w) (w_files w').

Lemma wrote_own_trans a b d : wrote_own a b -> wrote_own b d -> wrote_own a d.
Proof.
  intros (A1 & A2 & A3) (B1 & B2 & B3). split; [congruence|]. split; [congruence|]. rewrite A1, A2 in B3. intros path. destruct (A3 path) as [X1 X2], (B3 path) as [Y1 Y2].
  split; [auto|]. intros N. rewrite Y2, X2 by exact N. reflexivity.
Qed.

Lemma wrote_weaken w w' : wrote w w' -> wrote_own w w'.
Proof.
  intros (A & B & C). split; [exact A|]. split; [exact B|]. intros path. destruct (C path) as [D E]. split; [exact D|]. intros N. apply E. intros T. apply N.
  unfold own_file, training_file in *. tauto.
Qed.

Lemma own_step w o w' x : step P w o = Ok (w', x) -> wrote_own w w'.
Proof.
  intros H. assert (A : (exists r p D, o = OpGetPolicy r p D) \/ (forall r p D, o <> OpGetPolicy r p D)).
  { destruct o; try (right; discriminate). left. eauto. }
  destruct A as [(r & p & D & ->)|A]; [|apply wrote_weaken; eapply wrote_step; eauto].
  apply ask_files in H. destruct H as (q & R & c & k & _ & _ & _ & _ & C & RK & F0 & F1). split; [rewrite C; reflexivity|]. split; [exact RK|]. intros path.
  destruct (Z.eq_dec (cf_trace_policy (w_config w)) 0) as [T|T]; [rewrite (F0 T); auto|]. destruct (F1 T) as (fs & _ & ->). unfold file_append. split; [apply find_write_kept|].
  intros N. apply find_write_other. intros ->. apply N. do 4 right. left. reflexivity.
Qed.

Lemma own_run os : forall w w' xs, run P w os = Ok (w', xs) -> wrote_own w w'.
Proof.
  induction os as [|o os IH]; intros w w' xs H; cbn in H; [inversion H; apply wrote_weaken, wrote_refl|]. apply bind_inv in H. destruct H as ([w1 x] & E & H).
  apply bind_inv in H. destruct H as ([w2 ys] & E2 & H). inversion H; subst. eapply wrote_own_trans; [eapply own_step; eauto|eauto].
Qed.

Lemma files_run c files os w xs : run P (start_world c files) os = Ok (w, xs) -> only_own_files c 0 files (w_files w).
Proof. intros H. apply own_run in H. destruct H as (_ & _ & H). exact H. Qed.
End Platform.
