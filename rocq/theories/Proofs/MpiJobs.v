(** Lemmas on jobs with collective training. *)
From Coq Require Import ZArith Bool Ascii String Lia List Sorted.
From Verif Require Import Model.Base Model.Float Model.DatasetM Model.ParserM Model.ModelStringM Model.PolicyModelsM Model.ConfigM Model.RuntimeM Model.MpiM
  Spec.DatasetSpec Spec.DatasetClient Spec.RuntimeSpec Spec.MpiSpec
  Proofs.KeyOrder Proofs.DatasetFacts Proofs.TreeFacts Proofs.ModelStringFacts Proofs.RuntimeFacts Proofs.RuntimeRegistry Proofs.RuntimeData Proofs.RuntimeNames Proofs.MpiPacking Proofs.MpiGather.
Import ListNotations.
Open Scope Z_scope.

(** What holds of every rank of every job. *)
Definition rank_ok (w : world) : Prop := names_ok w /\ all_wf w.
Definition job_ok (ws : list world) : Prop := numbered ws /\ Forall rank_ok ws.

Lemma on_each_inv {A B} (f : A -> outcome B) l : forall l', on_each f l = Ok l' -> Forall2 (fun x y => f x = Ok y) l l'.
Proof.
  induction l as [|x l IH]; intros l' H; cbn in H; [injection H as <-; constructor|]. apply bind_inv in H. destruct H as (y & E & H). apply bind_inv in H. destruct H as (ys & E2 & H). injection H as <-. constructor; auto.
Qed.

Lemma start_ok cs : job_ok (start_job cs).
Proof.
  unfold start_job. split.
  - intros i w H. rewrite nth_error_map in H. destruct (nth_error (combine (seq 0 (List.length cs)) cs) i) as [[k c]|] eqn:E; [|discriminate]. cbn in H. injection H as <-. cbn [w_rank].
    f_equal. assert (L : (i < List.length cs)%nat).
    { assert (L : nth_error (combine (seq 0 (List.length cs)) cs) i <> None) by congruence. apply nth_error_Some in L. rewrite combine_length, seq_length in L. lia. }
    assert (G : forall (l : list nat) (cs : list (config * list (bytes * bytes))) i k c, nth_error (combine l cs) i = Some (k, c) -> nth_error l i = Some k).
    { clear. induction l as [|a l IH]; intros [|b cs] [|i] k c H; cbn in H; try discriminate; [injection H as <- _; reflexivity|eauto]. }
    apply G in E. rewrite (nth_error_nth' _ 0%nat) in E by (rewrite seq_length; exact L). rewrite seq_nth in E by exact L. injection E as <-. reflexivity.
  - apply Forall_forall. intros w H. apply in_map_iff in H. destruct H as ([k c] & <- & _). split.
    + split; [|constructor]. split; [constructor|]. intros n r. split; [intros []|]. intros [X _]. destruct r; discriminate X.
    + intros i R X. destruct i; discriminate X.
Qed.

(** Receiving. *)
Lemma set_data_kept w r R d : names_ok w -> all_wf w -> get_region w r = Ok R -> wfd d -> rank_ok (set_region w r (with_dataset R d)) .
Proof.
  intros NM WF G D. assert (K : keeps (region_names w) (w_registry w) (w_rank w) (set_region w r (with_dataset R d))).
  { assert (K : keeps (region_names w) (w_registry w) (w_rank w) w) by (repeat split). apply kn_region; [exact K|exact (kn_got _ _ _ _ _ _ K G)]. }
  destruct K as (A & B & C). split; [|apply wf_region; [exact WF|exact D]]. destruct NM as [N1 N2]. split; [eapply registry_same; eauto|rewrite A; exact N2].
Qed.

Lemma insert_kept w x w' : rank_ok w -> insert_record w x = Ok w' -> rank_ok w' /\ w_rank w' = w_rank w.
Proof.
  intros [NM WF] H. destruct x as [[[[k f] p] nm] t]. cbn [insert_record] in H. destruct (_ =? _); [injection H as <-; split; [split; assumption|reflexivity]|]. apply bind_inv in H. destruct H as (s & _ & H).
  destruct (map_find _ _ _); [|injection H as <-; split; [split; assumption|reflexivity]]. apply bind_inv in H. destruct H as (R & G & H). apply bind_inv in H. destruct H as (d & E & H). injection H as <-.
  split; [|reflexivity]. apply set_data_kept; try assumption. exact (proj1 (insert_wf _ _ _ _ _ (wf_got _ _ _ WF G) E)).
Qed.

Lemma loop_kept M m fuel : forall w pos text w' text', rank_ok w -> receive_loop M fuel w m pos text = Ok (w', text') -> rank_ok w' /\ w_rank w' = w_rank w.
Proof.
  induction fuel as [|fuel IH]; intros w pos text w' text' W H; cbn [receive_loop] in H; destruct (_ <=? _); try discriminate; try (injection H as <- _; split; [exact W|reflexivity]).
  apply bind_inv in H. destruct H as ([x q] & _ & H). apply bind_inv in H. destruct H as (text1 & _ & H). apply bind_inv in H. destruct H as (w1 & E1 & H).
  destruct (insert_kept _ _ _ W E1) as [W1 R1]. destruct (IH _ _ _ _ _ W1 H) as [W2 R2]. split; [exact W2|congruence].
Qed.

Lemma receive_kept M w m st w' : rank_ok w -> receive M w m st = Ok w' -> rank_ok w' /\ w_rank w' = w_rank w.
Proof.
  intros W H. unfold receive in H. apply bind_inv in H. destruct H as ([w1 text] & E & H). apply loop_kept in E; [|exact W]. destruct (truthy _); injection H as <-; [|exact E].
  destruct E as [[[A B] C] D]. split; [|exact D]. split; [|exact C]. split; [|exact B]. eapply registry_same; [| |exact A]; reflexivity.
Qed.

Lemma ranks_forward ws ws' : Forall2 (fun w w' : world => rank_ok w' /\ w_rank w' = w_rank w) ws ws' -> job_ok ws -> job_ok ws'.
Proof.
  intros F [N _]. split.
  - intros i w' H. assert (X : exists w, nth_error ws i = Some w /\ w_rank w' = w_rank w).
    { clear N. revert i H. induction F as [|a b l l' [_ E] F IH]; intros [|i] H; cbn in *; try discriminate; [injection H as <-; eauto|eauto]. }
    destruct X as (w & G & E). rewrite E. apply N. exact G.
  - clear N. induction F as [|a b l l' [E _] F IH]; constructor; assumption.
Qed.

Lemma Forall2_and_l {A B} (Q : A -> Prop) (R : A -> B -> Prop) l l' : Forall Q l -> Forall2 R l l' -> Forall2 (fun x y => Q x /\ R x y) l l'.
Proof. intros H F. induction F; constructor; inversion H; subst; auto. Qed.
Lemma Forall2_weaken {A B} (R S : A -> B -> Prop) l l' : (forall x y, R x y -> S x y) -> Forall2 R l l' -> Forall2 S l l'.
Proof. intros H F. induction F; constructor; auto. Qed.

Lemma gather_kept M ws st ws' : job_ok ws -> gather M ws st = Ok ws' -> job_ok ws'.
Proof.
  intros J H. unfold gather in H. apply bind_inv in H. destruct H as (bufs & _ & H). apply bind_inv in H. destruct H as (m & _ & H). apply on_each_inv in H.
  eapply ranks_forward; [|exact J]. eapply Forall2_weaken; [|exact (Forall2_and_l _ _ _ _ (proj2 J) H)]. intros w w' [A B]. eapply receive_kept; eauto.
Qed.

Lemma kn_regions P N G k f w w' : (forall w r w', keeps N G k w -> f w r = Ok w' -> keeps N G k w') -> keeps N G k w -> train_regions_by P f w = Ok w' -> keeps N G k w'.
Proof.
  intros F W H. unfold train_regions_by in H. destruct (truthy (cf_single_model _)).
  - apply bind_inv in H. destruct H as (d & _ & H). eapply kn_each_on; eauto.
  - eapply kn_each; eauto.
Qed.
Lemma wf_regions P f w w' : (forall w r w', all_wf w -> f w r = Ok w' -> all_wf w') -> all_wf w -> train_regions_by P f w = Ok w' -> all_wf w'.
Proof.
  intros F W H. unfold train_regions_by in H. destruct (truthy (cf_single_model _)).
  - apply bind_inv in H. destruct H as (d & _ & H). eapply wf_each_on; eauto.
  - eapply wf_each; eauto.
Qed.

Lemma collective_kept M P ws st c ws' : job_ok ws -> collective_train M P ws st c = Ok ws' -> job_ok ws'.
Proof.
  intros J H. unfold collective_train in H. destruct (forallb _ _); [|discriminate]. apply bind_inv in H. destruct H as (ws1 & E & H). assert (J1 := gather_kept _ _ _ _ J E).
  apply on_each_inv in H. eapply ranks_forward; [|exact J1]. eapply Forall2_weaken; [|exact (Forall2_and_l _ _ _ _ (proj2 J1) H)]. intros w w' [[NM WF] B].
  assert (K : keeps (region_names w) (w_registry w) (w_rank w) w').
  { eapply kn_regions; [|repeat split|exact B]. intros w0 r0 w2 W0 E2. eapply kn_train; [exact W0|exact E2]. }
  destruct K as (A1 & A2 & A3). split; [|exact A3]. split.
  - destruct NM as [N1 N2]. split; [eapply registry_same; eauto|rewrite A1; exact N2].
  - eapply wf_regions; [|exact WF|exact B]. intros w0 r0 w2 W0 E2. eapply wf_train; [exact W0|exact E2].
Qed.

Lemma job_step_kept M P ws o ws' : job_ok ws -> job_step M P ws o = Ok ws' -> job_ok ws'.
Proof.
  intros J H. destruct o as [i o|st c]; cbn [job_step] in H; [|eapply collective_kept; eauto]. destruct (nth_error ws i) as [w|] eqn:G; [|discriminate].
  apply bind_inv in H. destruct H as ([w1 x] & E & H). injection H as <-. destruct J as [N F].
  assert (W : rank_ok w) by (rewrite Forall_forall in F; apply F; eapply nth_error_In; eauto). destruct W as [NM WF]. destruct (names_step _ _ _ _ _ NM E) as [NM1 R1]. assert (WF1 := wf_step _ _ _ _ _ WF E).
  split.
  - intros j v H. destruct (Nat.eq_dec i j) as [->|NE].
    + rewrite (set_nth_same _ _ _ _ G) in H. injection H as <-. rewrite R1. apply N. exact G.
    + rewrite set_nth_other in H by exact NE. apply N. exact H.
  - apply Forall_forall. intros v H. apply In_nth_error in H. destruct H as [j H]. destruct (Nat.eq_dec i j) as [->|NE].
    + rewrite (set_nth_same _ _ _ _ G) in H. injection H as <-. split; assumption.
    + rewrite set_nth_other in H by exact NE. rewrite Forall_forall in F. apply F. eapply nth_error_In; eauto.
Qed.

Lemma job_run_kept M P os : forall ws ws', job_ok ws -> job_run M P ws os = Ok ws' -> job_ok ws'.
Proof.
  induction os as [|o os IH]; intros ws ws' J H; cbn [job_run] in H; [injection H as <-; exact J|]. apply bind_inv in H. destruct H as (w1 & E & H). eapply IH; [|exact H]. eapply job_step_kept; eauto.
Qed.

Lemma job_always M P cs os ws : job_run M P (start_job cs) os = Ok ws -> job_ok ws.
Proof. apply job_run_kept. apply start_ok. Qed.

(** Sending looks at every registered region. *)
Lemma send_size_alive M w rs : forall size n, send_size M w rs size = Ok n -> Forall (fun r => exists R, get_region w r = Ok R) rs.
Proof.
  induction rs as [|r rs IH]; intros size n H; cbn [send_size] in H; [constructor|]. apply bind_inv in H. destruct H as (R & G & H). apply bind_inv in H. destruct H as (k & _ & H). constructor; [eauto|eapply IH; exact H].
Qed.
Lemma send_alive M w b : send_buffer M w = Ok b -> alive w.
Proof.
  unfold send_buffer. intros H. apply bind_inv in H. destruct H as (n & H & _). apply send_size_alive in H. unfold alive. rewrite Forall_map in H. exact H.
Qed.
Lemma gather_alive M ws st ws' : gather M ws st = Ok ws' -> Forall alive ws.
Proof.
  unfold gather. intros H. apply bind_inv in H. destruct H as (bufs & H & _). apply on_each_inv in H. induction H as [|w b l l' E H IH]; constructor; [eapply send_alive; exact E|exact IH].
Qed.

Lemma ranks_int ws : numbered ws -> Z.of_nat (List.length ws) < 2 ^ 31 -> Forall (fun w => is_int (w_rank w)) ws.
Proof.
  intros N L. apply Forall_forall. intros w H. apply In_nth_error in H. destruct H as [i H]. rewrite (N _ _ H). assert (X : nth_error ws i <> None) by congruence. apply nth_error_Some in X. split; lia.
Qed.

(** The data set of a region after gathering. *)
Lemma metrics_app f p a b : metrics_for f p (a ++ b) = metrics_for f p a ++ metrics_for f p b.
Proof. unfold metrics_for. rewrite filter_app, map_app. reflexivity. Qed.
Lemma gathered_recorded d h d' f p : wfd d -> Forall no_nan_features h -> insert_all d h = Ok d' -> Forall (fun x : f32 => BinarySingleNaN.is_nan x = false) f ->
  recorded f p (ds_to_vector d') = moving_average (metrics_for f p (ds_to_vector d ++ h)).
Proof.
  intros W N E F. apply fok_Forall in F. destruct (insert_all_spec h d W N) as (d2 & E2 & W2 & Q). rewrite E in E2. injection E2 as <-.
  rewrite recorded_find by assumption. rewrite Q by assumption. rewrite metrics_app, metrics_for_wf by assumption. destruct (map_find key_lt (f, p) d); [reflexivity|]. cbn [app]. destruct (metrics_for f p h); reflexivity.
Qed.

Lemma others_no_nan ws k n : Forall rank_ok ws -> Forall no_nan_features (others ws k n).
Proof.
  intros F. apply Forall_forall. intros e H. unfold others in H. apply in_flat_map in H. destruct H as (w & IW & H). destruct (_ =? _); [destruct H|]. unfold measured_as in H. apply in_flat_map in H.
  destruct H as (R & IR & H). destruct (bytes_eqb _ _); [|destruct H]. rewrite Forall_forall in F. destruct (F _ IW) as [_ WF]. apply registered_in in IR. destruct IR as (m & r & _ & G).
  assert (X := wfd_no_nan _ (WF _ _ G)). rewrite Forall_forall in X. auto.
Qed.

Lemma all_good ws : Forall rank_ok ws -> Forall good_record (flat_map sent ws).
Proof. intros F. induction F as [|w ws [A B] F IH]; [constructor|]. cbn [flat_map]. apply Forall_app. split; [apply sent_good; assumption|exact IH]. Qed.

(** What gathering does on a rank. *)
Definition gathered (ws : list world) (w w' : world) : Prop :=
  w_config w' = w_config w /\ w_rank w' = w_rank w /\ w_registry w' = w_registry w /\ w_executions w' = w_executions w /\
  (truthy (cf_trace_allgather (w_config w)) = false -> w_files w' = w_files w) /\
  List.length (w_regions w') = List.length (w_regions w) /\
  forall i R, nth_error (w_regions w) i = Some R -> exists d, nth_error (w_regions w') i = Some (with_dataset R d) /\
    (In (r_name R, i) (w_registry w) -> insert_all (r_dataset R) (others ws (w_rank w) (r_name R)) = Ok d) /\
    (~ In (r_name R, i) (w_registry w) -> d = r_dataset R).

Lemma gather_does M ws st ws' : faithful M -> exact_sizes M -> job_ok ws -> Z.of_nat (List.length ws) < 2 ^ 31 -> Forall sendable ws -> sizes_fit M ws ->
  gather M ws st = Ok ws' -> Forall2 (gathered ws) ws ws'.
Proof.
  intros FM EX [N F] L SE FT H. assert (AL := gather_alive _ _ _ _ H).
  destruct (packing_ok M ws FM EX AL (ranks_int ws N L) SE FT) as (bufs & m & E1 & E2 & RD).
  unfold gather in H. rewrite E1 in H. cbn [bind] in H. rewrite E2 in H. cbn [bind] in H. apply on_each_inv in H.
  assert (K := Forall2_and_l _ _ _ _ AL (Forall2_and_l _ _ _ _ F H)). eapply Forall2_weaken; [|exact K]. clear H K. intros w w' (AW & [NM WF] & H).
  unfold receive in H. apply bind_inv in H. destruct H as ([w1 text] & E & H). apply (loop_inserts _ _ _ _ RD) in E.
  destruct (inserted_ok (flat_map sent ws) w NM WF AW (all_good ws F)) as (w2 & E3 & (S1 & S2 & S3 & S4 & S5 & S6) & D & _). rewrite E in E3. injection E3 as <-.
  assert (G : gathered ws w w1).
  { repeat (split; [assumption|]). split; [intros _; exact S5|]. split; [exact S6|]. intros i R G. destruct (D i R G) as (d & A & B & C). exists d. split; [exact A|]. split; [|exact C]. intros I. rewrite <- for_region_others; [exact (B I)|].
    eapply Forall_impl; [|exact F]. intros v [X _]. exact X. }
  rewrite S1 in H. destruct (truthy (cf_trace_allgather (w_config w))) eqn:T; injection H as <-; [|exact G].
  destruct G as (G1 & G2 & G3 & G4 & G5 & G6 & G7). repeat (split; [assumption|]). split; [intros X; congruence|]. split; [exact G6|exact G7].
Qed.

(** Gathering succeeds without traces. *)
Lemma gather_succeeds M ws st : faithful M -> exact_sizes M -> job_ok ws -> Z.of_nat (List.length ws) < 2 ^ 31 -> Forall alive ws -> Forall sendable ws -> sizes_fit M ws ->
  Forall (fun w => truthy (cf_trace_allgather (w_config w)) = false) ws -> exists ws', gather M ws st = Ok ws'.
Proof.
  intros FM EX [N F] L AL SE FT TR. destruct (packing_ok M ws FM EX AL (ranks_int ws N L) SE FT) as (bufs & m & E1 & E2 & RD).
  unfold gather. rewrite E1. cbn [bind]. rewrite E2. cbn [bind].
  assert (GOOD := all_good ws F). assert (K : Forall (fun w => exists w', receive M w m st = Ok w') ws).
  { apply Forall_forall. intros w H. rewrite Forall_forall in F, AL, TR. destruct (F _ H) as [NM WF]. destruct (inserted_ok (flat_map sent ws) w NM WF (AL _ H) GOOD) as (w2 & E3 & (S1 & _) & _).
    exists w2. unfold receive. rewrite (TR _ H). rewrite (loop_succeeds _ _ _ _ FM RD _ w _ w2); [|lia|exact (TR _ H)|exact E3]. cbn [bind]. rewrite S1, (TR _ H). reflexivity. }
  clear - K. induction K as [|w l [w' E] K IH]; [exists []; reflexivity|]. cbn [on_each]. rewrite E. cbn [bind]. destruct IH as [l' IH]. rewrite IH. eexists. reflexivity.
Qed.
