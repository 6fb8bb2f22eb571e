(** Streams, files and the traces of regions. *)
From Coq Require Import ZArith Bool Ascii String Lia List.
From Verif Require Import Model.Base Model.PolicyModelsM Model.ConfigM Model.RuntimeM Model.TraceFileM
  Spec.TraceFileSpec Proofs.TreeFacts Proofs.ModelStringFacts Proofs.RuntimeFacts Proofs.RuntimeCollect Proofs.RuntimeGrows.
Import ListNotations.

(** ** Files *)
Lemma file_find_write p q text f : file_find p (file_write q text f) = if bytes_eqb p q then Some text else file_find p f.
Proof.
  destruct (bytes_eqb p q) eqn:PQ.
  - apply bytes_eqb_eq in PQ. subst q. induction f as [|[a b] f IH]; cbn.
    + now rewrite bytes_eqb_refl.
    + destruct (bytes_eqb p a) eqn:E; cbn; rewrite ?bytes_eqb_refl, ?E; auto.
  - induction f as [|[a b] f IH]; cbn.
    + now rewrite PQ.
    + destruct (bytes_eqb q a) eqn:E; cbn.
      * apply bytes_eqb_eq in E. subst a. now rewrite PQ.
      * destruct (bytes_eqb p a); auto.
Qed.

Lemma bytes_eqb_neq p q : p <> q -> bytes_eqb p q = false.
Proof. intros N. destruct (bytes_eqb p q) eqn:E; auto. apply bytes_eqb_eq in E. contradiction. Qed.

Lemma write_at_end text old : write_at (List.length old) text old = old ++ text.
Proof.
  unfold write_at. destruct text as [|a text]; [now rewrite app_nil_r|]. rewrite Nat.sub_diag. cbn [repeat]. rewrite app_nil_r, firstn_all.
  rewrite skipn_all2 by lia. now rewrite app_nil_r.
Qed.

Lemma write_at_start text old : write_at 0 text old = text ++ skipn (List.length text) old.
Proof. unfold write_at. destruct text; reflexivity. Qed.

(** ** What regions are to have written *)
Definition entry : Type := bytes * bytes * bool.
Definition set_entry (r : nat) (e : entry) (v : nat -> option entry) : nat -> option entry := fun i => if Nat.eqb i r then Some e else v i.
Definition vstep (v : nat -> option entry) (e : stream_event) : nat -> option entry :=
  match e with
  | Opened r path => set_entry r (path, [], true) v
  | Put r text => match v r with Some (path, old, true) => set_entry r (path, old ++ text, true) v | _ => v end
  | Flushed _ _ => v
  | Closed r => match v r with Some (path, old, true) => set_entry r (path, old, false) v | _ => v end
  end.
Definition seen (w : world) (i : nat) : option entry := option_map (fun R => (trace_path w R, r_trace R, r_alive R)) (nth_error (w_regions w) i).
Definition like (v v' : nat -> option entry) : Prop := forall i, v i = v' i.

Definition about (e : stream_event) : nat := match e with Opened r _ | Put r _ | Flushed r _ | Closed r => r end.

Lemma vstep_other v e i : about e <> i -> vstep v e i = v i.
Proof.
  destruct e as [r p|r t|r n|r]; cbn; intros N; auto.
  - unfold set_entry. destruct (Nat.eqb_spec i r); congruence.
  - destruct (v r) as [[[? ?] [|]]|]; auto. unfold set_entry. destruct (Nat.eqb_spec i r); congruence.
  - destruct (v r) as [[[? ?] [|]]|]; auto. unfold set_entry. destruct (Nat.eqb_spec i r); congruence.
Qed.

Lemma vstep_local v v' e i : v i = v' i -> vstep v e i = vstep v' e i.
Proof.
  intros H. destruct (Nat.eq_dec (about e) i) as [<-|N]; [|now rewrite !vstep_other].
  destruct e as [r p|r t|r n|r]; cbn in *; auto.
  - unfold set_entry. now rewrite Nat.eqb_refl.
  - rewrite <- H. destruct (v r) as [[[? ?] [|]]|] eqn:V; try congruence. unfold set_entry. now rewrite Nat.eqb_refl.
  - rewrite <- H. destruct (v r) as [[[? ?] [|]]|] eqn:V; try congruence. unfold set_entry. now rewrite Nat.eqb_refl.
Qed.

Lemma vfold_local es : forall v v' i, v i = v' i -> fold_left vstep es v i = fold_left vstep es v' i.
Proof. induction es as [|e es IH]; cbn; auto. intros. apply IH, vstep_local. auto. Qed.

Lemma vfold_other es i : forall v, (forall e, In e es -> about e <> i) -> fold_left vstep es v i = v i.
Proof. induction es as [|e es IH]; cbn; auto. intros v H. rewrite IH by auto. apply vstep_other. auto. Qed.

Lemma vfold_flat (f : nat -> list stream_event) : (forall i e, In e (f i) -> about e = i) ->
  forall l v i, NoDup l -> fold_left vstep (flat_map f l) v i = if in_dec Nat.eq_dec i l then fold_left vstep (f i) v i else v i.
Proof.
  intros A. induction l as [|j l IH]; intros v i N; cbn [flat_map]; [reflexivity|]. inversion N as [|? ? N1 N2]; subst. rewrite fold_left_app, IH by auto.
  destruct (in_dec Nat.eq_dec i (j :: l)) as [I|I], (in_dec Nat.eq_dec i l) as [K|K].
  - apply vfold_local, vfold_other. intros e IE Q. apply A in IE. congruence.
  - destruct I as [->|]; [reflexivity|contradiction].
  - exfalso. apply I. now right.
  - apply vfold_other. intros e IE Q. apply A in IE. apply I. left. congruence.
Qed.

Lemma region_events_about w w' i e : In e (region_events w w' i) -> about e = i.
Proof.
  unfold region_events. destruct (nth_error (w_regions w) i), (nth_error (w_regions w') i); cbn; try tauto.
  - destruct (_ && _); cbn; intuition (subst; reflexivity).
  - intuition (subst; reflexivity).
Qed.

Lemma same_trace_path w w' R R' : w_rank w' = w_rank w -> cf_output_dir (w_config w') = cf_output_dir (w_config w) ->
  cf_traces_dir (w_config w') = cf_traces_dir (w_config w) -> same_static R R' -> trace_path w' R' = trace_path w R.
Proof. intros A B C (D & _ & _ & _ & F & _). unfold trace_path. rewrite A, B, C. f_equal. f_equal; auto. Qed.

Section Step.
Variables (P : platform) (w w' : world) (o : op) (x : result).
Hypothesis S : step P w o = Ok (w', x).
Hypothesis T : truthy (cf_trace_csv (w_config w)) = true.

Lemma region_seen i : fold_left vstep (region_events w w' i) (seen w) i = seen w' i.
Proof.
  destruct (step_grows _ _ _ _ _ S) as (A & B & C & D & L & G & N). unfold region_events, seen.
  destruct (nth_error (w_regions w) i) as [R|] eqn:ER.
  - destruct (G _ _ ER) as (R' & ER' & K1 & (t & K2) & K3). rewrite ER'. rewrite K2, skipn_app, skipn_all, Nat.sub_diag. cbn [skipn app].
    pose proof (same_trace_path _ _ _ _ A C D K1) as PA. unfold seen. cbn [fold_left vstep option_map]. rewrite ER. cbn [option_map].
    destruct (r_alive R) eqn:AL.
    + destruct (r_alive R') eqn:AL'; cbn [andb negb fold_left vstep]; unfold set_entry; rewrite ?Nat.eqb_refl, PA, K2; cbn; rewrite ?Nat.eqb_refl; reflexivity.
    + destruct (K3 eq_refl) as [Q1 Q2]. cbn [andb fold_left]. rewrite ER. cbn. now rewrite AL, PA, Q1, Q2.
  - destruct (nth_error (w_regions w') i) as [R'|] eqn:ER'; [|cbn; now rewrite ER].
    cbn [fold_left vstep option_map]. unfold set_entry. rewrite !Nat.eqb_refl. cbn. now rewrite (N _ _ ER ER' T).
Qed.

Lemma call_seen i : fold_left vstep (call_events w w') (seen w) i = seen w' i.
Proof.
  unfold call_events. rewrite T. rewrite vfold_flat; [|intros; eapply region_events_about; eauto|apply seq_NoDup].
  destruct (in_dec _ _ _) as [I|I]; [apply region_seen|]. rewrite in_seq in I. destruct (step_grows _ _ _ _ _ S) as (_ & _ & _ & _ & L & _).
  unfold seen. rewrite !(proj2 (nth_error_None _ _)) by lia. reflexivity.
Qed.

Lemma call_opened i p : In (Opened i p) (call_events w w') -> nth_error (w_regions w) i = None /\ exists R', nth_error (w_regions w') i = Some R' /\ r_alive R' = true /\ trace_path w' R' = p.
Proof.
  unfold call_events. rewrite T. intros I. apply in_flat_map in I. destruct I as (j & _ & I). pose proof (region_events_about _ _ _ _ I) as Q. cbn in Q. subst j.
  destruct (step_grows _ _ _ _ _ S) as (_ & _ & _ & _ & _ & _ & N).
  unfold region_events in I. destruct (nth_error (w_regions w) i) eqn:ER, (nth_error (w_regions w') i) as [R'|] eqn:ER'; cbn in I; try tauto.
  - destruct (_ && _); cbn in I; intuition discriminate.
  - split; auto. exists R'. split; auto. split; [eapply N; eauto|]. destruct I as [I|[I|[]]]; congruence.
Qed.
End Step.

(** ** Buffers *)
Lemma buffered_app a : forall b fs, buffered (a ++ b) fs -> exists fa fb, fs = fa ++ fb /\ buffered a fa /\ buffered b fb.
Proof.
  intros b fs H. remember (a ++ b) as l eqn:L. revert a L. induction H as [|e es fs H IH|r n es fs H IH]; intros a L.
  - destruct a; [|discriminate]. destruct b; [|discriminate]. exists [], []. repeat split; constructor.
  - destruct a as [|e' a]; cbn in L.
    + exists [], (e :: fs). split; auto. split; [constructor|]. subst b. now constructor.
    + inversion L; subst. destruct (IH a eq_refl) as (fa & fb & -> & A & B). exists (e' :: fa), fb. repeat split; auto. now constructor.
  - destruct (IH a L) as (fa & fb & -> & A & B). exists (Flushed r n :: fa), fb. repeat split; auto. now constructor.
Qed.

Lemma buffered_cons e es : forall fs, buffered (e :: es) fs -> exists fa fb, fs = fa ++ e :: fb /\ buffered [] fa /\ buffered es fb.
Proof.
  intros fs H. remember (e :: es) as l eqn:L. induction H as [|e' es' fs H IH|r n es' fs H IH]; try discriminate.
  - inversion L; subst. exists [], fs. repeat split; auto. constructor.
  - destruct (IH L) as (fa & fb & -> & A & B). exists (Flushed r n :: fa), fb. repeat split; auto. now constructor.
Qed.

Lemma buffered_in es fs e : buffered es fs -> In e fs -> In e es \/ exists r n, e = Flushed r n.
Proof. induction 1; cbn; intros I; [tauto| |]; destruct I as [<-|I]; eauto; destruct (IHbuffered I); eauto. Qed.

Lemma buffered_vfold es fs : buffered es fs -> forall v, fold_left vstep fs v = fold_left vstep es v.
Proof. induction 1; cbn; auto. Qed.

Lemma buffered_refl es : buffered es es.
Proof. induction es; constructor; auto. Qed.

(** ** Events one by one *)
(** Open streams belong to regions not destroyed. *)
Definition I0 (v : nat -> option entry) (d : disk) : Prop := forall j s, d_streams d j = Some s -> exists text, v j = Some (s_path s, text, true).

Lemma I0_step v d e : I0 v d -> I0 (vstep v e) (disk_step d e).
Proof.
  intros H j s. destruct e as [r p|r t|r n|r]; cbn.
  - unfold set_stream, set_entry. destruct (Nat.eqb_spec j r) as [->|N]; [|apply H]. intros E; inversion E; subst. cbn. eauto.
  - destruct (d_streams d r) as [s0|] eqn:E0; cbn.
    + destruct (H _ _ E0) as (text & V). rewrite V. unfold set_stream, set_entry. destruct (Nat.eqb_spec j r) as [->|N]; [|apply H]. intros E; inversion E; subst. cbn. eauto.
    + intros E. assert (N : j <> r) by congruence. destruct (H _ _ E) as (text & V). exists text.
      destruct (v r) as [[[? ?] [|]]|]; auto. unfold set_entry. destruct (Nat.eqb_spec j r); congruence.
  - destruct (d_streams d r) as [s0|] eqn:E0; [|apply H]. cbn. destruct (H _ _ E0) as (text & V).
    unfold set_stream. destruct (Nat.eqb_spec j r) as [->|N]; [|apply H]. intros E; inversion E; subst. cbn. eauto.
  - destruct (d_streams d r) as [s0|] eqn:E0; cbn.
    + destruct (H _ _ E0) as (text & V). rewrite V. unfold set_stream, set_entry. destruct (Nat.eqb_spec j r) as [->|N]; [discriminate|apply H].
    + intros E. assert (N : j <> r) by congruence. destruct (H _ _ E) as (text & V). exists text.
      destruct (v r) as [[[? ?] [|]]|]; auto. unfold set_entry. destruct (Nat.eqb_spec j r); congruence.
Qed.

Lemma I0_fold es : forall v d, I0 v d -> I0 (fold_left vstep es v) (fold_left disk_step es d).
Proof. induction es; cbn; auto. intros. apply IHes, I0_step. auto. Qed.

(** The file of a region that alone writes to it. *)
Definition I1 (r : nat) (p : bytes) (v : nat -> option entry) (d : disk) : Prop :=
  exists text alive c, v r = Some (p, text, alive) /\ holds d p = Some c /\
    (if alive : bool then exists s, d_streams d r = Some s /\ s_path s = p /\ s_position s = List.length c /\ c ++ s_buffer s = text
     else c = text /\ d_streams d r = None) /\
    forall j s, j <> r -> d_streams d j = Some s -> s_path s <> p.

Definition harmless (r : nat) (p : bytes) (e : stream_event) : Prop :=
  match e with Opened j q => j <> r /\ q <> p | _ => True end.

Lemma hand_over_files d r n s p : file_find p (d_files (hand_over d r n s)) =
  if bytes_eqb p (s_path s) then Some (write_at (s_position s) (firstn n (s_buffer s)) (match file_find (s_path s) (d_files d) with Some old => old | None => [] end)) else file_find p (d_files d).
Proof. cbn. apply file_find_write. Qed.

Lemma set_stream_at r s l : set_stream r s l r = s.
Proof. unfold set_stream. now rewrite Nat.eqb_refl. Qed.
Lemma set_stream_off r s l j : j <> r -> set_stream r s l j = l j.
Proof. intros N. unfold set_stream. destruct (Nat.eqb_spec j r); congruence. Qed.
Lemma set_entry_at r e v : set_entry r e v r = Some e.
Proof. unfold set_entry. now rewrite Nat.eqb_refl. Qed.
Lemma set_entry_off r e v j : j <> r -> set_entry r e v j = v j.
Proof. intros N. unfold set_entry. destruct (Nat.eqb_spec j r); congruence. Qed.

Lemma I1_step r p v d e : harmless r p e -> I1 r p v d -> I1 r p (vstep v e) (disk_step d e).
Proof.
  intros HA (text & alive & c & V & C & A & O). unfold holds in C.
  destruct (Nat.eq_dec (about e) r) as [Q|Q].
  - (* the stream of the region *)
    destruct e as [j q|j t|j n|j]; cbn in Q; subst j; cbn [harmless] in HA; [tauto| | |]; cbn [vstep disk_step].
    + rewrite V. destruct alive.
      * destruct A as (s & S1 & S2 & S3 & S4). rewrite S1. exists (text ++ t), true, c. rewrite set_entry_at. split; auto. split; [exact C|]. split.
        -- eexists. cbn [d_streams]. rewrite set_stream_at. split; [reflexivity|]. cbn. repeat split; auto. now rewrite app_assoc, S4.
        -- intros j s' N. cbn [d_streams]. rewrite set_stream_off by auto. eauto.
      * destruct A as [A1 A2]. rewrite A2. exists text, false, c. auto.
    + destruct alive.
      * destruct A as (s & S1 & S2 & S3 & S4). rewrite S1. exists text, true, (c ++ firstn n (s_buffer s)). split; auto. split.
        -- unfold holds. rewrite hand_over_files, S2, bytes_eqb_refl, C, S3, write_at_end. reflexivity.
        -- split.
           ++ eexists. cbn [hand_over d_streams]. rewrite set_stream_at. split; [reflexivity|]. cbn. repeat split; auto.
              ** rewrite app_length. lia.
              ** rewrite <- app_assoc, firstn_skipn. exact S4.
           ++ intros j s' N. cbn [hand_over d_streams]. rewrite set_stream_off by auto. eauto.
      * destruct A as [A1 A2]. rewrite A2. exists text, false, c. auto.
    + rewrite V. destruct alive.
      * destruct A as (s & S1 & S2 & S3 & S4). rewrite S1. exists text, false, text. rewrite set_entry_at. split; auto. split.
        -- unfold holds. cbn [d_files]. rewrite hand_over_files, S2, bytes_eqb_refl, C, S3, write_at_end, firstn_all, S4. reflexivity.
        -- split; [split; auto; cbn [d_streams]; now rewrite set_stream_at|]. intros j s' N. cbn [hand_over d_streams]. rewrite !set_stream_off by auto. eauto.
      * destruct A as [A1 A2]. rewrite A2. exists text, false, c. auto.
  - (* another stream *)
    exists text, alive, c. rewrite vstep_other by auto. split; auto.
    destruct e as [j q|j t|j n|j]; cbn [about] in Q; cbn [harmless] in HA; cbn [disk_step].
    + destruct HA as [_ HA]. split; [unfold holds; cbn; rewrite file_find_write, bytes_eqb_neq by auto; exact C|]. cbn [d_streams]. split.
      * rewrite set_stream_off by auto. exact A.
      * intros k s N. destruct (Nat.eq_dec k j) as [->|M]; [rewrite set_stream_at|rewrite set_stream_off by auto; eauto]. intros E; inversion E; subst. exact HA.
    + destruct (d_streams d j) as [s|] eqn:E; [|repeat split; auto]. split; [exact C|]. cbn [d_streams]. split.
      * rewrite set_stream_off by auto. exact A.
      * intros k s' N. destruct (Nat.eq_dec k j) as [->|M]; [rewrite set_stream_at|rewrite set_stream_off by auto; eauto]. intros E'; inversion E'; subst. cbn. eauto.
    + destruct (d_streams d j) as [s|] eqn:E; [|repeat split; auto]. pose proof (O _ _ Q E) as NP. split; [unfold holds; rewrite hand_over_files, bytes_eqb_neq by auto; exact C|]. cbn [hand_over d_streams]. split.
      * rewrite set_stream_off by auto. exact A.
      * intros k s' N. destruct (Nat.eq_dec k j) as [->|M]; [rewrite set_stream_at|rewrite set_stream_off by auto; eauto]. intros E'; inversion E'; subst. cbn. eauto.
    + destruct (d_streams d j) as [s|] eqn:E; [|repeat split; auto]. pose proof (O _ _ Q E) as NP. cbn zeta. split; [unfold holds; cbn [d_files]; rewrite hand_over_files, bytes_eqb_neq by auto; exact C|]. cbn [hand_over d_streams]. split.
      * rewrite !set_stream_off by auto. exact A.
      * intros k s' N. destruct (Nat.eq_dec k j) as [->|M]; [rewrite set_stream_at; discriminate|rewrite !set_stream_off by auto; eauto].
Qed.

Lemma I1_fold r p es : forall v d, (forall e, In e es -> harmless r p e) -> I1 r p v d -> I1 r p (fold_left vstep es v) (fold_left disk_step es d).
Proof. induction es; cbn; auto. intros. apply IHes; auto. apply I1_step; auto. Qed.

(** Opening. *)
Lemma I1_opened r p v d : I0 v d -> (forall j t, j <> r -> v j <> Some (p, t, true)) -> I1 r p (vstep v (Opened r p)) (disk_step d (Opened r p)).
Proof.
  intros H N. exists [], true, []. cbn [vstep disk_step]. rewrite set_entry_at. split; auto. split; [unfold holds; cbn; now rewrite file_find_write, bytes_eqb_refl|].
  split; [eexists; cbn [d_streams]; rewrite set_stream_at; split; [reflexivity|cbn; auto]|].
  intros j s J. cbn [d_streams]. rewrite set_stream_off by auto. intros E Q. destruct (H _ _ E) as (t & V). rewrite Q in V. exact (N _ _ J V).
Qed.

(** ** Runs *)
Lemma I0_like v v' d : like v v' -> I0 v d -> I0 v' d.
Proof. intros L H j s E. destruct (H _ _ E) as (t & V). exists t. now rewrite <- L. Qed.
Lemma I1_like r p v v' d : like v v' -> I1 r p v d -> I1 r p v' d.
Proof. intros L (t & a & c & V & H). exists t, a, c. split; [now rewrite <- L|exact H]. Qed.

Lemma traced_cons P w o os w' es : traced_run P w (o :: os) = Ok (w', es) ->
  exists w1 x es1, step P w o = Ok (w1, x) /\ traced_run P w1 os = Ok (w', es1) /\ es = call_events w w1 ++ es1.
Proof.
  cbn. intros E. apply bind_inv in E. destruct E as ([w1 x] & E1 & E). apply bind_inv in E. destruct E as ([w2 es1] & E2 & E). inversion E; subst. eauto 8.
Qed.

Lemma up_to_step P w o w1 x os w2 : step P w o = Ok (w1, x) -> up_to P w1 os w2 -> up_to P w (o :: os) w2.
Proof. intros S (a & b & xs & -> & R). exists (o :: a), b, (x :: xs). split; auto. cbn. rewrite S. cbn. rewrite R. reflexivity. Qed.

Lemma up_to_here P w os : up_to P w os w.
Proof. exists [], os, []. split; reflexivity. Qed.

Lemma sole_step P w o w1 x os r p : step P w o = Ok (w1, x) -> sole_writer P w (o :: os) r p -> sole_writer P w1 os r p.
Proof. intros S H w2 U. apply H. eapply up_to_step; eauto. Qed.

Lemma seen_alive w j p t : seen w j = Some (p, t, true) -> exists Q, nth_error (w_regions w) j = Some Q /\ r_alive Q = true /\ trace_path w Q = p.
Proof. unfold seen. destruct (nth_error _ _) as [Q|]; [|discriminate]. cbn. intros E. inversion E; subst. eauto. Qed.

Lemma trace_path_step P w o w1 x i R : step P w o = Ok (w1, x) -> nth_error (w_regions w) i = Some R -> exists R1, nth_error (w_regions w1) i = Some R1 /\ trace_path w1 R1 = trace_path w R.
Proof.
  intros S ER. destruct (step_grows _ _ _ _ _ S) as (A & B & C & D & L & G & N). destruct (G _ _ ER) as (R1 & E1 & K & _). exists R1. split; auto. eapply same_trace_path; eauto.
Qed.

Lemma trace_path_run P : forall os w w' es i R, traced_run P w os = Ok (w', es) -> nth_error (w_regions w) i = Some R -> exists R1, nth_error (w_regions w') i = Some R1 /\ trace_path w' R1 = trace_path w R.
Proof.
  induction os as [|o os IH]; intros w w' es i R E ER; [inversion E; subst; eauto|]. apply traced_cons in E. destruct E as (w1 & x & es1 & S & E & ->).
  destruct (trace_path_step _ _ _ _ _ _ _ S ER) as (R1 & ER1 & Q). destruct (IH _ _ _ _ _ E ER1) as (R2 & ER2 & Q2). exists R2. split; auto. congruence.
Qed.

Lemma csv_step P w o w1 x : step P w o = Ok (w1, x) -> cf_trace_csv (w_config w1) = cf_trace_csv (w_config w).
Proof. intros S. destruct (step_grows _ _ _ _ _ S) as (_ & B & _). exact B. Qed.

Lemma own_run P r p : forall os w w' es fs d R,
  traced_run P w os = Ok (w', es) -> truthy (cf_trace_csv (w_config w)) = true -> buffered es fs -> I0 (seen w) d ->
  (nth_error (w_regions w) r = None \/ I1 r p (seen w) d) -> sole_writer P w os r p -> nth_error (w_regions w') r = Some R -> trace_path w' R = p ->
  I1 r p (seen w') (fold_left disk_step fs d).
Proof.
  induction os as [|o os IH]; intros w w' es fs d R E T BF H0 H1 SW ER PA.
  - inversion E; subst. destruct H1 as [H1|H1]; [congruence|]. assert (BI : forall e, In e fs -> harmless r (trace_path w' R) e).
    { intros e I. destruct (buffered_in _ _ _ BF I) as [[]|(? & ? & ->)]. exact Logic.I. }
    pose proof (I1_fold r _ fs _ _ BI H1) as K. rewrite (buffered_vfold _ _ BF) in K. exact K.
  - apply traced_cons in E. destruct E as (w1 & x & es1 & S & E & ->). apply buffered_app in BF. destruct BF as (fa & fb & -> & BA & BB). rewrite fold_left_app.
    assert (LK : like (fold_left vstep fa (seen w)) (seen w1)) by (intros i; rewrite (buffered_vfold _ _ BA); eapply call_seen; eauto).
    assert (T1 : truthy (cf_trace_csv (w_config w1)) = true) by (rewrite (csv_step _ _ _ _ _ S); exact T).
    assert (U1 : up_to P w (o :: os) w1) by (eapply up_to_step; [exact S|apply up_to_here]).
    eapply IH; [exact E|exact T1|exact BB|eapply I0_like; [exact LK|apply I0_fold; exact H0]| |eapply sole_step; eauto|exact ER|exact PA].
    destruct H1 as [H1|H1].
    + destruct (nth_error (w_regions w1) r) as [R1|] eqn:ER1; [right|left; reflexivity].
      destruct (trace_path_run _ _ _ _ _ _ _ E ER1) as (R' & ER' & PQ). assert (R' = R) by congruence. subst R'. assert (PR : trace_path w1 R1 = p) by congruence.
      assert (LR : (r < List.length (w_regions w1))%nat) by (apply nth_error_Some; congruence).
      eapply I1_like; [exact LK|]. clear LK. revert BA. unfold call_events. rewrite T.
      replace (List.length (w_regions w1)) with (r + Datatypes.S (List.length (w_regions w1) - r - 1))%nat by lia. rewrite seq_app. cbn [seq Nat.add]. rewrite flat_map_app. cbn [flat_map].
      assert (RE : region_events w w1 r = Opened r p :: [Put r (r_trace R1)]) by (unfold region_events; rewrite H1, ER1, PR; reflexivity).
      rewrite RE. intros BA. rewrite <- app_comm_cons in BA. apply buffered_app in BA. destruct BA as (f1 & f2 & -> & B1 & B2). apply buffered_cons in B2. destruct B2 as (f3 & f4 & -> & B3 & B4).
      rewrite !fold_left_app. cbn [fold_left]. apply I1_fold.
      * intros e I. destruct (buffered_in _ _ _ B4 I) as [I1'|(? & ? & ->)]; [|exact Logic.I]. destruct e as [k q|k t|k n|k]; try exact Logic.I. cbn.
        cbn [app] in I1'. destruct I1' as [I1'|I1']; [discriminate|]. apply in_flat_map in I1'. destruct I1' as (k' & IS & IE). pose proof (region_events_about _ _ _ _ IE) as Q. cbn in Q. subst k'. apply in_seq in IS.
        assert (NR : k <> r) by lia. split; [exact NR|].
        assert (IC : In (Opened k q) (call_events w w1)) by (unfold call_events; rewrite T; apply in_flat_map; exists k; split; [apply in_seq; lia|exact IE]).
        destruct (call_opened _ _ _ _ _ S T _ _ IC) as (_ & Rk & ERk & ALk & <-). eapply (SW w1 U1); [congruence|exact NR|exact ERk|exact ALk].
      * apply I1_opened; [apply I0_fold, I0_fold; exact H0|]. intros j t NJ V. rewrite (buffered_vfold _ _ B3), (buffered_vfold _ _ B1) in V. cbn [fold_left] in V.
        rewrite vfold_flat in V; [|intros; eapply region_events_about; eauto|apply seq_NoDup].
        assert (V' : seen w1 j = Some (p, t, true)).
        { destruct (in_dec Nat.eq_dec j (seq 0 r)) as [IJ|IJ]; [rewrite (region_seen _ _ _ _ _ S T) in V; exact V|]. exfalso. rewrite in_seq in IJ.
          destruct (seen_alive _ _ _ _ V) as (Q & EQ & _). assert (K : (j < List.length (w_regions w))%nat) by (apply nth_error_Some; congruence). apply nth_error_None in H1. lia. }
        destruct (seen_alive _ _ _ _ V') as (Q & EQ & AQ & PJ). exact (SW w1 U1 ltac:(congruence) j Q NJ EQ AQ PJ).
    + right. eapply I1_like; [exact LK|]. apply I1_fold; [|exact H1]. intros e I. destruct (buffered_in _ _ _ BA I) as [I1'|(? & ? & ->)]; [|exact Logic.I].
      destruct e as [k q|k t|k n|k]; try exact Logic.I. cbn. destruct (call_opened _ _ _ _ _ S T _ _ I1') as (NK & Rk & ERk & ALk & PK).
      destruct H1 as (t1 & a1 & c1 & V1 & _). assert (NR : k <> r) by (intros ->; unfold seen in V1; rewrite NK in V1; discriminate). split; [exact NR|]. rewrite <- PK.
      assert (EX : nth_error (w_regions w1) r <> None).
      { unfold seen in V1. destruct (nth_error (w_regions w) r) as [R0|] eqn:E0; [|discriminate]. destruct (trace_path_step _ _ _ _ _ _ _ S E0) as (R1 & E1 & _). congruence. }
      exact (SW w1 U1 EX k Rk NR ERk ALk).
Qed.

Theorem own_file P c files rank os w es fs r R :
  truthy (cf_trace_csv c) = true ->
  traced_run P (mkWorld c rank [] [] 0 files) os = Ok (w, es) -> buffered es fs -> nth_error (w_regions w) r = Some R ->
  sole_writer P (mkWorld c rank [] [] 0 files) os r (trace_path w R) ->
  (exists n, holds (disk_after files fs) (trace_path w R) = Some (firstn n (r_trace R))) /\
  (r_alive R = false -> holds (disk_after files fs) (trace_path w R) = Some (r_trace R)).
Proof.
  intros T E BF ER SW. assert (K : I1 r (trace_path w R) (seen w) (disk_after files fs)).
  { eapply own_run; [exact E|exact T|exact BF| |left; apply nth_error_None; cbn; lia|exact SW|exact ER|reflexivity]. intros j s Q. discriminate. }
  destruct K as (t & a & c1 & V & C & A & _). unfold seen in V. rewrite ER in V. cbn in V. inversion V; subst. split.
  - destruct (r_alive R).
    + destruct A as (s & _ & _ & _ & <-). exists (List.length c1). rewrite firstn_app, firstn_all, Nat.sub_diag. cbn. now rewrite app_nil_r.
    + destruct A as [-> _]. exists (List.length (r_trace R)). now rewrite firstn_all.
  - intros D. rewrite D in A. destruct A as [-> _]. exact C.
Qed.

(** ** Files with several writers *)
Lemma write_at_byte pos text old k b : nth_error (write_at pos text old) k = Some b ->
  b = nul \/ nth_error old k = Some b \/ (pos <= k)%nat /\ nth_error text (k - pos) = Some b.
Proof.
  unfold write_at. destruct text as [|a text]; [auto|]. remember (a :: text) as t eqn:Et. clear Et a text.
  set (pre := firstn pos (old ++ repeat nul (pos - List.length old))).
  assert (L : List.length pre = pos) by (unfold pre; rewrite firstn_length, app_length, repeat_length; lia).
  intros H. destruct (Nat.lt_ge_cases k pos) as [K|K].
  - rewrite nth_error_app1 in H by lia. unfold pre in H.
    assert (H' : nth_error (old ++ repeat nul (pos - List.length old)) k = Some b).
    { rewrite <- (firstn_skipn pos (old ++ _)). rewrite nth_error_app1 by (fold pre; lia). exact H. }
    destruct (Nat.lt_ge_cases k (List.length old)) as [Q|Q]; [rewrite nth_error_app1 in H' by lia; auto|]. rewrite nth_error_app2 in H' by lia.
    apply nth_error_In, repeat_spec in H'. auto.
  - rewrite nth_error_app2 in H by lia. rewrite L in H. destruct (Nat.lt_ge_cases (k - pos) (List.length t)) as [Q|Q]; [rewrite nth_error_app1 in H by lia; auto|].
    rewrite nth_error_app2 in H by lia. right. left.
    destruct (Nat.lt_ge_cases (pos + List.length t) (List.length old)) as [Z|Z].
    + rewrite <- (firstn_skipn (pos + List.length t) old), nth_error_app2; rewrite firstn_length; [|lia]. rewrite <- H. f_equal. lia.
    + rewrite skipn_all2 in H by lia. destruct (k - pos - List.length t)%nat; discriminate.
Qed.

Definition I2 (p : bytes) (v : nat -> option entry) (d : disk) : Prop :=
  (forall j s, d_streams d j = Some s -> exists x, v j = Some (s_path s, x ++ s_buffer s, true) /\ List.length x = s_position s) /\
  ((exists j t a, v j = Some (p, t, a)) -> exists c, holds d p = Some c /\
    forall k b, nth_error c k = Some b -> b = nul \/ exists j t a, v j = Some (p, t, a) /\ nth_error t k = Some b).

Definition fresh (v : nat -> option entry) (e : stream_event) : Prop := match e with Opened r _ => v r = None | _ => True end.

(** Text is only ever added. *)
Lemma vstep_more v e j p t a : fresh v e -> v j = Some (p, t, a) -> exists t' a', vstep v e j = Some (p, t ++ t', a').
Proof.
  intros F V. destruct (Nat.eq_dec (about e) j) as [<-|N]; [|rewrite vstep_other by auto; exists [], a; now rewrite app_nil_r].
  destruct e as [r q|r u|r n|r]; cbn in *.
  - congruence.
  - rewrite V. destruct a; [rewrite set_entry_at; eauto|exists [], false; now rewrite app_nil_r].
  - exists [], a. now rewrite app_nil_r.
  - rewrite V. destruct a; [rewrite set_entry_at; exists [], false; now rewrite app_nil_r|exists [], false; now rewrite app_nil_r].
Qed.

Lemma vstep_back v e j p t a : vstep v e j = Some (p, t, a) -> e = Opened j p \/ exists t0 a0, v j = Some (p, t0, a0).
Proof.
  destruct (Nat.eq_dec (about e) j) as [<-|N]; [|rewrite vstep_other by auto; eauto].
  destruct e as [r q|r u|r n|r]; cbn.
  - rewrite set_entry_at. intros E. inversion E; subst. auto.
  - destruct (v r) as [[[q o] [|]]|] eqn:V; [rewrite set_entry_at| |]; intros E; try congruence; right; [inversion E; subst; eauto|exists t, a; congruence].
  - eauto.
  - destruct (v r) as [[[q o] [|]]|] eqn:V; [rewrite set_entry_at| |]; intros E; try congruence; right; [inversion E; subst; eauto|exists t, a; congruence].
Qed.

Lemma I2_written p v d r n s x : I2 p v d -> d_streams d r = Some s -> v r = Some (s_path s, x ++ s_buffer s, true) -> List.length x = s_position s ->
  (exists j t a, v j = Some (p, t, a)) -> exists c, holds (hand_over d r n s) p = Some c /\
    forall k b, nth_error c k = Some b -> b = nul \/ exists j t a, v j = Some (p, t, a) /\ nth_error t k = Some b.
Proof.
  intros [_ H] E V L X. destruct (H X) as (c & C & B). unfold holds. rewrite hand_over_files. destruct (bytes_eqb p (s_path s)) eqn:Q; [|exists c; auto].
  apply bytes_eqb_eq in Q. rewrite <- Q in *. unfold holds in C. rewrite C. eexists. split; [reflexivity|]. intros k b K. apply write_at_byte in K. destruct K as [K|[K|[K1 K2]]]; auto.
  right. exists r, (x ++ s_buffer s), true. split; auto. rewrite nth_error_app2 by lia. rewrite L. rewrite <- (firstn_skipn n (s_buffer s)). rewrite nth_error_app1; auto. apply nth_error_Some. congruence.
Qed.

Lemma I2_step p v d e : fresh v e -> I2 p v d -> I2 p (vstep v e) (disk_step d e).
Proof.
  intros F H.
  assert (MORE : forall c, (forall k b, nth_error c k = Some b -> b = nul \/ exists j t a, v j = Some (p, t, a) /\ nth_error t k = Some b) ->
    forall k b, nth_error c k = Some b -> b = nul \/ exists j t a, vstep v e j = Some (p, t, a) /\ nth_error t k = Some b).
  { intros c B k b K. destruct (B k b K) as [->|(j & t & a & V & N)]; auto. right. destruct (vstep_more _ _ _ _ _ _ F V) as (t' & a' & V'). exists j, (t ++ t'), a'. split; auto.
    rewrite nth_error_app1; auto. apply nth_error_Some. congruence. }
  assert (BACK : (forall q r, e = Opened r q -> q <> p) -> (exists j t a, vstep v e j = Some (p, t, a)) -> exists j t a, v j = Some (p, t, a)).
  { intros N (j & t & a & V). destruct (vstep_back _ _ _ _ _ _ V) as [->|(t0 & a0 & V0)]; eauto. exfalso. eapply N; reflexivity. }
  destruct H as [H1 H2]. destruct e as [r q|r u|r n|r]; split; cbn [disk_step].
  - intros j s. cbn [d_streams vstep]. destruct (Nat.eq_dec j r) as [->|N]; [rewrite set_stream_at, set_entry_at|rewrite set_stream_off, set_entry_off by auto; auto].
    intros E; inversion E; subst. exists []. auto.
  - intros X. destruct (bytes_eqb p q) eqn:Q.
    + exists []. split; [unfold holds; cbn; rewrite file_find_write, Q; reflexivity|]. intros k b K. destruct k; discriminate.
    + assert (NQ : p <> q) by (intros ->; rewrite bytes_eqb_refl in Q; discriminate).
      destruct (H2 (BACK ltac:(intros ? ? Y; inversion Y; subst; auto) X)) as (c & C & B). exists c. split; [unfold holds; cbn; rewrite file_find_write, Q; exact C|]. apply MORE. exact B.
  - intros j s. destruct (d_streams d r) as [s0|] eqn:E0.
    + destruct (H1 _ _ E0) as (x & V & L). cbn [d_streams vstep]. rewrite V. destruct (Nat.eq_dec j r) as [->|N]; [rewrite set_stream_at, set_entry_at|rewrite set_stream_off, set_entry_off by auto; auto].
      intros E; inversion E; subst. cbn. exists x. rewrite <- app_assoc. auto.
    + intros E. assert (N : r <> j) by congruence. rewrite vstep_other by auto. auto.
  - intros X. destruct (H2 (BACK ltac:(intros ? ? Y; discriminate) X)) as (c & C & B). exists c. split; [destruct (d_streams d r); exact C|]. apply MORE. exact B.
  - intros j s. destruct (d_streams d r) as [s0|] eqn:E0; [|apply H1].
    destruct (H1 _ _ E0) as (x & V & L). cbn [hand_over d_streams vstep]. destruct (Nat.eq_dec j r) as [->|N]; [rewrite set_stream_at|rewrite set_stream_off by auto; auto].
    intros E; inversion E; subst. cbn. exists (x ++ firstn n (s_buffer s0)). rewrite <- app_assoc, firstn_skipn, app_length. split; auto.
  - cbn [vstep]. intros X. destruct (d_streams d r) as [s0|] eqn:E0; [|auto]. destruct (H1 _ _ E0) as (x & V & L). eapply I2_written; eauto. split; auto.
  - intros j s. destruct (d_streams d r) as [s0|] eqn:E0.
    + destruct (H1 _ _ E0) as (x & V & L). cbn [hand_over d_streams vstep]. rewrite V. destruct (Nat.eq_dec j r) as [->|N]; [rewrite set_stream_at; discriminate|rewrite !set_stream_off, set_entry_off by auto; auto].
    + intros E. assert (N : r <> j) by congruence. rewrite vstep_other by auto. auto.
  - intros X. pose proof (BACK ltac:(intros ? ? Y; discriminate) X) as X'. destruct (d_streams d r) as [s0|] eqn:E0.
    + destruct (H1 _ _ E0) as (x & V & L). destruct (I2_written p v d r (List.length (s_buffer s0)) s0 x (conj H1 H2) E0 V L X') as (c & C & B). exists c. split; [exact C|]. apply MORE. exact B.
    + destruct (H2 X') as (c & C & B). exists c. split; [exact C|]. apply MORE. exact B.
Qed.

(** Events in a row, each opening a stream of its own. *)
Fixpoint opens (es : list stream_event) : list nat :=
  match es with [] => [] | Opened r _ :: es => r :: opens es | _ :: es => opens es end.

Lemma vstep_none v e j : v j = None -> (forall p, e <> Opened j p) -> vstep v e j = None.
Proof.
  intros V N. destruct (Nat.eq_dec (about e) j) as [<-|K]; [|now rewrite vstep_other]. destruct e as [r q|r u|r n|r]; cbn in *; auto; [|now rewrite V..].
  exfalso. eapply N. reflexivity.
Qed.

Lemma I2_fold p es : forall v d, NoDup (opens es) -> (forall r, In r (opens es) -> v r = None) -> I2 p v d -> I2 p (fold_left vstep es v) (fold_left disk_step es d).
Proof.
  induction es as [|e es IH]; cbn [fold_left]; auto. intros v d N V H. assert (N' : NoDup (opens es)) by (destruct e; cbn in N; [inversion N|..]; auto).
  apply IH; auto.
  - intros r I. apply vstep_none; [apply V; destruct e; cbn; auto|]. intros q ->. cbn in N. inversion N. contradiction.
  - apply I2_step; auto. destruct e; cbn; auto. apply V. cbn. auto.
Qed.

Lemma opens_app a b : opens (a ++ b) = opens a ++ opens b.
Proof. induction a as [|[r p|r t|r n|r] a IH]; cbn; congruence. Qed.

Lemma buffered_opens es fs : buffered es fs -> opens fs = opens es.
Proof. induction 1 as [|[r p|r t|r n|r] es fs H IH|]; cbn; congruence. Qed.

Lemma opens_in es r : In r (opens es) -> exists p, In (Opened r p) es.
Proof. induction es as [|[j p|j t|j n|j] es IH]; cbn; intros I; [tauto| | | |]; [destruct I as [->|I]; [eauto|]| | |]; destruct (IH I); eauto. Qed.

Lemma call_opens w w' : NoDup (opens (call_events w w')).
Proof.
  unfold call_events. destruct (truthy _); [|constructor]. generalize (seq_NoDup (List.length (w_regions w')) 0). generalize (seq 0 (List.length (w_regions w'))) as l.
  induction l as [|i l IH]; intros N; cbn [flat_map]; [constructor|]. inversion N as [|? ? N1 N2]; subst. rewrite opens_app.
  assert (K : opens (region_events w w' i) = [] \/ opens (region_events w w' i) = [i]).
  { unfold region_events. destruct (nth_error (w_regions w) i), (nth_error (w_regions w') i); auto. destruct (_ && _); auto. }
  destruct K as [-> | ->]; [apply IH; auto|]. cbn. constructor; [|apply IH; auto]. intros I. apply opens_in in I. destruct I as (p & I). apply in_flat_map in I. destruct I as (j & IJ & I).
  apply region_events_about in I. cbn in I. subst j. contradiction.
Qed.

Lemma I2_like p v v' d : like v v' -> I2 p v d -> I2 p v' d.
Proof.
  intros L [H1 H2]. split.
  - intros j s E. rewrite <- L. auto.
  - intros (j & t & a & V). rewrite <- L in V. destruct H2 as (c & C & B); [eauto|]. exists c. split; auto. intros k b K. destruct (B k b K) as [->|(i & u & z & W & Q)]; auto.
    right. exists i, u, z. rewrite <- L. auto.
Qed.

Lemma shared_run P p : forall os w w' es fs d,
  traced_run P w os = Ok (w', es) -> truthy (cf_trace_csv (w_config w)) = true -> buffered es fs -> I2 p (seen w) d -> I2 p (seen w') (fold_left disk_step fs d).
Proof.
  induction os as [|o os IH]; intros w w' es fs d E T BF H.
  - inversion E; subst. rewrite <- (buffered_vfold _ _ BF (seen w')) at 1. apply I2_fold; [|intros r I; exfalso|exact H]; rewrite ?(buffered_opens _ _ BF) in *; [constructor|destruct I].
  - apply traced_cons in E. destruct E as (w1 & x & es1 & S & E & ->). apply buffered_app in BF. destruct BF as (fa & fb & -> & BA & BB). rewrite fold_left_app.
    assert (LK : like (fold_left vstep fa (seen w)) (seen w1)) by (intros i; rewrite (buffered_vfold _ _ BA); eapply call_seen; eauto).
    eapply IH; [exact E|rewrite (csv_step _ _ _ _ _ S); exact T|exact BB|]. eapply I2_like; [exact LK|]. apply I2_fold; auto.
    + rewrite (buffered_opens _ _ BA). apply call_opens.
    + intros r I. rewrite (buffered_opens _ _ BA) in I. apply opens_in in I. destruct I as (q & I). destruct (call_opened _ _ _ _ _ S T _ _ I) as (N & _). unfold seen. now rewrite N.
Qed.

Theorem shared_bytes P c files rank os w es fs p :
  truthy (cf_trace_csv c) = true -> traced_run P (mkWorld c rank [] [] 0 files) os = Ok (w, es) -> buffered es fs ->
  (exists r R, nth_error (w_regions w) r = Some R /\ trace_path w R = p) ->
  exists text, holds (disk_after files fs) p = Some text /\
    forall k b, nth_error text k = Some b -> b = nul \/ exists r R, nth_error (w_regions w) r = Some R /\ trace_path w R = p /\ nth_error (r_trace R) k = Some b.
Proof.
  intros T E BF (r & R & ER & PR). assert (K : I2 p (seen w) (disk_after files fs)).
  { eapply shared_run; [exact E|exact T|exact BF|]. split; [intros j s Q; discriminate|]. intros (j & t & a & V). unfold seen in V. cbn in V. destruct j; discriminate. }
  destruct K as [_ K]. destruct K as (c0 & C & B); [exists r, (r_trace R), (r_alive R); unfold seen; rewrite ER, <- PR; reflexivity|].
  exists c0. split; auto. intros k b KB. destruct (B k b KB) as [->|(j & t & a & V & N)]; auto. right. unfold seen in V. destruct (nth_error (w_regions w) j) as [Q|] eqn:EQ; [|discriminate]. cbn in V. inversion V; subst. eauto.
Qed.

(** ** Files nobody writes to *)
Definition I3 (p : bytes) (old : option bytes) (d : disk) : Prop := holds d p = old /\ forall j s, d_streams d j = Some s -> s_path s <> p.

Lemma I3_step p old d e : (forall r, e <> Opened r p) -> I3 p old d -> I3 p old (disk_step d e).
Proof.
  intros N [H1 H2]. unfold holds in H1. destruct e as [r q|r u|r n|r]; cbn [disk_step].
  - assert (NQ : p <> q) by (intros ->; eapply N; reflexivity). split; [unfold holds; cbn; rewrite file_find_write, bytes_eqb_neq by auto; exact H1|].
    intros j s. cbn [d_streams]. destruct (Nat.eq_dec j r) as [->|K]; [rewrite set_stream_at|rewrite set_stream_off by auto; eauto]. intros E; inversion E; subst. cbn. auto.
  - destruct (d_streams d r) as [s0|] eqn:E0; [|split; auto]. split; [exact H1|]. intros j s. cbn [d_streams]. destruct (Nat.eq_dec j r) as [->|K]; [rewrite set_stream_at|rewrite set_stream_off by auto; eauto].
    intros E; inversion E; subst. cbn. eauto.
  - destruct (d_streams d r) as [s0|] eqn:E0; [|split; auto]. pose proof (H2 _ _ E0) as NP. split; [unfold holds; rewrite hand_over_files, bytes_eqb_neq by auto; exact H1|].
    intros j s. cbn [hand_over d_streams]. destruct (Nat.eq_dec j r) as [->|K]; [rewrite set_stream_at|rewrite set_stream_off by auto; eauto]. intros E; inversion E; subst. cbn. eauto.
  - destruct (d_streams d r) as [s0|] eqn:E0; [|split; auto]. pose proof (H2 _ _ E0) as NP. split; [unfold holds; cbn [d_files]; rewrite hand_over_files, bytes_eqb_neq by auto; exact H1|].
    intros j s. cbn [hand_over d_streams]. destruct (Nat.eq_dec j r) as [->|K]; [rewrite set_stream_at; discriminate|rewrite !set_stream_off by auto; eauto].
Qed.

Lemma I3_fold p old es : forall d, (forall r, ~ In (Opened r p) es) -> I3 p old d -> I3 p old (fold_left disk_step es d).
Proof. induction es as [|e es IH]; cbn; auto. intros d N H. apply IH; [intros r I; eapply N; eauto|]. apply I3_step; auto. intros r ->. eapply N; eauto. Qed.

Lemma run_opened P : forall os w w' es r p, traced_run P w os = Ok (w', es) -> In (Opened r p) es -> exists R, nth_error (w_regions w') r = Some R /\ trace_path w' R = p.
Proof.
  induction os as [|o os IH]; intros w w' es r p E I; [inversion E; subst; destruct I|]. apply traced_cons in E. destruct E as (w1 & x & es1 & S & E & ->).
  apply in_app_or in I. destruct I as [I|I]; [|eauto]. assert (T : truthy (cf_trace_csv (w_config w)) = true) by (unfold call_events in I; destruct (truthy _); [reflexivity|destruct I]).
  destruct (call_opened _ _ _ _ _ S T _ _ I) as (_ & R1 & E1 & _ & Q). destruct (trace_path_run _ _ _ _ _ _ _ E E1) as (R & ER & Q2). exists R. split; auto. congruence.
Qed.

Theorem other_files P c files rank os w es fs p :
  traced_run P (mkWorld c rank [] [] 0 files) os = Ok (w, es) -> buffered es fs ->
  truthy (cf_trace_csv c) = false \/ (forall r R, nth_error (w_regions w) r = Some R -> trace_path w R <> p) ->
  holds (disk_after files fs) p = file_find p files.
Proof.
  intros E BF N. apply (I3_fold p (file_find p files) fs (mkDisk files (fun _ => None))); [|split; [reflexivity|discriminate]].
  intros r I. destruct (buffered_in _ _ _ BF I) as [K|(? & ? & K)]; [|discriminate]. destruct (run_opened _ _ _ _ _ _ _ E K) as (R & ER & Q).
  destruct N as [N|N]; [|exact (N _ _ ER Q)]. clear - E K N. revert E K N. set (w0 := mkWorld c rank [] [] 0 files). assert (EC : w_config w0 = c) by reflexivity. rewrite <- EC. clear EC. generalize w0. clear.
  intros w0. revert w0 es. induction os as [|o os IH]; intros w0 es E K N; [inversion E; subst; destruct K|]. apply traced_cons in E. destruct E as (w1 & x & es1 & S & E & ->).
  apply in_app_or in K. destruct K as [K|K]; [unfold call_events in K; rewrite N in K; destruct K|]. eapply IH; eauto. rewrite (csv_step _ _ _ _ _ S). exact N.
Qed.

(** A traced run is a run. *)
Lemma traced_is_run P : forall os w w' es, traced_run P w os = Ok (w', es) -> exists xs, run P w os = Ok (w', xs).
Proof.
  induction os as [|o os IH]; intros w w' es E; [inversion E; subst; exists []; reflexivity|]. apply traced_cons in E. destruct E as (w1 & x & es1 & S & E & ->).
  destruct (IH _ _ _ E) as (xs & R). exists (x :: xs). cbn. rewrite S. cbn. rewrite R. reflexivity.
Qed.
Lemma run_is_traced P : forall os w w' xs, run P w os = Ok (w', xs) -> exists es, traced_run P w os = Ok (w', es).
Proof.
  induction os as [|o os IH]; intros w w' xs E; [inversion E; subst; exists []; reflexivity|]. cbn in E. apply bind_inv in E. destruct E as ([w1 x] & S & E). apply bind_inv in E. destruct E as ([w2 ys] & E2 & E). inversion E; subst.
  destruct (IH _ _ _ E2) as (es & R). exists (call_events w w1 ++ es). cbn. rewrite S. cbn. rewrite R. reflexivity.
Qed.

(** ** Two regions, one file, text handed over only at the end *)
Definition I4 (v : nat -> option entry) (d : disk) : Prop :=
  forall j, d_streams d j = match v j with Some (q, t, true) => Some (mkStream q 0 t) | _ => None end.
Definition no_flush (e : stream_event) : Prop := match e with Flushed _ _ => False | _ => True end.

Lemma I4_step v d e : no_flush e -> I4 v d -> I4 (vstep v e) (disk_step d e).
Proof.
  intros NF H j. pose proof (H (about e)) as HE. destruct e as [r q|r u|r n|r]; cbn [about no_flush] in *; [| |contradiction|]; cbn [vstep disk_step].
  - cbn [d_streams]. destruct (Nat.eq_dec j r) as [->|N]; [now rewrite set_stream_at, set_entry_at|now rewrite set_stream_off, set_entry_off by auto].
  - destruct (v r) as [[[q t] [|]]|] eqn:V; rewrite HE; auto. cbn [d_streams s_path s_position s_buffer].
    destruct (Nat.eq_dec j r) as [->|N]; [now rewrite set_stream_at, set_entry_at|now rewrite set_stream_off, set_entry_off by auto].
  - destruct (v r) as [[[q t] [|]]|] eqn:V; rewrite HE; auto. cbn [d_streams hand_over s_path s_position s_buffer].
    destruct (Nat.eq_dec j r) as [->|N]; [now rewrite set_stream_at, set_entry_at|now rewrite !set_stream_off, set_entry_off by auto].
Qed.

Lemma closed_holds d r q : holds (disk_step d (Closed r)) q = match d_streams d r with
  | Some s => if bytes_eqb q (s_path s) then Some (write_at (s_position s) (s_buffer s) (match holds d (s_path s) with Some old => old | None => [] end)) else holds d q
  | None => holds d q end.
Proof. cbn [disk_step]. destruct (d_streams d r) as [s|]; auto. unfold holds. cbn [d_files]. rewrite hand_over_files, firstn_all. reflexivity. Qed.

(** Before any of them is destroyed the file is empty. *)
Definition I5 (p : bytes) (v : nat -> option entry) (d : disk) : Prop :=
  I4 v d /\ (forall k t a, v k = Some (p, t, a) -> a = true) /\ ((exists k t, v k = Some (p, t, true)) -> holds d p = Some []).

Lemma I5_step p v d e : no_flush e -> (forall r t, e = Closed r -> v r <> Some (p, t, true)) -> I5 p v d -> I5 p (vstep v e) (disk_step d e).
Proof.
  intros NF NC (H4 & H5 & H6). split; [apply I4_step; auto|].
  assert (BACK : forall k t a, vstep v e k = Some (p, t, a) -> a = true).
  { intros k t a V. destruct (Nat.eq_dec (about e) k) as [<-|N]; [|rewrite vstep_other in V by auto; eauto]. destruct e as [r q|r u|r n|r]; cbn [about vstep no_flush] in *; [| |contradiction|].
    - rewrite set_entry_at in V. congruence.
    - destruct (v r) as [[[q o] [|]]|] eqn:E; [rewrite set_entry_at in V| |]; try congruence. rewrite E in V. inversion V; subst. eapply H5; eauto.
    - destruct (v r) as [[[q o] [|]]|] eqn:E; [rewrite set_entry_at in V| |]; try congruence.
      + inversion V; subst. exfalso. eapply NC; [reflexivity|exact E].
      + rewrite E in V. inversion V; subst. eapply H5; eauto. }
  split; [exact BACK|]. intros (k & t & V).
  destruct e as [r q|r u|r n|r]; cbn [no_flush] in NF; [| |contradiction|].
  - unfold holds. cbn. rewrite file_find_write. destruct (bytes_eqb p q) eqn:Q; [reflexivity|]. apply H6. destruct (vstep_back _ _ _ _ _ _ V) as [X|(t0 & a0 & X)]; [inversion X; subst; rewrite bytes_eqb_refl in Q; discriminate|].
    pose proof (H5 _ _ _ X). subst. eauto.
  - destruct (vstep_back _ _ _ _ _ _ V) as [X|(t0 & a0 & X)]; [discriminate|]. pose proof (H5 _ _ _ X). subst. cbn [disk_step]. destruct (d_streams d r); apply H6; eauto.
  - destruct (vstep_back _ _ _ _ _ _ V) as [X|(t0 & a0 & X)]; [discriminate|]. pose proof (H5 _ _ _ X). subst. rewrite closed_holds, (H4 r).
    destruct (v r) as [[[q o] [|]]|] eqn:E; cbn [s_path s_position s_buffer]; try (apply H6; eauto). rewrite bytes_eqb_neq; [apply H6; eauto|]. intros <-. eapply NC; [reflexivity|exact E].
Qed.

(** Both there; the first to be destroyed is [i]. *)
Definition I8 (i j : nat) (p : bytes) (v : nat -> option entry) (d : disk) : Prop :=
  I4 v d /\ (forall k t a, v k = Some (p, t, a) -> k = i \/ k = j) /\
  exists ti ai tj aj, v i = Some (p, ti, ai) /\ v j = Some (p, tj, aj) /\
    match ai, aj with
    | true, true => holds d p = Some []
    | false, true => holds d p = Some ti
    | false, false => holds d p = Some (tj ++ skipn (List.length tj) ti)
    | true, false => False
    end.

Definition apart (i j : nat) (p : bytes) (e : stream_event) : Prop := match e with Opened k q => k <> i /\ k <> j /\ q <> p | Flushed _ _ => False | _ => True end.

Lemma I8_step i j p v d e : i <> j -> apart i j p e -> (e = Closed j -> exists t, v i = Some (p, t, false)) -> I8 i j p v d -> I8 i j p (vstep v e) (disk_step d e).
Proof.
  intros IJ AP CJ (H4 & H5 & ti & ai & tj & aj & Vi & Vj & C). assert (NF : no_flush e) by (destruct e; cbn in *; tauto). split; [apply I4_step; auto|]. split.
  { intros k t a V. destruct (vstep_back _ _ _ _ _ _ V) as [->|(t0 & a0 & X)]; [cbn in AP; tauto|eauto]. }
  destruct e as [r q|r u|r n|r]; cbn [apart] in AP; [| |contradiction|].
  - destruct AP as (A1 & A2 & A3). exists ti, ai, tj, aj. cbn [vstep]. rewrite !set_entry_off by auto. split; auto. split; auto. unfold holds. cbn. rewrite file_find_write, bytes_eqb_neq by auto. exact C.
  - assert (HD : holds (disk_step d (Put r u)) p = holds d p) by (cbn [disk_step]; destruct (d_streams d r); reflexivity). rewrite HD.
    destruct (Nat.eq_dec r i) as [->|NI]; [|destruct (Nat.eq_dec r j) as [->|NJ]].
    + cbn [vstep]. rewrite Vi. destruct ai; [|exists ti, false, tj, aj; auto]. exists (ti ++ u), true, tj, aj. rewrite set_entry_at, set_entry_off by auto. destruct aj; auto.
    + cbn [vstep]. rewrite Vj. destruct aj; [|exists ti, ai, tj, false; auto]. exists ti, ai, (tj ++ u), true. rewrite set_entry_at, set_entry_off by auto. destruct ai; auto.
    + exists ti, ai, tj, aj. rewrite !vstep_other by auto. auto.
  - pose proof (closed_holds d r p) as HD. rewrite (H4 r) in HD. rewrite HD. clear HD.
    destruct (Nat.eq_dec r i) as [->|NI]; [|destruct (Nat.eq_dec r j) as [->|NJ]].
    + cbn [vstep]. rewrite Vi. destruct ai; [|exists ti, false, tj, aj; auto]. exists ti, false, tj, aj. rewrite set_entry_at, set_entry_off by auto. split; auto. split; auto.
      cbn [s_path s_position s_buffer]. rewrite bytes_eqb_refl, write_at_start. destruct aj; [|contradiction]. rewrite C. now rewrite skipn_nil, app_nil_r.
    + cbn [vstep]. rewrite Vj. destruct aj; [|exists ti, ai, tj, false; auto]. destruct (CJ eq_refl) as (t & Q). rewrite Vi in Q. inversion Q; subst. exists t, false, tj, false. rewrite set_entry_at, set_entry_off by auto. split; auto. split; auto.
      cbn [s_path s_position s_buffer]. rewrite bytes_eqb_refl, write_at_start. now rewrite C.
    + exists ti, ai, tj, aj. rewrite !vstep_other by auto. split; auto. split; auto. destruct (v r) as [[[q o] [|]]|] eqn:E; auto. cbn [s_path]. rewrite bytes_eqb_neq; auto.
      intros <-. destruct (H5 _ _ _ E); contradiction.
Qed.

Lemma I5_fold p es : forall v d, (forall e, In e es -> no_flush e) -> (forall r t a, In (Closed r) es -> forall es1 es2, es = es1 ++ es2 -> fold_left vstep es1 v r <> Some (p, t, a)) ->
  I5 p v d -> I5 p (fold_left vstep es v) (fold_left disk_step es d).
Proof.
  induction es as [|e es IH]; cbn [fold_left]; auto. intros v d NF NC H. apply IH.
  - intros; apply NF; now right.
  - intros r t a I es1 es2 Q. specialize (NC r t a (or_intror I) (e :: es1) es2). rewrite Q in NC. exact (NC eq_refl).
  - apply I5_step; auto; [apply NF; now left|]. intros r t ->. exact (NC r t true (or_introl eq_refl) [] _ eq_refl).
Qed.

Lemma I8_fold i j p es : forall v d, i <> j -> (forall e, In e es -> apart i j p e) -> (In (Closed j) es -> exists t, v i = Some (p, t, false)) ->
  I8 i j p v d -> I8 i j p (fold_left vstep es v) (fold_left disk_step es d).
Proof.
  induction es as [|e es IH]; cbn [fold_left]; auto. intros v d IJ AP CJ H. apply IH; auto.
  - intros; apply AP; now right.
  - intros I. destruct (CJ (or_intror I)) as (t & V). exists t. destruct (Nat.eq_dec (about e) i) as [Q|N]; [|rewrite vstep_other by auto; exact V].
    specialize (AP e (or_introl eq_refl)). destruct e as [r q|r u|r n|r]; cbn in *; subst; try tauto; now rewrite V.
  - apply I8_step; auto; [apply AP; now left|]. intros ->. apply CJ. now left.
Qed.

Lemma I5_like p v v' d : like v v' -> I5 p v d -> I5 p v' d.
Proof.
  intros L (A & B & C). split; [intros j; rewrite <- L; auto|]. split; [intros k t a V; rewrite <- L in V; eauto|]. intros (k & t & V). rewrite <- L in V. eauto.
Qed.
Lemma I8_like i j p v v' d : like v v' -> I8 i j p v d -> I8 i j p v' d.
Proof.
  intros L (A & B & C). split; [intros k; rewrite <- L; auto|]. split; [intros k t a V; rewrite <- L in V; eauto|]. rewrite <- !L. exact C.
Qed.

Lemma call_no_flush w w' e : In e (call_events w w') -> no_flush e.
Proof.
  unfold call_events. destruct (truthy _); [|intros []]. intros I. apply in_flat_map in I. destruct I as (k & _ & I). unfold region_events in I.
  destruct (nth_error (w_regions w) k), (nth_error (w_regions w') k); cbn in I; try tauto; [destruct (_ && _); cbn in I|]; intuition (subst; exact Logic.I).
Qed.

Lemma call_closed w w' r : In (Closed r) (call_events w w') -> exists R R', nth_error (w_regions w) r = Some R /\ nth_error (w_regions w') r = Some R' /\ r_alive R = true /\ r_alive R' = false.
Proof.
  unfold call_events. destruct (truthy _); [|intros []]. intros I. apply in_flat_map in I. destruct I as (k & _ & I). pose proof (region_events_about _ _ _ _ I) as Q. cbn in Q. subst k. unfold region_events in I.
  destruct (nth_error (w_regions w) r) as [R|] eqn:E, (nth_error (w_regions w') r) as [R'|] eqn:E'; cbn in I; try tauto.
  - exists R, R'. repeat split; auto; destruct (r_alive R), (r_alive R'); cbn in I; try reflexivity; intuition discriminate.
  - intuition discriminate.
Qed.

Lemma dead_run P : forall os w w' es i R, traced_run P w os = Ok (w', es) -> nth_error (w_regions w) i = Some R -> r_alive R = false -> exists R1, nth_error (w_regions w') i = Some R1 /\ r_alive R1 = false.
Proof.
  induction os as [|o os IH]; intros w w' es i R E ER D; [inversion E; subst; eauto|]. apply traced_cons in E. destruct E as (w1 & x & es1 & S & E & ->).
  destruct (step_grows _ _ _ _ _ S) as (_ & _ & _ & _ & _ & G & _). destruct (G _ _ ER) as (R1 & E1 & _ & _ & K). destruct (K D) as [D1 _]. eapply IH; eauto.
Qed.

(** From a state in which none has been destroyed to a later one in which none has. *)
Lemma empty_run P p : forall os w w' es d, traced_run P w os = Ok (w', es) -> truthy (cf_trace_csv (w_config w)) = true ->
  (forall k R, nth_error (w_regions w') k = Some R -> trace_path w' R = p -> r_alive R = true) -> I5 p (seen w) d -> I5 p (seen w') (fold_left disk_step es d).
Proof.
  induction os as [|o os IH]; intros w w' es d E T AL H; [inversion E; subst; exact H|]. apply traced_cons in E. destruct E as (w1 & x & es1 & S & E & ->). rewrite fold_left_app.
  assert (LK : like (fold_left vstep (call_events w w1) (seen w)) (seen w1)) by (intros k; eapply call_seen; eauto).
  eapply IH; [exact E|rewrite (csv_step _ _ _ _ _ S); exact T|exact AL|]. eapply I5_like; [exact LK|]. apply I5_fold; auto.
  - intros e I. eapply call_no_flush; eauto.
  - intros r t a I e1 e2 Q V. destruct (call_closed _ _ _ I) as (R & R' & ER & ER' & A & A').
    assert (PQ : trace_path w R = p).
    { assert (X : exists t0 a0, seen w r = Some (p, t0, a0)).
      { assert (NO : ~ In (Opened r p) e1) by (intros IO; destruct (call_opened _ _ _ _ _ S T r p) as [N _]; [rewrite Q; apply in_or_app; auto|congruence]).
        clear Q. revert V NO. generalize (seen w) as v. intros v. revert t a v. induction e1 as [|e e1 IHe]; cbn [fold_left]; intros t0 a0 v V NO; [eauto|].
        destruct (IHe _ _ _ V ltac:(cbn in NO; tauto)) as (t1 & a1 & V1). destruct (vstep_back _ _ _ _ _ _ V1) as [->|X]; [cbn in NO; tauto|exact X]. }
      destruct X as (t0 & a0 & X). unfold seen in X. rewrite ER in X. cbn in X. congruence. }
    destruct (trace_path_step _ _ _ _ _ _ _ S ER) as (R1 & E1 & P1). assert (R1 = R') by congruence. subst R1.
    destruct (trace_path_run _ _ _ _ _ _ _ E ER') as (R2 & E2 & P2). destruct (dead_run _ _ _ _ _ _ _ E ER' A') as (R3 & E3 & D3). assert (R3 = R2) by congruence. subst R3.
    rewrite (AL _ _ E2) in D3; [discriminate|congruence].
Qed.

(** While both are there, none but these two, and [j] is not destroyed before [i]. *)
Lemma both_run P i j p : i <> j -> forall os w w' es d, traced_run P w os = Ok (w', es) -> truthy (cf_trace_csv (w_config w)) = true ->
  (forall k R, nth_error (w_regions w') k = Some R -> trace_path w' R = p -> k = i \/ k = j) ->
  (exists R, nth_error (w_regions w) i = Some R /\ r_alive R = false) \/ (exists R, nth_error (w_regions w') j = Some R /\ r_alive R = true) ->
  I8 i j p (seen w) d -> I8 i j p (seen w') (fold_left disk_step es d).
Proof.
  intros IJ. induction os as [|o os IH]; intros w w' es d E T ON DJ H; [inversion E; subst; exact H|]. apply traced_cons in E. destruct E as (w1 & x & es1 & S & E & ->). rewrite fold_left_app.
  assert (LK : like (fold_left vstep (call_events w w1) (seen w)) (seen w1)) by (intros k; eapply call_seen; eauto).
  eapply IH; [exact E|rewrite (csv_step _ _ _ _ _ S); exact T|exact ON| |].
  - destruct DJ as [(R & ER & D)|DJ]; [left|right; exact DJ]. destruct (step_grows _ _ _ _ _ S) as (_ & _ & _ & _ & _ & G & _). destruct (G _ _ ER) as (R1 & E1 & _ & _ & K). destruct (K D) as [D1 _]. eauto.
  - eapply I8_like; [exact LK|]. destruct H as (H4 & H5 & ti & ai & tj & aj & Vi & Vj & C). apply I8_fold; auto.
    + intros e I. pose proof (call_no_flush _ _ _ I) as NF. destruct e as [k q|k t|k n|k]; cbn in NF |- *; auto. destruct (call_opened _ _ _ _ _ S T _ _ I) as (N & R1 & E1 & _ & PQ).
      assert (NI : k <> i) by (intros ->; unfold seen in Vi; rewrite N in Vi; discriminate). assert (NJ : k <> j) by (intros ->; unfold seen in Vj; rewrite N in Vj; discriminate).
      split; auto. split; auto. intros ->. destruct (trace_path_run _ _ _ _ _ _ _ E E1) as (R2 & E2 & P2). destruct (ON _ _ E2); congruence.
    + intros I. destruct (call_closed _ _ _ I) as (R & R' & ER & ER' & A & A'). destruct DJ as [(Q & EQ & D)|(Q & EQ & D)].
      * unfold seen in Vi |- *. rewrite EQ in Vi |- *. cbn in Vi |- *. inversion Vi; subst. rewrite D. eauto.
      * destruct (dead_run _ _ _ _ _ _ _ E ER' A') as (R2 & E2 & D2). congruence.
    + split; auto. split; auto. exists ti, ai, tj, aj. auto.
Qed.

Lemma traced_app P a : forall w b w' es, traced_run P w (a ++ b) = Ok (w', es) -> exists w1 es1 es2, traced_run P w a = Ok (w1, es1) /\ traced_run P w1 b = Ok (w', es2) /\ es = es1 ++ es2.
Proof.
  induction a as [|o a IH]; intros w b w' es E; cbn [app] in E; [exists w, [], es; split; auto|]. apply traced_cons in E. destruct E as (w1 & x & es1 & S & E & ->).
  destruct (IH _ _ _ _ E) as (w2 & e1 & e2 & A & B & ->). exists w2, (call_events w w1 ++ e1), e2. split; [|split; auto; now rewrite app_assoc]. cbn. rewrite S. cbn. rewrite A. reflexivity.
Qed.

Lemma traced_world P os w w1 xs w2 es : run P w os = Ok (w1, xs) -> traced_run P w os = Ok (w2, es) -> w1 = w2.
Proof. intros A B. destruct (traced_is_run _ _ _ _ _ B) as (ys & C). congruence. Qed.

Lemma csv_run P : forall os w w' es, traced_run P w os = Ok (w', es) -> cf_trace_csv (w_config w') = cf_trace_csv (w_config w).
Proof. induction os as [|o os IH]; intros w w' es E; [inversion E; subst; auto|]. apply traced_cons in E. destruct E as (w1 & x & es1 & S & E & ->). rewrite (IH _ _ _ E). eapply csv_step; eauto. Qed.

Theorem overwritten P c files rank a b d w es i j Ri Rj p w0 xs w1 ys :
  truthy (cf_trace_csv c) = true -> i <> j ->
  traced_run P (mkWorld c rank [] [] 0 files) (a ++ b ++ d) = Ok (w, es) ->
  nth_error (w_regions w) i = Some Ri -> nth_error (w_regions w) j = Some Rj -> trace_path w Ri = p -> trace_path w Rj = p ->
  (forall k R, nth_error (w_regions w) k = Some R -> trace_path w R = p -> k = i \/ k = j) ->
  run P (mkWorld c rank [] [] 0 files) a = Ok (w0, xs) -> (exists R, nth_error (w_regions w0) i = Some R /\ r_alive R = true) -> (exists R, nth_error (w_regions w0) j = Some R /\ r_alive R = true) ->
  run P w0 b = Ok (w1, ys) -> (exists R, nth_error (w_regions w1) i = Some R /\ r_alive R = false) -> (exists R, nth_error (w_regions w1) j = Some R /\ r_alive R = true) ->
  r_alive Rj = false ->
  holds (disk_after files es) p = Some (r_trace Rj ++ skipn (List.length (r_trace Rj)) (r_trace Ri)).
Proof.
  intros T IJ E ERi ERj PI PJ ON RA (Qi & Ei & Ai) (Qj & Ej & Aj) RB (Si & Fi & Bi) (Sj & Fj & Bj) DJ.
  destruct (traced_app _ _ _ _ _ _ E) as (v0 & e0 & e12 & E0 & E12 & ->). destruct (traced_app _ _ _ _ _ _ E12) as (v1 & e1 & e2 & E1 & E2 & ->).
  pose proof (traced_world _ _ _ _ _ _ _ RA E0). subst v0. pose proof (traced_world _ _ _ _ _ _ _ RB E1). subst v1.
  assert (T0 : truthy (cf_trace_csv (w_config w0)) = true) by (rewrite (csv_run _ _ _ _ _ E0); exact T).
  assert (T1 : truthy (cf_trace_csv (w_config w1)) = true) by (rewrite (csv_run _ _ _ _ _ E1); exact T0).
  assert (ON1 : forall k R, nth_error (w_regions w1) k = Some R -> trace_path w1 R = p -> k = i \/ k = j).
  { intros k R EK PK. destruct (trace_path_run _ _ _ _ _ _ _ E2 EK) as (R2 & ER2 & P2). eapply ON; [exact ER2|congruence]. }
  assert (ON0 : forall k R, nth_error (w_regions w0) k = Some R -> trace_path w0 R = p -> k = i \/ k = j).
  { intros k R EK PK. destruct (trace_path_run _ _ _ _ _ _ _ E1 EK) as (R2 & ER2 & P2). eapply ON1; [exact ER2|congruence]. }
  unfold disk_after. rewrite !fold_left_app. set (d0 := fold_left disk_step e0 _).
  assert (H5 : I5 p (seen w0) d0).
  { eapply empty_run; [exact E0|exact T| |].
    - intros k R EK PK. destruct (ON0 _ _ EK PK); subst; congruence.
    - split; [intros k; cbn; destruct k; reflexivity|]. split; [intros k t al V; destruct k; discriminate|]. intros (k & t & V). destruct k; discriminate. }
  destruct (trace_path_run _ _ _ _ _ _ _ E12 Ei) as (Xi & EXi & PXi). destruct (trace_path_run _ _ _ _ _ _ _ E12 Ej) as (Xj & EXj & PXj).
  assert (H8 : I8 i j p (seen w0) d0).
  { destruct H5 as (H4 & H5 & H6). split; auto. split.
    - intros k t al V. unfold seen in V. destruct (nth_error (w_regions w0) k) as [R|] eqn:EK; [|discriminate]. cbn in V. inversion V; subst. eapply ON0; eauto; congruence.
    - exists (r_trace Qi), true, (r_trace Qj), true. assert (VI : seen w0 i = Some (p, r_trace Qi, true)) by (unfold seen; rewrite Ei; cbn; rewrite Ai; congruence).
      split; auto. split; [unfold seen; rewrite Ej; cbn; rewrite Aj; congruence|]. apply H6. eauto. }
  pose proof (both_run P i j p IJ _ _ _ _ _ E1 T0 ON1 (or_intror (ex_intro _ Sj (conj Fj Bj))) H8) as H9.
  pose proof (both_run P i j p IJ _ _ _ _ _ E2 T1 ON (or_introl (ex_intro _ Si (conj Fi Bi))) H9) as H10.
  destruct H10 as (_ & _ & ti & ai & tj & aj & Vi & Vj & C). unfold seen in Vi, Vj. rewrite ERi in Vi. rewrite ERj in Vj. cbn in Vi, Vj. inversion Vi; subst. inversion Vj; subst. rewrite DJ in C.
  destruct (r_alive Ri); [contradiction|]. first [exact C|rewrite PJ; exact C].
Qed.
