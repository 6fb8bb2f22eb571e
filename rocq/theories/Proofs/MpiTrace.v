(** Lemmas on collective training: the trace of gathering. *)
From Coq Require Import ZArith Bool Ascii String Lia List.
From Flocq Require Import Core BinarySingleNaN.
From Verif Require Import Model.Base Model.Decimal Model.Float Model.DatasetM Model.ParserM Model.ModelStringM Model.PolicyModelsM Model.ConfigM Model.RuntimeM Model.MpiM
  Spec.DatasetSpec Spec.RuntimeSpec Spec.MpiSpec Spec.GatherTrace
  Proofs.TreeFacts Proofs.ModelStringFacts Proofs.RuntimeFacts Proofs.RuntimeRegistry Proofs.RuntimeData Proofs.RuntimeNames Proofs.RuntimeTraceDefects Proofs.RuntimeFiles Proofs.RuntimeStored
  Proofs.MpiPacking Proofs.MpiGather Proofs.MpiJobs Proofs.MpiAgree.
Import ListNotations.
Open Scope Z_scope.

Lemma traced_text f s : trace_features f = Ok s -> s = List.concat (map (fun x : f32 => print_Z (Ztrunc (B2R x)) ++ $", ") f).
Proof.
  revert s. induction f as [|x f IH]; intros s H; cbn in H; [injection H as <-; reflexivity|]. apply bind_inv in H. destruct H as (z & E & H). apply bind_inv in H. destruct H as (t & E2 & H). injection H as <-.
  cbn [map List.concat]. rewrite (IH _ E2). unfold int_of_float in E. destruct (is_finite x); [|discriminate]. destruct (_ && _); [|discriminate]. injection E as <-. rewrite trunc_value, <- app_assoc. reflexivity.
Qed.

Lemma traced_printable f : ~ Exists unprintable f -> exists s, trace_features f = Ok s.
Proof.
  induction f as [|x f IH]; intros H; cbn; [eauto|]. destruct (int_cases x) as [(z & ->)|E].
  - cbn [bind]. destruct IH as [s ->]; [intros K; apply H; right; exact K|]. cbn. eauto.
  - exfalso. apply H. left. apply unprintable_undefined. exact E.
Qed.

(** The text of what a rank sends. *)
Definition line_of (x : record) : bytes := gathered_line (rec_rank x) (cstr (rec_name x)) (rec_meas x).

Lemma record_line_text x l : record_line x = Ok l -> l = line_of x.
Proof.
  destruct x as [[[[k f] p] nm] t]. unfold record_line, line_of, gathered_line, rec_rank, rec_name, rec_meas, m_features, m_policy, m_metric. cbn [fst snd]. intros H.
  apply bind_inv in H. destruct H as (n & E & H). apply bind_inv in H. destruct H as (s & E2 & H). injection H as <-. apply traced_text in E2. subst s.
  unfold array_string in E. destruct (existsb _ _); [|discriminate]. injection E as <-. change ($", [ ") with ($", " ++ $"[ "). rewrite <- !app_assoc. reflexivity.
Qed.

Lemma record_line_cases x : good_record x -> (exists l, record_line x = Ok l) \/ record_line x = UB.
Proof.
  intros [G _]. destruct x as [[[[k f] p] nm] t]. unfold rec_name in G. cbn [fst snd] in G. unfold record_line. rewrite (array_string_ok _ G). cbn [bind]. destruct (traced_cases f) as [[s ->]| ->]; cbn; eauto.
Qed.
Lemma record_line_printable x : good_record x -> ~ Exists unprintable (m_features (rec_meas x)) -> exists l, record_line x = Ok l.
Proof.
  intros [G _] U. destruct x as [[[[k f] p] nm] t]. unfold rec_name in G. unfold rec_meas, m_features in U. cbn [fst snd] in G, U. unfold record_line. rewrite (array_string_ok _ G). cbn [bind]. destruct (traced_printable f U) as [s ->]. cbn. eauto.
Qed.
Lemma record_line_undefined x : good_record x -> Exists unprintable (m_features (rec_meas x)) -> record_line x = UB.
Proof.
  intros [G _] U. destruct x as [[[[k f] p] nm] t]. unfold rec_name in G. unfold rec_meas, m_features in U. cbn [fst snd] in G, U. unfold record_line. rewrite (array_string_ok _ G). cbn [bind]. rewrite (traced_undefined f U). reflexivity.
Qed.

(** The loop with a trace. *)
Lemma loop_text M m pos xs : reads M m pos xs -> forall fuel w text w' text', truthy (cf_trace_allgather (w_config w)) = true ->
  receive_loop M fuel w m pos text = Ok (w', text') -> text' = text ++ flat_map line_of xs.
Proof.
  induction 1 as [|pos x next xs L U RD IH]; intros fuel w text w' text' T H.
  - destruct fuel; cbn [receive_loop] in H; rewrite Z.leb_refl in H; injection H as _ <-; rewrite app_nil_r; reflexivity.
  - destruct fuel as [|fuel]; cbn [receive_loop] in H; destruct (Z.leb_spec (Z.of_nat (List.length m)) pos); try lia; [discriminate|].
    rewrite U in H. cbn [bind] in H. rewrite T in H. apply bind_inv in H. destruct H as (text1 & E0 & H). apply bind_inv in E0. destruct E0 as (l & EL & E0). injection E0 as <-.
    apply bind_inv in H. destruct H as (w1 & E1 & H). apply IH in H; [|rewrite (record_config _ _ _ E1); exact T]. rewrite H. cbn [flat_map]. rewrite (record_line_text _ _ EL), <- app_assoc. reflexivity.
Qed.

Lemma loop_traced M m pos xs : faithful M -> reads M m pos xs -> forall fuel w text w', Z.of_nat (List.length m) - pos <= Z.of_nat fuel ->
  Forall (fun x => exists l, record_line x = Ok l) xs -> insert_records w xs = Ok w' -> exists text', receive_loop M fuel w m pos text = Ok (w', text').
Proof.
  intros FM. induction 1 as [|pos x next xs L U RD IH]; intros fuel w text w' B P H.
  - cbn in H. injection H as <-. destruct fuel; cbn [receive_loop]; rewrite Z.leb_refl; eauto.
  - inversion P as [|? ? [l E] P2]; subst. assert (N := record_next _ _ _ _ _ FM U). destruct fuel as [|fuel]; [lia|]. cbn [receive_loop]. destruct (Z.leb_spec (Z.of_nat (List.length m)) pos); [lia|]. rewrite U. cbn [bind].
    rewrite E. cbn [bind]. cbn [insert_records] in H. apply bind_inv in H. destruct H as (w1 & E1 & H).
    destruct (truthy (cf_trace_allgather (w_config w))); cbn [bind]; rewrite E1; cbn [bind]; apply IH; solve [lia|assumption].
Qed.

Lemma loop_undefined M m pos xs : faithful M -> reads M m pos xs -> forall fuel w text w', Z.of_nat (List.length m) - pos <= Z.of_nat fuel ->
  truthy (cf_trace_allgather (w_config w)) = true -> Forall good_record xs -> Exists (fun x => record_line x = UB) xs -> insert_records w xs = Ok w' -> receive_loop M fuel w m pos text = UB.
Proof.
  intros FM. induction 1 as [|pos x next xs L U RD IH]; intros fuel w text w' B T G X H; [inversion X|].
  inversion G as [|? ? GX G2]; subst. assert (N := record_next _ _ _ _ _ FM U). destruct fuel as [|fuel]; [lia|]. cbn [receive_loop]. destruct (Z.leb_spec (Z.of_nat (List.length m)) pos); [lia|]. rewrite U. cbn [bind]. rewrite T.
  destruct (record_line_cases x GX) as [(l & E)|E]; rewrite E; cbn [bind]; [|reflexivity]. cbn [insert_records] in H. apply bind_inv in H. destruct H as (w1 & E1 & H). rewrite E1. cbn [bind].
  eapply IH; [lia|rewrite (record_config _ _ _ E1); exact T|exact G2| |exact H]. inversion X; subst; [congruence|assumption].
Qed.

(** The text of everything sent. *)
Lemma region_text rank R : clean_name (r_name R) ->
  flat_map line_of (map (fun e : meas => (rank, m_features e, m_policy e, firstn 64 (r_name R ++ repeat nul 64), m_metric e)) (ds_to_vector (r_dataset R))) =
  flat_map (gathered_line rank (r_name R)) (ds_to_vector (r_dataset R)).
Proof.
  intros CR. change (firstn 64 (r_name R ++ repeat nul 64)) with (name_field (r_name R)).
  induction (ds_to_vector (r_dataset R)) as [|[[f p] t] es IHE]; [reflexivity|]. cbn [map flat_map]. etransitivity; [apply f_equal2; [|exact IHE]|reflexivity]. unfold line_of, rec_rank, rec_name, rec_meas. cbn [fst snd].
  rewrite (proj1 (name_back _ CR)). reflexivity.
Qed.
Lemma sent_text ws : Forall rank_ok ws -> $"rank, region_name, features, policy, time_avg" ++ [nl] ++ flat_map line_of (flat_map sent ws) = gathered_trace ws.
Proof.
  intros F. unfold gathered_trace. do 2 f_equal. induction F as [|w ws [NM _] F IH]; [reflexivity|]. cbn [flat_map]. rewrite flat_map_app, IH. f_equal. clear IH. unfold sent.
  assert (C : Forall (fun R => clean_name (r_name R)) (registered w)) by (apply Forall_forall; intros R H; eapply registered_clean; eauto).
  induction C as [|R l CR C IH]; [reflexivity|]. cbn [flat_map]. rewrite flat_map_app. etransitivity; [apply f_equal2; [apply region_text; exact CR|exact IH]|reflexivity].
Qed.

Lemma gather_traced M P cs os ws st ws' i w : faithful M -> exact_sizes M -> job_run M P (start_job cs) os = Ok ws -> Z.of_nat (List.length ws) < 2 ^ 31 -> Forall sendable ws -> sizes_fit M ws ->
  gather M ws st = Ok ws' -> nth_error ws i = Some w -> cf_trace_allgather (w_config w) <> 0 ->
  exists w', nth_error ws' i = Some w' /\ file_find (gather_file st (Z.of_nat i)) (w_files w') = Some (gathered_trace ws) /\
    forall path, path <> gather_file st (Z.of_nat i) -> file_find path (w_files w') = file_find path (w_files w).
Proof.
  intros FM EX JR L SE FT H GW T. assert (J := job_always _ _ _ _ _ JR). destruct J as [N F]. assert (AL := gather_alive _ _ _ _ H).
  destruct (packing_ok M ws FM EX AL (ranks_int ws N L) SE FT) as (bufs & m & E1 & E2 & RD).
  unfold gather in H. rewrite E1 in H. cbn [bind] in H. rewrite E2 in H. cbn [bind] in H. apply on_each_inv in H.
  destruct (Forall2_nth _ _ _ _ _ H GW) as (w' & G' & R). exists w'. split; [exact G'|].
  assert (TT : truthy (cf_trace_allgather (w_config w)) = true) by (unfold truthy; apply negb_true_iff, Z.eqb_neq; exact T).
  unfold receive in R. rewrite TT in R. apply bind_inv in R. destruct R as ([w1 text] & E & R). assert (I := loop_inserts _ _ _ _ RD _ _ _ _ _ E). apply (loop_text _ _ _ _ RD) in E; [|exact TT].
  assert (IW := nth_error_In _ _ GW). rewrite Forall_forall in AL. destruct (proj1 (Forall_forall _ _) F _ IW) as [NM WF].
  destruct (inserted_ok (flat_map sent ws) w NM WF (AL _ IW) (all_good ws F)) as (w2 & E3 & (S1 & S2 & S3 & S4 & S5 & S6) & _). rewrite I in E3. injection E3 as <-.
  rewrite S1, TT, S2, (N _ _ GW) in R. injection R as <-. cbn [set_files w_files]. rewrite <- (sent_text ws F). rewrite <- app_assoc in E. rewrite <- E. fold (gather_file st (Z.of_nat i)). split; [apply find_write|].
  intros path NE. rewrite find_write_other by exact NE. rewrite S5. reflexivity.
Qed.

Lemma sent_of ws x : In x (flat_map sent ws) -> exists w R, In w ws /\ In R (registered w) /\ In (rec_meas x) (ds_to_vector (r_dataset R)).
Proof.
  intros H. apply in_flat_map in H. destruct H as (w & IW & H). unfold sent in H. apply in_flat_map in H. destruct H as (R & IR & H). apply in_map_iff in H. destruct H as (e & <- & IE). exists w, R. repeat (split; [assumption|]).
  unfold rec_meas. cbn [fst snd]. destruct e as [[f p] t]. exact IE.
Qed.
Lemma sent_has ws : unprintable_measurement ws -> exists x, In x (flat_map sent ws) /\ Exists unprintable (m_features (rec_meas x)).
Proof.
  intros (w & R & e & IW & IR & IE & U). exists (w_rank w, m_features e, m_policy e, firstn 64 (r_name R ++ repeat nul 64), m_metric e). split; [|destruct e as [[f p] t]; exact U].
  apply in_flat_map. exists w. split; [exact IW|]. unfold sent. apply in_flat_map. exists R. split; [exact IR|]. apply in_map_iff. exists e. auto.
Qed.

Lemma on_each_ok {A B} (f : A -> outcome B) l : Forall (fun x => exists y, f x = Ok y) l -> exists l', on_each f l = Ok l'.
Proof. induction 1 as [|x l [y E] K [l' IH]]; [exists []; reflexivity|]. cbn [on_each]. rewrite E. cbn [bind]. rewrite IH. cbn. eauto. Qed.
Lemma on_each_undefined {A B} (f : A -> outcome B) l : Forall (fun x => (exists y, f x = Ok y) \/ f x = UB) l -> Exists (fun x => f x = UB) l -> on_each f l = UB.
Proof.
  induction 1 as [|x l [[y E]|E] K IH]; intros X; [inversion X| |]; cbn [on_each]; rewrite E; cbn [bind]; [|reflexivity]. rewrite IH; [reflexivity|]. inversion X; subst; [congruence|assumption].
Qed.

Lemma receive_ok M ws m st w : faithful M -> reads M m 0 (flat_map sent ws) -> Forall rank_ok ws -> In w ws -> alive w ->
  (cf_trace_allgather (w_config w) <> 0 -> ~ unprintable_measurement ws) -> exists w', receive M w m st = Ok w'.
Proof.
  intros FM RD F IW AW TR. assert (GOOD := all_good ws F). destruct (proj1 (Forall_forall _ _) F _ IW) as [NM WF]. destruct (inserted_ok (flat_map sent ws) w NM WF AW GOOD) as (w2 & E3 & (S1 & _) & _).
  unfold receive. destruct (truthy (cf_trace_allgather (w_config w))) eqn:T.
  - destruct (loop_traced _ _ _ _ FM RD (List.length m) w ($"rank, region_name, features, policy, time_avg" ++ [nl]) w2) as [t ->]; [lia| |exact E3|cbn [bind]; rewrite S1, T; eauto].
    apply Forall_forall. intros x IX. apply record_line_printable; [rewrite Forall_forall in GOOD; auto|]. intros U. apply TR; [intros Z0; unfold truthy in T; rewrite Z0 in T; discriminate|].
    destruct (sent_of _ _ IX) as (v & R & A & B & C). exists v, R, (rec_meas x). auto.
  - rewrite (loop_succeeds _ _ _ _ FM RD _ w _ w2); [|lia|exact T|exact E3]. cbn [bind]. rewrite S1, T. eauto.
Qed.
Lemma receive_undefined M ws m st w : faithful M -> reads M m 0 (flat_map sent ws) -> Forall rank_ok ws -> In w ws -> alive w ->
  cf_trace_allgather (w_config w) <> 0 -> unprintable_measurement ws -> receive M w m st = UB.
Proof.
  intros FM RD F IW AW T U. assert (GOOD := all_good ws F). destruct (proj1 (Forall_forall _ _) F _ IW) as [NM WF]. destruct (inserted_ok (flat_map sent ws) w NM WF AW GOOD) as (w2 & E3 & (S1 & _) & _).
  unfold receive. assert (TT : truthy (cf_trace_allgather (w_config w)) = true) by (unfold truthy; apply negb_true_iff, Z.eqb_neq; exact T). rewrite TT.
  erewrite (loop_undefined _ _ _ _ FM RD); [reflexivity|lia|exact TT|exact GOOD| |exact E3].
  destruct (sent_has _ U) as (x & IX & UX). apply Exists_exists. exists x. split; [exact IX|]. apply record_line_undefined; [rewrite Forall_forall in GOOD; auto|exact UX].
Qed.

Lemma gather_with_traces M P cs os ws st : faithful M -> exact_sizes M -> job_run M P (start_job cs) os = Ok ws -> Z.of_nat (List.length ws) < 2 ^ 31 -> Forall all_alive ws -> Forall sendable ws -> sizes_fit M ws ->
  Forall (fun w => cf_trace_allgather (w_config w) <> 0 -> ~ unprintable_measurement ws) ws -> exists ws', gather M ws st = Ok ws'.
Proof.
  intros FM EX JR L AL SE FT TR. destruct (job_always _ _ _ _ _ JR) as [N F]. assert (AL2 : Forall alive ws) by (eapply Forall_impl; [|exact AL]; exact alive_all).
  destruct (packing_ok M ws FM EX AL2 (ranks_int ws N L) SE FT) as (bufs & m & E1 & E2 & RD). unfold gather. rewrite E1. cbn [bind]. rewrite E2. cbn [bind]. apply on_each_ok. apply Forall_forall. intros w IW.
  rewrite Forall_forall in AL2, TR. eapply receive_ok; eauto.
Qed.


Lemma gather_undefined M P cs os ws st w : faithful M -> exact_sizes M -> job_run M P (start_job cs) os = Ok ws -> Z.of_nat (List.length ws) < 2 ^ 31 -> Forall all_alive ws -> Forall sendable ws -> sizes_fit M ws ->
  In w ws -> cf_trace_allgather (w_config w) <> 0 -> unprintable_measurement ws -> gather M ws st = UB.
Proof.
  intros FM EX JR L AL SE FT IW T U. destruct (job_always _ _ _ _ _ JR) as [N F]. assert (AL2 : Forall alive ws) by (eapply Forall_impl; [|exact AL]; exact alive_all).
  destruct (packing_ok M ws FM EX AL2 (ranks_int ws N L) SE FT) as (bufs & m & E1 & E2 & RD). unfold gather. rewrite E1. cbn [bind]. rewrite E2. cbn [bind]. rewrite Forall_forall in AL2. apply on_each_undefined.
  - apply Forall_forall. intros v IV. destruct (Z.eq_dec (cf_trace_allgather (w_config v)) 0) as [Z0|NZ]; [left; eapply receive_ok; eauto; intros X; contradiction|right; eapply receive_undefined; eauto].
  - apply Exists_exists. exists w. split; [exact IW|]. eapply receive_undefined; eauto.
Qed.
