(** Lemmas on collective training: what ranks agree on, and the theorems of Props/Mpi.v. *)
From Coq Require Import ZArith Bool Ascii String Lia List Permutation Reals.
From Flocq Require Import Core BinarySingleNaN.
From Verif Require Import Model.Base Model.Float Model.DatasetM Model.ParserM Model.ModelStringM Model.PolicyModelsM Model.ConfigM Model.RuntimeM Model.MpiM
  Spec.DatasetSpec Spec.DatasetClient Spec.RuntimeSpec Spec.MpiSpec
  Proofs.KeyOrder Proofs.DatasetFacts Proofs.EmaBounds Proofs.TreeFacts Proofs.ModelStringFacts Proofs.RuntimeFacts Proofs.RuntimeRegistry Proofs.RuntimeData Proofs.RuntimeNames
  Proofs.MpiPacking Proofs.MpiGather Proofs.MpiJobs Proofs.MpiSizes.
Import ListNotations.
Open Scope Z_scope.

Lemma Bplus_NE_comm prec emax (h1 : Prec_gt_0 prec) (h2 : Prec_lt_emax prec emax) (x y : binary_float prec emax) : Bplus mode_NE x y = Bplus mode_NE y x.
Proof.
  destruct x as [sx|sx| |sx mx ex Hx], y as [sy|sy| |sy my ey Hy]; try reflexivity; cbn [Bplus]; try (destruct sx, sy; reflexivity).
  rewrite Z.min_comm. f_equal. unfold Fplus_naive. apply Z.add_comm.
Qed.
Lemma mean2_comm a b : mean2 a b = mean2 b a.
Proof. unfold mean2. apply Bplus_NE_comm. Qed.

Lemma average_two l l' : Permutation l l' -> (List.length l <= 2)%nat -> moving_average l = moving_average l'.
Proof.
  intros P L. destruct l as [|x [|y [|z l]]].
  - apply Permutation_nil in P. subst. reflexivity.
  - apply Permutation_length_1_inv in P. subst. reflexivity.
  - apply Permutation_length_2_inv in P. destruct P as [->| ->]; [reflexivity|]. cbn. rewrite mean2_comm. reflexivity.
  - cbn in L. lia.
Qed.

(** The data of a rank for a registered name. *)
Lemma measured_registered w n r R : registry_ok w -> In (n, r) (w_registry w) -> nth_error (w_regions w) r = Some R -> measured_as w n = ds_to_vector (r_dataset R).
Proof.
  intros RG I G. unfold measured_as, registered. assert (ND := proj2 (registry_nodup w RG)).
  assert (H : forall n r, In (n, r) (w_registry w) -> forall R, nth_error (w_regions w) r = Some R -> r_name R = n) by (intros; eapply registered_name; eauto). clear RG.
  induction (w_registry w) as [|[k y] l IH]; [destruct I|]. cbn [flat_map map fst snd] in *. rewrite flat_map_app. inversion ND as [|? ? N1 N2]; subst.
  assert (ZERO : forall l0, ~ In n (map fst l0) -> (forall n r, In (n, r) l0 -> forall R, nth_error (w_regions w) r = Some R -> r_name R = n) ->
    flat_map (fun R => if bytes_eqb (r_name R) n then ds_to_vector (r_dataset R) else []) (flat_map (fun x => match nth_error (w_regions w) (snd x) with Some R => [R] | None => [] end) l0) = []).
  { clear. induction l0 as [|[k y] l0 IH]; intros N H; [reflexivity|]. cbn [flat_map fst snd map] in *. rewrite flat_map_app, IH; [|intros X; apply N; right; exact X|intros; eapply H; [right|]; eauto]. rewrite app_nil_r.
    destruct (nth_error (w_regions w) y) as [R|] eqn:G; [|reflexivity]. cbn [flat_map]. rewrite app_nil_r. rewrite (H k y (or_introl eq_refl) R G). destruct (bytes_eqb k n) eqn:B; [|reflexivity]. exfalso. apply N. left. apply bytes_eqb_eq. exact B. }
  destruct I as [I|I].
  - injection I as -> ->. rewrite G. cbn [flat_map]. rewrite (H n r (or_introl eq_refl) R G). replace (bytes_eqb n n) with true by (symmetry; apply bytes_eqb_eq; reflexivity).
    rewrite ZERO; [rewrite !app_nil_r; reflexivity|exact N1|intros; eapply H; [right|]; eauto].
  - rewrite IH; [|exact I|exact N2|intros; eapply H; [right|]; eauto]. replace (flat_map (fun R0 : region => if bytes_eqb (r_name R0) n then ds_to_vector (r_dataset R0) else []) match nth_error (w_regions w) y with Some R0 => [R0] | None => [] end) with (@nil meas); [reflexivity|].
    destruct (nth_error (w_regions w) y) as [R0|] eqn:G0; [|reflexivity]. cbn [flat_map]. rewrite app_nil_r. rewrite (H k y (or_introl eq_refl) R0 G0). destruct (bytes_eqb k n) eqn:B; [|reflexivity]. exfalso. apply bytes_eqb_eq in B. subst k. apply N1. apply (in_map fst) in I. exact I.
Qed.

Lemma filter_permutation {A} (f : A -> bool) l l' : Permutation l l' -> Permutation (filter f l) (filter f l').
Proof.
  induction 1; cbn; [constructor|destruct (f x); [constructor|]; assumption| |eapply perm_trans; eauto].
  destruct (f x), (f y); try apply perm_swap; apply Permutation_refl.
Qed.

Lemma own_and_others ws i w n : numbered ws -> nth_error ws i = Some w -> Permutation (measured_as w n ++ others ws (w_rank w) n) (everyone ws n).
Proof.
  intros N G. assert (S := nth_error_split ws i G). destruct S as (l1 & l2 & E & L). unfold others, everyone. subst ws. rewrite !flat_map_app. cbn [flat_map]. rewrite Z.eqb_refl. cbn [app].
  assert (Q : forall l, (forall v, In v l -> w_rank v <> w_rank w) -> flat_map (fun v => if w_rank v =? w_rank w then [] else measured_as v n) l = flat_map (fun v => measured_as v n) l).
  { clear. induction l as [|v l IH]; intros H; [reflexivity|]. cbn [flat_map]. rewrite IH by (intros; apply H; right; assumption). destruct (Z.eqb_spec (w_rank v) (w_rank w)) as [E|_]; [|reflexivity]. exfalso. exact (H v (or_introl eq_refl) E). }
  assert (RW := N _ _ G). rewrite !Q.
  - rewrite !app_assoc. apply Permutation_app_tail. apply Permutation_app_comm.
  - intros v I. apply In_nth_error in I. destruct I as [j I]. assert (X := N (List.length l1 + S j)%nat v). rewrite nth_error_app2 in X by lia. replace (List.length l1 + S j - List.length l1)%nat with (S j) in X by lia. specialize (X I). lia.
  - intros v I. apply In_nth_error in I. destruct I as [j I]. assert (J : (j < List.length l1)%nat) by (apply nth_error_Some; congruence). assert (X := N j v). rewrite nth_error_app1 in X by exact J. specialize (X I). lia.
Qed.

Lemma Forall2_nth {A B} (R : A -> B -> Prop) l l' i x : Forall2 R l l' -> nth_error l i = Some x -> exists y, nth_error l' i = Some y /\ R x y.
Proof. intros F. revert i. induction F; intros [|i] H0; cbn in *; try discriminate; [injection H0 as <-; eauto|eauto]. Qed.

(** One rank after gathering. *)
Lemma gathered_one M ws st ws' i w n r R : faithful M -> exact_sizes M -> job_ok ws -> Z.of_nat (List.length ws) < 2 ^ 31 -> Forall sendable ws -> sizes_fit M ws ->
  gather M ws st = Ok ws' -> nth_error ws i = Some w -> In (n, r) (w_registry w) -> nth_error (w_regions w) r = Some R ->
  exists w' d, nth_error ws' i = Some w' /\ nth_error (w_regions w') r = Some (with_dataset R d) /\ forall f p, Forall (fun x : f32 => is_nan x = false) f ->
    recorded f p (ds_to_vector d) = moving_average (metrics_for f p (ds_to_vector (r_dataset R) ++ others ws (w_rank w) n)).
Proof.
  intros FM EX J L SE FT H G I GR. assert (K := gather_does M ws st ws' FM EX J L SE FT H). destruct (Forall2_nth _ _ _ _ _ K G) as (w' & G' & (_ & _ & _ & _ & _ & _ & D)). destruct J as [N F].
  assert (W : rank_ok w) by (rewrite Forall_forall in F; apply F; eapply nth_error_In; eauto). destruct W as [[RG CL] WF]. assert (NM := registered_name _ _ _ _ RG I GR).
  destruct (D r R GR) as (d & G2 & A & _). rewrite NM in A. specialize (A I). exists w', d. split; [exact G'|]. split; [exact G2|]. intros f p NF. eapply gathered_recorded; [exact (WF _ _ GR)|apply others_no_nan; exact F|exact A|exact NF].
Qed.

Lemma two_agree M ws st ws' n f p i1 w1 r1 R1 i2 w2 r2 R2 : faithful M -> exact_sizes M -> job_ok ws -> Z.of_nat (List.length ws) < 2 ^ 31 -> Forall sendable ws -> sizes_fit M ws ->
  gather M ws st = Ok ws' -> Forall (fun x : f32 => is_nan x = false) f -> (List.length (metrics_for f p (everyone ws n)) <= 2)%nat ->
  nth_error ws i1 = Some w1 -> In (n, r1) (w_registry w1) -> nth_error (w_regions w1) r1 = Some R1 ->
  nth_error ws i2 = Some w2 -> In (n, r2) (w_registry w2) -> nth_error (w_regions w2) r2 = Some R2 ->
  exists w1' R1' w2' R2', nth_error ws' i1 = Some w1' /\ nth_error (w_regions w1') r1 = Some R1' /\ nth_error ws' i2 = Some w2' /\ nth_error (w_regions w2') r2 = Some R2' /\
    recorded f p (ds_to_vector (r_dataset R1')) = recorded f p (ds_to_vector (r_dataset R2')).
Proof.
  intros FM EX J L SE FT H NF LE G1 I1 GR1 G2 I2 GR2.
  destruct (gathered_one M ws st ws' i1 w1 n r1 R1 FM EX J L SE FT H G1 I1 GR1) as (w1' & d1 & A1 & B1 & C1).
  destruct (gathered_one M ws st ws' i2 w2 n r2 R2 FM EX J L SE FT H G2 I2 GR2) as (w2' & d2 & A2 & B2 & C2).
  exists w1', (with_dataset R1 d1), w2', (with_dataset R2 d2). repeat (split; [assumption|]). cbn [with_dataset r_dataset]. rewrite C1, C2 by exact NF. destruct J as [N F].
  assert (REG : forall i w r R, nth_error ws i = Some w -> In (n, r) (w_registry w) -> nth_error (w_regions w) r = Some R -> Permutation (metrics_for f p (ds_to_vector (r_dataset R) ++ others ws (w_rank w) n)) (metrics_for f p (everyone ws n))).
  { intros i w r R G I GR. assert (W : rank_ok w) by (rewrite Forall_forall in F; apply F; eapply nth_error_In; eauto). destruct W as [[RG _] _]. rewrite <- (measured_registered w n r R RG I GR).
    unfold metrics_for. apply Permutation_map. apply filter_permutation. eapply own_and_others; eauto. }
  assert (P1 := REG _ _ _ _ G1 I1 GR1). assert (P2 := REG _ _ _ _ G2 I2 GR2). rewrite (average_two _ _ P1), (average_two _ _ P2); [reflexivity|..]; rewrite ?(Permutation_length P1), ?(Permutation_length P2); exact LE.
Qed.

Lemma gathered_range M ws st ws' n i w r R f p v : faithful M -> exact_sizes M -> job_ok ws -> Z.of_nat (List.length ws) < 2 ^ 31 -> Forall sendable ws -> sizes_fit M ws ->
  gather M ws st = Ok ws' -> Forall (fun x : f32 => is_nan x = false) f ->
  (forall m, In m (metrics_for f p (everyone ws n)) -> is_finite m = true /\ (B2R m = 0 \/ bpow radix2 (-1021) <= Rabs (B2R m))%R) ->
  nth_error ws i = Some w -> In (n, r) (w_registry w) -> nth_error (w_regions w) r = Some R ->
  exists w' R', nth_error ws' i = Some w' /\ nth_error (w_regions w') r = Some R' /\
    (recorded f p (ds_to_vector (r_dataset R')) = Some v ->
     is_finite v = true /\ (exists lo, In lo (metrics_for f p (everyone ws n)) /\ (B2R lo <= B2R v)%R) /\ (exists hi, In hi (metrics_for f p (everyone ws n)) /\ (B2R v <= B2R hi)%R)).
Proof.
  intros FM EX J L SE FT H NF FIN G I GR. destruct (gathered_one M ws st ws' i w n r R FM EX J L SE FT H G I GR) as (w' & d & A & B & C). exists w', (with_dataset R d). split; [exact A|]. split; [exact B|]. cbn [with_dataset r_dataset]. rewrite C by exact NF. destruct J as [N F].
  assert (W : rank_ok w) by (rewrite Forall_forall in F; apply F; eapply nth_error_In; eauto). destruct W as [[RG _] _]. rewrite <- (measured_registered w n r R RG I GR).
  assert (P : Permutation (metrics_for f p (measured_as w n ++ others ws (w_rank w) n)) (metrics_for f p (everyone ws n))) by (unfold metrics_for; apply Permutation_map, filter_permutation; eapply own_and_others; eauto).
  intros E. apply moving_average_range in E.
  - destruct E as (E1 & (lo & E2 & E3) & (hi & E4 & E5)). split; [exact E1|]. split; [exists lo|exists hi]; (split; [|assumption]); eapply Permutation_in; eauto.
  - apply Forall_forall. intros m IM. apply FIN. eapply Permutation_in; eauto.
Qed.

(** The theorems of Props/Mpi.v. *)
Lemma alive_all w : all_alive w -> alive w.
Proof. unfold all_alive, alive. intros H. eapply Forall_impl; [|exact H]. intros [n r] (R & G & A). exists R. cbn [snd] in *. unfold get_region. rewrite G, A. reflexivity. Qed.

Lemma packing_round_trips M ws : faithful M -> exact_sizes M -> Forall all_alive ws -> Forall (fun w => is_int (w_rank w)) ws -> Forall sendable ws -> sizes_fit M ws ->
  exists bufs m, on_each (send_buffer M) ws = Ok bufs /\ received bufs = Ok m /\ reads M m 0 (flat_map sent ws).
Proof.
  intros FM EX AL. apply packing_ok; try assumption. eapply Forall_impl; [|exact AL]. exact alive_all.
Qed.

Lemma gather_merges M P cs os ws st ws' : faithful M -> exact_sizes M -> job_run M P (start_job cs) os = Ok ws -> Z.of_nat (List.length ws) < 2 ^ 31 -> Forall sendable ws -> sizes_fit M ws ->
  gather M ws st = Ok ws' -> List.length ws' = List.length ws /\
  forall i w, nth_error ws i = Some w -> exists w', nth_error ws' i = Some w' /\
    w_config w' = w_config w /\ w_rank w' = w_rank w /\ w_registry w' = w_registry w /\ w_executions w' = w_executions w /\
    (cf_trace_allgather (w_config w) = 0 -> w_files w' = w_files w) /\ List.length (w_regions w') = List.length (w_regions w) /\
    forall r R, nth_error (w_regions w) r = Some R -> exists R', nth_error (w_regions w') r = Some R' /\ same_but_measurements R R' /\
      (In (r_name R, r) (w_registry w) -> forall f p, Forall (fun x : f32 => is_nan x = false) f ->
         recorded f p (ds_to_vector (r_dataset R')) = moving_average (metrics_for f p (ds_to_vector (r_dataset R) ++ others ws (Z.of_nat i) (r_name R)))) /\
      (~ In (r_name R, r) (w_registry w) -> r_dataset R' = r_dataset R).
Proof.
  intros FM EX JR L SE FT H. assert (J := job_always _ _ _ _ _ JR). assert (K := gather_does M ws st ws' FM EX J L SE FT H). split; [clear - K; induction K; cbn; [reflexivity|congruence]|].
  intros i w G. destruct (Forall2_nth _ _ _ _ _ K G) as (w' & G' & (A1 & A2 & A3 & A4 & A5 & A6 & D)). exists w'. repeat (split; [assumption|]). split; [intros T; apply A5; rewrite T; reflexivity|]. split; [exact A6|].
  intros r R GR. destruct (D r R GR) as (d & G2 & B1 & B2). exists (with_dataset R d). split; [exact G2|]. split; [repeat split|]. cbn [with_dataset r_dataset]. split; [|exact B2]. intros I f p NF. destruct J as [N F].
  assert (W : rank_ok w) by (rewrite Forall_forall in F; apply F; eapply nth_error_In; eauto). destruct W as [_ WF]. rewrite <- (N _ _ G). eapply gathered_recorded; [exact (WF _ _ GR)|apply others_no_nan; exact F|exact (B1 I)|exact NF].
Qed.

Lemma gather_returns M P cs os ws st : faithful M -> exact_sizes M -> job_run M P (start_job cs) os = Ok ws -> Z.of_nat (List.length ws) < 2 ^ 31 -> Forall all_alive ws -> Forall sendable ws -> sizes_fit M ws ->
  Forall (fun w => cf_trace_allgather (w_config w) = 0) ws -> exists ws', gather M ws st = Ok ws'.
Proof.
  intros FM EX JR L AL SE FT TR. apply gather_succeeds; try assumption; [exact (job_always _ _ _ _ _ JR)| |].
  - eapply Forall_impl; [|exact AL]. exact alive_all.
  - eapply Forall_impl; [|exact TR]. cbn. intros w E. rewrite E. reflexivity.
Qed.

Lemma ranks_agree M P cs os ws st ws' n f p i1 w1 r1 i2 w2 r2 : faithful M -> exact_sizes M -> job_run M P (start_job cs) os = Ok ws -> Z.of_nat (List.length ws) < 2 ^ 31 -> Forall sendable ws -> sizes_fit M ws ->
  gather M ws st = Ok ws' -> Forall (fun x : f32 => is_nan x = false) f -> (List.length (metrics_for f p (everyone ws n)) <= 2)%nat ->
  nth_error ws i1 = Some w1 -> In (n, r1) (w_registry w1) -> nth_error ws i2 = Some w2 -> In (n, r2) (w_registry w2) ->
  exists w1' R1' w2' R2', nth_error ws' i1 = Some w1' /\ nth_error (w_regions w1') r1 = Some R1' /\ nth_error ws' i2 = Some w2' /\ nth_error (w_regions w2') r2 = Some R2' /\
    recorded f p (ds_to_vector (r_dataset R1')) = recorded f p (ds_to_vector (r_dataset R2')).
Proof.
  intros FM EX JR L SE FT H NF LE G1 I1 G2 I2. assert (J := job_always _ _ _ _ _ JR).
  assert (EXI : forall i w r, nth_error ws i = Some w -> In (n, r) (w_registry w) -> exists R, nth_error (w_regions w) r = Some R).
  { intros i w r G I. destruct J as [_ F]. rewrite Forall_forall in F. destruct (F w (nth_error_In _ _ G)) as [[[_ RG] _] _]. apply RG in I. destruct I as [I _]. unfold region_names in I. rewrite nth_error_map in I. destruct (nth_error (w_regions w) r); [eauto|discriminate]. }
  destruct (EXI _ _ _ G1 I1) as [R1 GR1]. destruct (EXI _ _ _ G2 I2) as [R2 GR2]. eapply two_agree; eauto.
Qed.

Lemma gathered_in_range M P cs os ws st ws' n i w r f p : faithful M -> exact_sizes M -> job_run M P (start_job cs) os = Ok ws -> Z.of_nat (List.length ws) < 2 ^ 31 -> Forall sendable ws -> sizes_fit M ws ->
  gather M ws st = Ok ws' -> Forall (fun x : f32 => is_nan x = false) f ->
  (forall m, In m (metrics_for f p (everyone ws n)) -> is_finite m = true /\ (B2R m = 0 \/ bpow radix2 (-1021) <= Rabs (B2R m))%R) ->
  nth_error ws i = Some w -> In (n, r) (w_registry w) ->
  exists w' R', nth_error ws' i = Some w' /\ nth_error (w_regions w') r = Some R' /\
    forall v, recorded f p (ds_to_vector (r_dataset R')) = Some v ->
     is_finite v = true /\ (exists lo, In lo (metrics_for f p (everyone ws n)) /\ (B2R lo <= B2R v)%R) /\ (exists hi, In hi (metrics_for f p (everyone ws n)) /\ (B2R v <= B2R hi)%R).
Proof.
  intros FM EX JR L SE FT H NF FIN G I. assert (J := job_always _ _ _ _ _ JR).
  assert (EXI : exists R, nth_error (w_regions w) r = Some R).
  { destruct J as [_ F]. rewrite Forall_forall in F. destruct (F w (nth_error_In _ _ G)) as [[[_ RG] _] _]. apply RG in I. destruct I as [I _]. unfold region_names in I. rewrite nth_error_map in I. destruct (nth_error (w_regions w) r); [eauto|discriminate]. }
  destruct EXI as [R GR]. destruct (gathered_range M ws st ws' n i w r R f p (B754_infinity false) FM EX J L SE FT H NF FIN G I GR) as (w' & R' & A & B & _).
  exists w', R'. split; [exact A|]. split; [exact B|]. intros v. destruct (gathered_range M ws st ws' n i w r R f p v FM EX J L SE FT H NF FIN G I GR) as (w2 & R2 & A2 & B2 & C).
  rewrite A in A2. injection A2 as <-. rewrite B in B2. injection B2 as <-. exact C.
Qed.

Lemma features_mismatch M ws st ws' w R : faithful M -> exact_sizes M -> asked_fit M ws -> In w ws -> In R (registered w) ->
  sum_of (map (fun e : meas => Z.of_nat (List.length (m_features e))) (ds_to_vector (r_dataset R))) <> r_num_features R * ds_size (r_dataset R) -> gather M ws st <> Ok ws'.
Proof.
  intros FM EX FT IW IR NE H. assert (EN : enough M) by (intros n t P; rewrite EX by exact P; lia). assert (G := gather_exact M FM EN ws st ws' FT H). rewrite Forall_forall in G. specialize (G w IW). rewrite Forall_forall in G. specialize (G R IR). apply NE.
  destruct FT as [FT _]. rewrite Forall_forall in FT. specialize (FT w IW). rewrite Forall_forall in FT. specialize (FT R IR). destruct FT as [NF _].
  unfold asked_bytes, asked_measure in G. rewrite !EX in G by lia. unfold packed_bytes in G. replace (ds_size (r_dataset R)) with (zlen (ds_to_vector (r_dataset R))) in * by (unfold ds_to_vector; rewrite zlen_map; reflexivity).
  assert (A := width_positive M FM MpiFloat). assert (S : sum_of (map (fun e : meas => measure_bytes M (Z.of_nat (List.length (m_features e)))) (ds_to_vector (r_dataset R))) =
    zlen (ds_to_vector (r_dataset R)) * measure_bytes M 0 + sum_of (map (fun e : meas => Z.of_nat (List.length (m_features e))) (ds_to_vector (r_dataset R))) * mpi_width M MpiFloat).
  { clear. induction (ds_to_vector (r_dataset R)) as [|e es IH]; [reflexivity|]. unfold sum_of in *. cbn [map fold_right]. rewrite IH. unfold zlen. cbn [List.length]. unfold measure_bytes. lia. }
  rewrite S in G. unfold measure_bytes in G. nia.
Qed.

Lemma over_estimate M ws st ws' w R : faithful M -> enough M -> asked_fit M ws -> In w ws -> In R (registered w) -> r_dataset R <> [] ->
  (forall e : meas, In e (ds_to_vector (r_dataset R)) -> Z.of_nat (List.length (m_features e)) = r_num_features R) ->
  measure_bytes M (r_num_features R) < asked_measure M (r_num_features R) -> gather M ws st <> Ok ws'.
Proof.
  intros FM EN FT IW IR NE LEN OV H. assert (G := gather_exact M FM EN ws st ws' FT H). rewrite Forall_forall in G. specialize (G w IW). rewrite Forall_forall in G. specialize (G R IR).
  unfold asked_bytes in G. unfold packed_bytes in G. replace (ds_size (r_dataset R)) with (zlen (ds_to_vector (r_dataset R))) in * by (unfold ds_to_vector; rewrite zlen_map; reflexivity).
  assert (S : sum_of (map (fun e : meas => measure_bytes M (Z.of_nat (List.length (m_features e)))) (ds_to_vector (r_dataset R))) = zlen (ds_to_vector (r_dataset R)) * measure_bytes M (r_num_features R)).
  { clear - LEN. induction (ds_to_vector (r_dataset R)) as [|e es IH]; [reflexivity|]. unfold sum_of in *. cbn [map fold_right]. rewrite IH by (intros; apply LEN; right; assumption). rewrite (LEN e (or_introl eq_refl)). unfold zlen. cbn [List.length]. lia. }
  assert (P : 0 < zlen (ds_to_vector (r_dataset R))). { unfold ds_to_vector. rewrite zlen_map. unfold zlen. destruct (r_dataset R); [congruence|cbn [List.length]; lia]. }
  rewrite S in G. nia.
Qed.
