(** Concrete jobs for Props/Mpi.v. *)
From Coq Require Import ZArith Bool Ascii String Lia List.
From Flocq Require Import BinarySingleNaN Bits.
From Verif Require Import Model.Base Model.Float Model.Decimal Model.DatasetM Model.PolicyNetM
  Model.ModelStringM Model.PolicyModelsM Model.ConfigM Model.RuntimeM Model.MpiM
  Spec.DatasetSpec Spec.StartupSpec Spec.RuntimeSpec Spec.MpiSpec Proofs.TreeFacts Proofs.PolicyNetFacts Proofs.RuntimeExamples Proofs.MpiPacking Proofs.MpiGather Proofs.MpiJobs.
From Verif Require Proofs.EmaBounds Proofs.ModelStringFacts.
Import ListNotations.
Open Scope Z_scope.

Lemma bits32_range x : 0 <= bits32 x < 2 ^ 32.
Proof. unfold bits32, Bits.bits_of_b32. apply (Bits.bits_of_binary_float_range 23 8); reflexivity. Qed.
Lemma of_bits32_bits x : of_bits32 (bits32 x) = x.
Proof. unfold of_bits32, bits32, Bits.b32_of_bits, Bits.bits_of_b32. rewrite Bits.binary_float_of_bits_of_binary_float. apply Binary.B2BSN_BSN2B. Qed.

Lemma native_faithful : faithful native_mpi.
Proof.
  split; cbn [native_mpi mpi_width put_int get_int put_float get_float put_char get_char put_double get_double].
  - intros []; reflexivity.
  - intros z. unfold int_mem. rewrite le_bytes_length. reflexivity.
  - intros x. rewrite le_bytes_length. reflexivity.
  - reflexivity.
  - intros x. rewrite le_bytes_length. reflexivity.
  - exact of_int_mem_int.
  - intros x. rewrite of_le_bytes_le; [apply of_bits32_bits|apply bits32_range].
  - reflexivity.
  - exact PolicyNetFacts.double_back.
Qed.
Lemma native_exact : exact_sizes native_mpi.
Proof. intros n t _. reflexivity. Qed.

(** Settings for collective training. *)
Definition together : config :=
  mkConfig ($"DecisionTree,explore=RoundRobin") 1 0 0 1 0 0 0 0 0 0 0 0 one32 half32 0 0 0 ($".apollo") ($".apollo/datasets")
    ($".apollo/traces") ($".apollo/models").

(** A rank with the region "r" of two policies, which took [a] seconds with one and [b] with the other. *)
Definition measured (rank : nat) (a b : Z) : list job_op :=
  map (Local rank) [OpRegion 1 ($"r") 2 0 [] [] no_init; OpBegin 0 false (0, 0); give s0 7; ask_policy s0; OpEndMetric 0 (Some s0) (f64_of_Z a);
    OpBegin 0 false (0, 0); give s0 7; ask_policy s0; OpEndMetric 0 (Some s0) (f64_of_Z b)].

Definition three : list job_op := measured 0 1 4 ++ measured 1 1 4 ++ measured 2 9 4.

(** Checks of the hypotheses. *)
Definition int_b (z : Z) : bool := (- 2 ^ 31 <=? z) && (z <? 2 ^ 31).
Definition sendable_b (w : world) : bool :=
  forallb (fun R => int_b (r_num_features R) &&
    forallb (fun e : meas => (Z.of_nat (List.length (m_features e)) =? r_num_features R) && int_b (m_policy e)) (ds_to_vector (r_dataset R))) (registered w).
Definition fit_b (ws : list world) : bool :=
  forallb (fun w => forallb (fun R => (0 <=? r_num_features R) && (measure_bytes native_mpi (r_num_features R) <? 2 ^ 31)) (registered w)) ws &&
  (sum_of (map (fun w => sum_of (map (declared_bytes native_mpi) (registered w))) ws) <? 2 ^ 31).
Definition alive_b (w : world) : bool :=
  forallb (fun x : bytes * nat => match nth_error (w_regions w) (snd x) with Some R => r_alive R | None => false end) (w_registry w).
Definition untraced_b (w : world) : bool := cf_trace_allgather (w_config w) =? 0.
Definition small_b (ws : list world) : bool := Z.of_nat (List.length ws) <? 2 ^ 31.

Lemma int_b_true z : int_b z = true -> is_int z.
Proof. unfold int_b, is_int. intros H. apply andb_prop in H. lia. Qed.
Lemma forallb_all {A} (f : A -> bool) (Q : A -> Prop) l : (forall x, f x = true -> Q x) -> forallb f l = true -> Forall Q l.
Proof. intros I H. apply Forall_forall. intros x K. apply I. rewrite forallb_forall in H. auto. Qed.
Lemma sendable_b_true ws : forallb sendable_b ws = true -> Forall sendable ws.
Proof.
  apply forallb_all. intros w. apply forallb_all. intros R H. apply andb_prop in H. destruct H as [H1 H2]. split; [apply int_b_true; exact H1|]. eapply forallb_all; [|exact H2].
  intros e H. apply andb_prop in H. destruct H as [H3 H4]. split; [apply Z.eqb_eq; exact H3|apply int_b_true; exact H4].
Qed.
Lemma fit_b_true ws : fit_b ws = true -> sizes_fit native_mpi ws.
Proof.
  unfold fit_b. intros H. apply andb_prop in H. destruct H as [H1 H2]. split; [|apply Z.ltb_lt; exact H2]. eapply forallb_all; [|exact H1]. intros w. apply forallb_all. intros R H. apply andb_prop in H. lia.
Qed.
Lemma alive_b_true ws : forallb alive_b ws = true -> Forall all_alive ws.
Proof.
  apply forallb_all. intros w. apply forallb_all. intros [n r] H. cbn [snd] in *. destruct (nth_error (w_regions w) r) as [R|]; [|discriminate]. exists R. auto.
Qed.
Lemma untraced_b_true ws : forallb untraced_b ws = true -> Forall (fun w => cf_trace_allgather (w_config w) = 0) ws.
Proof. apply forallb_all. intros w. apply Z.eqb_eq. Qed.

Lemma job_holds M P js os (q : list world -> bool) :
  match job_run M P js os with Ok a => q a | _ => false end = true -> exists ws, job_run M P js os = Ok ws /\ q ws = true.
Proof. destruct (job_run M P js os) as [ws| | | |]; try discriminate. eauto. Qed.

Definition ready (ws : list world) : bool := forallb sendable_b ws && fit_b ws && forallb alive_b ws && forallb untraced_b ws && small_b ws.
Lemma ready_true ws : ready ws = true -> Forall sendable ws /\ sizes_fit native_mpi ws /\ Forall all_alive ws /\ Forall (fun w => cf_trace_allgather (w_config w) = 0) ws /\ Z.of_nat (List.length ws) < 2 ^ 31.
Proof.
  unfold ready. intros H. do 4 (apply andb_prop in H; let K := fresh in destruct H as [H K]).
  split; [apply sendable_b_true; assumption|]. split; [apply fit_b_true; assumption|]. split; [apply alive_b_true; assumption|]. split; [apply untraced_b_true; assumption|]. apply Z.ltb_lt. assumption.
Qed.

Definition ranks (n : nat) : list world := start_job (repeat (together, []) n).

(** A region of another name on one rank. *)
Definition with_other : list job_op :=
  three ++ map (Local 1) [OpRegion 2 ($"q") 2 0 [] [] no_init; OpBegin 1 false (0, 0); give s1 7; give s1 8; ask_policy s1; OpEndMetric 1 (Some s1) (f64_of_Z 3)].

Lemma with_other_run : exists ws, job_run native_mpi example_platform (ranks 3) with_other = Ok ws /\
  Forall sendable ws /\ sizes_fit native_mpi ws /\ Forall all_alive ws /\ Forall (fun w => cf_trace_allgather (w_config w) = 0) ws /\ Z.of_nat (List.length ws) < 2 ^ 31 /\
  List.length (flat_map sent ws) = 7%nat.
Proof.
  destruct (job_holds native_mpi example_platform (ranks 3) with_other (fun ws => ready ws && Nat.eqb (List.length (flat_map sent ws)) 7)) as (ws & E & H); [vm_compute; reflexivity|].
  exists ws. split; [exact E|]. clear E. apply andb_prop in H. destruct H as [H1 H2]. destruct (ready_true _ H1) as (A & B & C & D & F). repeat (split; [assumption|]). apply Nat.eqb_eq. exact H2.
Qed.

(** ** Disagreement *)
Definition metric_is (x : Z) (o : option f64) : bool := match o with Some v => Beqb v (f64_of_Z x) | None => false end.
Definition metric_at (ws : list world) (rank : nat) (p : Z) : option f64 :=
  match nth_error ws rank with
  | Some w => match nth_error (w_regions w) 0 with Some R => recorded [f32_of_Z 7] p (ds_to_vector (r_dataset R)) | None => None end
  | None => None
  end.
Definition ask : list op := [OpBegin 0 false (0, 0); give s0 7; ask_policy s0].
Definition answer_b (ws : list world) (rank : nat) (policy : Z) : bool :=
  match nth_error ws rank with
  | Some w => match run example_platform w ask with Ok (_, [_; _; GotPolicy p]) => p =? policy | _ => false end
  | None => false
  end.

Lemma answer_b_true ws rank policy : answer_b ws rank policy = true ->
  exists w w' x y, nth_error ws rank = Some w /\ run example_platform w ask = Ok (w', [x; y; GotPolicy policy]).
Proof.
  unfold answer_b. destruct (nth_error ws rank) as [w|]; [|discriminate]. destruct (run example_platform w ask) as [[w' xs]| | | |] eqn:E; try discriminate.
  destruct xs as [|x [|y [|[] [|z xs]]]]; try discriminate. intros H. apply Z.eqb_eq in H. subst. exists w, w', x, y. auto.
Qed.

Lemma disagreement : exists ws, job_run native_mpi example_platform (ranks 3) (three ++ [Collective 0 true]) = Ok ws /\
  (metric_is 5 (metric_at ws 0 0) = true /\ metric_is 3 (metric_at ws 2 0) = true) /\
  (exists w w' x y, nth_error ws 0 = Some w /\ run example_platform w ask = Ok (w', [x; y; GotPolicy 1])) /\
  (exists w w' x y, nth_error ws 2 = Some w /\ run example_platform w ask = Ok (w', [x; y; GotPolicy 0])).
Proof.
  destruct (job_holds native_mpi example_platform (ranks 3) (three ++ [Collective 0 true])
    (fun ws => (metric_is 5 (metric_at ws 0 0) && metric_is 3 (metric_at ws 2 0)) && (answer_b ws 0 1 && answer_b ws 2 0))) as (ws & E & H); [vm_compute; reflexivity|].
  exists ws. split; [exact E|]. clear E. apply andb_prop in H. destruct H as [H1 H2]. apply andb_prop in H1, H2. split; [exact H1|]. destruct H2 as [H2 H3]. split; apply answer_b_true; assumption.
Qed.

(** ** A policy the region does not have *)
Definition uneven : list job_op :=
  map (Local 0) [OpRegion 1 ($"r") 2 0 [] [] no_init; OpBegin 0 false (0, 0); give s0 7; ask_policy s0; OpEndMetric 0 (Some s0) (f64_of_Z 5)] ++
  map (Local 1) [OpRegion 1 ($"r") 3 0 [] [] no_init; OpBegin 0 false (0, 0); give s0 7; ask_policy s0; OpEndMetric 0 (Some s0) (f64_of_Z 5);
    OpBegin 0 false (0, 0); give s0 7; ask_policy s0; OpEndMetric 0 (Some s0) (f64_of_Z 4); OpBegin 0 false (0, 0); give s0 7; ask_policy s0; OpEndMetric 0 (Some s0) (f64_of_Z 1)].

Lemma uneven_run : exists ws w w' x y R, job_run native_mpi example_platform (ranks 2) (uneven ++ [Collective 0 true]) = Ok ws /\
  nth_error ws 0 = Some w /\ nth_error (w_regions w) 0 = Some R /\ r_num_policies R = 2 /\ run example_platform w ask = Ok (w', [x; y; GotPolicy 2]).
Proof.
  destruct (job_holds native_mpi example_platform (ranks 2) (uneven ++ [Collective 0 true])
    (fun ws => answer_b ws 0 2 && match nth_error ws 0 with Some w => match nth_error (w_regions w) 0 with Some R => r_num_policies R =? 2 | None => false end | None => false end)) as (ws & E & H); [vm_compute; reflexivity|].
  exists ws. apply andb_prop in H. destruct H as [H1 H2]. destruct (answer_b_true _ _ _ H1) as (w & w' & x & y & G & A). rewrite G in H2. destruct (nth_error (w_regions w) 0) as [R|] eqn:GR; [|discriminate].
  exists w, w', x, y, R. split; [exact E|]. split; [exact G|]. split; [exact GR|]. split; [apply Z.eqb_eq; exact H2|exact A].
Qed.

(** ** Executions pending on a device *)
Definition device : list job_op :=
  map (Local 0) [OpRegion 1 ($"r") 2 0 [] [] no_init; OpBegin 0 true (0, 0); give a0 7; ask_policy a0; OpEnd 0 (Some a0) (1, 0) None; OpComplete a0 (f32_of_Z 2000)] ++
  map (Local 1) [OpRegion 1 ($"r") 2 0 [] [] no_init].

Definition size_at (ws : list world) (rank : nat) : Z :=
  match nth_error ws rank with Some w => match nth_error (w_regions w) 0 with Some R => ds_size (r_dataset R) | None => -1 end | None => -1 end.

Lemma device_run : exists ws, job_run native_mpi example_platform (ranks 2) (device ++ [Collective 0 true]) = Ok ws /\ size_at ws 0 = 1 /\ size_at ws 1 = 0.
Proof.
  destruct (job_holds native_mpi example_platform (ranks 2) (device ++ [Collective 0 true]) (fun ws => (size_at ws 0 =? 1) && (size_at ws 1 =? 0))) as (ws & E & H); [vm_compute; reflexivity|].
  exists ws. split; [exact E|]. apply andb_prop in H. destruct H as [H1 H2]. split; apply Z.eqb_eq; assumption.
Qed.

(** ** Sizes *)
(** A library whose MPI_Pack_size adds eight bytes to be safe. *)
Definition cautious_mpi : mpi :=
  {| mpi_width := native_width; mpi_size := fun n t => n * native_width t + 8;
     put_int := put_int native_mpi; get_int := get_int native_mpi; put_float := put_float native_mpi; get_float := get_float native_mpi;
     put_char := put_char native_mpi; get_char := get_char native_mpi; put_double := put_double native_mpi; get_double := get_double native_mpi |}.
Lemma cautious_faithful : faithful cautious_mpi.
Proof. destruct native_faithful. split; assumption. Qed.
Lemma cautious_enough : enough cautious_mpi.
Proof. intros n t H. cbn [cautious_mpi mpi_size mpi_width]. lia. Qed.
Lemma native_enough : enough native_mpi.
Proof. intros n t H. cbn [native_mpi mpi_size mpi_width]. lia. Qed.

Definition asked_fit_b (M : mpi) (ws : list world) : bool :=
  forallb (fun w => forallb (fun R => (0 <=? r_num_features R) && (asked_measure M (r_num_features R) <? 2 ^ 31)) (registered w)) ws &&
  (sum_of (map (fun w => sum_of (map (asked_bytes M) (registered w))) ws) <? 2 ^ 31).
Lemma asked_fit_b_true M ws : asked_fit_b M ws = true -> asked_fit M ws.
Proof.
  unfold asked_fit_b. intros H. apply andb_prop in H. destruct H as [H1 H2]. split; [|apply Z.ltb_lt; exact H2]. eapply forallb_all; [|exact H1]. intros w. apply forallb_all. intros R H. apply andb_prop in H. lia.
Qed.

(** The first registered region of a rank has [k] measurements and [n] features, and packs [b] bytes. *)
Definition first_region (ws : list world) (rank : nat) : option (world * region) :=
  match nth_error ws rank with Some w => match registered w with R :: _ => Some (w, R) | [] => None end | None => None end.
Lemma first_region_in ws rank w R : first_region ws rank = Some (w, R) -> In w ws /\ In R (registered w).
Proof.
  unfold first_region. destruct (nth_error ws rank) as [v|] eqn:G; [|discriminate]. destruct (registered v) as [|R0 l] eqn:E; [discriminate|]. intros H. injection H as <- <-. split; [eapply nth_error_In; eauto|rewrite E; left; reflexivity].
Qed.

Lemma cautious_run : exists ws w R, job_run cautious_mpi example_platform (ranks 3) three = Ok ws /\ asked_fit cautious_mpi ws /\ In w ws /\ In R (registered w) /\ r_dataset R <> [] /\
  (forall e : meas, In e (ds_to_vector (r_dataset R)) -> Z.of_nat (List.length (m_features e)) = r_num_features R) /\
  measure_bytes cautious_mpi (r_num_features R) < asked_measure cautious_mpi (r_num_features R).
Proof.
  destruct (job_holds cautious_mpi example_platform (ranks 3) three
    (fun ws => asked_fit_b cautious_mpi ws && match first_region ws 1 with
       | Some (w, R) => match r_dataset R with [] => false | _ => true end && forallb (fun e : meas => Z.of_nat (List.length (m_features e)) =? r_num_features R) (ds_to_vector (r_dataset R)) &&
           (measure_bytes cautious_mpi (r_num_features R) <? asked_measure cautious_mpi (r_num_features R))
       | None => false end)) as (ws & E & H); [vm_compute; reflexivity|].
  apply andb_prop in H. destruct H as [H1 H2]. destruct (first_region ws 1) as [[w R]|] eqn:F; [|discriminate]. destruct (first_region_in _ _ _ _ F) as [I1 I2]. clear F. apply andb_prop in H2. destruct H2 as [H2 H3]. apply andb_prop in H2. destruct H2 as [H2 H4].
  exists ws, w, R. split; [exact E|]. split; [apply asked_fit_b_true; exact H1|]. split; [exact I1|]. split; [exact I2|]. split; [intros K; rewrite K in H2; discriminate H2|]. split; [|apply Z.ltb_lt; exact H3].
  intros e I. rewrite forallb_forall in H4. apply Z.eqb_eq. exact (H4 e I).
Qed.

(** A client that gives two features to a region declared with one. *)
Definition two_features : list job_op :=
  map (Local 0) [OpRegion 1 ($"r") 2 0 [] [] no_init; OpBegin 0 false (0, 0); give s0 7; give s0 8; ask_policy s0; OpEndMetric 0 (Some s0) (f64_of_Z 5)] ++
  map (Local 1) [OpRegion 1 ($"r") 2 0 [] [] no_init].
Lemma two_features_run : exists ws w R, job_run native_mpi example_platform (ranks 2) two_features = Ok ws /\ asked_fit native_mpi ws /\ In w ws /\ In R (registered w) /\
  sum_of (map (fun e : meas => Z.of_nat (List.length (m_features e))) (ds_to_vector (r_dataset R))) <> r_num_features R * ds_size (r_dataset R).
Proof.
  destruct (job_holds native_mpi example_platform (ranks 2) two_features
    (fun ws => asked_fit_b native_mpi ws && match first_region ws 0 with
       | Some (w, R) => negb (sum_of (map (fun e : meas => Z.of_nat (List.length (m_features e))) (ds_to_vector (r_dataset R))) =? r_num_features R * ds_size (r_dataset R))
       | None => false end)) as (ws & E & H); [vm_compute; reflexivity|].
  apply andb_prop in H. destruct H as [H1 H2]. destruct (first_region ws 0) as [[w R]|] eqn:F; [|discriminate]. destruct (first_region_in _ _ _ _ F) as [I1 I2].
  exists ws, w, R. split; [exact E|]. split; [apply asked_fit_b_true; exact H1|]. split; [exact I1|]. split; [exact I2|]. apply Z.eqb_neq. apply negb_true_iff. exact H2.
Qed.

(** ** Agreement of two ranks *)
Definition registered_at_b (ws : list world) (rank : nat) (name : string) : bool :=
  match nth_error ws rank with Some w => existsb (fun x => bytes_eqb (fst x) ($name) && Nat.eqb (snd x) 0) (w_registry w) | None => false end.
Lemma registered_at ws rank name : registered_at_b ws rank name = true -> exists w, nth_error ws rank = Some w /\ In ($name, 0%nat) (w_registry w).
Proof.
  unfold registered_at_b. destruct (nth_error ws rank) as [w|]; [|discriminate]. intros H. apply existsb_exists in H. destruct H as ([n r] & I & H). apply andb_prop in H. destruct H as [H1 H2]. cbn [fst snd] in *.
  apply ModelStringFacts.bytes_eqb_eq in H1. apply Nat.eqb_eq in H2. subst. eauto.
Qed.
Definition pair_of_ranks : list job_op := measured 0 1 4 ++ measured 1 9 4.
Lemma pair_run : exists ws w1 w2, job_run native_mpi example_platform (ranks 2) pair_of_ranks = Ok ws /\
  Forall sendable ws /\ sizes_fit native_mpi ws /\ Forall all_alive ws /\ Forall (fun w => cf_trace_allgather (w_config w) = 0) ws /\ Z.of_nat (List.length ws) < 2 ^ 31 /\
  List.length (metrics_for [f32_of_Z 7] 0 (everyone ws ($"r"))) = 2%nat /\
  nth_error ws 0 = Some w1 /\ In ($"r", 0%nat) (w_registry w1) /\ nth_error ws 1 = Some w2 /\ In ($"r", 0%nat) (w_registry w2).
Proof.
  destruct (job_holds native_mpi example_platform (ranks 2) pair_of_ranks
    (fun ws => ready ws && Nat.eqb (List.length (metrics_for [f32_of_Z 7] 0 (everyone ws ($"r")))) 2 && (registered_at_b ws 0 "r" && registered_at_b ws 1 "r"))) as (ws & E & H); [vm_compute; reflexivity|].
  apply andb_prop in H. destruct H as [H H3]. apply andb_prop in H. destruct H as [H1 H2]. destruct (ready_true _ H1) as (A & B & C & D & F). apply andb_prop in H3. destruct H3 as [H3 H4].
  destruct (registered_at _ _ _ H3) as (w1 & G1 & I1). destruct (registered_at _ _ _ H4) as (w2 & G2 & I2). exists ws, w1, w2. split; [exact E|]. repeat (split; [assumption|]). split; [apply Nat.eqb_eq; exact H2|]. auto.
Qed.

Lemma three_run : exists ws w, job_run native_mpi example_platform (ranks 3) three = Ok ws /\
  Forall sendable ws /\ sizes_fit native_mpi ws /\ Forall all_alive ws /\ Forall (fun w => cf_trace_allgather (w_config w) = 0) ws /\
  Z.of_nat (List.length ws) < 2 ^ 31 /\ nth_error ws 2 = Some w /\ In ($"r", 0%nat) (w_registry w) /\
  List.length (metrics_for [f32_of_Z 7] 0 (everyone ws ($"r"))) = 3%nat /\
  (forall m, In m (metrics_for [f32_of_Z 7] 0 (everyone ws ($"r"))) -> EmaBounds.halvable m).
Proof.
  destruct (job_holds native_mpi example_platform (ranks 3) three
    (fun ws => ready ws && Nat.eqb (List.length (metrics_for [f32_of_Z 7] 0 (everyone ws ($"r")))) 3 && (registered_at_b ws 2 "r" && forallb EmaBounds.halvable_b (metrics_for [f32_of_Z 7] 0 (everyone ws ($"r")))))) as (ws & E & H); [vm_compute; reflexivity|].
  apply andb_prop in H. destruct H as [H H3]. apply andb_prop in H. destruct H as [H1 H2]. destruct (ready_true _ H1) as (A & B & C & D & F). apply andb_prop in H3. destruct H3 as [H3 H4].
  destruct (registered_at _ _ _ H3) as (w & G & I). exists ws, w. split; [exact E|]. repeat (split; [assumption|]). split; [apply Nat.eqb_eq; exact H2|]. intros m IM. apply EmaBounds.halvable_b_true. rewrite forallb_forall in H4. auto.
Qed.
