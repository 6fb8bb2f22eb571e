(** The times of synchronous executions. *)
From Coq Require Import ZArith Bool Reals Lia Lra SpecFloat List Sorted.
From Flocq Require Import Core BinarySingleNaN.
From Verif Require Import Model.Base Model.Float Model.DatasetM Model.RuntimeM Spec.DatasetSpec Spec.DatasetClient Spec.RuntimeSpec Spec.TimerSpec
  Proofs.FloatFacts Proofs.FloatConv Proofs.KokkosDoubles Proofs.EmaBounds Proofs.TreeFacts Proofs.RuntimeRecords Proofs.RuntimeCreate Proofs.RuntimeExamples.
Import ListNotations.
Open Scope R_scope.

Lemma round_error k r : (-1000 <= k <= 1000)%Z -> Rabs r <= bpow radix2 k -> Rabs (rnd64 r - r) <= bpow radix2 (k - 54).
Proof.
  intros K H. destruct (Req_dec r 0) as [->|N0]; [rewrite round_0 by typeclasses eauto; rewrite Rminus_0_r, Rabs_R0; apply bpow_ge_0|].
  destruct (Rle_lt_or_eq_dec _ _ H) as [LT|EQ].
  - eapply Rle_trans; [apply error_le_half_ulp; typeclasses eauto|]. rewrite ulp_neq_0 by exact N0. unfold cexp.
    assert (M := mag_le_bpow radix2 r k N0 LT). replace (/ 2) with (bpow radix2 (-1)) by reflexivity. rewrite <- bpow_plus. apply bpow_le.
    unfold fexp, FLT_exp, emin. lia.
  - rewrite round_generic; [|typeclasses eauto|].
    + rewrite Rminus_diag_eq by reflexivity. rewrite Rabs_R0. apply bpow_ge_0.
    + assert (B : fmt64 (bpow radix2 k)) by (apply generic_format_bpow; unfold fexp, FLT_exp, emin; lia).
      unfold Rabs in EQ. destruct (Rcase_abs r); [replace r with (- bpow radix2 k) by lra; apply generic_format_opp; exact B|rewrite EQ; exact B].
Qed.

Lemma bpow_Z k : (0 <= k)%Z -> bpow radix2 k = IZR (2 ^ k).
Proof. intros H. rewrite <- IZR_Zpower by exact H. reflexivity. Qed.
Lemma bpow_fmt k : (-1000 <= k <= 1000)%Z -> fmt64 (bpow radix2 k).
Proof. intros K. apply generic_format_bpow. unfold fexp, FLT_exp, emin. lia. Qed.
Lemma small_1024 k r : (k <= 1000)%Z -> Rabs r <= bpow radix2 k -> Rabs r < bpow radix2 1024.
Proof. intros K H. eapply Rle_lt_trans; [exact H|]. apply bpow_lt. lia. Qed.
Lemma fmt_0 : fmt64 0.
Proof. apply generic_format_0. Qed.

(** ** One reading *)

Lemma part_bounds k now : reading k now -> (0 <= k <= 52)%Z ->
  let q := div64 (f64_of_Z (snd now)) (f64_of_Z 1000000000) in
  is_finite q = true /\ 0 <= B2R q <= 1 /\ B2R q = rnd64 (IZR (snd now) / 1000000000) /\ Rabs (B2R q - IZR (snd now) / 1000000000) <= bpow radix2 (-54).
Proof.
  intros [_ [N1 N2]] _ q.
  destruct (f64_of_Z_spec (snd now)) as [F1 V1]; [lia|]. destruct (f64_of_Z_spec 1000000000) as [F2 V2]; [lia|].
  assert (RB : 0 <= IZR (snd now) / 1000000000 <= 1).
  { apply IZR_le in N1. apply IZR_lt in N2. split; [apply Rmult_le_pos; lra|]. apply (Rmult_le_reg_r 1000000000); [lra|]. field_simplify; lra. }
  assert (B := rnd64_between 0 1 _ fmt_0 (bpow_fmt 0 ltac:(lia)) RB).
  destruct (div64_spec (f64_of_Z (snd now)) (f64_of_Z 1000000000) F1) as [F V].
  - rewrite V2. lra.
  - rewrite V1, V2. apply (small_1024 0); [lia|]. rewrite Rabs_pos_eq by apply B. apply B.
  - rewrite V1, V2 in V. fold q in F, V. split; [exact F|]. rewrite V. split; [exact B|]. split; [reflexivity|].
    apply (round_error 0); [lia|]. rewrite Rabs_pos_eq by apply RB. apply RB.
Qed.

Lemma seconds_spec k now : reading k now -> (0 <= k <= 52)%Z ->
  is_finite (clock_seconds now) = true /\ 0 <= B2R (clock_seconds now) <= bpow radix2 k /\
  B2R (clock_seconds now) = rnd64 (IZR (fst now) + rnd64 (IZR (snd now) / 1000000000)) /\
  Rabs (B2R (clock_seconds now) - IZR (nanoseconds now) / 1000000000) <= bpow radix2 (k - 54) + bpow radix2 (-54).
Proof.
  intros RD K. destruct (part_bounds k now RD K) as (FQ & BQ & VQ & EQ). destruct RD as [[S1 S2] _]. unfold clock_seconds. set (q := div64 _ _) in *.
  assert (P52 : (2 ^ k <= 2 ^ 52)%Z) by (apply Z.pow_le_mono_r; lia).
  destruct (f64_of_Z_spec (fst now)) as [FS VS]; [change (2 ^ 53)%Z with (2 * 2 ^ 52)%Z; lia|].
  assert (SB : 0 <= B2R (f64_of_Z (fst now)) + B2R q <= bpow radix2 k).
  { rewrite VS, bpow_Z by lia. apply IZR_le in S1. assert (IZR (fst now) + 1 <= IZR (2 ^ k)) by (rewrite <- plus_IZR; apply IZR_le; lia). lra. }
  assert (B := rnd64_between 0 (bpow radix2 k) _ fmt_0 (bpow_fmt k ltac:(lia)) SB).
  destruct (add64_spec (f64_of_Z (fst now)) q FS FQ) as [F V].
  - apply (small_1024 k); [lia|]. rewrite Rabs_pos_eq by apply B. apply B.
  - split; [exact F|]. rewrite V. split; [exact B|]. split; [rewrite VS, VQ; reflexivity|].
    assert (E1 := round_error k (B2R (f64_of_Z (fst now)) + B2R q) ltac:(lia) ltac:(rewrite Rabs_pos_eq by apply SB; apply SB)).
    rewrite VS in *. unfold nanoseconds. rewrite plus_IZR, mult_IZR.
    replace (rnd64 (IZR (fst now) + B2R q) - (1000000000 * IZR (fst now) + IZR (snd now)) / 1000000000)
      with ((rnd64 (IZR (fst now) + B2R q) - (IZR (fst now) + B2R q)) + (B2R q - IZR (snd now) / 1000000000)) by field.
    eapply Rle_trans; [apply Rabs_triang|]. lra.
Qed.

(** Later readings are not smaller. *)
Lemma seconds_mono k b e : reading k b -> reading k e -> (0 <= k <= 52)%Z -> (nanoseconds b <= nanoseconds e)%Z -> B2R (clock_seconds b) <= B2R (clock_seconds e).
Proof.
  intros HB HE K L. destruct (seconds_spec k b HB K) as (_ & _ & VB & _). destruct (seconds_spec k e HE K) as (_ & _ & VE & _). rewrite VB, VE.
  destruct HB as [_ [B1 B2]], HE as [_ [E1 E2]]. unfold nanoseconds in L. apply round_le; [typeclasses eauto|typeclasses eauto|].
  assert (C : (fst b = fst e /\ snd b <= snd e \/ fst b + 1 <= fst e)%Z) by lia. destruct C as [[-> C]|C].
  - apply Rplus_le_compat_l. apply round_le; [typeclasses eauto|typeclasses eauto|]. apply IZR_le in C. lra.
  - assert (RB : 0 <= IZR (snd b) / 1000000000 <= 1).
    { apply IZR_le in B1. apply IZR_lt in B2. split; [apply Rmult_le_pos; lra|]. apply (Rmult_le_reg_r 1000000000); [lra|]. field_simplify; lra. }
    assert (RE : 0 <= IZR (snd e) / 1000000000 <= 1).
    { apply IZR_le in E1. apply IZR_lt in E2. split; [apply Rmult_le_pos; lra|]. apply (Rmult_le_reg_r 1000000000); [lra|]. field_simplify; lra. }
    assert (X := rnd64_between 0 1 _ fmt_0 (bpow_fmt 0 ltac:(lia)) RB). assert (Y := rnd64_between 0 1 _ fmt_0 (bpow_fmt 0 ltac:(lia)) RE).
    assert (IZR (fst b) + 1 <= IZR (fst e)) by (rewrite <- plus_IZR; apply IZR_le; lia). lra.
Qed.

(** ** The time of an execution *)

Lemma time_spec k b e : reading k b -> reading k e -> (0 <= k <= 52)%Z -> (nanoseconds b <= nanoseconds e)%Z ->
  let x := sub64 (clock_seconds e) (clock_seconds b) in is_finite x = true /\ 0 <= B2R x <= bpow radix2 k /\ Rabs (B2R x - elapsed b e) <= clock_error k.
Proof.
  intros HB HE K L x. destruct (seconds_spec k b HB K) as (FB & BB & _ & EB). destruct (seconds_spec k e HE K) as (FE & BE & _ & EE). assert (MO := seconds_mono k b e HB HE K L).
  assert (SB : 0 <= B2R (clock_seconds e) - B2R (clock_seconds b) <= bpow radix2 k) by lra.
  assert (B := rnd64_between 0 (bpow radix2 k) _ fmt_0 (bpow_fmt k ltac:(lia)) SB).
  destruct (sub64_spec (clock_seconds e) (clock_seconds b) FE FB) as [F V]; [apply (small_1024 k); [lia|]; rewrite Rabs_pos_eq by apply B; apply B|].
  split; [exact F|]. unfold x. rewrite V. split; [exact B|].
  assert (E1 := round_error k _ ltac:(lia) ltac:(rewrite (Rabs_pos_eq _ (proj1 SB)); apply SB)).
  unfold elapsed, clock_error. rewrite minus_IZR. set (se := B2R (clock_seconds e)) in *. set (sb := B2R (clock_seconds b)) in *. set (ne := IZR (nanoseconds e)) in *. set (nb := IZR (nanoseconds b)) in *.
  assert (P : bpow radix2 (-53) = 2 * bpow radix2 (-54)) by (rewrite <- (bpow_plus radix2 1); reflexivity). rewrite P.
  replace (rnd64 (se - sb) - (ne - nb) / 1000000000) with ((rnd64 (se - sb) - (se - sb)) + ((se - ne / 1000000000) - (sb - nb / 1000000000))) by field.
  apply Rabs_le_inv in EB. apply Rabs_le_inv in EE. apply Rabs_le_inv in E1. apply Rabs_le. lra.
Qed.

(** ** Clients *)

(** A measured time: not negative, and near the time between two readings. *)
Definition timed (k : Z) (all : list (Z * Z)) (x : f64) : Prop :=
  is_finite x = true /\ 0 <= B2R x <= bpow radix2 k /\
  exists b e, In b all /\ In e all /\ (nanoseconds b <= nanoseconds e)%Z /\ Rabs (B2R x - elapsed b e) <= clock_error k.

Lemma readings_cons o os : readings (o :: os) = match o with OpBegin _ _ now | OpBeginFeatures _ _ now | OpEnd _ _ now _ => [now] | _ => [] end ++ readings os.
Proof. reflexivity. Qed.

Lemma follow_timed k r all : (0 <= k <= 52)%Z -> Forall (reading k) all -> forall os xs ph ms ph' ms',
  fold_left (follow r) (combine os xs) (Some (ph, ms)) = Some (ph', ms') -> (forall t, In t (readings os) -> In t all) -> forward (readings os) ->
  match ph with Running t _ _ => In t all /\ Forall (fun u => (nanoseconds t <= nanoseconds u)%Z) (readings os) | Idle => True end ->
  Forall (fun m : meas => timed k all (m_metric m)) ms -> Forall (fun m : meas => timed k all (m_metric m)) ms'.
Proof.
  intros K ALL. assert (AL : forall t, In t all -> reading k t) by (apply Forall_forall; exact ALL).
  induction os as [|o os IH]; intros xs ph ms ph' ms' H SUB FW PH G; [cbn in H; injection H as <- <-; exact G|].
  destruct xs as [|x xs]; [cbn in H; injection H as <- <-; exact G|]. cbn [combine fold_left] in H.
  assert (SUB' : forall t, In t (readings os) -> In t all) by (intros t I; apply SUB; rewrite readings_cons; apply in_or_app; right; exact I).
  assert (FW' : forward (readings os)).
  { rewrite readings_cons in FW. destruct o; cbn [app] in FW; try exact FW; inversion FW; assumption. }
  assert (NONE : forall h, fold_left (follow r) h None = None) by (induction h; auto).
  assert (PH' : match ph with Running t _ _ => In t all /\ Forall (fun u => (nanoseconds t <= nanoseconds u)%Z) (readings os) | Idle => True end).
  { destruct ph as [|t fs c]; [exact I|]. destruct PH as [I F]. split; [exact I|]. rewrite readings_cons in F. apply Forall_app in F. apply F. }
  cbn [follow fst] in H. destruct (negb (about r o)); [eapply IH; eassumption|].
  rewrite readings_cons in FW, SUB, PH. destruct ph as [|t fs c].
  - destruct o as [? ? ? ? ? ? ?|r' [|] now|r' fs' now|r' p y|r' p D|r' p now early|r' p y|? ? ? ?|? ?|?|? ?|?|? ?]; try (rewrite NONE in H; discriminate H);
      (cbn [app] in FW, SUB; inversion FW; subst; eapply IH; [exact H|exact SUB'|exact FW'| |exact G]; split; [apply SUB; left; reflexivity|assumption]).
  - destruct o as [? ? ? ? ? ? ?|r' [|] now|r' fs' now|r' p y|r' p D|r' p now early|r' p y|? ? ? ?|? ?|?|? ?|?|? ?]; try (destruct c; rewrite NONE in H; discriminate H).
    + assert (H' : fold_left (follow r) (combine os xs) (if (Nat.eqb r' r && own r p)%bool then Some (Running t (fs ++ [y]) c, ms) else None) = Some (ph', ms')) by (destruct c; exact H). clear H. rename H' into H.
      destruct (Nat.eqb r' r && own r p)%bool; [|rewrite NONE in H; discriminate H]. eapply IH; [exact H|exact SUB'|exact FW'|exact PH'|exact G].
    + assert (EX : exists c', x = GotPolicy c' \/ forall c', x <> GotPolicy c').
      { destruct x as [| | |c']; try (exists 0%Z; right; intros; discriminate). exists c'. left. reflexivity. }
      destruct EX as (c' & [->|NG]).
      * assert (H' : fold_left (follow r) (combine os xs) (if (Nat.eqb r' r && own r p)%bool then Some (Running t fs (Some c'), ms) else None) = Some (ph', ms')) by (destruct c; exact H). clear H. rename H' into H.
        destruct (Nat.eqb r' r && own r p)%bool; [|rewrite NONE in H; discriminate H]. eapply IH; [exact H|exact SUB'|exact FW'|exact PH'|exact G].
      * destruct x; try (destruct c; rewrite NONE in H; discriminate H). exfalso. exact (NG _ eq_refl).
    + destruct c as [c|]; [|rewrite NONE in H; discriminate H]. destruct (Nat.eqb r' r && own r p)%bool; [|try destruct c; rewrite NONE in H; discriminate H]. eapply IH; [exact H|exact SUB'|exact FW'|exact I|].
      apply Forall_app. split; [exact G|]. constructor; [|constructor]. cbn [app] in SUB, PH. destruct PH as [IT F]. inversion F as [|? ? LE _]; subst.
      assert (IN : In now all) by (apply SUB; left; reflexivity).
      destruct (time_spec k t now (AL _ IT) (AL _ IN) K LE) as (A & B & C). split; [exact A|]. split; [exact B|]. exists t, now. auto.
Qed.

Lemma followed_timed k r os xs ph ms : (0 <= k <= 52)%Z -> Forall (reading k) (readings os) -> forward (readings os) -> followed r (combine os xs) = Some (ph, ms) ->
  Forall (fun m : meas => timed k (readings os) (m_metric m)) ms.
Proof. intros K F W H. eapply (follow_timed k r (readings os) K F os xs Idle []); [exact H|auto|exact W|exact I|constructor]. Qed.

Definition in_range (k : Z) (x : f64) : Prop := is_finite x = true /\ 0 <= B2R x <= bpow radix2 k.

Lemma average_range k a b : (0 <= k <= 52)%Z -> in_range k a -> in_range k b -> in_range k (mean2 a b).
Proof.
  intros K [FA BA] [FB BB]. assert (P52 : (2 ^ k <= 2 ^ 52)%Z) by (apply Z.pow_le_mono_r; lia). assert (P0 : (0 < 2 ^ k)%Z) by (apply Z.pow_pos_nonneg; lia).
  destruct (f64_of_Z_spec (2 ^ k)) as [FH VH]; [change (2 ^ 53)%Z with (2 * 2 ^ 52)%Z; lia|]. rewrite <- bpow_Z in VH by lia.
  assert (HZ : halvable (B754_zero false)) by (split; [reflexivity|left; reflexivity]).
  assert (HH : halvable (f64_of_Z (2 ^ k))) by (split; [exact FH|]; right; rewrite VH, Rabs_pos_eq by apply bpow_ge_0; apply bpow_le; lia).
  rewrite <- VH in BA, BB. destruct (mean2_bound _ _ a b HZ HH FA FB BA BB) as [F B]. split; [exact F|]. rewrite VH in B. exact B.
Qed.

Lemma insert_range k d f p x d' : (0 <= k <= 52)%Z -> Forall (fun e => in_range k (snd e)) d -> in_range k x -> ds_insert d f p x = Ok d' -> Forall (fun e => in_range k (snd e)) d'.
Proof.
  intros K F X H. unfold ds_insert in H. destruct (negb _); [discriminate H|]. destruct (map_find key_lt (f, p) d) as [old|] eqn:E; injection H as <-.
  - assert (OLD : in_range k old).
    { revert E. induction F as [|[k' v] r V F IH]; cbn [map_find]; [discriminate|]. destruct (_ && _); [intros Y; injection Y as <-; exact V|exact IH]. }
    clear E. induction F as [|[k' v] r V F IH]; cbn [map_update]; [constructor|]. destruct (_ && _); constructor; try assumption.
    cbn [snd]. apply (average_range k old x K OLD X).
  - clear E. induction F as [|[k' v] r V F IH]; cbn [map_add]; [constructor; [exact X|constructor]|]. destruct (key_lt _ _); [constructor; [exact X|constructor; assumption]|constructor; assumption].
Qed.

Lemma insert_all_range k ms : (0 <= k <= 52)%Z -> Forall (fun m : meas => in_range k (m_metric m)) ms -> forall d d', Forall (fun e => in_range k (snd e)) d -> insert_all d ms = Ok d' ->
  Forall (fun e => in_range k (snd e)) d'.
Proof.
  intros K. induction 1 as [|[[f p] x] ms X _ IH]; intros d d' F H; cbn [insert_all] in H; [injection H as <-; exact F|]. apply bind_inv in H as (d1 & E & H). eapply IH; [|exact H].
  eapply insert_range; [exact K|exact F|exact X|exact E].
Qed.

Lemma client_times P c files os w xs r R ph ms k : run P (start_world c files) os = Ok (w, xs) -> forallb explicit os = true ->
  followed r (combine os xs) = Some (ph, ms) -> nth_error (w_regions w) r = Some R ->
  (forall nf nm np mt info yaml init, In (OpRegion nf nm np mt info yaml init, GotRegion r) (combine os xs) -> starts_empty c info) ->
  (0 <= k <= 52)%Z -> Forall (reading k) (readings os) -> forward (readings os) ->
  Forall (fun m : meas => is_finite (m_metric m) = true /\ 0 <= B2R (m_metric m) /\
    exists b e, In b (readings os) /\ In e (readings os) /\ (nanoseconds b <= nanoseconds e)%Z /\ Rabs (B2R (m_metric m) - elapsed b e) <= clock_error k) ms /\
  Forall (fun m : meas => is_finite (m_metric m) = true /\ 0 <= B2R (m_metric m)) (ds_to_vector (r_dataset R)).
Proof.
  intros RUN EX FO ER SE K RD FW. assert (T := followed_timed k r os xs ph ms K RD FW FO). split.
  - eapply Forall_impl; [|exact T]. intros m (A & B & C). split; [exact A|]. split; [apply B|exact C].
  - destruct (client_dataset P c files os w xs r R ph ms RUN EX FO ER SE) as (log & n & _ & _ & _ & INS & _).
    assert (T2 : Forall (fun m : meas => in_range k (m_metric m)) (firstn n ms)).
    { apply Forall_forall. intros m I. rewrite Forall_forall in T. assert (I2 : In m ms) by (rewrite <- (firstn_skipn n ms); apply in_or_app; left; exact I). destruct (T m I2) as (A & B & _). split; assumption. }
    assert (D := insert_all_range k _ K T2 [] _ (Forall_nil _) INS). apply Forall_forall. intros m I. rewrite Forall_forall in D. unfold ds_to_vector in I. apply in_map_iff in I as ([[f p] x] & <- & I).
    destruct (D _ I) as [A B]. split; [exact A|apply B].
Qed.

(** ** The order of times *)

(** Up for 2^24 seconds: nine nanoseconds are measured as more than ten. *)
Definition nine : (Z * Z) * (Z * Z) := ((16777216, 131827177), (16777216, 131827186))%Z.
Definition ten : (Z * Z) * (Z * Z) := ((16777216, 674467484), (16777216, 674467494))%Z.
Lemma longer_is_less : lt64 (sub64 (clock_seconds (snd ten)) (clock_seconds (fst ten))) (sub64 (clock_seconds (snd nine)) (clock_seconds (fst nine))) = true.
Proof. vm_compute. reflexivity. Qed.

Lemma longer_can_be_less : exists b1 e1 b2 e2, Forall (reading 25) [b1; e1; b2; e2] /\ (nanoseconds b1 <= nanoseconds e1)%Z /\ (nanoseconds b2 <= nanoseconds e2)%Z /\
  elapsed b1 e1 < elapsed b2 e2 /\
  exists x y, timer_done (timer_stop e1 (timer_start b1 (Clock None None))) = Ok (Some x) /\ timer_done (timer_stop e2 (timer_start b2 (Clock None None))) = Ok (Some y) /\ B2R y < B2R x.
Proof.
  exists (fst nine), (snd nine), (fst ten), (snd ten). 
  assert (R4 : Forall (reading 25) [fst nine; snd nine; fst ten; snd ten]) by (repeat constructor; cbn; lia).
  split; [exact R4|]. split; [cbn; lia|]. split; [cbn; lia|]. split.
  - unfold elapsed. change (nanoseconds (snd nine) - nanoseconds (fst nine))%Z with 9%Z. change (nanoseconds (snd ten) - nanoseconds (fst ten))%Z with 10%Z. lra.
  - eexists _, _. split; [reflexivity|]. split; [reflexivity|].
    inversion R4 as [|? ? H1 R3]; subst. inversion R3 as [|? ? H2 R2]; subst. inversion R2 as [|? ? H3 R1]; subst. inversion R1 as [|? ? H4 _]; subst.
    destruct (time_spec 25 _ _ H1 H2 ltac:(lia)) as (F1 & _); [cbn; lia|]. destruct (time_spec 25 _ _ H3 H4 ltac:(lia)) as (F2 & _); [cbn; lia|].
    assert (L := longer_is_less). unfold lt64 in L. rewrite Bltb_correct in L by assumption. destruct (Rlt_bool_spec (B2R (sub64 (clock_seconds (snd ten)) (clock_seconds (fst ten)))) (B2R (sub64 (clock_seconds (snd nine)) (clock_seconds (fst nine))))) as [LT|]; [exact LT|discriminate L].
Qed.

Lemma timer_spec k b e p q : (0 <= k <= 52)%Z -> reading k b -> reading k e -> (nanoseconds b <= nanoseconds e)%Z ->
  exists x, timer_done (timer_stop e (timer_start b (Clock p q))) = Ok (Some x) /\ is_finite x = true /\ 0 <= B2R x /\ Rabs (B2R x - elapsed b e) <= clock_error k.
Proof.
  intros K HB HE L. destruct (time_spec k b e HB HE K L) as (F & B & E). eexists. split; [reflexivity|]. split; [exact F|]. split; [apply B|exact E].
Qed.

Lemma error_small k : (0 <= k <= 22)%Z -> clock_error k < / 1000000000.
Proof.
  intros K. unfold clock_error. assert (bpow radix2 (k - 54) <= bpow radix2 (-32)) by (apply bpow_le; lia).
  assert (B1 : bpow radix2 (-32) = / IZR (2 ^ 32)) by reflexivity. assert (B2 : bpow radix2 (-53) = / IZR (2 ^ 53)) by reflexivity.
  rewrite B1 in H. rewrite B2. cbn in H |- *. lra.
Qed.

Lemma client_readings : Forall (reading 6) (readings client) /\ forward (readings client) /\ List.length (readings client) = 7%nat.
Proof.
  change (readings client) with [(10, 0); (11, 0); (15, 0); (20, 0); (30, 0); (31, 0); (40, 0)]%Z. split; [repeat constructor; cbn; lia|]. split; [|reflexivity].
  repeat (constructor; [|repeat (constructor; [cbn; lia|]); constructor]). constructor.
Qed.
