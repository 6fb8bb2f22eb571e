(** Policies all of whose measurements are less than those of the others. *)
From Coq Require Import ZArith Bool Reals Lia Lra SpecFloat List.
From Flocq Require Import Core BinarySingleNaN.
From Verif Require Import Model.Base Model.Float Model.DatasetM Model.RuntimeM Spec.DatasetSpec Spec.DatasetClient Spec.PolicyModelsSpec Spec.TimerSpec
  Proofs.FloatFacts Proofs.FloatConv Proofs.KokkosDoubles Proofs.MapFacts Proofs.KeyOrder Proofs.DatasetFacts Proofs.BestPolicy Proofs.EmaBounds Proofs.TimerFacts.
Import ListNotations.
Open Scope Z_scope.

Lemma separated_best h d f p : Forall no_nan_features h -> insert_all [] h = Ok d -> Forall (fun x : f32 => is_nan x = false) f ->
  (forall q m, In m (metrics_for f q h) -> halvable m) -> metrics_for f p h <> [] ->
  (forall q m m', q <> p -> In m (metrics_for f p h) -> In m' (metrics_for f q h) -> (B2R m < B2R m')%R) ->
  best_policy_for f (ds_to_vector d) p.
Proof.
  intros N E F HA NE SEP. destruct (insert_all_spec h [] wfd_nil N) as (d' & E' & W & _). rewrite E in E'. injection E' as <-.
  destruct (insert_all_history h N) as (d' & E' & REC). rewrite E in E'. injection E' as <-. assert (FK := proj2 (fok_Forall f) F).
  assert (INREC : forall g q m, In (g, q, m) (ds_to_vector d) -> same_features f g = true -> recorded f q (ds_to_vector d) = Some m).
  { intros g q m I S. apply (proj1 (In_to_vector _ _ _ _)) in I. assert (KG : kok (g, q)) by (destruct W as [A _]; rewrite Forall_forall in A; exact (A _ I)).
    rewrite recorded_find by assumption. assert (KQ : keqb (f, q) (g, q) = true) by (unfold keqb; cbn [fst snd]; rewrite S, Z.eqb_refl; reflexivity).
    rewrite (keqb_find (f, q) (g, q)) by (assumption || exact FK). apply (In_find key_lt kok); [apply key_lt_irrefl|exact W|exact I]. }
  assert (exists v, moving_average (metrics_for f p h) = Some v) as [v EV] by (destruct (metrics_for f p h); [congruence|eexists; reflexivity]).
  assert (MR := moving_average_range (metrics_for f p h) v ltac:(rewrite Forall_forall; apply HA) EV). destruct MR as (FV & _ & hi & IH & LH).
  assert (RV := REC f p F). rewrite EV in RV. unfold recorded in RV. destruct (find (same_key f p) (ds_to_vector d)) as [[[g q] m]|] eqn:FI; [|discriminate RV]. injection RV as ->.
  apply find_some in FI as [I S]. apply andb_prop in S as [S Q]. cbn [m_policy m_features fst snd] in S, Q. apply Z.eqb_eq in Q as <-.
  exists g, v. split; [exact I|]. split; [exact S|]. intros g' q m' I' S'. assert (R' := INREC _ _ _ I' S'). rewrite REC in R' by exact F.
  assert (NN : forall x : f64, is_finite x = true -> is_nan x = false) by (intros x; destruct x; discriminate || reflexivity).
  assert (FM : is_finite m' = true /\ (B2R v <= B2R m')%R /\ (q = p \/ (B2R v < B2R m')%R)).
  { destruct (Z.eq_dec q p) as [->|NQ].
    - rewrite EV in R'. injection R' as <-. split; [exact FV|]. split; [lra|auto].
    - destruct (moving_average_range (metrics_for f q h) m' ltac:(rewrite Forall_forall; apply HA) R') as (FM & (lo & IL & LL) & _). assert (X := SEP q hi lo NQ IH IL). split; [exact FM|]. split; [lra|right; lra]. }
  destruct FM as (FM & LE & ALT). split.
  - rewrite Bleb_correct by assumption. apply Rle_bool_true. exact LE.
  - intros EQ. destruct ALT as [->|LT]; [lia|]. rewrite Beqb_correct in EQ by assumption. rewrite Req_bool_false in EQ by lra. discriminate EQ.
Qed.

(** ** One slow execution *)

Lemma recorded_in h d f q m g : Forall no_nan_features h -> insert_all [] h = Ok d -> Forall (fun x : f32 => is_nan x = false) f ->
  In (g, q, m) (ds_to_vector d) -> same_features f g = true -> recorded f q (ds_to_vector d) = Some m.
Proof.
  intros N E F I S. destruct (insert_all_spec h [] wfd_nil N) as (d' & E' & W & _). rewrite E in E'. injection E' as <-. assert (FK := proj2 (fok_Forall f) F).
  apply (proj1 (In_to_vector _ _ _ _)) in I. assert (KG : kok (g, q)) by (destruct W as [A _]; rewrite Forall_forall in A; exact (A _ I)).
  rewrite recorded_find by assumption. assert (KQ : keqb (f, q) (g, q) = true) by (unfold keqb; cbn [fst snd]; rewrite S, Z.eqb_refl; reflexivity).
  rewrite (keqb_find (f, q) (g, q)) by (assumption || exact FK). apply (In_find key_lt kok); [apply key_lt_irrefl|exact W|exact I].
Qed.

Lemma moving_average_last l x v : Forall halvable (l ++ [x]) -> (forall m, In m (l ++ [x]) -> (0 <= B2R m)%R) -> moving_average (l ++ [x]) = Some v -> (B2R x / 2 <= B2R v)%R.
Proof.
  intros H P E. assert (HX : halvable x) by (rewrite Forall_forall in H; apply H, in_or_app; right; left; reflexivity). assert (PX : (0 <= B2R x)%R) by (apply P, in_or_app; right; left; reflexivity).
  destruct l as [|a l]; [cbn in E; injection E as <-; lra|]. cbn [app moving_average] in E. rewrite fold_left_app in E. cbn [fold_left] in E. injection E as <-.
  assert (HL : Forall halvable (a :: l)) by (apply (proj1 (Forall_app halvable (a :: l) [x])) in H; apply H).
  destruct (moving_average_range (a :: l) (fold_left mean2 l a) HL eq_refl) as (FA & (lo & IL & LL) & hi & IH & LH). set (u := fold_left mean2 l a) in *.
  assert (PU : (0 <= B2R u)%R) by (assert (0 <= B2R lo)%R by (apply P; apply (in_or_app (a :: l)); left; exact IL); lra).
  assert (HH : halvable hi) by (rewrite Forall_forall in HL; apply HL; exact IH). assert (ZH : halvable (B754_zero false : f64)) by (split; [reflexivity|left; reflexivity]).
  destruct HX as [FX HX'].
  destruct (half_bound (B754_zero false) hi u ZH HH FA) as [FU BU]; [cbn; lra|]. destruct (half_bound (B754_zero false) x x ZH (conj FX HX') FX) as [FB BB]; [cbn; lra|].
  change (mean2 u x) with (add64 (mul64 half64 u) (mul64 half64 x)).
  assert (VX : B2R (mul64 half64 x) = (/ 2 * B2R x)%R).
  { destruct half_value as [HV HF]. generalize (Bmult_correct 53 1024 _ _ mode_NE half64 x). rewrite HV, round_generic by (try typeclasses eauto; apply halvable_format; split; assumption).
    rewrite Rlt_bool_true; [intros (V & _); exact V|]. assert (BX := finite_bound 53 1024 x FX). apply Rabs_lt. lra. }
  cbn [B2R] in BU, BB. assert (BX := finite_bound 53 1024 x FX). assert (BH := finite_bound 53 1024 hi (proj1 HH)).
  assert (GE : (/ 2 * B2R x <= round radix2 (fexp 53 1024) (round_mode mode_NE) (B2R (mul64 half64 u) + B2R (mul64 half64 x)))%R).
  { apply round_ge_generic; [typeclasses eauto|typeclasses eauto|apply halvable_format; split; assumption|]. lra. }
  generalize (Bplus_correct 53 1024 _ _ mode_NE _ _ FU FB).
  assert (LE : (round radix2 (fexp 53 1024) (round_mode mode_NE) (B2R (mul64 half64 u) + B2R (mul64 half64 x)) <= Rmax (B2R hi) (B2R x))%R).
  { apply round_le_generic; [typeclasses eauto|typeclasses eauto|unfold Rmax; destruct (Rle_dec _ _); apply generic_format_B2R|].
    assert (UB : (B2R (mul64 half64 u) <= / 2 * B2R hi)%R).
    { destruct half_value as [HV HF]. generalize (Bmult_correct 53 1024 _ _ mode_NE half64 u). rewrite HV.
      assert (RL : (round radix2 (fexp 53 1024) (round_mode mode_NE) (/ 2 * B2R u) <= / 2 * B2R hi)%R) by (apply round_le_generic; [typeclasses eauto|typeclasses eauto|apply halvable_format; exact HH|lra]).
      assert (RG : (0 <= round radix2 (fexp 53 1024) (round_mode mode_NE) (/ 2 * B2R u))%R) by (apply round_ge_generic; [typeclasses eauto|typeclasses eauto|apply generic_format_0|lra]).
      rewrite Rlt_bool_true; [intros (V & _); unfold mul64; rewrite V; exact RL|]. apply Rabs_lt. lra. }
    rewrite VX. assert (M1 := Rmax_l (B2R hi) (B2R x)). assert (M2 := Rmax_r (B2R hi) (B2R x)). lra. }
  rewrite Rlt_bool_true.
  - intros (V & _). unfold add64. rewrite V. unfold Rdiv. rewrite (Rmult_comm (B2R x)). exact GE.
  - apply Rabs_lt. assert (Rmax (B2R hi) (B2R x) < bpow radix2 1024)%R by (apply Rmax_lub_lt; lra). lra.
Qed.

Lemma one_slow h d f p q l x : Forall no_nan_features h -> insert_all [] h = Ok d -> Forall (fun x : f32 => is_nan x = false) f ->
  (forall r m, In m (metrics_for f r h) -> halvable m /\ (0 <= B2R m)%R) -> metrics_for f p h = l ++ [x] -> metrics_for f q h <> [] ->
  (forall m, In m (metrics_for f q h) -> (B2R m < B2R x / 2)%R) -> ~ best_policy_for f (ds_to_vector d) p.
Proof.
  intros N E F HA EP NQ LT (g & m & I & S & BEST). assert (R1 := recorded_in _ _ _ _ _ _ N E F I S).
  destruct (insert_all_history h N) as (d' & E' & REC). rewrite E in E'. injection E' as <-. rewrite REC, EP in R1 by exact F.
  assert (HP : forall y, In y (l ++ [x]) -> halvable y /\ (0 <= B2R y)%R) by (intros y IY; apply (HA p); rewrite EP; exact IY).
  assert (A := moving_average_last l x m ltac:(rewrite Forall_forall; intros y IY; apply (HP y IY)) ltac:(intros y IY; apply (HP y IY)) R1).
  destruct (moving_average_range (l ++ [x]) m ltac:(rewrite Forall_forall; intros y IY; apply (HP y IY)) R1) as (FM & _).
  assert (exists u, moving_average (metrics_for f q h) = Some u) as [u EU] by (destruct (metrics_for f q h); [congruence|eexists; reflexivity]).
  destruct (moving_average_range (metrics_for f q h) u ltac:(rewrite Forall_forall; intros y IY; apply (HA q y IY)) EU) as (FU & _ & hi & IH & LH). assert (X := LT hi IH).
  assert (RU := REC f q F). rewrite EU in RU. unfold recorded in RU. destruct (find (same_key f q) (ds_to_vector d)) as [[[g' q'] u']|] eqn:FI; [|discriminate RU]. injection RU as ->.
  apply find_some in FI as [I' S']. apply andb_prop in S' as [S' Q]. cbn [m_policy m_features fst snd] in S', Q. apply Z.eqb_eq in Q as <-.
  destruct (BEST g' q u I' S') as [B _]. rewrite Bleb_correct in B by assumption. rewrite Rle_bool_false in B by lra. discriminate B.
Qed.

(** ** Measured times can be halved *)

Lemma seconds_low k now : reading k now -> (0 <= k <= 52)%Z -> B2R (clock_seconds now) = 0%R \/ (bpow radix2 (-30) <= B2R (clock_seconds now))%R.
Proof.
  intros RD K. destruct (seconds_spec k now RD K) as (_ & _ & V & _). destruct (part_bounds k now RD K) as (_ & BQ & VQ & _). rewrite VQ in BQ. destruct RD as [[S1 _] [N1 N2]].
  assert (LOW : forall r, (bpow radix2 (-30) <= r)%R -> (bpow radix2 (-30) <= round radix2 (fexp 53 1024) (round_mode mode_NE) r)%R).
  { intros r L. apply round_ge_generic; [typeclasses eauto|typeclasses eauto|apply bpow_fmt; lia|exact L]. }
  destruct (Z.eq_dec (fst now) 0) as [Z0|NZ].
  - destruct (Z.eq_dec (snd now) 0) as [N0|NN].
    + left. rewrite V, Z0, N0. unfold Rdiv. rewrite Rmult_0_l, round_0 by typeclasses eauto. rewrite Rplus_0_l. apply round_0. typeclasses eauto.
    + right. rewrite V, Z0, Rplus_0_l. apply LOW, LOW. assert (A : (1 <= IZR (snd now))%R) by (apply IZR_le; lia). change (bpow radix2 (-30)) with (/ 1073741824)%R. 
      apply (Rmult_le_reg_r 1000000000); [lra|]. field_simplify; lra.
  - right. rewrite V. apply LOW. assert (A : (1 <= IZR (fst now))%R) by (apply IZR_le; lia). change (bpow radix2 (-30)) with (/ 1073741824)%R. lra.
Qed.

Lemma time_halvable k b e : reading k b -> reading k e -> (0 <= k <= 52)%Z -> nanoseconds b <= nanoseconds e -> halvable (sub64 (clock_seconds e) (clock_seconds b)).
Proof.
  intros HB HE K L. destruct (time_spec k b e HB HE K L) as (F & B & _). split; [exact F|]. revert B.
  destruct (seconds_spec k b HB K) as (FB & BB & _). destruct (seconds_spec k e HE K) as (FE & BE & _). assert (MO := seconds_mono k b e HB HE K L).
  assert (SB : (0 <= B2R (clock_seconds e) - B2R (clock_seconds b) <= bpow radix2 k)%R) by lra.
  assert (B := rnd64_between 0 (bpow radix2 k) _ fmt_0 (bpow_fmt k ltac:(lia)) SB).
  destruct (sub64_spec (clock_seconds e) (clock_seconds b) FE FB) as [_ V]; [apply (small_1024 k); [lia|]; rewrite Rabs_pos_eq by apply B; apply B|].
  intros _. rewrite V. destruct MO as [LT|EQ]; [|left; rewrite EQ, Rminus_diag_eq by reflexivity; apply round_0; typeclasses eauto].
  right. rewrite Rabs_pos_eq by apply B. apply Rle_trans with (bpow radix2 (-82)); [apply bpow_le; lia|].
  apply round_ge_generic; [typeclasses eauto|typeclasses eauto|apply bpow_fmt; lia|].
  destruct (seconds_low k b HB K) as [ZB|LB].
  - rewrite ZB in *. destruct (seconds_low k e HE K) as [ZE|LE]; [lra|]. rewrite Rminus_0_r. apply Rle_trans with (bpow radix2 (-30)); [apply bpow_le; lia|exact LE].
  - assert (S : (succ radix2 (fexp 53 1024) (B2R (clock_seconds b)) <= B2R (clock_seconds e))%R).
    { apply succ_le_lt; [typeclasses eauto|apply generic_format_B2R|apply generic_format_B2R|exact LT]. }
    rewrite succ_eq_pos in S by apply BB. 
    assert (U : (bpow radix2 (-82) <= ulp radix2 (fexp 53 1024) (B2R (clock_seconds b)))%R).
    { assert (PB : (0 < bpow radix2 (-30))%R) by apply bpow_gt_0. rewrite ulp_neq_0 by lra. apply bpow_le. unfold cexp, fexp.
      assert (M : (-29 <= mag radix2 (B2R (clock_seconds b)))%Z) by (apply mag_ge_bpow; rewrite Rabs_pos_eq by lra; exact LB). unfold SpecFloat.fexp, SpecFloat.emin. lia. }
    lra.
Qed.

(** ** Examples *)

Definition timed_at (p s : Z) : meas := ([f32_of_Z 1], p, f64_of_Z s).
Definition fast_history : list meas := [timed_at 0 5; timed_at 1 7; timed_at 0 6].
Definition slow_history : list meas := [timed_at 0 1; timed_at 0 1; timed_at 0 1; timed_at 0 11; timed_at 1 5].

Lemma some_metrics (l : list (Z * Z)) q : metrics_for [f32_of_Z 1] q (map (fun x => timed_at (fst x) (snd x)) l) = map (fun x => f64_of_Z (snd x)) (filter (fun x => q =? fst x) l).
Proof.
  unfold metrics_for. induction l as [|[p s] l IH]; [reflexivity|]. cbn [map filter fst snd].
  change (same_key [f32_of_Z 1] q (timed_at p s)) with (q =? p). destruct (q =? p); [cbn [map]; rewrite IH; reflexivity|exact IH].
Qed.

Lemma second_halvable s : 1 <= s <= 1000 -> halvable (f64_of_Z s) /\ B2R (f64_of_Z s) = IZR s.
Proof.
  intros H. destruct (f64_of_Z_spec s) as [F V]; [lia|]. split; [|exact V]. split; [exact F|]. right. rewrite V. assert (1 <= IZR s)%R by (apply IZR_le; lia). rewrite Rabs_pos_eq by lra.
  apply Rle_trans with (bpow radix2 0); [apply bpow_le; lia|exact H0].
Qed.

Lemma metrics_in (l : list (Z * Z)) q m : Forall (fun x => 1 <= snd x <= 1000) l -> In m (metrics_for [f32_of_Z 1] q (map (fun x => timed_at (fst x) (snd x)) l)) ->
  exists s, In (q, s) l /\ 1 <= s <= 1000 /\ halvable m /\ B2R m = IZR s.
Proof.
  intros F I. rewrite some_metrics in I. apply in_map_iff in I as ([p s] & <- & I). apply filter_In in I as [I E]. cbn [fst snd] in *. apply Z.eqb_eq in E as <-.
  rewrite Forall_forall in F. assert (B := F _ I). cbn [snd] in B. destruct (second_halvable s B). exists s. auto.
Qed.

Lemma fast_example : exists d, insert_all [] fast_history = Ok d /\ Forall no_nan_features fast_history /\
  (forall q m, In m (metrics_for [f32_of_Z 1] q fast_history) -> halvable m) /\ metrics_for [f32_of_Z 1] 0 fast_history <> [] /\
  (forall q m m', q <> 0 -> In m (metrics_for [f32_of_Z 1] 0 fast_history) -> In m' (metrics_for [f32_of_Z 1] q fast_history) -> (B2R m < B2R m')%R).
Proof.
  assert (N : Forall no_nan_features fast_history) by (repeat (apply Forall_cons; [constructor; [reflexivity|constructor]|]); constructor).
  destruct (insert_all_history _ N) as (d & E & _). exists d. split; [exact E|]. split; [exact N|]. clear d E N.
  change fast_history with (map (fun x => timed_at (fst x) (snd x)) [(0, 5); (1, 7); (0, 6)]).
  assert (F : Forall (fun x : Z * Z => 1 <= snd x <= 1000) [(0, 5); (1, 7); (0, 6)]) by (repeat (apply Forall_cons; [cbn; lia|]); constructor).
  split; [|split].
  - intros q m I. destruct (metrics_in _ _ _ F I) as (s & _ & _ & H & _). exact H.
  - rewrite some_metrics. discriminate.
  - intros q m m' NQ I I'. destruct (metrics_in _ _ _ F I) as (s & IS & _ & _ & ->). destruct (metrics_in _ _ _ F I') as (s' & IS' & _ & _ & ->). apply IZR_lt.
    cbn [In] in IS, IS'. assert (s = 5 \/ s = 6) by (destruct IS as [X|[X|[X|[]]]]; injection X; lia). assert (s' = 7) by (destruct IS' as [X|[X|[X|[]]]]; injection X; lia). lia.
Qed.

Lemma slow_example : exists d l x, insert_all [] slow_history = Ok d /\ Forall no_nan_features slow_history /\
  (forall r m, In m (metrics_for [f32_of_Z 1] r slow_history) -> halvable m /\ (0 <= B2R m)%R) /\ metrics_for [f32_of_Z 1] 0 slow_history = l ++ [x] /\ List.length l = 3%nat /\
  metrics_for [f32_of_Z 1] 1 slow_history <> [] /\ (forall m, In m (metrics_for [f32_of_Z 1] 1 slow_history) -> (B2R m < B2R x / 2)%R) /\
  (forall m, In m l -> (B2R m = 1)%R).
Proof.
  assert (N : Forall no_nan_features slow_history) by (repeat (apply Forall_cons; [constructor; [reflexivity|constructor]|]); constructor).
  destruct (insert_all_history _ N) as (d & E & _). exists d, [f64_of_Z 1; f64_of_Z 1; f64_of_Z 1], (f64_of_Z 11). split; [exact E|]. split; [exact N|]. clear d E N.
  change slow_history with (map (fun x => timed_at (fst x) (snd x)) [(0, 1); (0, 1); (0, 1); (0, 11); (1, 5)]).
  assert (F : Forall (fun x : Z * Z => 1 <= snd x <= 1000) [(0, 1); (0, 1); (0, 1); (0, 11); (1, 5)]) by (repeat (apply Forall_cons; [cbn; lia|]); constructor).
  split; [|split; [|split; [|split; [|split]]]].
  - intros q m I. destruct (metrics_in _ _ _ F I) as (s & _ & B & H & V). split; [exact H|]. rewrite V. apply IZR_le. lia.
  - rewrite some_metrics. reflexivity.
  - reflexivity.
  - rewrite some_metrics. discriminate.
  - intros m I. destruct (metrics_in _ _ _ F I) as (s & IS & _ & _ & ->). destruct (second_halvable 11 ltac:(lia)) as [_ ->].
    assert (s = 5) as -> by (cbn [In] in IS; destruct IS as [X|[X|[X|[X|[X|[]]]]]]; injection X; lia). lra.
  - intros m I. destruct (second_halvable 1 ltac:(lia)) as [_ V]. cbn [In] in I. destruct I as [<-|[<-|[<-|[]]]]; exact V.
Qed.
