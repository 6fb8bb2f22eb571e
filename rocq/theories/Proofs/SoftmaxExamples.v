(** Cases for the statements of [Props/SoftmaxFloat.v] and [Props/NetPoison.v]. *)
From Coq Require Import List ZArith Bool Lia Reals Lra.
From Flocq Require Import Core BinarySingleNaN.
From Verif Require Import Model.Base Model.Float Model.DatasetM Model.NetM Model.PolicyNetM.
From Verif Require Import Spec.NetSpec Spec.PolicyNetSpec Spec.SoftmaxSpec Proofs.FloatFacts Proofs.NetStep Proofs.InsertionSortFacts Proofs.PolicyNetStale
  Proofs.PolicyNetProps Proofs.PolicyNetSafety Proofs.SoftmaxFloat Proofs.NetPoison.
Import ListNotations.
Local Open Scope R_scope.

(** A step in the place of the exponential, and no power. *)
Definition step_libm : libm := {|
  m_exp := fun x => if is_nan x then B754_nan else if le64 zero64 x then one64 else zero64;
  m_pow := fun _ _ => zero64 |}.

Lemma step_decent : decent_exp step_libm.
Proof.
  assert (N : forall x y, le64 x y = true -> is_nan x = false /\ is_nan y = false) by (intros [s|s| |s m e B] [s'|s'| |s' m' e' B'] H; try discriminate H; auto).
  constructor.
  - intros s. cbn [m_exp step_libm]. replace (is_nan (B754_zero s)) with false by reflexivity. replace (le64 zero64 (B754_zero s)) with true by (destruct s; reflexivity). reflexivity.
  - intros x L. cbn [m_exp step_libm]. rewrite (proj1 (N _ _ L)). destruct (le64 zero64 x); [rewrite (proj1 one_value), (proj2 one_value); split; [reflexivity|lra]|split; [reflexivity|unfold zero64; cbn [B2R]; lra]].
  - intros x y L L2. cbn [m_exp step_libm]. destruct (N _ _ L) as (NX & NY). rewrite NX, NY. unfold le64 in *. rewrite (Bleb_xval 53 1024 x y NX NY) in L.
    rewrite (Bleb_xval 53 1024 zero64 x eq_refl NX), (Bleb_xval 53 1024 zero64 y eq_refl NY). revert L.
    case (Rle_bool_spec (xval x) (xval y)); [intros L _|discriminate]. case (Rle_bool_spec (xval zero64) (xval x)); case (Rle_bool_spec (xval zero64) (xval y)); intros G1 G2; try lra;
      rewrite ?(proj1 one_value); unfold zero64; cbn [B2R]; lra.
  - reflexivity.
Qed.

(** One input, one unit in each hidden layer, two policies, with the weights and the bias given. *)
Definition two_outputs (b : f64) : net f64 :=
  let N := new_net (f64_arith step_libm) 1 1 2 one64 zero64 zero64 (fun _ _ => one64) in
  let L := layer3 N in
  mkNet (layer1 N) (layer2 N) (mkLayer (l_in L) (l_out L) (l_w L) [b; one64] (l_wm L) (l_wv L) (l_bm L) (l_bv L) (l_step L)) one64 zero64 zero64.

Lemma two_outputs_shaped b : shaped (two_outputs b) 1 1 2.
Proof. repeat constructor. Qed.

Definition low_b (x : f64) : bool := is_finite x || match x with B754_infinity true => true | _ => false end.
Definition usable_b (l : list f64) : bool := forallb low_b l && existsb (fun x => is_finite x) l.
Lemma usable_b_iff l : usable_b l = true <-> usable l.
Proof.
  unfold usable_b, usable. rewrite andb_true_iff, forallb_forall, existsb_exists, Forall_forall, Exists_exists.
  assert (Q : forall x, low_b x = true <-> (is_finite x = true \/ x = B754_infinity true)).
  { intros x. unfold low_b. rewrite orb_true_iff. destruct x as [s|[|]| |s m e B]; cbn; intuition discriminate. }
  split; intros (A & B); (split; [|exact B]); intros x I; apply Q, A, I.
Qed.

Lemma usable_example : exists p, forward_pass (f64_arith step_libm) (two_outputs zero64) [one64] 1 = Ok p /\ usable (row 2 0 (out3 p)).
Proof.
  destruct (ok_holds (forward_pass (f64_arith step_libm) (two_outputs zero64) [one64] 1) (fun p => usable_b (row 2 0 (out3 p)))) as (p & E & U); [vm_compute; reflexivity|].
  exists p. split; [exact E|]. apply usable_b_iff, U.
Qed.
Lemma unusable_example : exists p, forward_pass (f64_arith step_libm) (two_outputs B754_nan) [one64] 1 = Ok p /\ ~ usable (row 2 0 (out3 p)).
Proof.
  destruct (ok_holds (forward_pass (f64_arith step_libm) (two_outputs B754_nan) [one64] 1) (fun p => negb (usable_b (row 2 0 (out3 p))))) as (p & E & U); [vm_compute; reflexivity|].
  exists p. split; [exact E|]. intros V. apply usable_b_iff in V. rewrite V in U. discriminate U.
Qed.

(** A training on one time that is not a number, after and before other uses. *)
Definition not_timed : dataset := [([f32_of_Z 5], 0%Z, one64); ([f32_of_Z 5], 1%Z, B754_nan)].
Lemma not_timed_ok : List.Forall (use_ok 2 1) (@some_uses f64 ++ Learn not_timed :: some_uses)%list.
Proof.
  apply Forall_app. split; [apply some_uses_ok|]. constructor; [|apply some_uses_ok].
  assert (F : features_ok 1 [f32_of_Z 5]) by (split; [reflexivity|constructor; [apply five_encodable|constructor]]).
  cbn [use_ok]. repeat (apply Forall_cons; [split; [exact F|split; cbn; lia]|]). apply Forall_nil.
Qed.

Lemma poison_example : exists l1 P Q l2 Q',
  run_uses (f64_arith step_libm) (fun x => x) some_uses (new_pnet (f64_arith step_libm) 2 1 one64 half64 half64 half64 zero64 (fun _ _ => one64)) = Ok (l1, P) /\
  pn_train (f64_arith step_libm) (fun x => x) P not_timed = Ok Q /\ run_uses (f64_arith step_libm) (fun x => x) some_uses Q = Ok (l2, Q').
Proof.
  assert (H2 : (0 < 2)%nat) by lia. pose proof not_timed_ok as U. apply Forall_app in U as (U1 & U2). inversion U2 as [|? ? UD U3]; subst.
  set (N := new_pnet (f64_arith step_libm) 2 1 one64 half64 half64 half64 zero64 (fun _ _ => one64)).
  destruct (uses_sized (f64_arith step_libm) (fun x => x) 2 1 some_uses H2 U1 N (new_sized _ _ _ _ _ _ _ _ _)) as (l1 & P & E1); [cbn; unfold int_max; lia|].
  destruct (uses_sized_after step_libm 2 1 some_uses H2 U1 N l1 P (new_sized _ _ _ _ _ _ _ _ _) ltac:(cbn; lia) ltac:(cbn; unfold int_max; lia) E1) as (SP & CP).
  cbn in CP. destruct (learn_sized (f64_arith step_libm) (fun x => x) 2 1 P not_timed H2 SP ltac:(unfold int_max; lia) UD) as (Q & E2 & SQ & CQ).
  destruct (uses_sized (f64_arith step_libm) (fun x => x) 2 1 some_uses H2 U3 Q SQ) as (l2 & Q' & E3); [cbn; unfold int_max; lia|].
  exists l1, P, Q, l2, Q'. auto.
Qed.
