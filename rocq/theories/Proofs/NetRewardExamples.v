(** Cases for the statements of [Props/NetReward.v]. *)
From Coq Require Import List ZArith Bool Lia Reals Lra.
From Flocq Require Import Core BinarySingleNaN.
From Verif Require Import Model.Base Model.Float Model.DatasetM Model.NetM Model.PolicyNetM.
From Verif Require Import Spec.NetSpec Spec.PolicyNetSpec Spec.SoftmaxSpec Spec.RewardSpec Proofs.FloatFacts Proofs.NetStep Proofs.InsertionSortFacts Proofs.PolicyNetStale
  Proofs.PolicyNetProps Proofs.PolicyNetSafety Proofs.SoftmaxFloat Proofs.NetPoison Proofs.NetReward Proofs.SoftmaxExamples.
Import ListNotations.

(** 0 up to -746, infinite from 710, and one half or one in between: the limits are those of the exponential of doubles. *)
Definition coarse_libm : libm := {|
  m_exp := fun x => if is_nan x then B754_nan else if le64 (f64_of_Z 746) (Bopp x) then zero64 else if le64 (f64_of_Z 710) x then B754_infinity false
                    else if le64 zero64 x then one64 else half64;
  m_pow := fun _ _ => half64 |}.

Lemma coarse_vanishes : exp_vanishes coarse_libm.
Proof.
  intros x L. unfold long in L. cbn [m_exp coarse_libm].
  replace (is_nan (Bopp x)) with false by (destruct x as [s|[|]| |[|] m e B]; try discriminate L; reflexivity).
  rewrite Bopp_involutive by (destruct x; try discriminate L; reflexivity). now rewrite L.
Qed.

Lemma half_fraction : fraction half64.
Proof. split; vm_compute; reflexivity. Qed.
Lemma coarse_decent beta : decent_libm coarse_libm beta.
Proof. constructor; [reflexivity|]. intros k _. exact half_fraction. Qed.

(** Two trainings on the same features and policies; in one the first policy takes 1000 and the second 2000, in the other it is the
    other way round. *)
Definition first_faster : dataset := [([f32_of_Z 5], 0%Z, f64_of_Z 1000); ([f32_of_Z 5], 1%Z, f64_of_Z 2000)].
Definition second_faster : dataset := [([f32_of_Z 5], 0%Z, f64_of_Z 2000); ([f32_of_Z 5], 1%Z, f64_of_Z 1000)].
Lemma faster_alike : Forall2 alike (Learn first_faster :: some_uses) (Learn second_faster :: some_uses).
Proof.
  constructor.
  - cbn [alike]. constructor; [|constructor; [|constructor]]; (split; [reflexivity|right; split; vm_compute; reflexivity]).
  - assert (R : forall us : list (use f64), Forall2 alike us us).
    { induction us as [|[dr f|d] us IH]; constructor; auto; cbn [alike]; [auto|]. clear. induction d as [|e d IH]; constructor; auto. }
    apply R.
Qed.

Lemma faster_differ : first_faster <> second_faster.
Proof.
  intros E. assert (H : forallb (fun e => lt64 (snd e) (f64_of_Z 1500)) (firstn 1 first_faster) = forallb (fun e => lt64 (snd e) (f64_of_Z 1500)) (firstn 1 second_faster)) by (rewrite E; reflexivity).
  vm_compute in H. discriminate H.
Qed.

(** A metric of -800. *)
Definition far_below : dataset := [([f32_of_Z 5], 0%Z, one64); ([f32_of_Z 5], 1%Z, f64_of_Z (-800))].
Lemma far_below_ok : List.Forall (use_ok 2 1) (@some_uses f64 ++ Learn far_below :: some_uses)%list.
Proof.
  apply Forall_app. split; [apply some_uses_ok|]. constructor; [|apply some_uses_ok].
  assert (F : features_ok 1 [f32_of_Z 5]) by (split; [reflexivity|constructor; [apply five_encodable|constructor]]).
  cbn [use_ok]. repeat (apply Forall_cons; [split; [exact F|split; cbn; lia]|]). apply Forall_nil.
Qed.
Lemma far_below_infinite : exists e, In e far_below /\ m_exp coarse_libm (Bopp (snd e)) = B754_infinity false.
Proof.
  exists ([f32_of_Z 5], 1%Z, f64_of_Z (-800)). split; [cbn; auto|]. cbn [snd m_exp coarse_libm].
  replace (is_nan (Bopp (f64_of_Z (-800)))) with false by reflexivity.
  replace (le64 (f64_of_Z 746) (Bopp (Bopp (f64_of_Z (-800))))) with false by (vm_compute; reflexivity).
  replace (le64 (f64_of_Z 710) (Bopp (f64_of_Z (-800)))) with true by (vm_compute; reflexivity). reflexivity.
Qed.

Lemma overflow_example : exists l1 P Q l2 Q',
  run_uses (f64_arith coarse_libm) (fun x => x) some_uses (new_pnet (f64_arith coarse_libm) 2 1 one64 half64 half64 half64 zero64 (fun _ _ => one64)) = Ok (l1, P) /\
  pn_train (f64_arith coarse_libm) (fun x => x) P far_below = Ok Q /\ run_uses (f64_arith coarse_libm) (fun x => x) some_uses Q = Ok (l2, Q').
Proof.
  assert (H2 : (0 < 2)%nat) by lia. pose proof far_below_ok as U. apply Forall_app in U as (U1 & U2). inversion U2 as [|? ? UD U3]; subst.
  set (N := new_pnet (f64_arith coarse_libm) 2 1 one64 half64 half64 half64 zero64 (fun _ _ => one64)).
  destruct (uses_sized (f64_arith coarse_libm) (fun x => x) 2 1 some_uses H2 U1 N (new_sized _ _ _ _ _ _ _ _ _)) as (l1 & P & E1); [cbn; unfold int_max; lia|].
  destruct (uses_sized_after coarse_libm 2 1 some_uses H2 U1 N l1 P (new_sized _ _ _ _ _ _ _ _ _) ltac:(cbn; lia) ltac:(cbn; unfold int_max; lia) E1) as (SP & CP).
  cbn in CP. destruct (learn_sized (f64_arith coarse_libm) (fun x => x) 2 1 P far_below H2 SP ltac:(unfold int_max; lia) UD) as (Q & E2 & SQ & CQ).
  destruct (uses_sized (f64_arith coarse_libm) (fun x => x) 2 1 some_uses H2 U3 Q SQ) as (l2 & Q' & E3); [cbn; unfold int_max; lia|].
  exists l1, P, Q, l2, Q'. auto.
Qed.
