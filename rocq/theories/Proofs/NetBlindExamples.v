(** Cases for the statements of [Props/NetBlind.v]. *)
From Coq Require Import List ZArith Bool Lia Reals Lra.
From Flocq Require Import Core BinarySingleNaN.
From Verif Require Import Model.Base Model.Float Model.DatasetM Model.NetM Model.PolicyNetM.
From Verif Require Import Spec.NetSpec Spec.PolicyNetSpec Spec.BlindSpec Proofs.KokkosDoubles Proofs.PolicyNetProps Proofs.PolicyNetSafety Proofs.SoftmaxExamples.
Import ListNotations.

Lemma five_value : B2R (f32_of_Z 5) = 5%R.
Proof.
  rewrite <- SF2R_B2SF. replace (B2SF (f32_of_Z 5)) with (SpecFloat.S754_finite false 10485760 (-21)) by (vm_compute; reflexivity). unfold SF2R, F2R. cbn. lra.
Qed.
Lemma some_same {X} (a b : X) : Some a = Some b -> a = b.
Proof. congruence. Qed.
Lemma second_bit_unset : List.Forall (never_set 0 1) (@some_uses R).
Proof.
  unfold some_uses. apply Forall_cons; [exact Logic.I|]. apply Forall_cons; [|apply Forall_cons; [exact Logic.I|apply Forall_nil]]. cbn [never_set]. apply Forall_cons; [|apply Forall_nil].
  intros x E. cbn [fst nth_error] in E. apply some_same in E. subst x. rewrite five_value, Ztrunc_IZR. reflexivity.
Qed.

(** Requests without features below one, and with. *)
Definition small_asks : list (use f64) := [Ask (fun _ => Ok 0%Z) [f32_of_Z 5]; Ask (fun _ => Ok 1%Z) [f32_of_Z 0]].
Lemma zero_below : below_one [f32_of_Z 0].
Proof. repeat constructor. change (f32_of_Z 0) with (B754_zero false : f32). cbn. rewrite Rabs_R0. lra. Qed.
Lemma small_asks_ok : List.Forall (use_ok 2 1) small_asks /\ only_asks small_asks.
Proof.
  split; [|repeat constructor]. unfold small_asks. apply Forall_cons; [|apply Forall_cons; [|apply Forall_nil]]; cbn [use_ok].
  - split; [split; [reflexivity|constructor; [apply five_encodable|constructor]]|]. intros p _. exists 0%Z. reflexivity.
  - split; [split; [reflexivity|constructor; [|constructor]]|intros p _; exists 1%Z; reflexivity].
    change (f32_of_Z 0) with (B754_zero false : f32). split; [reflexivity|]. cbn [B2R]. split; [lra|]. apply IZR_lt. reflexivity.
Qed.
Lemma small_asks_run : exists l Q,
  run_uses (f64_arith step_libm) (fun x => x) small_asks (new_pnet (f64_arith step_libm) 2 1 one64 half64 half64 half64 zero64 (fun _ _ => one64)) = Ok (l, Q).
Proof. apply within_arrays; [lia|apply small_asks_ok|cbn; unfold int_max; lia]. Qed.
