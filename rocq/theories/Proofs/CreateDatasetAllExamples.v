From Coq Require Import List ZArith Bool Ascii String.
From Flocq Require Import BinarySingleNaN.
From Verif Require Import Model.Base Model.Float Model.Decimal Model.DatasetM Model.RuntimeM Model.CreateDatasetM Spec.DatasetSpec Spec.RuntimeSpec Spec.CreateDatasetSpec
  Proofs.CreateDatasetExamples.
From Coq Require Import List.
Import ListNotations.

(** What the trace of all regions holds for the first execution of the region [narrow]. *)
Definition one_execution : list global_entry := [mkGlobal 1700000000000000 ($"narrow") 0 ($"RoundRobin") 0]%Z.
Lemma execution_readable : readable_file (OfAll one_execution).
Proof. apply Forall_cons; [split; a_field|apply Forall_nil]. Qed.
Lemma narrow_file : readable_file (OfRegion narrow).
Proof. apply regular_readable, narrow_regular. Qed.
Lemma wide_file : readable_file (OfRegion wide).
Proof. apply regular_readable, wide_regular. Qed.
Lemma both_orderly : orderly [narrow; wide].
Proof.
  split; [apply Forall_cons; [exact narrow_regular|apply Forall_cons; [exact wide_regular|apply Forall_nil]]|].
  intros a b [<-|[<-|[]]] [<-|[<-|[]]] E; first [reflexivity|discriminate E].
Qed.
Lemma both_orderly' : orderly [wide; narrow].
Proof.
  split; [apply Forall_cons; [exact wide_regular|apply Forall_cons; [exact narrow_regular|apply Forall_nil]]|].
  intros a b [<-|[<-|[]]] [<-|[<-|[]]] E; first [reflexivity|discriminate E].
Qed.
Lemma first_readable : Forall (Forall readable_file) [[OfAll one_execution; OfRegion narrow]].
Proof. repeat (exact execution_readable || exact narrow_file || apply Forall_cons || apply Forall_nil). Qed.
Lemma between_readable : Forall (Forall readable_file) [[OfRegion wide; OfAll one_execution]; [OfRegion narrow]].
Proof. repeat (exact execution_readable || exact narrow_file || exact wide_file || apply Forall_cons || apply Forall_nil). Qed.
Lemma no_empty {A} (a b c d : A) : Forall (fun l => l <> []) [[a; b]; [c]] /\ Forall (fun l => l <> []) [[a; b]].
Proof. split; repeat (apply Forall_cons; [discriminate|]); apply Forall_nil. Qed.
Lemma executed_wide r : executed [wide] r <-> r = $"wide".
Proof. split; [intros (t & [<-|[]] & <- & _); reflexivity|intros ->; exists wide; repeat split; [left; reflexivity|discriminate]]. Qed.
