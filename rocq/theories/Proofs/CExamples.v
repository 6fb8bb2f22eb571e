(** A client of the C interface. *)
From Coq Require Import ZArith Bool Ascii String Lia List.
From Verif Require Import Model.Base Model.Float Model.DatasetM Model.PolicyModelsM Model.ConfigM Model.RuntimeM Model.CInterfaceM
  Spec.RuntimeSpec Proofs.RuntimeExamples Proofs.RuntimePolicyExamples Proofs.CFacts Proofs.SafeExamples Spec.SafeClient Spec.CClient.
Import ListNotations.
Open Scope Z_scope.

Fixpoint c_script (c : config) (pre calls : list ccall) : Prop :=
  match calls with [] => True | o :: rest => allowed c (c_view c pre) (c_call o) /\ c_script c (pre ++ [o]) rest end.
Lemma c_script_behaved c calls : c_script c [] calls -> c_well_behaved c calls.
Proof.
  intros S pre o post ->. assert (G : forall a b, c_script c a (b ++ o :: post) -> allowed c (c_view c (a ++ b)) (c_call o)); [|exact (G [] pre S)].
  intros a b. revert a. induction b as [|x b IH]; intros a H; cbn in H; [rewrite app_nil_r; apply H|]. destruct H as [_ H]. specialize (IH _ H). rewrite <- app_assoc in IH. exact IH.
Qed.

(** Two regions, one trained between its begin and its end. *)
Definition c_program : list ccall :=
  [CCreate 1 ($"r") 2 0 tree_text no_init; CCreate 1 ($"q") 3 0 net_text no_init;
   CBegin 0 (10, 0); CSetFeature 0 five; CGetPolicy 0 some_draws; CEnd 0 (20, 0);
   CBegin 0 (30, 0); CBegin 1 (35, 0); CTrain 0 0; CSetFeature 0 five; CSetFeature 1 five; CGetPolicy 0 some_draws; CEnd 0 (40, 0);
   CGetPolicy 1 some_draws; CEnd 1 (60, 0); CTrain 1 1].

Ltac c_open := eexists; split; [reflexivity|]; split; reflexivity.
Lemma c_program_behaved : c_well_behaved busy_settings c_program.
Proof.
  apply c_script_behaved. unfold c_program. cbn [c_script c_call allowed app].
  repeat match goal with |- _ /\ _ => split end; try exact I; try lia; try reflexivity; try exact tree_string; try exact net_string; try (cbn; lia).
  all: try (exists [five]; split; [c_open|]; try split; try apply some_draws_ok; (eapply use_tree; reflexivity) || (eapply use_net; reflexivity)).
  all: exists []; c_open.
Qed.

(** One execution of the first region, then training; the region is still open, and the second one has no execution. *)
Definition c_trained : list ccall :=
  [CCreate 1 ($"r") 2 0 tree_text no_init; CCreate 1 ($"q") 2 0 tree_text no_init;
   CBegin 0 (10, 0); CSetFeature 0 five; CGetPolicy 0 some_draws; CEnd 0 (20, 0); CBegin 0 (30, 0)].
Definition c_trained_b (w : world) : bool :=
  match nth_error (w_regions w) 0, nth_error (w_regions w) 1 with
  | Some R, Some Q => m_trainable (r_model R) && (ds_size (r_dataset R) =? 1) && (ds_size (r_dataset Q) =? 0)
  | _, _ => false
  end.
Lemma c_trained_runs : exists w xs w' x, run example_platform (start_world busy_settings []) (map c_call c_trained) = Ok (w, xs) /\
  step example_platform w (c_call (CTrain 0 1)) = Ok (w', x) /\ c_trained_b w = true /\ opened c_trained 1 = None.
Proof.
  destruct (run_holds example_platform (start_world busy_settings []) (map c_call c_trained)
    (fun s => c_trained_b (fst s) && match step example_platform (fst s) (c_call (CTrain 0 1)) with Ok _ => true | _ => false end)) as (w & xs & E & H); [vm_compute; reflexivity|].
  cbn [fst] in H. apply andb_prop in H. destruct H as [H K]. destruct (step example_platform w (c_call (CTrain 0 1))) as [[w' x]| | | |] eqn:ST; try discriminate K.
  exists w, xs, w', x. split; [exact E|]. split; [exact ST|]. split; [exact H|reflexivity].
Qed.
