(** A job of two ranks that runs the bundled program. *)
From Coq Require Import ZArith Bool Ascii String Lia List.
From Verif Require Import Model.Base Model.Float Model.DatasetM Model.ModelStringM Model.PolicyModelsM Model.ConfigM Model.RuntimeM Model.TestM Model.MpiM Model.JobM
  Spec.TreeSpec Spec.RuntimeSpec Spec.MpiSpec Spec.JobSpec Proofs.RuntimeExamples Proofs.InsertionSortFacts Proofs.SafeExamples Proofs.MpiJobs Proofs.MpiExamples Proofs.TestVerdict.
Import ListNotations.
Open Scope Z_scope.

Definition tick (n : nat) : Z * Z := (Z.of_nat n, 0).
Definition tock (n : nat) : Z * Z := (Z.of_nat n + 1, 0).
Definition explore2 : list op := test_explore tick tock (fun _ => some_draws) no_init.
Definition exploit2 : list op := test_exploit tick tock (fun _ => some_draws).
(** Both ranks explore and then train together. *)
Definition mpi_test_events : list job_op := map (Local 0) (removelast explore2) ++ map (Local 1) (removelast explore2) ++ [Collective 0 true].

Definition runs_b (w : world) (os : list op) : bool := match run example_platform w os with Ok _ => true | _ => false end.

Lemma mpi_test_job : exists ws, job_run native_mpi example_platform (ranks 2) mpi_test_events = Ok ws /\
  forall i, (i < 2)%nat -> calls_of i mpi_test_events = explore2 /\ exists w, nth_error ws i = Some w /\ exists w' ys, run example_platform w exploit2 = Ok (w', ys).
Proof.
  destruct (job_holds native_mpi example_platform (ranks 2) mpi_test_events
    (fun ws => match ws with [w0; w1] => runs_b w0 exploit2 && runs_b w1 exploit2 | _ => false end)) as (ws & E & H); [vm_compute; reflexivity|].
  exists ws. split; [exact E|]. clear E. destruct ws as [|w0 [|w1 [|w2 ws]]]; try discriminate H. apply andb_prop in H as [H0 H1].
  intros [|[|i]] L; [| |lia]; (split; [reflexivity|]).
  - exists w0. split; [reflexivity|]. unfold runs_b in H0. destruct (run example_platform w0 exploit2) as [[w' ys]| | | |]; try discriminate H0. eauto.
  - exists w1. split; [reflexivity|]. unfold runs_b in H1. destruct (run example_platform w1 exploit2) as [[w' ys]| | | |]; try discriminate H1. eauto.
Qed.

Lemma mpi_one_answer_example : exists ws w R n t e, job_run native_mpi example_platform (start_job (repeat (together, []) 2)) mpi_test_events = Ok ws /\ nth_error ws 0 = Some w /\
  (forall os1 o os2 ws1 w1, mpi_test_events = os1 ++ Local 0 o :: os2 -> job_run native_mpi example_platform (start_job (repeat (together, []) 2)) os1 = Ok ws1 -> nth_error ws1 0 = Some w1 -> no_load w1 o) /\
  nth_error (w_regions w) 0 = Some R /\ r_model R = MTree n false t e /\ Forall unforced exploit2.
Proof.
  destruct (job_holds native_mpi example_platform (ranks 2) mpi_test_events
    (fun ws => match ws with w0 :: _ => match w_regions w0 with R :: _ => match r_model R with MTree _ b _ _ => negb b | _ => false end | _ => false end | _ => false end)) as (ws & E & H); [vm_compute; reflexivity|].
  destruct ws as [|w ws]; [discriminate H|]. destruct (nth_error (w_regions w) 0) as [R|] eqn:ER; [|destruct (w_regions w); [discriminate H|discriminate ER]].
  destruct (w_regions w) as [|R0 l] eqn:EL; [discriminate H|]. cbn in ER. injection ER as ->. destruct (r_model R) as [| | | | |n b t e| |] eqn:EM; try discriminate H. destruct b; [discriminate H|].
  exists (w :: ws), w, R, n, t, e. split; [exact E|]. clear E H. split; [reflexivity|]. split; [|split; [rewrite EL; reflexivity|]; split; [exact EM|]].
  - intros os1 o os2 ws1 w1 EQ R1 E1. destruct os1 as [|o1 os1].
    + assert (EO := f_equal (@hd_error job_op) EQ). cbn in EO. injection EO as <-. cbn in R1. injection R1 as <-. cbn in E1. injection E1 as <-. split; [reflexivity|]. split; [left; reflexivity|].
      intros name ps EP. change (parse_policy_model test_text = Ok (name, ps)) in EP. rewrite parsed_test in EP. inversion EP; subst. split; [discriminate|]. split; [discriminate|]. split; reflexivity.
    + assert (F : forallb (fun x => match x with Local 0 (OpRegion _ _ _ _ _ _ _) => false | _ => true end) (tl mpi_test_events) = true) by (vm_compute; reflexivity).
      rewrite EQ in F. cbn [tl app] in F. rewrite forallb_app in F. apply andb_prop in F as [_ F]. cbn [forallb] in F. apply andb_prop in F as [F _]. destruct o; try exact I. discriminate F.
  - unfold exploit2, test_exploit. generalize (List.length test_features) as j. generalize test_features as l'. clear. induction l' as [|x l' IH]; intros j; [constructor|].
    cbn [test_iteration test_execution app]. repeat (constructor; [exact I|]). apply IH.
Qed.
