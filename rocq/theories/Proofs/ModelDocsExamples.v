(** The examples of HOWTO.md, and two more. *)
From Coq Require Import ZArith Bool Ascii String Lia Reals Lra List.
From Flocq Require Import Core BinarySingleNaN.
From Verif Require Import Model.Base Model.Float Model.PolicyModelsM Model.ConfigM Model.RuntimeM Spec.ModelStringSpec Spec.StartupSpec Spec.ModelDocs Spec.SafeClient
  Proofs.StartupFacts Proofs.ModelDocsFacts.
Import ListNotations.
Open Scope Z_scope.

Definition tree_items : list item := [($"explore", Some ($"RoundRobin")); ($"max_depth", Some ($"4"))].
Definition forest_items : list item := [($"explore", Some ($"Random")); ($"num_trees", Some ($"20")); ($"max_depth", Some ($"-1"))].
Definition net_items : list item := [($"lr", Some ($"0.05")); ($"beta2", Some ($"0.999"))].
Definition wrong_items : list item := [($"explore", Some ($"Random")); ($"max_depth", Some ($"deep"))].

Ltac absent := repeat (apply fv_later; [discriminate|]); apply fv_nil.
Ltac found := unfold tree_items, forest_items, net_items, wrong_items; repeat (apply fv_later; [discriminate|]); match goal with |- first_value _ ((_, ?v) :: ?r) _ => exact (fv_here _ v r) end.
Ltac plain_items := unfold item_ok, free_of; repeat constructor; cbn; intuition discriminate.
Ltac a_numeral := split; [discriminate|repeat constructor; cbn; lia].

Lemma absent_real key items : first_value key items None -> real_given key items.
Proof. intros H. exists zero64. left. split; [exact H|apply nearest_zero]. Qed.
Lemma given_real key items s x : first_value key items (Some s) -> decimal_text s x -> in_range x -> real_given key items.
Proof. intros H D R. destruct (stod_decimal s x D R) as (y & _ & N). exists y. right. eauto 8. Qed.

Lemma tree_usable : usable_string ($"DecisionTree") tree_items.
Proof.
  constructor.
  - cbn; tauto.
  - plain_items.
  - intros i [<-|[<-|[]]]; apply doc_tree; cbn; tauto.
  - absent.
  - absent.
  - exists 0. left. split; [absent|reflexivity].
  - exists 4. right. left. exists ($"4"). split; [found|]. split; [a_numeral|]. split; [reflexivity|reflexivity].
  - exists 0. left. split; [absent|reflexivity].
  - right. left. found.
  - intros k [<-|[<-|[<-|[<-|[<-|[]]]]]]; apply absent_real; absent.
Qed.

Lemma forest_usable : usable_string ($"RandomForest") forest_items.
Proof.
  constructor.
  - cbn; tauto.
  - plain_items.
  - intros i [<-|[<-|[<-|[]]]]; apply doc_forest; cbn; tauto.
  - absent.
  - absent.
  - exists 0. left. split; [absent|reflexivity].
  - exists 4294967295. right. right. exists ($"1"). split; [found|]. split; [a_numeral|]. split; [reflexivity|reflexivity].
  - exists 20. right. left. exists ($"20"). split; [found|]. split; [a_numeral|]. split; [reflexivity|reflexivity].
  - right. right. found.
  - intros k [<-|[<-|[<-|[<-|[<-|[]]]]]]; apply absent_real; absent.
Qed.

Lemma small_range x : (1 / 1000 <= x <= 1)%R -> in_range x.
Proof.
  intros H. right. split.
  - apply Rle_trans with (bpow radix2 (-10)); [apply bpow_le; lia|]. cbn. lra.
  - apply Rle_trans with (bpow radix2 0); [cbn; lra|apply bpow_le; lia].
Qed.

Lemma net_usable : usable_string ($"PolicyNet") net_items.
Proof.
  constructor.
  - cbn; tauto.
  - plain_items.
  - intros i [<-|[<-|[]]]; apply doc_net; cbn; tauto.
  - absent.
  - absent.
  - exists 0. left. split; [absent|reflexivity].
  - exists 0. left. split; [absent|reflexivity].
  - exists 0. left. split; [absent|reflexivity].
  - left. absent.
  - intros k [<-|[<-|[<-|[<-|[<-|[]]]]]]; try (apply absent_real; absent).
    + eapply given_real; [found|apply (dec_point ($"0") ($"05")); a_numeral|].
      apply small_range. change (numeral_value ($"0" ++ $"05")) with 5. change (10 ^ Z.of_nat (List.length ($"05"))) with 100. lra.
    + eapply given_real; [found|apply (dec_point ($"0") ($"999")); a_numeral|].
      apply small_range. change (numeral_value ($"0" ++ $"999")) with 999. change (10 ^ Z.of_nat (List.length ($"999"))) with 1000. lra.
Qed.

Lemma static_usable : usable_string ($"Static") [($"policy", Some ($"0"))].
Proof.
  constructor.
  - cbn; tauto.
  - plain_items.
  - intros i [<-|[]]; apply doc_static.
  - absent.
  - absent.
  - exists 0. right. exists ($"0"). split; [found|]. split; [a_numeral|]. split; reflexivity.
  - exists 0. left. split; [absent|reflexivity].
  - exists 0. left. split; [absent|reflexivity].
  - left. absent.
  - intros k [<-|[<-|[<-|[<-|[<-|[]]]]]]; apply absent_real; absent.
Qed.

Lemma wrong_string : Forall item_ok wrong_items /\ (forall i, In i wrong_items -> documented ($"DecisionTree") (fst i)) /\
  first_value ($"max_depth") wrong_items (Some ($"deep")) /\ no_number ($"deep").
Proof.
  split; [plain_items|]. split; [intros i [<-|[<-|[]]]; apply doc_tree; cbn; tauto|]. split; [found|].
  split; [cbn; lia|cbn; intuition discriminate].
Qed.

(** Nothing set. *)
Lemma default_region P mpi env mkdir tr c files nf nm np mt init : apollo_instance mpi env mkdir tr = Ok c -> env ($"APOLLO_POLICY_MODEL") = None ->
  env ($"APOLLO_PERSISTENT_DATASETS") = None -> 0 <= nf -> 1 <= np ->
  exists w R, step P (start_world c files) (OpRegion nf nm np mt [] [] init) = Ok (w, GotRegion 0%nat) /\
    nth_error (w_regions w) 0 = Some R /\ r_model R = MStatic np 0.
Proof.
  intros S E1 E2 Hf Hp. apply startup_iff in S. destruct S as (S & _). red in S. decompose [and] S.
  assert (M : cf_policy_model c = $"Static,policy=0").
  { assert (H' : text_setting env ($"APOLLO_POLICY_MODEL") ($"Static,policy=0") (cf_policy_model c)) by assumption. unfold text_setting in H'. rewrite E1 in H'. exact H'. }
  assert (Q : cf_persistent c = 0).
  { assert (H' : StartupSpec.int_setting env ($"APOLLO_PERSISTENT_DATASETS") 0 (cf_persistent c)) by assumption. unfold StartupSpec.int_setting in H'. rewrite E2 in H'. exact H'. }
  destruct (promised_region P (start_world c files) nf nm np mt [] init ($"Static") [($"policy", Some ($"0"))] static_usable) as (w & R & T & N & PR & _); auto.
  exists w, R. split; [exact T|]. split; [exact N|].
  clear - PR Hp. remember (r_model R) as m. remember ($"Static") as n. destruct PR as [p IS| | | | |]; try (discriminate Heqn).
  destruct IS as [[F _]|(s & F & _ & _ & ->)].
  - exfalso. assert (G : forall o, first_value ($"policy") [($"policy", Some ($"0"))] o -> o = None -> False); [|exact (G _ F eq_refl)].
    intros o X. inversion X; subst; [discriminate|]. intros _. match goal with H : _ <> _ |- _ => apply H end. reflexivity.
  - assert (G : forall o, first_value ($"policy") [($"policy", Some ($"0"))] o -> o = Some ($"0")).
    { intros o X. inversion X; subst; [reflexivity|]. exfalso. match goal with H : _ <> _ |- _ => apply H end. reflexivity. }
    apply G in F. injection F as ->. change (numeral_value ["0"%char]) with 0. destruct (0 <? np); reflexivity.
Qed.
