(** Clients that keep to the rules, for Props/RuntimeSafety.v. *)
From Coq Require Import ZArith Bool Ascii String Reals Lia List.
From Flocq Require Import BinarySingleNaN.
From Verif Require Import Model.Base Model.Float Model.Decimal Model.PolicyModelsM Model.ConfigM Model.RuntimeM
  Spec.ModelStringSpec Spec.DecimalSpec Spec.TreeSpec Spec.ForestSpec Spec.PolicyNetSpec Spec.RuntimeSpec Spec.InsertionSort
  Proofs.EmaBounds Proofs.TreeFacts Proofs.ModelStringFacts Proofs.PolicyNetProps Proofs.InsertionSortFacts Proofs.RuntimeFacts Proofs.RuntimeAccount Proofs.RuntimeExamples Proofs.SafeModels Spec.SafeClient Proofs.SafeRuns.
Import ListNotations.
Open Scope Z_scope.

(** The results a beginning can have. *)
Definition shape (o : op) (x : result) : Prop :=
  match o with
  | OpBegin r false _ | OpBeginFeatures r _ _ => x = GotContext (r, Sync)
  | OpBegin r true _ => exists k, x = GotContext (r, Heap k)
  | _ => True
  end.

Fixpoint script (c : config) (v : view) (os : list op) : Prop :=
  match os with
  | [] => True
  | o :: rest => allowed c v o /\ forall x, shape o x -> script c (view_step c v (o, x)) rest
  end.

Lemma step_shape P w o w' x : step P w o = Ok (w', x) -> shape o x.
Proof.
  destruct o; cbn [shape]; auto.
  - cbn [step]. intros H. apply bind_inv in H. destruct H as ([w1 p] & E & H). inversion H; subst.
    apply begin_context_begun in E. destruct E as (R & _ & -> & _). destruct async; eauto.
  - cbn [step]. intros H. apply bind_inv in H. destruct H as ([w1 p] & E & H). inversion H; subst.
    apply begin_features_begun in E. destruct E as (R & _ & -> & _). reflexivity.
Qed.

Lemma script_allowed P c pre : forall v o post w w' xs, script c v (pre ++ o :: post) -> run P w pre = Ok (w', xs) ->
  allowed c (fold_left (view_step c) (combine pre xs) v) o.
Proof.
  induction pre as [|a pre IH]; intros v o post w w' xs S R; cbn in R.
  - inversion R; subst. cbn in S. cbn. apply S.
  - apply bind_inv in R. destruct R as ([w1 x] & E & R). apply bind_inv in R. destruct R as ([w2 ys] & E2 & R). inversion R; subst. cbn in S. destruct S as [_ S].
    cbn [combine fold_left]. eapply IH; [apply S; eapply step_shape; exact E|exact E2].
Qed.

Lemma script_behaved P c files os : script c fresh_view os -> well_behaved P c files os.
Proof. intros S pre o post w xs -> R. eapply script_allowed; eauto. Qed.

(** Whether a model string mentions the network. *)
Fixpoint starts_b (p s : bytes) : bool :=
  match p, s with [], _ => true | a :: p, b :: s => Ascii.eqb a b && starts_b p s | _, [] => false end.
Fixpoint mentions_b (s : bytes) : bool :=
  starts_b ($"PolicyNet") s || match s with [] => false | _ :: r => mentions_b r end.
Lemma starts_app p b : starts_b p (p ++ b) = true.
Proof. induction p as [|a p IH]; cbn; [reflexivity|]. rewrite Ascii.eqb_refl. exact IH. Qed.
Lemma mentions_true s : mentions_net s -> mentions_b s = true.
Proof.
  intros (a & b & ->). induction a as [|x a IH].
  - cbn [app]. assert (H := starts_app ($"PolicyNet") b). remember ($"PolicyNet" ++ b) as t. destruct t; cbn [mentions_b]; rewrite H; reflexivity.
  - cbn [app mentions_b]. rewrite IH. apply orb_true_r.
Qed.
Lemma quiet_string s : mentions_b s = false -> ~ mentions_net s.
Proof. intros H X. apply mentions_true in X. congruence. Qed.

(** The parameters of a model string. *)
Fixpoint value_in (k : bytes) (items : list item) : option bytes :=
  match items with
  | [] => None
  | (k', v) :: r => if bytes_eqb k' k then Some (match v with Some x => x | None => [] end) else value_in k r
  end.
Lemma value_in_first k items v : first_value k items v <-> value_in k items = v.
Proof.
  split.
  - induction 1 as [|v r|k' v r o N H IH]; cbn; [reflexivity| |].
    + rewrite (proj2 (bytes_eqb_eq k k) eq_refl). reflexivity.
    + destruct (bytes_eqb k' k) eqn:E; [apply bytes_eqb_eq in E; contradiction|exact IH].
  - revert v. induction items as [|[k' o] r IH]; cbn; intros v H; [subst; constructor|].
    destruct (bytes_eqb k' k) eqn:E.
    + apply bytes_eqb_eq in E. subst. constructor.
    + constructor; [intros ->; rewrite (proj2 (bytes_eqb_eq k k) eq_refl) in E; discriminate|]. apply IH. exact H.
Qed.

Lemma free_of_check s ch : existsb (Ascii.eqb ch) s = false -> free_of ch s.
Proof. intros H X. assert (existsb (Ascii.eqb ch) s = true) by (apply existsb_exists; exists ch; split; [exact X|apply Ascii.eqb_refl]). congruence. Qed.

Ltac free := apply free_of_check; vm_compute; reflexivity.
Ltac values := let v := fresh "v" in let X := fresh "X" in intros v X; apply value_in_first in X; vm_compute in X; subst v.

Definition tree_text : bytes := $"DecisionTree,max_depth=3,explore=RoundRobin".
Definition net_text : bytes := $"PolicyNet,lr=0.5".
Lemma tree_string : model_string_ok tree_text.
Proof.
  exists ($"DecisionTree"), [($"max_depth", Some ($"3")); ($"explore", Some ($"RoundRobin"))]. split; [reflexivity|]. constructor.
  - cbn. auto.
  - repeat (apply Forall_cons; [split; [free|split; [free|cbn [snd]; free]]|]). constructor.
  - intros i Ii. cbn in Ii. destruct Ii as [<-|[<-|[]]]; apply doc_tree; cbn; auto.
  - apply value_in_first. reflexivity.
  - apply value_in_first. reflexivity.
  - values. exact I.
  - values. cbn [int_value]. exists 3. split; [reflexivity|lia].
  - values. exact I.
  - intros e H. apply value_in_first in H. vm_compute in H. inversion H; subst. cbn. auto.
  - intros k v Ik H. apply value_in_first in H. cbn in Ik. destruct Ik as [<-|[<-|[<-|[<-|[<-|[]]]]]]; vm_compute in H; subst; exact I.
Qed.

Lemma normal_half (x : f64) : B2R x = (/ 2)%R -> normal_range x.
Proof.
  intros E. destruct x as [s|s| |s m e b]; cbn [normal_range]; auto. rewrite E, Rabs_pos_eq by Lra.lra.
  apply Rle_trans with (Flocq.Core.Raux.bpow Flocq.Core.Zaux.radix2 (-1)); [apply Flocq.Core.Raux.bpow_le; lia|]. cbn. Lra.lra.
Qed.

Lemma net_string : model_string_ok net_text.
Proof.
  exists ($"PolicyNet"), [($"lr", Some ($"0.5"))]. split; [reflexivity|]. constructor.
  - cbn. auto 10.
  - apply Forall_cons; [split; [free|split; [free|cbn [snd]; free]]|]. constructor.
  - intros i Ii. cbn in Ii. destruct Ii as [<-|[]]; apply doc_net; cbn; auto.
  - apply value_in_first. reflexivity.
  - apply value_in_first. reflexivity.
  - values. exact I.
  - values. exact I.
  - values. exact I.
  - intros e H. apply value_in_first in H. vm_compute in H. discriminate H.
  - intros k v Ik H. apply value_in_first in H. cbn in Ik. destruct Ik as [<-|[<-|[<-|[<-|[<-|[]]]]]]; vm_compute in H; subst; try exact I.
    cbn [double_value]. exists half64. split; [reflexivity|].
    apply normal_half. apply half_value.
Qed.

Definition some_draws : draws := {| d_uniform := fun lo _ => lo; d_discrete := fun l => match l with [] => UB | _ => Ok 0 end |}.
Lemma some_draws_ok v r : sampling_ok v r some_draws.
Proof.
  split; [split|].
  - intros lo hi H. cbn. lia.
  - intros [|x l] i H; cbn in H; [discriminate H|]. inversion H; subst. cbn [List.length]. lia.
  - intros nf s _ _ [|x l] N; [contradiction|]. exists 0. reflexivity.
Qed.

Lemma five_number : is_nan (f32_of_Z 5) = false.
Proof. reflexivity. Qed.

(** A tree trained every second execution and a network; synchronous and asynchronous executions. *)
Definition busy_settings : config := settings "Static,policy=0" 0 2 0.
Definition five : f32 := f32_of_Z 5.
Definition busy : list op :=
  [OpRegion 1 ($"r") 2 0 tree_text [] no_init; OpRegion 1 ($"q") 3 0 net_text [] no_init;
   OpBegin 0 false (10, 0); OpSetFeature 0 None five; OpGetPolicy 0 None some_draws; OpEnd 0 None (20, 0) None;
   OpBegin 0 true (30, 0); OpSetFeature 0 None five; OpGetPolicy 0 None some_draws; OpEnd 0 None (40, 0) (Some five); OpTrain 0 0 true false;
   OpBegin 1 false (50, 0); OpSetFeature 1 None five; OpGetPolicy 1 None some_draws; OpEnd 1 None (60, 0) None; OpTrainAll 0 true].

Lemma busy_plain : plain busy_settings.
Proof. constructor; cbn; (reflexivity || discriminate). Qed.

Ltac opened := eexists; split; [reflexivity|]; split; [reflexivity|]; cbn; rewrite ?Nat.eqb_refl; reflexivity.
Ltac reduce := cbn -[five some_draws tree_text net_text usable sampling_ok open_on busy_settings model_string_ok]; rewrite ?Nat.eqb_refl; cbn -[five some_draws tree_text net_text usable sampling_ok open_on busy_settings model_string_ok].
Ltac next := let x := fresh "x" in let H := fresh "H" in intros x H; cbn in H; try destruct H as (? & H); try subst x; clear H || idtac; reduce.
Lemma use_tree v s : nth_error (v_regions v) 0 = Some (1, s) -> mentions_b s = false -> usable busy_settings v 0 [five].
Proof.
  intros E Q. exists 1, s. split; [exact E|]. split; [reflexivity|]. split; [constructor; [exact five_number|constructor]|]. split; [intros [X|X]; cbn in X; congruence|].
  intros X. exfalso. exact (quiet_string _ Q X).
Qed.
Lemma use_net v s : nth_error (v_regions v) 1 = Some (1, s) -> usable busy_settings v 1 [five].
Proof.
  intros E. exists 1, s. split; [exact E|]. split; [reflexivity|]. split; [constructor; [exact five_number|constructor]|]. split; [intros [X|X]; cbn in X; congruence|].
  intros _. constructor; [exact five_encodable|constructor].
Qed.

Lemma busy_script : script busy_settings fresh_view busy.
Proof.
  unfold busy. cbn [script].
  split; [split; [lia|split; [lia|split; [reflexivity|exact tree_string]]]|]. next.
  split; [split; [lia|split; [lia|split; [reflexivity|exact net_string]]]|]. next.
  split; [lia|]. next.
  split; [exists []; opened|]. next.
  split; [exists [five]; split; [opened|split; [eapply use_tree; reflexivity|apply some_draws_ok]]|]. next.
  split; [exists [five]; split; [opened|eapply use_tree; reflexivity]|]. next.
  split; [lia|]. next.
  split; [exists []; opened|]. next.
  split; [exists [five]; split; [opened|split; [eapply use_tree; reflexivity|apply some_draws_ok]]|]. next.
  split; [exists [five]; split; [opened|eapply use_tree; reflexivity]|]. next.
  split; [lia|]. next.
  split; [lia|]. next.
  split; [exists []; opened|]. next.
  split; [exists [five]; split; [opened|split; [eapply use_net; reflexivity|apply some_draws_ok]]|]. next.
  split; [exists [five]; split; [opened|eapply use_net; reflexivity]|]. next.
  split; [exact I|]. next. exact I.
Qed.

Lemma busy_behaved P files : well_behaved P busy_settings files busy.
Proof. apply script_behaved. exact busy_script. Qed.

Lemma example_picker_ok : picker_ok (p_pick example_platform).
Proof. intros n k H. exact H. Qed.
