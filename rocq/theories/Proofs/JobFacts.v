(** Jobs whose ranks run at their own pace: every schedule comes to the same end. *)
From Coq Require Import ZArith Bool Lia List.
From Verif Require Import Model.Base Model.ConfigM Model.PolicyModelsM Model.RuntimeM Model.MpiM Model.JobM Spec.JobSpec Proofs.RuntimeFacts.
Import ListNotations.
Open Scope Z_scope.

Lemma nth_set_nth {A} (l : list A) : forall i j x, nth_error (set_nth l i x) j = if Nat.eqb i j then match nth_error l i with Some _ => Some x | None => None end else nth_error l j.
Proof.
  induction l as [|y l IH]; intros [|i] [|j] x; try reflexivity. - cbn. destruct (Nat.eqb i j); reflexivity. - cbn. apply IH.
Qed.
Lemma set_nth_swap {A} (l : list A) : forall i j x y, i <> j -> set_nth (set_nth l i x) j y = set_nth (set_nth l j y) i x.
Proof.
  induction l as [|z l IH]; intros [|i] [|j] x y N; try reflexivity. - congruence. - cbn. rewrite IH by congruence. reflexivity.
Qed.
Lemma nth_ne {A} (l : list A) i j x : i <> j -> nth_error (set_nth l i x) j = nth_error l j.
Proof. intros N. rewrite nth_set_nth. rewrite (proj2 (Nat.eqb_neq i j) N). reflexivity. Qed.
Lemma nth_eq {A} (l : list A) i x y : nth_error l i = Some y -> nth_error (set_nth l i x) i = Some x.
Proof. intros E. rewrite nth_set_nth, Nat.eqb_refl, E. reflexivity. Qed.

Lemma Forall2_weaken {A B} (Q R : A -> B -> Prop) : (forall a b, Q a b -> R a b) -> forall l l', Forall2 Q l l' -> Forall2 R l l'.
Proof. intros H l l' F. induction F; constructor; auto. Qed.

Section Job.
Variable P : platform.
Variable M : mpi.
Notation moves := (job_moves P M).
Notation runs := (job_runs P M).

Lemma waiting_no_ready J l i w os : all_waiting J = Some l -> nth_error J i = Some (Ready w os) -> False.
Proof.
  revert l i. induction J as [|x J IH]; intros l i H E; [destruct i; discriminate E|].
  destruct x as [v os'|v st k os'|f]; cbn in H; try discriminate H. destruct (all_waiting J) as [l'|] eqn:A; [|discriminate H].
  destruct i as [|i]; cbn in E; [discriminate E|]. eapply IH; [reflexivity|exact E].
Qed.

(** Two steps from the same state are the same or can be completed to the same state. *)
Lemma diamond J A B : moves J A -> moves J B -> A = B \/ exists C, moves A C /\ moves B C.
Proof.
  intros HA HB. destruct HA as [J i w o os E|J l N W]; inversion HB as [J' j w' o' os' E'|J' l' N' W']; subst.
  - destruct (Nat.eq_dec i j) as [->|NE].
    + left. rewrite E in E'. injection E' as <- <- <-. reflexivity.
    + right. exists (set_nth (set_nth J i (after_call (c_step P w o) os)) j (after_call (c_step P w' o') os')). split.
      * apply rank_moves. rewrite nth_ne by exact NE. exact E'.
      * rewrite set_nth_swap by exact NE. apply rank_moves. rewrite nth_ne by congruence. exact E.
  - exfalso. eapply waiting_no_ready; eassumption.
  - exfalso. eapply waiting_no_ready; eassumption.
  - left. rewrite W in W'. injection W' as <-. reflexivity.
Qed.

Lemma strip J A : moves J A -> forall B, runs J B -> job_halted P M B -> runs A B.
Proof.
  intros HA B HB. revert A HA. induction HB as [J|J J' J'' HM HR IH]; intros A HA H.
  - destruct (H _ HA).
  - destruct (diamond J A J' HA HM) as [->|(C & AC & JC)]; [exact HR|]. apply runs_more with C; [exact AC|]. apply IH; [exact JC|exact H].
Qed.

Theorem one_end J A B : runs J A -> job_halted P M A -> runs J B -> job_halted P M B -> A = B.
Proof.
  intros HA. revert B. induction HA as [J|J J' J'' HM HR IH]; intros B H HB H'.
  - inversion HB as [|? ? ? X]; subst; [reflexivity|]. destruct (H _ X).
  - apply IH; [exact H| |exact H']. eapply strip; eassumption.
Qed.

(** A rank that takes part in a step comes nearer to its end. *)
Inductive nearer : rank -> rank -> Prop :=
| nearer_call w o os : nearer (after_call (c_step P w o) os) (Ready w (o :: os))
| nearer_resumed w st k os w' : nearer (after_call (k w') os) (Waiting w st k os)
| nearer_failed w st k os x : nearer (Failed x) (Waiting w st k os).

Lemma failed_acc x : Acc nearer (Failed x).
Proof. constructor. intros y H. inversion H. Qed.

Lemma call_acc os (H : forall w, Acc nearer (Ready w os)) : forall x, Acc nearer (after_call x os).
Proof.
  induction x as [x|w st k IH]; [destruct x as [[w r]| | | |]; cbn [after_call]; [apply H|apply failed_acc..]|].
  cbn [after_call]. constructor. intros y N. inversion N; subst; [apply IH|apply failed_acc].
Qed.
Lemma ready_acc os : forall w, Acc nearer (Ready w os).
Proof.
  induction os as [|o os IH]; intros w; constructor; intros y N; inversion N; subst. apply call_acc. exact IH.
Qed.
Lemma rank_acc x : Acc nearer x.
Proof.
  destruct x as [w os|w st k os|x]; [apply ready_acc| |apply failed_acc].
  change (Waiting w st k os) with (after_call (Wait w st k) os). apply call_acc. intros. apply ready_acc.
Qed.

Inductive nearers : list rank -> list rank -> Prop :=
| nearers_head x y J J' : nearer x y -> Forall2 (fun a b => a = b \/ nearer a b) J' J -> nearers (x :: J') (y :: J)
| nearers_tail x J J' : nearers J' J -> nearers (x :: J') (x :: J).

Lemma split_nearers J' J : Forall2 (fun a b => a = b \/ nearer a b) J' J -> J' = J \/ nearers J' J.
Proof.
  induction 1 as [|x y J' J H F IH]; [left; reflexivity|]. destruct H as [->|H].
  - destruct IH as [->|IH]; [left; reflexivity|]. right. apply nearers_tail. exact IH.
  - right. apply nearers_head; assumption.
Qed.

Lemma job_acc J : Acc nearers J.
Proof.
  induction J as [|x J IH]; [constructor; intros y N; inversion N|].
  revert J IH. induction (rank_acc x) as [x _ IHx]. intros J HJ. induction HJ as [J HJ IHJ].
  constructor. intros y N. inversion N as [x' ? ? J' NX F|? ? J' NJ]; subst.
  - apply IHx; [exact NX|]. destruct (split_nearers _ _ F) as [->|NJ]; [constructor; exact HJ|apply HJ; exact NJ].
  - apply IHJ. exact NJ.
Qed.

Lemma set_nearer J : forall i x y, nth_error J i = Some y -> nearer x y -> nearers (set_nth J i x) J.
Proof.
  induction J as [|z J IH]; intros [|i] x y E N; try discriminate E; cbn in E |- *.
  - injection E as ->. apply nearers_head; [exact N|]. clear. induction J; constructor; auto.
  - apply nearers_tail. eapply IH; eassumption.
Qed.

Lemma on_each_length {A B} (f : A -> outcome B) l : forall l', on_each f l = Ok l' -> List.length l' = List.length l.
Proof.
  induction l as [|x l IH]; intros l' H; cbn [on_each] in H; [injection H as <-; reflexivity|].
  destruct (f x) as [y| | | |]; try discriminate H. cbn [bind] in H. destruct (on_each f l) as [ys| | | |]; try discriminate H. injection H as <-. cbn [length]. rewrite (IH ys) by reflexivity. reflexivity.
Qed.
Lemma waiting_length J : forall l, all_waiting J = Some l -> List.length l = List.length J.
Proof.
  induction J as [|x J IH]; intros l H; [injection H as <-; reflexivity|]. destruct x; cbn in H; try discriminate H.
  destruct (all_waiting J) as [l'|]; [|discriminate H]. injection H as <-. cbn [length]. rewrite (IH l') by reflexivity. reflexivity.
Qed.

Lemma resume_nearer J : forall l ws, all_waiting J = Some l -> List.length ws = List.length l -> Forall2 nearer (resume J ws) J.
Proof.
  induction J as [|x J IH]; intros l ws H L; [constructor|]. destruct x as [|v st k os|]; cbn in H; try discriminate H.
  destruct (all_waiting J) as [l'|]; [|discriminate H]. injection H as <-. destruct ws as [|w ws]; [discriminate L|]. cbn [resume].
  constructor; [constructor|]. eapply IH; [reflexivity|]. cbn in L. congruence.
Qed.
Lemma failed_nearer J f : forall l, all_waiting J = Some l -> Forall2 nearer (map (fun _ => Failed f) J) J.
Proof.
  induction J as [|x J IH]; intros l H; [constructor|]. destruct x as [|v st k os|]; cbn in H; try discriminate H.
  destruct (all_waiting J) as [l'|]; [|discriminate H]. cbn [map]. constructor; [constructor|]. eapply IH. reflexivity.
Qed.

Lemma exchange_nearer J l : all_waiting J = Some l -> Forall2 nearer (exchange_all M J l) J.
Proof.
  intros W. unfold exchange_all. destruct (exchange M l) as [ws| | | |] eqn:E; try (eapply failed_nearer; exact W).
  eapply resume_nearer; [exact W|]. unfold exchange in E. destruct (on_each _ _) as [bufs| | | |]; try discriminate E. cbn [bind] in E.
  destruct (received bufs) as [m| | | |]; try discriminate E. cbn [bind] in E. apply on_each_length in E. exact E.
Qed.

Lemma all_nearer J' J : J <> [] -> Forall2 nearer J' J -> nearers J' J.
Proof. intros N F. destruct F as [|x y J' J H F]; [congruence|]. apply nearers_head; [exact H|]. eapply Forall2_weaken; [|exact F]. auto. Qed.

Lemma moves_nearer J J' : moves J J' -> nearers J' J.
Proof.
  intros H. destruct H as [J i w o os E|J l N W].
  - eapply set_nearer; [exact E|constructor].
  - apply all_nearer; [exact N|]. apply exchange_nearer. exact W.
Qed.

(** Every schedule comes to an end. *)
Theorem jobs_finite J : Acc (fun a b => moves b a) J.
Proof. induction (job_acc J) as [J _ IH]. constructor. intros J' H. apply IH. apply moves_nearer. exact H. Qed.

Lemma ready_dec (J : list rank) : (exists i w o os, nth_error J i = Some (Ready w (o :: os))) \/ (forall i w o os, nth_error J i <> Some (Ready w (o :: os))).
Proof.
  induction J as [|x J IH]; [right; intros [|i] w o os; discriminate|].
  destruct IH as [(i & w & o & os & E)|IH]; [left; exists (S i), w, o, os; exact E|].
  destruct x as [w [|o os]|w st k os|f]; try (right; intros [|i] w' o' os' E; cbn in E; [discriminate E|exact (IH _ _ _ _ E)]).
  left. exists 0%nat, w, o, os. reflexivity.
Qed.

Lemma move_dec J : (exists J', moves J J') \/ job_halted P M J.
Proof.
  destruct (ready_dec J) as [(i & w & o & os & E)|NR]; [left; eexists; eapply rank_moves; exact E|].
  destruct J as [|x J]; [right; intros J' H; inversion H as [? i ? ? ? E|? ? N]; subst; [destruct i; discriminate E|congruence]|].
  destruct (all_waiting (x :: J)) as [l|] eqn:W; [left; eexists; eapply ranks_exchange; [discriminate|exact W]|].
  right. intros J' H. inversion H as [? i ? ? ? E|? ? N W']; subst; [exact (NR _ _ _ _ E)|congruence].
Qed.

Theorem job_halts J : exists J', runs J J' /\ job_halted P M J'.
Proof.
  induction (jobs_finite J) as [J _ IH]. destruct (move_dec J) as [(J' & H)|H]; [|exists J; split; [constructor|exact H]].
  destruct (IH J' H) as (J'' & R & N). exists J''. split; [eapply runs_more; eassumption|exact N].
Qed.

(** ** One rank alone, others alone *)

(** The rank is on its way to where it will be, having made some of its calls by itself. *)
Definition on_the_way (b : option Z) (x : rank) : Prop :=
  match x with
  | Ready w os => alone P w os b
  | Waiting _ st _ _ => b = Some st
  | Failed _ => False
  end.

Lemma alone_step w o os b : alone P w (o :: os) b -> on_the_way b (after_call (c_step P w o) os).
Proof.
  intros H. inversion H as [|? ? ? w' st k E|? ? ? w' x ? E A]; subst; rewrite E; cbn [after_call on_the_way]; [reflexivity|exact A].
Qed.

Lemma way_kept s J J' i j x y : nth_error J i = Some x -> on_the_way (Some s) x -> nth_error J j = Some y -> on_the_way None y -> moves J J' ->
  exists x' y', nth_error J' i = Some x' /\ on_the_way (Some s) x' /\ nth_error J' j = Some y' /\ on_the_way None y'.
Proof.
  intros EI WI EJ WJ H. destruct H as [J q w o os E|J l N W].
  - assert (S : forall b p z, nth_error J p = Some z -> on_the_way b z -> exists z', nth_error (set_nth J q (after_call (c_step P w o) os)) p = Some z' /\ on_the_way b z').
    { intros b p z EP WP. destruct (Nat.eq_dec q p) as [->|NE].
      - rewrite E in EP. injection EP as <-. exists (after_call (c_step P w o) os). split; [eapply nth_eq; exact E|]. apply alone_step. exact WP.
      - exists z. rewrite nth_ne by exact NE. auto. }
    destruct (S _ _ _ EI WI) as (x' & E1 & W1). destruct (S _ _ _ EJ WJ) as (y' & E2 & W2). exists x', y'. auto.
  - exfalso. destruct y as [w os|w st k os|f]; [eapply waiting_no_ready; eassumption|discriminate WJ|exact WJ].
Qed.

Theorem never_ends J J' i j w os w' os' s : nth_error J i = Some (Ready w os) -> alone P w os (Some s) -> nth_error J j = Some (Ready w' os') -> alone P w' os' None ->
  runs J J' -> ~ job_ended J' /\ (job_halted P M J' -> exists v k rest v', nth_error J' i = Some (Waiting v s k rest) /\ nth_error J' j = Some (Ready v' [])).
Proof.
  intros EI AI EJ AJ R.
  assert (G : forall J x y, nth_error J i = Some x -> on_the_way (Some s) x -> nth_error J j = Some y -> on_the_way None y -> runs J J' ->
    exists x' y', nth_error J' i = Some x' /\ on_the_way (Some s) x' /\ nth_error J' j = Some y' /\ on_the_way None y').
  { clear. intros J x y EI WI EJ WJ R. revert x y EI WI EJ WJ. induction R as [J|J J1 J2 HM HR IH]; intros x y EI WI EJ WJ; [exists x, y; auto|].
    destruct (way_kept _ _ _ _ _ _ _ EI WI EJ WJ HM) as (x' & y' & EI' & WI' & EJ' & WJ'). eapply IH; eassumption. }
  destruct (G J _ _ EI AI EJ AJ R) as (x & y & EX & WX & EY & WY). split.
  - intros D. unfold job_ended in D. rewrite Forall_forall in D. destruct (D x (nth_error_In _ _ EX)) as (v & ->). inversion WX.
  - intros H. destruct x as [v [|o rest]|v st k rest|f]; [inversion WX| | |destruct WX].
    + exfalso. eapply H. eapply rank_moves. exact EX.
    + destruct y as [v' [|o rest']|v' st' k' rest'|f]; [| |discriminate WY|destruct WY].
      * cbn in WX. injection WX as <-. exists v, k, rest, v'. auto.
      * exfalso. eapply H. eapply rank_moves. exact EY.
Qed.

(** ** All ranks alone *)

Lemma all_way_kept b J J' : Forall (on_the_way b) J -> (forall w st k os, b = Some st -> ~ In (Waiting w st k os) J) \/ b = None -> moves J J' -> Forall (on_the_way b) J'.
Proof.
  intros F D H. destruct H as [J q w o os E|J l N W].
  - assert (A : on_the_way b (Ready w (o :: os))) by (rewrite Forall_forall in F; apply F; eapply nth_error_In; exact E). apply alone_step in A.
    revert q E. clear -F A. induction F as [|y J HY F IH]; intros [|q] E; try discriminate E; cbn [set_nth]; constructor; auto.
  - exfalso. destruct J as [|x J]; [congruence|]. inversion F as [|? ? FX FJ]; subst. destruct x as [v os|v st k os|f]; try (cbn in W; discriminate W).
    cbn in FX. subst b. destruct D as [D|D]; [|discriminate D]. eapply D; [reflexivity|left; reflexivity].
Qed.

(** If no rank ever waits, the job ends. *)
Theorem all_end J J' : Forall (fun x => exists w os, x = Ready w os /\ alone P w os None) J -> runs J J' -> job_halted P M J' -> job_ended J'.
Proof.
  intros F R H. assert (F' : Forall (on_the_way None) J).
  { eapply Forall_impl; [|exact F]. intros x (w & os & -> & A). exact A. }
  clear F. induction R as [J|J J1 J2 HM HR IH]; [|apply IH; [exact H|]; eapply all_way_kept; [exact F'|right; reflexivity|exact HM]].
  unfold job_ended. apply Forall_forall. intros x I. rewrite Forall_forall in F'. specialize (F' x I). destruct x as [w [|o os]|w st k os|f].
  - exists w. reflexivity.
  - exfalso. apply In_nth_error in I. destruct I as (i & E). eapply H. eapply rank_moves. exact E.
  - discriminate F'.
  - destruct F'.
Qed.

Lemma strips J A : runs J A -> forall B, runs J B -> job_halted P M B -> runs A B.
Proof.
  intros HA. induction HA as [J|J J' J'' HM HR IH]; intros B HB H; [exact HB|]. apply IH; [|exact H]. eapply strip; eassumption.
Qed.

Lemma runs_trans A B C : runs A B -> runs B C -> runs A C.
Proof. intros H. induction H as [J|J J1 J2 HM HR IH]; intros K; [exact K|]. eapply runs_more; [exact HM|apply IH; exact K]. Qed.

Definition to_the_wait (s : Z) (x : rank) : Prop :=
  match x with
  | Ready w os => alone P w os (Some s)
  | Waiting _ st _ _ => st = s
  | Failed _ => False
  end.

Lemma wait_kept s J i w o os : Forall (to_the_wait s) J -> nth_error J i = Some (Ready w (o :: os)) -> Forall (to_the_wait s) (set_nth J i (after_call (c_step P w o) os)).
Proof.
  intros F E. assert (A : to_the_wait s (Ready w (o :: os))) by (rewrite Forall_forall in F; apply F; eapply nth_error_In; exact E). cbn in A. apply alone_step in A.
  assert (B : to_the_wait s (after_call (c_step P w o) os)) by (destruct (after_call (c_step P w o) os); [exact A|cbn in A |- *; congruence|exact A]).
  revert i E. clear -F B. induction F as [|y J HY F IH]; intros [|i] E; try discriminate E; cbn [set_nth]; constructor; auto.
Qed.

(** If every rank comes to wait, they all exchange their measurements, whatever the schedule. *)
Theorem all_exchange s J : Forall (fun x => exists w os, x = Ready w os /\ alone P w os (Some s)) J ->
  exists J1 l, runs J J1 /\ all_waiting J1 = Some l /\ Forall (fun x => snd x = s) l /\ forall J', runs J J' -> job_halted P M J' -> runs J1 J'.
Proof.
  intros F. assert (F' : Forall (to_the_wait s) J).
  { eapply Forall_impl; [|exact F]. intros x (w & os & -> & A). exact A. }
  clear F. assert (G : exists J1 l, runs J J1 /\ all_waiting J1 = Some l /\ Forall (fun x => snd x = s) l).
  { induction (jobs_finite J) as [J _ IH]. destruct (ready_dec J) as [(i & w & o & os & E)|NR].
    - destruct (IH (set_nth J i (after_call (c_step P w o) os))) as (J1 & l & R & W); [eapply rank_moves; exact E|apply wait_kept; assumption|].
      exists J1, l. split; [|exact W]. eapply runs_more; [eapply rank_moves; exact E|exact R].
    - assert (W : exists l, all_waiting J = Some l /\ Forall (fun x => snd x = s) l); [|destruct W as (l & W); exists J, l; split; [constructor|exact W]].
      clear IH. induction F' as [|x J HX F IH]; [exists []; split; [reflexivity|constructor]|].
      destruct IH as (l & W & FL); [intros i w o os E; exact (NR (S i) w o os E)|].
      destruct x as [w [|o os]|w st k os|f]; [inversion HX| |exists ((w, st) :: l); cbn; rewrite W; split; [reflexivity|constructor; [exact HX|exact FL]]|destruct HX].
      exfalso. exact (NR 0%nat w o os eq_refl). }
  destruct G as (J1 & l & R & W & FL). exists J1, l. split; [exact R|]. split; [exact W|]. split; [exact FL|]. intros J' R' H. eapply strips; eassumption.
Qed.
End Job.
