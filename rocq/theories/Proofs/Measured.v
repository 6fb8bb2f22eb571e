(** Trained models answer with policies that were measured. *)
From Coq Require Import ZArith Bool Ascii String Lia List.
From Verif Require Import Model.Base Model.Float Model.DatasetM Model.TreeM Model.ForestM Model.ModelStringM Model.PolicyModelsM Model.ConfigM Model.RuntimeM
  Spec.RuntimeSpec Spec.LearnedSpec Proofs.TreeFacts Proofs.ModelStringFacts Proofs.RuntimeFacts Proofs.RuntimeTraining Proofs.RuntimeWatch Proofs.RuntimeLearn.
Import ListNotations.
Open Scope Z_scope.

(** ** Policies of a data set *)

Lemma measured_key d k : measured d k <-> exists f x, In ((f, k), x) d.
Proof.
  unfold measured, ds_to_vector. split.
  - intros (f & m & IN). apply in_map_iff in IN. destruct IN as ([[g q] y] & E & IN). inversion E; subst. eauto.
  - intros (f & x & IN). exists f, x. apply in_map_iff. exists ((f, k), x). auto.
Qed.

Lemma map_add_keeps {K V} lt k v (m : list (K * V)) e : In e m -> In e (map_add lt k v m).
Proof. induction m as [|[k' v'] m IH]; cbn; [contradiction|]. intros IN. destruct (lt k k'); [right; exact IN|]. destruct IN as [<-|IN]; [left; reflexivity|right; auto]. Qed.

Lemma map_update_keeps {K V} lt k v (m : list (K * V)) a x : In (a, x) m -> exists y, In (a, y) (map_update lt k v m).
Proof.
  induction m as [|[k' v'] m IH]; cbn; [contradiction|]. intros [E|IN].
  - inversion E; subst. destruct (_ && _); eexists; left; reflexivity.
  - destruct (_ && _); [exists x; right; exact IN|]. destruct (IH IN) as (y & IN'). exists y. right. exact IN'.
Qed.

Lemma insert_measured d f p x d' k : ds_insert d f p x = Ok d' -> measured d k -> measured d' k.
Proof.
  intros H M. apply (proj1 (measured_key d k)) in M. destruct M as (g & y & IN). apply (proj2 (measured_key d' k)). unfold ds_insert in H. destruct (negb _); [discriminate H|].
  destruct (map_find _ _ _); inversion H; subst.
  - destruct (map_update_keeps key_lt (f, p) (ema f0 x) d (g, k) y IN) as (z & IN'). eauto.
  - exists g, y. apply map_add_keeps. exact IN.
Qed.

(** ** Labels *)

Section Labels.
Variable Q : Z -> Prop.

Lemma map_add_all {K V} (R : K * V -> Prop) lt k v m : R (k, v) -> Forall R m -> Forall R (map_add lt k v m).
Proof. intros H F. induction F as [|[k' v'] m H' F IH]; cbn; auto. destruct (lt k k'); auto. Qed.
Lemma map_update_all {K V} (R : V -> Prop) lt k v (m : list (K * V)) : R v -> Forall (fun e => R (snd e)) m -> Forall (fun e => R (snd e)) (map_update lt k v m).
Proof. intros H F. induction F as [|[k' v'] m H' F IH]; cbn; auto. destruct (_ && _); constructor; auto. Qed.

Lemma best_all d : (forall f k x, In ((f, k), x) d -> Q k) -> forall fs rs best, ds_find_min d [] [] = (fs, rs, best) -> Forall Q rs.
Proof.
  intros H fs rs best E. unfold ds_find_min in E. inversion E; subst. clear E.
  assert (G : forall b, Forall (fun e => Q (fst (snd e))) b -> Forall (fun e => Q (fst (snd e))) (fold_left min_step d b)).
  { induction d as [|[[f p] x] d IH]; cbn [fold_left]; intros b B; [exact B|]. apply IH; [intros; eapply H; right; eassumption|].
    assert (QP : Q p) by (apply (H f p x); left; reflexivity). unfold min_step. destruct (map_find vec_lt f b) as [[q y]|].
    - destruct (lt64 x y); [|exact B]. apply (map_update_all (fun v => Q (fst v))); assumption.
    - apply map_add_all; assumption. }
  apply Forall_forall. intros k IN. cbn in IN. apply in_map_iff in IN. destruct IN as (e & <- & IN).
  specialize (G [] (Forall_nil _)). rewrite Forall_forall in G. apply G. exact IN.
Qed.

Fixpoint labels_all (t : tree) : Prop :=
  match t with Null => True | Node _ _ c _ _ l r _ => Q c /\ labels_all l /\ labels_all r end.
Definition tree_all (t : dtree) : Prop := Forall Q (t_classes t) /\ labels_all (t_root t).

Lemma set_insert_all' cs : Forall Q cs -> forall s, Forall Q s -> Forall Q (set_insert_all cs s).
Proof.
  assert (G : forall c s, Q c -> Forall Q s -> Forall Q (set_insert c s)).
  { intros c s H F. induction F as [|x s Hx F IH]; cbn; auto. destruct (c <? x); auto. destruct (x <? c); auto. }
  unfold set_insert_all. induction 1; cbn; auto.
Qed.

Lemma build_all srt classes md fuel : Forall Q classes -> forall depth l t l', build_tree fuel srt classes md depth l = Ok (t, l') -> labels_all t.
Proof.
  intros FC. induction fuel as [|fuel IH]; intros depth l t l' H; [discriminate H|]. cbn [build_tree] in H. cbv zeta in H.
  apply bind_inv in H. destruct H as (node & EN & H).
  assert (LN : labels_all node).
  { unfold new_leaf in EN. cbn in EN. destruct classes as [|c cs]; [discriminate EN|]. inversion EN. cbn. inversion FC; auto. }
  destruct (md <=? depth); [inversion H; subst; auto|]. destruct l as [|s l]; [inversion H; subst; auto|].
  destruct (le32 _ _); [inversion H; subst; auto|]. apply bind_inv in H. destruct H as ([l2 b] & _ & H). destruct b as [[[g pos] f] thr].
  destruct (Nat.eqb pos (List.length l2)); [discriminate|]. apply bind_inv in H. destruct H as ([lt ll] & EL & H).
  apply bind_inv in H. destruct H as ([rt lr] & ER & H). destruct node; inversion H; subst. cbn in LN. destruct LN. cbn. split; [auto|]. split; eauto.
Qed.

Lemma dt_train_all srt t fs rs t' : tree_all t -> Forall Q rs -> dt_train srt t fs rs = Ok t' -> tree_all t'.
Proof.
  intros [FC _] FR. unfold dt_train. destruct fs as [|f fs]; [discriminate|]. destruct (negb _); [discriminate|]. intros H.
  apply bind_inv in H. destruct H as ([root data] & EB & H). inversion H; subst. clear H.
  assert (FC' := set_insert_all' rs FR _ FC). split; cbn; auto. exact (build_all _ _ _ _ FC' _ _ _ _ EB).
Qed.

Lemma evaluate_all t x k : labels_all t -> evaluate t x = Ok k -> Q k.
Proof.
  induction t as [|g m c f thr l IL r IR cs]; cbn; [discriminate|]. intros (Hc & Hl & Hr). destruct (f =? -1); [intros E; inversion E; subst; exact Hc|].
  unfold vec_get. destruct (f <? 0); cbn; [discriminate|]. destruct (nth_error x (Z.to_nat f)); cbn; [|discriminate].
  destruct (lt32 _ _); [destruct l; [intros E; inversion E; subst; exact Hc|exact (IL Hl)]|destruct r; [intros E; inversion E; subst; exact Hc|exact (IR Hr)]].
Qed.

Lemma sample_all pick m todo features responses : Forall Q responses -> forall k fs rs, sample_loop pick m todo k features responses = Ok (fs, rs) -> Forall Q rs.
Proof.
  intros F. induction todo as [|todo IH]; cbn; intros k fs rs H; [inversion H; auto|].
  apply bind_inv in H. destruct H as (x & _ & H). apply bind_inv in H. destruct H as (r & ER & H). apply bind_inv in H. destruct H as ([fs' rs'] & ES & H).
  inversion H; subst. constructor; [|eauto]. unfold vec_get in ER. destruct (_ <? 0); [discriminate|]. destruct (nth_error responses _) eqn:E; [|discriminate].
  inversion ER; subst. apply nth_error_In in E. rewrite Forall_forall in F. auto.
Qed.

Lemma train_loop_all srt pick md features responses todo : Forall Q responses -> forall k ts, train_loop srt pick md todo k features responses = Ok ts -> Forall tree_all ts.
Proof.
  intros F. induction todo as [|todo IH]; cbn; intros k ts H; [inversion H; auto|].
  apply bind_inv in H. destruct H as ([fs rs] & ES & H). apply bind_inv in H. destruct H as (t & ET & H). apply bind_inv in H. destruct H as (ts' & EL & H).
  inversion H; subst. constructor; [|eauto]. eapply dt_train_all; [|eapply sample_all; eauto|exact ET]. split; cbn; auto.
Qed.

Lemma f_train_all srt pick f fs rs f' : Forall tree_all (f_trees f) -> Forall Q rs -> f_train srt pick f fs rs = Ok f' -> Forall tree_all (f_trees f').
Proof.
  intros FT FR H. unfold f_train in H. apply bind_inv in H. destruct H as (ts & EL & H). inversion H; subst. cbn. apply Forall_app. split; auto. eapply train_loop_all; eauto.
Qed.

(** The votes: every class with a vote has the label of a tree. *)
Lemma bump_ge c counts i : 0 <= nth i counts 0 -> 0 <= nth i (bump c counts) 0.
Proof.
  revert c i. induction counts as [|n counts IH]; intros [|c] [|i] H; cbn in *; try lia. apply IH. exact H.
Qed.
Lemma bump_pos c counts i : Forall (fun n => 0 <= n) counts -> 0 < nth i (bump c counts) 0 -> 0 < nth i counts 0 \/ i = c.
Proof.
  revert c i. induction counts as [|n counts IH]; intros [|c] [|i] F H; cbn in *; inversion F; subst; auto; try lia.
  destruct (IH c i H3 H); auto.
Qed.
Lemma bump_hit c counts : (c < List.length counts)%nat -> Forall (fun n => 0 <= n) counts -> 0 < nth c (bump c counts) 0.
Proof. revert c. induction counts as [|n counts IH]; intros [|c] L F; cbn in *; inversion F; subst; try lia. apply IH; [lia|exact H2]. Qed.
Lemma bump_mono c counts i : nth i counts 0 <= nth i (bump c counts) 0.
Proof. revert c i. induction counts as [|n counts IH]; intros [|c] [|i]; cbn; try lia; apply IH. Qed.
Lemma bump_nonneg c counts : Forall (fun n => 0 <= n) counts -> Forall (fun n => 0 <= n) (bump c counts).
Proof. revert c. induction counts as [|n counts IH]; intros [|c] F; cbn; inversion F; subst; constructor; auto; lia. Qed.
Lemma bump_len c counts : List.length (bump c counts) = List.length counts.
Proof. revert c. induction counts; intros [|c]; cbn; auto. Qed.

Lemma votes_all n x ts : Forall tree_all ts -> forall counts l, List.length counts = Z.to_nat n -> Forall (fun v => 0 <= v) counts -> votes ts n x counts = Ok l ->
  List.length l = List.length counts /\ (forall i, nth i counts 0 <= nth i l 0) /\ (forall i, 0 < nth i l 0 -> 0 < nth i counts 0 \/ Q (Z.of_nat i)) /\
  (ts <> [] -> exists i, 0 < nth i l 0).
Proof.
  induction 1 as [|t ts [_ HT] F IH]; cbn [votes]; intros counts l LN NN E.
  - inversion E; subst. split; [reflexivity|]. split; [intros; lia|]. split; [auto|]. congruence.
  - apply bind_inv in E. destruct E as (c & EC & E). assert (QC := evaluate_all _ _ _ HT EC). destruct ((0 <=? c) && (c <? n)) eqn:B; [|discriminate E].
    apply andb_prop in B. destruct B as [B1 B2]. apply Z.leb_le in B1. apply Z.ltb_lt in B2.
    destruct (IH _ _ (eq_trans (bump_len _ _) LN) (bump_nonneg (Z.to_nat c) _ NN) E) as (L & M & V & _).
    split; [rewrite L; apply bump_len|]. split; [intros i; assert (A := bump_mono (Z.to_nat c) counts i); specialize (M i); lia|]. split.
    + intros i H. destruct (V i H) as [A|A]; [|auto]. apply bump_pos in A; [|exact NN]. destruct A as [A| ->]; [auto|]. right. rewrite Z2Nat.id by lia. exact QC.
    + intros _. exists (Z.to_nat c). specialize (M (Z.to_nat c)). assert (A : 0 < nth (Z.to_nat c) (bump (Z.to_nat c) counts) 0) by (apply bump_hit; [rewrite LN; apply Z2Nat.inj_lt; lia|exact NN]). lia.
Qed.

Lemma first_max_pos counts : forall i best bc, (0 < bc \/ exists j, 0 < nth j counts 0) -> 0 <= i ->
  exists v, 0 < v /\ ((first_max counts i best bc = best /\ v = bc) \/ (exists j, first_max counts i best bc = i + Z.of_nat j /\ nth j counts 0 = v)).
Proof.
  induction counts as [|n counts IH]; cbn [first_max]; intros i best bc H I.
  - destruct H as [H|([|j] & H)]; cbn in H; try lia. exists bc. auto.
  - destruct (Z.ltb_spec bc n) as [L|L].
    + destruct (IH (i + 1) i n) as (v & V & [[E ->]|(j & E & EV)]); [|lia| |].
      * destruct H as [H|([|j] & H)]; cbn in H; [left; lia|left; lia|right; eauto].
      * exists n. split; [exact V|]. right. exists 0%nat. rewrite E. cbn. split; [lia|reflexivity].
      * exists v. split; [exact V|]. right. exists (S j). rewrite E. cbn [nth]. split; [lia|exact EV].
    + destruct (IH (i + 1) best bc) as (v & V & [[E ->]|(j & E & EV)]); [|lia| |].
      * destruct H as [H|([|j] & H)]; cbn in H; [left; lia|left; lia|right; eauto].
      * exists bc. auto.
      * exists v. split; [exact V|]. right. exists (S j). rewrite E. cbn [nth]. split; [lia|exact EV].
Qed.

Lemma f_predict_all f x k : Forall tree_all (f_trees f) -> f_trees f <> [] -> f_predict f x = Ok k -> Q k.
Proof.
  intros F N E. unfold f_predict in E. destruct (Z.leb_spec (f_num_classes f) 0); [discriminate E|]. apply bind_inv in E. destruct E as (counts & EV & E).
  assert (Z0 : Forall (fun v => 0 <= v) (repeat 0 (Z.to_nat (f_num_classes f)))) by (apply Forall_forall; intros v IN; apply repeat_spec in IN; lia).
  destruct (votes_all _ x _ F _ _ (repeat_length _ _) Z0 EV) as (L & _ & V & PO).
  destruct (PO N) as (i & HI). destruct counts as [|n r]; [discriminate E|]. inversion E; subst k. clear E.
  assert (W : forall j, 0 < nth j (n :: r) 0 -> Q (Z.of_nat j)).
  { intros j H0. destruct (V j H0) as [A|A]; [|exact A]. exfalso. rewrite nth_repeat in A. lia. }
  destruct (first_max_pos r 1 0 n) as (v & HV & [[-> ->]|(j & -> & EJ)]); [|lia| |].
  - destruct i; cbn in HI; [left; lia|right; eauto].
  - apply (W 0%nat). exact HV.
  - replace (1 + Z.of_nat j) with (Z.of_nat (S j)) by lia. apply W. cbn [nth]. lia.
Qed.

Lemma no_votes f x k : f_trees f = [] -> f_predict f x = Ok k -> k = 0.
Proof.
  intros N E. unfold f_predict in E. destruct (Z.leb_spec (f_num_classes f) 0); [discriminate E|]. rewrite N in E. cbn [votes bind] in E.
  destruct (Z.to_nat (f_num_classes f)) as [|m]; cbn [repeat] in E; [discriminate E|]. inversion E; subst k. clear.
  generalize 1 as i. induction m as [|m IH]; intros i; [reflexivity|]. cbn [repeat first_max]. apply IH.
Qed.
End Labels.

Lemma labels_mono (Q Q' : Z -> Prop) t : (forall k, Q k -> Q' k) -> labels_all Q t -> labels_all Q' t.
Proof. intros H. induction t; cbn; intuition. Qed.
Lemma tree_mono (Q Q' : Z -> Prop) t : (forall k, Q k -> Q' k) -> tree_all Q t -> tree_all Q' t.
Proof. intros H [A B]. split; [eapply Forall_impl; [|exact A]; auto|eapply labels_mono; eauto]. Qed.

(** ** Models *)

Definition informed (_ : nat) (m : model) (d : dataset) : Prop :=
  match m with
  | MTree _ _ t _ => tree_all (measured d) t
  | MForest _ _ f _ => Forall (tree_all (measured d)) (f_trees f)
  | _ => True
  end.

Section Platform.
Variable P : platform.

Lemma informed_closed persistent : closed P informed 0 persistent true.
Proof.
  constructor.
  - intros i m0 d0 m d m' _ G _ E. destruct m as [| | | | |n b t e|n b f e|]; cbn [m_train] in E; try (inversion E; subst; exact Logic.I).
    + destruct (ds_find_min d [] []) as [[fs rs] best] eqn:EF. apply bind_inv in E. destruct E as (t' & ET & E). inversion E; subst. eapply dt_train_all; [exact G| |exact ET].
      eapply best_all; [|exact EF]. intros f k x IN. apply (proj2 (measured_key d k)). eauto.
    + destruct (ds_find_min d [] []) as [[fs rs] best] eqn:EF. apply bind_inv in E. destruct E as (t' & ET & E). inversion E; subst. eapply f_train_all; [exact G| |exact ET].
      eapply best_all; [|exact EF]. intros g k x IN. apply (proj2 (measured_key d k)). eauto.
    + apply bind_inv in E. destruct E as (t' & ET & E). inversion E; subst. exact Logic.I.
  - intros i m d d2 m' T. discriminate T.
  - intros i m d f p x d' _ G EI. assert (K : forall k, measured d k -> measured d' k) by (intros k; eapply insert_measured; exact EI).
    destruct m as [| | | | |n b t e|n b g e|]; auto.
    + eapply tree_mono; [exact K|exact G].
    + cbn. eapply Forall_impl; [|exact G]. intros t. apply tree_mono. exact K.
Qed.

Lemma informed_get i D m x k m' d : informed i m d -> m_get_index P D m x = Ok (k, m') -> informed i m' d.
Proof.
  intros G E. destruct m as [| |n last|q| |n [|] t e|n [|] f e|]; cbn [m_get_index negb] in E; try (apply bind_inv in E; destruct E as (c & _ & E); inversion E; subst; exact G).
  - inversion E; subst; exact G.
  - destruct (1 <? count); inversion E; subst; exact Logic.I.
  - destruct (n =? 0); [discriminate|]. inversion E; subst. exact Logic.I.
  - destruct q; inversion E; subst. exact Logic.I.
  - destruct (nan_free x); cbn in E; [|discriminate]. destruct (map_find _ _ _) as [[? ?]|]; inversion E; subst. exact Logic.I.
  - destruct e as [e|]; [|discriminate]. apply bind_inv in E. destruct E as ([c e'] & _ & E). inversion E; subst. exact G.
  - destruct e as [e|]; [|discriminate]. apply bind_inv in E. destruct E as ([c e'] & _ & E). inversion E; subst. exact G.
  - apply bind_inv in E. destruct E as ([c N] & _ & E). inversion E; subst. exact Logic.I.
Qed.

Lemma create_informed i name nf np ps init m : create_model P name nf np ps init = Ok m -> informed i m [].
Proof.
  unfold create_model. generalize 2%nat. intros f. cbn [create_fuel].
  destruct (bytes_eqb name ($"Static")). { unfold create_static. intros E. apply bind_inv in E. destruct E as (p & _ & E). destruct (p <? 0); inversion E; exact Logic.I. }
  destruct (bytes_eqb name ($"DatasetMap")). { intros E; inversion E; exact Logic.I. }
  destruct (bytes_eqb name ($"Random")). { unfold new_random. destruct (_ <? _); intros E; inversion E; exact Logic.I. }
  destruct (bytes_eqb name ($"RoundRobin")). { intros E; inversion E; exact Logic.I. }
  destruct (bytes_eqb name ($"DecisionTree")).
  { intros E. apply bind_inv in E. destruct E as (md & _ & E). apply bind_inv in E. destruct E as (e & _ & E). inversion E; subst. split; cbn; [constructor|exact Logic.I]. }
  destruct (bytes_eqb name ($"RandomForest")).
  { intros E. apply bind_inv in E. destruct E as (nt & _ & E). apply bind_inv in E. destruct E as (md & _ & E). apply bind_inv in E. destruct E as (e & _ & E). inversion E; subst. constructor. }
  destruct (bytes_eqb name ($"PolicyNet")).
  { unfold create_net. intros E. repeat (apply bind_inv in E; destruct E as (? & _ & E)). destruct ((nf <? 0) || (np <? 0)); [discriminate E|]. inversion E; exact Logic.I. }
  destruct (bytes_eqb name ($"Optimal")); intros E; inversion E; exact Logic.I.
Qed.

Lemma informed_run os : forall w w' xs, watched informed 0 (cf_persistent (w_config w)) w -> run P w os = Ok (w', xs) ->
  (forall os1 o os2 w1 xs1, os = os1 ++ o :: os2 -> run P w os1 = Ok (w1, xs1) -> no_load w1 o) -> watched informed 0 (cf_persistent (w_config w)) w'.
Proof.
  induction os as [|o os IH]; intros w w' xs W H NL.
  - cbn in H. inversion H; subst. exact W.
  - cbn [run] in H. apply bind_inv in H. destruct H as ([w1 x] & E1 & H). apply bind_inv in H. destruct H as ([w2 xs2] & E2 & H). inversion H; subst. clear H.
    assert (C := informed_closed (cf_persistent (w_config w))).
    assert (W1 : watched informed 0 (cf_persistent (w_config w)) w1).
    { assert (ORD : match o with OpRegion _ _ _ _ _ _ _ | OpGetPolicy _ _ _ => False | OpTrain _ _ _ force => force = true -> true = true | _ => True end ->
        watched informed 0 (cf_persistent (w_config w)) w1) by (intros K; eapply watched_step; eauto).
      destruct o as [nf nm np mt info yaml init|r async now|r fs now|r p y|r p D|r p now early|r p y|r st collect force|st collect|r|r waits|waits|p ms]; try (apply ORD; auto; fail).
      + cbn in E1. apply bind_inv in E1. destruct E1 as ([v r] & E & E1). inversion E1; subst. destruct (watched_region P informed _ _ true C _ _ _ _ _ _ _ _ _ _ W E) as [A _]; auto.
        left. split; [apply (NL [] _ os w []); reflexivity|]. intros. eapply create_informed; eauto.
      + eapply watched_get_policy; [exact W|exact E1|]. intros R y k m ER EM HG. eapply informed_get; eauto. }
    replace (cf_persistent (w_config w)) with (cf_persistent (w_config w1)) in * by apply W1. apply (IH w1 w' xs2); auto.
    intros os1 o' os2 v ys -> R1. apply (NL (o :: os1) o' os2 v (x :: ys)); [reflexivity|]. cbn [run]. rewrite E1. cbn [bind]. rewrite R1. reflexivity.
Qed.

Lemma measured_only c files os w xs r R p D w' k :
  run P (start_world c files) os = Ok (w, xs) -> cf_single_model c = 0 ->
  (forall os1 o os2 w1 xs1, os = os1 ++ o :: os2 -> run P (start_world c files) os1 = Ok (w1, xs1) -> no_load w1 o) ->
  nth_error (w_regions w) r = Some R -> learned (r_model R) -> step P w (OpGetPolicy r p D) = Ok (w', GotPolicy k) -> measured (r_dataset R) k.
Proof.
  intros H S NL ER LE ST.
  assert (W : watched informed 0 (cf_persistent c) w).
  { apply (informed_run os (start_world c files) w xs); auto. split; [intros [|i] Q E; discriminate E|auto]. }
  assert (G := proj1 W _ _ ER). destruct (ask_step _ _ _ _ _ _ _ _ ST ER) as (k' & m & R' & E & EM & _). inversion E; subst k'. clear E.
  destruct LE as [(n & t & e & E)|(n & f & e & E & NE)]; rewrite E in *; cbn [m_get_index negb] in EM; apply bind_inv in EM; destruct EM as (v & EV & EM); inversion EM; subst.
  - eapply evaluate_all; [exact (proj2 G)|exact EV].
  - eapply f_predict_all; [exact G|exact NE|exact EV].
Qed.

Lemma treeless_zero w r p D w' k R n f e : nth_error (w_regions w) r = Some R -> r_model R = MForest n false f e -> f_trees f = [] ->
  step P w (OpGetPolicy r p D) = Ok (w', GotPolicy k) -> k = 0.
Proof.
  intros ER E NE ST. destruct (ask_step _ _ _ _ _ _ _ _ ST ER) as (k' & m & R' & EK & EM & _). inversion EK; subst k'. rewrite E in EM. cbn [m_get_index negb] in EM.
  apply bind_inv in EM. destruct EM as (v & EV & EM). inversion EM; subst. eapply no_votes; eauto.
Qed.
End Platform.
