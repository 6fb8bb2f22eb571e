From Coq Require Import List ZArith Bool Reals Lia Lra Sorting.Sorted.
From Flocq Require Import BinarySingleNaN.
From Verif Require Import Model.Base Model.Float Model.AggregateM Spec.AggregateSpec Proofs.FloatFacts.
From Coq Require Import List.
Import ListNotations.

(** ** Grouping *)
Lemma filter_nothing {A} (p : A -> bool) l : (forall x, In x l -> p x = false) -> filter p l = [].
Proof. induction l as [|x l IH]; intros H; [reflexivity|]. cbn. rewrite (H x (or_introl eq_refl)). apply IH. intros y I. apply H. right; exact I. Qed.

Section Group.
Context {K R : Type} (lt : K -> K -> bool) (key : R -> K) (P : K -> Prop).
Hypothesis irr : forall a, P a -> lt a a = false.
Hypothesis tr : forall a b c, P a -> P b -> P c -> lt a b = true -> lt b c = true -> lt a c = true.
Hypothesis weak : forall a b c, P a -> P b -> P c -> lt a b = true -> lt a c = true \/ lt c b = true.

Definition eqk (a b : K) : bool := negb (lt a b) && negb (lt b a).
Lemma eqk_iff a b : eqk a b = true <-> lt a b = false /\ lt b a = false.
Proof. unfold eqk. destruct (lt a b), (lt b a); cbn; intuition congruence. Qed.
Lemma eqk_refl a : P a -> eqk a a = true.
Proof. intros H. apply eqk_iff. rewrite irr by assumption. auto. Qed.
Lemma eqk_sym a b : eqk a b = eqk b a.
Proof. unfold eqk. apply andb_comm. Qed.
Lemma lt_asym a b : P a -> P b -> lt a b = true -> lt b a = false.
Proof. intros A B H. destruct (lt b a) eqn:E; [|reflexivity]. rewrite <- (irr a A). symmetry. exact (tr a b a A B A H E). Qed.
Lemma lt_eqk a b c : P a -> P b -> P c -> lt a b = true -> eqk b c = true -> lt a c = true.
Proof. intros A B C H E. apply eqk_iff in E. destruct (weak a b c A B C H) as [X|X]; [exact X|]. destruct E; congruence. Qed.
Lemma eqk_lt a b c : P a -> P b -> P c -> eqk a b = true -> lt b c = true -> lt a c = true.
Proof. intros A B C E H. apply eqk_iff in E. destruct (weak b c a B C A H) as [X|X]; [|exact X]. destruct E; congruence. Qed.
Lemma eqk_trans a b c : P a -> P b -> P c -> eqk a b = true -> eqk b c = true -> eqk a c = true.
Proof.
  intros A B C E F. apply eqk_iff. split.
  - destruct (lt a c) eqn:X; [|reflexivity]. apply eqk_iff in E. assert (Y : lt a b = true) by (apply (lt_eqk a c b); auto; rewrite eqk_sym; exact F). destruct E; congruence.
  - destruct (lt c a) eqn:X; [|reflexivity]. apply eqk_iff in F. assert (Y : lt c b = true) by (apply (lt_eqk c a b); auto). destruct F; congruence.
Qed.
Lemma eqk_not_lt a b : eqk a b = true -> lt a b = false /\ lt b a = false.
Proof. apply eqk_iff. Qed.

Definition before (x y : K * list R) : Prop := lt (fst x) (fst y) = true.
Lemma sorted_app {A} (S : A -> A -> Prop) a b : StronglySorted S (a ++ b) <-> StronglySorted S a /\ StronglySorted S b /\ forall x y, In x a -> In y b -> S x y.
Proof.
  induction a as [|z a IH]; cbn.
  - split; [intros H; repeat split; auto; [constructor|contradiction]|tauto].
  - split.
    + intros H. inversion_clear H as [|? ? HS HF]. apply IH in HS as (A1 & A2 & A3). rewrite Forall_app in HF. destruct HF as [F1 F2]. split; [constructor; assumption|]. split; [assumption|].
      intros x y [<-|I] J; [rewrite Forall_forall in F2; auto|auto].
    + intros (H & HB & HC). inversion_clear H as [|? ? HS HF]. constructor.
      * apply IH. repeat split; auto.
      * apply Forall_app. split; [assumption|]. apply Forall_forall. auto.
Qed.

Lemma add_row_cases k r g : P k -> Forall (fun x => P (fst x)) g -> StronglySorted before g ->
  (exists g1 g2, g = g1 ++ g2 /\ add_row lt k r g = g1 ++ (k, [r]) :: g2 /\ Forall (fun x => lt (fst x) k = true) g1 /\ Forall (fun x => lt k (fst x) = true) g2)
  \/ (exists g1 k' rs g2, g = g1 ++ (k', rs) :: g2 /\ add_row lt k r g = g1 ++ (k', rs ++ [r]) :: g2 /\ eqk k' k = true).
Proof.
  intros PK. induction g as [|[k' rs] g IH]; intros F S.
  - left. exists [], []. repeat split; constructor.
  - inversion_clear F as [|? ? PK' F']. inversion_clear S as [|? ? S' B]. cbn [fst] in PK'. cbn [add_row].
    destruct (lt k k') eqn:E1.
    + left. exists [], ((k', rs) :: g). repeat split; [constructor|]. constructor; [exact E1|].
      apply Forall_forall. intros x I. rewrite Forall_forall in B, F'. apply (tr k k' (fst x)); auto. exact (B x I).
    + destruct (lt k' k) eqn:E2.
      * destruct (IH F' S') as [(g1 & g2 & -> & E & L1 & L2)|(g1 & k2 & rs2 & g2 & -> & E & Q)].
        -- left. exists ((k', rs) :: g1), g2. rewrite E. repeat split; auto.
        -- right. exists ((k', rs) :: g1), k2, rs2, g2. rewrite E. repeat split; auto.
      * right. exists [], k', rs, g. repeat split. apply eqk_iff. auto.
Qed.

Record grouped (l : list R) (g : list (K * list R)) : Prop := {
  gr_sorted : StronglySorted before g;
  gr_content : forall k rs, In (k, rs) g -> rs = filter (fun r => eqk k (key r)) l /\ exists r, In r l /\ key r = k;
  gr_cover : forall r, In r l -> exists k rs, In (k, rs) g /\ eqk k (key r) = true
}.

Lemma group_by_grouped l : (forall r, In r l -> P (key r)) -> grouped l (group_by lt key l).
Proof.
  unfold group_by. induction l as [|r l IH] using rev_ind; intros PL.
  - split; cbn; [constructor|contradiction|contradiction].
  - rewrite fold_left_app. cbn [fold_left]. set (g := fold_left _ l []) in *.
    assert (PL' : forall r, In r l -> P (key r)) by (intros x I; apply PL, in_app_iff; auto).
    assert (PR : P (key r)) by (apply PL, in_app_iff; right; left; reflexivity).
    destruct (IH PL') as [S C V].
    assert (PG : Forall (fun x => P (fst x)) g).
    { apply Forall_forall. intros [k rs] I. destruct (C k rs I) as (_ & x & J & <-). cbn. auto. }
    assert (PG' : forall k rs, In (k, rs) g -> P k) by (intros k rs I; rewrite Forall_forall in PG; exact (PG _ I)).
    assert (FS : forall k, filter (fun r => eqk k (key r)) (l ++ [r]) = filter (fun r => eqk k (key r)) l ++ (if eqk k (key r) then [r] else [])).
    { intros k. rewrite filter_app. reflexivity. }
    destruct (add_row_cases (key r) r g PR PG S) as [(g1 & g2 & E & EA & L1 & L2)|(g1 & k' & rs & g2 & E & EA & Q)]; rewrite EA.
    + assert (NE : forall k rs, In (k, rs) g -> eqk k (key r) = false).
      { intros k rs I. destruct (eqk k (key r)) eqn:X; [|reflexivity]. apply eqk_iff in X as (X1 & X2). rewrite Forall_forall in L1, L2.
        rewrite E in I. apply in_app_iff in I as [I|I]; [specialize (L1 _ I)|specialize (L2 _ I)]; cbn in *; congruence. }
      rewrite E in S. apply sorted_app in S as (S1 & S2 & S3). split.
      * apply sorted_app. split; [exact S1|]. split.
        -- constructor; [exact S2|]. exact L2.
        -- intros x y I [<-|J]; [rewrite Forall_forall in L1; exact (L1 x I)|auto].
      * intros k rs I. assert (CASE : In (k, rs) g \/ (key r, [r]) = (k, rs)).
        { rewrite E. rewrite in_app_iff in *. cbn in I. tauto. }
        destruct CASE as [J|J].
        -- destruct (C k rs J) as (-> & x & X1 & X2). rewrite FS, (NE _ _ J), app_nil_r. split; [reflexivity|]. exists x. split; [apply in_app_iff; auto|exact X2].
        -- injection J as <- <-. split.
           ++ rewrite FS, eqk_refl by assumption. rewrite (filter_nothing _ l); [reflexivity|]. intros x I'. destruct (V x I') as (k' & rs' & J & Q).
              destruct (eqk (key r) (key x)) eqn:X; [|reflexivity]. rewrite <- (NE _ _ J). symmetry. apply (eqk_trans _ (key x)); eauto. rewrite eqk_sym. exact X.
           ++ exists r. split; [apply in_app_iff; right; left; reflexivity|reflexivity].
      * intros x I. apply in_app_iff in I as [I|[<-|[]]].
        -- destruct (V x I) as (k & rs & J & Q). exists k, rs. split; [|exact Q]. rewrite E in J. rewrite in_app_iff in *. cbn. tauto.
        -- exists (key r), [r]. split; [apply in_app_iff; right; left; reflexivity|apply eqk_refl; assumption].
    + assert (PK' : P k') by (apply (PG' k' rs); rewrite E; apply in_app_iff; right; left; reflexivity).
      rewrite E in S. assert (S0 := S). apply sorted_app in S as (S1 & S2 & S3). inversion_clear S2 as [|? ? S4 S5].
      assert (NE : forall k rs', In (k, rs') (g1 ++ g2) -> eqk k (key r) = false).
      { intros k rs' I. assert (PKK : P k) by (apply (PG' k rs'); rewrite E; rewrite in_app_iff in *; cbn; tauto).
        destruct (eqk k (key r)) eqn:X; [|reflexivity]. assert (Y : eqk k k' = true) by (apply (eqk_trans _ (key r)); auto; rewrite eqk_sym; exact Q).
        apply eqk_iff in Y as (Y1 & Y2). apply in_app_iff in I as [I|I].
        - specialize (S3 _ (k', rs) I (or_introl eq_refl)). unfold before in S3. cbn in S3. congruence.
        - rewrite Forall_forall in S5. specialize (S5 _ I). unfold before in S5. cbn in S5. congruence. }
      split.
      * apply sorted_app. split; [exact S1|]. split.
        -- constructor; [exact S4|]. exact S5.
        -- intros x y I [<-|J]; [exact (S3 x (k', rs) I (or_introl eq_refl))|apply S3; [exact I|right; exact J]].
      * intros k rs' I. assert (CASE : In (k, rs') (g1 ++ g2) \/ (k', rs ++ [r]) = (k, rs')).
        { rewrite in_app_iff in *. cbn in I. tauto. }
        destruct CASE as [J|J].
        -- assert (J' : In (k, rs') g) by (rewrite E; rewrite in_app_iff in *; cbn; tauto).
           destruct (C k rs' J') as (-> & x & X1 & X2). rewrite FS, (NE _ _ J), app_nil_r. split; [reflexivity|]. exists x. split; [apply in_app_iff; auto|exact X2].
        -- injection J as <- <-. assert (J' : In (k', rs) g) by (rewrite E; apply in_app_iff; right; left; reflexivity).
           destruct (C k' rs J') as (-> & x & X1 & X2). rewrite FS, Q. split; [reflexivity|]. exists x. split; [apply in_app_iff; auto|exact X2].
      * intros x I. apply in_app_iff in I as [I|[<-|[]]].
        -- destruct (V x I) as (k & rs' & J & Q'). rewrite E in J. apply in_app_iff in J as [J|[J|J]].
           ++ exists k, rs'. split; [apply in_app_iff; auto|exact Q'].
           ++ injection J as <- <-. exists k', (rs ++ [r]). split; [apply in_app_iff; right; left; reflexivity|exact Q'].
           ++ exists k, rs'. split; [apply in_app_iff; right; right; exact J|exact Q'].
        -- exists k', (rs ++ [r]). split; [apply in_app_iff; right; left; reflexivity|exact Q].
Qed.

Lemma grouped_nonempty l g k rs : (forall r, In r l -> P (key r)) -> grouped l g -> In (k, rs) g -> rs <> [].
Proof.
  intros PL [_ C _] I. destruct (C k rs I) as (-> & x & J & <-). intros E.
  assert (X : In x (filter (fun r => eqk (key x) (key r)) l)) by (apply filter_In; split; [exact J|apply eqk_refl; auto]). rewrite E in X. exact X.
Qed.

Lemma sorted_nth {A} (S : A -> A -> Prop) l : StronglySorted S l -> forall a b x y, (a < b)%nat -> nth_error l a = Some x -> nth_error l b = Some y -> S x y.
Proof.
  induction 1 as [|z l HS IH HF]; intros a b x y L X Y; [destruct a; discriminate|]. destruct b as [|b]; [lia|]. cbn in Y. destruct a as [|a]; cbn in X.
  - injection X as <-. rewrite Forall_forall in HF. apply HF. eapply nth_error_In; exact Y.
  - apply (IH a b); auto. lia.
Qed.
Lemma grouped_distinct l g a b ka ra kb rb : grouped l g -> nth_error g a = Some (ka, ra) -> nth_error g b = Some (kb, rb) -> eqk ka kb = true -> a = b.
Proof.
  intros [S _ _] X Y E. apply eqk_iff in E as (E1 & E2). destruct (Nat.lt_total a b) as [L|[L|L]]; [|exact L|].
  - assert (Z := sorted_nth _ _ S a b _ _ L X Y). unfold before in Z. cbn in Z. congruence.
  - assert (Z := sorted_nth _ _ S b a _ _ L Y X). unfold before in Z. cbn in Z. congruence.
Qed.
End Group.

(** ** The orders *)
Lemma lt64_xval (x y : f64) : is_nan x = false -> is_nan y = false -> (lt64 x y = true <-> (xval x < xval y)%R).
Proof. intros A B. unfold lt64. rewrite Bltb_xval by assumption. destruct (Raux.Rlt_bool_spec (xval x) (xval y)); split; intros; try lra; congruence. Qed.
Lemma eq64_xval (x y : f64) : is_nan x = false -> is_nan y = false -> (eq64 x y = true <-> xval x = xval y).
Proof. intros A B. unfold eq64. rewrite Beqb_xval by assumption. destruct (Raux.Req_bool_spec (xval x) (xval y)); split; intros; congruence. Qed.
Lemma eq64_lt64 (x y : f64) : is_nan x = false -> is_nan y = false -> eq64 x y = negb (lt64 x y) && negb (lt64 y x).
Proof.
  intros A B. destruct (eq64 x y) eqn:E; symmetry.
  - apply (eq64_xval x y A B) in E. destruct (lt64 x y) eqn:X; [apply (lt64_xval x y A B) in X; lra|].
    destruct (lt64 y x) eqn:Y; [apply (lt64_xval y x B A) in Y; lra|]. reflexivity.
  - destruct (lt64 x y) eqn:X; [reflexivity|]. destruct (lt64 y x) eqn:Y; [reflexivity|]. exfalso.
    assert (E' : eq64 x y = true); [|congruence]. apply (eq64_xval x y A B).
    assert (~ (xval x < xval y)%R) by (intros L; apply (lt64_xval x y A B) in L; congruence).
    assert (~ (xval y < xval x)%R) by (intros L; apply (lt64_xval y x B A) in L; congruence). lra.
Qed.
Lemma lt64_weak (x y z : f64) : is_nan z = false -> lt64 x y = true -> lt64 x z = true \/ lt64 z y = true.
Proof.
  intros C H. destruct (Bltb_not_nan 53 1024 _ _ H) as (A & B). apply (lt64_xval x y A B) in H.
  destruct (Rlt_le_dec (xval x) (xval z)); [left; apply lt64_xval; assumption|right; apply lt64_xval; auto; lra].
Qed.

Definition nums (f : list f64) : Prop := Forall (fun y => is_nan y = false) f.
Lemma keys_irr a : nums a -> keys_lt a a = false.
Proof. induction 1 as [|x a X A IH]; [reflexivity|]. cbn. rewrite IH. unfold lt64. rewrite Bltb_irrefl. reflexivity. Qed.
Lemma keys_tr a b c : nums a -> nums b -> nums c -> keys_lt a b = true -> keys_lt b c = true -> keys_lt a c = true.
Proof.
  revert b c. induction a as [|x a IH]; intros [|y b] [|z c] A B C H1 H2; try discriminate; try reflexivity.
  inversion_clear A as [|? ? X A']. inversion_clear B as [|? ? Y B']. inversion_clear C as [|? ? Z C']. cbn in *.
  apply orb_true_iff in H1. apply orb_true_iff in H2. apply orb_true_iff.
  destruct H1 as [H1|H1]; [|apply andb_true_iff in H1 as [N1 H1]; apply negb_true_iff in N1].
  - left. destruct H2 as [H2|H2]; [exact (Bltb_trans 53 1024 _ _ _ H1 H2)|]. apply andb_true_iff in H2 as [N2 H2]. apply negb_true_iff in N2.
    destruct (lt64_weak x y z Z H1) as [W|W]; [exact W|congruence].
  - destruct H2 as [H2|H2].
    + left. destruct (lt64_weak y z x X H2) as [W|W]; [congruence|exact W].
    + apply andb_true_iff in H2 as [N2 H2]. apply negb_true_iff in N2. right. apply andb_true_iff. split; [|exact (IH b c A' B' C' H1 H2)].
      apply negb_true_iff. destruct (lt64 z x) eqn:W; [|reflexivity]. destruct (lt64_weak z x y Y W); congruence.
Qed.
Lemma keys_weak a b c : nums a -> nums b -> nums c -> keys_lt a b = true -> keys_lt a c = true \/ keys_lt c b = true.
Proof.
  revert b c. induction a as [|x a IH]; intros [|y b] [|z c] A B C H; try discriminate; try (left; reflexivity); try (right; reflexivity).
  inversion_clear A as [|? ? X A']. inversion_clear B as [|? ? Y B']. inversion_clear C as [|? ? Z C']. cbn in *.
  rewrite !orb_true_iff, !andb_true_iff, !negb_true_iff. apply orb_true_iff in H as [H|H].
  - destruct (lt64_weak x y z Z H); auto.
  - apply andb_true_iff in H as [N H]. apply negb_true_iff in N. destruct (lt64 x z) eqn:XZ; [auto|]. destruct (lt64 z y) eqn:ZY; [auto|].
    destruct (IH b c A' B' C' H) as [W|W].
    + left. right. split; [|exact W]. destruct (lt64 z x) eqn:ZX; [|reflexivity]. destruct (lt64_weak z x y Y ZX); congruence.
    + right. right. split; [|exact W]. destruct (lt64 y z) eqn:YZ; [|reflexivity]. destruct (lt64_weak y z x X YZ); congruence.
Qed.
Lemma same_b_eqk f g : nums f -> nums g -> same_b f g = eqk keys_lt f g.
Proof.
  intros F. revert g. induction F as [|x f X F IH]; intros [|y g] G; try reflexivity. inversion_clear G as [|? ? Y G']. cbn [same_b].
  rewrite eq64_lt64, IH by assumption. unfold eqk. cbn [keys_lt]. destruct (lt64 x y) eqn:A, (lt64 y x) eqn:B; cbn; try reflexivity.
Qed.

Definition pnums (k : list f64 * Z) : Prop := nums (fst k).
Lemma pair_irr a : pnums a -> pair_lt a a = false.
Proof. intros H. unfold pair_lt. rewrite keys_irr by exact H. cbn. apply Z.ltb_irrefl. Qed.
Lemma pair_eqk a b : eqk pair_lt a b = eqk keys_lt (fst a) (fst b) && (snd a =? snd b)%Z.
Proof.
  unfold eqk, pair_lt. destruct (keys_lt (fst a) (fst b)) eqn:A, (keys_lt (fst b) (fst a)) eqn:B; cbn; try reflexivity.
  destruct (Z.ltb_spec (snd a) (snd b)), (Z.ltb_spec (snd b) (snd a)), (Z.eqb_spec (snd a) (snd b)); cbn; try reflexivity; lia.
Qed.
Lemma pair_tr a b c : pnums a -> pnums b -> pnums c -> pair_lt a b = true -> pair_lt b c = true -> pair_lt a c = true.
Proof.
  unfold pnums, pair_lt. intros A B C. rewrite !orb_true_iff, !andb_true_iff, !negb_true_iff, !Z.ltb_lt.
  intros [H1|(N1 & H1)] [H2|(N2 & H2)].
  - left. eapply keys_tr; [| | |exact H1|exact H2]; assumption.
  - left. destruct (keys_weak _ _ (fst c) A B C H1); [assumption|congruence].
  - left. destruct (keys_weak _ _ (fst a) B C A H2); [congruence|assumption].
  - destruct (keys_lt (fst a) (fst c)) eqn:E; [auto|]. right. split; [|lia].
    destruct (keys_lt (fst c) (fst a)) eqn:W; [|reflexivity]. destruct (keys_weak _ _ (fst b) C A B W); congruence.
Qed.
Lemma pair_weak a b c : pnums a -> pnums b -> pnums c -> pair_lt a b = true -> pair_lt a c = true \/ pair_lt c b = true.
Proof.
  unfold pnums, pair_lt. intros A B C. rewrite !orb_true_iff, !andb_true_iff, !negb_true_iff, !Z.ltb_lt.
  intros [H|(N & H)].
  - destruct (keys_weak _ _ (fst c) A B C H); auto.
  - destruct (keys_lt (fst a) (fst c)) eqn:AC; [auto|]. destruct (keys_lt (fst c) (fst b)) eqn:CB; [auto|].
    destruct (keys_lt (fst c) (fst a)) eqn:CA.
    + destruct (keys_weak _ _ (fst b) C A B CA); congruence.
    + destruct (keys_lt (fst b) (fst c)) eqn:BC; [destruct (keys_weak _ _ (fst a) B C A BC); congruence|].
      destruct (Z.lt_ge_cases (snd a) (snd c)); [auto|]. right. right. split; [reflexivity|lia].
Qed.
Lemma eqk_Z a b : eqk Z.ltb a b = (a =? b)%Z.
Proof. unfold eqk. destruct (Z.ltb_spec a b), (Z.ltb_spec b a), (Z.eqb_spec a b); cbn; try reflexivity; lia. Qed.
Lemma same_b_iff f g : same_b f g = true <-> same_features f g.
Proof.
  split.
  - revert g. induction f as [|x f IH]; intros [|y g] H; try discriminate; [constructor|]. cbn in H. apply andb_true_iff in H as [A B]. constructor; [exact A|]. apply IH; exact B.
  - induction 1 as [|x y f g A B IH]; [reflexivity|]. cbn. rewrite A. exact IH.
Qed.

(** ** The least *)
Lemma idxmin_spec {A} (v : A -> f64) l : forall best, Forall (fun y => is_nan (v y) = false) (best :: l) ->
  exists pre post, best :: l = pre ++ idxmin v best l :: post /\
    Forall (fun y => lt64 (v (idxmin v best l)) (v y) = true) pre /\ Forall (fun y => lt64 (v y) (v (idxmin v best l)) = false) post.
Proof.
  induction l as [|x l IH]; intros best F.
  - exists [], []. repeat split; constructor.
  - inversion_clear F as [|? ? FB F']. inversion_clear F' as [|? ? FX FL]. cbn [idxmin]. destruct (lt64 (v x) (v best)) eqn:E.
    + destruct (IH x (Forall_cons _ FX FL)) as (pre & post & D & A1 & A2). set (m := idxmin v x l) in *. exists (best :: pre), post.
      split; [cbn; f_equal; exact D|]. split; [|exact A2]. constructor; [|exact A1].
      destruct pre as [|y pre]; cbn in D; injection D as D1 D2.
      * rewrite <- D1. exact E.
      * rewrite D1 in E. inversion_clear A1 as [|? ? A3 A4]. exact (Bltb_trans 53 1024 _ _ _ A3 E).
    + destruct (IH best (Forall_cons _ FB FL)) as (pre & post & D & A1 & A2). set (m := idxmin v best l) in *. destruct pre as [|y pre]; cbn in D; injection D as D1 D2.
      * exists [], (x :: l). rewrite <- D1 in *. split; [reflexivity|]. split; [constructor|]. constructor; [exact E|]. rewrite D2. exact A2.
      * inversion_clear A1 as [|? ? A3 A4]. exists (best :: x :: pre), post. split; [cbn; rewrite <- D2; reflexivity|]. split; [|exact A2].
        subst y. constructor; [exact A3|]. constructor; [|exact A4]. destruct (lt64_weak _ _ (v x) FX A3) as [W|W]; [exact W|congruence].
Qed.

Lemma filter_split {A} (p : A -> bool) l : forall pre m post, filter p l = pre ++ m :: post ->
  exists b a, l = b ++ m :: a /\ filter p b = pre /\ filter p a = post.
Proof.
  induction l as [|x l IH]; intros pre m post E; cbn in E; [destruct pre; discriminate|]. destruct (p x) eqn:X.
  - destruct pre as [|y pre]; cbn in E; injection E as <- E.
    + exists [], l. repeat split. exact E.
    + destruct (IH pre m post E) as (b & a & -> & B & C). exists (x :: b), a. repeat split; [|exact C]. cbn. rewrite X, B. reflexivity.
  - destruct (IH pre m post E) as (b & a & -> & B & C). exists (x :: b), a. repeat split; [|exact C]. cbn. rewrite X. exact B.
Qed.

Lemma flat_map_single {A B} (f : A -> list B) (h : A -> B) l : (forall x, In x l -> f x = [h x]) -> flat_map f l = map h l.
Proof. induction l as [|x l IH]; intros H; [reflexivity|]. cbn. rewrite (H x (or_introl eq_refl)), IH; [reflexivity|]. intros y I. apply H. right; exact I. Qed.
Lemma filter_filter' {A} (p q : A -> bool) l : filter p (filter q l) = filter (fun x => q x && p x) l.
Proof. induction l as [|x l IH]; [reflexivity|]. cbn. destruct (q x); cbn; [destruct (p x)|]; rewrite IH; reflexivity. Qed.
Lemma nth_map_inv {A B} (f : A -> B) l n y : nth_error (map f l) n = Some y -> exists x, nth_error l n = Some x /\ f x = y.
Proof. revert n. induction l as [|x l IH]; intros [|n] H; try discriminate; cbn in H; [injection H as <-; exists x; auto|]. apply IH. exact H. Qed.

Lemma numbers_features l r : numbers l -> In r l -> nums (p_features r).
Proof. intros N I. unfold numbers in N. rewrite Forall_forall in N. specialize (N r I). destruct r as [[f p] x]. exact (proj1 N). Qed.
Lemma numbers_time l r : numbers l -> In r l -> is_nan (p_time r) = false.
Proof. intros N I. unfold numbers in N. rewrite Forall_forall in N. specialize (N r I). destruct r as [[f p] x]. exact (proj2 N). Qed.

(** ** agg_by_mean *)
Theorem agg_mean mean l : numbers l ->
  one_per_policy (agg_by_mean mean l) /\ covers_policies l (agg_by_mean mean l) /\
  forall f p x, In (f, p, x) (agg_by_mean mean l) -> (exists y, In (f, p, y) l) /\ x = mean (times l f p).
Proof.
  intros N. set (key := fun r : point => (p_features r, p_policy r)).
  assert (PL : forall r, In r l -> pnums (key r)) by (intros r I; exact (numbers_features l r N I)).
  assert (G := group_by_grouped pair_lt key pnums pair_irr pair_tr pair_weak l PL). unfold agg_by_mean. fold key. set (g := group_by pair_lt key l) in *.
  assert (PG : forall k rs, In (k, rs) g -> pnums k) by (intros k rs I; destruct (gr_content _ _ _ _ G k rs I) as (_ & r & J & <-); auto).
  split; [|split].
  - intros a b f h p x y A B S. apply nth_map_inv in A as ([[f1 p1] ra] & A & EA). apply nth_map_inv in B as ([[f2 p2] rb] & B & EB). cbn in EA, EB.
    injection EA as <- <- _. injection EB as <- -> _. apply (grouped_distinct pair_lt key l g a b (f1, p1) ra (f2, p1) rb G A B).
    rewrite pair_eqk. cbn [fst snd]. rewrite Z.eqb_refl, andb_true_r. rewrite <- same_b_eqk; [apply same_b_iff; exact S| |].
    + exact (PG _ _ (nth_error_In _ _ A)). + exact (PG _ _ (nth_error_In _ _ B)).
  - intros f p x I. destruct (gr_cover _ _ _ _ G _ I) as ([f1 p1] & rs & J & Q). rewrite pair_eqk in Q. cbn in Q. apply andb_true_iff in Q as (Q1 & Q2).
    apply Z.eqb_eq in Q2. exists f1, (mean (map p_time rs)). split.
    + apply in_map_iff. exists ((f1, p1), rs). cbn. subst p1. auto.
    + apply same_b_iff. rewrite same_b_eqk, eqk_sym; [exact Q1|exact (PL _ I)|exact (PG _ _ J)].
  - intros f p x I. apply in_map_iff in I as ([[f1 p1] rs] & E & I). cbn in E. injection E as -> -> <-. destruct (gr_content _ _ _ _ G _ _ I) as (R & r & J & E).
    split.
    + destruct r as [[f2 p2] y]. change ((f2, p2) = (f, p)) in E. injection E as -> ->. exists y. exact J.
    + f_equal. unfold times. rewrite R. f_equal. apply filter_ext_in. intros [[f2 p2] y] K. rewrite pair_eqk. cbn.
      rewrite same_b_eqk; [reflexivity|exact (PG _ _ I)|exact (PL _ K)].
Qed.

(** ** agg_by_min *)
Definition pick {A} (v : A -> f64) (d : A) (l : list A) : A := match l with [] => d | x :: r => idxmin v x r end.
Lemma least_pick {A} (v : A -> f64) d l : l <> [] -> least v l = [pick v d l].
Proof. destruct l; [congruence|reflexivity]. Qed.

Theorem agg_min l : numbers l ->
  one_each (agg_by_min l) /\ covers l (agg_by_min l) /\
  forall f p x, In (f, p, x) (agg_by_min l) ->
    exists b a, l = b ++ (f, p, x) :: a /\
      (forall g q y, In (g, q, y) b -> same_features f g -> lt64 x y = true) /\
      (forall g q y, In (g, q, y) a -> same_features f g -> lt64 y x = false).
Proof.
  intros N. assert (PL : forall r, In r l -> nums (p_features r)) by (intros r I; exact (numbers_features l r N I)).
  assert (G := group_by_grouped keys_lt p_features nums keys_irr keys_tr keys_weak l PL). unfold agg_by_min. set (g := group_by keys_lt p_features l) in *.
  assert (PG : forall k rs, In (k, rs) g -> nums k) by (intros k rs I; destruct (gr_content _ _ _ _ G k rs I) as (_ & r & J & <-); auto).
  set (d := ([], 0%Z, zero64) : point).
  rewrite (flat_map_single _ (fun kg => pick p_time d (snd kg))).
  2:{ intros [k rs] I. apply least_pick. exact (grouped_nonempty keys_lt p_features nums keys_irr l g k rs PL G I). }
  assert (PICK : forall k rs, In (k, rs) g -> exists pre post, rs = pre ++ pick p_time d rs :: post /\
    Forall (fun y => lt64 (p_time (pick p_time d rs)) (p_time y) = true) pre /\ Forall (fun y => lt64 (p_time y) (p_time (pick p_time d rs)) = false) post).
  { intros k rs I. assert (NE := grouped_nonempty keys_lt p_features nums keys_irr l g k rs PL G I). destruct (gr_content _ _ _ _ G k rs I) as (R & _).
    destruct rs as [|r rs]; [congruence|]. cbn [pick]. apply idxmin_spec. rewrite R. apply Forall_forall. intros y J. apply filter_In in J as [J _]. exact (numbers_time l y N J). }
  assert (IN : forall k rs, In (k, rs) g -> In (pick p_time d rs) l /\ eqk keys_lt k (p_features (pick p_time d rs)) = true).
  { intros k rs I. destruct (PICK k rs I) as (pre & post & E & _). destruct (gr_content _ _ _ _ G k rs I) as (R & _).
    assert (J : In (pick p_time d rs) rs) by (rewrite E at 2; apply in_app_iff; right; left; reflexivity).
    rewrite R in J at 2. apply filter_In in J. exact J. }
  split; [|split].
  - intros a b f h p q x y A B S. apply nth_map_inv in A as ([k1 ra] & A & EA). apply nth_map_inv in B as ([k2 rb] & B & EB). cbn [snd] in EA, EB.
    assert (IA := nth_error_In _ _ A). assert (IB := nth_error_In _ _ B). destruct (IN _ _ IA) as (LA & QA). destruct (IN _ _ IB) as (LB & QB). rewrite EA in LA, QA. rewrite EB in LB, QB. cbn [p_features fst] in QA, QB.
    apply (grouped_distinct keys_lt p_features l g a b k1 ra k2 rb G A B).
    apply (eqk_trans keys_lt nums keys_weak k1 f k2); [exact (PG _ _ IA)|exact (PL _ LA)|exact (PG _ _ IB)|exact QA|].
    apply (eqk_trans keys_lt nums keys_weak f h k2); [exact (PL _ LA)|exact (PL _ LB)|exact (PG _ _ IB)| |rewrite eqk_sym; exact QB].
    rewrite <- same_b_eqk; [apply same_b_iff; exact S|exact (PL _ LA)|exact (PL _ LB)].
  - intros f p x I. destruct (gr_cover _ _ _ _ G _ I) as (k & rs & J & Q). destruct (IN _ _ J) as (L & Q'). destruct (pick p_time d rs) as [[f' p'] x'] eqn:E.
    exists f', p', x'. split; [apply in_map_iff; exists (k, rs); auto|]. apply same_b_iff. cbn [p_features fst] in *. rewrite same_b_eqk; [|exact (PL _ I)|exact (PL _ L)].
    apply (eqk_trans keys_lt nums keys_weak f k f'); [exact (PL _ I)|exact (PG _ _ J)|exact (PL _ L)|rewrite eqk_sym; exact Q|exact Q'].
  - intros f p x I. apply in_map_iff in I as ([k rs] & E & I). cbn [snd] in E. destruct (PICK k rs I) as (pre & post & D & A1 & A2). destruct (IN _ _ I) as (L & Q).
    rewrite E in *. destruct (gr_content _ _ _ _ G k rs I) as (R & _). rewrite R in D. apply filter_split in D as (b & a & EL & FB & FA).
    exists b, a. split; [exact EL|].
    assert (M : forall h q y, In (h, q, y) l -> same_features f h -> eqk keys_lt k h = true).
    { intros h q y J S. apply (eqk_trans keys_lt nums keys_weak k f h); [exact (PG _ _ I)|exact (PL _ L)|exact (PL _ J)|exact Q|].
      rewrite <- same_b_eqk; [apply same_b_iff; exact S|exact (PL _ L)|exact (PL _ J)]. }
    split; intros h q y J S.
    + rewrite Forall_forall in A1. apply (A1 (h, q, y)). rewrite <- FB. apply filter_In. split; [exact J|]. apply (M h q y); [rewrite EL; apply in_app_iff; auto|exact S].
    + rewrite Forall_forall in A2. apply (A2 (h, q, y)). rewrite <- FA. apply filter_In. split; [exact J|]. apply (M h q y); [rewrite EL; apply in_app_iff; right; right; exact J|exact S].
Qed.

(** ** agg_by_mean_min *)
Lemma sorted_map {A B} (S : A -> A -> Prop) (T : B -> B -> Prop) (f : A -> B) l : (forall x y, S x y -> T (f x) (f y)) -> StronglySorted S l -> StronglySorted T (map f l).
Proof.
  intros H. induction 1 as [|x l HS IH HF]; [constructor|]. cbn. constructor; [exact IH|]. apply Forall_map. eapply Forall_impl; [|exact HF]. intros y Y. apply H. exact Y.
Qed.
Lemma times_in l f p : times l f p <> [] <-> exists g y, In (g, p, y) l /\ same_b f g = true.
Proof.
  unfold times. split.
  - intros H. destruct (filter _ l) as [|[[g q] y] r] eqn:E; [contradiction H; reflexivity|].
    assert (I : In (g, q, y) ((g, q, y) :: r)) by (left; reflexivity). rewrite <- E in I. apply filter_In in I as (I & B). apply andb_true_iff in B as (B & C). apply Z.eqb_eq in C. subst q. exists g, y. auto.
  - intros (g & y & I & B) E. apply map_eq_nil in E. assert (J : In (g, p, y) (filter (fun m => let '(h, q, _) := m in same_b f h && (p =? q)%Z) l)) by (apply filter_In; rewrite B, Z.eqb_refl; auto).
    rewrite E in J. exact J.
Qed.

Definition inner (mean : list f64 -> f64) (rs : list point) : list (Z * f64) := map (fun pg => (fst pg, mean (map p_time (snd pg)))) (group_by Z.ltb p_policy rs).

Lemma inner_spec mean l k rs : numbers l -> nums k -> rs = filter (fun r => eqk keys_lt k (p_features r)) l -> rs <> [] ->
  (forall p, times l k p <> [] -> is_nan (mean (times l k p)) = false) ->
  exists p, least snd (inner mean rs) = [(p, mean (times l k p))] /\ times l k p <> [] /\
    forall q, times l k q <> [] -> lt64 (mean (times l k q)) (mean (times l k p)) = false /\ ((q < p)%Z -> lt64 (mean (times l k p)) (mean (times l k q)) = true).
Proof.
  intros N NK R NE NM.
  assert (G : grouped Z.ltb p_policy rs (group_by Z.ltb p_policy rs)).
  { apply (group_by_grouped Z.ltb p_policy (fun _ => True)); auto.
    - intros a _. apply Z.ltb_irrefl.
    - intros a b c _ _ _. rewrite !Z.ltb_lt. lia.
    - intros a b c _ _ _. rewrite !Z.ltb_lt. lia. }
  set (sg := group_by Z.ltb p_policy rs) in *.
  assert (MT : forall p rs', In (p, rs') sg -> map p_time rs' = times l k p).
  { intros p rs' I. destruct (gr_content _ _ _ _ G p rs' I) as (E & _). unfold times. rewrite E, R, filter_filter'. f_equal. apply filter_ext_in. intros [[g q] y] J. cbn.
    rewrite eqk_Z, same_b_eqk; [reflexivity|exact NK|]. exact (numbers_features l _ N J). }
  assert (TN : forall p rs', In (p, rs') sg -> times l k p <> []).
  { intros p rs' I E. rewrite <- (MT p rs' I) in E. apply map_eq_nil in E.
    refine (grouped_nonempty Z.ltb p_policy (fun _ => True) _ rs sg p rs' _ G I E); auto. intros a _. apply Z.ltb_irrefl. }
  assert (EQ : inner mean rs = map (fun pg => (fst pg, mean (times l k (fst pg)))) sg).
  { apply map_ext_in. intros [p rs'] I. cbn. rewrite (MT p rs' I). reflexivity. }
  rewrite EQ. set (ms := map (fun pg : Z * list point => (fst pg, mean (times l k (fst pg)))) sg).
  assert (MN : ms <> []).
  { intros E. apply map_eq_nil in E. destruct rs as [|r rs]; [congruence|]. destruct (gr_cover _ _ _ _ G r (or_introl eq_refl)) as (p & rs' & I & _). rewrite E in I. exact I. }
  assert (MS : StronglySorted (fun a b => (fst a < fst b)%Z) ms).
  { apply (sorted_map (before Z.ltb)); [|exact (gr_sorted _ _ _ _ G)]. intros x y H. cbn. apply Z.ltb_lt. exact H. }
  assert (MM : forall p x, In (p, x) ms -> x = mean (times l k p) /\ times l k p <> []).
  { intros p x I. apply in_map_iff in I as ([p' rs'] & E & I). cbn in E. injection E as -> <-. split; [reflexivity|exact (TN _ _ I)]. }
  assert (MC : forall q, times l k q <> [] -> In (q, mean (times l k q)) ms).
  { intros q H. apply times_in in H as (g & y & I & B). assert (J : In (g, q, y) rs).
    { rewrite R. apply filter_In. split; [exact I|]. rewrite <- same_b_eqk; [exact B|exact NK|exact (numbers_features l _ N I)]. }
    destruct (gr_cover _ _ _ _ G _ J) as (p & rs' & S & Q). rewrite eqk_Z in Q. apply Z.eqb_eq in Q. cbn in Q. subst p. apply in_map_iff. exists (q, rs'). auto. }
  clearbody ms. destruct ms as [|m0 ms]; [congruence|]. cbn [least].
  assert (FN : Forall (fun y : Z * f64 => is_nan (snd y) = false) (m0 :: ms)).
  { apply Forall_forall. intros [p x] I. destruct (MM p x I) as (-> & T). exact (NM p T). }
  destruct (idxmin_spec snd ms m0 FN) as (pre & post & D & A1 & A2). set (m := idxmin snd m0 ms) in *. clearbody m. destruct m as [p x].
  assert (IM : In (p, x) (m0 :: ms)) by (refine (eq_ind_r (fun z => In (p, x) z) _ D); apply in_app_iff; right; left; reflexivity).
  destruct (MM p x IM) as (EX & T). rewrite EX in *. exists p. split; [reflexivity|]. split; [exact T|].
  intros q H. assert (IQ := eq_ind _ (fun z => In _ z) (MC q H) _ D). assert (MS' := eq_ind _ (fun z => StronglySorted _ z) MS _ D). clear MS. rename MS' into MS. apply sorted_app in MS as (S1 & S2 & S3). inversion_clear S2 as [|? ? S4 S5].
  apply in_app_iff in IQ as [I|[I|I]].
  - rewrite Forall_forall in A1. specialize (A1 _ I). cbn in A1. split; [exact (Bltb_asym 53 1024 _ _ A1)|intros _; exact A1].
  - injection I as <- _. split; [apply Bltb_irrefl|lia].
  - rewrite Forall_forall in A2, S5. specialize (A2 _ I). specialize (S5 _ I). cbn in A2, S5. split; [exact A2|lia].
Qed.


Theorem agg_mean_min mean l : numbers l -> (forall f p, times l f p <> [] -> is_nan (mean (times l f p)) = false) ->
  one_each (agg_by_mean_min mean l) /\ covers l (agg_by_mean_min mean l) /\
  forall f p x, In (f, p, x) (agg_by_mean_min mean l) ->
    (exists q y, In (f, q, y) l) /\ times l f p <> [] /\ x = mean (times l f p) /\
    forall q, times l f q <> [] -> lt64 (mean (times l f q)) x = false /\ ((q < p)%Z -> lt64 x (mean (times l f q)) = true).
Proof.
  intros N NM. assert (PL : forall r, In r l -> nums (p_features r)) by (intros r I; exact (numbers_features l r N I)).
  assert (G := group_by_grouped keys_lt p_features nums keys_irr keys_tr keys_weak l PL). unfold agg_by_mean_min. set (g := group_by keys_lt p_features l) in *.
  assert (PG : forall k rs, In (k, rs) g -> nums k) by (intros k rs I; destruct (gr_content _ _ _ _ G k rs I) as (_ & r & J & <-); auto).
  set (h := fun kg : list f64 * list point => match least snd (inner mean (snd kg)) with px :: _ => (fst kg, fst px, snd px) | [] => (fst kg, 0%Z, zero64) end).
  assert (H : forall k rs, In (k, rs) g -> exists p, least snd (inner mean rs) = [(p, mean (times l k p))] /\ times l k p <> [] /\
    forall q, times l k q <> [] -> lt64 (mean (times l k q)) (mean (times l k p)) = false /\ ((q < p)%Z -> lt64 (mean (times l k p)) (mean (times l k q)) = true)).
  { intros k rs I. apply inner_spec; [exact N|exact (PG _ _ I)|exact (proj1 (gr_content _ _ _ _ G k rs I))|exact (grouped_nonempty keys_lt p_features nums keys_irr l g k rs PL G I)|apply NM]. }
  rewrite (flat_map_single _ h).
  2:{ intros [k rs] I. destruct (H k rs I) as (p & E & _). cbv zeta. fold (inner mean (snd (k, rs))). unfold h. cbn [snd fst]. rewrite E. reflexivity. }
  assert (HK : forall k rs, fst (fst (h (k, rs))) = k) by (intros k rs; unfold h; cbn [snd fst]; destruct (least snd (inner mean rs)); reflexivity).
  split; [|split].
  - intros a b f f' p q x y A B S. apply nth_map_inv in A as ([k1 ra] & A & EA). apply nth_map_inv in B as ([k2 rb] & B & EB).
    assert (F1 := HK k1 ra). rewrite EA in F1. assert (F2 := HK k2 rb). rewrite EB in F2. cbn in F1, F2. subst k1 k2.
    apply (grouped_distinct keys_lt p_features l g a b f ra f' rb G A B). rewrite <- same_b_eqk; [apply same_b_iff; exact S|exact (PG _ _ (nth_error_In _ _ A))|exact (PG _ _ (nth_error_In _ _ B))].
  - intros f p x I. destruct (gr_cover _ _ _ _ G _ I) as (k & rs & J & Q). destruct (H k rs J) as (p' & E & _). exists k, p', (mean (times l k p')). split.
    + apply in_map_iff. exists (k, rs). split; [unfold h; cbn [snd fst]; rewrite E; reflexivity|exact J].
    + apply same_b_iff. rewrite same_b_eqk, eqk_sym; [exact Q|exact (PL _ I)|exact (PG _ _ J)].
  - intros f p x I. apply in_map_iff in I as ([k rs] & E & I). destruct (H k rs I) as (p' & EL & T & M). unfold h in E. cbn [snd fst] in E. rewrite EL in E. cbn [fst snd] in E.
    injection E as -> -> <-. split; [|split; [exact T|split; [reflexivity|exact M]]].
    destruct (gr_content _ _ _ _ G _ _ I) as (_ & [[f' q] y] & J & <-). exists q, y. exact J.
Qed.

(** The policy of mean-min is the best of the data set of mean. *)
Theorem mean_agrees mean l : numbers l -> (forall f p, times l f p <> [] -> is_nan (mean (times l f p)) = false) ->
  forall f p x, In (f, p, x) (agg_by_mean_min mean l) ->
    (exists g, same_features f g /\ In (g, p, x) (agg_by_mean mean l)) /\
    forall g q y, In (g, q, y) (agg_by_mean mean l) -> same_features f g -> lt64 y x = false /\ ((q < p)%Z -> lt64 x y = true).
Proof.
  intros N NM f p x I. destruct (agg_mean_min mean l N NM) as (_ & _ & M). destruct (M f p x I) as ((q0 & y0 & J0) & T & EX & B).
  destruct (agg_mean mean l N) as (_ & C & A). assert (NF : nums f) by exact (numbers_features l _ N J0).
  assert (TS : forall g q, nums g -> same_features f g -> times l f q = times l g q).
  { intros g q NG S. unfold times. f_equal. apply filter_ext_in. intros [[h r] y] K. f_equal. assert (NH : nums h) by exact (numbers_features l _ N K).
    apply same_b_iff in S. rewrite same_b_eqk in S by assumption. rewrite !same_b_eqk by assumption.
    destruct (eqk keys_lt g h) eqn:E.
    - exact (eqk_trans keys_lt nums keys_weak f g h NF NG NH S E).
    - destruct (eqk keys_lt f h) eqn:E2; [|reflexivity]. rewrite <- E. symmetry. apply (eqk_trans keys_lt nums keys_weak g f h NG NF NH); [rewrite eqk_sym; exact S|exact E2]. }
  split.
  - apply times_in in T as (g & y & J & S). destruct (C g p y J) as (g' & y' & K & S').
    destruct (A g' p y' K) as ((y2 & J2) & E). assert (NG' : nums g') by exact (numbers_features l _ N J2). assert (NG : nums g) by exact (numbers_features l _ N J).
    assert (S2 : same_features f g').
    { apply same_b_iff. apply same_b_iff in S'. rewrite same_b_eqk in * by assumption. exact (eqk_trans keys_lt nums keys_weak f g g' NF NG NG' S S'). }
    exists g'. split; [exact S2|]. rewrite EX, (TS g' p NG' S2), <- E. exact K.
  - intros g q y K S. destruct (A g q y K) as ((y2 & J2) & E). assert (NG : nums g) by exact (numbers_features l _ N J2).
    rewrite E, <- (TS g q NG S). apply B. apply times_in. exists g, y2. split; [exact J2|apply same_b_iff; exact S].
Qed.
