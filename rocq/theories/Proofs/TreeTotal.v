(** Training on consistent samples always succeeds. *)
From Coq Require Import List ZArith Bool Lia Sorted Permutation Reals Lra Psatz SpecFloat Arith.
From Flocq Require Import Core BinarySingleNaN Relative.
From Verif Require Import Model.Base Model.Float Model.TreeM Spec.DatasetSpec Spec.TreeSpec
  Proofs.FloatFacts Proofs.FloatConv Proofs.TreeFacts Proofs.TreeThreshold Proofs.TreeGini.
Import ListNotations.
Open Scope R_scope.

Lemma not_nan_finite prec emax (x : binary_float prec emax) : is_finite x = true -> is_nan x = false.
Proof. destruct x; auto; discriminate. Qed.

Lemma fmt_neg_pow e : (-149 <= e)%Z -> fmt32 (- bpow radix2 e).
Proof. intros. apply generic_format_opp, fmt_pow; auto. Qed.

(** Product of an exact positive integer and a score. *)
Lemma weighted (i : Z) (g : f32) : (0 < i <= 2 ^ 24)%Z -> is_finite g = true -> -1024 <= B2R g <= 1 - / 1048576 ->
  is_finite (mul32 (f32_of_Z i) g) = true /\
  - bpow radix2 34 <= B2R (mul32 (f32_of_Z i) g) <= IZR i * (1 - / 1048576) * (1 + u).
Proof.
  intros Hi F B. destruct (f32_of_Z_spec i) as [Fi Vi]; [lia|].
  assert (I1 : 1 <= IZR i <= 16777216) by (split; apply IZR_le; lia).
  assert (U : rnd32 (IZR i * B2R g) <= IZR i * (1 - / 1048576) * (1 + u)).
  { apply rnd32_rel; nra. }
  assert (L : - bpow radix2 34 <= rnd32 (IZR i * B2R g)).
  { apply round_ge_generic; try typeclasses eauto. { apply fmt_neg_pow. lia. }
    change (bpow radix2 34) with 17179869184. nra. }
  destruct (mul32_spec (f32_of_Z i) g) as [F2 V2]; auto.
  { rewrite Vi. apply small_128. rewrite bnd60. change (bpow radix2 34) with 17179869184 in L.
    unfold u in U. apply Rabs_le. nra. }
  rewrite V2, Vi. auto.
Qed.

Lemma split_gini_below classes l i : (Z.of_nat (length classes) <= 1024)%Z ->
  (forall s, In s l -> In (snd s) classes) -> (Z.of_nat (length l) <= 2 ^ 24)%Z ->
  (0 < i < length l)%nat ->
  le32 one32 (split_gini classes l i) = false.
Proof.
  intros K H N Hi.
  assert (HL : length (firstn i l) = i) by (rewrite firstn_length; lia).
  assert (HR : length (skipn i l) = (length l - i)%nat) by (rewrite skipn_length; lia).
  assert (Hsub : forall s, In s (firstn i l) \/ In s (skipn i l) -> In (snd s) classes).
  { intros s Hs. apply H. rewrite <- (firstn_skipn i l). apply in_or_app. auto. }
  assert (PL : (0 < Z.of_nat (length (firstn i l)) <= 2 ^ 24)%Z) by (rewrite HL; lia).
  assert (PR : (0 < Z.of_nat (length (skipn i l)) <= 2 ^ 24)%Z) by (rewrite HR; lia).
  destruct (gini_below (firstn i l) _ eq_refl PL classes K (fun s Hs => Hsub s (or_introl Hs))) as [FL BL].
  destruct (gini_below (skipn i l) _ eq_refl PR classes K (fun s Hs => Hsub s (or_intror Hs))) as [FR BR].
  set (n := Z.of_nat (length l)) in *.
  destruct (weighted (Z.of_nat i) _ ltac:(lia) FL BL) as [FA BA].
  destruct (weighted (n - Z.of_nat i) _ ltac:(lia) FR BR) as [FB BB].
  set (a := mul32 (f32_of_Z (Z.of_nat i)) (compute_gini classes (firstn i l))) in *.
  set (b := mul32 (f32_of_Z (n - Z.of_nat i)) (compute_gini classes (skipn i l))) in *.
  assert (N1 : 1 <= IZR n <= 16777216) by (split; apply IZR_le; lia).
  rewrite minus_IZR in BB.
  assert (S : B2R a + B2R b <= IZR n * (1 - / 1048576) * (1 + u)) by nra.
  assert (US : rnd32 (B2R a + B2R b) <= IZR n * (1 - / 1048576) * (1 + u) * (1 + u)).
  { apply rnd32_rel; auto. unfold u. nra. }
  assert (LS : - bpow radix2 35 <= rnd32 (B2R a + B2R b)).
  { apply round_ge_generic; try typeclasses eauto. { apply fmt_neg_pow. lia. }
    change (bpow radix2 34) with 17179869184 in *. change (bpow radix2 35) with 34359738368. lra. }
  destruct (add32_spec a b FA FB) as [FS VS].
  { apply small_128. rewrite bnd60. change (bpow radix2 35) with 34359738368 in LS. unfold u in US.
    apply Rabs_le. nra. }
  destruct (f32_of_Z_spec n) as [Fn Vn]; [lia|].
  set (s := add32 a b) in *. rewrite <- VS in US, LS.
  assert (D : B2R s / IZR n <= (1 - / 1048576) * (1 + u) * (1 + u)).
  { apply (Rmult_le_reg_r (IZR n)); [lra|]. unfold Rdiv. rewrite Rmult_assoc, Rinv_l by lra. nra. }
  assert (D2 : - bpow radix2 35 <= B2R s / IZR n).
  { apply (Rmult_le_reg_r (IZR n)); [lra|]. unfold Rdiv. rewrite Rmult_assoc, Rinv_l by lra.
    change (bpow radix2 35) with 34359738368 in *. nra. }
  assert (UD : rnd32 (B2R s / IZR n) <= (1 - / 1048576) * (1 + u) * (1 + u) * (1 + u)).
  { apply rnd32_rel; auto. unfold u. lra. }
  assert (LD : - bpow radix2 35 <= rnd32 (B2R s / IZR n)).
  { apply round_ge_generic; try typeclasses eauto. { apply fmt_neg_pow. lia. } auto. }
  destruct (div32_spec s (f32_of_Z n) FS) as [FD VD].
  { rewrite Vn. lra. }
  { rewrite Vn. apply small_128. rewrite bnd60. change (bpow radix2 35) with 34359738368 in LD. unfold u in UD.
    apply Rabs_le. lra. }
  change (split_gini classes l i) with (div32 s (f32_of_Z n)).
  rewrite Vn in VD. unfold le32. destruct one32_spec as [F1 V1].
  rewrite Bleb_xval, !xval_finite by auto using not_nan_finite. rbool. rewrite V1, VD. unfold u in UD. lra.
Qed.

(** Once found, a split stays found. *)
Definition found (len : nat) (b : best_split) : Prop := snd (fst (fst b)) <> len.

Lemma try_split_cases classes f l i b :
  try_split classes f l i b = b \/ snd (fst (fst (try_split classes f l i b))) = i.
Proof.
  destruct b as [[[g p] f0] th]. unfold try_split.
  destruct (eq32 _ _); auto. destruct (le32 g _); auto.
Qed.

Lemma scan_keeps classes f l is b : Forall (fun i => i < length l)%nat is -> found (length l) b ->
  found (length l) (fold_left (fun b i => try_split classes f l i b) is b).
Proof.
  intros F. revert b. induction F as [|i is Hi F IH]; intros b Hb; cbn [fold_left]; auto.
  apply IH. destruct (try_split_cases classes f l i b) as [->|E]; auto. unfold found. lia.
Qed.

Lemma seq_below l : Forall (fun i => i < length l)%nat (seq 1 (length (l : list sample) - 1)).
Proof. apply Forall_forall. intros i Hi. apply in_seq in Hi. lia. Qed.

Lemma try_finds classes f l i b :
  le32 one32 (split_gini classes l i) = false -> (0 < i < length l)%nat ->
  eq32 (feature f (nth (i - 1) l ([], 0%Z))) (feature f (nth i l ([], 0%Z))) = false ->
  (fst (fst (fst b)) = one32 \/ found (length l) b) ->
  found (length l) (try_split classes f l i b).
Proof.
  intros G Hi E [Hb|Hb].
  - destruct b as [[[g p] f0] th]. cbn [fst] in Hb. subst g. unfold try_split, feature in *. cbv zeta. rewrite E, G. unfold found; cbn. lia.
  - destruct (try_split_cases classes f l i b) as [->|X]; auto. unfold found. lia.
Qed.

Lemma scan_state classes f l is b : Forall (fun i => i < length l)%nat is ->
  (fst (fst (fst b)) = one32 \/ found (length l) b) ->
  let b' := fold_left (fun b i => try_split classes f l i b) is b in
  fst (fst (fst b')) = one32 \/ found (length l) b'.
Proof.
  intros F. revert b. induction F as [|i is Hi F IH]; intros b Hb; cbn [fold_left]; auto.
  apply IH. destruct (try_split_cases classes f l i b) as [->|E]; auto. right. unfold found. lia.
Qed.

Lemma scan_finds classes f l i b : (0 < i < length l)%nat ->
  le32 one32 (split_gini classes l i) = false ->
  eq32 (feature f (nth (i - 1) l ([], 0%Z))) (feature f (nth i l ([], 0%Z))) = false ->
  (fst (fst (fst b)) = one32 \/ found (length l) b) ->
  found (length l) (scan_feature classes f l b).
Proof.
  intros Hi G E Hb. unfold scan_feature.
  assert (S : seq 1 (length l - 1) = seq 1 (i - 1) ++ i :: seq (S i) (length l - 1 - i)).
  { replace (length l - 1)%nat with ((i - 1) + S (length l - 1 - i))%nat at 1 by lia.
    rewrite seq_app. f_equal. replace (1 + (i - 1))%nat with i by lia. reflexivity. }
  assert (F := seq_below l). rewrite S in F |- *. apply Forall_app in F. destruct F as [F1 F2].
  inversion F2; subst. rewrite fold_left_app. cbn [fold_left]. apply scan_keeps; auto.
  apply try_finds; auto. apply scan_state; auto.
Qed.

(** An adjacent pair of different values exists as soon as two values differ. *)
Lemma adjacent_differ f l x y : sorted_by f l -> In x l -> In y l -> val f x <> val f y ->
  exists i, (0 < i < length l)%nat /\ val f (nth (i - 1) l ([], 0%Z)) <> val f (nth i l ([], 0%Z)).
Proof.
  intros SS Hx Hy N.
  destruct (Exists_dec (fun i => val f (nth (i - 1) l ([], 0%Z)) <> val f (nth i l ([], 0%Z))) (seq 1 (length l - 1))) as [E|E].
  { intros i. destruct (Req_EM_T (val f (nth (i - 1) l ([], 0%Z))) (val f (nth i l ([], 0%Z)))); [right|left]; tauto. }
  { apply Exists_exists in E. destruct E as (i & Hi & E). apply in_seq in Hi. exists i. split; auto. lia. }
  exfalso.
  assert (A : forall i, (i < length l)%nat -> val f (nth i l ([], 0%Z)) = val f (nth 0 l ([], 0%Z))).
  { induction i as [|i IH]; intros Hi; auto. rewrite <- IH by lia.
    destruct (Req_EM_T (val f (nth (S i) l ([], 0%Z))) (val f (nth i l ([], 0%Z)))); auto.
    exfalso. apply E. apply Exists_exists. exists (S i). split; [apply in_seq; lia|].
    replace (S i - 1)%nat with i by lia. auto. }
  apply (In_nth (A:=sample) _ _ ([], 0%Z)) in Hx, Hy. destruct Hx as (i & Hi & <-), Hy as (j & Hj & <-).
  apply N. rewrite (A i Hi), (A j Hj); auto.
Qed.

Lemma adjacent_eq32 f l i : Forall (has_feature f) l -> (0 < i < length l)%nat ->
  val f (nth (i - 1) l ([], 0%Z)) <> val f (nth i l ([], 0%Z)) ->
  eq32 (feature f (nth (i - 1) l ([], 0%Z))) (feature f (nth i l ([], 0%Z))) = false.
Proof.
  intros F Hi N. rewrite Forall_forall in F.
  assert (H1 : has_feature f (nth (i - 1) l ([], 0%Z))) by (apply F, nth_In; lia).
  assert (H2 : has_feature f (nth i l ([], 0%Z))) by (apply F, nth_In; lia).
  unfold eq32. rewrite Beqb_xval by (apply H1 || apply H2). rbool. exact N.
Qed.

(** Samples the loops can handle. *)
Record good (classes : list Z) (k : nat) (l : list sample) : Prop := {
  g_classes : (Z.of_nat (length classes) <= 1024)%Z;
  g_ne : classes <> [];
  g_in : forall s, In s l -> In (snd s) classes;
  g_size : (Z.of_nat (length l) <= 2 ^ 24)%Z;
  g_uniform : uniform_samples k l;
  g_consistent : consistent l
}.

Lemma good_incl classes k l l' : good classes k l -> (forall s, In s l' -> In s l) -> (length l' <= length l)%nat ->
  good classes k l'.
Proof.
  intros [G1 G2 G3 G4 G5 G6] H L. constructor; auto; try lia.
  - apply Forall_forall. intros s Hs. unfold uniform_samples in G5. rewrite Forall_forall in G5. auto.
  - intros s s' Hs Hs'. apply G6; auto.
Qed.

Lemma good_perm classes k l l' : good classes k l -> Permutation l l' -> good classes k l'.
Proof.
  intros G P. eapply good_incl; eauto.
  - intros s Hs. eapply Permutation_in; [apply Permutation_sym; eauto|auto].
  - rewrite (Permutation_length P). auto.
Qed.

Lemma uniform_has k l f : uniform_samples k l -> (f < k)%nat -> Forall (has_feature f) l.
Proof.
  intros U Hf. unfold uniform_samples in U. eapply Forall_impl; [|exact U]. intros s [L N]. split; [unfold sample, f32 in *; lia|].
  rewrite Forall_forall in N. apply N. apply nth_In. unfold sample, f32 in *; lia.
Qed.

Lemma scan_features_total srt classes k : sorter_ok srt -> forall fs l b, good classes k l ->
  Forall (fun f => f < k)%nat fs -> exists l' b', scan_features srt classes fs l b = Ok (l', b').
Proof.
  intros HS. induction fs as [|f fs IH]; intros l b G F; cbn [scan_features]; eauto.
  inversion F; subst. destruct (sort_by_total srt f l) as (l1 & E).
  { eapply uniform_has; eauto. apply G. }
  rewrite E. cbn [bind]. apply IH; auto. eapply good_perm; eauto. now apply sort_by_ok in E.
Qed.

Lemma scan_features_keep srt classes : sorter_ok srt -> forall fs l b l' b', found (length l) b ->
  scan_features srt classes fs l b = Ok (l', b') -> found (length l) b'.
Proof.
  intros HS. induction fs as [|f fs IH]; intros l b l' b' Fb H; cbn [scan_features] in H.
  - inversion H; subst; auto.
  - apply bind_inv in H. destruct H as (l1 & E & H). apply sort_by_ok in E; auto. destruct E as [P _].
    rewrite (Permutation_length P) in *. eapply IH; [|exact H]. apply scan_keeps; auto. apply seq_below.
Qed.

Lemma scan_features_found srt classes k x y f : sorter_ok srt -> (f < k)%nat -> val f x <> val f y ->
  forall fs l b l' b', In f fs -> good classes k l -> In x l -> In y l ->
  (fst (fst (fst b)) = one32 \/ found (length l) b) ->
  scan_features srt classes fs l b = Ok (l', b') -> found (length l) b'.
Proof.
  intros HS Hf N. induction fs as [|f0 fs IH]; intros l b l' b' Hin G Hx Hy Hb H; [destruct Hin|].
  cbn [scan_features] in H. apply bind_inv in H. destruct H as (l1 & E & H).
  destruct (sort_by_ok _ _ _ _ HS E) as (P & S & F).
  assert (G1 : good classes k l1) by (eapply good_perm; eauto).
  assert (Hx1 : In x l1) by (eapply Permutation_in; eauto).
  assert (Hy1 : In y l1) by (eapply Permutation_in; eauto).
  rewrite (Permutation_length P) in *.
  destruct Hin as [->|Hin].
  - destruct (adjacent_differ f l1 x y S Hx1 Hy1 N) as (i & Hi & Ni).
    eapply scan_features_keep; [eauto| |exact H]. eapply scan_finds; eauto.
    + apply split_gini_below; auto; apply G1.
    + apply adjacent_eq32; auto.
  - eapply (IH l1 (scan_feature classes f0 l1 b)); [auto|auto|auto|auto| |exact H]. apply scan_state; auto. apply seq_below.
Qed.

(** Two samples of different classes differ in some feature. *)
Lemma differ_somewhere k a b :
  length a = k -> length b = k -> Forall (fun x : f32 => is_nan x = false) a -> Forall (fun x : f32 => is_nan x = false) b ->
  same_features a b = false -> exists f, (f < k)%nat /\ xval (nth f a zero32) <> xval (nth f b zero32).
Proof.
  revert a b. induction k; intros [|x a] [|y b] La Lb Fa Fb H; cbn in La, Lb; try discriminate.
  inversion Fa; inversion Fb; subst. cbn [same_features] in H. apply andb_false_iff in H. destruct H as [H|H].
  - exists O. split; [lia|]. cbn. rewrite Beqb_xval in H by auto. rbool. auto.
  - destruct (IHk a b) as (f & Hf & N); auto. exists (S f). split; [lia|]. exact N.
Qed.

Lemma impure classes k l : good classes k l -> l <> [] -> le32 (compute_gini classes l) zero32 = false ->
  exists x y, In x l /\ In y l /\ snd x <> snd y.
Proof.
  intros G N E. destruct l as [|s r]; [congruence|].
  destruct (Exists_dec (fun y => snd y <> snd s) r) as [X|X].
  { intros y. destruct (Z.eq_dec (snd y) (snd s)); [right|left]; auto. }
  - apply Exists_exists in X. destruct X as (y & Hy & X). exists y, s. repeat split; auto; [right|left]; auto.
  - exfalso. rewrite (gini_pure (s :: r) _ eq_refl) with (c := snd s) in E; try discriminate.
    + generalize (g_size _ _ _ G). cbn [length]. lia.
    + generalize (g_classes _ _ _ G). lia.
    + apply (g_in _ _ _ G). left; auto.
    + intros y [->|Hy]; auto. destruct (Z.eq_dec (snd y) (snd s)); auto. exfalso. apply X.
      apply Exists_exists. eauto.
Qed.

Lemma split_total srt classes k l : sorter_ok srt -> good classes k l -> l <> [] ->
  le32 (compute_gini classes l) zero32 = false ->
  exists l' g pos f thr, split srt classes l = Ok (l', (g, pos, f, thr)) /\ pos <> length l.
Proof.
  intros HS G N E. destruct (impure _ _ _ G N E) as (x & y & Hx & Hy & XY).
  assert (U := g_uniform _ _ _ G). unfold uniform_samples in U. rewrite Forall_forall in U.
  destruct (U x Hx) as [Lx Fx], (U y Hy) as [Ly Fy].
  destruct (same_features (fst x) (fst y)) eqn:SF.
  { exfalso. apply XY. eapply g_consistent; eauto. }
  destruct (differ_somewhere k (fst x) (fst y) Lx Ly Fx Fy SF) as (f & Hf & D).
  assert (Hlen : (1 < length l)%nat).
  { destruct l as [|s [|s' r]]; try congruence; cbn; try lia.
    destruct Hx as [<-|[]], Hy as [<-|[]]. congruence. }
  unfold split. rewrite (proj2 (Nat.ltb_lt _ _) Hlen). cbn [negb].
  assert (Hk : length (fst (hd ([], 0%Z) l)) = k).
  { destruct l as [|s r]; [congruence|]. cbn. apply U. left; auto. }
  unfold sample in *. rewrite Hk.
  assert (FS : Forall (fun f => f < k)%nat (seq 0 k)).
  { apply Forall_forall. intros i Hi. apply in_seq in Hi. lia. }
  destruct (scan_features_total srt classes k HS (seq 0 k) l (one32, length l, O, zero32) G FS) as (l1 & b & E1).
  rewrite E1. cbn [bind].
  assert (FB : found (length l) b).
  { refine (scan_features_found srt classes k x y f HS Hf D (seq 0 k) l _ l1 b _ G Hx Hy _ E1).
    - apply in_seq; lia.
    - left; reflexivity. }
  assert (IB : (snd (fst b) < k)%nat).
  { eapply (scan_features_index srt classes k); [exact FS| |exact E1]. cbn. lia. }
  destruct b as [[[g pos] f1] thr]. cbn in IB.
  destruct (scan_features_spec srt classes l _ _ _ _ _ HS (Permutation_refl l) E1) as [P1 _].
  destruct (sort_by_total srt f1 l1) as (l2 & E2).
  { eapply uniform_has; eauto. apply (g_uniform classes k l1). eapply good_perm; eauto. }
  rewrite E2. cbn [bind]. exists l2, g, pos, f1, thr. split; auto.
Qed.

Lemma build_tree_total srt classes k : sorter_ok srt -> forall fuel md d l,
  good classes k l -> (length l < fuel)%nat ->
  exists t l', build_tree fuel srt classes md d l = Ok (t, l').
Proof.
  intros HS. induction fuel as [|fuel IH]; intros md d l G L; [lia|]. cbn [build_tree].
  unfold new_leaf. cbn [max_index nth_error]. destruct classes as [|c r] eqn:Ec.
  { destruct (g_ne _ _ _ G). auto. }
  rewrite <- Ec in *. cbn [bind].
  destruct (md <=? d)%Z; [eauto|]. destruct l as [|s l0] eqn:El; [eauto|]. rewrite <- El in *.
  destruct (le32 (compute_gini classes l) zero32) eqn:E; [eauto|].
  destruct (split_total srt classes k l HS G) as (l' & g & pos & f & thr & E1 & N); auto.
  { rewrite El; discriminate. }
  rewrite E1. cbn [bind]. destruct (split_spec _ _ _ _ _ _ _ _ HS E1) as (P & S & F & L1 & [C|[C B]]).
  { inversion C; subst. congruence. }
  assert (PL := Permutation_length P).
  destruct (Nat.eqb_spec pos (length l')); [congruence|].
  assert (G' : good classes k l') by (eapply good_perm; eauto).
  destruct B as [B _].
  destruct (IH md (d + 1)%Z (firstn pos l')) as (lt & ll & E2).
  { eapply good_incl; eauto; [|rewrite firstn_length; lia].
    intros x Hx. rewrite <- (firstn_skipn pos l'). apply in_or_app. auto. }
  { rewrite firstn_length. lia. }
  destruct (IH md (d + 1)%Z (skipn pos l')) as (rt & lr & E3).
  { eapply good_incl; eauto; [|rewrite skipn_length; lia].
    intros x Hx. rewrite <- (firstn_skipn pos l'). apply in_or_app. auto. }
  { rewrite skipn_length. lia. }
  rewrite E2. cbn [bind]. rewrite E3. cbn [bind]. eauto.
Qed.
