(** Lemmas on collective training: it returns only if the buffers are filled completely. *)
From Coq Require Import ZArith Bool Ascii String Lia List.
From Verif Require Import Model.Base Model.Float Model.DatasetM Model.ParserM Model.ConfigM Model.RuntimeM Model.MpiM
  Spec.DatasetSpec Spec.MpiSpec Proofs.TreeFacts Proofs.RuntimeFacts Proofs.MpiPacking Proofs.MpiGather Proofs.MpiJobs.
Import ListNotations.
Open Scope Z_scope.

(** The number of bytes written. *)
Fixpoint present (m : memory) : Z :=
  match m with [] => 0 | Some _ :: r => 1 + present r | None :: r => present r end.
Lemma present_app a b : present (a ++ b) = present a + present b.
Proof. induction a as [|[c|] a IH]; cbn [present app]; lia. Qed.
Lemma present_range m : 0 <= present m <= zlen m.
Proof. unfold zlen. induction m as [|[c|] m IH]; cbn [present List.length]; lia. Qed.
Lemma present_some s : present (map Some s) = zlen s.
Proof. unfold zlen. induction s; cbn [present map List.length]; lia. Qed.
Lemma present_none n : present (repeat None n) = 0.
Proof. induction n; cbn [present repeat]; lia. Qed.

Lemma present_write m a d m' : write_memory m a d = Ok m' -> present m' <= present m + present d /\ zlen m' = zlen m.
Proof.
  unfold write_memory. destruct (_ || _) eqn:E; [discriminate|]. apply orb_false_iff in E. destruct E as [E1 E2]. apply Z.ltb_ge in E1, E2. intros H. injection H as <-. rewrite !present_app. split.
  - rewrite <- (firstn_skipn (Z.to_nat a) m) at 3. rewrite present_app. rewrite <- (firstn_skipn (List.length d) (skipn (Z.to_nat a) m)) at 1. rewrite present_app.
    replace (skipn (List.length d) (skipn (Z.to_nat a) m)) with (skipn (Z.to_nat a + List.length d) m).
    2:{ rewrite <- (firstn_skipn (Z.to_nat a) m) at 1. rewrite skipn_app. rewrite skipn_all2 by (rewrite firstn_length; lia). cbn [app]. f_equal. rewrite firstn_length. lia. }
    assert (P := present_range (firstn (List.length d) (skipn (Z.to_nat a) m))). lia.
  - unfold zlen. rewrite !app_length, firstn_length, skipn_length. lia.
Qed.

Lemma present_pack m base size pos data m' pos' : mpi_pack m base size pos data = Ok (m', pos') ->
  present m' <= present m + (pos' - pos) /\ zlen m' = zlen m /\ pos' = pos + zlen data /\ pos' <= size.
Proof.
  unfold mpi_pack. fold (zlen data). destruct (Z.ltb_spec size (pos + zlen data)); [discriminate|]. intros H1. apply bind_inv in H1. destruct H1 as (m1 & E & H1). injection H1 as <- <-.
  apply present_write in E. rewrite present_some in E. lia.
Qed.

Section Library.
Variable M : mpi.
Hypothesis FM : faithful M.
Hypothesis EN : enough M.

Lemma present_features base size fs : forall m pos m' pos', pack_features M m base size pos fs = Ok (m', pos') -> pos <= size ->
  present m' <= present m + (pos' - pos) /\ zlen m' = zlen m /\ pos' = pos + zlen (List.concat (map (put_float M) fs)) /\ pos' <= size.
Proof.
  induction fs as [|x fs IH]; intros m pos m' pos' H S; cbn [pack_features] in H.
  - injection H as <- <-. unfold zlen at 3. cbn. lia.
  - apply bind_inv in H. destruct H as ([m1 p1] & E & H). apply present_pack in E. apply IH in H; [|lia]. cbn [map List.concat]. rewrite zlen_app. lia.
Qed.

Lemma present_measure base size rank nf name e m pos m' pos' : pack_measure M m base size pos rank nf name e = Ok (m', pos') ->
  present m' <= present m + (pos' - pos) /\ zlen m' = zlen m /\ pos' = pos + zlen (encode M rank nf name e) /\ pos' <= size.
Proof.
  destruct e as [[fs p] x]. cbn [pack_measure]. intros H. apply bind_inv in H. destruct H as ([m1 p1] & E1 & H). apply bind_inv in H. destruct H as ([m2 p2] & E2 & H). apply bind_inv in H. destruct H as ([m3 p3] & E3 & H).
  apply bind_inv in H. destruct H as ([m4 p4] & E4 & H). apply bind_inv in H. destruct H as ([m5 p5] & E5 & H).
  apply present_pack in E1, E2, E4, E5, H. apply present_features in E3; [|lia]. unfold encode. cbn [fst snd]. rewrite !zlen_app. lia.
Qed.

Lemma present_measures base size rank nf name es : forall m pos m', pack_measures M m base size pos rank nf name es = Ok m' ->
  present m' <= present m + zlen (List.concat (map (encode M rank nf name) es)) /\ zlen m' = zlen m /\ (es = [] \/ pos + zlen (List.concat (map (encode M rank nf name) es)) <= size).
Proof.
  induction es as [|e es IH]; intros m pos m' H; cbn [pack_measures] in H.
  - injection H as <-. unfold zlen at 1. cbn. split; [lia|]. split; [reflexivity|left; reflexivity].
  - apply bind_inv in H. destruct H as ([m1 p1] & E & H). apply present_measure in E. apply IH in H. cbn [map List.concat]. rewrite zlen_app. destruct H as (A & B & C). split; [lia|]. split; [lia|]. right.
    destruct C as [->|C]; [unfold zlen at 2; cbn; lia|lia].
Qed.

Lemma packed_encoded rank R : zlen (encode_region M rank R) = packed_bytes M R.
Proof.
  unfold encode_region, packed_bytes. induction (ds_to_vector (r_dataset R)) as [|e es IH]; [reflexivity|]. cbn [map List.concat]. rewrite zlen_app, IH, encode_length by exact FM. reflexivity.
Qed.

Lemma asked_positive n : 0 <= n -> 0 < asked_measure M n.
Proof.
  intros H. unfold asked_measure. assert (A1 := width_positive M FM MpiInt). assert (A2 := width_positive M FM MpiFloat). assert (A3 := width_positive M FM MpiChar). assert (A4 := width_positive M FM MpiDouble).
  assert (B1 := EN 1 MpiInt ltac:(lia)). assert (B2 := EN n MpiFloat H). assert (B3 := EN 64 MpiChar ltac:(lia)). assert (B4 := EN 1 MpiDouble ltac:(lia)). nia.
Qed.

Lemma asked_size n : 0 <= n -> asked_measure M n < 2 ^ 31 -> measure_size M n = Ok (asked_measure M n).
Proof.
  intros H B. unfold asked_measure in *. unfold measure_size, pack_size. destruct (Z.ltb_spec n 0); [lia|]. change (1 <? 0) with false. change (64 <? 0) with false. cbn [bind].
  assert (A1 := width_positive M FM MpiInt). assert (A2 := width_positive M FM MpiFloat). assert (A3 := width_positive M FM MpiChar). assert (A4 := width_positive M FM MpiDouble).
  assert (B1 := EN 1 MpiInt ltac:(lia)). assert (B2 := EN n MpiFloat H). assert (B3 := EN 64 MpiChar ltac:(lia)). assert (B4 := EN 1 MpiDouble ltac:(lia)).
  assert (0 <= n * mpi_width M MpiFloat) by nia. repeat (rewrite int_add_ok by lia; cbn [bind]). f_equal. lia.
Qed.

Definition asked_ok (R : region) : Prop := 0 <= r_num_features R /\ asked_measure M (r_num_features R) < 2 ^ 31.
Lemma asked_nonneg R : asked_ok R -> 0 <= asked_bytes M R.
Proof. intros [H _]. unfold asked_bytes, ds_size. assert (A := asked_positive _ H). nia. Qed.
Lemma asked_sum l : Forall asked_ok l -> 0 <= sum_of (map (asked_bytes M) l).
Proof. intros F. apply sum_of_nonneg. apply Forall_map. eapply Forall_impl; [|exact F]. intros R H. apply asked_nonneg. exact H. Qed.

Lemma asked_send w rs l : live w rs l -> forall size, 0 <= size -> Forall asked_ok l -> size + sum_of (map (asked_bytes M) l) < 2 ^ 31 ->
  send_size M w rs size = Ok (size + sum_of (map (asked_bytes M) l)).
Proof.
  induction 1 as [|r R rs l G LV IH]; intros size S F B; cbn [send_size map] in *.
  - cbn. f_equal. lia.
  - inversion F as [|? ? [F1 F2] F3]; subst. rewrite G. cbn [bind]. rewrite asked_size by assumption. cbn [bind]. change (asked_measure M (r_num_features R) * ds_size (r_dataset R)) with (asked_bytes M R).
    assert (D := asked_nonneg R (conj F1 F2)). assert (D2 := asked_sum l F3).
    change (sum_of (asked_bytes M R :: map (asked_bytes M) l)) with (asked_bytes M R + sum_of (map (asked_bytes M) l)) in *.
    rewrite to_int_id by lia. rewrite IH by (assumption || lia). f_equal. lia.
Qed.

Lemma present_regions w rs l : live w rs l -> forall m offset m', 0 <= offset -> Forall asked_ok l -> offset + sum_of (map (asked_bytes M) l) < 2 ^ 31 -> pack_regions M w m rs offset = Ok m' ->
  present m' <= present m + sum_of (map (packed_bytes M) l) /\ zlen m' = zlen m /\ Forall (fun R => packed_bytes M R <= asked_bytes M R) l.
Proof.
  induction 1 as [|r R rs l G LV IH]; intros m offset m' S F B H; cbn [pack_regions map] in *.
  - injection H as <-. cbn. split; [lia|]. split; [reflexivity|constructor].
  - inversion F as [|? ? [F1 F2] F3]; subst. rewrite G in H. cbn [bind] in H. unfold region_size in H. rewrite asked_size in H by assumption. cbn [bind] in H. change (asked_measure M (r_num_features R) * ds_size (r_dataset R)) with (asked_bytes M R) in H.
    assert (D := asked_nonneg R (conj F1 F2)). assert (D2 := asked_sum l F3).
    change (sum_of (asked_bytes M R :: map (asked_bytes M) l)) with (asked_bytes M R + sum_of (map (asked_bytes M) l)) in *.
    change (sum_of (packed_bytes M R :: map (packed_bytes M) l)) with (packed_bytes M R + sum_of (map (packed_bytes M) l)).
    rewrite to_int_id in H by lia. apply bind_inv in H. destruct H as (m1 & E & H). rewrite int_add_ok in H by lia. cbn [bind] in H. apply IH in H; [|lia|assumption|lia].
    unfold pack_measurements in E. apply present_measures in E. fold (encode_region M (w_rank w) R) in E. rewrite packed_encoded in E. destruct E as (E1 & E2 & E3). destruct H as (H1 & H2 & H3).
    split; [lia|]. split; [lia|]. constructor; [|exact H3]. destruct E3 as [E3|E3]; [|lia]. unfold packed_bytes. rewrite E3. cbn. exact D.
Qed.

Lemma present_buffer w b : Forall asked_ok (registered w) -> sum_of (map (asked_bytes M) (registered w)) < 2 ^ 31 -> send_buffer M w = Ok b ->
  present b <= sum_of (map (packed_bytes M) (registered w)) /\ zlen b = sum_of (map (asked_bytes M) (registered w)) /\ Forall (fun R => packed_bytes M R <= asked_bytes M R) (registered w).
Proof.
  intros F B H. assert (LV := alive_live w (send_alive _ _ _ H)). assert (D := asked_sum _ F). unfold send_buffer in H. rewrite (asked_send _ _ _ LV) in H by (assumption || lia). cbn [bind] in H.
  apply bind_inv in H. destruct H as (m & E & H). unfold malloc in E. destruct (Z.ltb_spec (0 + sum_of (map (asked_bytes M) (registered w))) 0); [lia|]. injection E as <-.
  apply (present_regions _ _ _ LV) in H; try assumption; try lia. rewrite present_none in H. destruct H as (H1 & H2 & H3). split; [lia|]. split; [|exact H3]. rewrite H2. unfold zlen. rewrite repeat_length. lia.
Qed.

(** The exchange. *)
Lemma present_gatherv bufs : forall m disps m', allgatherv m bufs disps = Ok m' -> present m' <= present m + sum_of (map present bufs) /\ zlen m' = zlen m.
Proof.
  induction bufs as [|b bufs IH]; intros m disps m' H; cbn [allgatherv] in H; [injection H as <-; cbn; lia|].
  change (sum_of (map present (b :: bufs))) with (present b + sum_of (map present bufs)). assert (P := present_range b).
  destruct disps as [|d disps]; [injection H as <-; split; [|reflexivity]|].
  - assert (Q : 0 <= sum_of (map present bufs)) by (apply sum_of_nonneg, Forall_map, Forall_forall; intros x _; apply present_range). lia.
  - apply bind_inv in H. destruct H as (m1 & E & H). apply present_write in E. apply IH in H. lia.
Qed.

Lemma sum_sizes_inv sizes : forall sum n, sum_sizes sizes sum = Ok n -> n = sum + sum_of sizes.
Proof.
  induction sizes as [|a sizes IH]; intros sum n H; cbn [sum_sizes] in H; [injection H as <-; cbn; lia|]. apply bind_inv in H. destruct H as (s & E & H). apply IH in H. unfold int_add in E. destruct (_ && _); [|discriminate]. injection E as <-. cbn. fold (sum_of sizes). lia.
Qed.

Lemma present_received bufs m : received bufs = Ok m -> present m <= sum_of (map present bufs) /\ zlen m = sum_of (map zlen bufs).
Proof.
  unfold received. intros H. apply bind_inv in H. destruct H as (n & E & H). apply bind_inv in H. destruct H as (m0 & E0 & H). apply bind_inv in H. destruct H as (ds & _ & H). apply present_gatherv in H.
  unfold malloc in E0. destruct (Z.ltb_spec n 0); [discriminate|]. injection E0 as <-. rewrite present_none in H. apply sum_sizes_inv in E.
  split; [lia|]. destruct H as [_ H]. rewrite H. unfold zlen at 1. rewrite repeat_length. subst n. rewrite Z2Nat.id by assumption. reflexivity.
Qed.

(** Reading needs every byte. *)
Definition byte_at (m : memory) (i : Z) : Prop := exists c, nth_error m (Z.to_nat i) = Some (Some c).
Lemma written_all m : forall s, written m = Ok s -> forall i, (i < List.length m)%nat -> exists c, nth_error m i = Some (Some c).
Proof.
  induction m as [|[c|] m IH]; intros s H i L; cbn [written] in H; [cbn in L; lia| |discriminate]. apply bind_inv in H. destruct H as (t & E & _). destruct i as [|i]; cbn; [eauto|]. cbn in L. eapply IH; [exact E|lia].
Qed.
Lemma unpack_bytes m pos n s q : 0 <= pos -> 0 <= n -> mpi_unpack m pos n = Ok (s, q) -> forall i, pos <= i < q -> byte_at m i.
Proof.
  intros P N H i I. assert (Q := unpack_next _ _ _ _ _ H). unfold mpi_unpack in H. destruct (Z.ltb_spec (Z.of_nat (List.length m)) (pos + n)); [discriminate|].
  apply bind_inv in H. destruct H as (t & E & _). destruct (written_all _ _ E (Z.to_nat (i - pos))) as [c K].
  - rewrite firstn_length, skipn_length. lia.
  - exists c. assert (L : (Z.to_nat (i - pos) < Z.to_nat n)%nat) by lia. rewrite <- K.
    rewrite <- (firstn_skipn (Z.to_nat n) (skipn (Z.to_nat pos) m)) in K at 1. rewrite <- (firstn_skipn (Z.to_nat pos) m) at 1. rewrite nth_error_app2 by (rewrite firstn_length; lia). rewrite firstn_length.
    rewrite <- (firstn_skipn (Z.to_nat n) (skipn (Z.to_nat pos) m)) at 1. rewrite nth_error_app1 by (rewrite firstn_length, skipn_length; lia). f_equal. lia.
Qed.
Lemma features_bytes m n : forall pos fs q, 0 <= pos -> unpack_features M m pos n = Ok (fs, q) -> forall i, pos <= i < q -> byte_at m i.
Proof.
  induction n as [|n IH]; intros pos fs q P H i I; cbn [unpack_features] in H; [injection H as _ <-; lia|].
  apply bind_inv in H. destruct H as ([s p1] & E1 & H). apply bind_inv in H. destruct H as ([fs1 p2] & E2 & H). injection H as _ <-. assert (N1 := unpack_next _ _ _ _ _ E1). assert (A := width_positive M FM MpiFloat).
  destruct (Z_lt_le_dec i p1); [eapply unpack_bytes; [| |exact E1|]; lia|eapply IH; [|exact E2|]; lia].
Qed.
Lemma record_bytes m pos x q : 0 <= pos -> unpack_record M m pos = Ok (x, q) -> forall i, pos <= i < q -> byte_at m i.
Proof.
  intros P H i I. unfold unpack_record in H. apply bind_inv in H. destruct H as ([s1 p1] & E1 & H). apply bind_inv in H. destruct H as ([s2 p2] & E2 & H). apply bind_inv in H. destruct H as ([fs p3] & E3 & H).
  apply bind_inv in H. destruct H as ([s4 p4] & E4 & H). apply bind_inv in H. destruct H as ([s5 p5] & E5 & H). apply bind_inv in H. destruct H as ([s6 p6] & E6 & H). injection H as _ <-.
  assert (A1 := width_positive M FM MpiInt). assert (A2 := width_positive M FM MpiChar). assert (A3 := width_positive M FM MpiDouble).
  assert (N1 := unpack_next _ _ _ _ _ E1). assert (N2 := unpack_next _ _ _ _ _ E2). assert (N3 := features_next _ _ _ FM _ _ _ E3). assert (N4 := unpack_next _ _ _ _ _ E4). assert (N5 := unpack_next _ _ _ _ _ E5). assert (N6 := unpack_next _ _ _ _ _ E6).
  destruct (Z_lt_le_dec i p1); [eapply unpack_bytes; [| |exact E1|]; lia|]. destruct (Z_lt_le_dec i p2); [eapply unpack_bytes; [| |exact E2|]; lia|]. destruct (Z_lt_le_dec i p3); [eapply features_bytes; [|exact E3|]; lia|].
  destruct (Z_lt_le_dec i p4); [eapply unpack_bytes; [| |exact E4|]; lia|]. destruct (Z_lt_le_dec i p5); [eapply unpack_bytes; [| |exact E5|]; lia|]. eapply unpack_bytes; [| |exact E6|]; lia.
Qed.

Lemma loop_bytes m fuel : forall w pos text w' text', 0 <= pos -> receive_loop M fuel w m pos text = Ok (w', text') -> forall i, pos <= i < zlen m -> byte_at m i.
Proof.
  induction fuel as [|fuel IH]; intros w pos text w' text' P H i I; cbn [receive_loop] in H; fold (zlen m) in H; destruct (Z.leb_spec (zlen m) pos); try lia; try discriminate.
  apply bind_inv in H. destruct H as ([x q] & E & H). apply bind_inv in H. destruct H as (text1 & _ & H). apply bind_inv in H. destruct H as (w1 & _ & H). assert (N := record_next _ _ _ _ _ FM E).
  destruct (Z_lt_le_dec i q); [eapply record_bytes; [|exact E|]; lia|eapply IH; [|exact H|]; lia].
Qed.

Lemma present_all m : (forall i, 0 <= i < zlen m -> byte_at m i) -> present m = zlen m.
Proof.
  unfold zlen. induction m as [|[c|] m IH]; intros H; cbn [present List.length]; [reflexivity| |].
  - rewrite IH; [lia|]. intros i I. destruct (H (i + 1)) as [d K]; [cbn [List.length]; lia|]. exists d. replace (Z.to_nat (i + 1)) with (S (Z.to_nat i)) in K by lia. exact K.
  - exfalso. destruct (H 0) as [d K]; [cbn [List.length]; lia|]. discriminate K.
Qed.

Lemma sum_of_le l l' : Forall2 Z.le l l' -> sum_of l <= sum_of l'.
Proof. induction 1; cbn; [lia|]. unfold sum_of in *. lia. Qed.
Lemma sum_of_eq l l' : Forall2 Z.le l l' -> sum_of l' <= sum_of l -> Forall2 eq l l'.
Proof.
  induction 1 as [|x y l l' E F IH]; intros H; [constructor|]. assert (G := sum_of_le _ _ F). cbn in H. fold (sum_of l) in H. fold (sum_of l') in H. constructor; [lia|apply IH; lia].
Qed.
Lemma Forall2_map2 {A B C D} (R : C -> D -> Prop) (f : A -> C) (g : B -> D) l l' : Forall2 (fun x y => R (f x) (g y)) l l' -> Forall2 R (map f l) (map g l').
Proof. induction 1; constructor; assumption. Qed.

Lemma gather_exact ws st ws' : asked_fit M ws -> gather M ws st = Ok ws' -> Forall (fun w => Forall (fun R => packed_bytes M R = asked_bytes M R) (registered w)) ws.
Proof.
  intros [F B] H. destruct ws as [|w0 ws0] eqn:EW; [constructor|]. rewrite <- EW in *. unfold gather in H. apply bind_inv in H. destruct H as (bufs & E & H). apply bind_inv in H. destruct H as (m & EM & H).
  assert (ALL : present m = zlen m).
  { apply on_each_inv in H. rewrite EW in H. inversion H as [|? w' ? ? H1 H2]; subst. unfold receive in H1. apply bind_inv in H1. destruct H1 as ([w1 text] & L & _). apply present_all. intros i I. eapply loop_bytes; [|exact L|exact I]. lia. }
  clear H EW. apply on_each_inv in E. apply present_received in EM. destruct EM as [EM1 EM2].
  assert (S : forall w, In w ws -> sum_of (map (asked_bytes M) (registered w)) < 2 ^ 31).
  { clear - F B EN FM. induction ws as [|v ws IH]; [intros w []|]. inversion F as [|? ? F1 F2]; subst. change (sum_of (map (asked_bytes M) (registered v)) + sum_of (map (fun w => sum_of (map (asked_bytes M) (registered w))) ws) < 2 ^ 31) in B.
    assert (D := asked_sum _ F1). assert (D2 : 0 <= sum_of (map (fun w => sum_of (map (asked_bytes M) (registered w))) ws)).
    { apply sum_of_nonneg. apply Forall_map. eapply Forall_impl; [|exact F2]. intros w K. apply asked_sum. exact K. }
    intros w [<-|K]; [lia|apply IH; [exact F2|lia|exact K]]. }
  assert (K : Forall2 (fun w b => present b <= sum_of (map (packed_bytes M) (registered w)) /\ zlen b = sum_of (map (asked_bytes M) (registered w)) /\ Forall (fun R => packed_bytes M R <= asked_bytes M R) (registered w)) ws bufs).
  { clear - E F S EN FM. induction E as [|w b ws bufs E1 E2 IH]; [constructor|]. inversion F as [|? ? F1 F2]; subst. constructor; [apply present_buffer; [exact F1|apply S; left; reflexivity|exact E1]|]. apply IH; [exact F2|]. intros w1 H1. apply S. right. exact H1. }
  assert (Q : Forall2 eq (map (fun w => sum_of (map (packed_bytes M) (registered w))) ws) (map (fun w => sum_of (map (asked_bytes M) (registered w))) ws)).
  { apply sum_of_eq.
    - clear - K. induction K as [|w b ws bufs (K1 & K2 & K3) K IH]; [constructor|]. constructor; [|exact IH]. apply sum_of_le. clear - K3. induction K3; constructor; assumption.
    - assert (X1 : sum_of (map present bufs) <= sum_of (map (fun w => sum_of (map (packed_bytes M) (registered w))) ws)).
      { clear - K. induction K as [|w b ws bufs (K1 & K2 & K3) K IH]; [cbn; lia|]. cbn. unfold sum_of in *. lia. }
      assert (X2 : sum_of (map zlen bufs) = sum_of (map (fun w => sum_of (map (asked_bytes M) (registered w))) ws)).
      { clear - K. induction K as [|w b ws bufs (K1 & K2 & K3) K IH]; [reflexivity|]. cbn. unfold sum_of in *. lia. }
      lia. }
  clear - K Q. induction K as [|w b ws bufs (K1 & K2 & K3) K IH]; [constructor|]. cbn [map] in Q. inversion Q as [|? ? ? ? Q1 Q2]; subst. constructor; [|apply IH; exact Q2]. 
  assert (Z : Forall2 eq (map (packed_bytes M) (registered w)) (map (asked_bytes M) (registered w))).
  { apply sum_of_eq; [|lia]. clear - K3. induction K3; constructor; assumption. }
  clear - Z. induction (registered w) as [|R l IH]; [constructor|]. cbn [map] in Z. inversion Z; subst. constructor; [assumption|apply IH; assumption].
Qed.
End Library.
