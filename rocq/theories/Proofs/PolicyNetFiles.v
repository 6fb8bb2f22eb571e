(** Reading back stored networks. *)
From Coq Require Import List ZArith Bool Ascii Lia.
From Flocq Require Import Core BinarySingleNaN.
From Verif Require Import Model.Base Model.Float Model.DatasetM Model.NetM Model.PolicyNetM.
From Verif Require Import Spec.NetSpec Spec.PolicyNetSpec Proofs.NetFacts Proofs.PolicyNetFacts.
Import ListNotations.
Local Open Scope nat_scope.
Local Open Scope list_scope.

Lemma read_mem_length a f : length (fst (read_mem a f)) = length a.
Proof. unfold read_mem; cbn [fst]. rewrite app_length, firstn_length, skipn_length. lia. Qed.

Lemma firstn_add {X} n m (l : list X) : firstn (n + m) l = firstn n l ++ firstn m (skipn n l).
Proof.
  revert l; induction n as [|n IH]; intros l; [reflexivity|]. destruct l as [|x l]; cbn; [now rewrite firstn_nil|].
  now rewrite IH.
Qed.
Lemma skipn_add {X} n m (l : list X) : skipn (n + m) l = skipn m (skipn n l).
Proof. revert l; induction n as [|n IH]; intros l; [reflexivity|]. destruct l; cbn; [now rewrite skipn_nil|apply IH]. Qed.
Lemma skipn_skipn {X} n m (l : list X) : skipn n (skipn m l) = skipn (n + m) l.
Proof. now rewrite Nat.add_comm, skipn_add. Qed.

Lemma read_mem_app a b f : read_mem (a ++ b) f =
  (fst (read_mem a f) ++ fst (read_mem b (snd (read_mem a f))), snd (read_mem b (snd (read_mem a f)))).
Proof.
  unfold read_mem; cbn [fst snd]. rewrite app_length, firstn_add, skipn_app, skipn_add. f_equal.
  rewrite skipn_length, <- !app_assoc. f_equal. destruct (Nat.le_gt_cases (length f) (length a)) as [L|L].
  - rewrite (skipn_all2 f) by lia. rewrite firstn_nil. reflexivity.
  - rewrite (skipn_all2 a) by lia. reflexivity.
Qed.

Lemma doubles_app n m x y : length x = 8 * n -> doubles_of (n + m) (x ++ y) = doubles_of n x ++ doubles_of m y.
Proof.
  revert x; induction n as [|n IH]; intros x L.
  - destruct x; [reflexivity|cbn in L; lia].
  - rewrite <- (firstn_skipn 8 x), <- app_assoc.
    assert (L8 : length (firstn 8 x) = 8) by (rewrite firstn_length; lia).
    change (S n + m) with (S (n + m)). cbn [doubles_of].
    rewrite !firstn_exact, !skipn_exact by exact L8. cbn [app]. f_equal. apply IH. rewrite skipn_length; lia.
Qed.

Lemma read_doubles_app a b f : read_doubles (a ++ b) f =
  (fst (read_doubles a f) ++ fst (read_doubles b (snd (read_doubles a f))), snd (read_doubles b (snd (read_doubles a f)))).
Proof.
  unfold read_doubles. rewrite mem_of_app, read_mem_app.
  destruct (read_mem (mem_of a) f) as [m1 r1] eqn:E1. cbn [fst snd].
  destruct (read_mem (mem_of b) r1) as [m2 r2]. cbn [fst snd]. f_equal. rewrite app_length. apply doubles_app.
  change m1 with (fst (m1, r1)). rewrite <- E1, read_mem_length. apply mem_of_length.
Qed.

Lemma doubles_nth n m i : i < n -> nth_error (doubles_of n m) i = Some (of_bits64 (of_le_bytes (firstn 8 (skipn (8 * i) m)))).
Proof.
  revert m i; induction n as [|n IH]; intros m i L; [lia|]. cbn [doubles_of]. destruct i as [|i]; [reflexivity|].
  cbn [nth_error]. rewrite IH by lia. rewrite skipn_skipn. replace (8 * i + 8) with (8 * S i) by lia. reflexivity.
Qed.

Lemma read_doubles_length a f : length (fst (read_doubles a f)) = length a.
Proof. unfold read_doubles. destruct (read_mem _ _). apply doubles_of_length. Qed.

Lemma read_doubles_left a f : snd (read_doubles a f) = skipn (8 * length a) f.
Proof. unfold read_doubles, read_mem. cbn [snd]. now rewrite mem_of_length. Qed.

Lemma read_doubles_full a f i : i < length a -> 8 * S i <= length f ->
  nth_error (fst (read_doubles a f)) i = Some (of_bits64 (of_le_bytes (firstn 8 (skipn (8 * i) f)))).
Proof.
  intros L F. unfold read_doubles, read_mem. cbn [fst]. rewrite doubles_nth by exact L. do 3 f_equal.
  rewrite mem_of_length, skipn_app, firstn_app, skipn_length, firstn_length.
  replace (8 - (Nat.min (8 * length a) (length f) - 8 * i)) with 0 by lia. rewrite firstn_O, app_nil_r.
  rewrite firstn_skipn_comm, firstn_firstn. rewrite firstn_skipn_comm. do 2 f_equal. lia.
Qed.

Lemma read_doubles_past a f i : i < length a -> length f <= 8 * i -> nth_error (fst (read_doubles a f)) i = nth_error a i.
Proof.
  intros L F. unfold read_doubles, read_mem. cbn [fst]. rewrite doubles_nth by exact L.
  rewrite <- (doubles_mem a) at 3. rewrite doubles_nth by exact L. do 4 f_equal.
  rewrite mem_of_length, firstn_all2 by lia. rewrite skipn_app, (skipn_all2 f) by exact F. cbn [app].
  rewrite skipn_skipn. f_equal. lia.
Qed.

Lemma firstn_mem_nth a t i k : i < length a -> 8 * S i <= k ->
  nth_error a i = Some (of_bits64 (of_le_bytes (firstn 8 (skipn (8 * i) (firstn k (mem_of a ++ t)))))).
Proof.
  intros L K. rewrite <- (doubles_mem a) at 1. rewrite doubles_nth by exact L. do 3 f_equal.
  rewrite !firstn_skipn_comm, firstn_firstn, firstn_app, mem_of_length.
  replace (8 * i + 8 - 8 * length a) with 0 by lia.
  replace (Nat.min (8 * i + 8) k) with (8 * i + 8) by lia.
  replace (8 * i + 8 - 8 * length a) with 0 by lia. rewrite firstn_O.
  now rewrite app_nil_r.
Qed.

Lemma store_params P : pn_store P = mem_of (all_params P) ++ int_mem (pn_count P).
Proof. unfold pn_store, all_params. rewrite !mem_of_app, <- !app_assoc. reflexivity. Qed.

Lemma read_one x f : read_doubles [x] f =
  ([of_bits64 (of_le_bytes (fst (read_mem (le_bytes 8 (bits64 x)) f)))], snd (read_mem (le_bytes 8 (bits64 x)) f)).
Proof.
  unfold read_doubles. rewrite mem_of_cons. change (mem_of []) with (@nil ascii). rewrite app_nil_r.
  destruct (read_mem (le_bytes 8 (bits64 x)) f) as [m r] eqn:E. cbn [fst snd length doubles_of].
  assert (L : length m = 8).
  { change m with (fst (m, r)). rewrite <- E, read_mem_length. apply le_bytes_length. }
  rewrite firstn_all2 by lia. reflexivity.
Qed.

(** Loading overwrites the parameters in file order. *)
Lemma load_params Q f :
  all_params (pn_load Q (Some f)) = fst (read_doubles (all_params Q) f) /\
  pn_count (pn_load Q (Some f)) = of_int_mem (fst (read_mem (int_mem (pn_count Q)) (snd (read_doubles (all_params Q) f)))).
Proof.
  unfold pn_load. unfold all_params at 2 3. rewrite !read_doubles_app, !read_one. cbn [fst snd].
  destruct (read_doubles (l_w (layer1 (pn_net Q))) f) as [w1 f1]; cbn [fst snd].
  destruct (read_doubles (l_b (layer1 (pn_net Q))) f1) as [b1 f2]; cbn [fst snd].
  destruct (read_doubles (l_w (layer2 (pn_net Q))) f2) as [w2 f3]; cbn [fst snd].
  destruct (read_doubles (l_b (layer2 (pn_net Q))) f3) as [b2 f4]; cbn [fst snd].
  destruct (read_doubles (l_w (layer3 (pn_net Q))) f4) as [w3 f5]; cbn [fst snd].
  destruct (read_doubles (l_b (layer3 (pn_net Q))) f5) as [b3 f6]; cbn [fst snd].
  destruct (read_mem (le_bytes 8 (bits64 (pn_avg Q))) f6) as [av f7]; cbn [fst snd].
  destruct (read_mem (int_mem (pn_count Q)) f7) as [cn f8]; cbn [fst snd]. split; reflexivity.
Qed.

Lemma load_rest Q f : exists w1 b1 w2 b2 w3 b3 av cn,
  length w1 = length (l_w (layer1 (pn_net Q))) /\ length b1 = length (l_b (layer1 (pn_net Q))) /\
  length w2 = length (l_w (layer2 (pn_net Q))) /\ length b2 = length (l_b (layer2 (pn_net Q))) /\
  length w3 = length (l_w (layer3 (pn_net Q))) /\ length b3 = length (l_b (layer3 (pn_net Q))) /\
  pn_load Q (Some f) = mkPnet (pn_policies Q)
      (mkNet (set_params (layer1 (pn_net Q)) w1 b1) (set_params (layer2 (pn_net Q)) w2 b2) (set_params (layer3 (pn_net Q)) w3 b3)
         (learn_rate (pn_net Q)) (net_beta1 (pn_net Q)) (net_beta2 (pn_net Q)))
      (pn_cache Q) av (pn_beta Q) (pn_threshold Q) cn (pn_trainable Q).
Proof.
  unfold pn_load.
  pose proof (read_doubles_length (l_w (layer1 (pn_net Q)))) as L1.
  pose proof (read_doubles_length (l_b (layer1 (pn_net Q)))) as L2.
  pose proof (read_doubles_length (l_w (layer2 (pn_net Q)))) as L3.
  pose proof (read_doubles_length (l_b (layer2 (pn_net Q)))) as L4.
  pose proof (read_doubles_length (l_w (layer3 (pn_net Q)))) as L5.
  pose proof (read_doubles_length (l_b (layer3 (pn_net Q)))) as L6.
  specialize (L1 f). destruct (read_doubles (l_w (layer1 (pn_net Q))) f) as [w1 f1]; cbn [fst snd] in *.
  specialize (L2 f1). destruct (read_doubles (l_b (layer1 (pn_net Q))) f1) as [b1 f2]; cbn [fst snd] in *.
  specialize (L3 f2). destruct (read_doubles (l_w (layer2 (pn_net Q))) f2) as [w2 f3]; cbn [fst snd] in *.
  specialize (L4 f3). destruct (read_doubles (l_b (layer2 (pn_net Q))) f3) as [b2 f4]; cbn [fst snd] in *.
  specialize (L5 f4). destruct (read_doubles (l_w (layer3 (pn_net Q))) f4) as [w3 f5]; cbn [fst snd] in *.
  specialize (L6 f5). destruct (read_doubles (l_b (layer3 (pn_net Q))) f5) as [b3 f6]; cbn [fst snd] in *.
  destruct (read_mem (le_bytes 8 (bits64 (pn_avg Q))) f6) as [av f7]; cbn [fst snd].
  destruct (read_mem (int_mem (pn_count Q)) f7) as [cn f8]; cbn [fst snd].
  exists w1, b1, w2, b2, w3, b3. do 2 eexists. repeat (split; [eassumption|]). reflexivity.
Qed.

Lemma same_lengths P Q : same_shape P Q ->
  length (l_w (layer1 (pn_net P))) = length (l_w (layer1 (pn_net Q))) /\
  length (l_b (layer1 (pn_net P))) = length (l_b (layer1 (pn_net Q))) /\
  length (l_w (layer2 (pn_net P))) = length (l_w (layer2 (pn_net Q))) /\
  length (l_b (layer2 (pn_net P))) = length (l_b (layer2 (pn_net Q))) /\
  length (l_w (layer3 (pn_net P))) = length (l_w (layer3 (pn_net Q))) /\
  length (l_b (layer3 (pn_net P))) = length (l_b (layer3 (pn_net Q))).
Proof.
  intros (n & h & m & [P1 P2 P3] & [Q1 Q2 Q3]). destruct P1, P2, P3, Q1, Q2, Q3. repeat split; congruence.
Qed.

Lemma same_length P Q : same_shape P Q -> length (all_params P) = length (all_params Q).
Proof.
  intros S. apply same_lengths in S as (? & ? & ? & ? & ? & ?). unfold all_params. rewrite !app_length. cbn [length]. lia.
Qed.

Lemma load_prefix_params P Q k i : same_shape P Q -> i < length (all_params P) ->
  (8 * S i <= k -> nth_error (all_params (pn_load Q (Some (firstn k (pn_store P))))) i = nth_error (all_params P) i) /\
  (k <= 8 * i -> nth_error (all_params (pn_load Q (Some (firstn k (pn_store P))))) i = nth_error (all_params Q) i).
Proof.
  intros S L. pose proof (same_length _ _ S) as E.
  assert (T := proj1 (load_params Q (firstn k (pn_store P)))). unfold bytes in T. rewrite T; clear T. rewrite store_params. split; intros K.
  - rewrite read_doubles_full; [|lia|].
    + symmetry. now apply firstn_mem_nth.
    + rewrite firstn_length, app_length, mem_of_length. lia.
  - apply read_doubles_past; [lia|]. rewrite firstn_length. lia.
Qed.

Lemma load_prefix_count P Q k : same_shape P Q -> is_int (pn_count P) -> is_int (pn_count Q) ->
  (length (pn_store P) <= k -> pn_count (pn_load Q (Some (firstn k (pn_store P)))) = pn_count P) /\
  (k <= 8 * length (all_params P) -> pn_count (pn_load Q (Some (firstn k (pn_store P)))) = pn_count Q).
Proof.
  intros S IP IQ. pose proof (same_length _ _ S) as E.
  assert (T := proj2 (load_params Q (firstn k (pn_store P)))). unfold bytes in T. rewrite T; clear T.
  rewrite !read_doubles_left. split; intros K.
  - rewrite firstn_all2 by exact K. rewrite store_params. rewrite skipn_exact by (rewrite mem_of_length; lia).
    unfold read_mem; cbn [fst]. rewrite skipn_all2 by (unfold int_mem; rewrite !le_bytes_length; lia).
    rewrite app_nil_r, firstn_all2 by (unfold int_mem; rewrite !le_bytes_length; lia). now apply of_int_mem_int.
  - rewrite skipn_all2 by (rewrite firstn_length; lia). unfold read_mem; cbn [fst]. rewrite firstn_nil.
    cbn [app skipn length]. now apply of_int_mem_int.
Qed.

Lemma app_inv {X} (a a' b b' : list X) : length a = length a' -> a ++ b = a' ++ b' -> a = a' /\ b = b'.
Proof.
  revert a'; induction a as [|x a IH]; intros [|y a'] L E; cbn in *; try discriminate; [split; [reflexivity|exact E]|].
  injection E as -> E. destruct (IH a') as [-> ->]; [lia|exact E|]. split; reflexivity.
Qed.

Lemma nth_error_ext {X} (a b : list X) : length a = length b -> (forall i, i < length a -> nth_error a i = nth_error b i) -> a = b.
Proof.
  revert b; induction a as [|x a IH]; intros [|y b] L H; cbn in L; try discriminate; [reflexivity|].
  pose proof (H 0 ltac:(cbn; lia)) as H0. cbn in H0. injection H0 as ->. f_equal. apply IH; [lia|].
  intros i I. exact (H (S i) ltac:(cbn; lia)).
Qed.

Lemma load_store P Q : same_shape P Q -> is_int (pn_count P) -> is_int (pn_count Q) ->
  pn_load Q (Some (pn_store P)) = with_params_of Q P.
Proof.
  intros S IP IQ. pose proof (same_length _ _ S) as E.
  assert (LS : length (pn_store P) = 8 * length (all_params P) + 4).
  { rewrite store_params, app_length, mem_of_length. unfold int_mem. now rewrite le_bytes_length. }
  destruct (load_prefix_count P Q (length (pn_store P)) S IP IQ) as [C1 _]. specialize (C1 (le_n _)).
  assert (A : all_params (pn_load Q (Some (firstn (length (pn_store P)) (pn_store P)))) = all_params P).
  { apply nth_error_ext.
    - assert (T := proj1 (load_params Q (firstn (length (pn_store P)) (pn_store P)))). unfold bytes in T. rewrite T; clear T. rewrite read_doubles_length. lia.
    - intros i I. apply load_prefix_params; [exact S| |].
      + assert (T := proj1 (load_params Q (firstn (length (pn_store P)) (pn_store P)))). unfold bytes in T. rewrite T, read_doubles_length in I. lia.
      + assert (T := proj1 (load_params Q (firstn (length (pn_store P)) (pn_store P)))). unfold bytes in T. rewrite T, read_doubles_length in I. lia. }
  rewrite firstn_all in C1, A.
  destruct (load_rest Q (pn_store P)) as (w1 & b1 & w2 & b2 & w3 & b3 & av & cn & L1 & L2 & L3 & L4 & L5 & L6 & R).
  unfold bytes in *. rewrite R in C1, A |- *. cbn [pn_count] in C1. subst cn. unfold all_params in A.
  cbn [pn_net layer1 layer2 layer3 set_params l_w l_b pn_avg] in A.
  apply same_lengths in S as (? & ? & ? & ? & ? & ?).
  apply app_inv in A as [-> A]; [|congruence]. apply app_inv in A as [-> A]; [|congruence].
  apply app_inv in A as [-> A]; [|congruence]. apply app_inv in A as [-> A]; [|congruence].
  apply app_inv in A as [-> A]; [|congruence]. apply app_inv in A as [-> A]; [|congruence].
  injection A as ->. reflexivity.
Qed.

Lemma load_cache Q f : pn_cache (pn_load Q f) = pn_cache Q.
Proof.
  destruct f as [f|]; [|reflexivity].
  destruct (load_rest Q f) as (w1 & b1 & w2 & b2 & w3 & b3 & av & cn & _ & _ & _ & _ & _ & _ & ->). reflexivity.
Qed.
