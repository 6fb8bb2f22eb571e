(** Encoding of features, cache, files. *)
From Coq Require Import List ZArith Bool Ascii Lia Reals Lra.
From Flocq Require Import Core BinarySingleNaN.
From Flocq Require IEEE754.Binary IEEE754.Bits.
From Verif Require Import Model.Base Model.Float Model.DatasetM Model.NetM Model.PolicyNetM.
From Verif Require Import Spec.NetSpec Spec.PolicyNetSpec Proofs.NetFacts.
Import ListNotations.
Local Open Scope Z_scope.

(** * Encoding *)
Lemma to_uint64_ok f : encodable f -> to_uint64 f = Ok (Ztrunc (B2R f)) /\ 0 <= Ztrunc (B2R f) < 2 ^ 64.
Proof.
  intros (F & L & U). unfold to_uint64. rewrite F.
  assert (E : Btrunc f = Ztrunc (B2R f)).
  { apply eq_IZR. rewrite Btrunc_correct by reflexivity.
    unfold round, scaled_mantissa, cexp, FIX_exp, F2R; cbn. now rewrite !Rmult_1_r. }
  rewrite E.
  assert (G : 0 <= Ztrunc (B2R f) < 2 ^ 64).
  { unfold Ztrunc. destruct (Rlt_bool_spec (B2R f) 0) as [N|N].
    - assert (Zceil (B2R f) = 0) as ->; [|lia]. apply Zceil_imp. cbn. lra.
    - split; [apply Zfloor_lub; exact N|]. apply lt_IZR. eapply Rle_lt_trans; [apply Zfloor_lb|exact U]. }
  split; [|exact G].
  replace (0 <=? Ztrunc (B2R f)) with true by (symmetry; apply Z.leb_le; lia).
  replace (Ztrunc (B2R f) <? 2 ^ 64) with true by (symmetry; apply Z.ltb_lt; lia). reflexivity.
Qed.

Lemma to_uint64_range f z : to_uint64 f = Ok z -> 0 <= z < 2 ^ 64.
Proof.
  unfold to_uint64. destruct (is_finite f); [|intros H; exact ltac:(congruence)].
  destruct ((0 <=? Btrunc f) && (Btrunc f <? 2 ^ 64)) eqn:E; [|congruence].
  intros H; injection H as <-. apply andb_prop in E as [E1 E2].
  apply Z.leb_le in E1. apply Z.ltb_lt in E2. split; assumption.
Qed.

Lemma to_uint64_bad f : ~ encodable f -> to_uint64 f = UB.
Proof.
  intros N. unfold to_uint64. destruct (is_finite f) eqn:F; [|reflexivity].
  destruct ((0 <=? Btrunc f) && (Btrunc f <? 2 ^ 64)) eqn:E; [|reflexivity]. exfalso; apply N. split; [exact F|].
  apply andb_prop in E as [E1 E2]. apply Z.leb_le in E1. apply Z.ltb_lt in E2.
  assert (T : Btrunc f = Ztrunc (B2R f)).
  { apply eq_IZR. rewrite Btrunc_correct by reflexivity.
    unfold round, scaled_mantissa, cexp, FIX_exp, F2R; cbn. now rewrite !Rmult_1_r. }
  rewrite T in E1, E2. unfold Ztrunc in E1, E2. destruct (Rlt_bool_spec (B2R f) 0) as [S|S].
  - split.
    + apply Rnot_le_lt; intros L. assert (Zceil (B2R f) <= -1) by (apply Zceil_glb; exact L). lia.
    + eapply Rlt_trans; [exact S|]. apply IZR_lt; lia.
  - split; [lra|]. apply Rnot_le_lt; intros L.
    assert (2 ^ 64 <= Zfloor (B2R f)) by (apply Zfloor_lub; exact L). lia.
Qed.

Lemma encode_ok fs : Forall encodable fs -> encode fs = Ok (map (fun f => Ztrunc (B2R f)) fs).
Proof.
  intros H. unfold encode. apply map_out_map. intros f I. rewrite Forall_forall in H. now apply to_uint64_ok, H.
Qed.

Lemma encode_bad fs : ~ Forall encodable fs -> encode fs = UB.
Proof.
  unfold encode. induction fs as [|f fs IH]; intros N; [exfalso; apply N; constructor|]. cbn [map_out].
  destruct (is_finite f) eqn:F.
  2:{ unfold to_uint64. rewrite F. reflexivity. }
  assert (D : encodable f \/ ~ encodable f).
  { unfold encodable. destruct (Rlt_le_dec (-1) (B2R f)); [|right; intros (_ & ? & _); lra].
    destruct (Rlt_le_dec (B2R f) (IZR (2 ^ 64))); [left; tauto|right; intros (_ & _ & ?); lra]. }
  destruct D as [D|D].
  - destruct (to_uint64_ok f D) as [-> _]; cbn [bind]. rewrite IH; [reflexivity|]. intros G; apply N; now constructor.
  - now rewrite to_uint64_bad.
Qed.

Lemma encode_range fs zs : encode fs = Ok zs -> Forall (fun z => 0 <= z < 2 ^ 64) zs.
Proof.
  unfold encode. revert zs; induction fs as [|f fs IH]; intros zs H; cbn [map_out] in H.
  - injection H as <-; constructor.
  - destruct (to_uint64 f) as [z| | | |] eqn:E; cbn [bind] in H; try discriminate.
    destruct (map_out to_uint64 fs) as [q| | | |]; cbn [bind] in H; try discriminate.
    injection H as <-. constructor; [now apply to_uint64_range in E|now apply IH].
Qed.

Lemma bit_list_length z : length (bit_list z) = 64%nat.
Proof. unfold bit_list; now rewrite map_length, seq_length. Qed.

Lemma bit_list_inj a b : 0 <= a < 2 ^ 64 -> 0 <= b < 2 ^ 64 -> bit_list a = bit_list b -> a = b.
Proof.
  intros A B E. apply Z.bits_inj'. intros i I. destruct (Z.lt_ge_cases i 64) as [L|L].
  - pose proof (f_equal (fun l => nth_error l (Z.to_nat i)) E) as Q. cbn beta in Q.
    unfold bit_list in Q. rewrite !nth_error_map in Q.
    rewrite (nth_error_nth' _ 0%nat) in Q by (rewrite seq_length; lia). rewrite seq_nth in Q by lia.
    cbn [option_map] in Q. injection Q as Q. cbn [Nat.add] in Q. rewrite Z2Nat.id in Q by lia. exact Q.
  - assert (H : forall z, 0 <= z < 2 ^ 64 -> Z.testbit z i = false).
    { intros z Z. destruct (Z.eq_dec z 0) as [->|N]; [apply Z.bits_0|]. apply Z.bits_above_log2; [lia|].
      assert (Z.log2 z < 64) by (apply Z.log2_lt_pow2; lia). lia. }
    rewrite !H by assumption. reflexivity.
Qed.

Lemma map_inj {X Y} (f : X -> Y) l l' : (forall x y, f x = f y -> x = y) -> map f l = map f l' -> l = l'.
Proof.
  intros I; revert l'; induction l as [|x l IH]; intros [|y l'] H; cbn in H; try discriminate; [reflexivity|].
  injection H as H1 H2. f_equal; auto.
Qed.

Lemma concat_blocks {X Y} (n : nat) (f : X -> list Y) : (0 < n)%nat -> (forall x, length (f x) = n) ->
  forall l l', List.concat (map f l) = List.concat (map f l') -> map f l = map f l'.
Proof.
  intros N L. induction l as [|x l IH]; intros [|y l'] H; cbn in H; try reflexivity.
  - exfalso. pose proof (f_equal (@length _) H) as Q. rewrite app_length, L in Q; cbn in Q; lia.
  - exfalso. pose proof (f_equal (@length _) H) as Q. rewrite app_length, L in Q; cbn in Q; lia.
  - apply app_inv_head_iff in H || idtac.
    assert (E : f x = f y).
    { pose proof (f_equal (firstn n) H) as Q. rewrite !firstn_app, !L, Nat.sub_diag in Q. cbn [firstn] in Q.
      rewrite !app_nil_r in Q. rewrite <- (L x) in Q at 1. rewrite <- (L y) in Q. now rewrite !firstn_all in Q. }
    rewrite E in H. apply app_inv_head in H. cbn [map]. rewrite E. f_equal. now apply IH.
Qed.

Lemma blocks_inj {Y} (f : Z -> list Y) : (forall x, length (f x) = 64%nat) ->
  (forall a b, 0 <= a < 2 ^ 64 -> 0 <= b < 2 ^ 64 -> f a = f b -> a = b) ->
  forall l l', Forall (fun z => 0 <= z < 2 ^ 64) l -> Forall (fun z => 0 <= z < 2 ^ 64) l' ->
  List.concat (map f l) = List.concat (map f l') -> l = l'.
Proof.
  intros L I l l' Hl Hl' E. apply (concat_blocks 64 f) in E; [|lia|exact L].
  revert l' Hl' E; induction Hl as [|x l X Hl IH]; intros [|y l'] Hl' E; cbn [map] in E; try discriminate; [reflexivity|].
  injection E as E1 E2. inversion Hl' as [|? ? YR Hl'']; subst. f_equal; [now apply I|now apply IH].
Qed.

Lemma key_of_inj l l' : Forall (fun z => 0 <= z < 2 ^ 64) l -> Forall (fun z => 0 <= z < 2 ^ 64) l' ->
  key_of l = key_of l' -> l = l'.
Proof.
  apply blocks_inj.
  - intros z; unfold bit_string; now rewrite map_length, rev_length, bit_list_length.
  - intros a b A B E. apply bit_list_inj; [assumption..|].
    unfold bit_string in E. apply map_inj in E; [|intros [] []; congruence].
    rewrite <- (rev_involutive (bit_list a)), E. apply rev_involutive.
Qed.

Lemma input_of_inj {T} (bit : bool -> T) l l' : bit true <> bit false ->
  Forall (fun z => 0 <= z < 2 ^ 64) l -> Forall (fun z => 0 <= z < 2 ^ 64) l' ->
  input_of bit l = input_of bit l' -> l = l'.
Proof.
  intros D. apply blocks_inj.
  - intros z; now rewrite map_length, bit_list_length.
  - intros a b A B E. apply bit_list_inj; [assumption..|]. apply map_inj in E; [exact E|intros [] []; congruence].
Qed.

Lemma bytes_eqb_eq a b : bytes_eqb a b = true <-> a = b.
Proof.
  revert b; induction a as [|x a IH]; intros [|y b]; cbn; split; intros H; try discriminate; try reflexivity.
  - apply andb_prop in H as [H1 H2]. apply Ascii.eqb_eq in H1. apply IH in H2. now subst.
  - injection H as -> ->. rewrite Ascii.eqb_refl. now apply IH.
Qed.

(** * The cache *)
Section Cache.
Context {T : Type} (A : arith T) (metric_in : f64 -> T).

Definition cache_ok (P : pnet T) : Prop :=
  forall zs probs, Forall (fun z => 0 <= z < 2 ^ 64) zs ->
    cache_find (key_of zs) (pn_cache P) = Some probs -> evaluate_net A P zs = Ok probs.

Definition eq_mod_cache (P Q : pnet T) : Prop := no_cache P = no_cache Q.

Lemma evaluate_no_cache P zs : evaluate_net A (no_cache P) zs = evaluate_net A P zs.
Proof. reflexivity. Qed.

Lemma lookup_same P f : cache_ok P ->
  match lookup_probs A P f, lookup_probs A (no_cache P) f with
  | Ok (p, P'), Ok (q, Q') => p = q /\ cache_ok P' /\ no_cache P' = no_cache P /\ no_cache Q' = no_cache P
  | Throw, Throw | Abort, Abort | UB, UB | Fuel, Fuel => True
  | _, _ => False
  end.
Proof.
  intros C. unfold lookup_probs. destruct (encode f) as [zs| | | |] eqn:E; cbn [bind]; try exact I.
  apply encode_range in E. cbn [no_cache pn_cache cache_find]. rewrite evaluate_no_cache.
  destruct (cache_find (key_of zs) (pn_cache P)) as [probs|] eqn:F.
  - rewrite (C zs probs E F). cbn [bind]. repeat split; assumption.
  - destruct (evaluate_net A P zs) as [probs| | | |] eqn:V; cbn [bind]; try exact I.
    split; [reflexivity|]. split; [|split; reflexivity].
    intros zs' p' R. cbn [pn_cache cache_find]. destruct (bytes_eqb (key_of zs') (key_of zs)) eqn:K.
    + apply bytes_eqb_eq, key_of_inj in K; [|assumption..]. subst zs'. intros Q; injection Q as <-. exact V.
    + intros Q. now apply C.
Qed.

Lemma get_same draw P f : cache_ok P ->
  match pn_get_index A draw P f, pn_get_index A draw (no_cache P) f with
  | Ok (p, P'), Ok (q, Q') => p = q /\ cache_ok P' /\ no_cache P' = no_cache P /\ no_cache Q' = no_cache P
  | Throw, Throw | Abort, Abort | UB, UB | Fuel, Fuel => True
  | _, _ => False
  end.
Proof.
  intros C. unfold pn_get_index. change (baseline A (no_cache P)) with (baseline A P).
  change (pn_threshold (no_cache P)) with (pn_threshold P). destruct (n_lt A (baseline A P) (pn_threshold P)).
  - repeat split; assumption.
  - pose proof (lookup_same P f C) as L.
    destruct (lookup_probs A P f) as [[p P']| | | |]; destruct (lookup_probs A (no_cache P) f) as [[q Q']| | | |];
      cbn [bind]; try contradiction; try exact I.
    destruct L as (-> & C' & E1 & E2). destruct (draw q); cbn [bind]; try exact I. repeat split; assumption.
Qed.

Lemma train_net_cache P s a r : 
  match train_net A P s a r, train_net A (no_cache P) s a r with
  | Ok P', Ok Q' => no_cache P' = no_cache Q'
  | Throw, Throw | Abort, Abort | UB, UB | Fuel, Fuel => True
  | _, _ => False
  end.
Proof.
  unfold train_net. destruct s as [|s0 s]; [reflexivity|].
  cbn [no_cache pn_count pn_beta pn_avg pn_threshold pn_net pn_policies pn_trainable pn_cache].
  destruct (pn_count P =? int_max); [exact I|].
  match goal with |- context [n_lt A ?u ?v] => destruct (n_lt A u v) end; [reflexivity|].
  match goal with |- context [bind ?u _] => destruct u end; cbn [bind]; try exact I.
  match goal with |- context [bind ?u _] => destruct u end; cbn [bind]; try exact I.
  match goal with |- context [bind ?u _] => destruct u end; cbn [bind]; try exact I.
  match goal with |- context [bind ?u _] => destruct u end; cbn [bind]; try exact I.
  reflexivity.
Qed.

Lemma train_same P d :
  match pn_train A metric_in P d, pn_train A metric_in (no_cache P) d with
  | Ok P', Ok Q' => P' = Q' /\ cache_ok P' /\ no_cache P' = P'
  | Throw, Throw | Abort, Abort | UB, UB | Fuel, Fuel => True
  | _, _ => False
  end.
Proof.
  unfold pn_train.
  match goal with |- context [bind (map_out ?f ?l) _] => destruct (map_out f l) as [states| | | |] end; cbn [bind]; try exact I.
  match goal with |- context [train_net A P ?s ?a ?r] => pose proof (train_net_cache P s a r) as H;
    destruct (train_net A P s a r) as [P'| | | |]; destruct (train_net A (no_cache P) s a r) as [Q'| | | |] end;
    cbn [bind]; try contradiction; try exact I.
  change (no_cache P' = no_cache Q' /\ cache_ok (no_cache P') /\ no_cache P' = no_cache P').
  split; [exact H|]. split; [|reflexivity]. intros zs probs R F. discriminate F.
Qed.

Lemma no_cache_idem (P : pnet T) : no_cache (no_cache P) = no_cache P.
Proof. reflexivity. Qed.

Lemma run_uncached_mod us P Q : no_cache P = no_cache Q -> run_uncached A metric_in us P = run_uncached A metric_in us Q.
Proof. intros E. destruct us as [|[draw f|d] us]; cbn [run_uncached]; rewrite E; reflexivity. Qed.

Lemma cache_unobservable us P : cache_ok P ->
  match run_uses A metric_in us P, run_uncached A metric_in us P with
  | Ok (l, P'), Ok (l', Q') => l = l' /\ cache_ok P' /\ no_cache P' = Q'
  | Throw, Throw | Abort, Abort | UB, UB | Fuel, Fuel => True
  | _, _ => False
  end.
Proof.
  revert P; induction us as [|[draw f|d] us IH]; intros P C; cbn [run_uses run_uncached].
  - repeat split; assumption.
  - pose proof (get_same draw P f C) as G.
    destruct (pn_get_index A draw P f) as [[p P']| | | |]; destruct (pn_get_index A draw (no_cache P) f) as [[q Q']| | | |];
      cbn [bind]; try contradiction; try exact I.
    destruct G as (-> & C' & E1 & E2). rewrite (run_uncached_mod us Q' P') by congruence.
    specialize (IH P' C').
    destruct (run_uses A metric_in us P') as [[l P'']| | | |]; destruct (run_uncached A metric_in us P') as [[l' Q'']| | | |];
      cbn [bind]; try contradiction; try exact I.
    destruct IH as (-> & C'' & E). repeat split; assumption.
  - pose proof (train_same P d) as G.
    destruct (pn_train A metric_in P d) as [P'| | | |]; destruct (pn_train A metric_in (no_cache P) d) as [Q'| | | |];
      cbn [bind]; try contradiction; try exact I.
    destruct G as (<- & C' & _). now apply IH.
Qed.

Lemma new_cache_ok policies features lr beta beta1 beta2 threshold init :
  cache_ok (new_pnet A policies features lr beta beta1 beta2 threshold init).
Proof. intros zs probs R F. discriminate F. Qed.
End Cache.

(** * Bytes *)
Lemma le_bytes_length n z : length (le_bytes n z) = n.
Proof. revert z; induction n as [|n IH]; intros z; cbn; [reflexivity|now rewrite IH]. Qed.

Lemma of_le_bytes_le n z : 0 <= z < 256 ^ Z.of_nat n -> of_le_bytes (le_bytes n z) = z.
Proof.
  revert z; induction n as [|n IH]; intros z Z; [cbn in *; lia|].
  cbn [le_bytes of_le_bytes]. assert (B := Z.mod_pos_bound z 256 ltac:(lia)).
  rewrite N_ascii_embedding, Z2N.id by lia.
  rewrite Nat2Z.inj_succ, Z.pow_succ_r in Z by lia.
  rewrite IH by (split; [apply Z.div_pos; lia|apply Z.div_lt_upper_bound; lia]).
  rewrite (Z.div_mod z 256) at 3 by lia. lia.
Qed.

Lemma bits64_range x : 0 <= bits64 x < 2 ^ 64.
Proof. unfold bits64, Bits.bits_of_b64. apply (Bits.bits_of_binary_float_range 52 11); reflexivity. Qed.

Lemma of_bits64_bits x : of_bits64 (bits64 x) = x.
Proof.
  unfold of_bits64, bits64, Bits.b64_of_bits, Bits.bits_of_b64.
  rewrite Bits.binary_float_of_bits_of_binary_float. apply Binary.B2BSN_BSN2B.
Qed.

Lemma of_int_mem_int z : is_int z -> of_int_mem (int_mem z) = z.
Proof.
  intros [L U]. unfold of_int_mem, int_mem. rewrite of_le_bytes_le.
  2:{ change (256 ^ Z.of_nat 4) with (2 ^ 32). apply Z.mod_pos_bound; lia. }
  destruct (Z.lt_ge_cases z 0) as [N|N].
  - rewrite <- (Z_mod_plus_full z 1 (2 ^ 32)), Z.mod_small by lia. destruct (Z.ltb_spec (z + 1 * 2 ^ 32) (2 ^ 31)); lia.
  - rewrite Z.mod_small by lia. destruct (Z.ltb_spec z (2 ^ 31)); lia.
Qed.

Lemma mem_of_length a : length (mem_of a) = (8 * length a)%nat.
Proof.
  induction a as [|x a IH]; [reflexivity|]. unfold mem_of in *. cbn [map List.concat].
  rewrite app_length, IH, le_bytes_length. cbn [length]. lia.
Qed.
Lemma mem_of_cons x a : mem_of (x :: a) = (le_bytes 8 (bits64 x) ++ mem_of a)%list.
Proof. reflexivity. Qed.
Lemma mem_of_app a b : mem_of (a ++ b) = (mem_of a ++ mem_of b)%list.
Proof. unfold mem_of. now rewrite map_app, concat_app. Qed.

Lemma firstn_exact {X} n (a b : list X) : length a = n -> firstn n (a ++ b) = a.
Proof. intros <-. rewrite firstn_app, Nat.sub_diag, firstn_all. apply app_nil_r. Qed.
Lemma skipn_exact {X} n (a b : list X) : length a = n -> skipn n (a ++ b) = b.
Proof. intros <-. rewrite skipn_app, Nat.sub_diag, skipn_all. reflexivity. Qed.

Lemma double_back x : of_bits64 (of_le_bytes (le_bytes 8 (bits64 x))) = x.
Proof. rewrite of_le_bytes_le; [apply of_bits64_bits|]. apply bits64_range. Qed.

Lemma doubles_cons n x m : doubles_of (S n) (le_bytes 8 (bits64 x) ++ m) = x :: doubles_of n m.
Proof.
  cbn [doubles_of]. rewrite firstn_exact, skipn_exact by apply le_bytes_length. now rewrite double_back.
Qed.

Lemma doubles_mem a : doubles_of (length a) (mem_of a) = a.
Proof. induction a as [|x a IH]; [reflexivity|]. rewrite mem_of_cons. cbn [length]. now rewrite doubles_cons, IH. Qed.

Lemma doubles_of_length n b : length (doubles_of n b) = n.
Proof. revert b; induction n as [|n IH]; intros b; cbn; [reflexivity|now rewrite IH]. Qed.
