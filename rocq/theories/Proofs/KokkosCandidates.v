(** The candidates of the Kokkos connector. *)
From Coq Require Import ZArith Bool Ascii String Lia List.
From Verif Require Import Model.Base Model.Float Model.PolicyModelsM Model.RuntimeM Model.KokkosM Spec.RuntimeSpec Spec.KokkosSpec Proofs.TreeFacts.
Import ListNotations.
Open Scope Z_scope.

(** ** Choices *)

Lemma product_cons n sizes : product (n :: sizes) = n * product sizes.
Proof. reflexivity. Qed.

Lemma product_pos sizes : Forall (fun n => 0 < n) sizes -> 0 < product sizes.
Proof. induction 1; cbn [product fold_right]; [lia|]. fold (product l). nia. Qed.

Lemma number_range ks sizes : in_sizes ks sizes -> 0 <= number ks sizes < product sizes.
Proof.
  induction 1 as [|k n ks sizes H R IH]; [cbn; lia|]. rewrite product_cons. cbn [number]. split; [nia|].
  assert (n * number ks sizes <= n * (product sizes - 1)) by (apply Z.mul_le_mono_nonneg_l; lia). lia.
Qed.

Lemma number_unique sizes : Forall (fun n => 0 < n) sizes -> forall p, 0 <= p < product sizes ->
  exists ks, in_sizes ks sizes /\ number ks sizes = p /\ forall ks', in_sizes ks' sizes -> number ks' sizes = p -> ks' = ks.
Proof.
  induction 1 as [|n sizes H R IH]; intros p B.
  - cbn in B. assert (p = 0) by lia. subst p. exists []. split; [constructor|]. split; [reflexivity|]. intros ks' X _. inversion X. reflexivity.
  - rewrite product_cons in B. assert (Q : 0 <= p / n < product sizes).
    { split; [apply Z.div_pos; lia|]. apply Z.div_lt_upper_bound; lia. }
    destruct (IH _ Q) as (ks & A1 & A2 & A3). exists (p mod n :: ks).
    assert (M := Z.mod_pos_bound p n H). split; [constructor; auto|]. split.
    + cbn [number]. rewrite A2. pose proof (Z.div_mod p n). lia.
    + intros ks' I E. inversion I; subst. cbn [number] in *.
      assert (D : (x + n * number l sizes) / n = number l sizes).
      { rewrite Z.mul_comm, Z_div_plus_full by lia. rewrite Z.div_small by lia. lia. }
      assert (M' : (x + n * number l sizes) mod n = x).
      { rewrite Z.mul_comm, Z_mod_plus_full. apply Z.mod_small. lia. }
      rewrite M'. f_equal. apply A3; auto.
Qed.

Lemma to_int_small z : 0 <= z <= int_max -> to_int z = z.
Proof.
  unfold to_int, int_max. intros H. rewrite Z.mod_small by lia. cbv zeta. destruct (z <? 2 ^ 31) eqn:E; [auto|]. apply Z.ltb_ge in E. lia.
Qed.

Lemma vec_get_nth {A} (l : list A) k x : 0 <= k -> nth_error l (Z.to_nat k) = Some x -> vec_get l k = Ok x.
Proof. intros H E. unfold vec_get. rewrite E. destruct (k <? 0) eqn:B; [apply Z.ltb_lt in B; lia|reflexivity]. Qed.

Lemma product_ge1 sizes : Forall (fun n => 0 < n) sizes -> 1 <= product sizes.
Proof. intros H. pose proof (product_pos _ H). lia. Qed.

Lemma decode_number vars ks : Forall complete_variable vars -> in_sizes ks (map v_size vars) -> product (map v_size vars) <= int_max ->
  exists vs, decode vars (number ks (map v_size vars)) = Ok vs /\ chosen vars ks vs.
Proof.
  intros C. revert ks. induction C as [|v vars [S L] C IH]; intros ks I B.
  - inversion I. exists []. split; [reflexivity|constructor].
  - cbn [map] in I. inversion I as [|k n ks' sizes' K I']; subst. cbn [map] in B. rewrite product_cons in B.
    assert (P := product_ge1 (map v_size vars)). assert (F : Forall (fun n => 0 < n) (map v_size vars)).
    { apply Forall_map. eapply Forall_impl; [|exact C]. intros a [X _]. exact X. }
    specialize (P F). assert (Sm : v_size v <= int_max) by nia.
    destruct (IH ks') as (vs & E & X); [auto|nia|].
    destruct (nth_error (v_values v) (Z.to_nat k)) as [x|] eqn:N.
    2: { apply nth_error_None in N. lia. }
    exists (x :: vs). split; [|constructor; auto].
    cbn [decode map number]. rewrite to_int_small by lia.
    destruct (v_size v =? 0) eqn:Z0; [apply Z.eqb_eq in Z0; lia|].
    assert (NN : 0 <= number ks' (map v_size vars)) by (apply number_range; auto).
    assert (NB : 0 <= v_size v * number ks' (map v_size vars)) by nia.
    rewrite Z.rem_mod_nonneg, Z.quot_div_nonneg by lia.
    rewrite (Z.mul_comm (v_size v)), Z_mod_plus_full, Z_div_plus_full by lia.
    rewrite Z.mod_small, Z.div_small by lia. rewrite Z.add_0_l.
    rewrite (vec_get_nth _ _ x); [|lia|auto]. cbn [bind]. rewrite E. reflexivity.
Qed.

Lemma choice_space_product vars acc : Forall complete_variable vars -> 0 < acc -> acc * product (map v_size vars) < 2 ^ 63 ->
  choice_space vars acc = Ok (acc * product (map v_size vars)).
Proof.
  intros C. revert acc. induction C as [|v vars [S L] C IH]; intros acc A B.
  - cbn. f_equal. lia.
  - cbn [map choice_space] in *. rewrite product_cons in *.
    assert (F : Forall (fun n => 0 < n) (map v_size vars)).
    { apply Forall_map. eapply Forall_impl; [|exact C]. intros a [X _]. exact X. }
    pose proof (product_ge1 _ F).
    destruct (v_size v =? 0) eqn:Z0; [apply Z.eqb_eq in Z0; lia|].
    unfold i64. assert (acc * v_size v < 2 ^ 63) by nia. assert (0 < acc * v_size v) by nia.
    assert (T : (- 2 ^ 63 <=? acc * v_size v) && (acc * v_size v <? 2 ^ 63) = true).
    { apply andb_true_intro. split; [apply Z.leb_le|apply Z.ltb_lt]; lia. }
    rewrite T. cbn [bind]. rewrite IH; [f_equal; lia|lia|lia].
Qed.

(** Every choice is in decode's reach and none twice. *)
Lemma choices vars : Forall complete_variable vars -> product (map v_size vars) <= int_max ->
  choice_space vars 1 = Ok (product (map v_size vars)) /\
  (forall p, 0 <= p < product (map v_size vars) -> exists ks vs, in_sizes ks (map v_size vars) /\ decode vars p = Ok vs /\ chosen vars ks vs) /\
  (forall ks, in_sizes ks (map v_size vars) -> exists p, 0 <= p < product (map v_size vars) /\
     (exists vs, decode vars p = Ok vs /\ chosen vars ks vs) /\ p = number ks (map v_size vars)) /\
  (forall ks ks', in_sizes ks (map v_size vars) -> in_sizes ks' (map v_size vars) ->
     number ks (map v_size vars) = number ks' (map v_size vars) -> ks = ks').
Proof.
  intros C B. assert (F : Forall (fun n => 0 < n) (map v_size vars)).
  { apply Forall_map. eapply Forall_impl; [|exact C]. intros a [X _]. exact X. }
  assert (W := choice_space_product vars 1 C).
  assert (BB : product (map v_size vars) < 2 ^ 63) by (unfold int_max in B; lia).
  rewrite W by lia. split; [f_equal; lia|]. split; [|split].
  - intros p H. destruct (number_unique _ F p H) as (ks & I & E & _). destruct (decode_number vars ks C I B) as (vs & D & X).
    rewrite E in D. eauto.
  - intros ks I. exists (number ks (map v_size vars)). split; [apply number_range; auto|]. split; [apply decode_number; auto|reflexivity].
  - intros ks ks' I I' E. destruct (number_unique _ F (number ks (map v_size vars)) (number_range _ _ I)) as (ks0 & _ & _ & U).
    rewrite (U ks I eq_refl), (U ks' I' (eq_sym E)). reflexivity.
Qed.

(** ** Integer ranges *)

Lemma i64_ok z : - 2 ^ 63 <= z < 2 ^ 63 -> i64 z = Ok z.
Proof. intros H. unfold i64. replace ((- 2 ^ 63 <=? z) && (z <? 2 ^ 63)) with true; [reflexivity|]. symmetry. apply andb_true_intro. split; [apply Z.leb_le|apply Z.ltb_lt]; lia. Qed.

Fixpoint progression (first step : Z) (n : nat) : list Z :=
  match n with O => [] | S n' => first :: progression (first + step) step n' end.

Lemma progression_length first step n : List.length (progression first step n) = n.
Proof. revert first. induction n; intros; cbn; auto. Qed.

Lemma progression_in first step n v : In v (progression first step n) <-> exists i, 0 <= i < Z.of_nat n /\ v = first + i * step.
Proof.
  revert first. induction n as [|n IH]; intros first.
  - cbn. split; [contradiction|]. intros (i & H & _). lia.
  - cbn [progression In]. rewrite IH. split.
    + intros [H|(i & H & E)]; [exists 0; lia|exists (i + 1); lia].
    + intros (i & H & E). destruct (Z.eq_dec i 0) as [->|N]; [left; lia|right; exists (i - 1); lia].
Qed.

Lemma int_slices_ok lower step (open_lower : bool) (n : nat) : 0 < step -> - 2 ^ 63 <= lower ->
  forall i, 0 <= i -> (let base := if open_lower then lower else lower + step in
    (0 < n)%nat -> base < 2 ^ 63 /\ (i + Z.of_nat n - 1) * step < 2 ^ 63 /\ base + (i + Z.of_nat n - 1) * step < 2 ^ 63) ->
  int_slices lower step open_lower i n =
    Ok (map VInt (progression ((if open_lower then lower else lower + step) + i * step) step n)).
Proof.
  intros S L. induction n as [|n IH]; intros i I B; [reflexivity|]. cbn [int_slices]. cbv zeta in B. destruct B as (B1 & B2 & B3); [lia|].
  set (base := if open_lower then lower else lower + step) in *.
  assert (E : (if open_lower then Ok lower else i64 (lower + step)) = Ok base).
  { unfold base in *. destruct open_lower; [reflexivity|]. apply i64_ok. lia. }
  rewrite E. cbn [bind]. assert (LB : - 2 ^ 63 <= base) by (unfold base; destruct open_lower; lia).
  assert (i * step <= (i + Z.of_nat (Datatypes.S n) - 1) * step) by (apply Z.mul_le_mono_nonneg_r; lia).
  assert (0 <= i * step) by (apply Z.mul_nonneg_nonneg; lia).
  rewrite i64_ok by lia. cbn [bind]. rewrite i64_ok by lia. cbn [bind]. rewrite IH.
  - cbn [bind progression map]. f_equal. f_equal. f_equal. f_equal. lia.
  - lia.
  - cbv zeta. intros N. fold base. replace (i + 1 + Z.of_nat n - 1) with (i + Z.of_nat (Datatypes.S n) - 1) by lia. auto.
Qed.

(** The number of candidates of an integer range. *)
Definition last_in (lower upper : Z) (open_lower open_upper : bool) : Z :=
  (if open_upper then upper - 1 else upper) - (if open_lower then lower + 1 else lower).

Lemma count_ok lower upper step oL oU : 0 < step -> - 2 ^ 63 <= lower -> upper < 2 ^ 63 -> 0 <= last_in lower upper oL oU < 2 ^ 63 - 1 ->
  count_int_slices lower upper step oL oU = Ok (1 + last_in lower upper oL oU / step).
Proof.
  intros S L U D. unfold count_int_slices, last_in in *.
  assert (E1 : (if oU then i64 (upper - 1) else Ok upper) = Ok (if oU then upper - 1 else upper)).
  { destruct oU; [|reflexivity]. apply i64_ok. destruct oL; lia. }
  assert (E2 : (if oL then i64 (lower + 1) else Ok lower) = Ok (if oL then lower + 1 else lower)).
  { destruct oL; [|reflexivity]. apply i64_ok. destruct oU; lia. }
  rewrite E1, E2. cbn [bind]. rewrite i64_ok by lia. cbn [bind].
  destruct (step =? 0) eqn:Z0; [apply Z.eqb_eq in Z0; lia|].
  set (d := (if oU then upper - 1 else upper) - (if oL then lower + 1 else lower)) in *.
  rewrite Z.quot_div_nonneg by lia.
  assert (0 <= d / step) by (apply Z.div_pos; lia). assert (d / step <= d) by (apply Z.div_le_upper_bound; nia).
  rewrite i64_ok by lia. cbn [bind]. apply i64_ok. lia.
Qed.

Lemma int_range_candidates lower upper step oL oU :
  0 < step -> - 2 ^ 63 <= lower -> upper + step < 2 ^ 63 -> 0 <= last_in lower upper oL oU -> upper - lower + step < 2 ^ 63 - 1 ->
  1 + last_in lower upper oL oU / step <= int_max ->
  associate_candidates (CIntRange lower upper step oL oU) =
    Ok (1 + last_in lower upper oL oU / step,
        map VInt (progression (if oL then lower else lower + step) step (Z.to_nat (1 + last_in lower upper oL oU / step)))).
Proof.
  intros S L U D W M. cbn [associate_candidates].
  assert (DD : last_in lower upper oL oU <= upper - lower) by (unfold last_in; destruct oL, oU; lia).
  rewrite count_ok by lia. cbn [bind]. set (q := last_in lower upper oL oU / step) in *.
  assert (Q : 0 <= q) by (apply Z.div_pos; lia).
  destruct (1 + q <=? 0) eqn:E; [apply Z.leb_le in E; lia|]. destruct (int_max <? 1 + q) eqn:E2; [apply Z.ltb_lt in E2; lia|].
  assert (QS : q * step <= last_in lower upper oL oU).
  { unfold q. rewrite Z.mul_comm. apply Z.mul_div_le. lia. }
  rewrite int_slices_ok.
  - cbn [bind]. rewrite Z.mul_0_l, Z.add_0_r. reflexivity.
  - lia.
  - lia.
  - lia.
  - cbv zeta. intros _. rewrite Z2Nat.id by lia. replace (0 + (1 + q) - 1) with q by lia.
    unfold last_in in *. destruct oL, oU; lia.
Qed.

(** A closed lower bound: every candidate is a member plus one step. *)
Lemma closed_lower lower upper step (oU : bool) :
  0 < step -> - 2 ^ 63 <= lower -> upper + step < 2 ^ 63 -> upper - lower + step < 2 ^ 63 - 1 -> (upper - lower) / step < int_max ->
  member lower upper step false oU lower ->
  exists vs, associate_candidates (CIntRange lower upper step false oU) = Ok (Z.of_nat (List.length vs), map VInt vs) /\ NoDup vs /\
    (forall v, In v vs <-> member lower upper step false oU (v - step)) /\
    ~ In lower vs /\ exists v, In v vs /\ (if oU then upper <= v else upper < v).
Proof.
  intros S L U W M [_ [_ B]].
  assert (D : 0 <= last_in lower upper false oU) by (unfold last_in; destruct oU; lia).
  set (n := 1 + last_in lower upper false oU / step).
  assert (Q : 0 <= last_in lower upper false oU / step) by (apply Z.div_pos; lia).
  assert (N : last_in lower upper false oU / step <= (upper - lower) / step).
  { apply Z.div_le_mono; [lia|]. unfold last_in. destruct oU; lia. }
  exists (progression (lower + step) step (Z.to_nat n)). rewrite int_range_candidates; try lia; try (fold n; lia).
  rewrite progression_length, Z2Nat.id by (unfold n; lia). split; [reflexivity|].
  assert (DM : last_in lower upper false oU = step * (last_in lower upper false oU / step) + last_in lower upper false oU mod step) by (apply Z.div_mod; lia).
  assert (MB := Z.mod_pos_bound (last_in lower upper false oU) step S).
  set (q := last_in lower upper false oU / step) in *.
  assert (LI : last_in lower upper false oU = (if oU then upper - 1 else upper) - lower) by reflexivity.
  split; [|split; [|split]].
  - generalize (lower + step) as a. induction (Z.to_nat n) as [|k IH]; intros a; constructor; [|apply IH].
    rewrite progression_in. intros (i & I & E). nia.
  - intros v. rewrite progression_in, Z2Nat.id by (unfold n; lia). unfold member. split.
    + intros (i & I & E). split; [exists i; lia|]. assert (i <= q) by (unfold n in I; lia). assert (i * step <= q * step) by nia. assert (0 <= i * step) by nia.
      destruct oU; lia.
    + intros ((i & E) & G & H). exists i. split; [|lia]. assert (i * step = v - step - lower) by lia.
      assert (0 <= i) by nia. split; [auto|]. unfold n.
      destruct oU; assert (i * step < (q + 1) * step) by lia; nia.
  - rewrite progression_in. intros (i & I & E). nia.
  - exists (lower + step + q * step). split; [rewrite progression_in, Z2Nat.id by (unfold n; lia); exists q; unfold n; lia|].
    destruct oU; lia.
Qed.

(** An open lower bound: the bound is a candidate. *)
Lemma open_lower lower upper step (oU : bool) :
  0 < step -> - 2 ^ 63 <= lower -> upper + step < 2 ^ 63 -> upper - lower + step < 2 ^ 63 - 1 -> (upper - lower) / step < int_max ->
  (if oU then lower + 1 < upper else lower < upper) ->
  exists vs, associate_candidates (CIntRange lower upper step true oU) = Ok (Z.of_nat (List.length vs), map VInt vs) /\ NoDup vs /\
    In lower vs /\ ~ member lower upper step true oU lower /\
    (forall v, In v vs -> v = lower \/ member lower upper step true oU v) /\
    ((step | (if oU then upper - 1 else upper) - lower) -> forall v, member lower upper step true oU v ->
        (if oU then upper - 1 else upper) = v -> ~ In v vs).
Proof.
  intros S L U W M B.
  assert (D : 0 <= last_in lower upper true oU) by (unfold last_in; destruct oU; lia).
  set (n := 1 + last_in lower upper true oU / step).
  assert (Q : 0 <= last_in lower upper true oU / step) by (apply Z.div_pos; lia).
  assert (N : last_in lower upper true oU / step <= (upper - lower) / step).
  { apply Z.div_le_mono; [lia|]. unfold last_in. destruct oU; lia. }
  exists (progression lower step (Z.to_nat n)). rewrite int_range_candidates; try lia; try (fold n; lia).
  rewrite progression_length, Z2Nat.id by (unfold n; lia). split; [reflexivity|].
  assert (DM : last_in lower upper true oU = step * (last_in lower upper true oU / step) + last_in lower upper true oU mod step) by (apply Z.div_mod; lia).
  assert (MB := Z.mod_pos_bound (last_in lower upper true oU) step S).
  set (q := last_in lower upper true oU / step) in *.
  assert (LI : last_in lower upper true oU = (if oU then upper - 1 else upper) - (lower + 1)) by reflexivity.
  split; [|split; [|split; [|split]]].
  - generalize lower as a. induction (Z.to_nat n) as [|k IH]; intros a; constructor; [|apply IH].
    rewrite progression_in. intros (i & I & E). nia.
  - rewrite progression_in. exists 0. rewrite Z2Nat.id by (unfold n; lia). unfold n; lia.
  - intros (_ & X & _). lia.
  - intros v. rewrite progression_in, Z2Nat.id by (unfold n; lia). intros (i & I & E).
    destruct (Z.eq_dec i 0) as [->|NZ]; [left; lia|right]. unfold member. split; [exists i; lia|].
    assert (i <= q) by (unfold n in I; lia). assert (i * step <= q * step) by nia. assert (0 < i * step) by nia. destruct oU; lia.
  - intros (k & K) v _ V. rewrite progression_in, Z2Nat.id by (unfold n; lia). intros (i & I & E). unfold n in I. destruct oU; nia.
Qed.
