(** The simple policy models. *)
From Coq Require Import List ZArith Bool Ascii String Lia.
From Coq Require Import ZifyBool.
From Flocq Require Import BinarySingleNaN.
From Verif Require Import Model.Base Model.Float Model.Decimal Model.DatasetM Model.ModelStringM Model.PolicyModelsM
  Spec.DatasetSpec Spec.DatasetClient Spec.ModelStringSpec Spec.PolicyModelsSpec
  Proofs.MapFacts Proofs.KeyOrder Proofs.DatasetFacts Proofs.BestPolicy Proofs.DecimalInt Proofs.ModelStringFacts.
Import ListNotations.
Open Scope Z_scope.

(** ** Static *)

Lemma ask_static P n c calls : ask P (MStatic n c) calls = Ok (repeat c (List.length calls), MStatic n c).
Proof. induction calls as [|[D f] r IH]; cbn; [reflexivity|]. rewrite IH. reflexivity. Qed.

Lemma digits_free_comma s : Forall isdig s -> free_of "," s.
Proof.
  intros F I. rewrite Forall_forall in F. apply F in I. discriminate.
Qed.
Lemma print_Z_free_comma z : free_of "," (print_Z z).
Proof.
  unfold print_Z. destruct (z <? 0).
  - intros [E|E]; [discriminate|]. revert E. apply digits_free_comma, print_nonneg_digits.
  - apply digits_free_comma, print_nonneg_digits.
Qed.

Lemma stoi_whole z : -2147483648 <= z <= 2147483647 -> stoi (print_Z z) = Ok (z, []).
Proof. intros H. rewrite <- (app_nil_r (print_Z z)). apply stoi_print; [exact H|exact I]. Qed.

Lemma static_string z : exists ps,
  parse_policy_model ($"Static,policy=" ++ print_Z z) = Ok ($"Static", ps) /\ param_find ($"policy") ps = Some (print_Z z).
Proof.
  destruct (parse_gives_items ($"Static") [($"policy", Some (print_Z z))]) as (m & E & F).
  - intros I. cbn in I. repeat destruct I as [I|I]; try discriminate; contradiction.
  - constructor; [|constructor]. repeat split; cbn.
    + intros I. repeat destruct I as [I|I]; try discriminate; contradiction.
    + intros I. repeat destruct I as [I|I]; try discriminate; contradiction.
    + apply print_Z_free_comma.
  - intros i [<-|[]]. constructor.
  - exists m. split.
    + rewrite <- E. f_equal. unfold model_text, item_text. cbn. now rewrite app_nil_r.
    + apply F. constructor.
Qed.

Lemma static_created P nf n ps init : create_model P ($"Static") nf n ps init = create_static n ps.
Proof. reflexivity. Qed.

Lemma static_region_model P nf n init p : -2147483648 <= p <= 2147483647 ->
  exists ps, parse_policy_model ($"Static,policy=" ++ print_Z p) = Ok ($"Static", ps) /\
    (p < 0 -> create_model P ($"Static") nf n ps init = Throw) /\
    (0 <= p -> exists m, create_model P ($"Static") nf n ps init = Ok m /\
       forall calls, ask P m calls = Ok (repeat (if p <? n then p else 0) (List.length calls), m)).
Proof.
  intros H. destruct (static_string p) as (ps & E & F). exists ps. split; [exact E|].
  rewrite static_created. unfold create_static, param_int. rewrite F, stoi_whole by exact H. cbn [bind].
  split; intros S.
  - destruct (p <? 0) eqn:L; [reflexivity|lia].
  - destruct (p <? 0) eqn:L; [lia|]. eexists. split; [reflexivity|]. intros calls. rewrite ask_static.
    destruct (n <=? p) eqn:A; destruct (p <? n) eqn:B; try lia; reflexivity.
Qed.

Lemma static_default P nf n init : 1 <= n ->
  exists ps m, parse_policy_model ($"Static") = Ok ($"Static", ps) /\ create_model P ($"Static") nf n ps init = Ok m /\
    forall calls, ask P m calls = Ok (repeat 0 (List.length calls), m).
Proof.
  intros H. exists [], (MStatic n (if n <=? 0 then 0 else 0)). split; [reflexivity|]. split; [reflexivity|].
  intros calls. rewrite ask_static. destruct (n <=? 0); reflexivity.
Qed.

(** ** RoundRobin *)

Lemma ask_round_robin P n calls : forall k, 1 <= n ->
  exists last, ask P (MRoundRobin n ((Z.of_nat k - 1) mod n)) calls =
    Ok (map (fun i => Z.of_nat i mod n) (seq k (List.length calls)), MRoundRobin n last).
Proof.
  induction calls as [|[D f] r IH]; intros k H; cbn [ask List.length seq map]; [eexists; reflexivity|].
  unfold m_get_index. destruct (n =? 0) eqn:Z0; [lia|].
  assert (E : Z.rem ((Z.of_nat k - 1) mod n + 1) n = Z.of_nat k mod n).
  { assert (M := Z.mod_pos_bound (Z.of_nat k - 1) n ltac:(lia)).
    rewrite Z.rem_mod_nonneg by lia. rewrite Zplus_mod_idemp_l. f_equal. lia. }
  cbn [bind]. rewrite E. destruct (IH (S k) H) as (last & IHk).
  replace ((Z.of_nat (S k) - 1) mod n) with (Z.of_nat k mod n) in IHk by (f_equal; lia).
  rewrite IHk. cbn [bind]. eexists. reflexivity.
Qed.

Lemma rem_m1 P n calls : 1 <= n ->
  ask P (MRoundRobin n (-1)) calls = ask P (MRoundRobin n ((Z.of_nat 0 - 1) mod n)) calls \/ calls = [].
Proof.
  intros H. destruct calls as [|[D f] r]; [now right|]. left. cbn [ask]. unfold m_get_index.
  destruct (n =? 0) eqn:Z0; [lia|]. cbn [bind].
  assert (E : Z.rem ((Z.of_nat 0 - 1) mod n + 1) n = Z.rem (-1 + 1) n).
  { assert (M := Z.mod_pos_bound (Z.of_nat 0 - 1) n ltac:(lia)).
    rewrite Z.rem_mod_nonneg by lia. rewrite Zplus_mod_idemp_l.
    replace (Z.of_nat 0 - 1 + 1) with 0 by lia. replace (-1 + 1) with 0 by lia. now rewrite Z.mod_0_l, Z.rem_0_l by lia. }
  rewrite E. reflexivity.
Qed.

Lemma round_robin_answers P nf n init : 1 <= n ->
  exists m, create_model P ($"RoundRobin") nf n [] init = Ok m /\
    forall calls, exists m', ask P m calls =
      Ok (map (fun k => Z.of_nat k mod n) (seq 0 (List.length calls)), m').
Proof.
  intros H. exists (MRoundRobin n (-1)). split; [reflexivity|]. intros calls.
  destruct (rem_m1 P n calls H) as [E| ->]; [|eexists; reflexivity].
  rewrite E. destruct (ask_round_robin P n calls 0 H) as (last & A). eexists. exact A.
Qed.

Definition cyc (n : Z) (s k : nat) : list Z := map (fun i => Z.of_nat i mod n) (seq s k).

Lemma div_step a n : 1 <= n -> (a + 1) / n = a / n + (if (a + 1) mod n =? 0 then 1 else 0).
Proof.
  intros H. assert (A := Z.div_mod a n ltac:(lia)). assert (B := Z.mod_pos_bound a n ltac:(lia)).
  assert (C := Z.div_mod (a + 1) n ltac:(lia)). assert (D := Z.mod_pos_bound (a + 1) n ltac:(lia)).
  destruct ((a + 1) mod n =? 0) eqn:E; nia.
Qed.

Lemma cyc_count n c k : 0 <= c < n -> forall s,
  times c (cyc n s k) = (Z.of_nat (s + k) + n - 1 - c) / n - (Z.of_nat s + n - 1 - c) / n.
Proof.
  intros H. induction k as [|k IH]; intros s.
  - rewrite Nat.add_0_r. cbn. unfold times. cbn. lia.
  - unfold cyc, times in *. cbn [seq map count_occ]. specialize (IH (S s)).
    replace (Z.of_nat (S s) + n - 1 - c) with ((Z.of_nat s + n - 1 - c) + 1) in IH by lia.
    rewrite div_step in IH by lia.
    replace (S s + k)%nat with (s + S k)%nat in IH by lia.
    assert (Q : ((Z.of_nat s + n - 1 - c + 1) mod n =? 0) = (Z.of_nat s mod n =? c)).
    { assert (A := Z.div_mod (Z.of_nat s) n ltac:(lia)). assert (B := Z.mod_pos_bound (Z.of_nat s) n ltac:(lia)).
      set (q := Z.of_nat s / n) in *. set (r := Z.of_nat s mod n) in *.
      assert (E : (Z.of_nat s + n - 1 - c + 1) mod n = (r - c) mod n).
      { replace (Z.of_nat s + n - 1 - c + 1) with ((r - c) + (q + 1) * n) by lia. apply Z.mod_add. lia. }
      rewrite E. destruct (Z_lt_le_dec r c) as [L|L].
      - replace ((r - c) mod n) with (r - c + n); [lia|].
        apply Z.mod_unique with (-1); lia.
      - rewrite Z.mod_small by lia. lia. }
    rewrite Q in IH. destruct (Z.eq_dec (Z.of_nat s mod n) c) as [E|E].
    + rewrite (proj2 (Z.eqb_eq _ _) E) in IH. rewrite Nat2Z.inj_succ. lia.
    + rewrite (proj2 (Z.eqb_neq _ _) E) in IH. lia.
Qed.

Lemma cyc_fair n c s k : 0 <= c < n ->
  Z.of_nat k / n <= times c (cyc n s k) <= (Z.of_nat k + n - 1) / n.
Proof.
  intros H. rewrite cyc_count by exact H. set (x := Z.of_nat s + n - 1 - c).
  replace (Z.of_nat (s + k) + n - 1 - c) with (x + Z.of_nat k) by (unfold x; lia).
  generalize (Z.of_nat k). intros m.
  assert (A := Z.div_mod x n ltac:(lia)). assert (B := Z.mod_pos_bound x n ltac:(lia)).
  assert (C := Z.div_mod m n ltac:(lia)). assert (D := Z.mod_pos_bound m n ltac:(lia)).
  assert (E := Z.div_mod (x + m) n ltac:(lia)). assert (F := Z.mod_pos_bound (x + m) n ltac:(lia)).
  assert (G := Z.div_mod (m + n - 1) n ltac:(lia)). assert (I := Z.mod_pos_bound (m + n - 1) n ltac:(lia)).
  nia.
Qed.

Lemma cyc_window n s k len : (s + k <= len)%nat -> firstn k (skipn s (cyc n 0 len)) = cyc n s k.
Proof.
  intros H. unfold cyc. rewrite skipn_map, firstn_map. f_equal.
  replace len with (s + (k + (len - s - k)))%nat by lia. rewrite seq_app.
  rewrite skipn_app, skipn_all2, seq_length by (rewrite seq_length; lia).
  rewrite Nat.sub_diag. cbn [app skipn]. rewrite seq_app. rewrite firstn_app, seq_length, Nat.sub_diag.
  cbn [firstn]. rewrite app_nil_r. apply firstn_all2. rewrite seq_length. lia.
Qed.

Lemma round_robin_fair P nf n init : 1 <= n ->
  exists m, create_model P ($"RoundRobin") nf n [] init = Ok m /\
    forall calls answers m', ask P m calls = Ok (answers, m') ->
      forall s k c, (s + k <= List.length calls)%nat -> 0 <= c < n ->
        Z.of_nat k / n <= times c (firstn k (skipn s answers)) <= (Z.of_nat k + n - 1) / n.
Proof.
  intros H. destruct (round_robin_answers P nf n init H) as (m & C & A). exists m. split; [exact C|].
  intros calls answers m' E s k c L I. destruct (A calls) as (m2 & A2). rewrite A2 in E. injection E as <- <-.
  fold (cyc n 0 (List.length calls)). rewrite cyc_window by exact L. apply cyc_fair. exact I.
Qed.

(** ** Optimal *)

Lemma split_commas_free s : forall acc, free_of "," s -> (acc ++ s)%list <> [] -> split_commas acc s = [(acc ++ s)%list].
Proof.
  induction s as [|c s IH]; intros acc F N; cbn.
  - rewrite app_nil_r in *. destruct acc; [contradiction|reflexivity].
  - destruct (Ascii.eqb_spec c ","); [subst; exfalso; apply F; now left|].
    rewrite IH.
    + now rewrite <- app_assoc.
    + intros I. apply F. now right.
    + rewrite <- app_assoc. exact N.
Qed.
Lemma split_commas_head s r : forall acc, free_of "," s ->
  split_commas acc (s ++ ","%char :: r) = (acc ++ s)%list :: split_commas [] r.
Proof.
  induction s as [|c s IH]; intros acc F; cbn.
  - now rewrite app_nil_r.
  - destruct (Ascii.eqb_spec c ","); [subst; exfalso; apply F; now left|].
    rewrite IH by (intros I; apply F; now right). now rewrite <- app_assoc.
Qed.

Lemma split_comma_separated pieces : Forall (fun s => free_of "," s /\ s <> []) pieces ->
  split_commas [] (comma_separated pieces) = pieces /\
  (pieces <> [] -> split_commas [] (comma_separated pieces ++ [","%char]) = pieces).
Proof.
  induction pieces as [|s r IH]; intros F; [now split|]. inversion F as [|? ? [A B] F']; subst.
  destruct (IH F') as [I1 I2]. destruct r as [|t r].
  - cbn [comma_separated]. split.
    + now apply split_commas_free.
    + intros _. rewrite split_commas_head by exact A. reflexivity.
  - change (comma_separated (s :: t :: r)) with (s ++ ","%char :: comma_separated (t :: r))%list. split.
    + rewrite split_commas_head by exact A. now rewrite I1.
    + intros _. rewrite <- app_assoc. cbn [app]. rewrite split_commas_head by exact A. now rewrite I2.
Qed.

Lemma push_all pieces ps : Forall2 (fun s p => exists rest, stoi s = Ok (p, rest)) pieces ps -> forall q,
  push_policies q pieces = Ok (q ++ ps)%list.
Proof.
  induction 1 as [|s p ss pp (rest & E) F IH]; intros q; cbn; [now rewrite app_nil_r|].
  rewrite E. cbn [bind]. rewrite IH. now rewrite <- app_assoc.
Qed.

Lemma ask_optimal P calls : forall q,
  ask P (MOptimal q) calls =
    if (List.length calls <=? List.length q)%nat then Ok (firstn (List.length calls) q, MOptimal (skipn (List.length calls) q))
    else Abort.
Proof.
  induction calls as [|[D f] r IH]; intros q; [reflexivity|].
  cbn [ask List.length]. destruct q as [|p q]; cbn [m_get_index bind]; [reflexivity|].
  rewrite IH. cbn [List.length firstn skipn Nat.leb]. destruct (List.length r <=? List.length q)%nat; reflexivity.
Qed.

Lemma stoi_nil rest p : stoi [] = Ok (p, rest) -> False.
Proof. discriminate. Qed.

Lemma optimal_replays P nf n init pieces ps :
  Forall2 (fun s p => free_of "," s /\ exists rest, stoi s = Ok (p, rest)) pieces ps ->
  exists m0 m, create_model P ($"Optimal") nf n [] init = Ok m0 /\
    m_load m0 (Some (comma_separated pieces)) = Ok m /\
    create_from_file ($"Optimal") n (Some (comma_separated pieces)) = Ok m /\
    (pieces <> [] -> m_load m0 (Some (comma_separated pieces ++ [","%char])%list) = Ok m) /\
    (forall calls, (List.length calls <= List.length ps)%nat ->
       exists m', ask P m calls = Ok (firstn (List.length calls) ps, m')) /\
    (forall calls, (List.length ps < List.length calls)%nat -> ask P m calls = Abort).
Proof.
  intros F. exists (MOptimal []), (MOptimal ps).
  assert (G : Forall (fun s => free_of "," s /\ s <> []) pieces).
  { clear -F. induction F as [|s p ss pp [A (rest & B)] F IH]; constructor; auto. split; auto.
    intros ->. now apply stoi_nil in B. }
  assert (Q : forall q, push_policies q pieces = Ok (q ++ ps)%list).
  { apply push_all. clear -F. induction F as [|s p ss pp [A B] F IH]; constructor; auto. }
  destruct (split_comma_separated pieces G) as [S1 S2].
  repeat split.
  - cbn. rewrite S1, Q. reflexivity.
  - cbn. rewrite S1, Q. reflexivity.
  - intros N. cbn. rewrite S2, Q by exact N. reflexivity.
  - intros calls L. rewrite ask_optimal. rewrite (proj2 (Nat.leb_le _ _) L). eexists. reflexivity.
  - intros calls L. rewrite ask_optimal. rewrite (proj2 (Nat.leb_gt _ _) L). reflexivity.
Qed.

(** ** DatasetMap *)

Lemma nan_free_fok f : nan_free f = true <-> fok f.
Proof.
  rewrite fok_Forall. unfold nan_free. rewrite forallb_forall, Forall_forall. split; intros H x I.
  - specialize (H x I). now destruct (is_nan x).
  - rewrite (H x I). reflexivity.
Qed.

Lemma dataset_map_answers P D n best d ks : reachable d ks ->
  (forall f p m, In (f, p, m) (ds_to_vector d) -> is_nan m = false) ->
  exists m, m_train P (MDatasetMap n best) d = Ok m /\
    forall f, Forall (fun x => is_nan x = false) f ->
      (existsb (fun e => same_features f (m_features e)) (ds_to_vector d) = true ->
         exists p, m_get_index P D m f = Ok (p, m) /\ best_policy_for f (ds_to_vector d) p) /\
      (existsb (fun e => same_features f (m_features e)) (ds_to_vector d) = false -> m_get_index P D m f = Abort).
Proof.
  intros R N. assert (W := reachable_wf _ _ R). destruct (best_of_wf d W) as [Wb S].
  exists (MDatasetMap n (fold_left min_step d [])). split; [reflexivity|]. intros f Ff.
  assert (F : fok f) by (now apply fok_Forall). assert (NF := proj2 (nan_free_fok f) F).
  assert (Ex : existsb (fun e => same_features f (m_features e)) (ds_to_vector d) = true <-> entries_of f d <> []).
  { rewrite existsb_exists. split.
    - intros ([[g p] m] & I & Q) E. apply -> In_to_vector in I.
      assert (X : In (p, m) (entries_of f d)) by (apply In_entries; exists g; auto). rewrite E in X. destruct X.
    - intros E. destruct (entries_of f d) as [|[p m] l] eqn:EL; [contradiction|].
      assert (X : In (p, m) (entries_of f d)) by (rewrite EL; now left). apply In_entries in X as (g & I & Q).
      exists (g, p, m). split; auto. now apply <- In_to_vector. }
  cbn [m_get_index]. rewrite NF. cbn [negb]. rewrite S by exact F.
  split; intros E.
  - apply Ex in E. destruct (entries_of f d) as [|[p0 m0] l] eqn:EL; [contradiction|].
    assert (U := entries_up f d F W). rewrite EL in U.
    assert (NE : Forall (fun e => is_nan (snd e) = false) (entries_of f d)).
    { rewrite Forall_forall. intros [p m] I. apply In_entries in I as (g & I & _). cbn. apply (N g p m).
      now apply <- In_to_vector. }
    rewrite EL in NE. inversion NE as [|? ? N1 N2]; subst.
    cbn [best_fold fold_left best_upd]. destruct (best_fold_Some l p0 m0) as (q & x & B).
    unfold best_fold in B. cbn. rewrite B. exists q. split; [reflexivity|].
    destruct (best_fold_min l p0 m0 q x N1 N2 U B) as [A M].
    assert (A' : In (q, x) (entries_of f d)) by (rewrite EL; exact A).
    apply In_entries in A' as (g & I & Q). exists g, x. split; [now apply <- In_to_vector|]. split; [exact Q|].
    intros g' p' m' I' Q'. apply M. change (In (p', m') ((p0, m0) :: l)). rewrite <- EL. apply In_entries.
    exists g'. split; auto. now apply -> In_to_vector.
  - destruct (entries_of f d) as [|e l] eqn:EL; [reflexivity|].
    assert (X : existsb (fun e => same_features f (m_features e)) (ds_to_vector d) = true) by (apply Ex; discriminate).
    rewrite X in E. discriminate.
Qed.
