(** Policy models in a condition to answer, to be trained and to be stored. *)
From Coq Require Import ZArith Bool Ascii String Lia List Sorted Permutation.
From Flocq Require Import BinarySingleNaN.
From Verif Require Import Model.Base Model.Float Model.Decimal Model.DatasetM Model.ParserM Model.TreeM Model.TreeIO Model.ForestM Model.NetM Model.PolicyNetM
  Model.ModelStringM Model.PolicyModelsM Spec.DatasetSpec Spec.DatasetClient Spec.TreeSpec Spec.ForestSpec Spec.ModelStringSpec Spec.PolicyNetSpec
  Spec.DecimalSpec Spec.RuntimeSpec Spec.SafeClient
  Proofs.TreeFacts Proofs.TreeLabels Proofs.TreeTraining Proofs.TreeFileProps Proofs.ForestFacts Proofs.ModelStringFacts Proofs.PolicyModelsFacts Proofs.DecimalInt
  Proofs.DatasetFacts Proofs.MapFacts Proofs.KeyOrder Proofs.BestPolicy Proofs.PolicyNetSafety Proofs.PolicyRange Proofs.DatasetFileProps.
Import ListNotations.
Open Scope Z_scope.

(** A trained tree. *)
Definition tree_ready (k : nat) (t : dtree) : Prop :=
  t_root t <> Null /\ indices_below (Z.of_nat k) (t_root t) /\ forall level key, exists s, output_tree level key t = Ok s.

Fixpoint fine (k : nat) (m : model) : Prop :=
  match m with
  | MStatic _ _ | MRandom _ | MRoundRobin _ _ => True
  | MOptimal _ | MDatasetMap _ _ => False
  | MTree _ tr t e =>
      0 <= t_max_depth t /\ StronglySorted Z.lt (t_classes t) /\ (tr = false -> tree_ready k t) /\
      match e with Some e => fine k e | None => tr = false end
  | MForest _ tr f e =>
      0 <= f_max_depth f /\ Forall (tree_ready k) (f_trees f) /\
      match e with Some e => fine k e | None => tr = false end
  | MNet N => sized (pn_policies N) k N
  end.

(** How often a network was trained. *)
Definition trainings (m : model) : Z := match m with MNet N => pn_count N | _ => 0 end.

(** A network, or a tree or forest exploring with one. *)
Fixpoint with_net (m : model) : Prop :=
  match m with
  | MNet _ => True
  | MTree _ _ _ (Some e) | MForest _ _ _ (Some e) => with_net e
  | _ => False
  end.

Section Models.
Variable P : platform.

(** ** Answering *)

Lemma forest_answers k n f x : 1 <= n -> forest_in n f -> Forall (tree_ready k) (f_trees f) -> List.length x = k -> exists c, f_predict f x = Ok c.
Proof.
  intros Hn [EN FI] FR L.
  assert (exists vs, votes_for x f vs /\ Forall (fun v => 0 <= v < f_num_classes f) vs) as (vs & V & B).
  { unfold votes_for. rewrite EN. revert FI FR. generalize (f_trees f). induction l as [|t l IH]; intros FI FR; [exists []; split; constructor|].
    inversion FI; inversion FR; subst. destruct IH as (vs & V & B); auto.
    destruct H5 as (N & I & _). destruct (evaluate_defined _ _ x I N) as [v E]; [lia|].
    exists (v :: vs). split; constructor; auto. destruct H1 as [_ LI]. assert (G := evaluate_in _ _ x LI). rewrite E in G. exact G. }
  destruct (forest_votes f x vs) as (c & E & _); [lia|auto|auto|eauto].
Qed.

Fixpoint get_fine (n : Z) (k : nat) D m {struct m} : 1 <= n -> good n m -> fine k m -> forall x, List.length x = k ->
  (with_net m -> Forall encodable x /\ forall l, l <> [] -> exists i, d_discrete D l = Ok i) ->
  exists c m', m_get_index P D m x = Ok (c, m') /\ fine k m' /\ trainings m' = trainings m /\ (with_net m' -> with_net m).
Proof.
  intros Hn G F x L W. destruct m as [a ch|a|a l|q|a b|a tr t e|a tr f e|N]; cbn [fine good] in G, F; try contradiction; cbn [m_get_index].
  - exists ch, (MStatic a ch). split; [reflexivity|]. cbn. auto.
  - destruct (1 <? a); do 2 eexists; (split; [reflexivity|]); cbn; auto.
  - destruct G as [-> G]. destruct (Z.eqb_spec n 0); [lia|]. do 2 eexists; (split; [reflexivity|]); cbn; auto.
  - destruct F as (F1 & F2 & F3 & F4). destruct G as [GT GE]. destruct tr; cbn [negb].
    + destruct e as [e|]; [|discriminate F4]. destruct (get_fine n k D e Hn GE F4 x L) as (c & e' & -> & FE & _ & WE); [exact W|]. cbn [bind].
      do 2 eexists; (split; [reflexivity|]); cbn.
      split; [split; [auto|split; [auto|split; [discriminate|auto]]]|auto].
    + destruct (F3 eq_refl) as (N & I & S). destruct (evaluate_defined _ _ x I N) as [v E]; [lia|]. unfold dt_predict. rewrite E. cbn [bind].
      do 2 eexists; (split; [reflexivity|]); cbn. auto 10.
  - destruct F as (F1 & F2 & F3). destruct G as [GT GE]. destruct tr; cbn [negb].
    + destruct e as [e|]; [|discriminate F3]. destruct (get_fine n k D e Hn GE F3 x L) as (c & e' & -> & FE & _ & WE); [exact W|]. cbn [bind].
      do 2 eexists; (split; [reflexivity|]); cbn. auto 10.
    + destruct (forest_answers k n f x Hn GT F2 L) as (c & ->). cbn [bind]. do 2 eexists; (split; [reflexivity|]); cbn. auto 10.
  - destruct (W I) as [E T]. destruct G as [G1 G2].
    destruct (get_sized (f64_arith (p_libm P)) (pn_policies N) k N (d_discrete D) x) as (i & Q & -> & S & C).
    + lia.
    + exact F.
    + split; [split; auto|]. intros p LP. apply T. destruct p; [cbn in LP; lia|discriminate].
    + cbn [bind]. do 2 eexists; (split; [reflexivity|]). cbn. split; [rewrite (sz_policies _ _ _ S); exact S|auto].
Qed.

(** ** Training *)

(** The training set: what findMinMetricPolicyByFeatures gives. *)
Lemma best_incl d : forall b, incl (map fst (fold_left min_step d b)) (map fst b ++ map (fun e => fst (fst e)) d).
Proof.
  induction d as [|[[f p] x] d IH]; intros b g I; cbn [fold_left map] in *; [rewrite app_nil_r; exact I|].
  apply IH in I. apply in_app_or in I. destruct I as [I|I]; [|apply in_or_app; right; right; exact I].
  apply in_or_app. unfold min_step in I.
  assert (U : forall v (b : best_map), In g (map fst (map_update vec_lt f v b)) -> In g (map fst b)) by (intros v b'; rewrite keys_update; auto).
  assert (A : forall v (b : best_map), In g (map fst (map_add vec_lt f v b)) -> g = f \/ In g (map fst b)).
  { clear. induction b as [|[k w] b IHb]; cbn; [intuition|]. destruct (vec_lt f k); cbn; intuition. }
  destruct (map_find vec_lt f b) as [[q y]|].
  - destruct (lt64 x y); [apply U in I|]; auto.
  - apply A in I. destruct I as [->|I]; [right; left; reflexivity|left; exact I].
Qed.

Lemma best_length d : forall b, (List.length (fold_left min_step d b) <= List.length b + List.length d)%nat.
Proof.
  induction d as [|[[f p] x] d IH]; intros b; cbn [fold_left List.length]; [lia|].
  assert (X : (List.length (min_step b (f, p, x)) <= S (List.length b))%nat).
  { unfold min_step.
    destruct (map_find vec_lt f b) as [[q y]|]; [destruct (lt64 x y); [rewrite length_update|]; apply Nat.le_succ_diag_r|rewrite length_add; apply Nat.le_refl]. }
  eapply Nat.le_trans; [exact (IH (min_step b (f, p, x)))|]. rewrite <- plus_n_Sm. exact (proj1 (Nat.add_le_mono_r _ _ (List.length d)) X).
Qed.

Lemma best_nonempty d : d <> [] -> wfd d -> fold_left min_step d [] <> [].
Proof.
  intros N W E. destruct d as [|[[f p] x] d]; [congruence|]. destruct (best_of_wf _ W) as [_ S].
  destruct (wf_cons_inv _ _ _ _ W) as (K & _ & _). specialize (S f K). rewrite E in S. cbn [map_find] in S. symmetry in S.
  apply best_fold_None in S. unfold entries_of in S. cbn [filter fst] in S.
  rewrite same_features_refl in S by exact K. discriminate S.
Qed.

Lemma best_samples (b : best_map) : combine (map fst b) (map (fun e => fst (snd e)) b) = map (fun e => (fst e, fst (snd e))) b.
Proof. induction b as [|[f [p x]] b IH]; cbn; [reflexivity|]. f_equal. exact IH. Qed.

Lemma best_consistent d : wfd d -> let b := fold_left min_step d [] in
  consistent (combine (map fst b) (map (fun e => fst (snd e)) b)).
Proof.
  intros W b s s' I I' S. rewrite best_samples in I, I'. destruct (best_of_wf d W) as [Wb _]. fold b in Wb.
  apply in_map_iff in I as ([f [p x]] & <- & I). apply in_map_iff in I' as ([f' [p' x']] & <- & I'). cbn [fst snd] in *.
  assert (F := wf_In_P _ _ _ _ Wb I). assert (F' := wf_In_P _ _ _ _ Wb I'). cbn in F, F'.
  assert (E := In_find vec_lt fok vec_lt_irrefl _ _ _ Wb I). assert (E' := In_find vec_lt fok vec_lt_irrefl _ _ _ Wb I').
  assert (Q : map_find vec_lt f b = map_find vec_lt f' b).
  { eapply (find_eqv vec_lt fok); eauto using vec_eqv_trans. rewrite vec_eqv; auto. }
  congruence.
Qed.

Definition key_ok (k : nat) (f : list f32) : Prop := List.length f = k /\ Forall (fun x => is_nan x = false) f.

Lemma best_uniform k d : Forall (fun e : key * f64 => key_ok k (fst (fst e))) d -> let b := fold_left min_step d [] in
  uniform_samples k (combine (map fst b) (map (fun e => fst (snd e)) b)).
Proof.
  intros F b. unfold uniform_samples. apply Forall_forall. intros [f p] I. apply in_combine_l in I.
  apply (best_incl d []) in I. cbn [map app] in I. apply in_map_iff in I as (e & <- & I). rewrite Forall_forall in F. exact (F _ I).
Qed.

(** A tree after training. *)
Lemma trained_ready srt k t fs rs t' : sorter_ok srt -> 0 <= t_max_depth t -> List.length rs = List.length fs -> uniform_samples k (combine fs rs) ->
  dt_train srt t fs rs = Ok t' -> tree_ready k t' /\ t_max_depth t' = t_max_depth t /\ t_classes t' = set_insert_all rs (t_classes t).
Proof.
  intros HS HM L U E. destruct (train_partition srt _ _ _ _ HS HM E) as (PT & _). destruct (dt_train_inv _ _ _ _ _ E) as (NE & _ & EC & ED & _ & EB).
  split; [|split; [|exact EC]].
  - split; [intros N; rewrite N in PT; inversion PT|]. split.
    + eapply build_tree_indices; [exact HS| |exact EB].
      eapply Forall_impl; [|exact U]. intros s [X _]. apply Nat.eq_le_incl. exact X.
    + intros level key. unfold output_tree. destruct (partition_saves _ _ _ PT (S level) ($"root")) as (s & ->). cbn [bind]. eauto.
  - exact ED.
Qed.

Lemma loop_ready srt pick k md fs rs : sorter_ok srt -> picker_ok pick -> 0 <= md -> fs <> [] -> List.length rs = List.length fs -> uniform_samples k (combine fs rs) ->
  forall todo i ts, train_loop srt pick md todo i fs rs = Ok ts -> Forall (tree_ready k) ts.
Proof.
  intros HS HP HM NE L U. assert (N0 : (0 < List.length fs)%nat) by (destruct fs; [congruence|cbn; lia]).
  induction todo as [|todo IH]; intros i ts E; cbn [train_loop] in E; [inversion E; constructor|].
  destruct (sample_loop_ok pick _ fs rs HP eq_refl L N0 (List.length fs) i) as (gs & qs & EL & L1 & L2 & I1 & I2 & I3).
  rewrite EL in E. cbn [bind] in E. apply bind_inv in E as (t & ET & E). apply bind_inv in E as (ts' & EQ & E). inversion E; subst. clear E.
  constructor; [|eauto]. unfold new_trained_dtree in ET.
  assert (X : List.length qs = List.length gs) by (transitivity (List.length fs); [exact L2|symmetry; exact L1]).
  refine (proj1 (trained_ready srt k _ _ _ _ HS _ X _ ET)); [exact HM|]. eapply uniform_incl; eauto.
Qed.

Lemma output_trees_ready k ts : Forall (tree_ready k) ts -> exists s, output_trees ts = Ok s.
Proof.
  induction 1 as [|t ts (_ & _ & H) F (s & IH)]; cbn [output_trees]; eauto. destruct (H 2%nat ($"tree")) as (a & ->). cbn [bind]. rewrite IH. cbn [bind]. eauto.
Qed.

Lemma classes_bound n l : StronglySorted Z.lt l -> Forall (in_range n) l -> 0 <= n -> Z.of_nat (List.length l) <= n.
Proof.
  intros S F N. assert (ND := sorted_lt_nodup _ S).
  assert (X : (List.length l <= List.length (map Z.of_nat (seq 0 (Z.to_nat n))))%nat).
  { apply NoDup_incl_length; auto. intros x I. rewrite Forall_forall in F. apply F in I. unfold in_range in I. apply in_map_iff.
    exists (Z.to_nat x). split; [lia|]. apply in_seq. lia. }
  rewrite map_length, seq_length in X. lia.
Qed.

Lemma train_fine n k m d : sorter_ok (p_sort P) -> picker_ok (p_pick P) -> 1 <= n <= 1024 -> good n m -> fine k m ->
  d <> [] -> ds_size d <= 2 ^ 24 -> wfd d -> data_in n d -> Forall (fun e : key * f64 => key_ok k (fst (fst e))) d ->
  (with_net m -> Forall (fun e : key * f64 => Forall encodable (fst (fst e))) d) -> trainings m < int_max ->
  exists m' s, m_train P m d = Ok m' /\ m_store m' = Ok s /\ fine k m' /\ trainings m' <= trainings m + 1 /\ (with_net m' -> with_net m).
Proof.
  intros HS HP Hn G F ND Size W DI KO EN TB.
  assert (BN := best_nonempty d ND W). assert (BC := best_consistent d W). assert (BU := best_uniform k d KO).
  destruct (responses_in n d _ _ _ DI eq_refl) as [RI _]. cbn [ds_find_min app] in RI.
  cbv zeta in BC, BU. set (b := fold_left min_step d []) in *. set (fs := map fst b) in *. set (rs := map (fun e => fst (snd e)) b) in *.
  assert (NF : fs <> []) by (unfold fs; destruct b; [congruence|discriminate]).
  assert (LR : List.length rs = List.length fs) by (unfold fs, rs; rewrite !map_length; reflexivity).
  assert (LF : Z.of_nat (List.length fs) <= 2 ^ 24).
  { unfold fs. rewrite map_length. assert (X := best_length d []). fold b in X. cbn [List.length plus] in X. unfold ds_size in Size.
    apply Nat2Z.inj_le in X. eapply Z.le_trans; [exact X|exact Size]. }
  destruct m as [a ch|a|a l|q|a bm|a tr t e|a tr f e|N]; cbn [good fine] in G, F; try contradiction; cbn [m_train];
    try (do 2 eexists; split; [reflexivity|split; [reflexivity|split; [exact I|split; [cbn; lia|auto]]]]).
  - change (ds_find_min d [] []) with (fs, rs, b). cbv iota beta. destruct F as (F1 & F2 & F3 & F4). destruct G as [[GC GL] GE].
    destruct (train_total (p_sort P) t k fs rs HS NF LR BU BC LF) as (t' & E).
    { apply Z.le_trans with n; [|lia]. apply classes_bound; [|apply set_insert_all_in; auto|lia]. apply set_insert_all_sorted; auto. }
    rewrite E. cbn [bind]. destruct (trained_ready _ k _ _ _ _ HS F1 LR BU E) as (R & ED & EC).
    destruct R as (R1 & R2 & R3). destruct (R3 0%nat ($"tree")) as (s & ES).
    exists (MTree a false t' e), (Some ($"# DecisionTreeImpl" ++ [nl] ++ s)). split; [reflexivity|]. split; [cbn [m_store]; unfold dt_save; rewrite ES; reflexivity|].
    split; [|split; [cbn; lia|auto]]. cbn [fine]. split; [rewrite ED; exact F1|]. split; [rewrite EC; apply set_insert_all_sorted; auto|].
    split; [intros _; split; auto|]. destruct e; auto.
  - change (ds_find_min d [] []) with (fs, rs, b). cbv iota beta. destruct F as (F1 & F2 & F3). destruct G as [[GN GT] GE].
    destruct (forest_training_succeeds (p_sort P) (p_pick P) f k fs rs HS HP NF LR BU BC LF) as (f' & E).
    { apply Z.le_trans with n; [|lia]. transitivity (Z.of_nat (List.length (set_insert_all rs []))).
      - rewrite class_count by constructor. rewrite app_nil_r. lia.
      - apply classes_bound; [apply set_insert_all_sorted; constructor|apply set_insert_all_in; auto|lia]. }
    rewrite E. cbn [bind]. unfold f_train in E. apply bind_inv in E as (ts & EL & E). injection E as <-.
    assert (R : Forall (tree_ready k) (f_trees f ++ ts)).
    { apply Forall_app. split; auto. eapply loop_ready; [exact HS|exact HP|exact F1|exact NF|exact LR|exact BU|exact EL]. }
    destruct (output_trees_ready k _ R) as (s & ES).
    eexists (MForest a false _ e), _. split; [reflexivity|].
    split; [cbn [m_store]; unfold f_save, output_rfc; cbn [f_trees]; rewrite ES; cbn [bind]; reflexivity|].
    split; [|split; [cbn; lia|auto]]. cbn [fine f_max_depth f_trees]. split; auto. split; auto. destruct e; auto.
  - destruct (learn_sized (f64_arith (p_libm P)) (fun x => x) (pn_policies N) k N d) as (Q & -> & S & C).
    + destruct G. lia.
    + exact F.
    + exact TB.
    + cbn [use_ok]. specialize (EN I). rewrite Forall_forall in *. intros e IN. split; [split; [apply KO|apply EN]; exact IN|].
      destruct G as [-> _]. unfold data_in in DI. rewrite Forall_forall in DI. exact (DI _ IN).
    + cbn [bind]. exists (MNet Q), (Some (pn_store Q)). split; [reflexivity|]. split; [reflexivity|]. split; [|split; [exact C|auto]].
      cbn [fine]. rewrite (sz_policies _ _ _ S). exact S.
Qed.
End Models.

(** ** Creation *)

Lemma unsigned_param ps items key default : (forall k o, first_value k items o <-> param_find k ps = o) ->
  (forall v, first_value key items v -> int_value 0 (2 ^ 64) v) -> 0 <= default -> exists z, param_unsigned key default ps = Ok z /\ 0 <= z.
Proof.
  intros PF V D. unfold param_unsigned. destruct (param_find key ps) as [s|] eqn:E; [|eauto].
  apply PF in E. destruct (V _ E) as (z & -> & B). rewrite <- (app_nil_r (print_Z z)), stoul_print by (auto; exact I). cbn [bind].
  eexists. split; [reflexivity|]. apply Z.mod_pos_bound. reflexivity.
Qed.

Lemma double_param ps items key default : (forall k o, first_value k items o <-> param_find k ps = o) ->
  (forall v, first_value key items v -> double_value v) -> exists x, param_double key default ps = Ok x.
Proof.
  intros PF V. unfold param_double. destruct (param_find key ps) as [s|] eqn:E; [|eauto].
  apply PF in E. destruct (V _ E) as (x & -> & N). destruct (metric_copy x N) as (y & -> & _). cbn [bind]. eauto.
Qed.

Section Create.
Variable P : platform.
Variable init : nat -> nat -> f64.

Lemma new_net_fine n k lr beta b1 b2 th : fine k (MNet (new_pnet (f64_arith (p_libm P)) n k lr beta b1 b2 th init)).
Proof. cbn [fine]. apply new_sized. Qed.

(** Models without parameters: explorers. *)
Definition created (name : bytes) (k : nat) (m : model) : Prop :=
  fine k m /\ trainings m = 0 /\ (with_net m -> name = $"PolicyNet").

Lemma round_robin_created fuel nf np : create_fuel P (S fuel) ($"RoundRobin") nf np [] init = Ok (MRoundRobin np (-1)).
Proof. reflexivity. Qed.

Definition explorer fuel (ps : params) nf np : outcome model :=
  match param_find ($"explore") ps with
  | Some e => create_fuel P fuel e nf np [] init
  | None => create_fuel P fuel ($"RoundRobin") nf np [] init
  end.

Lemma tree_branch fuel nf np ps : create_fuel P (S fuel) ($"DecisionTree") nf np ps init =
  (let* d := param_unsigned ($"max_depth") 2 ps in let* e := explorer fuel ps nf np in Ok (MTree np true (new_dtree d) (Some e))).
Proof. reflexivity. Qed.
Lemma forest_branch fuel nf np ps : create_fuel P (S fuel) ($"RandomForest") nf np ps init =
  (let* t := param_unsigned ($"num_trees") 10 ps in let* d := param_unsigned ($"max_depth") 2 ps in let* e := explorer fuel ps nf np in
   Ok (MForest np true (new_forest np t d) (Some e))).
Proof. reflexivity. Qed.
Lemma net_branch fuel nf np ps : create_fuel P (S fuel) ($"PolicyNet") nf np ps init = create_net P nf np ps init.
Proof. reflexivity. Qed.
Lemma random_branch fuel nf np ps : create_fuel P (S fuel) ($"Random") nf np ps init = new_random np.
Proof. reflexivity. Qed.
Lemma robin_branch fuel nf np ps : create_fuel P (S fuel) ($"RoundRobin") nf np ps init = Ok (MRoundRobin np (-1)).
Proof. reflexivity. Qed.
Lemma static_branch fuel nf np ps : create_fuel P (S fuel) ($"Static") nf np ps init = create_static np ps.
Proof. reflexivity. Qed.

Lemma create_with fuel name items ps nf np : (forall k o, first_value k items o <-> param_find k ps = o) -> model_ok name items ->
  (exists e, explorer fuel ps nf np = Ok e /\ fine (Z.to_nat nf) e /\ (with_net e -> first_value ($"explore") items (Some ($"PolicyNet")))) ->
  0 <= nf -> 1 <= np ->
  exists m, create_fuel P (S fuel) name nf np ps init = Ok m /\ fine (Z.to_nat nf) m /\ trainings m = 0 /\
    (with_net m -> name = $"PolicyNet" \/ first_value ($"explore") items (Some ($"PolicyNet"))).
Proof.
  intros PF MO (e & EE & FE & WE) Hf Hp. destruct MO as [MN _ _ _ _ MP MD MT _ MX].
  unfold model_names in MN. repeat destruct MN as [MN|MN]; try contradiction; subst name.
  - rewrite static_branch. unfold create_static, param_int.
    assert (exists z, (match param_find ($"policy") ps with None => Ok 0 | Some v => let* (z, _) := stoi v in Ok z end) = Ok z /\ 0 <= z) as (z & -> & Z0).
    { destruct (param_find ($"policy") ps) as [s|] eqn:E; [|exists 0; split; [reflexivity|lia]]. apply PF in E. destruct (MP _ E) as (z & -> & B).
      rewrite stoi_whole by lia. exists z. split; [reflexivity|lia]. }
    cbn [bind]. destruct (Z.ltb_spec z 0); [lia|]. eexists. split; [reflexivity|]. split; [exact I|]. split; [reflexivity|intros []].
  - rewrite random_branch. unfold new_random. destruct (Z.ltb_spec np 1); [lia|]. eexists. split; [reflexivity|]. split; [exact I|]. split; [reflexivity|intros []].
  - rewrite robin_branch. eexists. split; [reflexivity|]. split; [exact I|]. split; [reflexivity|intros []].
  - rewrite tree_branch. destruct (unsigned_param ps items ($"max_depth") 2 PF MD) as (d & -> & Hd); [lia|]. cbn [bind]. rewrite EE. cbn [bind].
    eexists. split; [reflexivity|]. split; [|split; [reflexivity|intros W; right; exact (WE W)]]. cbn [fine new_dtree t_max_depth t_classes].
    split; [exact Hd|]. split; [constructor|]. split; [discriminate|exact FE].
  - rewrite forest_branch. destruct (unsigned_param ps items ($"num_trees") 10 PF MT) as (t & -> & Ht); [lia|]. cbn [bind].
    destruct (unsigned_param ps items ($"max_depth") 2 PF MD) as (d & -> & Hd); [lia|]. cbn [bind]. rewrite EE. cbn [bind].
    eexists. split; [reflexivity|]. split; [|split; [reflexivity|intros W; right; exact (WE W)]]. cbn [fine new_forest f_max_depth f_trees].
    split; [exact Hd|]. split; [constructor|exact FE].
  - rewrite net_branch. unfold create_net.
    destruct (double_param ps items ($"lr") (div64 one64 (f64_of_Z 100)) PF) as (x1 & ->); [intros v; apply MX; cbn; tauto|]. cbn [bind].
    destruct (double_param ps items ($"beta") half64 PF) as (x2 & ->); [intros v; apply MX; cbn; tauto|]. cbn [bind].
    destruct (double_param ps items ($"beta1") half64 PF) as (x3 & ->); [intros v; apply MX; cbn; tauto|]. cbn [bind].
    destruct (double_param ps items ($"beta2") (div64 (f64_of_Z 9) (f64_of_Z 10)) PF) as (x4 & ->); [intros v; apply MX; cbn; tauto|]. cbn [bind].
    destruct (double_param ps items ($"threshold") zero64 PF) as (x5 & ->); [intros v; apply MX; cbn; tauto|]. cbn [bind].
    destruct (Z.ltb_spec nf 0); [lia|]. destruct (Z.ltb_spec np 0); [lia|]. cbn [orb].
    eexists. split; [reflexivity|]. split; [apply new_net_fine|]. split; [reflexivity|auto].
Qed.

Lemma bare_ok name : In name model_names -> model_ok name [].
Proof.
  intros I. constructor; [exact I|constructor|intros ? []|constructor|constructor| | | | |]; intros;
    match goal with H : first_value _ [] _ |- _ => inversion H end; exact Logic.I.
Qed.

Lemma bare_created fuel name nf np : In name model_names -> 0 <= nf -> 1 <= np ->
  exists m, create_fuel P (S (S fuel)) name nf np [] init = Ok m /\ created name (Z.to_nat nf) m.
Proof.
  intros I Hf Hp. destruct (create_with (S fuel) name [] [] nf np) as (m & E & F & T & W); auto.
  - intros k o. split; intros H; [inversion H; reflexivity|cbn in H; subst; constructor].
  - apply bare_ok; auto.
  - exists (MRoundRobin np (-1)). split; [reflexivity|]. split; [exact Logic.I|intros []].
  - exists m. split; [exact E|]. split; [exact F|]. split; [exact T|]. intros X. destruct (W X) as [Y|Y]; [exact Y|inversion Y].
Qed.

Lemma create_fine name items ps nf np : (forall k o, first_value k items o <-> param_find k ps = o) -> model_ok name items -> 0 <= nf -> 1 <= np ->
  exists m, create_model P name nf np ps init = Ok m /\ fine (Z.to_nat nf) m /\ trainings m = 0 /\ (with_net m -> mentions_net (model_text name items)).
Proof.
  intros PF MO Hf Hp. destruct (create_with 2 name items ps nf np PF MO) as (m & E & F & T & W); auto.
  - unfold explorer. destruct (param_find ($"explore") ps) as [e|] eqn:EX.
    + apply PF in EX. destruct (bare_created 0 e nf np (mo_explore _ _ MO _ EX) Hf Hp) as (m & E & F & _ & W). exists m. split; [exact E|]. split; [exact F|].
      intros X. rewrite <- (W X). exact EX.
    + exists (MRoundRobin np (-1)). split; [reflexivity|]. split; [exact I|intros []].
  - exists m. split; [exact E|]. split; [exact F|]. split; [exact T|]. intros X. destruct (W X) as [->|Y].
    + exists [], (List.concat (map (fun i => ","%char :: item_text i) items)). reflexivity.
    + clear - Y. unfold mentions_net, model_text. revert name.
      assert (G : exists a b, List.concat (map (fun i => ","%char :: item_text i) items) = a ++ $"PolicyNet" ++ b).
      { remember (Some ($"PolicyNet")) as o. induction Y as [|v r|k' v r o N Y IH]; [discriminate| |].
        - injection Heqo as E. destruct v as [v|]; [subst v|discriminate E]. exists ($",explore="), (List.concat (map (fun i => ","%char :: item_text i) r)).
          reflexivity.
        - destruct (IH Heqo) as (a & b & E). exists ((","%char :: item_text (k', v)) ++ a), b. cbn [map List.concat]. rewrite E, <- app_assoc. reflexivity. }
      destruct G as (a & b & ->). intros name. exists (name ++ a), b. rewrite <- app_assoc. reflexivity.
Qed.
End Create.
