(** The policy models answer with policies in range. *)
From Coq Require Import ZArith Bool Ascii String Lia List.
From Verif Require Import Model.Base Model.Float Model.Decimal Model.DatasetM Model.TreeM Model.ForestM Model.NetM Model.PolicyNetM
  Model.ModelStringM Model.PolicyModelsM Spec.RuntimeSpec Proofs.TreeFacts Proofs.ModelStringFacts.
Import ListNotations.
Open Scope Z_scope.

Definition in_range (n z : Z) : Prop := 0 <= z < n.

(** ** Data sets *)

Definition data_in (n : Z) (d : dataset) : Prop := Forall (fun e : key * f64 => in_range n (snd (fst e))) d.

Lemma map_add_in {K V} (Q : K * V -> Prop) lt k v m : Q (k, v) -> Forall Q m -> Forall Q (map_add lt k v m).
Proof. intros H F. induction F as [|[k' v'] m H' F IH]; cbn; auto. destruct (lt k k'); auto. Qed.

Lemma map_update_keys {K V} (Q : K -> Prop) lt k v (m : list (K * V)) : Forall (fun e => Q (fst e)) m -> Forall (fun e => Q (fst e)) (map_update lt k v m).
Proof. intros F. induction F as [|[k' v'] m H' F IH]; cbn; auto. destruct (_ && _); constructor; auto. Qed.

Lemma map_update_vals {K V} (Q : V -> Prop) lt k v (m : list (K * V)) : Q v -> Forall (fun e => Q (snd e)) m -> Forall (fun e => Q (snd e)) (map_update lt k v m).
Proof. intros H F. induction F as [|[k' v'] m H' F IH]; cbn; auto. destruct (_ && _); constructor; auto. Qed.

Lemma insert_in n d f p x d' : ds_insert d f p x = Ok d' -> in_range n p -> data_in n d -> data_in n d'.
Proof.
  unfold ds_insert, data_in. destruct (negb _); [discriminate|]. intros H Hp F. destruct (map_find _ _ _); inversion H.
  - apply (map_update_keys (fun k => in_range n (snd k))). exact F.
  - apply map_add_in; auto.
Qed.

Definition best_in (n : Z) (b : best_map) : Prop := Forall (fun e => in_range n (fst (snd e))) b.

Lemma find_min_in n d : data_in n d -> best_in n (fold_left min_step d []).
Proof.
  assert (G : forall b, data_in n d -> best_in n b -> best_in n (fold_left min_step d b)).
  { induction d as [|[[f p] x] d IH]; cbn; intros b F B; auto. inversion F; subst. apply IH; auto. cbn in H1.
    unfold min_step. destruct (map_find vec_lt f b) as [[q y]|].
    - destruct (lt64 x y); auto. apply (map_update_vals (fun v => in_range n (fst v))); auto.
    - apply map_add_in; auto. }
  intros F. apply G; auto. constructor.
Qed.

Lemma responses_in n d fs ps best : data_in n d -> ds_find_min d [] [] = (fs, ps, best) -> Forall (in_range n) ps /\ best_in n best.
Proof.
  unfold ds_find_min. intros F H. inversion H. assert (B := find_min_in n d F). split; auto. cbn.
  apply Forall_forall. intros p IN. apply in_map_iff in IN. destruct IN as (e & <- & IN).
  unfold best_in in B. rewrite Forall_forall in B. apply B; auto.
Qed.

(** ** Trees and forests *)

Fixpoint labels_in (n : Z) (t : tree) : Prop :=
  match t with
  | Null => True
  | Node _ _ c _ _ l r _ => in_range n c /\ labels_in n l /\ labels_in n r
  end.
Definition tree_in (n : Z) (t : dtree) : Prop := Forall (in_range n) (t_classes t) /\ labels_in n (t_root t).

Lemma set_insert_in n c s : in_range n c -> Forall (in_range n) s -> Forall (in_range n) (set_insert c s).
Proof. intros H F. induction F as [|x s Hx F IH]; cbn; auto. destruct (c <? x); auto. destruct (x <? c); auto. Qed.

Lemma set_insert_all_in n cs : Forall (in_range n) cs -> forall s, Forall (in_range n) s -> Forall (in_range n) (set_insert_all cs s).
Proof. unfold set_insert_all. induction 1; cbn; auto. intros s F. apply IHForall. apply set_insert_in; auto. Qed.

Lemma build_in n srt classes md fuel : Forall (in_range n) classes -> forall depth l t l',
  build_tree fuel srt classes md depth l = Ok (t, l') -> labels_in n t.
Proof.
  intros FC. induction fuel as [|fuel IH]; intros depth l t l' H; [discriminate H|]. cbn [build_tree] in H. cbv zeta in H.
  apply bind_inv in H. destruct H as (node & EN & H).
  assert (LN : labels_in n node).
  { unfold new_leaf in EN. cbn in EN. destruct classes as [|c cs]; [discriminate EN|]. inversion EN. cbn. inversion FC; auto. }
  destruct (md <=? depth); [inversion H; subst; auto|]. destruct l as [|s l]; [inversion H; subst; auto|].
  destruct (le32 _ _); [inversion H; subst; auto|]. apply bind_inv in H. destruct H as ([l2 b] & _ & H). destruct b as [[[g pos] f] thr].
  destruct (Nat.eqb pos (List.length l2)); [discriminate|]. apply bind_inv in H. destruct H as ([lt ll] & EL & H).
  apply bind_inv in H. destruct H as ([rt lr] & ER & H). destruct node; inversion H; subst. cbn in LN. destruct LN. cbn. split; [auto|]. split; eauto.
Qed.

Lemma dt_train_in n srt t fs rs t' : tree_in n t -> Forall (in_range n) rs -> dt_train srt t fs rs = Ok t' -> tree_in n t'.
Proof.
  intros [FC _] FR. unfold dt_train. destruct fs as [|f fs]; [discriminate|]. destruct (negb _); [discriminate|]. intros H.
  apply bind_inv in H. destruct H as ([root data] & EB & H). inversion H; subst. clear H.
  assert (FC' := set_insert_all_in n rs FR _ FC). split; cbn; auto. exact (build_in _ _ _ _ _ FC' _ _ _ _ EB).
Qed.

Lemma evaluate_in n t x : labels_in n t -> match evaluate t x with Ok c => in_range n c | Abort => False | _ => True end.
Proof.
  induction t as [|g m c f thr l IL r IR cs]; cbn; auto. intros (Hc & Hl & Hr). destruct (f =? -1); auto.
  unfold vec_get. destruct (f <? 0); cbn; auto. destruct (nth_error x (Z.to_nat f)); cbn; auto.
  destruct (lt32 _ _); [destruct l; [exact Hc|exact (IL Hl)]|destruct r; [exact Hc|exact (IR Hr)]].
Qed.

Definition forest_in (n : Z) (f : forest) : Prop := f_num_classes f = n /\ Forall (tree_in n) (f_trees f).

Lemma sample_in n pick m todo features responses : Forall (in_range n) responses -> forall k fs rs,
  sample_loop pick m todo k features responses = Ok (fs, rs) -> Forall (in_range n) rs.
Proof.
  intros F. induction todo as [|todo IH]; cbn; intros k fs rs H; [inversion H; auto|].
  apply bind_inv in H. destruct H as (x & _ & H). apply bind_inv in H. destruct H as (r & ER & H). apply bind_inv in H. destruct H as ([fs' rs'] & ES & H).
  inversion H; subst. constructor; [|eauto]. unfold vec_get in ER. destruct (_ <? 0); [discriminate|]. destruct (nth_error responses _) eqn:E; [|discriminate].
  inversion ER; subst. apply nth_error_In in E. rewrite Forall_forall in F. auto.
Qed.

Lemma train_loop_in n srt pick md features responses todo : Forall (in_range n) responses -> forall k ts,
  train_loop srt pick md todo k features responses = Ok ts -> Forall (tree_in n) ts.
Proof.
  intros F. induction todo as [|todo IH]; cbn; intros k ts H; [inversion H; auto|].
  apply bind_inv in H. destruct H as ([fs rs] & ES & H). apply bind_inv in H. destruct H as (t & ET & H). apply bind_inv in H. destruct H as (ts' & EL & H).
  inversion H; subst. constructor; [|eauto]. eapply dt_train_in; [|eapply sample_in; eauto|exact ET]. split; cbn; auto.
Qed.

Lemma f_train_in n srt pick f fs rs f' : forest_in n f -> Forall (in_range n) rs -> f_train srt pick f fs rs = Ok f' -> forest_in n f'.
Proof.
  intros [N FT] FR H. unfold f_train in H. apply bind_inv in H. destruct H as (ts & EL & H). inversion H; subst. split; auto. cbn.
  apply Forall_app. split; auto. eapply train_loop_in; eauto.
Qed.

Lemma bump_length c counts : List.length (bump c counts) = List.length counts.
Proof. revert c. induction counts; intros [|c]; cbn; auto. Qed.

Lemma votes_in n ts x : Forall (tree_in n) ts -> forall counts,
  match votes ts n x counts with Ok l => List.length l = List.length counts | Abort => False | _ => True end.
Proof.
  induction 1 as [|t ts [_ HT] F IH]; cbn; intros counts; auto. unfold dt_predict. assert (E := evaluate_in n _ x HT).
  destruct (evaluate (t_root t) x) as [c| | | |]; cbn; auto. unfold in_range in E.
  replace ((0 <=? c) && (c <? n)) with true by lia. specialize (IH (bump (Z.to_nat c) counts)). rewrite bump_length in IH. exact IH.
Qed.

Lemma first_max_in counts : forall i best bc, 0 <= best < i -> 0 <= first_max counts i best bc < i + Z.of_nat (List.length counts).
Proof.
  induction counts as [|m counts IH]; cbn [first_max List.length]; intros i best bc H; [lia|].
  destruct (bc <? m); [specialize (IH (i + 1) i m)|specialize (IH (i + 1) best bc)]; lia.
Qed.

Lemma f_predict_in n f x : forest_in n f -> match f_predict f x with Ok c => in_range n c | Abort => False | _ => True end.
Proof.
  intros [N F]. unfold f_predict. rewrite N. destruct (Z.leb_spec n 0); auto. assert (V := votes_in n _ x F (repeat 0 (Z.to_nat n))).
  destruct (votes _ _ _ _) as [[|m counts]| | | |]; cbn; auto. rewrite repeat_length in V. cbn in V.
  assert (K := first_max_in counts 1 0 m). unfold in_range. lia.
Qed.

(** ** Networks *)

Definition net_in (n : Z) (N : pnet f64) : Prop :=
  Z.of_nat (pn_policies N) = n /\ Forall (fun e => List.length (snd e) = pn_policies N) (pn_cache N).

Lemma map_out_length {A B} (f : A -> outcome B) l l' : map_out f l = Ok l' -> List.length l' = List.length l.
Proof.
  revert l'. induction l as [|a l IH]; cbn; intros l' H; [inversion H; auto|].
  apply bind_inv in H. destruct H as (b & _ & H). apply bind_inv in H. destruct H as (t & E & H). inversion H; subst. cbn. f_equal. auto.
Qed.

Section Platform.
Variable P : platform.

Lemma net_get_in n N draw x c N' : 1 <= n -> (forall l i, draw l = Ok i -> 0 <= i < Z.of_nat (List.length l)) -> net_in n N ->
  pn_get_index (f64_arith (p_libm P)) draw N x = Ok (c, N') -> in_range n c /\ net_in n N'.
Proof.
  intros Hn D [E C] H. unfold pn_get_index in H. destruct (n_lt _ _ _).
  - inversion H; subst. split; [unfold in_range; lia|split; auto].
  - apply bind_inv in H. destruct H as ([probs N2] & EL & H). apply bind_inv in H. destruct H as (i & EI & H). inversion H; subst. clear H.
    apply D in EI. unfold lookup_probs in EL. apply bind_inv in EL. destruct EL as (zs & _ & EL).
    destruct (cache_find _ _) as [v|] eqn:EC.
    + inversion EL; subst. split; [|split; auto]. assert (L : List.length probs = pn_policies N').
      { clear - C EC. induction (pn_cache N') as [|[k v] cs IH]; cbn in EC; [discriminate|]. inversion C; subst. destruct (bytes_eqb _ k); [inversion EC; subst; auto|auto]. }
      unfold in_range. lia.
    + apply bind_inv in EL. destruct EL as (pr & EV & EL). inversion EL; subst.
      unfold evaluate_net in EV. apply bind_inv in EV. destruct EV as (q & _ & EV). apply map_out_length in EV. rewrite seq_length in EV.
      split; [unfold in_range; rewrite EV in EI; lia|]. split; auto. cbn. constructor; auto.
Qed.

Lemma net_train_in n N d N' : net_in n N -> pn_train (f64_arith (p_libm P)) (fun x => x) N d = Ok N' -> net_in n N'.
Proof.
  intros [E C] H. unfold pn_train in H. apply bind_inv in H. destruct H as (st & _ & H). apply bind_inv in H. destruct H as (Q & ET & H).
  inversion H; subst. split; cbn; [|constructor]. unfold train_net in ET. destruct st; [inversion ET; subst; auto|].
  destruct (_ =? int_max); [discriminate|]. destruct (n_lt _ _ _); [inversion ET; subst; auto|].
  do 4 (apply bind_inv in ET; destruct ET as (? & _ & ET)). inversion ET; subst. auto.
Qed.

(** ** Models *)

Fixpoint good (n : Z) (m : model) : Prop :=
  match m with
  | MStatic _ c => in_range n c
  | MRandom k => k = n
  | MRoundRobin k l => k = n /\ -1 <= l < n
  | MOptimal q => Forall (in_range n) q
  | MDatasetMap _ b => best_in n b
  | MTree _ _ t e => tree_in n t /\ match e with Some e => good n e | None => True end
  | MForest _ _ f e => forest_in n f /\ match e with Some e => good n e | None => True end
  | MNet N => net_in n N
  end.

Lemma map_find_in {K V} (Q : V -> Prop) lt k (m : list (K * V)) v : Forall (fun e => Q (snd e)) m -> map_find lt k m = Some v -> Q v.
Proof. induction 1 as [|[k' v'] m H F IH]; cbn; [discriminate|]. destruct (_ && _); auto. intros E; inversion E; subst; auto. Qed.

Fixpoint get_in (n : Z) D m {struct m} : 1 <= n -> draws_ok D -> good n m -> forall x c m', m_get_index P D m x = Ok (c, m') ->
  in_range n c /\ good n m'.
Proof.
  intros Hn HD G x c m' H. destruct m as [k ch|k|k l|q|k b|k tr t e|k tr f e|N]; cbn in G, H.
  - inversion H; subst; auto.
  - subst k. destruct HD as [HD _]. specialize (HD 0 (n - 1)). destruct (Z.ltb_spec 1 n); inversion H; subst; split; cbn; auto; unfold in_range; lia.
  - destruct G as [-> G]. destruct (n =? 0); [discriminate|]. inversion H; subst.
    assert (B := Z.rem_bound_pos (l + 1) n). unfold in_range. cbn. repeat split; lia.
  - destruct q; [discriminate|]. inversion H; subst. inversion G; subst. cbn. auto.
  - destruct (negb _); [discriminate|]. destruct (map_find _ _ _) as [[p y]|] eqn:E; [|discriminate]. inversion H; subst. split; auto.
    apply (map_find_in (fun v => in_range n (fst v))) in E; auto.
  - destruct G as [GT GE]. destruct tr; cbn in H.
    + destruct e as [e|]; [|discriminate]. apply bind_inv in H. destruct H as ([c0 e'] & E & H). inversion H; subst.
      destruct (get_in n D e Hn HD GE _ _ _ E). cbn. auto.
    + apply bind_inv in H. destruct H as (c0 & E & H). inversion H; subst. destruct GT as [G1 G2]. assert (K := evaluate_in n _ x G2).
      unfold dt_predict in E. rewrite E in K. cbn. repeat split; auto; apply K.
  - destruct G as [GT GE]. destruct tr; cbn in H.
    + destruct e as [e|]; [|discriminate]. apply bind_inv in H. destruct H as ([c0 e'] & E & H). inversion H; subst.
      destruct (get_in n D e Hn HD GE _ _ _ E). cbn. auto.
    + apply bind_inv in H. destruct H as (c0 & E & H). inversion H; subst. assert (K := f_predict_in n _ x GT).
      rewrite E in K. cbn. repeat split; auto; try apply K; apply GT.
  - apply bind_inv in H. destruct H as ([c0 N'] & E & H). inversion H; subst. destruct (net_get_in n N _ _ _ _ Hn (proj2 HD) G E). cbn. auto.
Qed.

Lemma train_in n m d m' : good n m -> data_in n d -> m_train P m d = Ok m' -> good n m'.
Proof.
  intros G F H. destruct m as [k ch|k|k l|q|k b|k tr t e|k tr f e|N]; cbn in G, H; try (inversion H; subst; cbn; auto; fail).
  - inversion H; subst. apply find_min_in; auto.
  - destruct (ds_find_min d [] []) as [[fs rs] best] eqn:E. destruct (responses_in n d fs rs best F E) as [FR _]. inversion E. subst fs rs best.
    apply bind_inv in H. destruct H as (t' & ET & H). inversion H; subst. destruct G as [G1 G2]. split; auto. eapply dt_train_in; [exact G1|exact FR|exact ET].
  - destruct (ds_find_min d [] []) as [[fs rs] best] eqn:E. destruct (responses_in n d fs rs best F E) as [FR _]. inversion E. subst fs rs best.
    apply bind_inv in H. destruct H as (t' & ET & H). inversion H; subst. destruct G as [G1 G2]. split; auto. eapply f_train_in; [exact G1|exact FR|exact ET].
  - apply bind_inv in H. destruct H as (N' & E & H). inversion H; subst. eapply net_train_in; eauto.
Qed.

Lemma new_static_in n ps m : 1 <= n -> create_static n ps = Ok m -> good n m.
Proof.
  intros Hn H. unfold create_static in H. apply bind_inv in H. destruct H as (z & _ & H). destruct (Z.ltb_spec z 0); [discriminate|].
  inversion H; subst. cbn. unfold in_range. destruct (Z.leb_spec n z); lia.
Qed.

Lemma create_in fuel : forall mn nf n ps init m, 1 <= n -> create_fuel P fuel mn nf n ps init = Ok m -> good n m.
Proof.
  induction fuel as [|fuel IH]; intros mn nf n ps init m Hn H; [discriminate|]. cbn [create_fuel] in H.
  assert (EX : forall e, match param_find ($"explore") ps with
      | Some e => create_fuel P fuel e nf n [] init | None => create_fuel P fuel ($"RoundRobin") nf n [] init end = Ok e -> good n e).
  { intros e. destruct (param_find _ ps); apply IH; auto. }
  destruct (bytes_eqb mn _); [eapply new_static_in; eauto|].
  destruct (bytes_eqb mn _); [inversion H; subst; cbn; constructor|].
  destruct (bytes_eqb mn _). { unfold new_random in H. destruct (n <? 1); [discriminate|]. inversion H; subst. reflexivity. }
  destruct (bytes_eqb mn _); [inversion H; subst; cbn; lia|].
  destruct (bytes_eqb mn _).
  { apply bind_inv in H. destruct H as (? & _ & H). apply bind_inv in H. destruct H as (e & EE & H). inversion H; subst. cbn. split; auto. split; cbn; auto. }
  destruct (bytes_eqb mn _).
  { apply bind_inv in H. destruct H as (? & _ & H). apply bind_inv in H. destruct H as (? & _ & H). apply bind_inv in H. destruct H as (e & EE & H).
    inversion H; subst. cbn. split; auto. split; cbn; auto. }
  destruct (bytes_eqb mn _).
  { unfold create_net in H. do 5 (apply bind_inv in H; destruct H as (? & _ & H)). destruct (_ || _); [discriminate|]. inversion H; subst.
    cbn. split; cbn; auto. lia. }
  destruct (bytes_eqb mn _); [inversion H; subst; cbn; constructor|discriminate].
Qed.
End Platform.
