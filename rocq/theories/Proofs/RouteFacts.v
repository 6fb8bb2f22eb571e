(** Proofs about the way a tree takes (C130). *)
From Coq Require Import ZArith Bool Ascii String Lia List.
From Flocq Require Import BinarySingleNaN.
From Verif Require Import Model.Base Model.Float Model.DatasetM Model.TreeM Model.ForestM Model.ModelStringM Model.PolicyModelsM Model.ConfigM Model.RuntimeM
  Spec.TreeSpec Spec.RouteSpec Proofs.TreeFacts Proofs.RuntimeExamples.
Import ListNotations.
Open Scope Z_scope.

Lemma vec_get_some (x : list f32) f v : 0 <= f -> nth_error x (Z.to_nat f) = Some v -> vec_get x f = Ok v.
Proof. intros L E. unfold vec_get. destruct (Z.ltb_spec f 0); [lia|]. now rewrite E. Qed.

Lemma vec_get_none (x : list f32) f : ~ (0 <= f < Z.of_nat (length x)) -> vec_get x f = UB.
Proof.
  intros L. unfold vec_get. destruct (Z.ltb_spec f 0); [reflexivity|]. destruct (nth_error x (Z.to_nat f)) eqn:E; [|reflexivity].
  exfalso. assert (Z.to_nat f < length x)%nat by (apply nth_error_Some; congruence). lia.
Qed.

(** Following the way does not change the answer. *)
Lemma route_evaluate x t u : route x t u -> evaluate t x = evaluate u x.
Proof.
  induction 1 as [|g n c f thr l r cs v u L E B R IH|g n c f thr l r cs v u L E B R IH]; [reflexivity| |]; cbn [evaluate].
  - destruct (Z.eqb_spec f (-1)); [lia|]. rewrite (vec_get_some _ _ _ L E). cbn [bind]. rewrite B. destruct l; [inversion R|exact IH].
  - destruct (Z.eqb_spec f (-1)); [lia|]. rewrite (vec_get_some _ _ _ L E). cbn [bind]. rewrite B. destruct r; [inversion R|exact IH].
Qed.

Lemma beyond_ub x u : beyond x u -> evaluate u x = UB.
Proof. destruct u as [|g n c f thr l r cs]; [intros []|]. intros [N O]. cbn [evaluate]. destruct (Z.eqb_spec f (-1)); [lia|]. now rewrite (vec_get_none _ _ O). Qed.

Lemma ends_ok x u k : ends x u k -> evaluate u x = Ok k.
Proof.
  destruct u as [|g n c f thr l r cs]; [intros []|]. intros [<- [->|(v & L & E & N)]]; [reflexivity|]. cbn [evaluate].
  destruct (Z.eqb_spec f (-1)); [reflexivity|]. rewrite (vec_get_some _ _ _ L E). cbn [bind]. destruct (lt32 v thr); now rewrite N.
Qed.

Lemma route_stops x t : t <> Null -> exists u, route x t u /\ (beyond x u \/ exists k, ends x u k).
Proof.
  induction t as [|g n c f thr l IHl r IHr cs]; [congruence|]. intros _.
  destruct (Z.eq_dec f (-1)) as [F|F]; [eexists; split; [apply route_here|]; right; exists c; split; [reflexivity|now left]|].
  destruct (Z_lt_dec f 0) as [G|G]; [eexists; split; [apply route_here|]; left; split; [exact F|lia]|].
  destruct (nth_error x (Z.to_nat f)) as [v|] eqn:E.
  2:{ eexists; split; [apply route_here|]; left; split; [exact F|]. apply nth_error_None in E. intros H. apply (Nat.lt_irrefl (Z.to_nat f)).
      eapply Nat.lt_le_trans; [|exact E]. lia. }
  assert (P : 0 <= f) by lia. destruct (lt32 v thr) eqn:B.
  - destruct l as [|lg ln lc lf lthr ll lr lcs].
    + eexists; split; [apply route_here|]; right; exists c; split; [reflexivity|]. right. exists v. rewrite B. now repeat split.
    + destruct IHl as (u & R & W); [discriminate|]. exists u. split; [now apply (route_left x g n c f thr _ r cs v)|exact W].
  - destruct r as [|rg rn rc rf rthr rl rr rcs].
    + eexists; split; [apply route_here|]; right; exists c; split; [reflexivity|]. right. exists v. rewrite B. now repeat split.
    + destruct IHr as (u & R & W); [discriminate|]. exists u. split; [now apply (route_right x g n c f thr l _ cs v)|exact W].
Qed.

Lemma undefined_iff t x : t <> Null -> (evaluate t x = UB <-> exists u, route x t u /\ beyond x u).
Proof.
  intros N. split.
  - intros E. destruct (route_stops x t N) as (u & R & [B|(k & K)]); [exists u; auto|]. rewrite (route_evaluate _ _ _ R), (ends_ok _ _ _ K) in E. discriminate E.
  - intros (u & R & B). rewrite (route_evaluate _ _ _ R). now apply beyond_ub.
Qed.

Lemma answers_iff t x k : t <> Null -> (evaluate t x = Ok k <-> exists u, route x t u /\ ends x u k).
Proof.
  intros N. split.
  - intros E. destruct (route_stops x t N) as (u & R & [B|(j & K)]); rewrite (route_evaluate _ _ _ R) in E.
    + rewrite (beyond_ub _ _ B) in E. discriminate E.
    + assert (K' := ends_ok _ _ _ K). rewrite K' in E. injection E as <-. exists u; auto.
  - intros (u & R & B). rewrite (route_evaluate _ _ _ R). now apply ends_ok.
Qed.

Lemma nothing_else t x : t <> Null -> evaluate t x = UB \/ exists k, evaluate t x = Ok k.
Proof.
  intros N. destruct (route_stops x t N) as (u & R & [B|(j & K)]); rewrite (route_evaluate _ _ _ R); [left; now apply beyond_ub|right; exists j; now apply ends_ok].
Qed.

(** A region with a trained tree, asked in any context. *)
Lemma region_undefined P w r p D R C n t e u : nth_error (w_regions w) r = Some R -> r_alive R = true -> r_model R = MTree n false t e ->
  get_context w p = Ok C -> route (c_features C) (t_root t) u -> beyond (c_features C) u -> get_policy_index P w r p D = UB.
Proof.
  intros ER A EM EC RT B. unfold get_policy_index, get_region. rewrite ER, A. cbn [bind]. rewrite EC. cbn [bind]. rewrite EM. cbn [m_get_index].
  unfold dt_predict. rewrite (route_evaluate _ _ _ RT), (beyond_ub _ _ B). reflexivity.
Qed.

(** Trained on vectors of at most [k] features, asked about at least [k]. *)
Lemma trained_enough srt t fs rs t' k x : sorter_ok srt -> dt_train srt t fs rs = Ok t' -> Forall (fun v => length v <= k)%nat fs -> (k <= length x)%nat ->
  exists c, dt_predict t' x = Ok c.
Proof.
  intros HS E F L. unfold dt_train in E. destruct fs as [|f fs]; [discriminate E|]. destruct (negb _); [discriminate E|].
  apply bind_inv in E. destruct E as ([root data] & EB & E). injection E as <-. unfold dt_predict. cbn [t_root].
  apply (evaluate_defined (Z.of_nat k)); [|intros ->|lia].
  - eapply build_tree_indices; [exact HS| |exact EB]. apply Forall_forall. intros [v c] I. apply in_combine_l in I. exact (proj1 (Forall_forall _ _) F v I).
  - apply build_tree_step in EB; [|exact HS]. destruct EB as (c & r & _ & [(H & _)|(_ & _ & _ & ls & pos & ft & thr & gs & lt & ll & rt & lr & _ & _ & _ & _ & _ & _ & _ & _ & H & _)]); discriminate H.
Qed.

(** The vote of a forest. *)
Lemma votes_undefined n x : forall ts counts, Forall (fun t => t_root t <> Null) ts ->
  (votes ts n x counts = UB <-> exists before t after, ts = before ++ t :: after /\
     Forall (fun s => exists c, dt_predict s x = Ok c /\ 0 <= c < n) before /\ exists u, route x (t_root t) u /\ beyond x u).
Proof.
  induction ts as [|t ts IH]; intros counts N; cbn [votes].
  { split; [discriminate|]. intros ([|? ?] & ? & ? & H & _); discriminate H. }
  assert (NT := Forall_inv N). assert (NS := Forall_inv_tail N). unfold dt_predict at 1.
  destruct (nothing_else (t_root t) x NT) as [U|(k & K)].
  - rewrite U. cbn [bind]. split; [|reflexivity]. intros _. exists [], t, ts. split; [reflexivity|]. split; [constructor|]. now apply undefined_iff.
  - rewrite K. cbn [bind].
    assert (NB : ~ exists u, route x (t_root t) u /\ beyond x u) by (intros H; apply (undefined_iff _ _ NT) in H; rewrite K in H; discriminate H).
    destruct ((0 <=? k) && (k <? n)) eqn:B.
    + apply andb_prop in B. destruct B as [B1 B2]. apply Z.leb_le in B1. apply Z.ltb_lt in B2. rewrite IH by exact NS. split.
      * intros (b & s & a & -> & F & R). exists (t :: b), s, a. split; [reflexivity|]. split; [|exact R]. constructor; [exists k; split; [exact K|lia]|exact F].
      * intros ([|b0 b] & s & a & H & F & R); injection H as H1 H2; subst; [contradiction|]. exists b, s, a. split; [reflexivity|]. split; [exact (Forall_inv_tail F)|exact R].
    + split; [discriminate|]. intros ([|b0 b] & s & a & H & F & R); injection H as H1 H2; subst; [contradiction|]. exfalso.
      destruct (Forall_inv F) as (c & E & I). unfold dt_predict in E. rewrite K in E. injection E as <-.
      rewrite (proj2 (andb_true_iff _ _)) in B; [discriminate B|]. split; [apply Z.leb_le|apply Z.ltb_lt]; lia.
Qed.

Lemma forest_undefined f x : 0 < f_num_classes f -> Forall (fun t => t_root t <> Null) (f_trees f) ->
  (f_predict f x = UB <-> exists before t after, f_trees f = before ++ t :: after /\
     Forall (fun s => exists c, dt_predict s x = Ok c /\ 0 <= c < f_num_classes f) before /\ exists u, route x (t_root t) u /\ beyond x u).
Proof.
  intros P N. rewrite <- (votes_undefined (f_num_classes f) x (f_trees f) (repeat 0 (Z.to_nat (f_num_classes f))) N). unfold f_predict.
  destruct (Z.leb_spec (f_num_classes f) 0) as [H|_]; [lia|]. destruct (votes _ _ _ _) as [cs| | | |] eqn:E; cbn [bind]; try (split; discriminate); try (split; reflexivity).
  destruct cs as [|c cs]; [|split; discriminate]. exfalso. assert (forall ts c0, c0 <> [] -> votes ts (f_num_classes f) x c0 <> Ok []) as V.
  { clear. induction ts as [|t ts IH]; intros c0 C; cbn [votes]; [congruence|]. destruct (dt_predict t x) as [k| | | |]; cbn [bind]; try discriminate.
    destruct (_ && _); [|discriminate]. apply IH. destruct c0 as [|? ?]; [congruence|]. destruct (Z.to_nat k); discriminate. }
  refine (V _ _ _ E). destruct (Z.to_nat (f_num_classes f)) eqn:Z0; [lia|discriminate].
Qed.
