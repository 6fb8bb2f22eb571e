(** A library and data sets for Props/OpenCv.v. *)
From Coq Require Import ZArith Bool Ascii String Lia List.
From Flocq Require Import Core BinarySingleNaN.
From Verif Require Import Model.Base Model.Float Model.DatasetM Model.PolicyModelsM Model.RuntimeM Model.OpenCvM
  Spec.DatasetSpec Spec.DatasetClient Spec.TraceSpec Spec.OpenCvSpec
  Proofs.TreeFacts Proofs.DatasetFacts Proofs.InsertionSortFacts Proofs.PolicyModelsExamples Proofs.DatasetExamples Proofs.RuntimeExamples Proofs.RuntimePolicyExamples Proofs.OpenCvFacts Proofs.SafeExamples.
Import ListNotations.
Open Scope Z_scope.

(** A library that learns by heart, and refuses to answer when it was not trained or does not know. *)
Definition learned := option (list (list f32 * Z)).
Fixpoint recall (l : list (list f32 * Z)) (f : list f32) : outcome f32 :=
  match l with [] => Throw | (g, z) :: rest => if same_features g f then Ok (f32_of_Z z) else recall rest f end.
Definition by_heart : library learned :=
  {| lib_tree := fun depth categories => if depth <? 0 then Throw else Ok None;
     lib_forest := fun trees depth categories => if depth <? 0 then Throw else Ok None;
     lib_regression := Ok None;
     lib_load_tree := fun file => match file with Some (_ :: _) => Ok (Some [([f32_of_Z 1], 1)]) | _ => Throw end;
     lib_load_forest := fun file => match file with Some (_ :: _) => Ok (Some [([f32_of_Z 1], 1)]) | _ => Throw end;
     lib_train := fun _ fm rm => Ok (Some (combine (map (map cell_float) (mt_rows fm)) (map (fun row => match row with z :: _ => cell_int z | [] => 0 end) (mt_rows rm))));
     lib_predict := fun x f => match x with None => Throw | Some l => recall l f end;
     lib_save := fun x => match x with None => Throw | Some _ => Ok ($"x") end |}.

Definition measured_b (n : nat) (k : Z) (d : dataset) : bool :=
  negb (match ds_to_vector d with [] => true | _ => false end) &&
  forallb (fun e => match e with (f, p, m) => negb (is_nan m) && (0 <=? p) && (p <? k) && Nat.eqb (List.length f) n end) (ds_to_vector d).
Lemma measured_b_true n k d h : k <= 2 ^ 23 -> Forall no_nan_features h -> insert_all [] h = Ok d -> measured_b n k d = true ->
  sound_data d /\ same_length n d /\ forall f p m, In (f, p, m) (ds_to_vector d) -> 0 <= p < 2 ^ 23.
Proof.
  intros K NN E H. apply andb_prop in H. destruct H as [H1 H2]. rewrite forallb_forall in H2.
  assert (A : forall f p m, In (f, p, m) (ds_to_vector d) -> is_nan m = false /\ 0 <= p < k /\ List.length f = n).
  { intros f p m IN. specialize (H2 _ IN). cbn beta iota in H2. apply andb_prop in H2. destruct H2 as [H2 X4]. apply andb_prop in H2. destruct H2 as [H2 X3]. apply andb_prop in H2. destruct H2 as [X1 X2].
    apply negb_true_iff in X1. apply Z.leb_le in X2. apply Z.ltb_lt in X3. apply Nat.eqb_eq in X4. repeat split; assumption. }
  split; [|split; [|]].
  - constructor.
    + apply insert_all_reachable with (ks := []) in E; [exact E|constructor|exact NN].
    + clear E. intros X. rewrite X in H1. discriminate H1.
    + intros f p m IN. apply (A f p m IN).
    + intros f p m IN. destruct (A f p m IN) as (_ & X & _). lia.
  - intros f p m IN. apply (A f p m IN).
  - intros f p m IN. destruct (A f p m IN) as (_ & X & _). lia.
Qed.

(** Two features; the second policy is faster for one, the first for the other. *)
Definition taken_h (s : Z) : list meas := [ex_m 1 0 (8 * s); ex_m 1 1 (4 * s); ex_m 2 0 (3 * s); ex_m 2 1 (5 * s)].
Lemma some_data : exists d, insert_all [] (taken_h 1) = Ok d /\ measured_b 1 2 d = true.
Proof. apply ok_holds. vm_compute. reflexivity. Qed.
Lemma some_sound : exists d, sound_data d /\ same_length 1 d /\ (forall f p m, In (f, p, m) (ds_to_vector d) -> 0 <= p < 2 ^ 23).
Proof. destruct some_data as (d & E & H). exists d. apply (measured_b_true 1 2 d (taken_h 1)); [lia|repeat constructor|exact E|exact H]. Qed.

(** Features of two lengths. *)
Definition mixed_h : list meas := [ex_m 1 0 8; ([f32_of_Z 1; f32_of_Z 2], 1, f64_of_Z 4)].
Definition mixed_b (d : dataset) : bool :=
  match ds_to_vector d with
  | [(f, p, m); (g, q, y)] => negb (is_nan m) && negb (is_nan y) && (p =? 0) && (q =? 1) && Nat.eqb (List.length f) 1 && Nat.eqb (List.length g) 2
  | _ => false
  end.
Lemma mixed_data : exists d, sound_data d /\ (forall f p m, In (f, p, m) (ds_to_vector d) -> f <> []) /\
  exists f p m g q y, In (f, p, m) (ds_to_vector d) /\ In (g, q, y) (ds_to_vector d) /\ List.length f <> List.length g.
Proof.
  destruct (ok_holds (insert_all [] mixed_h) mixed_b) as (d & E & H); [vm_compute; reflexivity|]. exists d. apply insert_all_reachable with (ks := []) in E; [|constructor|repeat constructor].
  unfold mixed_b in H. destruct (ds_to_vector d) as [|[[f p] m] [|[[g q] y] [|]]] eqn:EV; try discriminate H.
  do 5 (apply andb_prop in H; let K := fresh "K" in destruct H as [H K]). apply negb_true_iff in H, K3. apply Z.eqb_eq in K2, K1. apply Nat.eqb_eq in K0, K. subst p q. split; [constructor|split].
  - exact E.
  - rewrite EV. discriminate.
  - rewrite EV. intros f' p' m' [X|[X|[]]]; inversion X; subst; assumption.
  - rewrite EV. intros f' p' m' [X|[X|[]]]; inversion X; subst; lia.
  - intros f' p' m' [X|[X|[]]]; inversion X; subst; intros ->; [discriminate K0|discriminate K].
  - exists f, 0, m, g, 1, y. split; [left; reflexivity|]. split; [right; left; reflexivity|]. rewrite K0, K. discriminate.
Qed.

(** Models. *)
Definition new_tree : cvmodel learned := CvTree 2 true None (Some (Other (MRoundRobin 2 (-1)))).
Lemma new_tree_fresh : fresh_model by_heart None (Other (MRoundRobin 2 (-1))) new_tree.
Proof. exists 2. left. exists 2. split; reflexivity. Qed.

Definition feature_one : list f32 := [f32_of_Z 1].
(** Results as numbers. *)
Definition shown (x : cvres) : Z := match x with Answer z => z | Nothing => -1 | Text (Some _) => -2 | Text None => -3 end.

(** Explores twice, is trained, and answers the best policies. *)
Definition life_calls (d : dataset) : list cvop :=
  [Ask some_draws feature_one; Ask some_draws feature_one; Train d; Ask some_draws feature_one; Ask some_draws [f32_of_Z 2]; Store].
Lemma tree_life : exists d m' xs, sound_data d /\ cv_run example_platform by_heart new_tree (life_calls d) = Ok (m', xs) /\ map shown xs = [0; 1; -1; 1; 0; -2].
Proof.
  destruct (ok_holds (insert_all [] (taken_h 1)) (fun d => measured_b 1 2 d && match cv_run example_platform by_heart new_tree (life_calls d) with Ok (_, xs) => zs_eqb (map shown xs) [0; 1; -1; 1; 0; -2] | _ => false end))
    as (d & E & H); [vm_compute; reflexivity|].
  apply andb_prop in H. destruct H as [H K]. apply (measured_b_true 1 2 d (taken_h 1)) in H; [|lia|repeat constructor|exact E]. clear E.
  destruct (cv_run example_platform by_heart new_tree (life_calls d)) as [[m' xs]| | | |] eqn:R; try discriminate K. exists d, m', xs. split; [apply H|]. split; [exact R|]. apply zs_eqb_true. exact K.
Qed.

(** A model stored after training and loaded by a new one. *)
Definition lost_b (d : dataset) : bool :=
  match cv_run example_platform by_heart new_tree [Train d; Ask some_draws feature_one; Store] with
  | Ok (_, [Nothing; Answer z; Text (Some text)]) => (z =? 1) &&
      match cv_run example_platform by_heart new_tree [Load (Some text)] with
      | Ok (m2, _) => negb (cv_trainable m2) && match cv_step example_platform by_heart m2 (Ask some_draws feature_one) with Throw => true | _ => false end
      | _ => false
      end
  | _ => false
  end.
Lemma tree_lost : exists d m1 text m2 xs, sound_data d /\
  cv_run example_platform by_heart new_tree [Train d; Ask some_draws feature_one; Store] = Ok (m1, [Nothing; Answer 1; Text (Some text)]) /\
  cv_run example_platform by_heart new_tree [Load (Some text)] = Ok (m2, xs) /\ cv_trainable m2 = false /\
  cv_step example_platform by_heart m2 (Ask some_draws feature_one) = Throw.
Proof.
  destruct (ok_holds (insert_all [] (taken_h 1)) (fun d => measured_b 1 2 d && lost_b d)) as (d & E & H); [vm_compute; reflexivity|].
  apply andb_prop in H. destruct H as [H K]. apply (measured_b_true 1 2 d (taken_h 1)) in H; [|lia|repeat constructor|exact E]. clear E. unfold lost_b in K.
  destruct (cv_run example_platform by_heart new_tree [Train d; Ask some_draws feature_one; Store]) as [[m1 [|[] [|[z| |] [|[| |[text|]] [|]]]]]| | | |] eqn:R1; try discriminate K.
  apply andb_prop in K. destruct K as [K1 K]. apply Z.eqb_eq in K1. subst z.
  destruct (cv_run example_platform by_heart new_tree [Load (Some text)]) as [[m2 ys]| | | |] eqn:R2; try discriminate K. apply andb_prop in K. destruct K as [K1 K]. apply negb_true_iff in K1.
  exists d, m1, text, m2, ys. split; [apply H|]. split; [exact R1|]. split; [exact R2|]. split; [exact K1|].
  destruct (cv_step example_platform by_heart m2 (Ask some_draws feature_one)); try discriminate K. reflexivity.
Qed.

(** The same features and policies with times a thousand times longer. *)
Definition bits_key (e : list f32 * Z) : list Z := snd e :: map MpiM.bits32 (fst e).
Definition same_order_b (d d' : dataset) : bool :=
  match ds_to_vector d, ds_to_vector d' with
  | [x0; x1; x2; x3], [y0; y1; y2; y3] =>
      forallb (fun p => zs_eqb (bits_key (fst (fst p))) (bits_key (fst (snd p)))) [(x0, y0); (x1, y1); (x2, y2); (x3, y3)] &&
      forallb (fun p => forallb (fun q => Bool.eqb (Bltb (snd (fst p)) (snd (fst q))) (Bltb (snd (snd p)) (snd (snd q)))) [(x0, y0); (x1, y1); (x2, y2); (x3, y3)]) [(x0, y0); (x1, y1); (x2, y2); (x3, y3)] &&
      forallb (fun p => Bltb (mul64 (f64_of_Z 999) (snd (fst p))) (snd (snd p))) [(x0, y0); (x1, y1); (x2, y2); (x3, y3)]
  | _, _ => false
  end.

Lemma bits_key_inj a b : zs_eqb (bits_key a) (bits_key b) = true -> a = b.
Proof.
  intros H. apply zs_eqb_true in H. destruct a as [f p], b as [g q]. unfold bits_key in H. cbn [fst snd] in H. injection H as E1 E2. subst q. f_equal.
  apply (f_equal (map MpiM.of_bits32)) in E2. rewrite !map_map in E2. rewrite <- (map_id f), <- (map_id g). etransitivity; [|etransitivity; [exact E2|]]; apply map_ext; intros x; [symmetry|]; apply MpiExamples.of_bits32_bits.
Qed.

Lemma same_order_b_true d d' : same_order_b d d' = true -> same_order d d' /\
  Forall2 (fun x x' => Bltb (mul64 (f64_of_Z 999) (snd x)) (snd x') = true) (ds_to_vector d) (ds_to_vector d').
Proof.
  unfold same_order_b. intros H.
  destruct (ds_to_vector d) as [|x0 [|x1 [|x2 [|x3 [|]]]]] eqn:E; try discriminate H. destruct (ds_to_vector d') as [|y0 [|y1 [|y2 [|y3 [|]]]]] eqn:E'; try discriminate H.
  apply andb_prop in H. destruct H as [H H3]. apply andb_prop in H. destruct H as [H1 H2].
  assert (K : forall x y, In (x, y) [(x0, y0); (x1, y1); (x2, y2); (x3, y3)] -> fst x = fst y /\ Bltb (mul64 (f64_of_Z 999) (snd x)) (snd y) = true).
  { intros x y IN. rewrite forallb_forall in H1, H3. split; [apply bits_key_inj; exact (H1 _ IN)|exact (H3 _ IN)]. }
  assert (O : forall x y z w, In (x, y) [(x0, y0); (x1, y1); (x2, y2); (x3, y3)] -> In (z, w) [(x0, y0); (x1, y1); (x2, y2); (x3, y3)] -> Bltb (snd x) (snd z) = Bltb (snd y) (snd w)).
  { intros x y z w I1 I2. rewrite forallb_forall in H2. specialize (H2 _ I1). rewrite forallb_forall in H2. specialize (H2 _ I2). apply Bool.eqb_prop in H2. exact H2. }
  clear H1 H2 H3. split; [split|].
  - rewrite E, E'. cbn [map]. rewrite (proj1 (K x0 y0 ltac:(cbn; tauto))), (proj1 (K x1 y1 ltac:(cbn; tauto))), (proj1 (K x2 y2 ltac:(cbn; tauto))), (proj1 (K x3 y3 ltac:(cbn; tauto))). reflexivity.
  - assert (N : forall i x x', nth_error (ds_to_vector d) i = Some x -> nth_error (ds_to_vector d') i = Some x' -> In (x, x') [(x0, y0); (x1, y1); (x2, y2); (x3, y3)]).
    { rewrite E, E'. intros [|[|[|[|i]]]] x x' A B; cbn [nth_error] in A, B; try (injection A as <-; injection B as <-; cbn [In]; tauto). destruct i; discriminate A. }
    intros i j x y x' y' A B C D. apply O; eapply N; eassumption.
  - repeat constructor; apply K; cbn [In]; tauto.
Qed.

Lemma longer_times : exists d d', sound_data d /\ sound_data d' /\ same_order d d' /\
  Forall2 (fun x x' => Bltb (mul64 (f64_of_Z 999) (snd x)) (snd x') = true) (ds_to_vector d) (ds_to_vector d').
Proof.
  destruct (ok_holds (insert_all [] (taken_h 1)) (fun d => measured_b 1 2 d && match insert_all [] (taken_h 1000) with Ok d' => measured_b 1 2 d' && same_order_b d d' | _ => false end)) as (d & E & H); [vm_compute; reflexivity|].
  apply andb_prop in H. destruct H as [H K]. destruct (insert_all [] (taken_h 1000)) as [d'| | | |] eqn:E'; try discriminate K. apply andb_prop in K. destruct K as [K O].
  apply (measured_b_true 1 2 d (taken_h 1)) in H; [|lia|repeat constructor|exact E]. apply (measured_b_true 1 2 d' (taken_h 1000)) in K; [|lia|repeat constructor|exact E']. clear E E'.
  apply same_order_b_true in O. exists d, d'. split; [apply H|]. split; [apply K|]. exact O.
Qed.
