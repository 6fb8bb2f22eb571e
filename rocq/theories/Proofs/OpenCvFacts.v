(** Models built on OpenCV. *)
From Coq Require Import ZArith Bool Ascii String Reals Sorted Lia List.
From Flocq Require Import Core BinarySingleNaN Bits.
From Verif Require Import Model.Base Model.Float Model.DatasetM Model.PolicyModelsM Model.ConfigM Model.RuntimeM Model.MpiM Model.OpenCvM
  Spec.DatasetSpec Spec.DatasetClient Spec.TraceSpec Spec.OpenCvSpec
  Proofs.TreeFacts Proofs.MapFacts Proofs.DatasetFacts Proofs.BestPolicy Proofs.KeyOrder Proofs.DatasetProps Proofs.MpiExamples.
Import ListNotations.
Open Scope Z_scope.

(** ** The matrices *)

Lemma features_mat_ok n l : forall m, Forall (fun f => List.length f = S n) l -> mt_width m = S n ->
  features_mat (Some m) l = Ok (Some (mkMat (mt_type m) (mt_width m) (mt_rows m ++ map (map bits32) l))).
Proof.
  induction l as [|f l IH]; intros m F W; cbn [features_mat map]; [rewrite app_nil_r; destruct m; reflexivity|]. inversion F as [|? ? F1 F2]; subst.
  destruct f as [|x f]; [discriminate F1|]. cbn [push_row]. rewrite map_length, F1, W, Nat.eqb_refl. cbn [bind]. rewrite (IH _ F2) by reflexivity. cbn [mt_type mt_width mt_rows]. rewrite <- app_assoc. reflexivity.
Qed.

Lemma features_mat_start n f l : Forall (fun f => List.length f = S n) (f :: l) -> features_mat None (f :: l) = Ok (Some (mkMat Cell32F (S n) (map (map bits32) (f :: l)))).
Proof.
  intros F. inversion F as [|? ? F1 F2]; subst. cbn [features_mat]. destruct f as [|x f]; [discriminate F1|]. cbn [push_row]. rewrite map_length, F1. cbn [bind].
  rewrite (features_mat_ok n) by (exact F2 || reflexivity). reflexivity.
Qed.

Lemma cells_back l : map (map cell_float) (map (map bits32) l) = l.
Proof. rewrite map_map. rewrite <- (map_id l) at 2. apply map_ext. intros f. rewrite map_map. rewrite <- (map_id f) at 2. apply map_ext. exact of_bits32_bits. Qed.

Lemma int_back z : - 2 ^ 31 <= z < 2 ^ 31 -> cell_int (int_bits z) = z.
Proof.
  intros H. unfold cell_int, to_int, int_bits. rewrite Z.mod_mod by lia. destruct (Z.ltb_spec (z mod 2 ^ 32) (2 ^ 31)) as [L|L].
  - destruct (Z.lt_ge_cases z 0) as [N|N]; [|apply Z.mod_small; lia]. exfalso. rewrite <- (Z.mod_add z 1) in L by lia. rewrite Z.mod_small in L by lia. lia.
  - destruct (Z.lt_ge_cases z 0) as [N|N]; [|rewrite Z.mod_small in L by lia; lia]. rewrite <- (Z.mod_add z 1) by lia. rewrite Z.mod_small by lia. lia.
Qed.

Lemma responses_ok t n l : l <> [] -> n = List.length l -> responses_mat t n l = Ok (mkMat t 1 (map (fun z => [int_bits z]) l)).
Proof. intros N ->. unfold responses_mat. rewrite Nat.leb_refl, firstn_all. destruct l; [contradiction N; reflexivity|reflexivity]. Qed.

(** ** Metrics in the same order *)

Section Order.
Variable Q : f64 -> f64 -> Prop.
Hypothesis mono : forall a a' b b', Q a a' -> Q b b' -> lt64 a b = lt64 a' b'.
Definition alike (b b' : list f32 * (Z * f64)) : Prop := fst b = fst b' /\ fst (snd b) = fst (snd b') /\ Q (snd (snd b)) (snd (snd b')).

Lemma find_alike f m m' : Forall2 alike m m' ->
  match map_find vec_lt f m, map_find vec_lt f m' with
  | None, None => True | Some (p, x), Some (p', x') => p = p' /\ Q x x' | _, _ => False
  end.
Proof.
  induction 1 as [|[g [p x]] [g' [p' x']] m m' (A & B & C) F IH]; cbn [map_find]; [exact I|]. cbn in A, B, C. subst g' p'. destruct (negb (vec_lt f g) && negb (vec_lt g f)); [split; [reflexivity|exact C]|exact IH].
Qed.

Lemma add_alike f p x x' m m' : Q x x' -> Forall2 alike m m' -> Forall2 alike (map_add vec_lt f (p, x) m) (map_add vec_lt f (p, x') m').
Proof.
  intros HQ. induction 1 as [|[g [p1 y]] [g' [p2 y']] m m' (A & B & C) F IH]; cbn [map_add]; [constructor; [split; [reflexivity|split; [reflexivity|exact HQ]]|constructor]|]. cbn in A, B, C. subst g' p2.
  destruct (vec_lt f g); [constructor; [split; [reflexivity|split; [reflexivity|exact HQ]]|]; constructor; [split; [reflexivity|split; [reflexivity|exact C]]|exact F]|].
  constructor; [split; [reflexivity|split; [reflexivity|exact C]]|exact IH].
Qed.

Lemma update_alike f p x x' m m' : Q x x' -> Forall2 alike m m' -> Forall2 alike (map_update vec_lt f (p, x) m) (map_update vec_lt f (p, x') m').
Proof.
  intros HQ. induction 1 as [|[g [p1 y]] [g' [p2 y']] m m' (A & B & C) F IH]; cbn [map_update]; [constructor|]. cbn in A, B, C. subst g' p2.
  destruct (negb (vec_lt f g) && negb (vec_lt g f)); [constructor; [split; [reflexivity|split; [reflexivity|exact HQ]]|exact F]|].
  constructor; [split; [reflexivity|split; [reflexivity|exact C]]|exact IH].
Qed.

Lemma fold_alike d : forall d' m m', Forall2 (fun e e' => fst e = fst e' /\ Q (snd e) (snd e')) d d' -> Forall2 alike m m' -> Forall2 alike (fold_left min_step d m) (fold_left min_step d' m').
Proof.
  induction d as [|[[f p] x] d IH]; intros d' m m' F H; inversion F as [|? [[f' p'] x'] ? ? [E HQ] F']; subst; [exact H|]. cbn in E, HQ. inversion E; subst f' p'. cbn [fold_left]. apply IH; [exact F'|].
  unfold min_step. assert (X := find_alike f m m' H). destruct (map_find vec_lt f m) as [[q y]|], (map_find vec_lt f m') as [[q' y']|]; try contradiction.
  - destruct X as [-> HY]. rewrite (mono _ _ _ _ HQ HY). destruct (lt64 x' y'); [apply update_alike; assumption|exact H].
  - apply add_alike; assumption.
Qed.
End Order.

Lemma same_order_best d d' : same_order d d' ->
  fst (ds_find_min d [] []) = fst (ds_find_min d' [] []).
Proof.
  intros [K O]. set (Q := fun a a' => exists i x x', nth_error (ds_to_vector d) i = Some x /\ nth_error (ds_to_vector d') i = Some x' /\ snd x = a /\ snd x' = a').
  assert (M : forall a a' b b', Q a a' -> Q b b' -> lt64 a b = lt64 a' b').
  { intros a a' b b' (i & x & x' & X1 & X2 & <- & <-) (j & y & y' & Y1 & Y2 & <- & <-). exact (O i j x y x' y' X1 Y1 X2 Y2). }
  assert (F : Forall2 (fun e e' => fst e = fst e' /\ Q (snd e) (snd e')) d d').
  { assert (G : forall n dd dd', (forall i, nth_error dd i = nth_error (ds_to_vector d) (n + i)) -> (forall i, nth_error dd' i = nth_error (ds_to_vector d') (n + i)) -> map fst dd = map fst dd' ->
      Forall2 (fun e e' => fst e = fst e' /\ Q (snd e) (snd e')) dd dd').
    { intros n dd. revert n. induction dd as [|x dd IH]; intros n [|x' dd'] H H' E; try discriminate E; constructor.
      - cbn in E. split; [congruence|]. exists (n + 0)%nat, x, x'. rewrite <- H, <- H'. repeat split; reflexivity.
      - apply (IH (S n)); [intros i; rewrite Nat.add_succ_comm, <- H; reflexivity|intros i; rewrite Nat.add_succ_comm, <- H'; reflexivity|cbn in E; congruence]. }
    assert (V : forall d0 : dataset, ds_to_vector d0 = d0) by (intros d0; unfold ds_to_vector; rewrite <- (map_id d0) at 2; apply map_ext; intros [[? ?] ?]; reflexivity).
    rewrite <- (V d), <- (V d'). apply (G 0%nat); [reflexivity|reflexivity|]. exact K. }
  assert (A := fold_alike Q M d d' [] [] F (Forall2_nil _)). unfold ds_find_min. cbn [app fst]. revert A. generalize (fold_left min_step d []) (fold_left min_step d' []). intros l l' A. apply f_equal2.
  - induction A as [|b b' l l' (E & _) A IH]; cbn; [reflexivity|]. rewrite E, IH. reflexivity.
  - induction A as [|b b' l l' (_ & E & _) A IH]; cbn; [reflexivity|]. rewrite E, IH. reflexivity.
Qed.

(** ** Training *)

Section Lib.
Context {M : Type}.
Variable L : library M.

Lemma sound_best d : sound_data d -> exists best, ds_find_min d [] [] = (map fst best, map (fun b => fst (snd b)) best, best) /\ best_of d best /\ best <> [] /\
  Forall (fun b => - 2 ^ 31 <= fst (snd b) < 2 ^ 31) best.
Proof.
  intros [(ks & RC) SO ME PO]. destruct (find_min_reachable d ks [] [] RC ME) as (best & E & S & C & B). exists best. split; [exact E|]. split; [split; [exact S|]; split; [exact C|exact B]|].
  split.
  - intros ->. destruct (ds_to_vector d) as [|[[f p] m] v] eqn:EV; [contradiction SO; reflexivity|]. specialize (C f p m (or_introl eq_refl)). discriminate C.
  - rewrite Forall_forall. intros [f [p m]] IN. destruct (B f p m IN) as [(f' & IN' & _) _]. cbn. eapply PO; exact IN'.
Qed.

(** Same length: the library is trained on the best policies. *)
Lemma train_sound t d n : sound_data d -> same_length (S n) d -> exists best fm, best_of d best /\ Forall (fun b => - 2 ^ 31 <= fst (snd b) < 2 ^ 31) best /\ floats fm (map fst best) /\
  forall x, train_on L t x d = lib_train L x fm (mkMat t 1 (map (fun b => [int_bits (fst (snd b))]) best)).
Proof.
  intros SD SL. destruct (sound_best d SD) as (best & E & BO & NE & PO). unfold train_on. rewrite E.
  assert (F : Forall (fun f => List.length f = S n) (map fst best)).
  { rewrite Forall_map, Forall_forall. intros [f [p m]] IN. destruct BO as (_ & _ & B). destruct (B f p m IN) as [(f' & IN' & SF) _]. cbn. rewrite (same_features_length _ _ SF). eapply SL; exact IN'. }
  destruct best as [|b best]; [contradiction NE; reflexivity|]. cbn [map] in F |- *. rewrite (features_mat_start n) by exact F. cbn [bind rows_of mt_rows].
  assert (RO := responses_ok t (List.length (map (map bits32) (fst b :: map fst best))) (fst (snd b) :: map (fun b : list f32 * (Z * f64) => fst (snd b)) best)). cbn [map List.length] in RO. rewrite !map_length in RO. specialize (RO ltac:(discriminate) eq_refl).
  exists (b :: best), (mkMat Cell32F (S n) (map (map bits32) (fst b :: map fst best))). split; [exact BO|]. split; [exact PO|]. split; [|intros x; cbn [map List.length]; rewrite !map_length, RO; cbn [bind]; rewrite <- (map_map (fun b : list f32 * (Z * f64) => fst (snd b)) (fun z => [int_bits z])); reflexivity].
  split; [reflexivity|]. cbn [mt_rows mt_width]. split; [apply (cells_back (fst b :: map fst best))|]. rewrite Forall_map. eapply Forall_impl; [|exact F]. intros f H. rewrite map_length. exact H.
Qed.

Lemma int_column_best best : Forall (fun b : list f32 * (Z * f64) => - 2 ^ 31 <= fst (snd b) < 2 ^ 31) best ->
  int_column (mkMat Cell32S 1 (map (fun b => [int_bits (fst (snd b))]) best)) (map (fun b => fst (snd b)) best).
Proof.
  intros F. split; [reflexivity|]. split; [reflexivity|]. cbn [mt_rows]. rewrite !map_map. apply map_ext_in. intros b IN. rewrite Forall_forall in F. cbn [map]. f_equal. apply int_back. apply F. exact IN.
Qed.

Lemma features_mat_inv l : forall m r, features_mat (Some m) l = Ok r ->
  r = Some (mkMat (mt_type m) (mt_width m) (mt_rows m ++ map (map bits32) l)) /\ Forall (fun f => List.length f = mt_width m) l.
Proof.
  induction l as [|f l IH]; intros m r H; cbn [features_mat map] in *; [inversion H; rewrite app_nil_r; split; [destruct m; reflexivity|constructor]|].
  destruct f as [|x f]; [discriminate H|]. cbn [push_row] in H. rewrite map_length in H. destruct (Nat.eqb_spec (List.length (x :: f)) (mt_width m)) as [W|W]; [|discriminate H].
  cbn [bind] in H. apply IH in H. cbn [mt_type mt_width mt_rows] in H. destruct H as [-> F]. split; [rewrite <- app_assoc; reflexivity|]. constructor; [exact W|exact F].
Qed.

Lemma train_inv x d x' : train_on L Cell32S x d = Ok x' -> exists fm rm, lib_train L x fm rm = Ok x' /\
  (sound_data d -> exists best, best_of d best /\ floats fm (map fst best) /\ int_column rm (map (fun b => fst (snd b)) best)).
Proof.
  unfold train_on. destruct (ds_find_min d [] []) as [[fs rs] bm] eqn:E. intros H. apply bind_inv in H. destruct H as (fm & EF & H). apply bind_inv in H. destruct H as (rm & ER & H).
  eexists _, rm. split; [exact H|]. intros SD. destruct (sound_best d SD) as (best & E' & BO & NE & PO). rewrite E' in E. inversion E; subst fs rs bm. clear E E'. exists best. split; [exact BO|].
  destruct best as [|b best]; [contradiction NE; reflexivity|]. cbn [map features_mat] in EF. destruct (fst b) as [|y f] eqn:EB; [discriminate EF|]. cbn [push_row bind] in EF. apply features_mat_inv in EF.
  cbn [mt_type mt_width mt_rows] in EF. destruct EF as [-> F]. change ([map bits32 (y :: f)] ++ map (map bits32) (map fst best)) with (map (map bits32) ((y :: f) :: map fst best)) in ER |- *. split.
  - split; [reflexivity|]. cbn [mt_rows mt_width]. rewrite cells_back. split; [cbn [map]; rewrite EB; reflexivity|]. rewrite Forall_map. constructor; [reflexivity|].
    eapply Forall_impl; [|exact F]. intros g G. rewrite map_length. exact G.
  - cbn [rows_of mt_rows] in ER. rewrite responses_ok in ER; [|discriminate|cbn [map List.length]; rewrite !map_length; reflexivity]. injection ER as <-. rewrite (map_map (fun b : list f32 * (Z * f64) => fst (snd b)) (fun z => [int_bits z])). exact (int_column_best (b :: best) PO).
Qed.

(** Different lengths. *)
Lemma features_mat_mixed l : forall m, Forall (fun f => f <> []) l -> Exists (fun f => List.length f <> mt_width m) l -> features_mat (Some m) l = Throw.
Proof.
  induction l as [|f l IH]; intros m N E; [inversion E|]. cbn [features_mat]. inversion N as [|? ? N1 N2]; subst. destruct f as [|x f]; [contradiction N1; reflexivity|]. cbn [push_row].
  rewrite map_length. destruct (Nat.eqb_spec (List.length (x :: f)) (mt_width m)) as [W|W]; [|reflexivity]. cbn [bind]. apply IH; [exact N2|]. inversion E as [? ? H|? ? H]; subst; [contradiction|exact H].
Qed.

Lemma train_mixed t x d : sound_data d -> (forall f p m, In (f, p, m) (ds_to_vector d) -> f <> []) ->
  (exists f p m g q y, In (f, p, m) (ds_to_vector d) /\ In (g, q, y) (ds_to_vector d) /\ List.length f <> List.length g) -> train_on L t x d = Throw.
Proof.
  intros SD NE (f & p & m & g & q & y & I1 & I2 & D). destruct (sound_best d SD) as (best & E & (_ & C & B) & _ & _). unfold train_on. rewrite E.
  assert (N : Forall (fun f => f <> []) (map fst best)).
  { rewrite Forall_map, Forall_forall. intros [h [k z]] IN X. cbn in X. subst h. destruct (B _ _ _ IN) as [(h & IN' & SF) _]. destruct h; [|discriminate SF]. eapply NE; [exact IN'|reflexivity]. }
  assert (X : forall f p m, In (f, p, m) (ds_to_vector d) -> exists h, In h (map fst best) /\ List.length h = List.length f).
  { intros f0 p0 m0 IN. apply C in IN. apply existsb_exists in IN. destruct IN as (h & IN & SF). exists h. split; [exact IN|]. symmetry. apply same_features_length. exact SF. }
  destruct (X _ _ _ I1) as (h1 & H1 & L1). destruct (X _ _ _ I2) as (h2 & H2 & L2).
  destruct (map fst best) as [|h l]; [destruct H1|]. cbn [features_mat]. inversion N as [|? ? N1 N2]; subst. destruct h as [|x0 h]; [contradiction N1; reflexivity|]. cbn [push_row bind].
  rewrite features_mat_mixed; [reflexivity|exact N2|]. cbn [mt_width]. rewrite map_length. apply Exists_exists. destruct H1 as [<-|H1]; [destruct H2 as [<-|H2]|].
  - congruence.
  - exists h2. split; [exact H2|congruence].
  - destruct (Nat.eq_dec (List.length h1) (List.length (x0 :: h))) as [EQ|EQ]; [|exists h1; split; [exact H1|exact EQ]].
    destruct H2 as [<-|H2]; [congruence|]. exists h2. split; [exact H2|congruence].
Qed.

(** ** Lives of models *)
Variable P : platform.

Definition held (trainable : bool) (x : M) (e : cvmodel M) (m : cvmodel M) : Prop :=
  object m = Some x /\ cv_trainable m = trainable /\ (trainable = true -> explorer_of m = Some e).

Lemma held_step b x e m o m' r : held b x e m -> cv_step P L m o = Ok (m', r) ->
  exists x' e', only_trained L x [o] x' /\ held (b && negb (settles o)) x' e' m' /\
    (b && negb (settles o) = true -> match o with Ask _ _ => cv_step P L e o = Ok (e', r) | _ => e' = e end).
Proof.
  intros (HO & HT & HE) H. destruct m as [m|n t y ex|n t y ex]; [discriminate HO| |]; cbn in HO, HT, HE; inversion HO; subst y t; clear HO; destruct o as [D f|d|file|]; cbn [cv_step cv_get_index cv_train cv_load cv_store] in H; cbn [settles negb]; rewrite ?andb_true_r, ?andb_false_r.
  - exists x. destruct b; cbn [negb] in H.
    + rewrite (HE eq_refl) in H. apply bind_inv in H. destruct H as ([z m1] & H & K). apply bind_inv in H. destruct H as ([z1 e1] & EA & H). inversion H; subst. inversion K; subst.
      exists e1. split; [constructor; [discriminate|constructor]|]. split; [split; [reflexivity|]; split; [reflexivity|]; intros _; reflexivity|]. intros _. cbn [cv_step]. rewrite EA. reflexivity.
    + apply bind_inv in H. destruct H as ([z m1] & H & K). apply bind_inv in H. destruct H as (z1 & EA & H). inversion H; subst. inversion K; subst.
      exists e. split; [constructor; [discriminate|constructor]|]. split; [split; [reflexivity|]; split; [reflexivity|]; discriminate|discriminate].
  - apply bind_inv in H. destruct H as (m1 & H & K). apply bind_inv in H. destruct H as (x1 & ET & H). inversion H; subst. inversion K; subst. destruct (train_inv _ _ _ ET) as (fm & rm & T1 & T2).
    exists x1, e. split; [econstructor; [exact T1|exact T2|constructor]|]. split; [split; [reflexivity|]; split; [reflexivity|]; discriminate|discriminate].
  - apply bind_inv in H. destruct H as (m1 & H & K). apply bind_inv in H. destruct H as (x1 & ET & H). inversion H; subst. inversion K; subst.
    exists x, e. split; [constructor; [discriminate|constructor]|]. split; [split; [reflexivity|]; split; [reflexivity|]; discriminate|discriminate].
  - apply bind_inv in H. destruct H as (m1 & H & K). inversion K; subst.
    exists x, e. split; [constructor; [discriminate|constructor]|]. split; [split; [reflexivity|]; split; [reflexivity|]; exact HE|reflexivity].
  - exists x. destruct b; cbn [negb] in H.
    + rewrite (HE eq_refl) in H. apply bind_inv in H. destruct H as ([z m1] & H & K). apply bind_inv in H. destruct H as ([z1 e1] & EA & H). inversion H; subst. inversion K; subst.
      exists e1. split; [constructor; [discriminate|constructor]|]. split; [split; [reflexivity|]; split; [reflexivity|]; intros _; reflexivity|]. intros _. cbn [cv_step]. rewrite EA. reflexivity.
    + apply bind_inv in H. destruct H as ([z m1] & H & K). apply bind_inv in H. destruct H as (z1 & EA & H). inversion H; subst. inversion K; subst.
      exists e. split; [constructor; [discriminate|constructor]|]. split; [split; [reflexivity|]; split; [reflexivity|]; discriminate|discriminate].
  - apply bind_inv in H. destruct H as (m1 & H & K). apply bind_inv in H. destruct H as (x1 & ET & H). inversion H; subst. inversion K; subst. destruct (train_inv _ _ _ ET) as (fm & rm & T1 & T2).
    exists x1, e. split; [econstructor; [exact T1|exact T2|constructor]|]. split; [split; [reflexivity|]; split; [reflexivity|]; discriminate|discriminate].
  - apply bind_inv in H. destruct H as (m1 & H & K). apply bind_inv in H. destruct H as (x1 & ET & H). inversion H; subst. inversion K; subst.
    exists x, e. split; [constructor; [discriminate|constructor]|]. split; [split; [reflexivity|]; split; [reflexivity|]; discriminate|discriminate].
  - apply bind_inv in H. destruct H as (m1 & H & K). inversion K; subst.
    exists x, e. split; [constructor; [discriminate|constructor]|]. split; [split; [reflexivity|]; split; [reflexivity|]; exact HE|reflexivity].
Qed.

Lemma only_trained_app x os1 y os2 z : only_trained L x os1 y -> only_trained L y os2 z -> only_trained L x (os1 ++ os2) z.
Proof.
  induction 1 as [x|x d fm rm x' os x'' T B H IH|x o os x' N H IH]; intros K; cbn [app]; [exact K| |].
  - econstructor; [exact T|exact B|apply IH; exact K].
  - constructor; [exact N|apply IH; exact K].
Qed.

Lemma held_run os : forall b x e m m' xs, held b x e m -> cv_run P L m os = Ok (m', xs) ->
  exists x' e', only_trained L x os x' /\ held (b && negb (settled os)) x' e' m' /\
    (b && negb (settled os) = true -> cv_run P L e (filter is_ask os) = Ok (e', filter is_answer xs)).
Proof.
  induction os as [|o os IH]; intros b x e m m' xs HH H; cbn [cv_run] in H.
  - inversion H; subst. exists x, e. split; [constructor|]. cbn [settled existsb negb filter]. rewrite andb_true_r. split; [exact HH|]. intros _. reflexivity.
  - apply bind_inv in H. destruct H as ([m1 r] & ES & H). apply bind_inv in H. destruct H as ([m2 ys] & ER & H). inversion H; subst m2 xs. clear H.
    destruct (held_step _ _ _ _ _ _ _ HH ES) as (x1 & e1 & T1 & H1 & A1). destruct (IH _ _ _ _ _ _ H1 ER) as (x2 & e2 & T2 & H2 & A2).
    exists x2, e2. split; [exact (only_trained_app _ [o] _ _ _ T1 T2)|]. cbn [settled existsb]. fold (settled os). rewrite negb_orb, andb_assoc. split; [exact H2|]. intros E.
    specialize (A2 E). apply andb_prop in E. destruct E as [E _]. specialize (A1 E). cbn [filter]. destruct o as [D f|d|file|]; cbn [is_ask].
    + assert (RA : is_answer r = true).
      { cbn [cv_step] in A1. apply bind_inv in A1. destruct A1 as ([z1 e3] & _ & A1). inversion A1. reflexivity. }
      rewrite RA. cbn [cv_run]. rewrite A1. cbn [bind]. rewrite A2. reflexivity.
    + apply andb_prop in E. destruct E as [_ E]. discriminate E.
    + apply andb_prop in E. destruct E as [_ E]. discriminate E.
    + cbn [cv_step] in ES. apply bind_inv in ES. destruct ES as (s0 & _ & ES). inversion ES; subst. cbn [is_answer]. exact A2.
Qed.

Lemma no_training x os y : only_trained L x os y -> (forall d, ~ In (Train d) os) -> y = x.
Proof.
  induction 1 as [x|x d fm rm x' os x'' T B H IH|x o os x' N H IH]; intros K; [reflexivity| |].
  - exfalso. eapply K. left. reflexivity.
  - apply IH. intros d X. apply (K d). right. exact X.
Qed.

Lemma fresh_held x e m : fresh_model L x e m -> held true x e m.
Proof.
  intros (n & [(dp & H & E)|(ts & dp & H & E)]); unfold new_cv_tree, new_cv_forest in H; rewrite E in H; cbn [bind] in H; inversion H; subst; split; try reflexivity; split; try reflexivity; intros _; reflexivity.
Qed.

Lemma life x e m os m' xs : fresh_model L x e m -> cv_run P L m os = Ok (m', xs) ->
  exists x', object m' = Some x' /\ only_trained L x os x' /\ cv_trainable m' = negb (settled os) /\
    (settled os = true -> forall D f, cv_step P L m' (Ask D f) = (let* y := lib_predict L x' f in let* z := int_of_float y in Ok (m', Answer z))) /\
    (settled os = false -> exists e', explorer_of m' = Some e' /\ cv_run P L e (filter is_ask os) = Ok (e', filter is_answer xs)).
Proof.
  intros F R. destruct (held_run os _ _ _ _ _ _ (fresh_held _ _ _ F) R) as (x' & e' & T & (HO & HT & HE) & A). rewrite andb_true_l in *. exists x'. split; [exact HO|]. split; [exact T|]. split; [exact HT|]. split.
  - intros S D f. rewrite S in HT. destruct m' as [m'|n t y ex|n t y ex]; [discriminate HO| |]; cbn in HO, HT; inversion HO; subst; cbn [cv_step cv_get_index negb]; unfold predict_int; destruct (lib_predict L x' f) as [y| | | |]; try reflexivity; cbn [bind]; destruct (int_of_float y); reflexivity.
  - intros S. rewrite S in *. exists e'. split; [apply HE; reflexivity|apply A; reflexivity].
Qed.

Lemma load_lost x e m os m' xs : fresh_model L x e m -> cv_run P L m os = Ok (m', xs) -> (exists file, In (Load file) os) -> (forall d, ~ In (Train d) os) ->
  object m' = Some x /\ forall D f, cv_step P L m' (Ask D f) = (let* y := lib_predict L x f in let* z := int_of_float y in Ok (m', Answer z)).
Proof.
  intros F R (file & IN) N. destruct (life _ _ _ _ _ _ F R) as (x' & HO & T & _ & A & _). apply no_training in T; [|exact N]. subst x'. split; [exact HO|]. apply A.
  apply existsb_exists. exists (Load file). split; [exact IN|reflexivity].
Qed.

(** ** The time model *)

Lemma bits_value p : 0 <= p < 2 ^ 23 -> B2R (cell_float p) = (IZR p * bpow radix2 (-149))%R /\ is_finite (cell_float p) = true.
Proof.
  intros H. unfold cell_float, of_bits32. rewrite Binary.B2R_B2BSN, Binary.is_finite_B2BSN. unfold b32_of_bits, binary_float_of_bits. rewrite Binary.B2R_FF2B, Binary.is_finite_FF2B.
  unfold binary_float_of_bits_aux, split_bits. change (2 ^ 23 * 2 ^ 8) with (2 ^ 31). rewrite (Z.mod_small p) by exact H. rewrite (Z.div_small p) by exact H.
  assert (E : (2 ^ 31 <=? p) = false) by (apply Z.leb_gt; lia). rewrite E. change (0 mod 2 ^ 8) with 0. change (Zeq_bool 0 0) with true. cbv iota.
  destruct p as [|p|p]; [|split; [|reflexivity]|lia].
  - split; [|reflexivity]. cbn. rewrite Rmult_0_l. reflexivity.
  - cbn [Binary.FF2R]. unfold F2R. cbn [Fnum Fexp cond_Zopp]. reflexivity.
Qed.

Lemma time_column best : Forall (fun b : list f32 * (Z * f64) => 0 <= fst (snd b) < 2 ^ 23) best ->
  float_column (mkMat Cell32F 1 (map (fun b => [int_bits (fst (snd b))]) best)) (map (fun b => cell_float (fst (snd b))) best).
Proof.
  intros F. split; [reflexivity|]. split; [reflexivity|]. cbn [mt_rows]. rewrite !map_map. apply map_ext_in. intros b IN. rewrite Forall_forall in F. specialize (F b IN). cbn [map]. f_equal.
  unfold int_bits. rewrite Z.mod_small; [reflexivity|]. lia.
Qed.

Lemma time_model d n : sound_data d -> same_length (S n) d -> (forall f p m, In (f, p, m) (ds_to_vector d) -> 0 <= p < 2 ^ 23) ->
  exists best fm rm column, best_of d best /\ floats fm (map fst best) /\ float_column rm column /\
    Forall2 (fun b y => is_finite y = true /\ B2R y = (IZR (fst (snd b)) * bpow radix2 (-149))%R) best column /\
    new_time_model L d = (let* x := lib_regression L in lib_train L x fm rm).
Proof.
  intros SD SL PO. destruct (train_sound Cell32F d n SD SL) as (best & fm & BO & _ & FM & T).
  assert (F : Forall (fun b : list f32 * (Z * f64) => 0 <= fst (snd b) < 2 ^ 23) best).
  { rewrite Forall_forall. intros [f [p m]] IN. destruct BO as (_ & _ & B). destruct (B f p m IN) as [(f' & IN' & _) _]. cbn. eapply PO; exact IN'. }
  eexists best, fm, _, _. split; [exact BO|]. split; [exact FM|]. split; [apply time_column; exact F|]. split.
  - clear - F. induction F as [|b best H F IH]; cbn [map]; constructor; [|exact IH]. destruct (bits_value _ H). split; assumption.
  - unfold new_time_model. destruct (lib_regression L); [|reflexivity..]. cbn [bind]. apply T.
Qed.

Lemma time_model_order d d' : same_order d d' -> new_time_model L d = new_time_model L d'.
Proof.
  intros S. assert (E := same_order_best d d' S). unfold new_time_model, train_on. destruct (ds_find_min d [] []) as [[fs ps] bm], (ds_find_min d' [] []) as [[fs' ps'] bm']. cbn [fst] in E. inversion E; subst. reflexivity.
Qed.
End Lib.

(** ** The theorems *)

Lemma training : forall M (L : library M) d n, sound_data d -> same_length (S n) d ->
  exists best fm rm, best_of d best /\ floats fm (map fst best) /\ int_column rm (map (fun b => fst (snd b)) best) /\
    forall P count trainable x explorer,
      cv_train P L (CvTree count trainable x explorer) d = (let* x' := lib_train L x fm rm in Ok (CvTree count false x' explorer)) /\
      cv_train P L (CvForest count trainable x explorer) d = (let* x' := lib_train L x fm rm in Ok (CvForest count false x' explorer)).
Proof.
  intros M L d n SD SL. destruct (train_sound L Cell32S d n SD SL) as (best & fm & BO & PO & FM & T).
  exists best, fm, (mkMat Cell32S 1 (map (fun b => [int_bits (fst (snd b))]) best)). split; [exact BO|]. split; [exact FM|]. split; [exact (int_column_best best PO)|].
  intros P count trainable x explorer. cbn [cv_train]. rewrite (T x). split; reflexivity.
Qed.

Lemma mixed_lengths : forall M (L : library M) P d, sound_data d -> (forall f p m, In (f, p, m) (ds_to_vector d) -> f <> []) ->
  (exists f p m g q y, In (f, p, m) (ds_to_vector d) /\ In (g, q, y) (ds_to_vector d) /\ List.length f <> List.length g) ->
  forall count trainable x explorer,
    cv_train P L (CvTree count trainable x explorer) d = Throw /\ cv_train P L (CvForest count trainable x explorer) d = Throw /\
    (forall y, lib_regression L = Ok y -> new_time_model L d = Throw).
Proof.
  intros M L P d SD NE MX count trainable x explorer. cbn [cv_train]. rewrite (train_mixed L Cell32S x d SD NE MX). split; [reflexivity|]. split; [reflexivity|].
  intros y E. unfold new_time_model. rewrite E. cbn [bind]. exact (train_mixed L Cell32F y d SD NE MX).
Qed.

Lemma same_times : forall M (L : library M) d d', same_order d d' ->
  new_time_model L d = new_time_model L d' /\
  forall f, (let* x := new_time_model L d in time_prediction L x f) = (let* x := new_time_model L d' in time_prediction L x f).
Proof. intros M L d d' S. rewrite (time_model_order L d d' S). split; [reflexivity|]. intros f. reflexivity. Qed.
