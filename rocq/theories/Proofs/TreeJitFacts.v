(** Generated tree code against the interpreter. *)
From Coq Require Import List ZArith Bool Ascii String Lia Reals Lra SpecFloat.
From Coq Require Import ZifyBool.
From Flocq Require Import Core BinarySingleNaN.
From Verif Require Import Model.Base Model.Float Model.Decimal Model.TreeM Model.TreeIO Model.TreeJit
  Spec.DecimalSpec Spec.TreeSpec Spec.JitSpec
  Proofs.FloatFacts Proofs.FloatConv Proofs.DecimalInt Proofs.DecimalFloat Proofs.DecimalRead Proofs.TreeFacts Proofs.InsertionSortFacts.
Import ListNotations.
Open Scope Z_scope.

Lemma Bltb_value {prec emax prec' emax'} (a b : binary_float prec emax) (a' b' : binary_float prec' emax') :
  is_finite a = true -> is_finite a' = true -> is_finite b = true -> is_finite b' = true ->
  B2R a = B2R a' -> B2R b = B2R b' -> Bltb a b = Bltb a' b'.
Proof. intros Fa Fa' Fb Fb' Ea Eb. rewrite !Bltb_correct by assumption. now rewrite Ea, Eb. Qed.

Lemma Bltb_inf {prec emax} s (b : binary_float prec emax) : is_finite b = true -> Bltb (B754_infinity s) b = s.
Proof. destruct b as [s0|s0| |s0 m e H]; try discriminate; intros _; destruct s; reflexivity. Qed.
Lemma Bltb_nan {prec emax} (b : binary_float prec emax) : Bltb B754_nan b = false.
Proof. destruct b; reflexivity. Qed.

Lemma lt32_value (a b b' : f32) : is_finite b = true -> is_finite b' = true -> B2R b = B2R b' -> lt32 a b = lt32 a b'.
Proof.
  intros F F' E. unfold lt32. destruct (is_finite a) eqn:Fa.
  - now apply Bltb_value.
  - destruct a as [s|s| |s m e H]; try discriminate; [now rewrite !Bltb_inf|now rewrite !Bltb_nan].
Qed.

Lemma lt64_value (a : f32) (b : f64) (b' : f32) : is_finite b = true -> is_finite b' = true -> B2R b = B2R b' ->
  lt64 (f64_of_f32 a) b = lt32 a b'.
Proof.
  intros F F' E. unfold lt32, lt64. destruct (is_finite a) eqn:Fa.
  - destruct (f64_of_f32_spec a Fa) as [A1 A2]. now apply Bltb_value.
  - destruct a as [s|s| |s m e H]; try discriminate; cbn [f64_of_f32]; [now rewrite !Bltb_inf|now rewrite !Bltb_nan].
Qed.

Lemma digits_val_lt s : Forall isdig s -> digits_val s < 10 ^ Z.of_nat (List.length s).
Proof.
  induction 1 as [|c s H F IH]; [reflexivity|]. rewrite digits_val_cons. apply digit_val_range in H.
  cbn [List.length]. rewrite Nat2Z.inj_succ, Z.pow_succ_r by lia. nia.
Qed.

Lemma digits6_head D : 100000 <= D < 1000000 -> exists c r, digits_w 6 D = c :: r /\ Ascii.eqb c "0" = false.
Proof.
  intros HD. destruct (digits_w_6 D HD) as (V & L & F). destruct (digits_w 6 D) as [|c r]; [discriminate|].
  exists c, r. split; auto. destruct (Ascii.eqb_spec c "0"); auto. subst c. exfalso.
  rewrite digits_val_cons in V. injection L as L. rewrite L in V.
  apply Forall_inv_tail in F. change (digit_val "0") with 0 in V.
  assert (B := digits_val_lt r F). rewrite L in B. change (10 ^ Z.of_nat 5) with 100000 in *. lia.
Qed.

Lemma frac_digits l : Forall isdig (frac l) -> frac l = [].
Proof.
  unfold frac. destruct (strip_zeros l); auto. intros F. apply Forall_inv in F. discriminate F.
Qed.

Lemma fmt_g_digits D X : 100000 <= D < 1000000 -> Forall isdig (fmt_g D X) ->
  (List.length (fmt_g D X) <= 6)%nat /\
  exists c r, fmt_g D X = c :: r /\ (Ascii.eqb c "0" && negb (Nat.eqb (List.length r) 0))%bool = false.
Proof.
  intros HD. destruct (digits6_head D HD) as (c & r & E & C). unfold fmt_g.
  assert (L := digits_w_length 6 D). set (ds := digits_w 6 D) in *.
  destruct (_ && _) eqn:B; [destruct (Z.leb_spec 0 X)|].
  - intros F. apply Forall_app in F as [_ F]. apply frac_digits in F. rewrite F, app_nil_r.
    split; [rewrite firstn_length; lia|]. rewrite E, Nat.add_1_r. cbn [firstn]. do 2 eexists. split; [reflexivity|].
    now rewrite C.
  - intros F. apply Forall_inv_tail in F. apply frac_digits in F. rewrite F. split; [cbn; lia|].
    exists "0"%char, []. auto.
  - intros F. apply Forall_app in F as [_ F]. apply Forall_app in F as [_ F]. apply Forall_inv in F. discriminate F.
Qed.

Lemma body_constant D X v : 100000 <= D < 1000000 -> v = F2R (Float radix10 D (X - 5)) ->
  fmt64 v -> (bpow radix2 (2 - 1024) <= v < bpow radix2 1024)%R ->
  exists c, unsigned_constant (fmt_g D X) = Some c /\
    match c with
    | CInt z => Z.abs z <= 2 ^ 24 /\ IZR z = v
    | CDouble d => is_finite d = true /\ B2R d = v
    end.
Proof.
  intros HD EV FV BV. unfold unsigned_constant.
  destruct (span_digits (fmt_g D X)) as [a r] eqn:ES.
  destruct (span_digits_digits _ _ _ ES) as (Fa & EB & NH).
  destruct (fmt_g_head D X) as (c0 & r0 & E0 & D0).
  assert (NT : num_end []) by (repeat split).
  destruct (fmt_g_lex false D X [] HD NT) as (m & e & LX & PM & VM). rewrite app_nil_r in LX.
  destruct a as [|c a].
  { exfalso. cbn in EB. rewrite <- EB, E0 in NH. cbn in NH. unfold isdig in D0. congruence. }
  destruct r as [|c1 r1].
  - rewrite app_nil_r in EB. rewrite EB in *.
    destruct (fmt_g_digits D X HD ltac:(rewrite EB; exact Fa)) as (L & c2 & r2 & E2 & O2). rewrite EB in L, E2.
    injection E2 as <- <-. rewrite O2. eexists. split; [reflexivity|]. cbn beta iota.
    assert (B := digits_val_lt _ Fa). assert (N := digits_val_nonneg _ Fa). split.
    + rewrite Z.abs_eq by assumption.
      assert (10 ^ Z.of_nat (List.length (c :: a)) <= 10 ^ 6) by (apply Z.pow_le_mono_r; lia).
      change (10 ^ 6) with 1000000 in *. lia.
    + rewrite <- (app_nil_r (c :: a)) in LX.
      rewrite (lex_dec_int false (c :: a) [] 0 []) in LX; auto; try discriminate.
      injection LX as <- <-. rewrite EV, <- VM. rewrite F2R10. cbn [bpow]. ring.
  - assert (NX : Ascii.eqb c1 "x" = false).
    { assert (FC := fmt_g_chars D X). rewrite EB in FC. apply Forall_app in FC as [_ FC]. apply Forall_inv in FC.
      cbn in NH. destruct FC as [FC|[->|[->|[->| ->]]]]; try reflexivity. unfold isdig in FC. congruence. }
    rewrite NX. unfold stod, stoX.
    assert (LN := lex_num_digits false (fmt_g D X) [] (fmt_g_head D X) (fmt_g_chars D X) NT).
    cbn [app] in LN. rewrite !app_nil_r in LN. rewrite LN, LX.
    destruct m as [|m|m]; try lia.
    destruct (value_of_dec prec_gt_0_64 prec_lt_emax_64 false m e) as (y & Y1 & Y2 & Y3 & Y4).
    { rewrite VM, <- EV. rewrite round_generic by (auto; typeclasses eauto).
      assert (P := bpow_gt_0 radix2 (2 - 1024)). rewrite Rabs_pos_eq by lra. exact BV. }
    rewrite Y1. cbn [bind]. eexists. split; [reflexivity|]. split; auto.
    rewrite Y4, VM, <- EV. now rewrite round_generic by (auto; typeclasses eauto).
Qed.

Lemma finite_bounds s m e b : let x := B754_finite s m e b : f32 in
  fmt64 (Rabs (B2R x)) /\ (bpow radix2 (2 - 1024) <= Rabs (B2R x) < bpow radix2 1024)%R.
Proof.
  intros x. split; [|split].
  - apply generic_format_abs. apply fmt32_64, fmt32_B2R.
  - apply Rle_trans with (bpow radix2 (-149)); [apply bpow_le; lia|].
    assert (F := abs_B2R_ge_emin 24 128 x eq_refl). exact F.
  - apply bpow_lt_64. apply abs_B2R_lt_emax.
Qed.

Lemma threshold_constant (x : f32) : six_digit_exact x ->
  exists c, constant_of (print_float x) = Some c /\ forall a, less a c = lt32 a x.
Proof.
  intros [F R]. destruct x as [s|s| |s m e b]; try discriminate.
  - exists (CInt 0). split; [destruct s; reflexivity|]. intros a. cbn [less]. now apply lt32_value.
  - destruct (finite_bounds s m e b) as [FB BB].
    set (x := B754_finite s m e b : f32) in *. unfold x at 1. cbn [print_float].
    assert (RV := ratio_of_value m e). destruct (ratio_of m e) as [n d]. destruct RV as (Pn & Pd & RV).
    destruct (dec6 n d) as [D X] eqn:E6. destruct (dec6_spec n d D X Pn Pd E6) as (A & BD & _).
    assert (PV : (0 < IZR n / IZR d)%R) by (apply Rdiv_lt_0_compat; apply IZR_lt; lia).
    assert (BR : B2R x = (if s then - (IZR n / IZR d) else IZR n / IZR d)%R).
    { unfold x. cbn [B2R]. rewrite RV. destruct s; cbn [cond_Zopp]; auto. unfold F2R. cbn [Fnum Fexp].
      change (- Zpos m) with (Z.opp (Zpos m)). rewrite opp_IZR. ring. }
    assert (AB : Rabs (B2R x) = (IZR n / IZR d)%R).
    { rewrite BR. destruct s; [rewrite Rabs_Ropp|]; apply Rabs_pos_eq; lra. }
    assert (EV : Rabs (B2R x) = F2R (Float radix10 D (X - 5))).
    { rewrite AB, <- A. rewrite BR in R. destruct s; [rewrite round6_opp in R|]; lra. }
    destruct (body_constant D X _ BD EV FB BB) as (c & EC & HC).
    destruct (fmt_g_head D X) as (c0 & r0 & E0 & D0).
    assert (NM : Ascii.eqb c0 "-" = false) by apply (isdig_props c0 D0).
    destruct s; cbn [app].
    + exists (negated c). split; [cbn [constant_of lit list_ascii_of_string app]; rewrite EC; reflexivity|].
      intros a. destruct c as [z|y]; cbn [negated less].
      * destruct HC as [Z1 Z2]. destruct (f32_of_Z_spec (- z)) as [Q1 Q2]; [lia|].
        apply lt32_value; auto. rewrite Q2, opp_IZR, Z2, AB. now rewrite BR.
      * destruct HC as [Y1 Y2]. apply lt64_value; [now rewrite is_finite_Bopp|reflexivity|].
        rewrite B2R_Bopp, Y2, AB. now rewrite BR.
    + exists c. split; [unfold constant_of; rewrite E0, NM, <- E0; exact EC|].
      intros a. destruct c as [z|y]; cbn [less].
      * destruct HC as [Z1 Z2]. destruct (f32_of_Z_spec z) as [Q1 Q2]; [lia|].
        apply lt32_value; auto. rewrite Q2, Z2, AB. now rewrite BR.
      * destruct HC as [Y1 Y2]. apply lt64_value; auto. rewrite Y2, AB. now rewrite BR.
Qed.

Lemma indent_spaces k : indent k = spaces k.
Proof. induction k; cbn; congruence. Qed.

(** The program a complete tree stands for. *)
Fixpoint program (t : tree) : stmt :=
  match t with
  | Null => Return 0
  | Node _ _ c f thr Null Null _ => Return c
  | Node _ _ c f thr l Null _ => If f (print_float thr) (program l)
  | Node _ _ c f thr l r _ => IfElse f (print_float thr) (program l) (program r)
  end.

Lemma gen_leaf g n c f thr cs level :
  generate_source level (Node g n c f thr Null Null cs) = line level ($"return " ++ print_Z c ++ $";").
Proof. reflexivity. Qed.
Lemma gen_inner g n c f thr l r cs level : l <> Null -> r <> Null ->
  generate_source level (Node g n c f thr l r cs) =
      line level ($"if (features[" ++ print_Z f ++ $"] < " ++ print_float thr ++ $") {")
      ++ (generate_source (S level) l ++ line level ($"}"))
      ++ line level ($"else {") ++ generate_source (S level) r ++ line level ($"}").
Proof. destruct l, r; try congruence. reflexivity. Qed.
Lemma program_inner g n c f thr l r cs : l <> Null -> r <> Null ->
  program (Node g n c f thr l r cs) = IfElse f (print_float thr) (program l) (program r).
Proof. destruct l, r; try congruence. reflexivity. Qed.

(** Induction on complete trees. *)
Lemma complete_ind (P : tree -> Prop) :
  (forall g n c thr cs, P (Node g n c (-1) thr Null Null cs)) ->
  (forall g n c f thr l r cs, l <> Null -> r <> Null -> f <> -1 -> complete l -> complete r -> P l -> P r ->
     P (Node g n c f thr l r cs)) ->
  forall t, complete t -> P t.
Proof.
  intros HL HI. induction t as [|g n c f thr l IHl r IHr cs]; intros C; [destruct C|].
  cbn [complete] in C. destruct l as [|g1 n1 c1 f1 t1 l1 r1 k1] eqn:El.
  - destruct r as [|g2 n2 c2 f2 t2 l2 r2 k2] eqn:Er; [subst; apply HL|]. destruct C as (_ & [] & _).
  - destruct C as (C1 & C2 & C3). rewrite <- El in *. destruct r; [destruct C3|].
    apply HI; auto; congruence.
Qed.

Lemma complete_code t : complete t -> forall level, generate_source level t = code level (program t).
Proof.
  revert t. apply (complete_ind (fun t => forall level, generate_source level t = code level (program t))).
  - intros. rewrite gen_leaf. cbn [program code]. unfold line. rewrite indent_spaces, <- !app_assoc. reflexivity.
  - intros g n c f thr l r cs Nl Nr Nf Cl Cr IHl IHr level.
    rewrite gen_inner, program_inner by assumption. cbn [code]. unfold line.
    rewrite IHl, IHr, indent_spaces, <- !app_assoc. reflexivity.
Qed.

Lemma split_thresholds_inner g n c f thr l r cs : l <> Null ->
  split_thresholds (Node g n c f thr l r cs) = thr :: split_thresholds l ++ split_thresholds r.
Proof. destruct l; try congruence. reflexivity. Qed.

Lemma generated_code_agrees t : complete t -> Forall six_digit_exact (split_thresholds t) ->
  exists s, (forall level, generate_source level t = code level s) /\ compiles s /\
    forall x, call s x = evaluate t x.
Proof.
  intros C F. exists (program t). split; [now apply complete_code|]. revert t C F.
  apply (complete_ind (fun t => Forall six_digit_exact (split_thresholds t) ->
    compiles (program t) /\ forall x, call (program t) x = evaluate t x)).
  - intros. split; [exact I|]. reflexivity.
  - intros g n c f thr l r cs Nl Nr Nf Cl Cr IHl IHr F. rewrite split_thresholds_inner in F by assumption.
    inversion F as [|? ? F1 F2]; subst. apply Forall_app in F2 as [Fl Fr].
    destruct (IHl Fl) as [Kl El]. destruct (IHr Fr) as [Kr Er].
    destruct (threshold_constant thr F1) as (k & EK & LK).
    rewrite program_inner by assumption. split; [cbn [compiles]; rewrite EK; repeat split; auto; discriminate|].
    intros x. unfold call. cbn [exec evaluate]. destruct (Z.eqb_spec f (-1)); [congruence|].
    destruct (vec_get x f) as [v| | | |]; cbn [bind]; auto. rewrite EK, LK.
    destruct (lt32 v thr).
    + destruct l; [congruence|]. apply El.
    + destruct r; [congruence|]. apply Er.
Qed.

Lemma partition_complete classes l t : partition_tree classes l t -> complete t.
Proof.
  induction 1 as [l g n c thr counts E CO|l ll lr g n c f thr lt rt counts E CO Pm Nl Nr Sp Pl IHl Pr IHr];
    cbn [complete]; auto.
  destruct lt as [|]; [inversion Pl|]. split; [lia|]. auto.
Qed.

(** * Disagreement *)
Definition bare (f : Z) (thr : f32) (l r : tree) : tree := Node zero32 0 0 f thr l r [].
Definition answer (c : Z) : tree := Node zero32 0 c (-1) zero32 Null Null [].

(** The float nearest to 0.7, which is below 0.7. *)
Definition seven_tenths : f32 := f32_of_f64 (div64 (f64_of_Z 7) (f64_of_Z 10)).

Definition sf_eqb (x y : spec_float) : bool :=
  match x, y with
  | S754_finite s m e, S754_finite s' m' e' => Bool.eqb s s' && Pos.eqb m m' && Z.eqb e e'
  | _, _ => false
  end.
Lemma stof_is (o : outcome (f32 * bytes)) x :
  match o with Ok (y, []) => sf_eqb (B2SF y) (B2SF x) | _ => false end = true -> o = Ok (x, []).
Proof.
  destruct o as [[y [|]]| | | |]; try discriminate. intros H. do 2 f_equal. apply B2SF_inj.
  destruct (B2SF y) as [| | |s m e], (B2SF x) as [| | |s' m' e']; try discriminate H. cbn in H.
  apply andb_prop in H as [H H3]. apply andb_prop in H as [H1 H2].
  apply eqb_prop in H1. apply Pos.eqb_eq in H2. apply Z.eqb_eq in H3. congruence.
Qed.

Lemma not_none {A} (o : option A) : match o with None => false | _ => true end = true -> o <> None.
Proof. now destruct o. Qed.

Lemma generated_code_differs : exists t s x, complete t /\
  Forall (fun thr : f32 => stof (print_float thr) = Ok (thr, [])) (split_thresholds t) /\
  (forall level, generate_source level t = code level s) /\ compiles s /\
  evaluate t x = Ok 1 /\ call s x = Ok 0.
Proof.
  set (t := bare 0 seven_tenths (answer 0) (answer 1)).
  exists t, (program t), [seven_tenths].
  assert (C : complete t) by (split; [discriminate|]; split; reflexivity).
  split; [exact C|]. split.
  - apply Forall_cons; [|apply Forall_nil]. apply stof_is. vm_compute. reflexivity.
  - split; [now apply complete_code|]. split.
    + split; [|split; exact I]. 
      apply not_none.
      vm_compute. reflexivity.
    + split; apply ok_is; vm_compute; reflexivity.
Qed.

(** A node whose right child is missing: the function may end without a value. *)
Lemma generated_code_falls_off g n c f thr l cs x v : l <> Null -> complete l -> six_digit_exact thr ->
  f <> -1 -> vec_get x f = Ok v -> lt32 v thr = false ->
  evaluate (Node g n c f thr l Null cs) x = Ok c /\
  exists s, (forall level, generate_source level (Node g n c f thr l Null cs) = code level s) /\ call s x = UB.
Proof.
  intros Nl Cl St Nf Ev Lv. split.
  - cbn [evaluate]. destruct (Z.eqb_spec f (-1)); [congruence|]. rewrite Ev. cbn [bind]. now rewrite Lv.
  - exists (If f (print_float thr) (program l)). split.
    + intros level. cbn [code]. rewrite <- complete_code by assumption. rewrite <- indent_spaces.
      destruct l; [congruence|]. cbn [generate_source]. unfold line. rewrite <- !app_assoc. cbn [app]. rewrite ?app_nil_r. reflexivity.
    + unfold call. cbn [exec]. rewrite Ev. cbn [bind]. destruct (threshold_constant thr St) as (k & EK & LK).
      now rewrite EK, LK, Lv.
Qed.

(** Braces balance in programs, but not in the text for a node whose left child is missing. *)
Lemma braces_app a b : braces (a ++ b) = braces a + braces b.
Proof. unfold braces. rewrite !count_occ_app. lia. Qed.
Lemma braces_spaces k : braces (spaces k) = 0.
Proof. induction k; [reflexivity|]. cbn [spaces]. now rewrite braces_app, IHk. Qed.
Lemma braces_none s : Forall (fun c => c <> "{"%char /\ c <> "}"%char) s -> braces s = 0.
Proof.
  intros F. unfold braces. rewrite !(proj1 (count_occ_not_In _ _ _)); [reflexivity| |];
    intros H; rewrite Forall_forall in F; apply F in H; tauto.
Qed.
Lemma numchar_nobrace l : Forall numchar l -> Forall (fun c => c <> "{"%char /\ c <> "}"%char) l.
Proof.
  apply Forall_impl. intros c [H|[->|[->|[->| ->]]]]; try (split; discriminate).
  split; intros ->; discriminate H.
Qed.
Lemma braces_print_Z z : braces (print_Z z) = 0.
Proof.
  unfold print_Z. apply braces_none. destruct (z <? 0); [constructor; [split; discriminate|]|];
    apply numchar_nobrace, digits_chars, print_nonneg_digits.
Qed.
Lemma braces_print_float (x : f32) : braces (print_float x) = 0.
Proof.
  destruct x as [s|s| |s m e b]; try (destruct s; reflexivity); try reflexivity.
  cbn [print_float]. destruct (ratio_of m e) as [n d]. destruct (dec6 n d) as [D X]. rewrite braces_app.
  rewrite (braces_none (fmt_g D X)) by apply numchar_nobrace, fmt_g_chars. destruct s; reflexivity.
Qed.

Lemma braces_indent k : braces (indent k) = 0.
Proof. rewrite indent_spaces. apply braces_spaces. Qed.
Lemma braces_complete t : complete t -> forall level, braces (generate_source level t) = 0.
Proof.
  revert t. apply (complete_ind (fun t => forall level, braces (generate_source level t) = 0)).
  - intros. rewrite gen_leaf. unfold line. rewrite !braces_app, braces_indent, braces_print_Z. reflexivity.
  - intros g n c f thr l r cs Nl Nr Nf Cl Cr IHl IHr level. rewrite gen_inner by assumption. unfold line.
    rewrite !braces_app, !braces_indent, braces_print_Z, braces_print_float, IHl, IHr. reflexivity.
Qed.

(** Concrete syntax balances when the constants do. *)
Lemma braces_code s : plain_constants s -> forall k, braces (code k s) = 0.
Proof.
  induction s as [c|f thr b IH|f thr b IHb o IHo]; intros P k; cbn [code plain_constants] in *;
    rewrite !braces_app, !braces_spaces, braces_print_Z.
  - reflexivity.
  - destruct P as [P1 P2]. rewrite P1, IH by assumption. reflexivity.
  - destruct P as (P1 & P2 & P3). rewrite P1, IHb, IHo by assumption. reflexivity.
Qed.

Lemma right_only_unbalanced g n c f thr r cs level : r <> Null -> complete r ->
  braces (generate_source level (Node g n c f thr Null r cs)) = 1.
Proof.
  intros Nr Cr.
  assert (E : generate_source level (Node g n c f thr Null r cs) =
    line level ($"if (features[" ++ print_Z f ++ $"] < " ++ print_float thr ++ $") {")
    ++ line level ($"else {") ++ generate_source (S level) r ++ line level ($"}")) by (destruct r; [congruence|reflexivity]).
  rewrite E. unfold line. rewrite !braces_app, !braces_indent, braces_print_Z, braces_print_float.
  rewrite braces_complete by assumption. reflexivity.
Qed.

Lemma right_only_no_program g n c f thr r cs level : r <> Null -> complete r ->
  forall s k, plain_constants s -> generate_source level (Node g n c f thr Null r cs) <> code k s.
Proof.
  intros Nr Cr s k P E. assert (A := right_only_unbalanced g n c f thr r cs level Nr Cr).
  rewrite E, braces_code in A by assumption. discriminate.
Qed.

Lemma exact_of_Z z : Z.abs z < 1000000 -> six_digit_exact (f32_of_Z z).
Proof.
  intros B. destruct (f32_of_Z_spec z) as [F V]; [lia|]. split; auto. rewrite V.
  apply round_generic; [apply valid_rnd_N|]. 
  apply (generic_format_FLX radix10 6). exists (Float radix10 z 0).
  - unfold F2R. cbn [Fnum Fexp bpow]. ring.
  - cbn [Fnum]. change (radix10 ^ 6) with 1000000. exact B.
Qed.
