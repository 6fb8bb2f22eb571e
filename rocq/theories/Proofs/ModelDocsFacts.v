(** The models of documented strings. *)
From Coq Require Import ZArith Bool Ascii String Lia Reals Lra List.
From Coq Require Import ZifyBool.
From Flocq Require Import Core BinarySingleNaN.
From Verif Require Import Model.Base Model.Float Model.Decimal Model.ModelStringM Model.TreeM Model.ForestM Model.NetM Model.PolicyNetM Model.PolicyModelsM Model.ConfigM
  Model.RuntimeM Spec.ModelStringSpec Spec.RuntimeSpec Spec.DecimalSpec Spec.ModelDocs Spec.SafeClient Proofs.TreeFacts Proofs.DecimalInt Proofs.DecimalFloat Proofs.DecimalRead Proofs.FloatConv Proofs.EmaBounds
  Proofs.ModelStringFacts Proofs.SafeModels Proofs.SafeSteps Proofs.RuntimeFacts Proofs.KokkosDoubles.
Import ListNotations.
Open Scope Z_scope.

Lemma numeral_digits s : numeral s -> Forall isdig s /\ s <> [] /\ digits_val s = numeral_value s /\ 0 <= numeral_value s.
Proof.
  intros [N F].
  assert (D : Forall isdig s) by (revert F; apply Forall_impl; intros c H; unfold isdig, is_digit; lia).
  split; [exact D|]. split; [exact N|]. split.
  - unfold digits_val, numeral_value. clear. generalize 0. induction s as [|c s IH]; intros a; [reflexivity|].
    cbn [fold_left]. rewrite IH. f_equal. unfold digit_val. lia.
  - unfold numeral_value. clear N D. assert (G : forall a, 0 <= a -> 0 <= fold_left (fun v c => 10 * v + (Z.of_N (N_of_ascii c) - 48)) s a); [|apply G; lia].
    induction F as [|c s H F IH]; intros a A; [exact A|]. cbn [fold_left]. apply IH. lia.
Qed.

Lemma stoi_numeral s : numeral s -> numeral_value s < 2 ^ 31 -> stoi s = Ok (numeral_value s, []).
Proof.
  intros N B. destruct (numeral_digits s N) as (D & NE & V & P). unfold stoi. rewrite <- (app_nil_r s) at 1. rewrite take_sign_digits by assumption.
  rewrite span_digits_app by (auto; exact I). destruct s as [|c s]; [congruence|]. rewrite V.
  destruct ((-2147483648 <=? numeral_value (c :: s)) && (numeral_value (c :: s) <=? 2147483647)) eqn:E; [reflexivity|lia].
Qed.

Lemma stoul_numeral s : numeral s -> numeral_value s < 2 ^ 64 -> stoul s = Ok (numeral_value s, []).
Proof.
  intros N B. destruct (numeral_digits s N) as (D & NE & V & P). unfold stoul. rewrite <- (app_nil_r s) at 1. rewrite take_sign_digits by assumption.
  rewrite span_digits_app by (auto; exact I). destruct s as [|c s]; [congruence|]. rewrite V.
  destruct (Z.ltb_spec (numeral_value (c :: s)) (2 ^ 64)); [reflexivity|lia].
Qed.

Lemma stoul_negative s : numeral s -> numeral_value s < 2 ^ 64 -> stoul ($"-" ++ s) = Ok ((- numeral_value s) mod 2 ^ 64, []).
Proof.
  intros N B. destruct (numeral_digits s N) as (D & NE & V & P). unfold stoul.
  change (take_sign (drop_space ($"-" ++ s))) with (true, s). cbv iota beta. rewrite <- (app_nil_r s) at 1.
  rewrite span_digits_app by (auto; exact I). destruct s as [|c s]; [congruence|]. rewrite V.
  destruct (Z.ltb_spec (numeral_value (c :: s)) (2 ^ 64)); [reflexivity|lia].
Qed.

(** ** Doubles *)

Lemma range_rounded x : in_range x -> x <> 0%R -> (bpow radix2 (-1022) <= round radix2 (FLT_exp (-1074) 53) ZnearestE x < bpow radix2 1024)%R.
Proof.
  intros [->|[A B]] NZ; [lra|]. split.
  - rewrite <- (round_generic radix2 (FLT_exp (-1074) 53) ZnearestE (bpow radix2 (-1022))).
    + apply round_le; auto with typeclass_instances; try exact (FLT_exp_valid (-1074) 53).
    + apply generic_format_bpow. unfold FLT_exp. lia.
  - apply Rle_lt_trans with (bpow radix2 1023); [|apply bpow_lt; lia].
    rewrite <- (round_generic radix2 (FLT_exp (-1074) 53) ZnearestE (bpow radix2 1023)).
    + apply round_le; auto with typeclass_instances; try exact (FLT_exp_valid (-1074) 53).
    + apply generic_format_bpow. unfold FLT_exp. lia.
Qed.

Lemma dec_value m e x : 0 <= m -> F2R (Float radix10 m e) = x -> in_range x ->
  exists y, value_of 53 1024 _ _ (NumDec false m e) = Ok y /\ nearest x y.
Proof.
  intros M E R. destruct m as [|m|m]; try lia.
  - exists (B754_zero false). split; [reflexivity|]. split; [reflexivity|]. split; [reflexivity|]. rewrite <- E, F2R_0, round_0; auto with typeclass_instances.
  - assert (NZ : x <> 0%R).
    { rewrite <- E. apply Rgt_not_eq. apply F2R_gt_0. reflexivity. }
    assert (B := range_rounded x R NZ). assert (P := bpow_gt_0 radix2 (-1022)).
    destruct (@value_of_dec 53 1024 _ _ false m e) as (y & Y1 & Y2 & Y3 & Y4).
    + rewrite E. change (2 - 1024) with (-1022). change (SpecFloat.fexp 53 1024) with (FLT_exp (-1074) 53). rewrite Rabs_pos_eq by lra. exact B.
    + exists y. split; [exact Y1|]. split; [exact Y2|]. split; [exact Y3|]. rewrite Y4, E. reflexivity.
Qed.

Lemma stod_decimal s x : decimal_text s x -> in_range x -> exists y, stod s = Ok (y, []) /\ nearest x y.
Proof.
  intros D R. destruct D as [a A|a b A B].
  - destruct (numeral_digits a A) as (DA & NA & VA & PA).
    destruct (dec_value (numeral_value a) 0 (IZR (numeral_value a))) as (y & Y & N); auto.
    { unfold F2R. cbn [Fnum Fexp bpow]. ring. }
    exists y. split; [|exact N]. unfold stod, stoX.
    assert (L : lex_num a = Some (NumDec false (numeral_value a) 0, [])).
    { rewrite <- (app_nil_r a) at 1. etransitivity; [apply (lex_num_digits false a [])|].
      - destruct a as [|c r]; [congruence|]. exists c, r. inversion DA. auto.
      - apply digits_chars. exact DA.
      - exact I.
      - rewrite <- VA. apply lex_dec_int; auto; try exact I. discriminate. }
    rewrite L, Y. reflexivity.
  - destruct (numeral_digits a A) as (DA & NA & VA & PA). destruct (numeral_digits b B) as (DB & NB & VB & PB).
    assert (C : numeral (a ++ b)). { split; [destruct a; [congruence|discriminate]|apply Forall_app; split; [apply A|apply B]]. }
    destruct (numeral_digits _ C) as (DC & NC & VC & PC).
    destruct (dec_value (numeral_value (a ++ b)) (- Z.of_nat (List.length b)) (IZR (numeral_value (a ++ b)) / IZR (10 ^ Z.of_nat (List.length b)))) as (y & Y & N); auto.
    { rewrite F2R10, bpow10_neg by lia. reflexivity. }
    exists y. split; [|exact N]. unfold stod, stoX.
    assert (L : lex_num (a ++ $"." ++ b) = Some (NumDec false (numeral_value (a ++ b)) (- Z.of_nat (List.length b)), [])).
    { rewrite <- (app_nil_r (a ++ $"." ++ b)) at 1. etransitivity; [apply (lex_num_digits false (a ++ $"." ++ b) [])|].
      - destruct a as [|c r]; [congruence|]. exists c, (r ++ $"." ++ b). inversion DA. auto.
      - apply Forall_app. split; [apply digits_chars; exact DA|]. constructor; [right; left; reflexivity|apply digits_chars; exact DB].
      - exact I.
      - rewrite <- app_assoc. cbn [lit list_ascii_of_string app].
        etransitivity; [apply (lex_dec_frac false a b [] 0 []); try assumption; try exact I; reflexivity|]. rewrite VC. do 3 f_equal. }
    rewrite L, Y. reflexivity.
Qed.

Lemma nearest_half : nearest (5 / 10) half64.
Proof.
  destruct half_value as [V F]. split; [exact F|]. split; [vm_compute; reflexivity|]. rewrite V.
  replace (5 / 10)%R with (bpow radix2 (-1)) by (cbn; lra). rewrite (round_generic radix2 (FLT_exp (-1074) 53) ZnearestE); [reflexivity|].
  apply generic_format_bpow. unfold FLT_exp. lia.
Qed.
Lemma nearest_zero : nearest 0 zero64.
Proof. split; [reflexivity|]. split; [reflexivity|]. rewrite round_0; auto with typeclass_instances. Qed.
Lemma nearest_ratio a b : 0 < a < 2 ^ 53 -> 0 < b < 2 ^ 53 -> a <= b -> Bsign (div64 (f64_of_Z a) (f64_of_Z b)) = false ->
  nearest (IZR a / IZR b) (div64 (f64_of_Z a) (f64_of_Z b)).
Proof.
  intros A B L S. assert (Z53 : forall z, 0 < z < 2 ^ 53 -> is_finite (f64_of_Z z) = true /\ B2R (f64_of_Z z) = IZR z).
  { intros z H. apply f64_of_Z_spec. lia. }
  destruct (Z53 a A) as [FA VA]. destruct (Z53 b B) as [FB VB].
  assert (Pa : (0 < IZR a)%R) by (apply IZR_lt; lia). assert (Pb : (0 < IZR b)%R) by (apply IZR_lt; lia).
  destruct (div64_spec (f64_of_Z a) (f64_of_Z b)) as [F V]; [exact FA|rewrite VB; lra| |].
  - rewrite VA, VB. apply Rle_lt_trans with 1%R; [|change 1024 with (1 + 1023); rewrite bpow_plus; assert (X := bpow_ge_0 radix2 1023); change 1%R with (bpow radix2 0) at 1;
      rewrite <- bpow_plus; apply bpow_lt; lia].
    assert (0 <= IZR a / IZR b <= 1)%R.
    { split; [apply Rlt_le, Rdiv_lt_0_compat; lra|]. apply Rmult_le_reg_r with (IZR b); [lra|]. unfold Rdiv. rewrite Rmult_assoc, Rinv_l, Rmult_1_r, Rmult_1_l by lra. apply IZR_le. exact L. }
    apply abs_round_le_generic; auto with typeclass_instances; [|rewrite Rabs_pos_eq; lra].
    change 1%R with (bpow radix2 0). apply generic_format_bpow. unfold SpecFloat.fexp, SpecFloat.emin. lia.
  - split; [exact F|]. split; [exact S|]. rewrite V, VA, VB. reflexivity.
Qed.

(** ** Parameters *)

Section Parameters.
Variable items : list item.
Variable ps : params.
Hypothesis PF : forall k o, first_value k items o <-> param_find k ps = o.

Lemma int_param key default : int_given key items -> exists z, param_int key default ps = Ok z /\ int_setting key default items z /\ (default = 0 -> 0 <= z).
Proof.
  intros (z & [[F _]|(s & F & N & B & _)]); unfold param_int; rewrite (proj1 (PF _ _) F).
  - exists default. split; [reflexivity|]. split; [left; auto|lia].
  - rewrite stoi_numeral by assumption. cbn [bind]. exists (numeral_value s). split; [reflexivity|]. split; [right; eauto 6|].
    intros _. apply (numeral_digits s N).
Qed.
Lemma count_param key default : count_given key items -> exists z, param_unsigned key default ps = Ok z /\ count_setting key default items z.
Proof.
  intros (z & [[F _]|[(s & F & N & B & _)|(s & F & N & B & _)]]); unfold param_unsigned; rewrite (proj1 (PF _ _) F).
  - exists default. split; [reflexivity|]. left. auto.
  - rewrite stoul_numeral by assumption. cbn [bind]. eexists. split; [reflexivity|]. right. left. eauto 6.
  - rewrite stoul_negative by assumption. cbn [bind]. eexists. split; [reflexivity|]. right. right. exists s. split; [exact F|]. split; [exact N|]. split; [exact B|].
    symmetry. rewrite <- (Znumtheory.Zmod_div_mod (2 ^ 32) (2 ^ 64)); try reflexivity. exists (2 ^ 32). reflexivity.
Qed.
Lemma real_param key default d : real_given key items -> nearest d default -> exists y, param_double key default ps = Ok y /\ real_setting key d items y.
Proof.
  intros (z & [[F _]|(s & x & F & D & R & _)]) ND; unfold param_double; rewrite (proj1 (PF _ _) F).
  - exists default. split; [reflexivity|]. left. auto.
  - destruct (stod_decimal s x D R) as (y & -> & N). cbn [bind]. exists y. split; [reflexivity|]. right. eauto 8.
Qed.
Lemma explorer_param P init nf np : explorer_given items -> 1 <= np -> exists e, explorer P init 2 ps nf np = Ok e /\ explorer_setting np items e.
Proof.
  intros [F|[F|F]] H; unfold explorer; rewrite (proj1 (PF _ _) F).
  - eexists. split; [reflexivity|]. left. auto.
  - eexists. split; [reflexivity|]. left. auto.
  - rewrite random_branch. unfold new_random. destruct (Z.ltb_spec np 1); [lia|]. eexists. split; [reflexivity|]. right. auto.
Qed.

Lemma create_promised P init name nf np : usable_string name items -> 0 <= nf -> 1 <= np ->
  exists m, create_model P name nf np ps init = Ok m /\ promised nf np items name m.
Proof.
  intros U Hf Hp. destruct U as [UN _ _ _ _ UP UD UT UE UR]. unfold create_model.
  repeat destruct UN as [UN|UN]; try contradiction; subst name.
  - rewrite static_branch. unfold create_static. destruct (int_param ($"policy") 0 UP) as (z & -> & S & Z0). specialize (Z0 eq_refl). cbn [bind].
    destruct (Z.ltb_spec z 0); [lia|]. eexists. split; [reflexivity|].
    replace (if np <=? z then 0 else z) with (if z <? np then z else 0) by (destruct (Z.leb_spec np z), (Z.ltb_spec z np); lia). apply promised_static. exact S.
  - rewrite robin_branch. eexists. split; [reflexivity|]. apply promised_robin.
  - rewrite random_branch. unfold new_random. destruct (Z.ltb_spec np 1); [lia|]. eexists. split; [reflexivity|]. apply promised_random.
  - rewrite tree_branch. destruct (count_param ($"max_depth") 2 UD) as (d & -> & D). cbn [bind].
    destruct (explorer_param P init nf np UE Hp) as (e & -> & E). cbn [bind]. eexists. split; [reflexivity|]. apply promised_tree; auto.
  - rewrite forest_branch. destruct (count_param ($"num_trees") 10 UT) as (t & -> & T). cbn [bind].
    destruct (count_param ($"max_depth") 2 UD) as (d & -> & D). cbn [bind].
    destruct (explorer_param P init nf np UE Hp) as (e & -> & E). cbn [bind]. eexists. split; [reflexivity|]. apply promised_forest; auto.
  - rewrite net_branch. unfold create_net.
    destruct (real_param ($"lr") (div64 one64 (f64_of_Z 100)) (1 / 100)) as (x1 & -> & X1); [apply UR; cbn; tauto|apply (nearest_ratio 1 100); try lia; vm_compute; reflexivity|]. cbn [bind].
    destruct (real_param ($"beta") half64 (5 / 10)) as (x2 & -> & X2); [apply UR; cbn; tauto|apply nearest_half|]. cbn [bind].
    destruct (real_param ($"beta1") half64 (5 / 10)) as (x3 & -> & X3); [apply UR; cbn; tauto|apply nearest_half|]. cbn [bind].
    destruct (real_param ($"beta2") (div64 (f64_of_Z 9) (f64_of_Z 10)) (9 / 10)) as (x4 & -> & X4); [apply UR; cbn; tauto|apply (nearest_ratio 9 10); try lia; vm_compute; reflexivity|]. cbn [bind].
    destruct (real_param ($"threshold") zero64 0) as (x5 & -> & X5); [apply UR; cbn; tauto|apply nearest_zero|]. cbn [bind].
    destruct (Z.ltb_spec nf 0); [lia|]. destruct (Z.ltb_spec np 0); [lia|]. cbn [orb].
    eexists. split; [reflexivity|]. apply promised_net; auto.
Qed.
End Parameters.

(** ** Regions *)

Lemma region_with_model P w nf nm np mt info init mn items ps m : model_string (w_config w) info = model_text mn items ->
  parse_policy_model (model_text mn items) = Ok (mn, ps) -> In mn model_names ->
  param_find ($"load") ps = None -> param_find ($"load-dataset") ps = None -> cf_persistent (w_config w) = 0 ->
  create_model P mn nf np ps init = Ok m ->
  exists w' R, step P w (OpRegion nf nm np mt info [] init) = Ok (w', GotRegion (List.length (w_regions w))) /\
    nth_error (w_regions w') (List.length (w_regions w)) = Some R /\ r_model R = m /\ r_num_policies R = np /\ r_num_features R = nf /\ r_dataset R = [].
Proof.
  intros EI EP IN L1 L2 PE EM. destruct (name_facts mn IN) as (FN & NS & NO & ND).
  cbn [step]. unfold new_region. change (match info with [] => cf_policy_model (w_config w) | _ => info end) with (model_string (w_config w) info).
  rewrite EI, EP. cbn [bind]. unfold resolve_static_region. rewrite NS. cbn [bind]. rewrite EM. cbn [bind]. unfold load_models. rewrite L1. cbn [bind].
  unfold load_persistent. cbn [w_config]. rewrite PE. change (truthy 0) with false. cbn [bind]. unfold load_and_train. rewrite L2. cbn [bind].
  unfold load_optimal. rewrite NO. cbn [bind]. unfold load_dataset_map. rewrite ND. cbn [bind].
  set (R := mkRegion true (region_name nm) nf np mt (model_text mn items) mn m [] 0 None (mkContext [] 0 0 (Clock None None)) [] [] []).
  set (w1 := mkWorld (w_config w) (w_rank w) (w_regions w ++ [R]) (w_registry w) (w_executions w) (w_files w)).
  assert (N : nth_error (w_regions w1) (List.length (w_regions w)) = Some R).
  { cbn. rewrite nth_error_app2 by lia. rewrite Nat.sub_diag. reflexivity. }
  destruct (truthy (cf_trace_csv (w_config w1))).
  - rewrite (proj2 (get_region_ok w1 _ R) (conj N eq_refl)). cbn [bind]. do 2 eexists. split; [reflexivity|]. split; [cbn; exact (nth_set_nth_eq _ _ _ _ N)|]. repeat split.
  - cbn [bind]. do 2 eexists. split; [reflexivity|]. split; [exact N|]. repeat split.
Qed.

Lemma promised_region P w nf nm np mt info init name items : usable_string name items -> model_string (w_config w) info = model_text name items ->
  0 <= nf -> 1 <= np -> cf_persistent (w_config w) = 0 ->
  exists w' R, step P w (OpRegion nf nm np mt info [] init) = Ok (w', GotRegion (List.length (w_regions w))) /\
    nth_error (w_regions w') (List.length (w_regions w)) = Some R /\ promised nf np items name (r_model R) /\
    r_num_policies R = np /\ r_num_features R = nf /\ r_dataset R = [].
Proof.
  intros U EI Hf Hp PE.
  assert (IN : In name model_names) by (destruct (us_name _ _ U) as [<-|[<-|[<-|[<-|[<-|[<-|[]]]]]]]; cbn; tauto).
  destruct (name_facts name IN) as (FN & _).
  destruct (parse_gives_items name items FN (us_items _ _ U) (us_documented _ _ U)) as (ps & EP & FV).
  destruct (create_promised items ps FV P init name nf np U Hf Hp) as (m & EM & PM).
  destruct (region_with_model P w nf nm np mt info init name items ps m EI EP IN) as (w' & R & S & N & M & X); auto.
  - apply FV. exact (us_load _ _ U).
  - apply FV. exact (us_load_dataset _ _ U).
  - exists w', R. split; [exact S|]. split; [exact N|]. split; [rewrite M; exact PM|exact X].
Qed.

(** ** Texts that are no numbers *)

Lemma ascii_code c n : N_of_ascii c = n -> c = ascii_of_N n.
Proof. intros <-. symmetry. apply ascii_N_embedding. Qed.

Lemma no_number_head s : no_number s -> s = [] \/
  exists c r, s = c :: r /\ isspace c = false /\ is_digit c = false /\ Ascii.eqb c "-" = false /\ Ascii.eqb c "+" = false /\
    Ascii.eqb c "." = false /\ Ascii.eqb (lower c) "i" = false /\ Ascii.eqb (lower c) "n" = false.
Proof.
  destruct s as [|c r]; [auto|]. intros [L N]. right. exists c, r. split; [reflexivity|].
  assert (E : forall x, Ascii.eqb c x = true -> c = x) by (intros x; apply Ascii.eqb_eq).
  split; [unfold isspace; lia|]. split.
  { destruct (is_digit c) eqn:D; [|reflexivity]. exfalso. apply N. unfold is_digit in D.
    assert (H : (N_of_ascii c = 48 \/ N_of_ascii c = 49 \/ N_of_ascii c = 50 \/ N_of_ascii c = 51 \/ N_of_ascii c = 52 \/
                 N_of_ascii c = 53 \/ N_of_ascii c = 54 \/ N_of_ascii c = 55 \/ N_of_ascii c = 56 \/ N_of_ascii c = 57)%N) by lia.
    repeat destruct H as [H|H]; apply ascii_code in H; rewrite H; cbn; tauto. }
  split; [destruct (Ascii.eqb c "-") eqn:X; [exfalso; apply N; rewrite (E _ X); cbn; tauto|reflexivity]|].
  split; [destruct (Ascii.eqb c "+") eqn:X; [exfalso; apply N; rewrite (E _ X); cbn; tauto|reflexivity]|].
  split; [destruct (Ascii.eqb c ".") eqn:X; [exfalso; apply N; rewrite (E _ X); cbn; tauto|reflexivity]|].
  assert (LO : forall x, Ascii.eqb (lower c) x = true -> c = x \/ c = ascii_of_N (N_of_ascii x - 32)%N).
  { intros x X. apply Ascii.eqb_eq in X. unfold lower in X. destruct ((65 <=? N_of_ascii c) && (N_of_ascii c <=? 90))%N eqn:R; [|auto].
    right. rewrite <- X, N_ascii_embedding by lia. replace (N_of_ascii c + 32 - 32)%N with (N_of_ascii c) by lia. symmetry. apply ascii_N_embedding. }
  split; [destruct (Ascii.eqb (lower c) "i") eqn:X|destruct (Ascii.eqb (lower c) "n") eqn:X]; try reflexivity; exfalso; apply N;
    destruct (LO _ X) as [->| ->]; cbn; tauto.
Qed.

Lemma stoi_none s : no_number s -> stoi s = Throw.
Proof.
  intros H. destruct (no_number_head s H) as [->|(c & r & -> & A & B & C & D & _)]; [reflexivity|].
  unfold stoi. cbn [drop_space]. rewrite A. cbn [take_sign]. rewrite C, D. cbn [span_digits]. rewrite B. reflexivity.
Qed.
Lemma stoul_none s : no_number s -> stoul s = Throw.
Proof.
  intros H. destruct (no_number_head s H) as [->|(c & r & -> & A & B & C & D & _)]; [reflexivity|].
  unfold stoul. cbn [drop_space]. rewrite A. cbn [take_sign]. rewrite C, D. cbn [span_digits]. rewrite B. reflexivity.
Qed.
Lemma stod_none s : no_number s -> stod s = Throw.
Proof.
  intros H. destruct (no_number_head s H) as [->|(c & r & -> & A & B & C & D & E & F & G)]; [reflexivity|].
  unfold stod, stoX.
  assert (X : forall a b, Ascii.eqb (lower c) a = false -> Ascii.eqb a (lower c) = b -> b = false) by (intros a b Y <-; rewrite Ascii.eqb_sym; exact Y).
  assert (L0 : Ascii.eqb "0" (lower c) = false).
  { destruct (Ascii.eqb "0" (lower c)) eqn:Y; [|reflexivity]. exfalso. apply Ascii.eqb_eq in Y. unfold lower in Y.
    destruct ((65 <=? N_of_ascii c) && (N_of_ascii c <=? 90))%N eqn:R.
    - assert (Q := f_equal N_of_ascii Y). rewrite N_ascii_embedding in Q by lia. change (N_of_ascii "0") with 48%N in Q. lia.
    - subst c. discriminate B. }
  assert (LN : lex_num (c :: r) = None).
  { unfold lex_num. cbn [drop_space]. rewrite A. cbn [take_sign]. rewrite C, D. cbv iota beta.
    cbn [lit list_ascii_of_string drop_prefix_ci].
    rewrite (Ascii.eqb_sym "i"), F, (Ascii.eqb_sym "n"), G, L0. unfold lex_dec. cbn [span_digits]. rewrite B. rewrite E. reflexivity. }
  rewrite LN. reflexivity.
Qed.

Lemma stoi_throws s : (exists z, stoi s = Ok z) \/ stoi s = Throw.
Proof. unfold stoi. destruct (take_sign (drop_space s)). destruct (span_digits b0) as [[|d l] rest]; [auto|]. destruct (_ && _); eauto. Qed.
Lemma stoul_throws s : (exists z, stoul s = Ok z) \/ stoul s = Throw.
Proof. unfold stoul. destruct (take_sign (drop_space s)). destruct (span_digits b0) as [[|d l] rest]; [auto|]. destruct (_ <? _); eauto. Qed.
Lemma stod_throws s : (exists z, stod s = Ok z) \/ stod s = Throw.
Proof.
  unfold stod, stoX. destruct (lex_num s) as [[t rest]|]; [|auto].
  assert (H : (exists v, value_of 53 1024 _ _ t = Ok v) \/ value_of 53 1024 _ _ t = Throw).
  { assert (G : forall neg n d, (exists v, value_ratio 53 1024 _ _ neg n d = Ok v) \/ value_ratio 53 1024 _ _ neg n d = Throw).
    { intros neg n d. unfold value_ratio. destruct (ratio_float 53 1024 _ _ neg n d) eqn:X; auto; destruct (_ && _); eauto. }
    destruct t as [neg [|m|m] e|neg [|m|m] e|neg|]; cbn [value_of]; eauto.
    - destruct (ratio_of_dec 10 m e). apply G.
    - destruct (ratio_of_dec 2 m e). apply G. }
  destruct H as [(v & ->)| ->]; cbn [bind]; eauto.
Qed.

Section Reject.
Variable ps : params.
Lemma unsigned_throws key d : (exists z, param_unsigned key d ps = Ok z) \/ param_unsigned key d ps = Throw.
Proof. unfold param_unsigned. destruct (param_find key ps) as [s|]; [|eauto]. destruct (stoul_throws s) as [((z & rest) & ->)| ->]; cbn [bind]; eauto. Qed.
Lemma double_throws key d : (exists z, param_double key d ps = Ok z) \/ param_double key d ps = Throw.
Proof. unfold param_double. destruct (param_find key ps) as [s|]; [|eauto]. destruct (stod_throws s) as [((z & rest) & ->)| ->]; cbn [bind]; eauto. Qed.

Ltac bad_real E N := unfold param_double at 1; rewrite E, (stod_none _ N); reflexivity.
Ltac next_real key d := destruct (double_throws key d) as [(? & ->)| ->]; [cbn [bind]|reflexivity].

Lemma reject P init name key s nf np : In (name, key) number_parameters -> param_find key ps = Some s -> no_number s ->
  create_model P name nf np ps init = Throw.
Proof.
  intros I E N. unfold create_model, number_parameters in *. cbn [In] in I. repeat destruct I as [I|I]; try contradiction; apply pair_equal_spec in I; destruct I as [<- <-].
  - rewrite static_branch. unfold create_static, param_int. rewrite E, (stoi_none _ N). reflexivity.
  - rewrite tree_branch. unfold param_unsigned. rewrite E, (stoul_none _ N). reflexivity.
  - rewrite forest_branch. destruct (unsigned_throws ($"num_trees") 10) as [(t & ->)| ->]; [|reflexivity]. cbn [bind].
    unfold param_unsigned. rewrite E, (stoul_none _ N). reflexivity.
  - rewrite forest_branch. unfold param_unsigned at 1. rewrite E, (stoul_none _ N). reflexivity.
  - rewrite net_branch. unfold create_net. bad_real E N.
  - rewrite net_branch. unfold create_net. next_real ($"lr") (div64 one64 (f64_of_Z 100)). bad_real E N.
  - rewrite net_branch. unfold create_net. next_real ($"lr") (div64 one64 (f64_of_Z 100)). next_real ($"beta") half64. bad_real E N.
  - rewrite net_branch. unfold create_net. next_real ($"lr") (div64 one64 (f64_of_Z 100)). next_real ($"beta") half64. next_real ($"beta1") half64. bad_real E N.
  - rewrite net_branch. unfold create_net. next_real ($"lr") (div64 one64 (f64_of_Z 100)). next_real ($"beta") half64. next_real ($"beta1") half64.
    next_real ($"beta2") (div64 (f64_of_Z 9) (f64_of_Z 10)). bad_real E N.
Qed.
End Reject.

Lemma rejected_region P w nf nm np mt info yaml init name items key s : In (name, key) number_parameters -> Forall item_ok items ->
  (forall i, In i items -> documented name (fst i)) -> model_string (w_config w) info = model_text name items ->
  first_value key items (Some s) -> no_number s -> step P w (OpRegion nf nm np mt info yaml init) = Throw.
Proof.
  intros I OK DOC EI FV N.
  assert (IN : In name model_names).
  { unfold number_parameters in I. cbn [In] in I. repeat destruct I as [I|I]; try contradiction; apply pair_equal_spec in I; destruct I as [<- <-]; cbn; tauto. }
  destruct (name_facts name IN) as (FN & NS & _).
  destruct (parse_gives_items name items FN OK DOC) as (ps & EP & F). apply F in FV.
  cbn [step]. unfold new_region. change (match info with [] => cf_policy_model (w_config w) | _ => info end) with (model_string (w_config w) info).
  rewrite EI, EP. cbn [bind]. unfold resolve_static_region. rewrite NS. cbn [bind]. rewrite (reject ps P init name key s nf np I FV N). reflexivity.
Qed.
