(** Proofs of the properties of dataset files. *)
From Coq Require Import List ZArith Bool Ascii String Lia Reals Lra Sorted SpecFloat.
From Coq Require Import ZifyBool.
From Flocq Require Import Core BinarySingleNaN.
From Verif Require Import Model.Base Model.Float Model.Decimal Model.ParserM Model.DatasetM Model.DatasetIO
  Spec.TokenSpec Spec.DecimalSpec Spec.DatasetSpec Spec.DatasetClient Spec.DatasetFileSpec
  Proofs.DecimalInt Proofs.DecimalFloat Proofs.DecimalRead Proofs.ParserFacts Proofs.LoadFacts
  Proofs.FloatFacts Proofs.MapFacts Proofs.KeyOrder Proofs.DatasetFacts Proofs.DatasetIOFacts.
Import ListNotations.
Open Scope Z_scope.

(** * Python layout *)
Lemma python_line_text r : python_line r = $"  " ++ record_text [] r.
Proof. reflexivity. Qed.

Lemma python_load pre d rs c rest : blank pre -> Forall well_spelled rs -> white c ->
  ds_load d (pre ++ $"data: {" ++ [nl] ++ List.concat (map python_line rs) ++ $"}" ++ c :: rest) =
  let* d' := insert_all d (map r_meas rs) in Ok (d', c :: rest).
Proof.
  intros P F C. apply isspace_white in C.
  assert (X := ds_load_ok pre d (map (fun r => ($"  ", [], r)) rs) [] c rest P).
  assert (E1 : lines (map (fun r => ($"  ", [], r)) rs) = List.concat (map python_line rs)).
  { unfold lines. rewrite map_map. reflexivity. }
  rewrite E1, map_map in X. cbn [snd] in X.
  rewrite map_ext with (g := r_meas) in X by reflexivity. rewrite <- X; auto.
  - rewrite Forall_map. eapply Forall_impl; [|exact F]. intros r W. repeat split; auto using blank_spaces; try apply W. constructor.
  - constructor.
Qed.

(** * Decimal literals *)
Lemma number_val l : number l = digits_val l.
Proof.
  unfold number, digits_val. generalize 0. induction l as [|c l IH]; intros n; cbn [fold_left]; auto.
  rewrite IH. f_equal. unfold digit_val. change (Z.of_N (N_of_ascii "0")) with 48. lia.
Qed.

Lemma lex_exp_text (neg : bool) e t : all_digits e -> num_end t ->
  lex_exp "e" ("e"%char :: (if neg then "-"%char else "+"%char) :: e ++ t) = (if neg then - number e else number e, t).
Proof.
  intros (N & F) T. rewrite number_val. unfold lex_exp. change (Ascii.eqb (lower "e") "e") with true. cbv iota.
  assert (TS : take_sign ((if neg then "-"%char else "+"%char) :: e ++ t) = (neg, e ++ t)) by (destruct neg; reflexivity).
  rewrite TS. cbv iota beta. rewrite span_digits_app by auto using num_end_no_digit.
  destruct e; [congruence|]. reflexivity.
Qed.

Lemma digits_numchar l : all_digits l -> Forall numchar l.
Proof. intros (_ & F). now apply digits_chars. Qed.

Section Literal.
Context {prec emax : Z} (Hp : Prec_gt_0 prec) (He : Prec_lt_emax prec emax).
Notation rnd := (round radix2 (fexp prec emax) ZnearestE).

Definition d_body (d : decimal) : bytes :=
  d_int d ++ match d_frac d with Some f => "."%char :: f | None => [] end
  ++ match d_exp d with Some (neg, e) => "e"%char :: (if neg : bool then "-"%char else "+"%char) :: e | None => [] end.

Lemma d_body_chars d : d_wf d -> Forall numchar (d_body d).
Proof.
  intros (I & F & E). unfold d_body. apply Forall_app. split; [now apply digits_numchar|].
  apply Forall_app. split.
  - destruct (d_frac d); constructor; [right; now left|now apply digits_numchar].
  - destruct (d_exp d) as [[n e]|]; constructor; [right; right; now left|].
    constructor; [destruct n; unfold numchar; tauto|now apply digits_numchar].
Qed.

Lemma decimal_lex d t : d_wf d -> num_end t ->
  exists m e, lex_num (d_text d ++ t) = Some (NumDec (d_neg d) m e, t) /\ 0 <= m /\
    d_value d = (if d_neg d then - F2R (Float radix10 m e) else F2R (Float radix10 m e))%R.
Proof.
  intros W T. destruct W as (I & F & E). assert (W : d_wf d) by (split; auto).
  assert (TX : d_text d ++ t = (if d_neg d then $"-" else []) ++ d_body d ++ t).
  { unfold d_text, d_body. now rewrite <- app_assoc. }
  rewrite TX. rewrite lex_num_digits; auto using d_body_chars.
  2:{ unfold d_body. destruct I as (N & D). destruct (d_int d) as [|c r]; [congruence|]. inversion D; subst. cbn. eauto. }
  set (fr := match d_frac d with Some f => f | None => [] end).
  set (ex := match d_exp d with Some (true, e) => - number e | Some (false, e) => number e | None => 0 end).
  set (et := match d_exp d with Some (neg, e) => "e"%char :: (if neg : bool then "-"%char else "+"%char) :: e | None => [] end).
  assert (LE : lex_exp "e" (et ++ t) = (ex, t) /\ no_digit_head (et ++ t) /\
               forall c r, et ++ t = c :: r -> Ascii.eqb c "." = false).
  { unfold et, ex. destruct (d_exp d) as [[n e]|].
    - cbn [app]. split; [rewrite lex_exp_text by assumption; now destruct n|]. split; [reflexivity|].
      intros c r X. inversion X; reflexivity.
    - split; [now apply num_end_lex_exp|]. split; [now apply num_end_no_digit|].
      cbn [app]. intros c r ->. apply T. }
  destruct LE as (L1 & L2 & L3).
  assert (FR : Forall isdig fr) by (unfold fr; destruct (d_frac d); [apply F|constructor]).
  exists (digits_val (d_int d ++ fr)), (ex - Z.of_nat (List.length fr)). split.
  - unfold d_body. fold et. unfold fr. destruct (d_frac d) as [f|].
    + rewrite <- !app_assoc. cbn [app]. apply lex_dec_frac; auto; try apply I. 
    + rewrite <- !app_assoc. cbn [app]. rewrite app_nil_r. rewrite lex_dec_int with (e := ex) (rest := t); auto; try apply I.
      cbn [List.length]. do 3 f_equal. lia.
  - split; [apply digits_val_nonneg, Forall_app; split; auto; apply I|].
    unfold d_value. fold fr. fold ex. rewrite F2R10, digits_val_app, plus_IZR, mult_IZR, !number_val.
    unfold Z.sub. rewrite bpow_plus. rewrite <- (bpow10_IZR (Z.of_nat (List.length fr))) by lia.
    rewrite bpow_opp. assert (P := bpow_gt_0 radix10 (Z.of_nat (List.length fr))).
    destruct (d_neg d); field; lra.
Qed.

Lemma decimal_read d t : d_wf d -> value_end t ->
  (bpow radix2 (2 - emax) <= Rabs (rnd (d_value d)) < bpow radix2 emax)%R ->
  exists y, stoX prec emax Hp He (d_text d ++ t) = Ok (y, t) /\
    is_finite y = true /\ B2R y = rnd (d_value d).
Proof.
  intros W (T & _) B. destruct (decimal_lex d t W T) as (m & e & L & M & V). unfold stoX. rewrite L.
  destruct m as [|m|m]; [|clear M|lia].
  - exfalso. rewrite V in B. rewrite F2R10, Rmult_0_l in B.
    assert (Z0 : (if d_neg d then - 0 else 0)%R = 0%R) by (destruct (d_neg d); ring). rewrite Z0 in B.
    rewrite round_0, Rabs_R0 in B by apply valid_rnd_N. assert (P := bpow_gt_0 radix2 (2 - emax)). lra.
  - destruct (value_of_dec Hp He (d_neg d) m e) as (y & Y1 & Y2 & Y3 & Y4).
    { rewrite <- V. exact B. }
    exists y. rewrite Y1. split; auto. split; auto. now rewrite Y4, V.
Qed.
Lemma decimal_read_zero d t : d_wf d -> value_end t -> d_value d = 0%R ->
  stoX prec emax Hp He (d_text d ++ t) = Ok (B754_zero (d_neg d), t).
Proof.
  intros W (T & _) B. destruct (decimal_lex d t W T) as (m & e & L & M & V). unfold stoX. rewrite L.
  rewrite V, F2R10 in B. assert (P := bpow_gt_0 radix10 e).
  assert (M0 : IZR m = 0%R) by (destruct (d_neg d); nra). apply eq_IZR in M0. subst m. reflexivity.
Qed.

(** Printed numbers either read back or are out of range; never NaN unless NaN was printed. *)
Lemma ratio_float_not_nan s n d : is_nan (ratio_float prec emax Hp He s n d) = false.
Proof.
  assert (C := ratio_float_correct Hp He s n d). cbv zeta in C.
  destruct (Rlt_bool _ _); [destruct C as (_ & C & _)|rewrite C; reflexivity].
  destruct (ratio_float prec emax Hp He s n d); auto; discriminate.
Qed.
Lemma value_of_dec_weak neg m e :
  (exists y, value_of prec emax Hp He (NumDec neg m e) = Ok y /\ is_nan y = false) \/
  value_of prec emax Hp He (NumDec neg m e) = Throw.
Proof.
  cbn [value_of]. destruct m as [|m|m]; [left; eexists; split; reflexivity| |left; eexists; split; reflexivity].
  destruct (ratio_of_dec 10 m e) as [n d]. unfold value_ratio.
  assert (N := ratio_float_not_nan neg n d).
  destruct (ratio_float prec emax Hp He neg n d) as [s|s| |s mm ee b] eqn:E; auto; try discriminate.
  - destruct (_ && _); [now right|left; eexists; split; reflexivity].
Qed.
Lemma print_read_weak (x : binary_float prec emax) t : value_end t ->
  (exists y, stoX prec emax Hp He (print_float x ++ t) = Ok (y, t) /\ is_nan y = is_nan x) \/
  stoX prec emax Hp He (print_float x ++ t) = Throw.
Proof.
  intros (T & TI).
  destruct x as [s|s| |s m e b].
  - left. unfold stoX. cbn [print_float]. exists (B754_zero s). rewrite <- app_assoc.
    rewrite (lex_num_digits s ($"0") t); auto.
    + change ($"0" ++ t) with (["0"%char] ++ t).
      rewrite (lex_dec_int s ["0"%char] t 0 t); try (repeat constructor; fail); auto using num_end_no_digit, num_end_lex_exp.
      * discriminate.
      * intros c r ->. apply T.
    + do 2 eexists; split; reflexivity.
    + repeat constructor.
  - left. unfold stoX. cbn [print_float]. exists (B754_infinity s). split; auto.
    assert (E : lex_num (((if s then $"-" else []) ++ $"inf") ++ t) = Some (NumInf s, t)).
    { unfold lex_num. assert (TS : take_sign (drop_space (((if s then $"-" else []) ++ $"inf") ++ t)) = (s, $"inf" ++ t)) by (destruct s; reflexivity).
      rewrite TS. cbv iota beta.
      assert (P1 : drop_prefix_ci ($"infinity") ($"inf" ++ t) = None).
      { cbn [lit list_ascii_of_string drop_prefix_ci app]. change (Ascii.eqb "i" (lower "i")) with true.
        change (Ascii.eqb "n" (lower "n")) with true. change (Ascii.eqb "f" (lower "f")) with true. cbv iota.
        destruct t as [|c t]; auto. rewrite Ascii.eqb_sym. now rewrite TI. }
      rewrite P1. reflexivity. }
    rewrite E. reflexivity.
  - left. exists B754_nan. split; reflexivity.
  - unfold stoX. cbn [print_float]. assert (RV := ratio_of_value m e). destruct (ratio_of m e) as [n d].
    destruct RV as (Pn & Pd & RV). destruct (dec6 n d) as [D X] eqn:E6.
    destruct (dec6_spec n d D X Pn Pd E6) as (A & BD & _).
    rewrite <- app_assoc. rewrite (lex_num_digits s (fmt_g D X) t); auto using fmt_g_head, fmt_g_chars.
    destruct (fmt_g_lex s D X t BD T) as (mm & ee & L & Pm & V). rewrite L.
    destruct (value_of_dec_weak s mm ee) as [(y & Y & NY)|Y]; rewrite Y; [left|now right].
    exists y. split; auto.
Qed.
End Literal.

(** * Texts written by store *)
Lemma value_end_comma t : value_end (","%char :: t).
Proof. split; [repeat split|reflexivity]. Qed.
Lemma value_end_nil : value_end [].
Proof. repeat split. Qed.

Lemma print_float_plain {prec emax} (Hp : Prec_gt_0 prec) (He : Prec_lt_emax prec emax) (x : binary_float prec emax) :
  emax + prec <= 9000 -> plain_text (print_float x).
Proof.
  intros B. destruct (print_float_hd x) as [H N]. split; auto. split; [assert (L := print_float_length Hp He x B); lia|].
  split; auto. apply print_float_clean.
Qed.
Lemma print_Z_plain z : is_int z -> plain_text (print_Z z).
Proof.
  intros B. destruct (print_Z_hd z) as [H N]. split; auto.
  assert (L := print_Z_length z 10). split; [unfold is_int in B; change (10 ^ Z.of_nat 10) with 10000000000 in L; lia|].
  split; auto. apply print_Z_clean.
Qed.

(** File record of an entry whose numbers read back as given. *)
Definition entry_file (idx : Z) (e : key * f64) (fs : list f32) (m : f64) : file_record :=
  mkRec (print_Z idx) (combine (map (fun f : f32 => print_float f) (fst (fst e))) fs)
        (print_Z (snd (fst e)), snd (fst e)) (print_float (snd e), m).

Definition entry_gap (e : key * f64) : bytes :=
  match fst (fst e) with [] => $" " | _ => [] end.
Lemma entry_gap_blank e : blank (entry_gap e).
Proof. unfold entry_gap. destruct (fst (fst e)); [apply blank_space|constructor]. Qed.

Lemma combine_snd {A B} (l : list A) : forall (m : list B), List.length l = List.length m -> map snd (combine l m) = m.
Proof. induction l; destruct m; cbn; intros; try discriminate; auto. f_equal. auto. Qed.
Lemma combine_fst {A B} (l : list A) : forall (m : list B), List.length l = List.length m -> map fst (combine l m) = l.
Proof. induction l; destruct m; cbn; intros; try discriminate; auto. f_equal. auto. Qed.

Lemma entry_file_meas idx e fs m : List.length (fst (fst e)) = List.length fs ->
  r_meas (entry_file idx e fs m) = (fs, snd (fst e), m).
Proof. intros L. unfold r_meas, entry_file. cbn [r_features r_policy r_metric snd]. rewrite combine_snd; auto. now rewrite map_length. Qed.

Lemma store_entry_text idx e fs m : (List.length (fst (fst e)) <= 1)%nat -> List.length (fst (fst e)) = List.length fs ->
  store_entry idx e = $"  " ++ record_text (entry_gap e) (entry_file idx e fs m).
Proof.
  destruct e as [[f p] x]. cbn [fst snd]. intros L1 L2. unfold store_entry, record_text, entry_file, entry_gap.
  cbn [fst snd r_index r_features r_policy r_metric].
  destruct f as [|a [|b f]]; cbn in L1; try lia; (destruct fs as [|y [|z fs]]; cbn in L2; try discriminate L2).
  - reflexivity.
  - cbn [map List.concat combine fst app]. rewrite !app_nil_r. rewrite <- !app_assoc. reflexivity.
Qed.

Lemma stoi_index idx : is_int idx -> exists v, stoi (print_Z idx ++ $":") = Ok (v, $":").
Proof. intros I. exists idx. apply stoi_print; [exact I|reflexivity]. Qed.

Lemma entry_spelled idx e fs m : is_int idx -> is_int (snd (fst e)) ->
  Forall2 (fun (f : f32) (y : f32) => stof (print_float f ++ $",") = Ok (y, $",")) (fst (fst e)) fs ->
  stod (print_float (snd e)) = Ok (m, []) ->
  well_spelled (entry_file idx e fs m).
Proof.
  intros I P F M. unfold well_spelled, entry_file. cbn [r_index r_features r_policy r_metric fst snd].
  split; [split; [now apply print_Z_plain|now apply stoi_index]|].
  split.
  - destruct e as [[fl pl] xm]. cbn [fst snd] in *. clear - F. induction F; cbn [map combine]; constructor; auto. cbn [fst snd]. split; auto.
    apply (print_float_plain prec_gt_0_32 prec_lt_emax_32). lia.
  - split; [split; [now apply print_Z_plain|apply stoi_print; [exact P|reflexivity]]|].
    split; [apply (print_float_plain prec_gt_0_64 prec_lt_emax_64); lia|]. eauto.
Qed.

(** Copies of the numbers exist for numbers in the normal range. *)
Lemma features_copy (f : list f32) : Forall normal_range f ->
  exists fs, Forall2 (fun (f : f32) (y : f32) => stof (print_float f ++ $",") = Ok (y, $",")) f fs /\
             Forall2 six_digit_copy f fs.
Proof.
  induction 1 as [|x f N F (fs & A & B)].
  - exists []. split; constructor.
  - destruct (print_read prec_gt_0_32 prec_lt_emax_32 x ($",") max6_ok_32 N (value_end_comma [])) as (y & Y1 & Y2).
    exists (y :: fs). split; constructor; auto.
Qed.
Lemma metric_copy (x : f64) : normal_range x ->
  exists m, stod (print_float x) = Ok (m, []) /\ six_digit_copy x m.
Proof.
  intros N. destruct (print_read prec_gt_0_64 prec_lt_emax_64 x [] max6_ok_64 N value_end_nil) as (y & Y1 & Y2).
  rewrite app_nil_r in Y1. eauto.
Qed.

Lemma Forall2_len {A B} (R : A -> B -> Prop) l m : Forall2 R l m -> List.length l = List.length m.
Proof. induction 1; cbn; auto. Qed.

Definition entry_meas (e : key * f64) : meas := (fst (fst e), snd (fst e), snd e).

Lemma store_lines d : forall idx,
  0 <= idx -> idx + Z.of_nat (List.length d) <= 2147483648 ->
  Forall (fun e : key * f64 => (List.length (fst (fst e)) <= 1)%nat /\ is_int (snd (fst e)) /\ meas_normal (entry_meas e)) d ->
  exists rs, store_entries idx d = lines rs /\ Forall line_ok rs /\
    Forall2 meas_copy (ds_to_vector d) (map (fun x => r_meas (snd x)) rs).
Proof.
  induction d as [|e d IH]; intros idx I0 I F.
  - exists []. split; auto. split; constructor.
  - inversion F as [|? ? (L & P & NF & NM) F']; subst. cbn [List.length] in I.
    destruct (IH (idx + 1)) as (rs & A & B & C); try lia; auto.
    destruct (features_copy (fst (fst e)) NF) as (fs & S1 & S2).
    destruct (metric_copy (snd e) NM) as (m & M1 & M2).
    assert (LL := Forall2_len _ _ _ S1).
    exists (($"  ", entry_gap e, entry_file idx e fs m) :: rs). split; [|split].
    + cbn [store_entries]. rewrite lines_cons, A. rewrite (store_entry_text idx e fs m) by assumption. now rewrite <- app_assoc.
    + constructor; auto. split; [apply blank_spaces|]. split; [apply entry_gap_blank|].
      apply entry_spelled; auto. unfold is_int. lia.
    + cbn [ds_to_vector map]. constructor; auto. cbn [snd]. rewrite entry_file_meas by assumption.
      destruct e as [[f p] x]. repeat split; auto.
Qed.

Lemma store_load d d0 :
  Z.of_nat (List.length d) <= 2147483648 ->
  Forall (fun e : key * f64 => (List.length (fst (fst e)) <= 1)%nat /\ is_int (snd (fst e)) /\ meas_normal (entry_meas e)) d ->
  exists copies, Forall2 meas_copy (ds_to_vector d) copies /\
    ds_load d0 (ds_store d) = let* d' := insert_all d0 copies in Ok (d', [nl]).
Proof.
  intros I F. destruct (store_lines d 0 ltac:(lia) ltac:(lia) F) as (rs & A & B & C).
  exists (map (fun x => r_meas (snd x)) rs). split; auto.
  unfold ds_store. rewrite A. assert (X := ds_load_ok [] d0 rs [] nl []).
  cbn [app] in X |- *. apply X; auto; constructor.
Qed.

(** Copies of numbers that are not NaN are not NaN. *)
Lemma copy_not_nan {prec emax} (x y : binary_float prec emax) : six_digit_copy x y -> is_nan x = false -> is_nan y = false.
Proof.
  destruct x; cbn [six_digit_copy]; intros H N; try (subst; auto; fail).
  destruct H as (F & _). destruct y; auto; discriminate.
Qed.
Lemma meas_copy_no_nan a b : meas_copy a b -> no_nan_features a -> no_nan_features b.
Proof.
  intros (F & _) N. unfold no_nan_features in *. induction F; [constructor|]. inversion N; subst. constructor; auto.
  eapply copy_not_nan; eauto.
Qed.

(** Inserting the records of a dataset in order gives that dataset. *)
Lemma insert_above d k v : wfd (d ++ [(k, v)]) -> ds_insert d (fst k) (snd k) v = Ok (d ++ [(k, v)]).
Proof.
  intros [K S]. rewrite Forall_app in K. destruct K as [K1 K2]. inversion K2 as [|? ? Kk _]; subst. cbn [fst] in Kk.
  assert (A : Forall (fun e : key * f64 => key_lt (fst e) k = true) d).
  { clear - S. induction d as [|e d IH]; constructor.
    - cbn in S. inversion S; subst. rewrite Forall_app in H2. destruct H2 as [_ H2]. now inversion H2.
    - apply IH. now inversion S. }
  unfold ds_insert. unfold kok, fok in Kk. rewrite Kk. cbn [negb]. rewrite <- surjective_pairing.
  assert (N : map_find key_lt k d = None).
  { apply find_None. eapply Forall_impl; [|exact A]. intros e H. unfold eqv. rewrite H. now rewrite andb_false_r. }
  rewrite N. f_equal. apply add_last. rewrite Forall_forall in *. intros e I.
  apply (lt_asym key_lt kok key_lt_irrefl key_lt_trans); auto.
Qed.
Lemma insert_all_app d h1 h2 : insert_all d (h1 ++ h2) = let* d' := insert_all d h1 in insert_all d' h2.
Proof.
  revert d. induction h1 as [|m h IH]; intros d; cbn [insert_all app bind]; auto.
  destruct (ds_insert d (m_features m) (m_policy m) (m_metric m)); cbn [bind]; auto.
Qed.
Lemma wfd_prefix a b : wfd (a ++ b) -> wfd a.
Proof.
  intros [K S]. rewrite Forall_app in K. split; [apply K|]. clear K. induction a; [constructor|]. cbn in S. inversion S; subst.
  constructor; auto. rewrite Forall_app in H2. apply H2.
Qed.
Lemma reinsert d : wfd d -> insert_all [] (ds_to_vector d) = Ok d.
Proof.
  induction d as [|[k v] d IH] using rev_ind; intros W; [reflexivity|].
  assert (E : ds_to_vector (d ++ [(k, v)]) = ds_to_vector d ++ [(fst k, snd k, v)]) by (unfold ds_to_vector; now rewrite map_app).
  rewrite E, insert_all_app.
  rewrite IH by (eapply wfd_prefix; eauto). cbn [bind map insert_all]. unfold m_features, m_policy, m_metric. cbn [fst snd].
  rewrite insert_above by assumption. reflexivity.
Qed.

(** Numbers with at most six decimal digits are unchanged. *)
Lemma small_integer_copy {prec emax} (x y : binary_float prec emax) :
  Prec_gt_0 prec -> small_integer x -> six_digit_copy x y -> y = x.
Proof.
  intros Hp (z & F & V & B) C.
  destruct x as [s|s| |s m e b]; cbn [six_digit_copy] in C; auto. destruct C as (FY & SY & VY).
  assert (G6 : round6 (B2R (B754_finite s m e b : binary_float prec emax)) = B2R (B754_finite s m e b : binary_float prec emax)).
  { rewrite V. unfold round6. apply round_generic; [apply valid_rnd_N|].
    apply generic_format_FLX. exists (Float radix10 z 0); [unfold F2R; cbn [Fnum Fexp bpow]; now rewrite Rmult_1_r|].
    cbn [Fnum]. change (radix10 ^ 6) with 1000000. exact B. }
  rewrite G6 in VY. rewrite round_generic in VY; [|apply valid_rnd_N|apply generic_format_B2R].
  apply B2R_Bsign_inj; auto.
Qed.
