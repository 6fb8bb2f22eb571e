(** Dataset files: records that cannot be reloaded, merged keys, truncated files, termination. *)
From Coq Require Import List ZArith Bool Ascii String Lia Reals Lra Sorted SpecFloat.
From Coq Require Import ZifyBool.
From Flocq Require Import Core BinarySingleNaN.
From Verif Require Import Model.Base Model.Float Model.Decimal Model.ParserM Model.DatasetM Model.DatasetIO
  Spec.TokenSpec Spec.DecimalSpec Spec.DatasetSpec Spec.DatasetClient Spec.DatasetFileSpec
  Proofs.DecimalInt Proofs.DecimalFloat Proofs.DecimalRead Proofs.ParserFacts Proofs.LoadFacts
  Proofs.FloatFacts Proofs.MapFacts Proofs.KeyOrder Proofs.DatasetFacts Proofs.DatasetIOFacts Proofs.DatasetFileProps.
Import ListNotations.
Open Scope Z_scope.

Definition load_tail (fs : list f32) (p : parser) : outcome (list f32 * Z * f64 * parser) :=
  let* p := expect_next ($"policy:") p in
  let* p := get_next_token p in
  let* (policy, p) := parse_int p in
  let* p := parse_expected ($",") p in
  let* p := expect_next ($"xtime:") p in
  let* p := get_next_token p in
  let* (xtime, p) := parse_double p in
  let* p := expect_next ($"},") p in
  Ok (fs, policy, xtime, p).

Lemma load_record_phase w vi T : plain_text w -> stoi (w ++ $":") = Ok (vi, $":") ->
  load_record (mkParser (" "%char :: $"{ features: [ " ++ T) (w ++ $":") 0) =
  let* (fs, p) := load_features (S (S (List.length T))) [] (mkParser (" "%char :: T) ($"[") 0) in load_tail fs p.
Proof.
  intros PI EI. unfold load_record.
  rewrite parse_int_at with (v := vi) by (auto; apply plain_clean; auto; cleans). cbn [bind].
  rewrite parse_expected_at by (apply plain_clean; auto; cleans). cbn [bind].
  change (" "%char :: $"{ features: [ " ++ T) with ($" " ++ $"{" ++ " "%char :: $"features: [ " ++ T).
  rewrite expect_word by (auto using blank_space; good). cbn [bind].
  change (" "%char :: $"features: [ " ++ T) with ($" " ++ $"features:" ++ " "%char :: $"[ " ++ T).
  rewrite expect_word by (auto using blank_space; good). cbn [bind].
  change (" "%char :: $"[ " ++ T) with ($" " ++ $"[" ++ " "%char :: T).
  rewrite expect_word by (auto using blank_space; good). cbn [bind]. reflexivity.
Qed.

Lemma load_tail_metric_throw fs pol w s buf off : is_int pol -> plain_text w -> stod w = Throw ->
  load_tail fs (mkParser ($" policy: " ++ print_Z pol ++ $"," ++ $" xtime: " ++ w ++ " "%char :: s) buf off) = Throw.
Proof.
  intros P PM EM. unfold load_tail.
  assert (GP : good_word (print_Z pol ++ $",")) by (apply plain_good; [now apply print_Z_plain|cleans|cbn; lia]).
  change ($" policy: " ++ print_Z pol ++ $"," ++ $" xtime: " ++ w ++ " "%char :: s)
    with ($" " ++ $"policy:" ++ " "%char :: print_Z pol ++ $"," ++ $" xtime: " ++ w ++ " "%char :: s).
  rewrite expect_word by (auto using blank_space; good). cbn [bind].
  replace (" "%char :: print_Z pol ++ $"," ++ $" xtime: " ++ w ++ " "%char :: s)
    with ($" " ++ (print_Z pol ++ $",") ++ " "%char :: $"xtime: " ++ w ++ " "%char :: s)
    by (rewrite <- !app_assoc; reflexivity).
  rewrite next_word by (auto using blank_space). cbn [bind].
  rewrite parse_int_at with (v := pol); [|apply GP|apply stoi_print; [exact P|reflexivity]]. cbn [bind].
  rewrite parse_expected_at by apply GP. cbn [bind].
  change (" "%char :: $"xtime: " ++ w ++ " "%char :: s) with ($" " ++ $"xtime:" ++ " "%char :: w ++ " "%char :: s).
  rewrite expect_word by (auto using blank_space; good). cbn [bind].
  assert (GM : good_word w) by (rewrite <- (app_nil_r w); apply plain_good; auto).
  change (" "%char :: w ++ " "%char :: s) with ($" " ++ w ++ " "%char :: s).
  rewrite next_word by (auto using blank_space). cbn [bind].
  unfold parse_double. rewrite token_at by apply GM. rewrite EM. reflexivity.
Qed.

Lemma print_float_hd2 {prec emax} (x : binary_float prec emax) : hd_error (print_float x) <> Some "]"%char.
Proof.
  destruct x as [s|s| |s m e b]; cbn [print_float].
  - destruct s; discriminate.
  - destruct s; discriminate.
  - discriminate.
  - destruct (ratio_of m e) as [n d]. destruct (dec6 n d) as [D X].
    destruct s; [discriminate|]. cbn [app]. destruct (fmt_g_head D X) as (c & r & -> & Hc).
    cbn. intros E. inversion E; subst. discriminate Hc.
Qed.

Lemma load_features_throw (f : f32) fuel rest buf off : stof (print_float f ++ $",") = Throw ->
  load_features (S fuel) [] (mkParser (" "%char :: (print_float f ++ $",") ++ " "%char :: rest) buf off) = Throw.
Proof.
  intros E. cbn [load_features].
  assert (GW : good_word (print_float f ++ $",")).
  { apply plain_good; [apply (print_float_plain prec_gt_0_32 prec_lt_emax_32); lia|cleans|cbn; lia]. }
  change (" "%char :: (print_float f ++ $",") ++ " "%char :: rest) with ($" " ++ (print_float f ++ $",") ++ " "%char :: rest).
  rewrite next_word by (auto using blank_space). cbn [bind]. unfold token_is. rewrite token_at by apply GW.
  rewrite bytes_eqb_neq.
  - unfold parse_float. rewrite token_at by apply GW. rewrite E. reflexivity.
  - intros X. apply (f_equal (@hd_error _)) in X. rewrite hd_error_app in X by apply print_float_hd. now apply print_float_hd2 in X.
Qed.

Definition feature_list (f : list f32) : bytes := List.concat (map (fun x : f32 => print_float x ++ $",") f).

Lemma feature_list_clean f : Forall clean (feature_list f).
Proof.
  induction f as [|x f IH]; cbn; [constructor|]. apply Forall_app. split; auto. apply Forall_app. split; [apply print_float_clean|cleans].
Qed.

Lemma load_features_bad (f g : f32) fs fuel rest buf off :
  load_features (S fuel) [] (mkParser (" "%char :: feature_list (f :: g :: fs) ++ " "%char :: rest) buf off) = Abort \/
  (load_features (S fuel) [] (mkParser (" "%char :: feature_list (f :: g :: fs) ++ " "%char :: rest) buf off) = Throw
   /\ ~ normal_range f).
Proof.
  set (W := feature_list (f :: g :: fs)). assert (CW : Forall clean W) by apply feature_list_clean.
  assert (EW : W = print_float f ++ ","%char :: feature_list (g :: fs)).
  { unfold W, feature_list. cbn [map List.concat]. rewrite <- app_assoc. reflexivity. }
  assert (HD : hd_error W = hd_error (print_float f)).
  { rewrite EW. apply hd_error_app. apply print_float_hd. }
  cbn [load_features].
  change (" "%char :: W ++ " "%char :: rest) with ($" " ++ W ++ " "%char :: rest).
  destruct (Nat.lt_ge_cases (List.length W) 64) as [L|L].
  - assert (GW : good_word W).
    { split; [rewrite EW; destruct (print_float f); discriminate|]. split; auto. split; auto.
      rewrite HD. apply print_float_hd. }
    rewrite next_word by (auto using blank_space). cbn [bind]. unfold token_is. rewrite token_at by assumption.
    rewrite bytes_eqb_neq.
    2:{ intros X. apply (f_equal (@hd_error _)) in X. rewrite HD in X. now apply print_float_hd2 in X. }
    assert (CW2 := CW). rewrite EW in CW2.
    destruct (print_read_weak prec_gt_0_32 prec_lt_emax_32 f (","%char :: feature_list (g :: fs)) (value_end_comma _)) as [(y & Y & _)|Y].
    + left. rewrite EW. rewrite parse_float_at with (v := y) by assumption. cbn [bind].
      unfold parse_expected, token_is. rewrite (proj2 (after_parse_at _ _ _ CW2)).
      rewrite bytes_eqb_neq; [reflexivity|]. unfold feature_list. cbn [map List.concat]. destruct (print_float_hd g) as [_ N].
      destruct (print_float g); [congruence|discriminate].
    + right. split.
      * unfold parse_float. rewrite token_at by assumption. rewrite EW. unfold stof. rewrite Y. reflexivity.
      * intros N. destruct (print_read prec_gt_0_32 prec_lt_emax_32 f (","%char :: feature_list (g :: fs)) max6_ok_32 N (value_end_comma _)) as (y & Y1 & _).
        rewrite Y in Y1. discriminate.
  - left. erewrite next_token_long; [reflexivity|reflexivity|apply blank_space|now apply clean_nonspace| |exact L].
    rewrite HD. apply print_float_hd.
Qed.

(** Loading an entry that is not the offending one. *)
Lemma entry_step fuel d0 idx e rest buf off :
  is_int idx -> is_int (snd (fst e)) -> (List.length (fst (fst e)) <= 1)%nat -> fok (fst (fst e)) ->
  (load_records (S fuel) d0 (mkParser (nl :: store_entry idx e ++ rest) buf off) = Throw /\ ~ meas_normal (entry_meas e)) \/
  exists d1 buf' off', load_records (S fuel) d0 (mkParser (nl :: store_entry idx e ++ rest) buf off)
    = load_records fuel d1 (mkParser (nl :: rest) buf' off').
Proof.
  destruct e as [[f p] x]. cbn [fst snd]. intros I P L N.
  assert (PI := print_Z_plain idx I).
  assert (EI : stoi (print_Z idx ++ $":") = Ok (idx, $":")) by (apply stoi_print; [exact I|reflexivity]).
  assert (GI : good_word (print_Z idx ++ $":")) by (apply plain_good; auto; cleans).
  assert (NB : print_Z idx ++ $":" <> $"}").
  { intros X. destruct PI as (NN & _). destruct (print_Z idx) as [|c l]; [congruence|]. destruct l; discriminate. }
  (* the features *)
  assert (FC : (exists fs, Forall2 (fun (f : f32) (y : f32) => stof (print_float f ++ $",") = Ok (y, $",")) f fs /\ fok fs) \/
               (exists a, f = [a] /\ stof (print_float a ++ $",") = Throw)).
  { destruct f as [|a [|b f]]; [left; exists []; split; [constructor|reflexivity]| |cbn in L; lia].
    apply fok_cons in N as [Na _].
    destruct (print_read_weak prec_gt_0_32 prec_lt_emax_32 a ($",") (value_end_comma [])) as [(y & Y & NY)|Y].
    - left. exists [y]. split; [repeat constructor; auto|]. apply fok_cons. split; [congruence|reflexivity].
    - right. eauto. }
  destruct FC as [(fs & F2 & NF)|(a & -> & TH)].
  - assert (LL := Forall2_len _ _ _ F2).
    destruct (print_read_weak prec_gt_0_64 prec_lt_emax_64 x [] value_end_nil) as [(m & M & _)|M]; rewrite app_nil_r in M.
    + right. assert (WS : well_spelled (entry_file idx (f, p, x) fs m)) by (apply entry_spelled; auto).
      assert (ST := store_entry_text idx (f, p, x) fs m L LL). rewrite ST.
      set (r := entry_file idx (f, p, x) fs m) in *. set (gap := entry_gap (f, p, x)) in *.
      cbn [load_records]. rewrite <- app_assoc, record_text_split.
      match goal with |- context [mkParser (nl :: $"  " ++ ?t) _ _] => change (nl :: $"  " ++ t) with ((nl :: $"  ") ++ t) end.
      rewrite next_word; auto using blank_spaces, blank_nl. cbn [bind]. unfold token_is. rewrite token_at by apply GI.
      rewrite bytes_eqb_neq by assumption.
      rewrite load_record_ok by (auto; apply entry_gap_blank). cbn [bind].
      unfold ds_insert. assert (EM : map snd (r_features r) = fs) by (apply combine_snd; now rewrite map_length).
      rewrite EM, NF. cbn [negb]. destruct (map_find _ _ _); cbn [bind]; eauto.
    + left. split.
      * set (fr := mkRec (print_Z idx) (combine (map (fun f : f32 => print_float f) f) fs) (print_Z p, p) (print_float x, x)).
        assert (ST := store_entry_text idx (f, p, x) fs x L LL). rewrite ST. fold fr.
        change (entry_file idx (f, p, x) fs x) with fr.
        cbn [load_records]. rewrite <- app_assoc, record_text_split.
        match goal with |- context [mkParser (nl :: $"  " ++ ?t) _ _] => change (nl :: $"  " ++ t) with ((nl :: $"  ") ++ t) end.
        rewrite next_word; auto using blank_spaces, blank_nl. cbn [bind]. unfold token_is. rewrite token_at by apply GI.
        rewrite bytes_eqb_neq by assumption.
        change (r_index fr) with (print_Z idx).
        rewrite (load_record_phase _ idx) by assumption.
        change (($"],") ++ ($" policy: ") ++ fst (r_policy fr) ++ ($",") ++ ($" xtime: ") ++ fst (r_metric fr) ++ ($" },") ++ nl :: rest)
          with (($"],") ++ " "%char :: ($"policy: ") ++ print_Z p ++ ($",") ++ ($" xtime: ") ++ print_float x ++ ($" },") ++ nl :: rest).
        rewrite load_features_ok.
        -- cbn [bind app].
           change (" "%char :: $"policy: " ++ print_Z p ++ $"," ++ $" xtime: " ++ print_float x ++ $" }," ++ nl :: rest)
             with ($" policy: " ++ print_Z p ++ $"," ++ $" xtime: " ++ print_float x ++ " "%char :: $"}," ++ nl :: rest).
           rewrite load_tail_metric_throw; auto. apply (print_float_plain prec_gt_0_64 prec_lt_emax_64). lia.
        -- cbn [fr r_features]. clear - F2. induction F2; cbn [map combine]; constructor; auto. cbn [fst snd]. split; auto.
           apply (print_float_plain prec_gt_0_32 prec_lt_emax_32). lia.
        -- assert (X := concat_length_ge (r_features fr)). rewrite app_length. lia.
        -- apply entry_gap_blank.
      * intros (_ & NM). cbn in NM. destruct (metric_copy x NM) as (m & M1 & _). unfold stod in M1. rewrite M in M1. discriminate.
  - left. split.
    + cbn [load_records].
      assert (ST : nl :: store_entry idx ([a], p, x) ++ rest = (nl :: $"  ") ++ (print_Z idx ++ $":") ++ " "%char :: $"{ features: [ "
         ++ (print_float a ++ $",") ++ " "%char :: $"], policy: " ++ print_Z p ++ $", xtime: " ++ print_float x ++ $" }," ++ nl :: rest).
      { unfold store_entry. cbn [map List.concat app]. rewrite <- !app_assoc. reflexivity. }
      rewrite ST. rewrite next_word; auto using blank_spaces, blank_nl. cbn [bind]. unfold token_is. rewrite token_at by apply GI.
      rewrite bytes_eqb_neq by assumption. rewrite (load_record_phase _ idx) by assumption.
      rewrite load_features_throw by assumption. reflexivity.
    + intros (NF & _). cbn in NF. inversion NF; subst.
      destruct (print_read prec_gt_0_32 prec_lt_emax_32 a ($",") max6_ok_32 H1 (value_end_comma [])) as (y & Y1 & _).
      unfold stof in TH. rewrite TH in Y1. discriminate.
Qed.

Lemma entry_bad fuel d0 idx e rest buf off :
  is_int idx -> (2 <= List.length (fst (fst e)))%nat ->
  load_records (S fuel) d0 (mkParser (nl :: store_entry idx e ++ rest) buf off) = Abort \/
  (load_records (S fuel) d0 (mkParser (nl :: store_entry idx e ++ rest) buf off) = Throw /\ ~ meas_normal (entry_meas e)).
Proof.
  destruct e as [[f p] x]. cbn [fst snd]. intros I L.
  destruct f as [|a [|b f]]; cbn in L; try lia.
  assert (PI := print_Z_plain idx I).
  assert (EI : stoi (print_Z idx ++ $":") = Ok (idx, $":")) by (apply stoi_print; [exact I|reflexivity]).
  assert (GI : good_word (print_Z idx ++ $":")) by (apply plain_good; auto; cleans).
  assert (NB : print_Z idx ++ $":" <> $"}").
  { intros X. destruct PI as (NN & _). destruct (print_Z idx) as [|c l]; [congruence|]. destruct l; discriminate. }
  cbn [load_records].
  assert (ST : nl :: store_entry idx (a :: b :: f, p, x) ++ rest = (nl :: $"  ") ++ (print_Z idx ++ $":") ++ " "%char :: $"{ features: [ "
     ++ feature_list (a :: b :: f) ++ " "%char :: $"], policy: " ++ print_Z p ++ $", xtime: " ++ print_float x ++ $" }," ++ nl :: rest).
  { unfold store_entry. fold (feature_list (a :: b :: f)). cbn [app]. rewrite <- !app_assoc. reflexivity. }
  rewrite ST. rewrite next_word; auto using blank_spaces, blank_nl. cbn [bind]. unfold token_is. rewrite token_at by apply GI.
  rewrite bytes_eqb_neq by assumption. rewrite (load_record_phase _ idx) by assumption.
  set (T := $"], policy: " ++ print_Z p ++ $", xtime: " ++ print_float x ++ $" }," ++ nl :: rest).
  destruct (load_features_bad a b f (S (List.length (feature_list (a :: b :: f) ++ " "%char :: T))) T ($"[") 0) as [E|[E N]]; rewrite E; cbn [bind].
  - now left.
  - right. split; auto. intros (NF & _). cbn in NF. inversion NF; subst. auto.
Qed.

Lemma load_bad d : forall fuel idx d0 rest buf off,
  0 <= idx -> idx + Z.of_nat (List.length d) <= 2147483648 -> (List.length d < fuel)%nat ->
  Forall (fun e : key * f64 => is_int (snd (fst e)) /\ fok (fst (fst e))) d ->
  Exists (fun e : key * f64 => (2 <= List.length (fst (fst e)))%nat) d ->
  load_records fuel d0 (mkParser (nl :: store_entries idx d ++ rest) buf off) = Abort \/
  (load_records fuel d0 (mkParser (nl :: store_entries idx d ++ rest) buf off) = Throw /\
   Exists (fun e => ~ meas_normal (entry_meas e)) d).
Proof.
  induction d as [|e d IH]; intros fuel idx d0 rest buf off I0 I L F X; [inversion X|].
  destruct fuel as [|fuel]; [lia|]. inversion F as [|? ? (P & N) F']; subst. cbn [List.length] in I, L.
  cbn [store_entries]. rewrite <- app_assoc.
  assert (II : is_int idx) by (unfold is_int; lia).
  destruct (Nat.le_gt_cases 2 (List.length (fst (fst e)))) as [B|B].
  - destruct (entry_bad fuel d0 idx e (store_entries (idx + 1) d ++ rest) buf off II B) as [E|[E Q]]; [now left|right; split; auto].
  - assert (X' : Exists (fun e : key * f64 => (2 <= List.length (fst (fst e)))%nat) d).
    { apply Exists_cons in X as [X|X]; [lia|exact X]. }
    destruct (entry_step fuel d0 idx e (store_entries (idx + 1) d ++ rest) buf off II P (proj1 (Nat.lt_succ_r _ _) B) N) as [[E Q]|(d1 & buf' & off' & E)].
    + right. split; auto.
    + rewrite E. destruct (IH fuel (idx + 1) d1 rest buf' off') as [Y|[Y Q]]; try lia; auto.
Qed.

Lemma store_entries_length d : forall idx, (List.length d <= List.length (store_entries idx d))%nat.
Proof.
  induction d as [|e d IH]; intros idx; cbn [store_entries List.length]; [lia|]. rewrite app_length.
  specialize (IH (idx + 1)). destruct e as [[f p] x]. unfold store_entry. rewrite !app_length. cbn [List.length lit list_ascii_of_string]. lia.
Qed.

Lemma ds_load_bad d d0 : wfd d -> Z.of_nat (List.length d) <= 2147483648 ->
  Forall (fun e : key * f64 => is_int (snd (fst e))) d ->
  Exists (fun e : key * f64 => (2 <= List.length (fst (fst e)))%nat) d ->
  ds_load d0 (ds_store d) = Abort \/
  (ds_load d0 (ds_store d) = Throw /\ Exists (fun e => ~ meas_normal (entry_meas e)) d).
Proof.
  intros [W _] I P X. unfold ds_load, ds_store, new_parser.
  change ($"data: {" ++ [nl] ++ store_entries 0 d ++ $"}" ++ [nl])
    with ([] ++ $"data:" ++ " "%char :: $"{" ++ nl :: store_entries 0 d ++ $"}" ++ [nl]).
  rewrite expect_word by first [apply blank_nil|reflexivity|good]. cbn [bind].
  change (" "%char :: $"{" ++ nl :: store_entries 0 d ++ $"}" ++ [nl])
    with ($" " ++ $"{" ++ nl :: store_entries 0 d ++ $"}" ++ [nl]).
  rewrite expect_word by (auto using blank_space; good). cbn [bind]. cbn [p_in].
  assert (F : Forall (fun e : key * f64 => is_int (snd (fst e)) /\ fok (fst (fst e))) d).
  { rewrite Forall_forall in *. intros e Ie. split; auto. exact (W _ Ie). }
  match goal with |- context [load_records ?fuel _ (mkParser (nl :: store_entries 0 d ++ ?r) ?b ?o)] =>
    destruct (load_bad d fuel 0 d0 r b o) as [E|[E Q]]; auto; try lia end.
  - cbn [List.length]. rewrite app_length. assert (Y := store_entries_length d 0). lia.
  - left. rewrite E. reflexivity.
  - right. rewrite E. auto.
Qed.

(** * Truncated files *)
Definition suffix (a b : bytes) : Prop := exists pre, b = pre ++ a.
Lemma suffix_refl a : suffix a a.
Proof. now exists []. Qed.
Lemma suffix_trans a b c : suffix a b -> suffix b c -> suffix a c.
Proof. intros [x ->] [y ->]. exists (y ++ x). now rewrite app_assoc. Qed.

Lemma next_suffix p p' : get_next_token p = Ok p' -> suffix (p_in p') (p_in p).
Proof.
  intros E. assert (C := classify p). rewrite E in C.
  inversion C as [H0|b w c r E0 B F NW H SP L| |]; subst.
  - rewrite H0. apply suffix_refl.
  - cbn [p_in]. rewrite E0. exists (b ++ w). now rewrite app_assoc.
Qed.
Lemma bind_ok {A B} (m : outcome A) (f : A -> outcome B) b : bind m f = Ok b -> exists a, m = Ok a /\ f a = Ok b.
Proof. destruct m; cbn; intros H; try discriminate. eauto. Qed.
Lemma parse_expected_same s p p' : parse_expected s p = Ok p' -> p' = p.
Proof. unfold parse_expected. destruct (token_is p s); intros H; inversion H; auto. Qed.
Lemma expect_suffix s p p' : expect_next s p = Ok p' -> suffix (p_in p') (p_in p).
Proof.
  unfold expect_next. intros H. apply bind_ok in H as (q & E & H). apply parse_expected_same in H. subst. now apply next_suffix.
Qed.
Lemma parse_int_in p v p' : parse_int p = Ok (v, p') -> p_in p' = p_in p.
Proof. unfold parse_int. intros H. apply bind_ok in H as (q & E & H). inversion H; reflexivity. Qed.
Lemma parse_float_in p v p' : parse_float p = Ok (v, p') -> p_in p' = p_in p.
Proof. unfold parse_float. intros H. apply bind_ok in H as (q & E & H). inversion H; reflexivity. Qed.
Lemma parse_double_in p v p' : parse_double p = Ok (v, p') -> p_in p' = p_in p.
Proof. unfold parse_double. intros H. apply bind_ok in H as (q & E & H). inversion H; reflexivity. Qed.

Lemma load_features_suffix fuel : forall acc p fs p', load_features fuel acc p = Ok (fs, p') -> suffix (p_in p') (p_in p).
Proof.
  induction fuel; intros acc p fs p' H; [discriminate|]. cbn [load_features] in H.
  apply bind_ok in H as (q & E & H). apply next_suffix in E. destruct (token_is q ($"],")).
  - inversion H; subst. exact E.
  - apply bind_ok in H as ([x r] & E2 & H). apply parse_float_in in E2.
    apply bind_ok in H as (r2 & E3 & H). apply parse_expected_same in E3. subst.
    apply IHfuel in H. rewrite E2 in H. eapply suffix_trans; eauto.
Qed.

Ltac step H := let q := fresh "q" in let E := fresh "E" in apply bind_ok in H as (q & E & H).

Lemma load_record_suffix p fs pol x p' : load_record p = Ok (fs, pol, x, p') -> suffix (p_in p') (p_in p).
Proof.
  unfold load_record. intros H.
  apply bind_ok in H as ([v q1] & E1 & H). apply parse_int_in in E1.
  apply bind_ok in H as (q2 & E2 & H). apply parse_expected_same in E2. subst q2.
  apply bind_ok in H as (q3 & E3 & H). apply expect_suffix in E3.
  apply bind_ok in H as (q4 & E4 & H). apply expect_suffix in E4.
  apply bind_ok in H as (q5 & E5 & H). apply expect_suffix in E5.
  apply bind_ok in H as ([g q6] & E6 & H). apply load_features_suffix in E6.
  apply bind_ok in H as (q7 & E7 & H). apply expect_suffix in E7.
  apply bind_ok in H as (q8 & E8 & H). apply next_suffix in E8.
  apply bind_ok in H as ([v9 q9] & E9 & H). apply parse_int_in in E9.
  apply bind_ok in H as (q10 & E10 & H). apply parse_expected_same in E10. subst q10.
  apply bind_ok in H as (q11 & E11 & H). apply expect_suffix in E11.
  apply bind_ok in H as (q12 & E12 & H). apply next_suffix in E12.
  apply bind_ok in H as ([v13 q13] & E13 & H). apply parse_double_in in E13.
  apply bind_ok in H as (q14 & E14 & H). apply expect_suffix in E14.
  inversion H; subst. rewrite <- E1. rewrite E9 in *. rewrite E13 in *.
  repeat (eapply suffix_trans; [eassumption|]). apply suffix_refl.
Qed.

(** A successful load has seen a closing brace that is not followed by a comma. *)
Lemma load_records_brace fuel : forall d p d' p', p_in p <> [] -> load_records fuel d p = Ok (d', p') ->
  exists pre c x, p_in p = pre ++ "}"%char :: c :: x /\ c <> ","%char /\ suffix (p_in p') (c :: x) /\ p_in p' <> [].
Proof.
  induction fuel; intros d p d' p' N H; [discriminate|]. cbn [load_records] in H.
  apply bind_ok in H as (q & E & H). destruct (token_is q ($"}")) eqn:T.
  - inversion H; subst. assert (C := classify p). rewrite E in C.
    inversion C as [H0|b w c r E0 B F NW HD SP L| |]; [congruence|]; subst.
    apply bytes_eqb_spec in T. unfold token in T. cbn [p_off p_buf skipn] in T.
    destruct w as [|a w]; [congruence|]. cbn [cstr] in T. destruct (Ascii.eqb a nul); [discriminate|].
    injection T as TA TB. subst a.
    destruct w as [|a w].
    + exists b, c, r. split; [exact E0|]. split; [intros ->; discriminate|]. split; [apply suffix_refl|discriminate].
    + cbn [cstr] in TB. destruct (Ascii.eqb_spec a nul); [|discriminate]. subst a.
      exists b, nul, (w ++ c :: r). split; [exact E0|]. split; [discriminate|]. split; [|discriminate].
      exists (nul :: w). reflexivity.
  - apply bind_ok in H as ([[[fs pol] x] r] & E2 & H). apply load_record_suffix in E2.
    apply bind_ok in H as (d1 & E3 & H).
    destruct (p_in r) as [|c0 r0] eqn:ER.
    + (* nothing left: the next token is empty and is not an index *)
      exfalso. destruct fuel; [discriminate|]. cbn [load_records] in H. rewrite next_token_empty in H by assumption.
      cbn [bind] in H. change (token_is (mkParser [] [] 0) ($"}")) with false in H. cbv iota in H.
      assert (LR : load_record (mkParser [] [] 0) = Throw) by reflexivity. rewrite LR in H. discriminate.
    + destruct (IHfuel d1 r d' p') as (pre & c & y & EQ & NC & SF & NE); auto; [congruence|].
      apply next_suffix in E. rewrite <- ER in E2. assert (S := suffix_trans _ _ _ E2 E). destruct S as [pre2 S].
      exists (pre2 ++ pre), c, y. rewrite S, EQ, <- app_assoc. auto.
Qed.

(** Texts where every closing brace is followed by a comma. *)
Definition braces_closed (s : bytes) : Prop := forall a b, s = a ++ "}"%char :: b -> exists b', b = ","%char :: b'.

Lemma no_brace_closed s : Forall (fun c => c <> "}"%char) s -> braces_closed s.
Proof. intros F a b ->. apply Forall_app in F as [_ F]. inversion F; congruence. Qed.

Lemma app_split {A} (x y a b : list A) c : x ++ y = a ++ c :: b ->
  (exists b1, x = a ++ c :: b1 /\ b = b1 ++ y) \/ (exists a2, a = x ++ a2 /\ y = a2 ++ c :: b).
Proof.
  revert a. induction x as [|z x IH]; intros a E.
  - right. exists a. auto.
  - destruct a as [|w a]; cbn in E; inversion E; subst.
    + left. exists x. auto.
    + destruct (IH a H1) as [(b1 & -> & ->)|(a2 & -> & ->)]; [left; exists b1; auto|right; exists a2; auto].
Qed.
Lemma closed_app x y : braces_closed x -> braces_closed y -> braces_closed (x ++ y).
Proof.
  intros X Y a b E. apply app_split in E as [(b1 & E & ->)|(a2 & -> & E)].
  - apply X in E as [b' ->]. cbn. eauto.
  - apply Y in E. exact E.
Qed.

Lemma clean_no_brace_digits l : Forall isdig l -> Forall (fun c => c <> "}"%char) l.
Proof. apply Forall_impl. intros c H ->. discriminate H. Qed.
Lemma print_Z_no_brace z : Forall (fun c => c <> "}"%char) (print_Z z).
Proof.
  unfold print_Z. destruct (z <? 0); [constructor; [discriminate|]|]; apply clean_no_brace_digits, print_nonneg_digits.
Qed.
Lemma print_float_no_brace {prec emax} (x : binary_float prec emax) : Forall (fun c => c <> "}"%char) (print_float x).
Proof.
  destruct x as [s|s| |s m e b]; cbn [print_float].
  - destruct s; repeat constructor; discriminate.
  - destruct s; repeat constructor; discriminate.
  - repeat constructor; discriminate.
  - destruct (ratio_of m e) as [n d]. destruct (dec6 n d) as [D X].
    apply Forall_app. split; [destruct s; repeat constructor; discriminate|].
    eapply Forall_impl; [|apply fmt_g_chars]. intros c [H|[->|[->|[->| ->]]]]; try discriminate. intros ->. discriminate H.
Qed.

Lemma store_entry_closed idx e : braces_closed (store_entry idx e).
Proof.
  destruct e as [[f p] x]. unfold store_entry.
  repeat apply closed_app; try (apply no_brace_closed; repeat constructor; discriminate);
    try (apply no_brace_closed; apply print_Z_no_brace).
  - apply no_brace_closed. induction f; cbn [map List.concat]; [constructor|]. apply Forall_app. split; auto.
    apply Forall_app. split; [apply print_float_no_brace|repeat constructor; discriminate].
  - apply no_brace_closed, print_float_no_brace.
  - intros a b E. destruct a as [|c1 [|c2 [|c3 [|c4 a]]]]; cbn in E; inversion E; subst; eauto.
Qed.
Lemma store_entries_closed d : forall idx, braces_closed (store_entries idx d).
Proof.
  induction d; intros idx; cbn [store_entries].
  - apply no_brace_closed. constructor.
  - apply closed_app; auto. apply store_entry_closed.
Qed.

Lemma truncated d0 d s t r : ds_store d = s ++ t -> t <> [] -> ds_load d0 s <> Ok r.
Proof.
  intros E T H. destruct r as [d' rest]. unfold ds_load in H.
  apply bind_ok in H as (p1 & E1 & H). apply bind_ok in H as (p2 & E2 & H). apply bind_ok in H as ([d2 p3] & E3 & H).
  assert (N2 : p_in p2 <> []).
  { unfold expect_next in E1, E2. apply bind_ok in E1 as (q1 & G1 & E1). apply parse_expected_same in E1 as EQ. subst p1.
    apply bind_ok in E2 as (q2 & G2 & E2). apply parse_expected_same in E2 as EQ. subst p2.
    assert (C1 := classify (new_parser s)). rewrite G1 in C1. inversion C1; subst; [discriminate E1|].
    assert (C2 := classify (mkParser (c :: r) w 0)). rewrite G2 in C2. inversion C2; subst; [discriminate E2|]. discriminate. }
  destruct (load_records_brace _ _ _ _ _ N2 E3) as (pre & c & x & EQ & NC & SF & NE).
  assert (S : suffix (p_in p2) s).
  { apply expect_suffix in E1. apply expect_suffix in E2. eapply suffix_trans; eauto. }
  destruct S as [pre0 S]. rewrite EQ in S. rewrite S in E.
  unfold ds_store in E.
  assert (Q : braces_closed ($"data: {" ++ [nl] ++ store_entries 0 d)).
  { repeat apply closed_app; try (apply no_brace_closed; repeat constructor; discriminate). apply store_entries_closed. }
  set (A := $"data: {" ++ [nl] ++ store_entries 0 d) in *.
  assert (E' : A ++ $"}" ++ [nl] = (pre0 ++ pre) ++ "}"%char :: (c :: x) ++ t).
  { unfold A. rewrite <- !app_assoc. rewrite <- !app_assoc in E. exact E. }
  apply app_split in E' as [(b1 & EA & EB)|(a2 & EA & EB)].
  - apply Q in EA as [b' ->]. cbn in EB. inversion EB; subst. congruence.
  - destruct a2 as [|y [|z a2]]; cbn in EB; inversion EB; subst.
    + destruct x as [|? x]; [|discriminate]. cbn in *. congruence.
    + destruct a2; discriminate.
Qed.

(** * Termination *)
Lemma parse_int_token p v p' : parse_int p = Ok (v, p') -> token p <> [].
Proof. unfold parse_int. intros H E. rewrite E in H. discriminate. Qed.
Lemma parse_float_token p v p' : parse_float p = Ok (v, p') -> token p <> [].
Proof. unfold parse_float. intros H E. rewrite E in H. discriminate. Qed.

Lemma stoi_no_fuel s : stoi s <> Fuel.
Proof. unfold stoi. destruct (take_sign _). destruct (span_digits _) as [[|] ?]; try discriminate. destruct (_ && _); discriminate. Qed.
Lemma stoul_no_fuel s : stoul s <> Fuel.
Proof. unfold stoul. destruct (take_sign _). destruct (span_digits _) as [[|] ?]; try discriminate. destruct (_ <? _); discriminate. Qed.
Lemma stoX_no_fuel prec emax Hp He s : stoX prec emax Hp He s <> Fuel.
Proof.
  unfold stoX. destruct (lex_num s) as [[t r]|]; [|discriminate].
  assert (V : forall neg n d, value_ratio prec emax Hp He neg n d <> Fuel).
  { intros. unfold value_ratio. destruct (ratio_float _ _ _ _ _ _ _); try discriminate; destruct (_ && _); discriminate. }
  assert (X : value_of prec emax Hp He t <> Fuel).
  { destruct t as [neg m e|neg m e| |]; cbn [value_of]; try discriminate; destruct m; try discriminate; destruct (ratio_of_dec _ _ _); apply V. }
  destruct (value_of prec emax Hp He t); cbn [bind]; congruence.
Qed.
Lemma bind_no_fuel {A B} (m : outcome A) (f : A -> outcome B) : m <> Fuel -> (forall a, m = Ok a -> f a <> Fuel) -> bind m f <> Fuel.
Proof. destruct m; cbn; intros H1 H2; auto; try discriminate. Qed.
Lemma parse_expected_no_fuel s p : parse_expected s p <> Fuel.
Proof. unfold parse_expected. destruct (token_is p s); discriminate. Qed.
Lemma expect_no_fuel s p : expect_next s p <> Fuel.
Proof. unfold expect_next. apply bind_no_fuel; [apply get_next_token_no_fuel|]. intros. apply parse_expected_no_fuel. Qed.
Lemma parse_int_no_fuel p : parse_int p <> Fuel.
Proof. unfold parse_int. apply bind_no_fuel; [apply stoi_no_fuel|discriminate]. Qed.
Lemma parse_float_no_fuel p : parse_float p <> Fuel.
Proof. unfold parse_float. apply bind_no_fuel; [apply stoX_no_fuel|discriminate]. Qed.
Lemma parse_double_no_fuel p : parse_double p <> Fuel.
Proof. unfold parse_double. apply bind_no_fuel; [apply stoX_no_fuel|discriminate]. Qed.

Lemma load_features_no_fuel fuel : forall acc p, (List.length (p_in p) < fuel)%nat -> load_features fuel acc p <> Fuel.
Proof.
  induction fuel; intros acc p L; [lia|]. cbn [load_features].
  apply bind_no_fuel; [apply get_next_token_no_fuel|]. intros q E.
  destruct (token_is q ($"],")); [discriminate|].
  apply bind_no_fuel; [apply parse_float_no_fuel|]. intros [x r] E2.
  apply bind_no_fuel; [apply parse_expected_no_fuel|]. intros r2 E3.
  apply parse_expected_same in E3. subst. apply IHfuel.
  assert (T := parse_float_token _ _ _ E2). apply parse_float_in in E2. rewrite E2.
  apply get_next_token_length in E. destruct E as [_ E]. specialize (E T). lia.
Qed.

Lemma suffix_length a b : suffix a b -> (List.length a <= List.length b)%nat.
Proof. intros [p ->]. rewrite app_length. lia. Qed.

Lemma load_record_no_fuel p : load_record p <> Fuel.
Proof.
  unfold load_record.
  apply bind_no_fuel; [apply parse_int_no_fuel|]. intros [v q1] _.
  apply bind_no_fuel; [apply parse_expected_no_fuel|]. intros q2 _.
  apply bind_no_fuel; [apply expect_no_fuel|]. intros q3 _.
  apply bind_no_fuel; [apply expect_no_fuel|]. intros q4 _.
  apply bind_no_fuel; [apply expect_no_fuel|]. intros q5 _.
  apply bind_no_fuel; [apply load_features_no_fuel; lia|]. intros [g q6] _.
  apply bind_no_fuel; [apply expect_no_fuel|]. intros q7 _.
  apply bind_no_fuel; [apply get_next_token_no_fuel|]. intros q8 _.
  apply bind_no_fuel; [apply parse_int_no_fuel|]. intros [v9 q9] _.
  apply bind_no_fuel; [apply parse_expected_no_fuel|]. intros q10 _.
  apply bind_no_fuel; [apply expect_no_fuel|]. intros q11 _.
  apply bind_no_fuel; [apply get_next_token_no_fuel|]. intros q12 _.
  apply bind_no_fuel; [apply parse_double_no_fuel|]. intros [v13 q13] _.
  apply bind_no_fuel; [apply expect_no_fuel|]. intros q14 _. discriminate.
Qed.
Lemma ds_insert_no_fuel d f p m : ds_insert d f p m <> Fuel.
Proof. unfold ds_insert. destruct (negb _); [discriminate|]. destruct (map_find _ _ _); discriminate. Qed.

Lemma load_records_no_fuel fuel : forall d p, (List.length (p_in p) < fuel)%nat -> load_records fuel d p <> Fuel.
Proof.
  induction fuel; intros d p L; [lia|]. cbn [load_records].
  apply bind_no_fuel; [apply get_next_token_no_fuel|]. intros q E.
  destruct (token_is q ($"}")); [discriminate|].
  apply bind_no_fuel; [apply load_record_no_fuel|]. intros [[[fs pol] x] r] E2.
  apply bind_no_fuel; [apply ds_insert_no_fuel|]. intros d1 _. apply IHfuel.
  assert (T : token q <> []).
  { unfold load_record in E2. apply bind_ok in E2 as ([v q1] & E1 & _). eapply parse_int_token; eauto. }
  apply load_record_suffix, suffix_length in E2. apply get_next_token_length in E. destruct E as [_ E]. specialize (E T). lia.
Qed.

Lemma ds_load_terminates d s : ds_load d s <> Fuel.
Proof.
  unfold ds_load. apply bind_no_fuel; [apply expect_no_fuel|]. intros p1 _.
  apply bind_no_fuel; [apply expect_no_fuel|]. intros p2 _.
  apply bind_no_fuel; [apply load_records_no_fuel; lia|]. intros [d2 p3] _. discriminate.
Qed.
