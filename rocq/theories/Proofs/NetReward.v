(** Times whose rewards are alike, and times whose reward is infinite (C131). *)
From Coq Require Import List ZArith Bool Lia Reals Lra.
From Flocq Require Import Core BinarySingleNaN.
From Verif Require Import Model.Base Model.Float Model.DatasetM Model.NetM Model.PolicyNetM.
From Verif Require Import Spec.NetSpec Spec.PolicyNetSpec Spec.PoisonSpec Spec.RewardSpec Proofs.FloatFacts Proofs.TreeFacts Proofs.NetFacts Proofs.NetGradient Proofs.NetStep Proofs.NetAdam
  Proofs.PolicyNetAverage Proofs.PolicyNetFacts Proofs.PolicyNetSafety Proofs.PolicyNetLearn Proofs.NetBound Proofs.SoftmaxFloat Proofs.PolicyNetStale Proofs.NetPoison.
Import ListNotations.
Local Open Scope nat_scope.

Section Alike.
Context (M : libm).
Notation A := (f64_arith M).

Definition like (x y : list f32 * Z * f64) : Prop := fst x = fst y /\ m_exp M (Bopp (snd x)) = m_exp M (Bopp (snd y)).

Lemma train_like P a b : Forall2 like a b -> pn_train A (fun x => x) P a = pn_train A (fun x => x) P b.
Proof.
  intros F. unfold pn_train.
  assert (S : forall {B} (g : list f32 * Z * f64 -> outcome B) , (forall f p x y, g (f, p, x) = g (f, p, y)) -> map_out g (ds_to_vector a) = map_out g (ds_to_vector b)).
  { intros B g G. induction F as [|[[f p] x] [[f' p'] y] a b (E & _) _ IH]; [reflexivity|]. cbn [fst] in E. injection E as <- <-.
    cbn [ds_to_vector map map_out fst snd]. unfold ds_to_vector in IH. rewrite IH. rewrite (G f p x y). reflexivity. }
  assert (S2 : map (fun q : list f32 * Z * f64 => let '(_, p, _) := q in p) (ds_to_vector a) = map (fun q : list f32 * Z * f64 => let '(_, p, _) := q in p) (ds_to_vector b)).
  { clear S. induction F as [|[[f p] x] [[f' p'] y] a b (E & _) _ IH]; [reflexivity|]. cbn [fst] in E. injection E as <- <-.
    cbn [ds_to_vector map fst snd]. unfold ds_to_vector in IH. now rewrite IH. }
  assert (S3 : map (fun q : list f32 * Z * f64 => let '(_, _, x) := q in m_exp M (Bopp x)) (ds_to_vector a) = map (fun q : list f32 * Z * f64 => let '(_, _, x) := q in m_exp M (Bopp x)) (ds_to_vector b)).
  { clear S S2. induction F as [|[[f p] x] [[f' p'] y] a b (_ & E) _ IH]; [reflexivity|]. cbn [snd] in E.
    cbn [ds_to_vector map fst snd]. unfold ds_to_vector in IH. now rewrite IH, E. }
  cbv beta zeta. rewrite (S _ (fun q => let '(f, _, _) := q in let* zs := encode f in Ok (input_of (bit A) zs))) by reflexivity.
  rewrite S2. cbn [n_exp n_opp f64_arith]. rewrite S3. reflexivity.
Qed.

Lemma uses_alike : exp_vanishes M -> forall us vs, Forall2 alike us vs -> forall P, run_uses A (fun x => x) us P = run_uses A (fun x => x) vs P.
Proof.
  intros V us vs F. induction F as [|u v us vs L _ IH]; intros P; [reflexivity|]. destruct u as [d f|a], v as [d' f'|b]; cbn [alike] in L; try contradiction.
  - destruct L as [<- <-]. cbn [run_uses]. destruct (pn_get_index A d P f) as [[i Q]| | | |]; cbn [bind]; try reflexivity. now rewrite IH.
  - cbn [run_uses]. rewrite (train_like P a b).
    + destruct (pn_train A (fun x => x) P b); cbn [bind]; try reflexivity. apply IH.
    + clear IH. induction L as [|x y a b (E & W) _ IH]; constructor; [|exact IH]. clear IH. destruct W as [G|(G & H)]; (split; [exact E|]); [now rewrite G|now rewrite (V _ G), (V _ H)].
Qed.
End Alike.

(** Plus infinity or NaN. *)
Definition high (x : f64) : Prop := x = nan \/ x = B754_infinity false.

Lemma high_add_l x y : high x -> high (add64 x y).
Proof. intros [->| ->]; [left; apply add_nan_l|]. destruct y as [s|[|]| |s m e B]; cbn; unfold high; auto. Qed.
Lemma high_add_r x y : high y -> high (add64 x y).
Proof. intros [->| ->]; [left; apply add_nan_r|]. destruct x as [s|[|]| |s m e B]; cbn; unfold high; auto. Qed.
Lemma high_sub x y : high x -> high y -> sub64 x y = nan.
Proof. intros [->| ->] [->| ->]; reflexivity. Qed.
Lemma high_lt x y : high x -> lt64 x y = false.
Proof. intros [->| ->]; [apply lt_nan|]. destruct y as [[|]|[|]| |[|]]; reflexivity. Qed.
Lemma high_mul x y : le64 zero64 x = true -> high y -> high (mul64 x y).
Proof.
  intros L [->| ->]; [left; apply mul_nan_r|]. destruct x as [s|[|]| |[|] m e B]; try discriminate L; cbn; unfold high; auto.
Qed.
Lemma high_div x y : Bsign y = false -> high x -> high (div64 x y).
Proof. intros L [->| ->]; [left; apply div_nan_l|]. destruct y as [[|]|[|]| |[|] m e B]; try discriminate L; cbn; unfold high; auto. Qed.
Lemma high_fold l : forall s, high s \/ (exists x, In x l /\ high x) -> high (fold_left add64 l s).
Proof.
  induction l as [|y l IH]; intros s H; cbn [fold_left]; [destruct H as [H|(x & [] & _)]; exact H|].
  apply IH. destruct H as [H|(x & [<-|I] & H)]; [left; now apply high_add_l|left; now apply high_add_r|right; eauto].
Qed.

(** One minus a fraction is not negative. *)
Lemma one_minus x : fraction x -> Bsign (sub64 one64 x) = false /\ le64 zero64 (sub64 one64 x) = true.
Proof.
  intros (L0 & L1).
  assert (F : is_finite x = true) by (destruct x as [s|[|]| |s m e B]; try discriminate L0; try discriminate L1; reflexivity).
  assert (N : is_nan x = false) by (destruct x; try discriminate F; reflexivity).
  unfold le64 in L0, L1. rewrite (Bleb_xval 53 1024 zero64 x eq_refl N) in L0. rewrite (Bleb_xval 53 1024 x one64 N eq_refl) in L1.
  assert (X : xval x = B2R x) by (destruct x; try discriminate F; reflexivity).
  revert L0 L1. rewrite X. change (xval zero64) with 0%R. replace (xval one64) with 1%R by (symmetry; exact (proj1 one_value)).
  case (Rle_bool_spec 0 (B2R x)); [intros L0 _|discriminate]. case (Rle_bool_spec (B2R x) 1); [intros L1 _|discriminate].
  assert (F1 : is_finite one64 = true) by reflexivity.
  generalize (Bminus_correct 53 1024 _ _ mode_NE one64 x F1 F). rewrite (proj1 one_value).
  assert (R0 : (0 <= round radix2 (SpecFloat.fexp 53 1024) (round_mode mode_NE) (1 - B2R x))%R) by (apply round_ge_generic; [typeclasses eauto|typeclasses eauto|apply generic_format_0|lra]).
  assert (R1 : (round radix2 (SpecFloat.fexp 53 1024) (round_mode mode_NE) (1 - B2R x) <= 1)%R).
  { apply round_le_generic; [typeclasses eauto|typeclasses eauto| |lra]. change 1%R with (bpow radix2 0). apply generic_format_bpow. cbn. lia. }
  rewrite Rlt_bool_true.
  2:{ rewrite Rabs_pos_eq by exact R0. eapply Rle_lt_trans; [exact R1|]. change 1%R with (bpow radix2 0). apply bpow_lt. lia. }
  intros (V & FS & SG). fold (sub64 one64 x) in V, FS, SG. split.
  - rewrite SG. case (Rcompare_spec (1 - B2R x) 0); intros C; [lra| |reflexivity]. reflexivity.
  - unfold le64. rewrite (Bleb_xval 53 1024 zero64 (sub64 one64 x) eq_refl); [|destruct (sub64 one64 x); try discriminate FS; reflexivity].
    replace (xval (sub64 one64 x)) with (B2R (sub64 one64 x)) by (destruct (sub64 one64 x); try discriminate FS; reflexivity).
    apply Rle_bool_true. change (xval zero64) with 0%R. rewrite V. exact R0.
Qed.

Lemma count_positive n : (0 < n)%Z -> Bsign (f64_of_Z n) = false.
Proof.
  intros L. generalize (binary_normalize_correct 53 1024 eq_refl eq_refl mode_NE n 0 false).
  assert (P : (0 < F2R (Float radix2 n 0))%R) by (apply F2R_gt_0; exact L).
  change (binary_normalize 53 1024 _ _ mode_NE n 0 false) with (f64_of_Z n). cbv zeta. case (Rlt_bool_spec _ _); intros _.
  - intros (_ & _ & S). rewrite S. now rewrite Rcompare_Gt.
  - rewrite Rlt_bool_false by lra. intros S. destruct (f64_of_Z n) as [[|]|[|]| |[|]]; try discriminate S; reflexivity.
Qed.

Section Overflow.
Context (M : libm) (beta : f64) (DL : decent_libm M beta) (FB : fraction beta).
Notation A := (f64_arith M).

Record swamped (policies features : nat) (P : pnet f64) : Prop := {
  sw_policies : pn_policies P = policies;
  sw_net : exists h, drowned_net (64 * features) h policies (pn_net P);
  sw_beta : pn_beta P = beta;
  sw_avg : high (pn_avg P);
  sw_count : (0 < pn_count P)%Z;
  sw_cache : forall k v, cache_find k (pn_cache P) = Some v -> v = repeat nan policies
}.

Lemma swamped_sized policies features P : swamped policies features P -> sized policies features P.
Proof.
  intros [DP (h & DS & _) _ _ _ DC]. constructor; [exact DP|exists h; exact DS|]. intros k v H. rewrite (DC k v H). apply repeat_length.
Qed.

Lemma high_baseline P : pn_beta P = beta -> high (pn_avg P) -> (0 < pn_count P)%Z -> high (baseline A P).
Proof.
  intros B H C. unfold baseline. rewrite (proj2 (Z.ltb_lt _ _) C), B. cbn [n_div n_sub n_one n_pow f64_arith].
  apply high_div; [|exact H]. apply one_minus, (dl_pow _ _ DL), C.
Qed.

Lemma get_swamped policies features P draw f i Q : 0 < policies -> swamped policies features P -> features_ok features f -> pn_get_index A draw P f = Ok (i, Q) ->
  swamped policies features Q /\ pn_count Q = pn_count P /\ draw (repeat nan policies) = Ok i.
Proof.
  intros Hp D F H. unfold pn_get_index in H.
  assert (HB := high_baseline P (sw_beta _ _ _ D) (sw_avg _ _ _ D) (sw_count _ _ _ D)). cbn [n_lt f64_arith] in H. rewrite (high_lt _ _ HB) in H.
  unfold lookup_probs in H. destruct (encode_features features f F) as (zs & EZ & LZ). rewrite EZ in H. cbn [bind] in H.
  destruct (cache_find (key_of zs) (pn_cache P)) as [p|] eqn:CF; cbn [bind] in H.
  - rewrite (sw_cache _ _ _ D _ _ CF) in H. destruct (draw (repeat nan policies)) as [k| | | |]; cbn [bind] in H; try discriminate H. injection H as <- <-. auto.
  - destruct (evaluate_net A P zs) as [p| | | |] eqn:EV; cbn [bind] in H; try discriminate H.
    assert (EP : p = repeat nan policies).
    { unfold evaluate_net in EV. destruct (net_forward A (pn_net P) _ 1) as [q| | | |] eqn:NF; cbn [bind] in EV; try discriminate EV.
      destruct (sw_net _ _ _ D) as (h & DN). apply (evaluate_drowned M (dl_exp _ _ DL) _ _ _ _ _ _ DN Hp) in NF; [|rewrite input_length; lia]. rewrite (sw_policies _ _ _ D) in EV.
      assert (LQ : length q = policies) by (rewrite NF; apply repeat_length). rewrite <- LQ in EV at 1. rewrite map_rd in EV. congruence. }
    subst p. destruct (draw (repeat nan policies)) as [k| | | |]; cbn [bind] in H; try discriminate H. injection H as <- <-. split; [|auto].
    destruct D as [DP DN DB DA DC DK]. constructor; cbn [pn_policies pn_net pn_beta pn_avg pn_count pn_cache]; auto.
    intros k0 v. cbn [cache_find]. destruct (bytes_eqb k0 (key_of zs)); [intros G; now injection G as <-|apply DK].
Qed.

Lemma train_beta P d Q : pn_train A (fun x => x) P d = Ok Q -> pn_beta Q = pn_beta P.
Proof.
  intros E. unfold pn_train in E.
  match type of E with context [map_out ?f ?l] => destruct (map_out f l) as [states| | | |] eqn:S end; cbn [bind] in E; try discriminate.
  destruct states as [|s0 states]; [cbn [train_net bind] in E; injection E as <-; reflexivity|].
  cbn [train_net] in E. destruct (pn_count P =? int_max)%Z; [discriminate E|].
  match type of E with context [n_lt A ?u ?v] => destruct (n_lt A u v) end; cbn [bind] in E; [injection E as <-; reflexivity|].
  repeat match type of E with context [map_out ?f ?l] => destruct (map_out f l) as [?| | | |]; cbn [bind] in E; try discriminate E end.
  match type of E with context [train_step A ?a ?b ?c ?d ?e] => destruct (train_step A a b c d e) as [?| | | |]; cbn [bind] in E; try discriminate E end.
  injection E as <-. reflexivity.
Qed.

Lemma train_swamped policies features P d Q : 0 < policies -> sized policies features P -> pn_beta P = beta -> use_ok policies features (Learn (T := f64) d) -> (0 <= pn_count P < int_max)%Z ->
  (swamped policies features P \/ exists e, In e d /\ high (m_exp M (Bopp (snd e)))) -> pn_train A (fun x => x) P d = Ok Q -> swamped policies features Q.
Proof.
  intros Hp SZ BE U C B E. destruct (train_fields M P d Q E) as (F1 & F2 & F3 & F4). assert (BQ := train_beta P d Q E).
  destruct F4 as [(-> & F5 & F6)|(ND & F5 & F6)].
  { destruct B as [[DP DN DB DA DC DK]|(e & [] & _)]. destruct (learns A (fun x => x) policies features P [] Q U C E) as [[_ N]|(X & _)]; [|congruence].
    constructor; [congruence|rewrite N; exact DN|congruence|rewrite F5; exact DA|lia|rewrite F2; discriminate]. }
  assert (AV : high (pn_avg Q)).
  { rewrite F6, BE. destruct B as [D|(e & I & V)]; [apply high_add_l, high_mul; [apply FB|apply D]|].
    apply high_add_r, high_mul; [apply one_minus, FB|]. apply high_div; [apply count_positive; destruct d; [congruence|cbn [length]; lia]|].
    apply high_fold. right. eexists. split; [apply in_map_iff; exists e; split; [reflexivity|exact I]|exact V]. }
  assert (BL : high (baseline A Q)) by (apply high_baseline; [congruence|exact AV|lia]).
  destruct (learns A (fun x => x) policies features P d Q U C E) as [[[X|X] _]|(_ & _ & N)]; [congruence| |].
  { cbn [n_lt f64_arith] in X. rewrite (high_lt _ _ BL) in X. discriminate X. }
  destruct (sz_net _ _ _ SZ) as (h & SN).
  destruct (batch_of policies features d (map (fun _ => 0%R) d) U (map_length _ _)) as (R1 & _ & _ & R2).
  constructor; [rewrite F1; apply SZ| |congruence|exact AV|lia|rewrite F2; discriminate].
  assert (K : exists h, shaped (pn_net P) (64 * features) h policies /\ (nans (l_b (layer3 (pn_net P))) \/ exists e, In e d /\ high (m_exp M (Bopp (snd e))))).
  { destruct B as [D|B]; [destruct (sw_net _ _ _ D) as (h' & S' & NB); exists h'; auto|exists h; auto]. }
  clear h SN. destruct K as (h & SN & K). exists h.
  refine (train_biases M (pn_net P) _ _ _ (length d) _ _ _ _ SN Hp _ _ _ _ _ _ N).
  - destruct d; [congruence|cbn; lia].
  - rewrite (concat_length (64 * features)); [now rewrite map_length|]. apply Forall_forall. intros s I. apply in_map_iff in I as (e & <- & I).
    rewrite input_length. unfold integer_parts. rewrite map_length. cbn [use_ok] in U. rewrite Forall_forall in U. destruct (U e I) as ((-> & _) & _). reflexivity.
  - now rewrite map_length.
  - now rewrite map_length.
  - intros i I. rewrite Forall_forall in R2. apply R2. apply nth_In. rewrite map_length. exact I.
  - destruct K as [K|(e & I & V)]; [now left|]. right. apply in_map_iff. exists e. split; [|exact I]. cbn [n_sub n_exp n_opp f64_arith]. now apply high_sub.
Qed.

Lemma uses_swamped policies features us : 0 < policies -> List.Forall (use_ok policies features) us -> forall P l Q,
  swamped policies features P -> (pn_count P + Z.of_nat (length us) <= int_max)%Z -> run_uses A (fun x => x) us P = Ok (l, Q) ->
  all_drawn_from (repeat nan policies) us l /\ swamped policies features Q.
Proof.
  intros Hp U. induction U as [|u us U _ IH]; intros P l Q D C H; cbn [run_uses] in H.
  { injection H as <- <-. cbn. auto. }
  cbn [length] in C. destruct u as [draw f|d].
  - destruct (pn_get_index A draw P f) as [[i P1]| | | |] eqn:G; cbn [bind] in H; try discriminate H.
    destruct (run_uses A (fun x => x) us P1) as [[l1 Q1]| | | |] eqn:H1; cbn [bind] in H; try discriminate H. injection H as <- <-.
    destruct (get_swamped policies features P draw f i P1 Hp D (proj1 U) G) as (D1 & CP & DR).
    destruct (IH P1 l1 Q1 D1 ltac:(lia) H1) as (X & Y). cbn [all_drawn_from]. auto.
  - destruct (pn_train A (fun x => x) P d) as [P1| | | |] eqn:T; cbn [bind] in H; try discriminate H. pose proof (sw_count _ _ _ D) as CP.
    assert (D1 : swamped policies features P1) by (apply (train_swamped policies features P d P1 Hp (swamped_sized _ _ _ D) (sw_beta _ _ _ D) U); [lia|left; exact D|exact T]).
    destruct (train_fields M P d P1 T) as (_ & _ & _ & F4).
    apply (IH P1 l Q D1); [destruct F4 as [(_ & _ & ->)|(_ & -> & _)]; lia|exact H].
Qed.

Lemma uses_beta us : forall P l Q, run_uses A (fun x => x) us P = Ok (l, Q) -> pn_beta Q = pn_beta P.
Proof.
  induction us as [|[draw f|d] us IH]; intros P l Q H; cbn [run_uses] in H.
  - now injection H as <- <-.
  - destruct (pn_get_index A draw P f) as [[i P1]| | | |] eqn:G; cbn [bind] in H; try discriminate H.
    destruct (run_uses A (fun x => x) us P1) as [[l1 Q1]| | | |] eqn:H1; cbn [bind] in H; try discriminate H. injection H as <- <-. rewrite (IH _ _ _ H1).
    unfold pn_get_index in G. destruct (n_lt A _ _); [now injection G as _ <-|]. unfold lookup_probs in G. destruct (encode f) as [zs| | | |]; cbn [bind] in G; try discriminate G.
    destruct (cache_find (key_of zs) (pn_cache P)) as [p|]; cbn [bind] in G.
    + destruct (draw p); cbn [bind] in G; try discriminate G. now injection G as _ <-.
    + destruct (evaluate_net A P zs) as [p| | | |]; cbn [bind] in G; try discriminate G. destruct (draw p); cbn [bind] in G; try discriminate G. now injection G as _ <-.
  - destruct (pn_train A (fun x => x) P d) as [P1| | | |] eqn:T; cbn [bind] in H; try discriminate H. rewrite (IH _ _ _ H). now apply train_beta in T.
Qed.

Lemma overflown policies features lr beta1 beta2 threshold init us1 d us2 l1 l2 P Q Q' : 0 < policies ->
  List.Forall (use_ok policies features) (us1 ++ Learn d :: us2) -> (Z.of_nat (length (us1 ++ Learn (T := f64) d :: us2)) <= int_max)%Z ->
  (exists e, In e d /\ m_exp M (Bopp (snd e)) = B754_infinity false) ->
  run_uses A (fun x => x) us1 (new_pnet A policies features lr beta beta1 beta2 threshold init) = Ok (l1, P) ->
  pn_train A (fun x => x) P d = Ok Q -> run_uses A (fun x => x) us2 Q = Ok (l2, Q') ->
  all_drawn_from (repeat nan policies) us2 l2 /\ l_b (layer3 (pn_net Q')) = repeat nan policies.
Proof.
  intros Hp U C B H1 T H2. apply Forall_app in U as (U1 & U2). inversion U2 as [|? ? UD U3]; subst. rewrite app_length in C. cbn [length] in C.
  destruct (uses_sized_after M policies features us1 Hp U1 _ _ _ (new_sized A policies features lr beta beta1 beta2 threshold init) ltac:(cbn; lia) ltac:(cbn; lia) H1) as (S1 & C1).
  change (pn_count (new_pnet A policies features lr beta beta1 beta2 threshold init)) with 0%Z in C1. assert (BP := uses_beta _ _ _ _ H1).
  assert (D : swamped policies features Q).
  { apply (train_swamped policies features P d Q Hp S1 BP UD ltac:(lia)); [|exact T]. right. destruct B as (e & I & V). exists e. split; [exact I|now right]. }
  destruct (train_fields M P d Q T) as (_ & _ & _ & F4).
  destruct (uses_swamped policies features us2 Hp U3 Q l2 Q' D ltac:(destruct F4 as [(_ & _ & ->)|(_ & -> & _)]; lia) H2) as (X & D').
  split; [exact X|]. destruct (sw_net _ _ _ D') as (h & SN & NB). apply nans_repeat; [exact NB|apply (sl_b _ _ _ (sh_3 _ _ _ _ SN))].
Qed.
End Overflow.
