(** Lemmas on collective training: packing and unpacking. *)
From Coq Require Import ZArith Bool Ascii String Lia List.
From Verif Require Import Model.Base Model.Float Model.DatasetM Model.ParserM Model.ConfigM Model.RuntimeM Model.MpiM
  Spec.DatasetSpec Spec.MpiSpec Proofs.TreeFacts Proofs.RuntimeFacts.
Import ListNotations.
Open Scope Z_scope.

Definition zlen {A} (l : list A) : Z := Z.of_nat (List.length l).
Lemma zlen_app {A} (a b : list A) : zlen (a ++ b) = zlen a + zlen b.
Proof. unfold zlen. rewrite app_length. lia. Qed.
Lemma zlen_nonneg {A} (a : list A) : 0 <= zlen a.
Proof. unfold zlen. lia. Qed.
Lemma zlen_map {A B} (f : A -> B) l : zlen (map f l) = zlen l.
Proof. unfold zlen. rewrite map_length. reflexivity. Qed.

Lemma int_add_ok a b : - 2 ^ 31 <= a + b < 2 ^ 31 -> int_add a b = Ok (a + b).
Proof. intros H. unfold int_add. destruct (Z.leb_spec (- 2 ^ 31) (a + b)); destruct (Z.ltb_spec (a + b) (2 ^ 31)); try lia. reflexivity. Qed.

Lemma to_int_id z : - 2 ^ 31 <= z < 2 ^ 31 -> to_int z = z.
Proof.
  intros H. unfold to_int. destruct (Z_lt_le_dec z 0).
  - rewrite <- (Z.mod_add z 1 (2 ^ 32)) by lia. rewrite Z.mod_small by lia. destruct (Z.ltb_spec (z + 1 * 2 ^ 32) (2 ^ 31)); lia.
  - rewrite Z.mod_small by lia. destruct (Z.ltb_spec z (2 ^ 31)); lia.
Qed.

(** A buffer written up to some place. *)
Definition filled (a : bytes) (k : nat) : memory := map Some a ++ repeat None k.

Lemma write_filled a k data : (List.length data <= k)%nat -> write_memory (filled a k) (zlen a) (map Some data) = Ok (filled (a ++ data) (k - List.length data)).
Proof.
  intros L. unfold write_memory, filled, zlen. rewrite app_length, repeat_length, !map_length.
  destruct (Z.ltb_spec (Z.of_nat (List.length a)) 0); [lia|]. destruct (Z.ltb_spec (Z.of_nat (List.length a + k)) (Z.of_nat (List.length a) + Z.of_nat (List.length data))); [lia|]. cbn [orb].
  rewrite Nat2Z.id. rewrite firstn_app, firstn_all2 by (rewrite map_length; lia). rewrite map_length, Nat.sub_diag, firstn_O, app_nil_r.
  rewrite skipn_app, skipn_all2 by (rewrite map_length; lia). rewrite map_length. replace (List.length a + List.length data - List.length a)%nat with (List.length data) by lia.
  cbn [app]. rewrite map_app, <- app_assoc. f_equal. f_equal. f_equal.
  replace k with (List.length data + (k - List.length data))%nat at 1 by lia. rewrite repeat_app, skipn_app, skipn_all2 by (rewrite repeat_length; lia). rewrite repeat_length, Nat.sub_diag. reflexivity.
Qed.

Lemma pack_filled a k base size pos data : base + pos = zlen a -> (List.length data <= k)%nat -> pos + zlen data <= size ->
  mpi_pack (filled a k) base size pos data = Ok (filled (a ++ data) (k - List.length data), pos + zlen data).
Proof.
  intros B L S. unfold mpi_pack. fold (zlen data). destruct (Z.ltb_spec size (pos + zlen data)); [lia|]. rewrite B, write_filled by exact L. reflexivity.
Qed.

Section Library.
Variable M : mpi.
Hypothesis FM : faithful M.

Lemma concat_width {A} (f : A -> bytes) (n : Z) l : (forall x, zlen (f x) = n) -> zlen (List.concat (map f l)) = zlen l * n.
Proof.
  intros H. induction l as [|x l IH]; [reflexivity|]. cbn [map List.concat]. rewrite zlen_app, IH, H. unfold zlen. cbn [List.length]. lia.
Qed.

(** The bytes of a measurement. *)
Definition encode (rank nf : Z) (name : bytes) (e : list f32 * Z * f64) : bytes :=
  put_int M rank ++ put_int M nf ++ List.concat (map (put_float M) (fst (fst e))) ++ put_int M (snd (fst e)) ++
  List.concat (map (put_char M) (name_field name)) ++ put_double M (snd e).

Lemma name_field_length n : List.length (name_field n) = 64%nat.
Proof. unfold name_field. rewrite firstn_length, app_length, repeat_length. lia. Qed.

Lemma encode_length rank nf name e : zlen (encode rank nf name e) = measure_bytes M (zlen (fst (fst e))).
Proof.
  unfold encode. rewrite !zlen_app. rewrite (concat_width _ (mpi_width M MpiFloat)) by apply FM. rewrite (concat_width _ (mpi_width M MpiChar)) by apply FM.
  unfold zlen at 1 2 4 6. rewrite !(int_width M FM), (double_width M FM). replace (zlen (name_field name)) with 64 by (unfold zlen; rewrite name_field_length; reflexivity). unfold measure_bytes. lia.
Qed.

Lemma features_filled fs : forall a k base size pos, base + pos = zlen a -> (List.length (List.concat (map (put_float M) fs)) <= k)%nat ->
  pos + zlen (List.concat (map (put_float M) fs)) <= size ->
  pack_features M (filled a k) base size pos fs =
    Ok (filled (a ++ List.concat (map (put_float M) fs)) (k - List.length (List.concat (map (put_float M) fs))), pos + zlen (List.concat (map (put_float M) fs))).
Proof.
  induction fs as [|x fs IH]; intros a k base size pos B L S; cbn [map List.concat pack_features].
  - rewrite app_nil_r, Nat.sub_0_r. unfold zlen. cbn. rewrite Z.add_0_r. reflexivity.
  - cbn [map List.concat] in L, S. rewrite app_length in L. rewrite zlen_app in S. assert (Z1 := zlen_nonneg (List.concat (map (put_float M) fs))).
    rewrite pack_filled by lia. cbn [bind]. rewrite IH; [|rewrite zlen_app; lia|lia|lia]. rewrite <- app_assoc, app_length, zlen_app. f_equal. f_equal; [f_equal; lia|lia].
Qed.

Lemma measure_filled a k base size pos rank nf name e : base + pos = zlen a -> (List.length (encode rank nf name e) <= k)%nat ->
  pos + zlen (encode rank nf name e) <= size ->
  pack_measure M (filled a k) base size pos rank nf name e =
    Ok (filled (a ++ encode rank nf name e) (k - List.length (encode rank nf name e)), pos + zlen (encode rank nf name e)).
Proof.
  intros B L S. destruct e as [[fs p] m]. unfold encode in *. cbn [fst snd] in *. rewrite !app_length in L. rewrite !zlen_app in S.
  repeat match type of S with context [zlen ?l] => match goal with H : 0 <= zlen l |- _ => fail 1 | _ => pose proof (zlen_nonneg l) end end.
  unfold pack_measure. rewrite pack_filled by lia. cbn [bind]. rewrite pack_filled; [|rewrite !zlen_app; lia|lia|lia]. cbn [bind].
  rewrite features_filled; [|rewrite !zlen_app; lia|lia|lia]. cbn [bind]. rewrite pack_filled; [|rewrite !zlen_app; lia|lia|lia]. cbn [bind].
  rewrite pack_filled; [|rewrite !zlen_app; lia|lia|lia]. cbn [bind]. rewrite pack_filled; [|rewrite !zlen_app; lia|lia|lia].
  rewrite <- !app_assoc, !app_length, !zlen_app. f_equal. f_equal; [f_equal; lia|lia].
Qed.

Lemma measures_filled rank nf name es : forall a k base size pos, base + pos = zlen a -> 
  (List.length (List.concat (map (encode rank nf name) es)) <= k)%nat -> pos + zlen (List.concat (map (encode rank nf name) es)) <= size ->
  pack_measures M (filled a k) base size pos rank nf name es =
    Ok (filled (a ++ List.concat (map (encode rank nf name) es)) (k - List.length (List.concat (map (encode rank nf name) es)))).
Proof.
  induction es as [|e es IH]; intros a k base size pos B L S; cbn [map List.concat pack_measures].
  - rewrite app_nil_r, Nat.sub_0_r. reflexivity.
  - cbn [map List.concat] in L, S. rewrite app_length in L. rewrite zlen_app in S. assert (Z1 := zlen_nonneg (List.concat (map (encode rank nf name) es))).
    rewrite measure_filled by lia. cbn [bind]. rewrite IH; [|rewrite zlen_app; lia|lia|lia]. rewrite <- app_assoc, app_length. f_equal. f_equal; lia.
Qed.

(** Sizes. *)
Hypothesis EX : exact_sizes M.

Lemma measure_size_ok nf : 0 <= nf -> measure_bytes M nf < 2 ^ 31 -> measure_size M nf = Ok (measure_bytes M nf).
Proof.
  intros N B. unfold measure_bytes in *. unfold measure_size, pack_size. destruct (Z.ltb_spec nf 0); [lia|].
  change (1 <? 0) with false. change (64 <? 0) with false. cbn [bind]. rewrite !EX by lia.
  assert (A1 := width_positive M FM MpiInt). assert (A2 := width_positive M FM MpiFloat). assert (A3 := width_positive M FM MpiChar). assert (A4 := width_positive M FM MpiDouble).
  assert (A5 : 0 <= nf * mpi_width M MpiFloat) by nia.
  repeat (rewrite int_add_ok by lia; cbn [bind]). f_equal. lia.
Qed.

(** What a region is packed as. *)
Definition encode_region (rank : Z) (R : region) : bytes :=
  List.concat (map (encode rank (r_num_features R) (r_name R)) (ds_to_vector (r_dataset R))).
Definition encode_world (w : world) : bytes := List.concat (map (encode_region (w_rank w)) (registered w)).

Definition region_sendable (R : region) : Prop :=
  is_int (r_num_features R) /\ Forall (fun e : meas => zlen (m_features e) = r_num_features R /\ is_int (m_policy e)) (ds_to_vector (r_dataset R)).

Lemma region_length rank R : region_sendable R -> zlen (encode_region rank R) = declared_bytes M R.
Proof.
  intros [_ H]. unfold encode_region, declared_bytes. replace (ds_size (r_dataset R)) with (zlen (ds_to_vector (r_dataset R))) by (unfold ds_to_vector; rewrite zlen_map; reflexivity).
  induction (ds_to_vector (r_dataset R)) as [|e es IH]; [cbn; unfold zlen; cbn; lia|]. inversion H as [|? ? [H1 H2] H3]; subst. cbn [map List.concat].
  rewrite zlen_app, IH, encode_length by exact H3. change (fst (fst e)) with (m_features e). rewrite H1. unfold zlen. cbn [List.length]. lia.
Qed.

Lemma declared_nonneg R : 0 <= r_num_features R -> 0 <= declared_bytes M R.
Proof.
  intros H. unfold declared_bytes, measure_bytes, ds_size.
  assert (A1 := width_positive M FM MpiInt). assert (A2 := width_positive M FM MpiFloat). assert (A3 := width_positive M FM MpiChar). assert (A4 := width_positive M FM MpiDouble). nia.
Qed.

Definition live (w : world) (rs : list nat) (l : list region) : Prop := Forall2 (fun r R => get_region w r = Ok R) rs l.

Lemma sum_of_nonneg l : Forall (fun x => 0 <= x) l -> 0 <= sum_of l.
Proof. intros H. induction H; cbn; [lia|]. unfold sum_of in *. cbn. lia. Qed.

Definition region_fits (R : region) : Prop := 0 <= r_num_features R /\ measure_bytes M (r_num_features R) < 2 ^ 31.

Lemma fits_nonneg l : Forall region_fits l -> 0 <= sum_of (map (declared_bytes M) l).
Proof. intros F. apply sum_of_nonneg. apply Forall_map. eapply Forall_impl; [|exact F]. intros R [X _]. apply declared_nonneg. exact X. Qed.

Lemma send_size_ok w rs l : live w rs l -> forall size, 0 <= size -> Forall region_fits l -> size + sum_of (map (declared_bytes M) l) < 2 ^ 31 ->
  send_size M w rs size = Ok (size + sum_of (map (declared_bytes M) l)).
Proof.
  induction 1 as [|r R rs l G LV IH]; intros size S F B; cbn [send_size map] in *.
  - cbn. f_equal. lia.
  - inversion F as [|? ? [F1 F2] F3]; subst. rewrite G. cbn [bind]. rewrite measure_size_ok by assumption. cbn [bind]. change (measure_bytes M (r_num_features R) * ds_size (r_dataset R)) with (declared_bytes M R).
    assert (D := declared_nonneg R F1). assert (D2 := fits_nonneg l F3).
    change (sum_of (declared_bytes M R :: map (declared_bytes M) l)) with (declared_bytes M R + sum_of (map (declared_bytes M) l)) in *.
    rewrite to_int_id by lia. rewrite IH by (assumption || lia). f_equal. lia.
Qed.

Lemma regions_filled w rs l : live w rs l -> Forall region_sendable l -> Forall region_fits l -> forall a k,
  zlen a + sum_of (map (declared_bytes M) l) < 2 ^ 31 -> Z.of_nat k = sum_of (map (declared_bytes M) l) ->
  pack_regions M w (filled a k) rs (zlen a) = Ok (map Some (a ++ List.concat (map (encode_region (w_rank w)) l))).
Proof.
  induction 1 as [|r R rs l G LV IH]; intros SE F a k B K; cbn [pack_regions map List.concat] in *.
  - cbn in K. replace k with 0%nat by lia. unfold filled. cbn. rewrite !app_nil_r. reflexivity.
  - inversion F as [|? ? [F1 F2] F3]; subst. inversion SE as [|? ? SE1 SE2]; subst. rewrite G. cbn [bind]. unfold region_size. rewrite measure_size_ok by assumption. cbn [bind].
    change (measure_bytes M (r_num_features R) * ds_size (r_dataset R)) with (declared_bytes M R).
    assert (D := declared_nonneg R F1). assert (D2 := fits_nonneg l F3). assert (ZA := zlen_nonneg a).
    change (sum_of (declared_bytes M R :: map (declared_bytes M) l)) with (declared_bytes M R + sum_of (map (declared_bytes M) l)) in *.
    rewrite to_int_id by lia. unfold pack_measurements. assert (L := region_length (w_rank w) R SE1). unfold encode_region in L.
    rewrite measures_filled; [|lia|unfold zlen in L; lia|lia]. cbn [bind]. rewrite int_add_ok by lia. cbn [bind]. fold (encode_region (w_rank w) R) in *.
    rewrite <- L, <- zlen_app. rewrite IH; try assumption.
    + rewrite <- app_assoc. reflexivity.
    + rewrite zlen_app, L. lia.
    + unfold zlen in L. lia.
Qed.

Definition world_bytes (w : world) : Z := sum_of (map (declared_bytes M) (registered w)).

Lemma send_buffer_ok w : live w (map snd (w_registry w)) (registered w) -> Forall region_sendable (registered w) -> Forall region_fits (registered w) -> world_bytes w < 2 ^ 31 ->
  send_buffer M w = Ok (map Some (encode_world w)) /\ zlen (encode_world w) = world_bytes w.
Proof.
  intros LV SE F B. assert (D := fits_nonneg _ F). unfold world_bytes in *. split.
  - unfold send_buffer. rewrite (send_size_ok _ _ _ LV) by (assumption || lia). cbn [bind]. unfold malloc. destruct (Z.ltb_spec (0 + sum_of (map (declared_bytes M) (registered w))) 0); [lia|]. cbn [bind].
    change (repeat None (Z.to_nat (0 + sum_of (map (declared_bytes M) (registered w))))) with (filled [] (Z.to_nat (0 + sum_of (map (declared_bytes M) (registered w))))).
    match goal with |- pack_regions M w ?m ?rs 0 = ?x => change (pack_regions M w m rs (zlen (@nil ascii)) = x) end. apply (regions_filled _ _ _ LV); try assumption; lia.
  - unfold encode_world. clear LV B D. induction SE as [|R l SE1 SE2 IH]; [reflexivity|]. inversion F; subst. cbn [map List.concat]. rewrite zlen_app, IH, region_length by assumption. reflexivity.
Qed.

(** The exchange. *)
Lemma sum_sizes_ok sizes : forall sum, Forall (fun x => 0 <= x) sizes -> 0 <= sum -> sum + sum_of sizes < 2 ^ 31 -> sum_sizes sizes sum = Ok (sum + sum_of sizes).
Proof.
  induction sizes as [|n sizes IH]; intros sum F S B; cbn [sum_sizes]; [cbn; f_equal; lia|]. inversion F; subst. assert (X := sum_of_nonneg sizes H2). cbn in B. fold (sum_of sizes) in B.
  rewrite int_add_ok by lia. cbn [bind]. rewrite IH by (assumption || lia). cbn. fold (sum_of sizes). f_equal. lia.
Qed.

Fixpoint prefixes (sizes : list Z) (d : Z) : list Z := match sizes with [] => [] | n :: r => d :: prefixes r (d + n) end.
Lemma displacements_ok sizes : forall d, Forall (fun x => 0 <= x) sizes -> 0 <= d -> d + sum_of sizes < 2 ^ 31 -> displacements sizes d = Ok (prefixes sizes d).
Proof.
  induction sizes as [|n sizes IH]; intros d F S B; [reflexivity|]. inversion F; subst. assert (X := sum_of_nonneg sizes H2). cbn in B. fold (sum_of sizes) in B.
  destruct sizes as [|n2 sizes]; [reflexivity|].
  change (displacements (n :: n2 :: sizes) d) with (let* next := int_add d n in let* ds := displacements (n2 :: sizes) next in Ok (d :: ds)). rewrite int_add_ok by lia. cbn [bind].
  rewrite IH by (assumption || lia). reflexivity.
Qed.

Lemma allgatherv_ok bs : forall a k, k = List.length (List.concat bs) -> allgatherv (filled a k) (map (map Some) bs) (prefixes (map zlen bs) (zlen a)) = Ok (map Some (a ++ List.concat bs)).
Proof.
  induction bs as [|b bs IH]; intros a k K; cbn [map allgatherv prefixes List.concat].
  - cbn in K. subst k. unfold filled. cbn. rewrite !app_nil_r. reflexivity.
  - cbn in K. rewrite app_length in K. rewrite write_filled by lia. cbn [bind]. rewrite <- zlen_app. rewrite IH by lia. rewrite <- app_assoc. reflexivity.
Qed.

Lemma received_ok bs : sum_of (map zlen bs) < 2 ^ 31 -> received (map (map Some) bs) = Ok (map Some (List.concat bs)).
Proof.
  intros B. unfold received. rewrite map_map. rewrite (map_ext (fun x : bytes => Z.of_nat (List.length (map Some x))) zlen) by (intros; unfold zlen; rewrite map_length; reflexivity).
  assert (F : Forall (fun x => 0 <= x) (map zlen bs)) by (apply Forall_map, Forall_forall; intros; apply zlen_nonneg). assert (X := sum_of_nonneg _ F).
  rewrite sum_sizes_ok by (assumption || lia). cbn [bind]. unfold malloc. match goal with |- context [?x <? 0] => replace (x <? 0) with false by (symmetry; apply Z.ltb_ge; exact X) end. cbn [bind]. rewrite displacements_ok by (assumption || lia). cbn [bind].
  assert (L : zlen (List.concat bs) = sum_of (map zlen bs)).
  { clear. induction bs as [|b bs IH]; [reflexivity|]. cbn [map List.concat]. rewrite zlen_app, IH. reflexivity. }
  assert (A := allgatherv_ok bs [] (Z.to_nat (0 + sum_of (map zlen bs)))). unfold filled in A. cbn [map app] in A. change (zlen []) with 0 in A. apply A. rewrite Z.add_0_l, <- L. apply Nat2Z.id.
Qed.

(** Unpacking. *)
Lemma written_some s : written (map Some s) = Ok s.
Proof. induction s; cbn; [reflexivity|]. rewrite IHs. reflexivity. Qed.

Lemma unpack_some a x b n : zlen x = n -> mpi_unpack (map Some (a ++ x ++ b)) (zlen a) n = Ok (x, zlen a + n).
Proof.
  intros E. unfold mpi_unpack. fold (zlen (map Some (a ++ x ++ b))). rewrite zlen_map, !zlen_app. assert (B := zlen_nonneg b). destruct (Z.ltb_spec (zlen a + (zlen x + zlen b)) (zlen a + n)); [lia|].
  rewrite <- E. unfold zlen. rewrite !Nat2Z.id. rewrite !map_app. rewrite skipn_app, skipn_all2 by (rewrite map_length; lia). rewrite map_length, Nat.sub_diag. cbn [app skipn].
  rewrite firstn_app, firstn_all2 by (rewrite map_length; lia). rewrite map_length, Nat.sub_diag, firstn_O, app_nil_r, written_some. reflexivity.
Qed.

Lemma unpack_features_ok fs : forall a b, unpack_features M (map Some (a ++ List.concat (map (put_float M) fs) ++ b)) (zlen a) (List.length fs) =
  Ok (fs, zlen a + zlen (List.concat (map (put_float M) fs))).
Proof.
  induction fs as [|x fs IH]; intros a b; cbn [unpack_features List.length map List.concat]; [unfold zlen at 3; cbn; rewrite Z.add_0_r; reflexivity|].
  rewrite <- app_assoc. rewrite unpack_some by apply FM. cbn [bind]. rewrite <- (float_width M FM x). fold (zlen (put_float M x)).
  specialize (IH (a ++ put_float M x) b). rewrite <- app_assoc in IH. rewrite zlen_app in IH. rewrite IH. cbn [bind]. rewrite (float_back M FM), zlen_app. f_equal. f_equal. lia.
Qed.

Lemma unpack_chars_ok s : unpack_chars M (List.concat (map (put_char M) s)) (Z.to_nat (mpi_width M MpiChar)) (List.length s) = s.
Proof.
  induction s as [|c s IH]; [reflexivity|]. cbn [map List.concat List.length unpack_chars]. assert (E := char_width M FM c).
  replace (Z.to_nat (mpi_width M MpiChar)) with (List.length (put_char M c)) in * by lia.
  rewrite firstn_app, firstn_all, Nat.sub_diag, firstn_O, app_nil_r, (char_back M FM). f_equal. rewrite skipn_app, skipn_all, Nat.sub_diag. exact IH.
Qed.

Lemma unpack_at m pos x n a b : m = map Some (a ++ x ++ b) -> pos = zlen a -> zlen x = n -> mpi_unpack m pos n = Ok (x, pos + n).
Proof. intros -> -> E. apply unpack_some. exact E. Qed.
Lemma unpack_features_at m pos fs n a b : m = map Some (a ++ List.concat (map (put_float M) fs) ++ b) -> pos = zlen a -> n = List.length fs ->
  unpack_features M m pos n = Ok (fs, pos + zlen (List.concat (map (put_float M) fs))).
Proof. intros -> -> ->. apply unpack_features_ok. Qed.

Lemma unpack_record_ok a b rank nf name e : is_int rank -> is_int nf -> is_int (snd (fst e)) -> zlen (fst (fst e)) = nf ->
  unpack_record M (map Some (a ++ encode rank nf name e ++ b)) (zlen a) = Ok ((rank, fst (fst e), snd (fst e), name_field name, snd e), zlen a + zlen (encode rank nf name e)).
Proof.
  intros I1 I2 I3 L. destruct e as [[fs p] x]. cbn [fst snd] in *. set (m := map Some (a ++ encode rank nf name (fs, p, x) ++ b)).
  set (e1 := put_int M rank). set (e2 := put_int M nf). set (e3 := List.concat (map (put_float M) fs)). set (e4 := put_int M p).
  set (e5 := List.concat (map (put_char M) (name_field name))). set (e6 := put_double M x).
  assert (EM : m = map Some (a ++ (e1 ++ e2 ++ e3 ++ e4 ++ e5 ++ e6) ++ b)) by reflexivity.
  assert (L1 : zlen e1 = mpi_width M MpiInt) by apply FM. assert (L2 : zlen e2 = mpi_width M MpiInt) by apply FM. assert (L4 : zlen e4 = mpi_width M MpiInt) by apply FM.
  assert (L6 : zlen e6 = mpi_width M MpiDouble) by apply FM.
  assert (L5 : zlen e5 = 64 * mpi_width M MpiChar).
  { unfold e5. rewrite (concat_width _ (mpi_width M MpiChar)) by apply FM. f_equal. unfold zlen. rewrite name_field_length. reflexivity. }
  unfold unpack_record.
  rewrite (unpack_at m (zlen a) e1 _ a (e2 ++ e3 ++ e4 ++ e5 ++ e6 ++ b)); [|rewrite EM, <- !app_assoc; reflexivity|reflexivity|exact L1]. cbn [bind].
  rewrite (unpack_at m _ e2 _ (a ++ e1) (e3 ++ e4 ++ e5 ++ e6 ++ b)); [|rewrite EM, <- !app_assoc; reflexivity|rewrite !zlen_app; lia|exact L2]. cbn [bind].
  unfold e1 at 1, e2 at 1. rewrite !(int_back M FM) by assumption.
  rewrite (unpack_features_at m _ fs _ (a ++ e1 ++ e2) (e4 ++ e5 ++ e6 ++ b)); [|rewrite EM, <- !app_assoc; reflexivity|rewrite !zlen_app; lia|unfold zlen in L; lia]. fold e3. cbn [bind].
  rewrite (unpack_at m _ e4 _ (a ++ e1 ++ e2 ++ e3) (e5 ++ e6 ++ b)); [|rewrite EM, <- !app_assoc; reflexivity|rewrite !zlen_app; lia|exact L4]. cbn [bind].
  rewrite (unpack_at m _ e5 _ (a ++ e1 ++ e2 ++ e3 ++ e4) (e6 ++ b)); [|rewrite EM, <- !app_assoc; reflexivity|rewrite !zlen_app; lia|exact L5]. cbn [bind].
  rewrite (unpack_at m _ e6 _ (a ++ e1 ++ e2 ++ e3 ++ e4 ++ e5) b); [|rewrite EM, <- !app_assoc; reflexivity|rewrite !zlen_app; lia|exact L6]. cbn [bind].
  unfold e4 at 1, e6 at 1. rewrite (int_back M FM) by assumption. rewrite (double_back M FM).
  unfold e5. replace 64%nat with (List.length (name_field name)) by apply name_field_length. rewrite unpack_chars_ok.
  f_equal. f_equal. unfold encode. cbn [fst snd]. fold e1 e2 e3 e4 e5 e6. rewrite !zlen_app. lia.
Qed.

Lemma encode_positive rank nf name e : 0 < zlen (encode rank nf name e).
Proof. unfold encode. rewrite zlen_app. assert (A := width_positive M FM MpiInt). rewrite <- (int_width M FM rank) in A. fold (zlen (put_int M rank)) in A. assert (B := zlen_nonneg (put_int M nf ++ List.concat (map (put_float M) (fst (fst e))) ++ put_int M (snd (fst e)) ++ List.concat (map (put_char M) (name_field name)) ++ put_double M (snd e))). lia. Qed.

(** Reading on. *)
Lemma reads_region rank nf name xs rest b : is_int rank -> is_int nf -> forall a,
  Forall (fun e : meas => zlen (m_features e) = nf /\ is_int (m_policy e)) xs ->
  reads M (map Some (a ++ List.concat (map (encode rank nf name) xs) ++ b)) (zlen (a ++ List.concat (map (encode rank nf name) xs))) rest ->
  reads M (map Some (a ++ List.concat (map (encode rank nf name) xs) ++ b)) (zlen a)
    (map (fun e : meas => (rank, m_features e, m_policy e, name_field name, m_metric e)) xs ++ rest).
Proof.
  intros I1 I2. induction xs as [|e xs IH]; intros a H R; cbn [map List.concat app] in *.
  - rewrite app_nil_r in R. exact R.
  - inversion H as [|? ? [H1 H2] H3]; subst. rewrite <- app_assoc in *. eapply reads_one.
    + fold (zlen (map Some (a ++ encode rank (zlen (m_features e)) name e ++ List.concat (map (encode rank (zlen (m_features e)) name) xs) ++ b))). rewrite zlen_map, !zlen_app.
      assert (A := encode_positive rank (zlen (m_features e)) name e). assert (B := zlen_nonneg (List.concat (map (encode rank (zlen (m_features e)) name) xs))). assert (C := zlen_nonneg b). lia.
    + rewrite unpack_record_ok by (assumption || reflexivity). reflexivity.
    + rewrite <- zlen_app. specialize (IH (a ++ encode rank (zlen (m_features e)) name e) H3). rewrite <- !app_assoc in IH. apply IH. exact R.
Qed.

Lemma reads_world w rest b : is_int (w_rank w) -> forall l a, Forall region_sendable l ->
  reads M (map Some (a ++ List.concat (map (encode_region (w_rank w)) l) ++ b)) (zlen (a ++ List.concat (map (encode_region (w_rank w)) l))) rest ->
  reads M (map Some (a ++ List.concat (map (encode_region (w_rank w)) l) ++ b)) (zlen a)
    (flat_map (fun R => map (fun e : meas => (w_rank w, m_features e, m_policy e, name_field (r_name R), m_metric e)) (ds_to_vector (r_dataset R))) l ++ rest).
Proof.
  intros I1 l. induction l as [|R l IH]; intros a H RD; cbn [map List.concat app flat_map] in *.
  - rewrite app_nil_r in RD. exact RD.
  - inversion H as [|? ? [H1 H2] H3]; subst. rewrite <- !app_assoc in *. unfold encode_region at 1. apply reads_region; try assumption.
    fold (encode_region (w_rank w) R). specialize (IH (a ++ encode_region (w_rank w) R) H3). rewrite <- !app_assoc in IH. apply IH. exact RD.
Qed.

Lemma reads_worlds ws : forall a, Forall (fun w => is_int (w_rank w)) ws -> Forall (fun w => Forall region_sendable (registered w)) ws ->
  reads M (map Some (a ++ List.concat (map encode_world ws))) (zlen a) (flat_map sent ws).
Proof.
  induction ws as [|w ws IH]; intros a H1 H2; cbn [map List.concat flat_map].
  - rewrite app_nil_r. rewrite <- (zlen_map Some a). apply reads_end.
  - inversion H1; subst. inversion H2; subst. unfold encode_world at 1. unfold sent at 1. apply reads_world; try assumption.
    fold (encode_world w). specialize (IH (a ++ encode_world w)). rewrite <- app_assoc in IH. apply IH; assumption.
Qed.
End Library.

(** Every registered region exists. *)
Definition alive (w : world) : Prop := Forall (fun x => exists R, get_region w (snd x) = Ok R) (w_registry w).

Lemma get_region_nth w r R : get_region w r = Ok R -> nth_error (w_regions w) r = Some R.
Proof. unfold get_region. destruct (nth_error _ r) as [R0|]; [|discriminate]. destruct (r_alive R0); congruence. Qed.

Lemma alive_live w : alive w -> live w (map snd (w_registry w)) (registered w).
Proof.
  unfold alive, live, registered. intros H. induction H as [|x l [R G] H IH]; [constructor|]. cbn [map flat_map]. rewrite (get_region_nth _ _ _ G). cbn [app]. constructor; assumption.
Qed.

Lemma on_each_ok {A B} (f : A -> outcome B) g l : Forall (fun x => f x = Ok (g x)) l -> on_each f l = Ok (map g l).
Proof. intros H. induction H as [|x l E H IH]; [reflexivity|]. cbn. rewrite E. cbn [bind]. rewrite IH. reflexivity. Qed.

Lemma fit_one M ws w : faithful M -> sizes_fit M ws -> In w ws -> world_bytes M w < 2 ^ 31.
Proof.
  intros FM [F S] H. induction ws as [|w0 ws IH]; [destruct H|]. inversion F as [|? ? F1 F2]; subst. cbn [map] in S.
  change (world_bytes M w0 + sum_of (map (world_bytes M) ws) < 2 ^ 31) in S.
  assert (N : forall v, Forall (fun R => 0 <= r_num_features R /\ measure_bytes M (r_num_features R) < 2 ^ 31) (registered v) -> 0 <= world_bytes M v) by (intros v K; apply fits_nonneg; assumption).
  assert (N2 : 0 <= sum_of (map (world_bytes M) ws)).
  { apply sum_of_nonneg. apply Forall_map. eapply Forall_impl; [|exact F2]. intros v K. apply N. exact K. }
  destruct H as [<-|H]; [assert (A := N w0 F1); lia|]. apply IH; [exact F2| |exact H]. assert (A := N w0 F1). change (sum_of (map (world_bytes M) ws) < 2 ^ 31). lia.
Qed.

Lemma packing_ok M ws : faithful M -> exact_sizes M -> Forall alive ws -> Forall (fun w => is_int (w_rank w)) ws -> Forall sendable ws -> sizes_fit M ws ->
  exists bufs m, on_each (send_buffer M) ws = Ok bufs /\ received bufs = Ok m /\ reads M m 0 (flat_map sent ws).
Proof.
  intros FM EX AL IR SE FT. exists (map (map Some) (map (encode_world M) ws)), (map Some (List.concat (map (encode_world M) ws))).
  assert (OK : Forall (fun w => send_buffer M w = Ok (map Some (encode_world M w)) /\ zlen (encode_world M w) = world_bytes M w) ws).
  { apply Forall_forall. intros w H. apply send_buffer_ok; try assumption.
    - apply alive_live. rewrite Forall_forall in AL. auto.
    - rewrite Forall_forall in SE. apply SE. exact H.
    - destruct FT as [F _]. rewrite Forall_forall in F. apply F. exact H.
    - eapply fit_one; eauto. }
  split; [|split].
  - rewrite map_map. apply on_each_ok. eapply Forall_impl; [|exact OK]. intros w [A _]. exact A.
  - apply received_ok. destruct FT as [_ S]. replace (map zlen (map (encode_world M) ws)) with (map (world_bytes M) ws); [exact S|].
    rewrite map_map. apply map_ext_in. intros w H. rewrite Forall_forall in OK. symmetry. apply OK. exact H.
  - change 0 with (zlen (@nil ascii)). apply (reads_worlds M FM ws []); assumption.
Qed.
