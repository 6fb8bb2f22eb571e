(** Lemmas on collective training: what a rank does with the measurements it receives. *)
From Coq Require Import ZArith Bool Ascii String Lia List Sorted.
From Verif Require Import Model.Base Model.Float Model.DatasetM Model.ParserM Model.ModelStringM Model.PolicyModelsM Model.ConfigM Model.RuntimeM Model.MpiM
  Spec.DatasetSpec Spec.DatasetClient Spec.RuntimeSpec Spec.MpiSpec
  Proofs.KeyOrder Proofs.DatasetFacts Proofs.TreeFacts Proofs.ModelStringFacts Proofs.RuntimeFacts Proofs.RuntimeRegistry Proofs.RuntimeData Proofs.RuntimeNames Proofs.MpiPacking.
Import ListNotations.
Open Scope Z_scope.

(** Insertions one after the other. *)
Fixpoint insert_records (w : world) (xs : list record) : outcome world :=
  match xs with
  | [] => Ok w
  | x :: r => let* w := insert_record w x in insert_records w r
  end.

Definition rec_rank (x : record) : Z := fst (fst (fst (fst x))).
Definition rec_name (x : record) : bytes := snd (fst x).
Definition rec_meas (x : record) : meas := (snd (fst (fst (fst x))), snd (fst (fst x)), snd x).
Definition good_record (x : record) : Prop := In nul (rec_name x) /\ no_nan_features (rec_meas x).

(** The measurements for one region. *)
Definition for_region (rank : Z) (n : bytes) (xs : list record) : list meas :=
  flat_map (fun x => if rec_rank x =? rank then [] else if bytes_eqb (cstr (rec_name x)) n then [rec_meas x] else []) xs.

Lemma array_string_ok s : In nul s -> array_string s = Ok (cstr s).
Proof. intros H. unfold array_string. replace (existsb (Ascii.eqb nul) s) with true; [reflexivity|]. symmetry. apply existsb_exists. exists nul. split; [exact H|apply Ascii.eqb_refl]. Qed.

Lemma find_registered (m : list (bytes * nat)) n : StronglySorted by_name m ->
  match map_find bytes_lt n m with Some r => In (n, r) m | None => forall r, ~ In (n, r) m end.
Proof.
  induction m as [|[k y] m IH]; intros S; cbn [map_find]; [intros r []|]. inversion S as [|? ? S2 F]; subst. destruct (bytes_lt n k) eqn:A; destruct (bytes_lt k n) eqn:B; cbn [negb andb].
  1-3: specialize (IH S2); destruct (map_find bytes_lt n m); [right; exact IH|]; intros r [E|E]; [inversion E; subst; rewrite bytes_lt_irrefl in *; discriminate|exact (IH _ E)].
  left. rewrite (bytes_lt_total _ _ A B). reflexivity.
Qed.

Lemma set_nth_same {A} (l : list A) i x y : nth_error l i = Some y -> nth_error (set_nth l i x) i = Some x.
Proof. revert i. induction l as [|a l IH]; intros [|i]; cbn; intros H; try discriminate; auto. Qed.
Lemma set_nth_other {A} (l : list A) i j x : i <> j -> nth_error (set_nth l i x) j = nth_error l j.
Proof. revert i j. induction l as [|a l IH]; intros [|i] [|j] H; cbn; auto; try congruence. Qed.
Lemma set_nth_len {A} (l : list A) i x : List.length (set_nth l i x) = List.length l.
Proof. revert i. induction l as [|a l IH]; intros [|i]; cbn; auto. Qed.

(** The same world apart from data sets. *)
Definition same_but_data (w w' : world) : Prop :=
  w_config w' = w_config w /\ w_rank w' = w_rank w /\ w_registry w' = w_registry w /\ w_executions w' = w_executions w /\ w_files w' = w_files w /\
  List.length (w_regions w') = List.length (w_regions w).

Definition data_inserted (w : world) (xs : list record) (w' : world) : Prop :=
  forall i R, nth_error (w_regions w) i = Some R -> exists d, nth_error (w_regions w') i = Some (with_dataset R d) /\
    (In (r_name R, i) (w_registry w) -> insert_all (r_dataset R) (for_region (w_rank w) (r_name R) xs) = Ok d) /\
    (~ In (r_name R, i) (w_registry w) -> d = r_dataset R).

Lemma with_dataset_same R : with_dataset R (r_dataset R) = R.
Proof. destruct R. reflexivity. Qed.

Lemma registered_name w n r R : registry_ok w -> In (n, r) (w_registry w) -> nth_error (w_regions w) r = Some R -> r_name R = n.
Proof.
  intros [_ H] I G. apply H in I. destruct I as [I _]. unfold region_names in I. rewrite nth_error_map, G in I. cbn in I. congruence.
Qed.

Lemma same_names w w' xs : data_inserted w xs w' -> List.length (w_regions w') = List.length (w_regions w) -> region_names w' = region_names w.
Proof. intros D L. apply names_same; [exact L|]. intros i R G. destruct (D i R G) as (d & G2 & _). exists (with_dataset R d). auto. Qed.

Lemma named_in w i R : nth_error (w_regions w) i = Some R -> In (r_name R) (region_names w).
Proof. intros G. unfold region_names. apply in_map. eapply nth_error_In; eauto. Qed.

Lemma insert_one x w : names_ok w -> all_wf w -> alive w -> good_record x ->
  exists w', insert_record w x = Ok w' /\ same_but_data w w' /\ data_inserted w [x] w' /\ all_wf w'.
Proof.
  intros NM WF AL [GN GF]. destruct x as [[[[k f] p] nm] t]. unfold rec_name in GN. cbn [fst snd] in GN.
  assert (TRIV : (k =? w_rank w = true \/ map_find bytes_lt (cstr nm) (w_registry w) = None) ->
    exists w', Ok w = Ok w' /\ same_but_data w w' /\ data_inserted w [(k, f, p, nm, t)] w' /\ all_wf w').
  { intros D. exists w. split; [reflexivity|]. split; [repeat split|]. split; [|exact WF]. intros i R G. exists (r_dataset R). rewrite with_dataset_same. split; [exact G|]. split; [|reflexivity].
    intros I. unfold for_region, rec_rank, rec_name. cbn [flat_map fst snd]. destruct (k =? w_rank w) eqn:E; [reflexivity|]. destruct D as [D|D]; [discriminate D|].
    assert (F := find_registered (w_registry w) (cstr nm) (proj1 (proj1 NM))). rewrite D in F.
    destruct (bytes_eqb (cstr nm) (r_name R)) eqn:B; [|reflexivity]. exfalso. apply bytes_eqb_eq in B. rewrite B in F. exact (F _ I). }
  unfold insert_record. destruct (k =? w_rank w) eqn:EK; [apply TRIV; left; exact eq_refl|]. rewrite array_string_ok by exact GN. cbn [bind].
  assert (F := find_registered (w_registry w) (cstr nm) (proj1 (proj1 NM))). destruct (map_find bytes_lt (cstr nm) (w_registry w)) as [r|] eqn:FD; [|apply TRIV; right; reflexivity]. clear TRIV.
  assert (AL2 := AL). unfold alive in AL2. rewrite Forall_forall in AL2. destruct (AL2 _ F) as [R G]. cbn [snd] in G. rewrite G. cbn [bind]. apply get_region_nth in G.
  destruct (insert_spec (r_dataset R) f p t) as (d & E & W & _); [apply no_nan_fok in GF; exact GF|exact (WF _ _ G)|]. rewrite E. cbn [bind].
  assert (NR := registered_name w (cstr nm) r R (proj1 NM) F G).
  exists (set_region w r (with_dataset R d)). split; [reflexivity|]. split; [repeat split; cbn; apply set_nth_len|]. split; [|apply wf_region; [exact WF|exact W]].
  intros i R2 G2. cbn [w_regions set_region]. destruct (Nat.eq_dec r i) as [->|NE].
  - assert (R2 = R) by congruence. subst R2. exists d. split; [eapply set_nth_same; eauto|]. split.
    + intros _. unfold for_region, rec_rank, rec_name, rec_meas. cbn [flat_map fst snd]. rewrite EK. rewrite NR. replace (bytes_eqb (cstr nm) (cstr nm)) with true by (symmetry; apply bytes_eqb_eq; reflexivity).
      cbn [app insert_all]. unfold m_features, m_policy, m_metric. cbn [fst snd]. rewrite E. reflexivity.
    + intros H. exfalso. apply H. rewrite NR. exact F.
  - exists (r_dataset R2). rewrite with_dataset_same, set_nth_other by exact NE. split; [exact G2|]. split; [|reflexivity].
    intros I. unfold for_region, rec_rank, rec_name. cbn [flat_map fst snd]. rewrite EK. destruct (bytes_eqb (cstr nm) (r_name R2)) eqn:B; [|reflexivity].
    exfalso. apply bytes_eqb_eq in B. rewrite <- B in I. apply (proj1 NM) in I. apply (proj1 NM) in F. apply NE. eapply first_unique; eauto.
Qed.

Lemma inserted_alive w xs w' : data_inserted w xs w' -> w_registry w' = w_registry w -> alive w -> alive w'.
Proof.
  intros D E A. unfold alive in *. rewrite E. eapply Forall_impl; [|exact A]. intros [n r] [R G]. cbn [snd] in *. assert (G2 := get_region_nth _ _ _ G). destruct (D _ _ G2) as (d & G3 & _).
  exists (with_dataset R d). unfold get_region. rewrite G3. cbn [r_alive with_dataset]. unfold get_region in G. rewrite G2 in G. destruct (r_alive R); [reflexivity|discriminate].
Qed.

Lemma data_step w x w1 xs w2 : same_but_data w w1 -> data_inserted w [x] w1 -> data_inserted w1 xs w2 -> data_inserted w (x :: xs) w2.
Proof.
  intros (A1 & A2 & A3 & A4 & A5 & A6) D1 D2 i R G. destruct (D1 i R G) as (d & G1 & K1 & K2). destruct (D2 i _ G1) as (d2 & G2 & L1 & L2). cbn [r_name with_dataset r_dataset] in *.
  exists d2. split; [exact G2|]. rewrite A3, A2 in *. split; [|intros N; rewrite (L2 N); exact (K2 N)]. intros I.
  change (for_region (w_rank w) (r_name R) (x :: xs)) with (for_region (w_rank w) (r_name R) ([x] ++ xs)). unfold for_region. rewrite flat_map_app. fold (for_region (w_rank w) (r_name R) [x]). fold (for_region (w_rank w) (r_name R) xs).
  specialize (K1 I). specialize (L1 I). revert K1 L1. generalize (for_region (w_rank w) (r_name R) [x]) as h. generalize (for_region (w_rank w) (r_name R) xs) as g. generalize (r_dataset R) as d0. clear. intros d0 g h. revert d0.
  induction h as [|m h IH]; cbn [insert_all app]; intros d0 K L; [inversion K; subst; exact L|]. apply bind_inv in K. destruct K as (dd & E & K). rewrite E. cbn [bind]. eapply IH; eauto.
Qed.

Lemma names_kept w w' xs : names_ok w -> same_but_data w w' -> data_inserted w xs w' -> names_ok w'.
Proof.
  intros [A B] (A1 & A2 & A3 & A4 & A5 & A6) D. assert (N := same_names _ _ _ D A6). split; [eapply registry_same; eauto|rewrite N; exact B].
Qed.

Lemma inserted_ok xs : forall w, names_ok w -> all_wf w -> alive w -> Forall good_record xs ->
  exists w', insert_records w xs = Ok w' /\ same_but_data w w' /\ data_inserted w xs w' /\ all_wf w'.
Proof.
  induction xs as [|x xs IH]; intros w NM WF AL GR.
  - exists w. split; [reflexivity|]. split; [repeat split|]. split; [|exact WF]. intros i R G. exists (r_dataset R). rewrite with_dataset_same. split; [exact G|]. split; reflexivity.
  - inversion GR; subst. destruct (insert_one x w NM WF AL H1) as (w1 & E1 & S1 & D1 & W1). cbn [insert_records]. rewrite E1. cbn [bind].
    destruct (IH w1) as (w2 & E2 & S2 & D2 & W2); [eapply names_kept; eauto|exact W1|eapply inserted_alive; [exact D1|apply S1|exact AL]|exact H2|].
    exists w2. split; [exact E2|]. split; [|split; [eapply data_step; eauto|exact W2]].
    destruct S1 as (A1 & A2 & A3 & A4 & A5 & A6). destruct S2 as (B1 & B2 & B3 & B4 & B5 & B6). repeat split; congruence.
Qed.

(** The loop. *)
Lemma record_config w x w' : insert_record w x = Ok w' -> w_config w' = w_config w.
Proof.
  destruct x as [[[[k f] p] nm] t]. cbn [insert_record]. destruct (_ =? _); [congruence|]. intros H. apply bind_inv in H. destruct H as (s & _ & H).
  destruct (map_find _ _ _); [|congruence]. apply bind_inv in H. destruct H as (R & _ & H). apply bind_inv in H. destruct H as (d & _ & H). injection H as <-. reflexivity.
Qed.

Lemma loop_inserts M m pos xs : reads M m pos xs -> forall fuel w text w' text', receive_loop M fuel w m pos text = Ok (w', text') -> insert_records w xs = Ok w'.
Proof.
  induction 1 as [|pos x next xs L U RD IH]; intros fuel w text w' text' H.
  - destruct fuel; cbn [receive_loop] in H; rewrite Z.leb_refl in H; injection H as <- _; reflexivity.
  - destruct fuel as [|fuel]; cbn [receive_loop] in H; destruct (Z.leb_spec (Z.of_nat (List.length m)) pos); try lia; [discriminate|].
    rewrite U in H. cbn [bind] in H. apply bind_inv in H. destruct H as (text1 & _ & H). apply bind_inv in H. destruct H as (w1 & E1 & H). cbn [insert_records]. rewrite E1. cbn [bind]. eapply IH; eauto.
Qed.

Lemma unpack_next m pos n s q : mpi_unpack m pos n = Ok (s, q) -> q = pos + n.
Proof. unfold mpi_unpack. destruct (_ <? _); [discriminate|]. intros H. apply bind_inv in H. destruct H as (t & _ & H). injection H as _ <-. reflexivity. Qed.
Lemma features_next M m n : faithful M -> forall pos fs q, unpack_features M m pos n = Ok (fs, q) -> pos <= q.
Proof.
  intros FM. induction n as [|n IH]; intros pos fs q H; cbn [unpack_features] in H; [injection H as _ <-; lia|].
  apply bind_inv in H. destruct H as ([s p1] & E1 & H). apply bind_inv in H. destruct H as ([fs1 p2] & E2 & H). injection H as _ <-. apply unpack_next in E1. apply IH in E2. assert (A := width_positive M FM MpiFloat). lia.
Qed.
Lemma record_next M m pos x q : faithful M -> unpack_record M m pos = Ok (x, q) -> pos < q.
Proof.
  intros FM H. unfold unpack_record in H. apply bind_inv in H. destruct H as ([s1 p1] & E1 & H). apply bind_inv in H. destruct H as ([s2 p2] & E2 & H). apply bind_inv in H. destruct H as ([fs p3] & E3 & H).
  apply bind_inv in H. destruct H as ([s4 p4] & E4 & H). apply bind_inv in H. destruct H as ([s5 p5] & E5 & H). apply bind_inv in H. destruct H as ([s6 p6] & E6 & H). injection H as _ <-.
  apply unpack_next in E1, E2, E4, E5, E6. apply features_next in E3; [|exact FM].
  assert (A1 := width_positive M FM MpiInt). assert (A2 := width_positive M FM MpiChar). assert (A3 := width_positive M FM MpiDouble). lia.
Qed.

Lemma loop_succeeds M m pos xs : faithful M -> reads M m pos xs -> forall fuel w text w', Z.of_nat (List.length m) - pos <= Z.of_nat fuel -> truthy (cf_trace_allgather (w_config w)) = false ->
  insert_records w xs = Ok w' -> receive_loop M fuel w m pos text = Ok (w', text).
Proof.
  intros FM. induction 1 as [|pos x next xs L U RD IH]; intros fuel w text w' B T H.
  - cbn in H. injection H as <-. destruct fuel; cbn [receive_loop]; rewrite Z.leb_refl; reflexivity.
  - assert (N := record_next _ _ _ _ _ FM U). destruct fuel as [|fuel]; [lia|]. cbn [receive_loop]. destruct (Z.leb_spec (Z.of_nat (List.length m)) pos); [lia|]. rewrite U. cbn [bind]. rewrite T. cbn [bind].
    cbn [insert_records] in H. apply bind_inv in H. destruct H as (w1 & E1 & H). rewrite E1. cbn [bind]. apply IH; [lia|rewrite (record_config _ _ _ E1); exact T|exact H].
Qed.

(** The measurements of the other ranks. *)
Lemma name_back n : clean_name n -> cstr (name_field n) = n /\ In nul (name_field n).
Proof.
  intros [L N]. unfold name_field. rewrite firstn_app. rewrite firstn_all2 by lia. replace (64 - List.length n)%nat with (S (63 - List.length n)) by lia. 
  replace (firstn (S (63 - List.length n)) (repeat nul 64)) with (nul :: firstn (63 - List.length n) (repeat nul 63)) by reflexivity.
  split; [|apply in_or_app; right; left; reflexivity]. generalize (firstn (63 - List.length n) (repeat nul 63)) as z. intros z. clear L. induction n as [|c n IH]; [reflexivity|]. cbn [app cstr]. destruct (Ascii.eqb_spec c nul) as [->|NE]; [exfalso; apply N; left; reflexivity|].
  f_equal. apply IH. intros H. apply N. right. exact H.
Qed.

Lemma registered_in w R : In R (registered w) -> exists n r, In (n, r) (w_registry w) /\ nth_error (w_regions w) r = Some R.
Proof.
  unfold registered. intros H. apply in_flat_map in H. destruct H as ([n r] & I & H). cbn [snd] in H. destruct (nth_error (w_regions w) r) as [R0|] eqn:G; [|destruct H]. destruct H as [<-|[]]. eauto.
Qed.

Lemma registered_clean w R : names_ok w -> In R (registered w) -> clean_name (r_name R).
Proof.
  intros [_ C] H. apply registered_in in H. destruct H as (n & r & _ & G). rewrite Forall_forall in C. apply C. eapply named_in; eauto.
Qed.

Lemma sent_good w : names_ok w -> all_wf w -> Forall good_record (sent w).
Proof.
  intros NM WF. apply Forall_forall. intros x H. unfold sent in H. apply in_flat_map in H. destruct H as (R & IR & H). apply in_map_iff in H. destruct H as (e & <- & IE). split.
  - unfold rec_name. cbn [fst snd]. apply name_back. apply registered_clean with w; assumption.
  - unfold rec_meas. cbn [fst snd]. apply registered_in in IR. destruct IR as (n & r & _ & G). assert (F := wfd_no_nan _ (WF _ _ G)). rewrite Forall_forall in F. exact (F _ IE).
Qed.

Lemma for_region_app k n a b : for_region k n (a ++ b) = for_region k n a ++ for_region k n b.
Proof. unfold for_region. apply flat_map_app. Qed.

Lemma for_region_cons k n x b : for_region k n (x :: b) = (if rec_rank x =? k then [] else if bytes_eqb (cstr (rec_name x)) n then [rec_meas x] else []) ++ for_region k n b.
Proof. reflexivity. Qed.

Lemma for_region_sent w k n : names_ok w -> for_region k n (sent w) = if w_rank w =? k then [] else measured_as w n.
Proof.
  intros NM. unfold sent, measured_as. assert (C : Forall (fun R => clean_name (r_name R)) (registered w)) by (apply Forall_forall; intros R H; eapply registered_clean; eauto).
  induction C as [|R l CR C IH]; cbn [flat_map]; [destruct (_ =? _); reflexivity|]. rewrite for_region_app, IH.
  assert (E : for_region k n (map (fun e : meas => (w_rank w, m_features e, m_policy e, name_field (r_name R), m_metric e)) (ds_to_vector (r_dataset R))) =
    if w_rank w =? k then [] else if bytes_eqb (r_name R) n then ds_to_vector (r_dataset R) else []).
  { induction (ds_to_vector (r_dataset R)) as [|e es IHE]; cbn [map].
    - destruct (_ =? _); [reflexivity|]. destruct (bytes_eqb _ _); reflexivity.
    - rewrite for_region_cons, IHE. unfold rec_rank, rec_name, rec_meas. cbn [fst snd].
      rewrite (proj1 (name_back _ CR)). destruct (w_rank w =? k); [reflexivity|]. destruct (bytes_eqb (r_name R) n); [|reflexivity]. destruct e as [[f p] x]. reflexivity. }
  etransitivity; [apply (f_equal (fun z => z ++ _)); exact E|]. destruct (w_rank w =? k); reflexivity.
Qed.

Lemma for_region_others ws k n : Forall names_ok ws -> for_region k n (flat_map sent ws) = others ws k n.
Proof.
  intros H. unfold others. induction H as [|w ws NM H IH]; [reflexivity|]. cbn [flat_map]. rewrite for_region_app, IH, for_region_sent by exact NM. reflexivity.
Qed.
