(** Proofs about model-selection strings. *)
From Coq Require Import List ZArith Bool Ascii String Lia.
From Verif Require Import Model.Base Model.ModelStringM Spec.ModelStringSpec.
Import ListNotations.

Lemma bytes_eqb_refl : forall a, bytes_eqb a a = true.
Proof. induction a; cbn; auto. rewrite Ascii.eqb_refl; auto. Qed.

Lemma bytes_eqb_eq : forall a b, bytes_eqb a b = true <-> a = b.
Proof.
  split; [|intros ->; apply bytes_eqb_refl].
  revert b; induction a; destruct b; cbn; intros; try congruence.
  apply andb_true_iff in H. destruct H as [H1 H2]. apply Ascii.eqb_eq in H1. f_equal; auto.
Qed.

Lemma bytes_eqb_neq : forall a b, bytes_eqb a b = false <-> a <> b.
Proof.
  intros. destruct (bytes_eqb a b) eqn:E.
  - apply bytes_eqb_eq in E. split; congruence.
  - split; auto. intros _ ->. rewrite bytes_eqb_refl in E. congruence.
Qed.

Lemma find_char_none : forall c s, free_of c s -> find_char c s = None.
Proof.
  induction s; cbn; auto; intros.
  destruct (Ascii.eqb a c) eqn:E.
  - apply Ascii.eqb_eq in E. subst. exfalso. apply H. left; auto.
  - rewrite IHs; auto. intro; apply H; right; auto.
Qed.

Lemma find_char_some : forall c s r, free_of c s -> find_char c (s ++ c :: r) = Some (List.length s).
Proof.
  induction s; cbn; intros.
  - now rewrite Ascii.eqb_refl.
  - destruct (Ascii.eqb a c) eqn:E.
    + apply Ascii.eqb_eq in E. subst. exfalso. apply H. left; auto.
    + rewrite IHs; auto. intro; apply H; right; auto.
Qed.

Lemma find_char_inv : forall c s, match find_char c s with
  | None => free_of c s
  | Some n => exists a b, s = a ++ c :: b /\ free_of c a /\ n = List.length a
  end.
Proof.
  induction s; cbn.
  - intros [].
  - destruct (Ascii.eqb a c) eqn:E.
    + apply Ascii.eqb_eq in E. subst. exists [], s. repeat split; auto; intros [].
    + apply Ascii.eqb_neq in E. destruct (find_char c s); cbn.
      * destruct IHs as (x & y & -> & F & ->). exists (a :: x), y. repeat split; auto.
        intros [|]; auto.
      * intros [|]; auto.
Qed.

Lemma firstn_app_len : forall A (a b : list A), firstn (List.length a) (a ++ b) = a.
Proof. intros. rewrite firstn_app, Nat.sub_diag, firstn_all, firstn_O, app_nil_r. auto. Qed.

Lemma skipn_app_len : forall A (a : list A) x b, skipn (S (List.length a)) (a ++ x :: b) = b.
Proof. induction a; cbn; auto. Qed.

Lemma substr_to_len : forall a b, substr_to (a ++ b) (Some (List.length a)) = a.
Proof. intros. apply firstn_app_len. Qed.
Lemma substr_from_len : forall a c b, substr_from_next (a ++ c :: b) (Some (List.length a)) = b.
Proof. intros. apply skipn_app_len. Qed.

Lemma free_of_app : forall c a b, free_of c a -> free_of c b -> free_of c (a ++ b).
Proof. intros c a b H1 H2 H. apply in_app_or in H. destruct H; auto. Qed.

Lemma item_text_free : forall i, item_ok i -> free_of "," (item_text i).
Proof.
  intros [k v] (H1 & H2 & H3). unfold item_text; cbn in *.
  apply free_of_app; auto. destruct v; [|intros []].
  intros [H|H]; [discriminate|auto].
Qed.

Definition item_value (i : item) : bytes := match snd i with Some v => v | None => [] end.

Lemma add_keyval_item : forall i m, item_ok i ->
  add_keyval (item_text i) m = param_emplace (fst i) (item_value i) m.
Proof.
  intros [k v] m (H1 & H2 & H3). unfold add_keyval, item_text, item_value; cbn [fst snd] in *.
  destruct v as [v|].
  - rewrite find_char_some by auto. now rewrite substr_to_len, substr_from_len.
  - rewrite app_nil_r, find_char_none; auto.
Qed.

(** The parameters of a list of items. *)
Definition items_params (items : list item) (m : params) : params :=
  fold_left (fun m i => param_emplace (fst i) (item_value i) m) items m.

Definition items_text (i : item) (r : list item) : bytes :=
  item_text i ++ List.concat (map (fun i => ","%char :: item_text i) r).

Lemma parse_params_items : forall r i m fuel,
  item_ok i -> Forall item_ok r -> (List.length (items_text i r) < fuel)%nat ->
  parse_params fuel (items_text i r) m = Ok (items_params (i :: r) m).
Proof.
  induction r as [|j r IH]; intros i m fuel Hi Hr Hf; destruct fuel; try lia; cbn [parse_params].
  - unfold items_text; cbn [map List.concat]. rewrite app_nil_r.
    rewrite find_char_none by (apply item_text_free; auto). cbn [substr_to].
    rewrite add_keyval_item; auto.
  - inversion Hr; subst.
    replace (items_text i (j :: r)) with (item_text i ++ ","%char :: items_text j r) in *
      by reflexivity.
    rewrite find_char_some by (apply item_text_free; auto).
    rewrite substr_to_len, substr_from_len, add_keyval_item by auto.
    rewrite IH; auto. rewrite app_length in Hf. cbn [List.length] in Hf. lia.
Qed.

Lemma model_text_cons : forall name i r,
  model_text name (i :: r) = name ++ ","%char :: items_text i r.
Proof. reflexivity. Qed.

Lemma parse_model_text : forall name i r,
  free_of "," name -> item_ok i -> Forall item_ok r ->
  parse_policy_model (model_text name (i :: r)) =
  (let* _ := validate name (items_params (i :: r) []) in Ok (name, items_params (i :: r) [])).
Proof.
  intros. rewrite model_text_cons. unfold parse_policy_model.
  rewrite find_char_some by auto. rewrite substr_to_len, substr_from_len, parse_params_items by (auto; lia). reflexivity.
Qed.

Lemma parse_model_nil : forall name, free_of "," name ->
  parse_policy_model (model_text name []) = Ok (name, []).
Proof.
  intros. unfold model_text; cbn. rewrite app_nil_r.
  unfold parse_policy_model. rewrite find_char_none; auto.
Qed.

Lemma param_find_app : forall k m m', param_find k (m ++ m') =
  match param_find k m with Some v => Some v | None => param_find k m' end.
Proof. induction m as [|[k' v] m]; cbn; auto; intros. destruct (bytes_eqb k k'); auto. Qed.

Lemma param_find_emplace : forall k k' v m, param_find k (param_emplace k' v m) =
  match param_find k m with Some x => Some x | None => if bytes_eqb k k' then Some v else None end.
Proof.
  intros. unfold param_emplace. destruct (param_find k' m) eqn:E.
  - destruct (bytes_eqb k k') eqn:E2.
    + apply bytes_eqb_eq in E2. subst. now rewrite E.
    + destruct (param_find k m); auto.
  - rewrite param_find_app. reflexivity.
Qed.

Lemma items_params_find : forall k items m o, first_value k items o ->
  param_find k (items_params items m) =
  match param_find k m with Some x => Some x | None => o end.
Proof.
  intros k items m o H. revert m. induction H; intro m; cbn [items_params fold_left fst snd].
  - destruct (param_find k m); auto.
  - assert (G : forall r m x, param_find k m = Some x ->
       param_find k (fold_left (fun m i => param_emplace (fst i) (item_value i) m) r m) = Some x).
    { induction r0; cbn; auto; intros. apply IHr0. rewrite param_find_emplace, H. auto. }
    destruct (param_find k m) eqn:E.
    + apply G. rewrite param_find_emplace, E. auto.
    + apply G. rewrite param_find_emplace, E, bytes_eqb_refl. reflexivity.
  - unfold items_params in IHfirst_value. rewrite IHfirst_value, param_find_emplace.
    assert (bytes_eqb k k' = false) as -> by (apply bytes_eqb_neq; congruence).
    destruct (param_find k m); auto.
Qed.

(** Keys of the map are the keys of the items. *)
Lemma items_params_keys : forall items m k,
  In k (map fst (items_params items m)) <-> In k (map fst m) \/ In k (map fst items).
Proof.
  induction items as [|i items IH]; cbn; intros; [tauto|].
  unfold items_params in IH. rewrite IH. unfold param_emplace.
  destruct (param_find (fst i) m) eqn:E.
  - assert (In (fst i) (map fst m)).
    { clear IH. induction m as [|[k' v] m]; cbn in *; try discriminate.
      destruct (bytes_eqb (fst i) k') eqn:E2; auto. apply bytes_eqb_eq in E2. auto. }
    split; intros; intuition (subst; auto).
  - rewrite map_app, in_app_iff. cbn. tauto.
Qed.

Lemma only_keys_spec : forall l m,
  (only_keys l m = Ok tt /\ forall k, In k (map fst m) -> In k l) \/
  (only_keys l m = Abort /\ ~ forall k, In k (map fst m) -> In k l).
Proof.
  intros. unfold only_keys.
  destruct (forallb (fun e => existsb (bytes_eqb (fst e)) l) m) eqn:E; [left|right]; split; auto.
  - intros. apply in_map_iff in H. destruct H as ([k' v] & <- & H).
    rewrite forallb_forall in E. apply E in H. apply existsb_exists in H.
    destruct H as (x & H & G). apply bytes_eqb_eq in G. cbn in *. congruence.
  - intro H. assert (forallb (fun e => existsb (bytes_eqb (fst e)) l) m = true); [|congruence].
    apply forallb_forall. intros x Hx. apply existsb_exists. exists (fst x).
    split; [apply H, in_map; auto|apply bytes_eqb_refl].
Qed.

Lemma validate_spec : forall name m, m <> [] ->
  (validate name m = Ok tt /\ forall k, In k (map fst m) -> documented name k) \/
  (validate name m = Abort /\ ~ forall k, In k (map fst m) -> documented name k).
Proof.
  intros name m Hm. assert (HX : exists k, In k (map fst m)).
  { destruct m as [|e m]; [congruence|exists (fst e); left; auto]. }
  unfold validate.
  destruct (bytes_eqb name ($"Static")) eqn:E1.
  { apply bytes_eqb_eq in E1. subst. destruct (only_keys_spec [$"policy"] m) as [[-> H]|[-> H]];
      [left|right]; split; auto.
    - intros k Hk. apply H in Hk. destruct Hk as [<-|[]]. constructor.
    - intro G. apply H. intros k Hk. apply G in Hk. inversion Hk; left; auto. }
  destruct (bytes_eqb name ($"DecisionTree")) eqn:E2.
  { apply bytes_eqb_eq in E2. subst.
    match goal with |- context [only_keys ?l m] =>
      destruct (only_keys_spec l m) as [[-> H]|[-> H]] end; [left|right]; split; auto.
    - intros k Hk. constructor. auto.
    - intro G. apply H. intros k Hk. apply G in Hk. inversion Hk; auto. }
  destruct (bytes_eqb name ($"RandomForest")) eqn:E3.
  { apply bytes_eqb_eq in E3. subst.
    match goal with |- context [only_keys ?l m] =>
      destruct (only_keys_spec l m) as [[-> H]|[-> H]] end; [left|right]; split; auto.
    - intros k Hk. constructor. auto.
    - intro G. apply H. intros k Hk. apply G in Hk. inversion Hk; auto. }
  destruct (bytes_eqb name ($"PolicyNet")) eqn:E4.
  { apply bytes_eqb_eq in E4. subst.
    match goal with |- context [only_keys ?l m] =>
      destruct (only_keys_spec l m) as [[-> H]|[-> H]] end; [left|right]; split; auto.
    - intros k Hk. constructor. auto.
    - intro G. apply H. intros k Hk. apply G in Hk. inversion Hk; auto. }
  destruct (bytes_eqb name ($"StaticRegion")) eqn:E5.
  { apply bytes_eqb_eq in E5. subst. left. split; auto. intros; constructor. }
  right. split; auto. intro G. destruct HX as [k Hk]. apply G in Hk.
  apply bytes_eqb_neq in E1, E2, E3, E4, E5. inversion Hk; congruence.
Qed.

Lemma items_params_nonempty : forall i r, items_params (i :: r) [] <> [].
Proof.
  intros i r H. assert (In (fst i) (map fst (items_params (i :: r) []))).
  { apply items_params_keys. right; left; auto. }
  rewrite H in H0. destruct H0.
Qed.

Lemma first_value_total : forall k items, exists o, first_value k items o.
Proof.
  induction items as [|[k' v] r [o H]].
  - eexists; constructor.
  - destruct (bytes_eqb k' k) eqn:E.
    + apply bytes_eqb_eq in E. subst. eexists; constructor.
    + apply bytes_eqb_neq in E. exists o. constructor; auto.
Qed.

(** C14. *)
Lemma parse_gives_items : forall name items,
  free_of "," name -> Forall item_ok items -> (forall i, In i items -> documented name (fst i)) ->
  exists m, parse_policy_model (model_text name items) = Ok (name, m) /\
    forall k o, first_value k items o <-> param_find k m = o.
Proof.
  intros name items Hn Hi Hd.
  assert (G : forall m, (forall k o, first_value k items o -> param_find k m = o) ->
              forall k o, first_value k items o <-> param_find k m = o).
  { intros m H k o. split; auto. intros E.
    destruct (first_value_total k items) as [o' H']. rewrite (H _ _ H') in E. subst; auto. }
  destruct items as [|i r].
  - exists []. split; [apply parse_model_nil; auto|]. apply G. intros k o H. inversion H; auto.
  - inversion Hi; subst. exists (items_params (i :: r) []). split.
    + rewrite parse_model_text by auto.
      destruct (validate_spec name (items_params (i :: r) []) (items_params_nonempty i r)) as [[-> H]|[_ H]].
      * reflexivity.
      * exfalso. apply H. intros k Hk. apply items_params_keys in Hk. destruct Hk as [[]|Hk].
        apply in_map_iff in Hk. destruct Hk as (j & <- & Hj). auto.
    + apply G. intros k o H. rewrite (items_params_find k (i :: r) [] o H). reflexivity.
Qed.

(** Every string is the text of exactly one name and list of items. *)
Lemma item_of_text : forall s, free_of "," s -> exists i, item_ok i /\ s = item_text i.
Proof.
  intros s H. pose proof (find_char_inv "=" s) as F. destruct (find_char "=" s).
  - destruct F as (a & b & -> & F & _). exists (a, Some b). repeat split; auto; cbn.
    + intro; apply H; apply in_or_app; auto.
    + intro; apply H; apply in_or_app; right; right; auto.
  - exists (s, None). repeat split; auto. unfold item_text; cbn. now rewrite app_nil_r.
Qed.

Lemma text_decomposition : forall n s, (List.length s <= n)%nat ->
  exists name items, s = model_text name items /\ free_of "," name /\ Forall item_ok items.
Proof.
  induction n; intros s Hs.
  - destruct s; cbn in Hs; [|lia]. exists [], []. repeat split; auto; intros [].
  - pose proof (find_char_inv "," s) as F. destruct (find_char "," s).
    + destruct F as (a & b & -> & F & _).
      destruct (IHn b) as (nm & its & -> & H1 & H2).
      { rewrite app_length in Hs. cbn in Hs. lia. }
      destruct (item_of_text nm H1) as (i & Hi & ->).
      exists a, (i :: its). repeat split; auto.
    + exists s, []. unfold model_text; cbn. rewrite app_nil_r. repeat split; auto.
Qed.

(** C15. *)
Lemma accepted_iff : forall name items,
  free_of "," name -> Forall item_ok items -> items <> [] ->
  ((exists m, parse_policy_model (model_text name items) = Ok (name, m)) /\
     (forall i, In i items -> documented name (fst i))) \/
  (parse_policy_model (model_text name items) = Abort /\
     ~ (forall i, In i items -> documented name (fst i))).
Proof.
  intros name [|i r] Hn Hi He; [congruence|]. inversion Hi; subst.
  rewrite parse_model_text by auto.
  destruct (validate_spec name (items_params (i :: r) []) (items_params_nonempty i r)) as [[-> H]|[-> H]];
    [left|right].
  - split; [eexists; reflexivity|]. intros j Hj. apply H, items_params_keys. right. apply in_map; auto.
  - split; [reflexivity|]. intro G. apply H. intros k Hk. apply items_params_keys in Hk.
    destruct Hk as [[]|Hk]. apply in_map_iff in Hk. destruct Hk as (j & <- & Hj). auto.
Qed.

Lemma accepted_string : forall s, In ","%char s ->
  exists name items, s = model_text name items /\ free_of "," name /\ Forall item_ok items /\ items <> [] /\
    ((exists m, parse_policy_model s = Ok (name, m)) /\
       (forall i, In i items -> documented name (fst i)) \/
     parse_policy_model s = Abort /\
       ~ (forall i, In i items -> documented name (fst i))).
Proof.
  intros s Hs. destruct (text_decomposition _ s (le_n _)) as (name & items & E & Hn & Hi).
  assert (items <> []).
  { intros ->. subst. unfold model_text in Hs; cbn in Hs. rewrite app_nil_r in Hs. auto. }
  exists name, items. repeat split; auto. rewrite E. apply accepted_iff; auto.
Qed.
