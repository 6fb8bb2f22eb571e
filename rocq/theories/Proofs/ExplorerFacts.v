(** What a tree or forest explores with. *)
From Coq Require Import ZArith Bool Ascii String Lia List.
From Verif Require Import Model.Base Model.Float Model.DatasetM Model.ModelStringM Model.TreeM Model.ForestM Model.NetM Model.PolicyNetM Model.PolicyModelsM Model.ConfigM
  Model.RuntimeM Spec.DatasetClient Spec.ModelStringSpec Spec.RuntimeSpec Spec.PolicyModelsSpec Spec.ModelDocs Spec.ExplorerSpec Spec.SafeClient Proofs.TreeFacts
  Proofs.ModelStringFacts Proofs.SafeModels Proofs.SafeSteps Proofs.RuntimeFacts Proofs.PolicyModelsFacts Proofs.NetBound Proofs.ModelDocsFacts Proofs.RuntimeLearn.
From Verif Require Import Spec.RuntimeSpec.
Import ListNotations.
Open Scope Z_scope.

Section Explorer.
Variable P : platform.

Lemma explorer_is init items ps name E nf np : exploring_string name items E -> (forall k o, first_value k items o <-> param_find k ps = o) ->
  explorer P init 2 ps nf np = create_fuel P 2 E nf np [] init.
Proof.
  intros S PF. unfold explorer. destruct (es_explore _ _ _ S) as [F|[F ->]]; rewrite (proj1 (PF _ _) F); reflexivity.
Qed.

Lemma string_name name items E : exploring_string name items E -> In name model_names.
Proof. intros S. destruct (es_name _ _ _ S) as [->| ->]; cbn; tauto. Qed.

(** The region that is created explores with the model of that name. *)
Lemma explorer_region w nf nm np mt info init name items E e : exploring_string name items E -> model_string (w_config w) info = model_text name items ->
  cf_persistent (w_config w) = 0 -> create_fuel P 2 E nf np [] init = Ok e ->
  exists w' R, step P w (OpRegion nf nm np mt info [] init) = Ok (w', GotRegion (List.length (w_regions w))) /\
    nth_error (w_regions w') (List.length (w_regions w)) = Some R /\ exploring (r_model R) e.
Proof.
  intros S EI PE EE. assert (IN := string_name _ _ _ S). destruct (name_facts name IN) as (FN & _).
  destruct (parse_gives_items name items FN (es_items _ _ _ S) (es_documented _ _ _ S)) as (ps & EP & FV).
  assert (M : exists m, create_model P name nf np ps init = Ok m /\ exploring m e).
  { unfold create_model. destruct (es_name _ _ _ S) as [->| ->].
    - rewrite tree_branch. destruct (count_param items ps FV ($"max_depth") 2 (es_depth _ _ _ S)) as (d & -> & _). cbn [bind].
      rewrite (explorer_is init items ps _ E nf np S FV), EE. cbn [bind]. eexists. split; [reflexivity|]. left. eauto.
    - rewrite forest_branch. destruct (count_param items ps FV ($"num_trees") 10 (es_trees _ _ _ S)) as (t & -> & _). cbn [bind].
      destruct (count_param items ps FV ($"max_depth") 2 (es_depth _ _ _ S)) as (d & -> & _). cbn [bind].
      rewrite (explorer_is init items ps _ E nf np S FV), EE. cbn [bind]. eexists. split; [reflexivity|]. right. eauto. }
  destruct M as (m & EM & X).
  destruct (region_with_model P w nf nm np mt info init name items ps m EI EP IN) as (w' & R & ST & N & ER & _); auto.
  - apply FV. exact (es_load _ _ _ S).
  - apply FV. exact (es_load_dataset _ _ _ S).
  - exists w', R. rewrite ER. auto.
Qed.

Lemma unknown_model E nf np ps init fuel : ~ In E known_models -> create_fuel P (S fuel) E nf np ps init = Abort.
Proof.
  intros N. assert (B : forall s, In s known_models -> bytes_eqb E s = false).
  { intros s I. destruct (bytes_eqb E s) eqn:X; [|reflexivity]. exfalso. apply N. apply ModelStringFacts.bytes_eqb_eq in X. rewrite X. exact I. }
  cbn [create_fuel]. rewrite !B by (cbn; tauto). reflexivity.
Qed.

Lemma unknown_explorer w nf nm np mt info yaml init name items E : exploring_string name items E -> model_string (w_config w) info = model_text name items ->
  ~ In E known_models -> step P w (OpRegion nf nm np mt info yaml init) = Abort.
Proof.
  intros S EI N. assert (IN := string_name _ _ _ S). destruct (name_facts name IN) as (FN & NS & _).
  destruct (parse_gives_items name items FN (es_items _ _ _ S) (es_documented _ _ _ S)) as (ps & EP & FV).
  assert (M : create_model P name nf np ps init = Abort).
  { unfold create_model. destruct (es_name _ _ _ S) as [->| ->].
    - rewrite tree_branch. destruct (count_param items ps FV ($"max_depth") 2 (es_depth _ _ _ S)) as (d & -> & _). cbn [bind].
      rewrite (explorer_is init items ps _ E nf np S FV), unknown_model by exact N. reflexivity.
    - rewrite forest_branch. destruct (count_param items ps FV ($"num_trees") 10 (es_trees _ _ _ S)) as (t & -> & _). cbn [bind].
      destruct (count_param items ps FV ($"max_depth") 2 (es_depth _ _ _ S)) as (d & -> & _). cbn [bind].
      rewrite (explorer_is init items ps _ E nf np S FV), unknown_model by exact N. reflexivity. }
  cbn [step]. unfold new_region. change (match info with [] => cf_policy_model (w_config w) | _ => info end) with (model_string (w_config w) info).
  rewrite EI, EP. cbn [bind]. unfold resolve_static_region. rewrite NS. cbn [bind]. rewrite M. reflexivity.
Qed.

(** From the creation on. *)
Lemma explored_run w nf nm np mt info init name items E e w1 r os w' xs R' : exploring_string name items E ->
  model_string (w_config w) info = model_text name items -> cf_persistent (w_config w) = 0 -> create_fuel P 2 E nf np [] init = Ok e ->
  step P w (OpRegion nf nm np mt info [] init) = Ok (w1, GotRegion r) -> run P w1 os = Ok (w', xs) ->
  nth_error (w_regions w') r = Some R' -> m_trainable (r_model R') = true ->
  exists e', exploring (r_model R') e' /\ ask P e (asked P w1 os r) = Ok (answers os xs r, e').
Proof.
  intros S EI PE EE ST RU ER T. destruct (explorer_region w nf nm np mt info init name items E e S EI PE EE) as (w2 & R & ST2 & N & X).
  rewrite ST2 in ST. injection ST as <- <-. exact (explores P os _ _ _ _ _ _ _ RU N X ER T).
Qed.

Lemma ask_nested_tree n t calls : forall e, ask P (MTree n true t (Some e)) calls =
  (let* (cs, e') := ask P e calls in Ok (cs, MTree n true t (Some e'))).
Proof.
  induction calls as [|[D f] r IH]; intros e; [reflexivity|]. cbn [ask m_get_index negb]. destruct (m_get_index P D e f) as [[c e1]| | | |]; try reflexivity.
  cbn [bind]. rewrite IH. destruct (ask P e1 r) as [[cs e2]| | | |]; reflexivity.
Qed.
Lemma ask_nested_forest n t calls : forall e, ask P (MForest n true t (Some e)) calls =
  (let* (cs, e') := ask P e calls in Ok (cs, MForest n true t (Some e'))).
Proof.
  induction calls as [|[D f] r IH]; intros e; [reflexivity|]. cbn [ask m_get_index negb]. destruct (m_get_index P D e f) as [[c e1]| | | |]; try reflexivity.
  cbn [bind]. rewrite IH. destruct (ask P e1 r) as [[cs e2]| | | |]; reflexivity.
Qed.

Lemma robin_in_turn np calls cs e : 1 <= np -> ask P (MRoundRobin np (-1)) calls = Ok (cs, e) -> in_turn np cs.
Proof.
  intros H A. destruct (round_robin_answers P 0 np (fun _ _ => zero64) H) as (m & EM & G). cbn in EM. injection EM as <-.
  destruct (G calls) as (m' & E). rewrite E in A. injection A as <- _. intros k a N.
  rewrite nth_error_map in N. destruct (nth_error (seq 0 (List.length calls)) k) as [j|] eqn:J; [|discriminate N]. cbn in N. injection N as <-.
  assert (L : (k < List.length (seq 0 (List.length calls)))%nat) by (apply nth_error_Some; congruence).
  apply (nth_error_nth _ _ 0%nat) in J. rewrite seq_length in L. rewrite seq_nth in J by exact L. subst j. reflexivity.
Qed.

Lemma turns w nf nm np mt info init name items E w1 r os w' xs R' : exploring_string name items E -> In E [$"RoundRobin"; $"DecisionTree"; $"RandomForest"] ->
  model_string (w_config w) info = model_text name items -> cf_persistent (w_config w) = 0 -> 1 <= np ->
  step P w (OpRegion nf nm np mt info [] init) = Ok (w1, GotRegion r) -> run P w1 os = Ok (w', xs) ->
  nth_error (w_regions w') r = Some R' -> m_trainable (r_model R') = true -> in_turn np (answers os xs r).
Proof.
  intros S I EI PE NP ST RU ER T. destruct I as [<-|[<-|[<-|[]]]];
    (destruct (explored_run w nf nm np mt info init name items _ _ w1 r os w' xs R' S EI PE eq_refl ST RU ER T) as (e' & _ & A)).
  - exact (robin_in_turn _ _ _ _ NP A).
  - rewrite ask_nested_tree in A. apply bind_inv in A. destruct A as ([cs e2] & A & Q). injection Q as -> _. exact (robin_in_turn _ _ _ _ NP A).
  - rewrite ask_nested_forest in A. apply bind_inv in A. destruct A as ([cs e2] & A & Q). injection Q as -> _. exact (robin_in_turn _ _ _ _ NP A).
Qed.

Lemma one_policy w nf nm np mt info init name items w1 r os w' xs R' : exploring_string name items ($"Static") ->
  model_string (w_config w) info = model_text name items -> cf_persistent (w_config w) = 0 -> 
  step P w (OpRegion nf nm np mt info [] init) = Ok (w1, GotRegion r) -> run P w1 os = Ok (w', xs) ->
  nth_error (w_regions w') r = Some R' -> m_trainable (r_model R') = true -> Forall (eq 0) (answers os xs r).
Proof.
  intros S EI PE ST RU ER T.
  destruct (explored_run w nf nm np mt info init name items _ _ w1 r os w' xs R' S EI PE eq_refl ST RU ER T) as (e' & _ & A).
  change (if np <=? 0 then 0 else 0) with (if np <=? 0 then 0 else 0) in A. replace (if np <=? 0 then 0 else 0) with 0 in A by (destruct (np <=? 0); reflexivity).
  revert A. generalize (answers os xs r) e'. induction (asked P w1 os r) as [|[D f] l IH]; intros cs e2 A; cbn [ask m_get_index bind] in A.
  - injection A as <- _. constructor.
  - apply bind_inv in A. destruct A as ([cs' e3] & A & Q). injection Q as <- _. constructor; [reflexivity|]. exact (IH _ _ A).
Qed.

Definition empty_explorer (np : Z) (E : bytes) : model := if bytes_eqb E ($"Optimal") then MOptimal [] else MDatasetMap np [].

Lemma no_answers np E calls cs e : ask P (empty_explorer np E) calls = Ok (cs, e) -> cs = [] /\ e = empty_explorer np E.
Proof.
  unfold empty_explorer. destruct (bytes_eqb E _); (destruct calls as [|[D f] l]; cbn [ask m_get_index]; [intros A; injection A as <- <-; auto|]).
  - discriminate.
  - destruct (negb (nan_free f)); discriminate.
Qed.

Lemma stops w nf nm np mt info init name items E w1 r os w' xs R' : exploring_string name items E -> In E [$"Optimal"; $"DatasetMap"] ->
  model_string (w_config w) info = model_text name items -> cf_persistent (w_config w) = 0 ->
  step P w (OpRegion nf nm np mt info [] init) = Ok (w1, GotRegion r) -> run P w1 os = Ok (w', xs) ->
  nth_error (w_regions w') r = Some R' -> m_trainable (r_model R') = true ->
  answers os xs r = [] /\
  forall p c D, r_alive R' = true -> get_context w' p = Ok c -> nan_free (c_features c) = true -> step P w' (OpGetPolicy r (Some p) D) = Abort.
Proof.
  intros S I EI PE ST RU ER T.
  assert (C : create_fuel P 2 E nf np [] init = Ok (empty_explorer np E)) by (destruct I as [<-|[<-|[]]]; reflexivity).
  destruct (explored_run w nf nm np mt info init name items _ _ w1 r os w' xs R' S EI PE C ST RU ER T) as (e' & X & A).
  apply no_answers in A. destruct A as [A ->]. split; [exact A|]. intros p c D AL GC NF. cbn [step resolve bind]. unfold get_policy_index.
  rewrite (proj2 (get_region_ok w' _ R') (conj ER AL)). cbn [bind]. rewrite GC. cbn [bind].
  assert (M : m_get_index P D (r_model R') (c_features c) = Abort); [|rewrite M; reflexivity].
  unfold empty_explorer in X. destruct X as [(n & t & ->)|(n & t & ->)]; cbn [m_get_index negb]; destruct (bytes_eqb E _); cbn [m_get_index bind]; rewrite ?NF; reflexivity.
Qed.

Lemma net_answers N calls : forall cs e, ask P (MNet N) calls = Ok (cs, e) -> exists N', e = MNet N' /\ pn_net N' = pn_net N.
Proof.
  revert N. induction calls as [|[D f] l IH]; intros N cs e A; cbn [ask m_get_index] in A.
  - injection A as _ <-. eauto.
  - apply bind_inv in A. destruct A as ([c m] & E & A). apply bind_inv in E. destruct E as ([c' N1] & E & Q). injection Q as _ <-.
    apply get_keeps in E. apply bind_inv in A. destruct A as ([cs' e'] & A & Q). injection Q as _ <-. destruct (IH _ _ _ A) as (N' & -> & K).
    exists N'. split; [reflexivity|]. rewrite K. apply E.
Qed.

Lemma untrained_net w nf nm np mt info init name items w1 r os w' xs R' : exploring_string name items ($"PolicyNet") ->
  model_string (w_config w) info = model_text name items -> cf_persistent (w_config w) = 0 -> 0 <= nf -> 0 <= np ->
  step P w (OpRegion nf nm np mt info [] init) = Ok (w1, GotRegion r) -> run P w1 os = Ok (w', xs) ->
  nth_error (w_regions w') r = Some R' -> m_trainable (r_model R') = true ->
  exists N0 N, create_model P ($"PolicyNet") nf np [] init = Ok (MNet N0) /\ exploring (r_model R') (MNet N) /\ pn_net N = pn_net N0.
Proof.
  intros S EI PE NF NP ST RU ER T.
  assert (C : exists N0, create_fuel P 2 ($"PolicyNet") nf np [] init = Ok (MNet N0)).
  { rewrite net_branch. unfold create_net, param_double. cbn [param_find bind]. destruct (Z.ltb_spec nf 0); [lia|]. destruct (Z.ltb_spec np 0); [lia|]. cbn [orb]. eauto. }
  destruct C as (N0 & C). destruct (explored_run w nf nm np mt info init name items _ _ w1 r os w' xs R' S EI PE C ST RU ER T) as (e' & X & A).
  destruct (net_answers _ _ _ _ A) as (N & -> & K). exists N0, N. split; [|auto]. unfold create_model. rewrite net_branch in C |- *. exact C.
Qed.
End Explorer.
