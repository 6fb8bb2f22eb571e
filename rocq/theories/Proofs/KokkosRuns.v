(** Runs of the Kokkos connector are runs of the runtime. *)
From Coq Require Import ZArith Bool Ascii String Lia List.
From Verif Require Import Model.Base Model.Float Model.ModelStringM Model.PolicyModelsM Model.ConfigM Model.RuntimeM Model.KokkosM Spec.RuntimeSpec Spec.KokkosSpec
  Proofs.TreeFacts Proofs.ModelStringFacts Proofs.RuntimeNew Proofs.RuntimeAccount.
Import ListNotations.
Open Scope Z_scope.

(** ** A stored model *)

Definition dotted (s : bytes) : Prop := exists r, s = $"." ++ r.

Lemma dotted_unknown s name : dotted s -> (exists c r, name = c :: r /\ Ascii.eqb "." c = false) -> bytes_eqb s name = false.
Proof. intros [r ->] (c & t & -> & E). cbn -[Ascii.eqb]. rewrite E. reflexivity. Qed.

Lemma dotted_to s pos : dotted s -> (forall n, pos = Some n -> n <> O) -> dotted (substr_to s pos).
Proof.
  intros [r ->] N. destruct pos as [[|n]|]; cbn.
  - destruct (N _ eq_refl eq_refl).
  - exists (firstn n r). reflexivity.
  - exists r. reflexivity.
Qed.

Ltac unknown D := rewrite (dotted_unknown _ _ D) by (eexists _, _; split; reflexivity).

Lemma dotted_validate s m : dotted s -> validate s m = Abort.
Proof. intros D. unfold validate. repeat unknown D. reflexivity. Qed.

Lemma parse_params_ok fuel : forall s m x, parse_params fuel s m = x -> (exists m', x = Ok m') \/ x = Fuel.
Proof.
  induction fuel as [|fuel IH]; intros s m x H; cbn [parse_params] in H; [auto|].
  destruct (find_char "," s); [eapply IH; exact H|left; eauto].
Qed.

Lemma find_char_bound ch s : forall n, find_char ch s = Some n -> (n < List.length s)%nat.
Proof.
  induction s as [|x s IH]; intros n H; cbn in H; [discriminate|]. destruct (Ascii.eqb x ch); [inversion H; cbn; lia|].
  destruct (find_char ch s) as [k|]; cbn in H; [|discriminate]. inversion H; subst. specialize (IH _ eq_refl). cbn. lia.
Qed.

Lemma parse_params_fuel fuel : forall s m, (List.length s < fuel)%nat -> parse_params fuel s m <> Fuel.
Proof.
  induction fuel as [|fuel IH]; intros s m L; [lia|]. cbn [parse_params].
  destruct (find_char "," s) as [n|] eqn:E; [|discriminate]. apply find_char_bound in E. apply IH. cbn [substr_from_next]. rewrite skipn_length. lia.
Qed.

Lemma dotted_parse s : dotted s -> parse_policy_model s = Abort \/ parse_policy_model s = Ok (s, []).
Proof.
  intros D. unfold parse_policy_model. destruct (find_char "," s) as [n|] eqn:E; [|right; reflexivity]. left.
  set (rest := substr_from_next s (Some n)). pose proof (parse_params_fuel (S (List.length rest)) rest [] (Nat.lt_succ_diag_r _)) as F.
  destruct (parse_params_ok (S (List.length rest)) rest [] _ eq_refl) as [(m & ->)|X]; [|contradiction]. cbn [bind].
  rewrite dotted_validate; [reflexivity|]. apply dotted_to; [exact D|]. intros k H. inversion H; subst k. clear H. intros ->.
  destruct D as [r ->]. cbn in E. destruct (find_char "," r); discriminate.
Qed.

Lemma dotted_new_region P w nf nm np mt s yaml init : dotted s -> new_region P w nf nm np mt s yaml init = Abort.
Proof.
  intros D. unfold new_region. assert (Q : match s with [] => cf_policy_model (w_config w) | _ => s end = s) by (destruct D as [r ->]; reflexivity).
  rewrite Q. destruct (dotted_parse s D) as [E|E]; rewrite E; [reflexivity|]. cbn [bind]. unfold resolve_static_region. unknown D. cbn [bind].
  unfold create_model. generalize 2%nat. intros [|n]; cbn [create_fuel]; repeat unknown D; reflexivity.
Qed.

Lemma stored_model_dotted name : dotted (stored_model_file name).
Proof. eexists. reflexivity. Qed.

(** ** Ids *)

Lemma ids_eqb_same a b : ids_eqb a b = same_ids b a.
Proof.
  unfold same_ids. destruct (list_eq_dec Z.eq_dec b a) as [->|N].
  - induction a; cbn; auto. rewrite Z.eqb_refl. auto.
  - revert b N. induction a as [|x a IH]; intros [|y b] N; cbn; auto; [congruence|].
    destruct (Z.eqb_spec x y) as [->|]; cbn; auto. apply IH. congruence.
Qed.

Lemma same_ids_refl a : same_ids a a = true.
Proof. unfold same_ids. destruct (list_eq_dec Z.eq_dec a a); congruence. Qed.

Lemma same_ids_true a b : same_ids a b = true -> a = b.
Proof. unfold same_ids. destruct (list_eq_dec Z.eq_dec a b); congruence. Qed.

Lemma place_none ids ps : existsb (same_ids ids) ps = false -> place ids ps = None.
Proof. induction ps as [|p ps IH]; cbn; intros H; auto. apply orb_false_iff in H. destruct H as [A B]. rewrite A, IH; auto. Qed.

Lemma place_some ids ps : existsb (same_ids ids) ps = true -> exists r, place ids ps = Some r.
Proof.
  induction ps as [|p ps IH]; cbn; intros H; [discriminate|]. destruct (same_ids ids p); [eauto|]. cbn in H. destruct (IH H) as [r E]. rewrite E. cbn. eauto.
Qed.

Lemma place_lt ids ps r : place ids ps = Some r -> (r < List.length ps)%nat.
Proof.
  revert r. induction ps as [|p ps IH]; cbn; intros r H; [discriminate|]. destruct (same_ids ids p); [inversion H; lia|].
  destruct (place ids ps) as [k|]; cbn in H; [|discriminate]. inversion H. specialize (IH _ eq_refl). lia.
Qed.

Lemma place_snoc ids ps new : place ids (ps ++ [new]) = match place ids ps with Some r => Some r | None => if same_ids ids new then Some (List.length ps) else None end.
Proof.
  induction ps as [|p ps IH]; cbn; [destruct (same_ids ids new); reflexivity|]. destruct (same_ids ids p); [reflexivity|]. rewrite IH.
  destruct (place ids ps); cbn; [reflexivity|]. destruct (same_ids ids new); reflexivity.
Qed.

Lemma place_nth ids ps r : place ids ps = Some r -> nth_error ps r = Some ids.
Proof.
  revert r. induction ps as [|p ps IH]; cbn; intros r H; [discriminate|]. destruct (same_ids ids p) eqn:E.
  - inversion H; subst. cbn. apply same_ids_true in E. congruence.
  - destruct (place ids ps) as [k|]; cbn in H; [|discriminate]. inversion H. cbn. auto.
Qed.

(** ** Following the calls *)

Lemma declared_snoc os o id : declared (os ++ [o]) id = declare_step id (declared os id) o.
Proof. unfold declared. rewrite fold_left_app. reflexivity. Qed.
Lemma open_snoc os o c : open_problem (os ++ [o]) c = open_step c (open_problem os c) o.
Proof. unfold open_problem. rewrite fold_left_app. reflexivity. Qed.
Lemma problems_snoc os o : problems (os ++ [o]) = problem_step (problems os) o.
Proof. unfold problems. rewrite fold_left_app. reflexivity. Qed.
Lemma ends_after_snoc os : forall before o, ends_after before (os ++ [o]) =
  ends_after before os + match o with KEnd c _ => match open_problem (before ++ os) c with Some _ => 1 | None => 0 end | _ => 0 end.
Proof.
  induction os as [|x os IH]; intros before o; cbn [ends_after app].
  - rewrite app_nil_r. destruct o; lia.
  - rewrite IH, <- app_assoc. cbn [app]. lia.
Qed.
Lemma ends_snoc os o : ends (os ++ [o]) = ends os + match o with KEnd c _ => match open_problem os c with Some _ => 1 | None => 0 end | _ => 0 end.
Proof. unfold ends. rewrite ends_after_snoc. reflexivity. Qed.

Lemma find_erased id c l : find_context id (erase_context c l) = if c =? id then None else find_context id l.
Proof.
  unfold erase_context. induction l as [|[i x] l IH]; cbn [filter find_context fst]; [destruct (c =? id); reflexivity|].
  destruct (Z.eqb_spec i c) as [->|N]; cbn [negb].
  - rewrite IH. destruct (c =? id); reflexivity.
  - cbn [find_context]. rewrite IH. destruct (Z.eqb_spec i id) as [->|M]; [|reflexivity]. destruct (Z.eqb_spec c id); [congruence|reflexivity].
Qed.

Lemma forallb_explicit_app a b : forallb explicit (a ++ b) = forallb explicit a && forallb explicit b.
Proof. apply forallb_app. Qed.

Section Platform.
Variable P : platform.
Variable hash : bytes -> Z.
Variable c : config.
Variable files : list (bytes * bytes).
Variable flush : Z.

Definition context_view (before : list kop) (id : Z) : option (nat * ctxptr) :=
  match open_problem before id with
  | Some ids => option_map (fun r => (r, (r, Sync))) (place ids (problems before))
  | None => None
  end.

Record kinv (before : list kop) (h : history) (K : kokkos) : Prop := {
  ki_run : run P (start_world c files) (map fst h) = Ok (k_world K, map snd h);
  ki_explicit : forallb explicit (map fst h) = true;
  ki_own : Forall own_context (map fst h);
  ki_variables : forall id, find_variable id (k_variables K) = match declared before id with Some v => Ok v | None => UB end;
  ki_problems : forall ids, find_problem ids (k_regions K) = place ids (problems before);
  ki_created : List.length (created_names (map fst h)) = List.length (problems before);
  ki_contexts : forall id, find_context id (k_contexts K) = context_view before id;
  ki_open : forall id ids, open_problem before id = Some ids -> existsb (same_ids ids) (problems before) = true;
  ki_ends : k_encounter K = ends before;
  ki_flush : k_flush K = flush
}.

Lemma regions_count before h K : kinv before h K -> List.length (w_regions (k_world K)) = List.length (problems before).
Proof.
  intros I. destruct (inv_run P (start_world c files) eq_refl eq_refl eq_refl _ _ _ (ki_explicit _ _ _ I) (ki_run _ _ _ I)) as (log & J).
  rewrite <- (ki_created _ _ _ I). assert (E := i_names _ _ _ _ _ J).
  assert (L : map fst (combine (map fst h) (map snd h)) = map fst h).
  { clear. induction h as [|x h IH]; cbn; [reflexivity|]. f_equal. exact IH. }
  rewrite L in E. rewrite <- E. unfold region_names. rewrite map_length. reflexivity.
Qed.

Lemma history_snoc h w o x w' : run P (start_world c files) (map fst h) = Ok (w, map snd h) -> step P w o = Ok (w', x) ->
  run P (start_world c files) (map fst (h ++ [(o, x)])) = Ok (w', map snd (h ++ [(o, x)])).
Proof. intros A B. rewrite !map_app. cbn. exact (run_snoc P _ _ _ _ _ _ _ A B). Qed.

Lemma find_variables_declared before K ids vars : (forall id, find_variable id (k_variables K) = match declared before id with Some v => Ok v | None => UB end) ->
  find_variables (k_variables K) ids = Ok vars -> all_declared before ids vars.
Proof.
  intros V. revert vars. induction ids as [|id ids IH]; intros vars H; cbn in H.
  - inversion H. constructor.
  - apply bind_inv in H. destruct H as (v & E & H). apply bind_inv in H. destruct H as (vs & E2 & H). inversion H; subst. clear H.
    rewrite V in E. destruct (declared before id) as [u|] eqn:D; [|discriminate]. inversion E; subst. constructor; [exact D|]. apply IH. exact E2.
Qed.

Lemma problem_name_joined vars name : problem_name vars = Ok name -> exists names, Forall2 (fun v s => v_name v = Some s) vars names /\ name = joined names.
Proof.
  revert name. induction vars as [|v vars IH]; intros name H; cbn in H.
  - inversion H. exists []. split; [constructor|reflexivity].
  - destruct (v_name v) as [s|] eqn:E; [|discriminate]. apply bind_inv in H. destruct H as (rest & E2 & H). destruct (IH _ E2) as (names & F & ->).
    exists (s :: names). split; [constructor; auto|]. inversion H. destruct F; cbn [joined]; [rewrite app_nil_r; reflexivity|reflexivity].
Qed.

Lemma named_declared before ids vars name : all_declared before ids vars -> problem_name vars = Ok name -> named before ids (firstn 63 name).
Proof.
  intros A H. destruct (problem_name_joined _ _ H) as (names & F & ->). exists names. split; [|reflexivity].
  clear H. revert names F. induction A; intros names F; inversion F; subst; constructor; eauto.
Qed.

Lemma choice_space_exact vars : forall acc z, choice_space vars acc = Ok z -> z = acc * product (map v_size vars).
Proof.
  induction vars as [|v vars IH]; intros acc z H; cbn in H.
  - inversion H. cbn. lia.
  - destruct (v_size v =? 0); [discriminate|]. apply bind_inv in H. destruct H as (a & E & H). unfold i64 in E.
    destruct (_ && _); inversion E; subst. apply IH in H. cbn [map product fold_right]. fold (product (map v_size vars)). lia.
Qed.

Lemma set_features_run vs : forall h w r p w', set_features P hash w r p vs = Ok w' -> run P (start_world c files) (map fst h) = Ok (w, map snd h) ->
  exists xs, Forall2 (feature_of hash) vs xs /\
    let h' := h ++ map (fun x => (OpSetFeature r (Some p) x, Done)) xs in
    run P (start_world c files) (map fst h') = Ok (w', map snd h').
Proof.
  induction vs as [|v vs IH]; intros h w r p w' H R; cbn [set_features] in H.
  - inversion H; subst. exists []. split; [constructor|]. cbn. rewrite app_nil_r. exact R.
  - apply bind_inv in H. destruct H as (x & E & H). apply bind_inv in H. destruct H as ([w1 y] & E1 & H).
    assert (y = Done) as ->.
    { cbn [step] in E1. apply bind_inv in E1. destruct E1 as (? & _ & E1). apply bind_inv in E1. destruct E1 as (? & _ & E1). apply bind_inv in E1. destruct E1 as (? & _ & E1). inversion E1. reflexivity. }
    destruct (IH (h ++ [(OpSetFeature r (Some p) x, Done)]) _ _ _ _ H (history_snoc _ _ _ _ _ R E1)) as (xs & F & R').
    exists (x :: xs). split.
    + constructor; [|exact F]. unfold variable_to_float in E. unfold feature_of. destruct v; [inversion E; reflexivity|inversion E; reflexivity|].
      destruct (List.length s <? 64)%nat eqn:L; [|discriminate]. apply Nat.ltb_lt in L. inversion E. auto.
    + cbn [map]. cbv zeta in *. rewrite <- app_assoc in R'. exact R'.
Qed.

Lemma explicit_features r xs : forallb explicit (map fst (map (fun x : f32 => (OpSetFeature r (Some (r, Sync)) x, Done)) xs)) = true.
Proof. induction xs; cbn; auto. Qed.
Lemma own_features r xs : Forall own_context (map fst (map (fun x : f32 => (OpSetFeature r (Some (r, Sync)) x, Done)) xs)).
Proof. induction xs; cbn; constructor; cbn; auto. Qed.
Lemma created_features r xs : created_names (map fst (map (fun x : f32 => (OpSetFeature r (Some (r, Sync)) x, Done)) xs)) = [].
Proof. induction xs; cbn; auto. Qed.
Lemma created_app a b : created_names (a ++ b) = created_names a ++ created_names b.
Proof. unfold created_names. rewrite map_app, concat_app. reflexivity. Qed.

(** The region of a request. *)
Lemma region_for_run before h K (cs : list (Z * value)) tuning t tvars choices cvars init K1 r :
  kinv before h K -> all_declared before (map fst cs) cvars -> all_declared before tuning tvars -> tuning <> [] ->
  choice_space tvars 1 = Ok choices -> region_for P K (map fst cs) tuning choices (cvars ++ tvars) init = Ok (K1, r) ->
  problem t = Some (map fst cs ++ tuning) ->
  exists create,
    place (map fst cs ++ tuning) (problems (before ++ [t])) = Some r /\
    (if existsb (same_ids (map fst cs ++ tuning)) (problems before) then create = []
     else exists name, named before (map fst cs ++ tuning) name /\
       create = [(OpRegion (Z.of_nat (List.length cs)) name (to_int (product (map v_size tvars))) 0 [] [] init, GotRegion r)]) /\
    run P (start_world c files) (map fst (h ++ create)) = Ok (k_world K1, map snd (h ++ create)) /\
    k_variables K1 = k_variables K /\ k_contexts K1 = k_contexts K /\ k_encounter K1 = k_encounter K /\ k_flush K1 = k_flush K /\
    (forall ids, find_problem ids (k_regions K1) = place ids (problems (before ++ [t]))) /\
    forallb explicit (map fst create) = true /\ Forall own_context (map fst create) /\
    List.length (created_names (map fst (h ++ create))) = List.length (problems (before ++ [t])).
Proof.
  intros I DC DT NT CS H PT. rewrite problems_snoc. unfold problem_step. rewrite PT. unfold region_for in H. rewrite (ki_problems _ _ _ I) in H.
  set (ids := map fst cs ++ tuning) in *. destruct (place ids (problems before)) as [k|] eqn:PL.
  - inversion H; subst K1 k. clear H. exists [].
    destruct (existsb (same_ids ids) (problems before)) eqn:EX; [|rewrite (place_none _ _ EX) in PL; discriminate].
    rewrite app_nil_r. split; [exact PL|]. split; [reflexivity|]. split; [apply (ki_run _ _ _ I)|].
    do 4 (split; [reflexivity|]). split; [apply (ki_problems _ _ _ I)|]. split; [reflexivity|]. split; [constructor|]. apply (ki_created _ _ _ I).
  - destruct (existsb (same_ids ids) (problems before)) eqn:EX; [destruct (place_some _ _ EX); congruence|].
    apply bind_inv in H. destruct H as (full & EN & H).
    destruct (file_find (stored_model_file (firstn 63 full)) (w_files (k_world K))) eqn:FF.
    { rewrite dotted_new_region in H by apply stored_model_dotted. discriminate. }
    apply bind_inv in H. destruct H as ([w1 r1] & ER & H). inversion H; subst K1 r1. clear H.
    assert (RC := regions_count _ _ _ I). destruct (new_region_spec P _ _ _ _ _ _ _ _ _ _ ER) as (-> & _). rewrite RC in *.
    assert (ND : named before ids (firstn 63 full)) by (apply (named_declared before ids (cvars ++ tvars)); [apply Forall2_app; auto|exact EN]).
    rewrite map_length in ER. apply choice_space_exact in CS. rewrite Z.mul_1_l in CS. subst choices.
    eexists. split; [|split; [exists (firstn 63 full); split; [exact ND|reflexivity]|]].
    + rewrite place_snoc, PL, same_ids_refl. reflexivity.
    + split. { apply (history_snoc h (k_world K)); [apply (ki_run _ _ _ I)|]. cbn [step]. rewrite ER. reflexivity. }
      do 4 (split; [reflexivity|]). split.
      * intros ids'. cbn [k_regions find_problem]. rewrite ids_eqb_same, (ki_problems _ _ _ I), place_snoc.
        destruct (same_ids ids' ids) eqn:S; [|destruct (place ids' (problems before)); reflexivity]. apply same_ids_true in S. subst ids'. rewrite PL. reflexivity.
      * split; [reflexivity|]. split; [repeat constructor|]. rewrite map_app, created_app, !app_length, (ki_created _ _ _ I). reflexivity.
Qed.

Lemma begin_result w r now w' x : step P w (OpBegin r false now) = Ok (w', x) -> x = GotContext (r, Sync).
Proof.
  cbn [step]. unfold begin_context. intros H. apply bind_inv in H. destruct H as ([w1 p] & E & H). inversion H; subst. clear H.
  apply bind_inv in E. destruct E as (R & _ & E). destruct (r_idx _ =? idx_max); [discriminate|]. apply bind_inv in E. destruct E as (? & _ & E). inversion E. reflexivity.
Qed.

Lemma end_result w r p now w' x : step P w (OpEnd r (Some p) now None) = Ok (w', x) -> x = Done.
Proof.
  cbn [step]. intros H. apply bind_inv in H. destruct H as (? & _ & H). apply bind_inv in H. destruct H as (? & _ & H). apply bind_inv in H. destruct H as (? & _ & H). inversion H. reflexivity.
Qed.

Lemma train_result w w' x : step P w (OpTrainAll 0 true) = Ok (w', x) -> x = Done.
Proof. cbn [step]. intros H. apply bind_inv in H. destruct H as (? & _ & H). inversion H. reflexivity. Qed.

Lemma kept_open before t ids0 : existsb (same_ids ids0) (problems before) = true -> existsb (same_ids ids0) (problems (before ++ [t])) = true.
Proof.
  intros H. rewrite problems_snoc. unfold problem_step. destruct (problem t) as [ids|]; [|exact H]. destruct (existsb (same_ids ids) (problems before)); [exact H|].
  rewrite existsb_app, H. reflexivity.
Qed.

Lemma kept_place before t ids : existsb (same_ids ids) (problems before) = true -> place ids (problems (before ++ [t])) = place ids (problems before).
Proof.
  intros H. rewrite problems_snoc. unfold problem_step. destruct (problem t) as [ids'|]; [|reflexivity]. destruct (existsb (same_ids ids') (problems before)); [reflexivity|].
  rewrite place_snoc. destruct (place_some _ _ H) as [r E]. rewrite E. reflexivity.
Qed.

Lemma performs_request before context cs t ts now D init h vs :
  performs hash flush before (KRequest context cs (t :: ts) now D init) h vs =
  (let tuning := t :: ts in let ids := map fst cs ++ tuning in
      exists r create xs policy vars,
        place ids (problems (before ++ [KRequest context cs (t :: ts) now D init])) = Some r /\
        all_declared before tuning vars /\
        (if existsb (same_ids ids) (problems before) then create = []
         else exists name, named before ids name /\
           create = [(OpRegion (Z.of_nat (List.length cs)) name (to_int (product (map v_size vars))) 0 [] [] init, GotRegion r)]) /\
        Forall2 (feature_of hash) (map snd cs) xs /\
        h = create ++ (OpBegin r false now, GotContext (r, Sync)) :: map (fun x => (OpSetFeature r (Some (r, Sync)) x, Done)) xs ++
            [(OpGetPolicy r (Some (r, Sync)) D, GotPolicy policy)] /\
        decode vars policy = Ok vs).
Proof. reflexivity. Qed.

(** One call. *)
Lemma kstep_inv before h K o K' vs : kinv before h K -> kstep P hash K o = Ok (K', vs) ->
  exists l, performs hash flush before o l vs /\ kinv (before ++ [o]) (h ++ l) K'.
Proof.
  intros I H. destruct o as [name id cd|name id|context cs tuning now D init|context now]; cbn [kstep] in H.
  - (* KOutput *)
    apply bind_inv in H. destruct H as (K1 & E & H). inversion H; subst K1 vs. clear H.
    unfold declare_output in E. apply bind_inv in E. destruct E as ([n vals] & EA & E). inversion E; subst K'. clear E.
    exists []. split; [cbn; auto|]. rewrite app_nil_r. constructor; cbn [k_world k_variables k_regions k_contexts k_encounter k_flush]; try apply I.
    + intros i. cbn [find_variable]. rewrite declared_snoc. cbn [declare_step]. rewrite EA. destruct (id =? i); [reflexivity|apply I].
    + intros ids. rewrite problems_snoc. cbn. apply I.
    + rewrite problems_snoc. cbn. apply I.
    + intros i. unfold context_view. rewrite open_snoc, problems_snoc. cbn. apply I.
    + intros i ids. rewrite open_snoc, problems_snoc. cbn. apply I.
    + rewrite ends_snoc, Z.add_0_r. apply I.
  - (* KInput *)
    inversion H; subst K' vs. clear H. exists []. split; [cbn; auto|]. rewrite app_nil_r. constructor; unfold declare_input; cbn [k_world k_variables k_regions k_contexts k_encounter k_flush]; try apply I.
    + intros i. cbn [find_variable]. rewrite declared_snoc. cbn [declare_step]. destruct (id =? i); [reflexivity|apply I].
    + intros ids. rewrite problems_snoc. cbn. apply I.
    + rewrite problems_snoc. cbn. apply I.
    + intros i. unfold context_view. rewrite open_snoc, problems_snoc. cbn. apply I.
    + intros i ids. rewrite open_snoc, problems_snoc. cbn. apply I.
    + rewrite ends_snoc, Z.add_0_r. apply I.
  - (* KRequest *)
    unfold request_values in H. destruct tuning as [|t ts].
    { inversion H; subst K' vs. clear H. exists []. split; [cbn; auto|]. rewrite app_nil_r. constructor; try apply I.
      + intros i. rewrite declared_snoc. cbn. apply I.
      + intros ids. rewrite problems_snoc. cbn. apply I.
      + rewrite problems_snoc. cbn. apply I.
      + intros i. unfold context_view. rewrite open_snoc, problems_snoc. cbn. destruct (context =? i); apply I.
      + intros i ids. rewrite open_snoc, problems_snoc. cbn. destruct (context =? i); apply I.
      + rewrite ends_snoc, Z.add_0_r. apply I. }
    set (tuning := t :: ts) in *.
    apply bind_inv in H. destruct H as (tvars & ET & H). apply bind_inv in H. destruct H as (choices & EC & H).
    destruct (max_variables <? _)%nat; [discriminate|]. apply bind_inv in H. destruct H as (cvars & EV & H).
    apply bind_inv in H. destruct H as ([K1 r] & ER & H). apply bind_inv in H. destruct H as ([w1 x1] & EB & H).
    assert (x1 = GotContext (r, Sync)) as -> by (eapply begin_result; exact EB). apply bind_inv in H. destruct H as (w2 & ES & H).
    apply bind_inv in H. destruct H as ([w3 x3] & EG & H). destruct x3 as [| | |policy]; try discriminate.
    apply bind_inv in H. destruct H as (vals & ED & H). inversion H; subst K' vals. clear H.
    assert (DT := find_variables_declared _ _ _ _ (ki_variables _ _ _ I) ET). assert (DC := find_variables_declared _ _ _ _ (ki_variables _ _ _ I) EV).
    assert (NT : tuning <> []) by discriminate.
    destruct (region_for_run before h K cs tuning (KRequest context cs tuning now D init) tvars choices cvars init K1 r I DC DT NT EC ER eq_refl)
      as (create & A1 & A2 & A3 & A4 & A5 & A6 & A7 & A8 & A9 & A10 & A11).
    assert (R1 := history_snoc _ _ _ _ _ A3 EB).
    destruct (set_features_run _ _ _ _ _ _ ES R1) as (xs & F & R2). cbv zeta in R2.
    assert (R3 := history_snoc _ _ _ _ _ R2 EG).
    exists (create ++ (OpBegin r false now, GotContext (r, Sync)) :: map (fun x => (OpSetFeature r (Some (r, Sync)) x, Done)) xs ++
            [(OpGetPolicy r (Some (r, Sync)) D, GotPolicy policy)]).
    split.
    { unfold tuning. rewrite performs_request. cbv zeta. fold tuning. exists r, create, xs, policy, tvars. split; [exact A1|]. split; [exact DT|]. split; [exact A2|]. split; [exact F|]. split; [reflexivity|exact ED]. }
    set (req := KRequest context cs tuning now D init) in *.
    assert (EQ : h ++ create ++ (OpBegin r false now, GotContext (r, Sync)) :: map (fun x => (OpSetFeature r (Some (r, Sync)) x, Done)) xs ++
            [(OpGetPolicy r (Some (r, Sync)) D, GotPolicy policy)] =
       (((h ++ create) ++ [(OpBegin r false now, GotContext (r, Sync))]) ++ map (fun x => (OpSetFeature r (Some (r, Sync)) x, Done)) xs) ++
         [(OpGetPolicy r (Some (r, Sync)) D, GotPolicy policy)]).
    { rewrite <- !app_assoc. reflexivity. }
    rewrite EQ. clear EQ.
    assert (EX : existsb (same_ids (map fst cs ++ tuning)) (problems (before ++ [req])) = true).
    { destruct (existsb (same_ids (map fst cs ++ tuning)) (problems (before ++ [req]))) eqn:X; [reflexivity|]. rewrite (place_none _ _ X) in A1. discriminate. }
    constructor; cbn [k_world k_variables k_regions k_contexts k_encounter k_flush].
    + exact R3.
    + rewrite map_app, forallb_explicit_app, map_app, forallb_explicit_app, map_app, forallb_explicit_app, map_app, forallb_explicit_app, A9, explicit_features, (ki_explicit _ _ _ I). reflexivity.
    + rewrite !map_app, !Forall_app. split; [split; [split; [split; [apply I|exact A10]|]|apply own_features]|]; repeat constructor.
    + intros i. rewrite A4, declared_snoc. apply I.
    + exact A8.
    + rewrite !map_app, !created_app, created_features, <- created_app, <- map_app. cbn. rewrite !app_nil_r. exact A11.
    + intros i. rewrite A5. cbn [find_context]. unfold context_view. rewrite open_snoc. unfold req at 1. cbn [open_step]. destruct (context =? i) eqn:CI.
      * unfold tuning. cbn [problem]. fold tuning. rewrite A1. reflexivity.
      * rewrite find_erased, CI, (ki_contexts _ _ _ I). unfold context_view. destruct (open_problem before i) as [ids|] eqn:OP; [|reflexivity].
        rewrite kept_place; [reflexivity|]. eapply ki_open; eauto.
    + intros i ids. rewrite open_snoc. unfold req at 1. cbn [open_step]. destruct (context =? i).
      * unfold tuning. cbn [problem]. fold tuning. intros X. inversion X; subst. exact EX.
      * intros X. apply kept_open. eapply ki_open; eauto.
    + rewrite A6, ends_snoc. unfold req. rewrite Z.add_0_r. apply I.
    + rewrite A7. apply I.
  - (* KEnd *)
    apply bind_inv in H. destruct H as (K1 & E & H). inversion H; subst K1 vs. clear H. unfold end_kokkos_context in E.
    rewrite (ki_contexts _ _ _ I) in E. unfold context_view in E.
    destruct (open_problem before context) as [ids|] eqn:OP.
    2: { inversion E; subst K'. clear E. exists []. split; [cbn; rewrite OP; auto|]. rewrite app_nil_r. constructor; try apply I.
      + intros i. rewrite declared_snoc. cbn. apply I.
      + intros ids. rewrite problems_snoc. cbn. apply I.
      + rewrite problems_snoc. cbn. apply I.
      + intros i. rewrite (ki_contexts _ _ _ I). unfold context_view. rewrite open_snoc, problems_snoc. cbn. destruct (Z.eqb_spec context i) as [->|]; [rewrite OP|]; reflexivity.
      + intros i ids. rewrite open_snoc, problems_snoc. cbn. destruct (context =? i); [discriminate|apply I].
      + rewrite ends_snoc, OP, Z.add_0_r. apply I. }
    destruct (place_some _ _ (ki_open _ _ _ I _ _ OP)) as [r PL]. rewrite PL in E. cbn [option_map] in E.
    apply bind_inv in E. destruct E as ([w1 x1] & EE & E). assert (x1 = Done) as -> by (eapply end_result; exact EE).
    destruct (int_max <? k_encounter K + 1); [discriminate|]. destruct (k_flush K =? 0) eqn:F0; [discriminate|].
    rewrite (ki_ends _ _ _ I), (ki_flush _ _ _ I) in E.
    assert (EN : ends (before ++ [KEnd context now]) = ends before + 1) by (rewrite ends_snoc, OP; reflexivity). rewrite <- EN in E.
    assert (R1 := history_snoc _ _ _ _ _ (ki_run _ _ _ I) EE).
    assert (VIEW : forall i, find_context i (erase_context context (k_contexts K)) = context_view (before ++ [KEnd context now]) i).
    { intros i. rewrite find_erased, (ki_contexts _ _ _ I). unfold context_view. rewrite open_snoc, problems_snoc. cbn. destruct (context =? i); reflexivity. }
    assert (OPEN : forall i ids, open_problem (before ++ [KEnd context now]) i = Some ids -> existsb (same_ids ids) (problems (before ++ [KEnd context now])) = true).
    { intros i ids'. rewrite open_snoc, problems_snoc. cbn. destruct (context =? i); [discriminate|apply I]. }
    destruct (Z.rem (ends (before ++ [KEnd context now])) flush =? 0) eqn:RM.
    + apply bind_inv in E. destruct E as ([w2 x2] & ET & E). inversion E; subst K'. clear E. assert (x2 = Done) as -> by (eapply train_result; exact ET).
      exists [(OpEnd r (Some (r, Sync)) now None, Done); (OpTrainAll 0 true, Done)]. split.
      { cbn [performs]. split; [reflexivity|]. rewrite OP. exists r. split; [exact PL|]. rewrite RM. reflexivity. }
      assert (EQ : h ++ [(OpEnd r (Some (r, Sync)) now None, Done); (OpTrainAll 0 true, Done)] = (h ++ [(OpEnd r (Some (r, Sync)) now None, Done)]) ++ [(OpTrainAll 0 true, Done)]) by (rewrite <- app_assoc; reflexivity).
      rewrite EQ. clear EQ.
      constructor; cbn [k_world k_variables k_regions k_contexts k_encounter k_flush].
      * exact (history_snoc _ _ _ _ _ R1 ET).
      * rewrite map_app, forallb_explicit_app, map_app, forallb_explicit_app, (ki_explicit _ _ _ I). reflexivity.
      * rewrite !map_app, !Forall_app. split; [split; [apply I|]|]; repeat constructor.
      * intros i. rewrite declared_snoc. cbn. apply I.
      * intros i. rewrite problems_snoc. cbn. apply I.
      * rewrite !map_app, !created_app, problems_snoc. cbn. rewrite !app_nil_r. apply I.
      * exact VIEW.
      * exact OPEN.
      * reflexivity.
      * reflexivity.
    + inversion E; subst K'. clear E.
      exists [(OpEnd r (Some (r, Sync)) now None, Done)]. split.
      { cbn [performs]. split; [reflexivity|]. rewrite OP. exists r. split; [exact PL|]. rewrite RM. reflexivity. }
      constructor; cbn [k_world k_variables k_regions k_contexts k_encounter k_flush].
      * exact R1.
      * rewrite map_app, forallb_explicit_app, (ki_explicit _ _ _ I). reflexivity.
      * rewrite !map_app, !Forall_app. split; [apply I|]; repeat constructor.
      * intros i. rewrite declared_snoc. cbn. apply I.
      * intros i. rewrite problems_snoc. cbn. apply I.
      * rewrite !map_app, !created_app, problems_snoc. cbn. rewrite !app_nil_r. apply I.
      * exact VIEW.
      * exact OPEN.
      * reflexivity.
      * reflexivity.
Qed.

Lemma kinv_start : kinv [] [] (started c files flush).
Proof. constructor; try reflexivity; try constructor. intros id ids X. discriminate X. Qed.

Lemma krun_inv os : forall before h K K' vss, kinv before h K -> krun P hash K os = Ok (K', vss) ->
  exists hs, List.length hs = List.length os /\ List.length vss = List.length os /\
    (forall i o l vs, nth_error os i = Some o -> nth_error hs i = Some l -> nth_error vss i = Some vs -> performs hash flush (before ++ firstn i os) o l vs) /\
    kinv (before ++ os) (h ++ concat hs) K'.
Proof.
  induction os as [|o os IH]; intros before h K K' vss I H; cbn [krun] in H.
  - inversion H; subst. exists []. split; [reflexivity|]. split; [reflexivity|]. split; [intros [|i]; discriminate|]. cbn. rewrite !app_nil_r. exact I.
  - apply bind_inv in H. destruct H as ([K1 x] & E & H). apply bind_inv in H. destruct H as ([K2 xs] & E2 & H). inversion H; subst. clear H.
    destruct (kstep_inv _ _ _ _ _ _ I E) as (l & PF & I1). destruct (IH _ _ _ _ _ I1 E2) as (hs & L1 & L2 & A & I2).
    exists (l :: hs). split; [cbn; congruence|]. split; [cbn; congruence|]. split.
    + intros [|i] o' l' vs' E1 E3 E4; cbn in E1, E3, E4.
      * inversion E1; inversion E3; inversion E4; subst. cbn. rewrite app_nil_r. exact PF.
      * specialize (A i o' l' vs' E1 E3 E4). cbn [firstn]. rewrite <- app_assoc in A. exact A.
    + cbn [concat]. rewrite app_assoc. rewrite <- app_assoc in I2. exact I2.
Qed.

(** A run of the connector. *)
Lemma kokkos_run os K vss : krun P hash (started c files flush) os = Ok (K, vss) ->
  exists hs, List.length hs = List.length os /\ List.length vss = List.length os /\
    (forall i o l vs, nth_error os i = Some o -> nth_error hs i = Some l -> nth_error vss i = Some vs -> performs hash flush (firstn i os) o l vs) /\
    run P (start_world c files) (map fst (concat hs)) = Ok (k_world K, map snd (concat hs)).
Proof.
  intros H. destruct (krun_inv os _ _ _ _ _ kinv_start H) as (hs & A & B & C & D). exists hs. do 3 (split; auto). apply (ki_run _ _ _ D).
Qed.
End Platform.
