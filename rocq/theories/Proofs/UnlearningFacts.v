(** Regions whose model training leaves as it is: what they answer during a run. *)
From Coq Require Import ZArith Bool Ascii String Lia List Sorted.
From Flocq Require Import BinarySingleNaN.
From Verif Require Import Model.Base Model.Float Model.Decimal Model.DatasetM Model.ParserM Model.ModelStringM Model.PolicyModelsM Model.ConfigM Model.RuntimeM Model.WriteOptM
  Spec.ModelStringSpec Spec.PolicyModelsSpec Spec.SafeClient Spec.ModelDocs Spec.ExplorerSpec Spec.WriteOptSpec Spec.RuntimeSpec Proofs.TreeFacts
  Proofs.ModelStringFacts Proofs.SafeModels Proofs.RuntimeFacts Proofs.PolicyModelsFacts Proofs.ModelDocsFacts Proofs.RuntimeLearn Proofs.ExplorerFacts Proofs.WriteOptFacts Proofs.DotFacts Proofs.CreateDatasetFacts.
From Verif Require Import Spec.RuntimeSpec.
Import ListNotations.
Open Scope Z_scope.

Section Unlearning.
Variable P : platform.

Definition unlearning (m : model) : Prop := match m with MStatic _ _ | MRandom _ | MRoundRobin _ _ | MOptimal _ => True | _ => False end.

Lemma unlearning_train m d m' : unlearning m -> m_train P m d = Ok m' -> m' = m.
Proof. destruct m; try contradiction; cbn [m_train]; intros _ E; congruence. Qed.

Lemma unlearning_get m D x k m' : unlearning m -> m_get_index P D m x = Ok (k, m') -> unlearning m'.
Proof.
  destruct m as [n c|n|n l|q| | | |]; try contradiction; cbn [m_get_index]; intros _ E.
  - injection E as _ <-. exact I.
  - destruct (1 <? n); injection E as _ <-; exact I.
  - destruct (n =? 0); [discriminate|]. injection E as _ <-. exact I.
  - destruct q; [discriminate|]. injection E as _ <-. exact I.
Qed.

Lemma unlearning_run os : forall w w' xs r R, run P w os = Ok (w', xs) -> nth_error (w_regions w) r = Some R -> unlearning (r_model R) ->
  exists R', nth_error (w_regions w') r = Some R' /\ ask P (r_model R) (asked P w os r) = Ok (answers os xs r, r_model R').
Proof.
  induction os as [|o os IH]; intros w w' xs r R H ER U.
  - cbn in H. inversion H; subst. exists R. split; [exact ER|reflexivity].
  - cbn [run] in H. apply bind_inv in H. destruct H as ([w1 x] & E1 & H). apply bind_inv in H. destruct H as ([w2 xs2] & E2 & H). inversion H; subst. clear H.
    assert (GP : (exists p D, o = OpGetPolicy r p D) \/ match o with OpGetPolicy i _ _ => i <> r | _ => True end).
    { destruct o as [| | | |i p D| | | | | | | |]; auto. destruct (Nat.eq_dec i r) as [->|]; eauto. }
    destruct GP as [(p & D & ->)|GP].
    + destruct (ask_step _ _ _ _ _ _ _ _ E1 ER) as (k & m & R1 & -> & EM & ER1 & X1 & _). assert (U1 := unlearning_get _ _ _ _ _ U EM). rewrite <- X1 in U1.
      destruct (IH _ _ _ _ _ E2 ER1 U1) as (R' & A & B). exists R'. split; [exact A|].
      cbn [asked answers]. rewrite Nat.eqb_refl, E1. cbn [app ask]. rewrite EM. cbn [bind]. rewrite <- X1, B. reflexivity.
    + destruct (here_step P r (fun m _ => m = r_model R) (cf_single_model (w_config w)) (cf_persistent (w_config w)) true) with (w := w) (o := o) (w' := w1) (x := x) as ((R1 & ER1 & EM) & _); auto.
      * intros m0 d0 m d m' _ -> _ T. exact (unlearning_train _ _ _ U T).
      * intros m d d2 m' _ -> T. exact (unlearning_train _ _ _ U T).
      * split; [eauto|auto].
      * destruct o; auto.
      * rewrite <- EM in U. destruct (IH _ _ _ _ _ E2 ER1 U) as (R' & A & B). exists R'. split; [exact A|].
        assert (N1 : asked P w (o :: os) r = asked P w1 os r).
        { cbn [asked]. rewrite E1. destruct o as [| | | |i p D| | | | | | | |]; auto. apply Nat.eqb_neq in GP. rewrite GP. reflexivity. }
        assert (N2 : answers (o :: os) (x :: xs2) r = answers os xs2 r).
        { cbn [answers]. destruct o as [| | | |i p D| | | | | | | |]; auto. apply Nat.eqb_neq in GP. rewrite GP. destruct x; reflexivity. }
        rewrite N1, N2, <- EM. exact B.
Qed.

(** ** Optimal *)

Lemma optimal_created w nf nm np mt info init ps : model_string (w_config w) info = $"Optimal" -> cf_persistent (w_config w) = 0 ->
  file_find ($"opt-" ++ firstn 63 (cstr nm) ++ $"-rank-" ++ print_Z (w_rank w) ++ $".txt") (w_files w) = Some (comma_separated (map print_Z ps)) ->
  Forall (fun p => -2147483648 <= p <= 2147483647) ps ->
  exists w1 R, step P w (OpRegion nf nm np mt info [] init) = Ok (w1, GotRegion (List.length (w_regions w))) /\
    nth_error (w_regions w1) (List.length (w_regions w)) = Some R /\ r_model R = MOptimal ps.
Proof.
  intros EI PE FF RG.
  assert (ML : m_load (MOptimal []) (Some (comma_separated (map print_Z ps))) = Ok (MOptimal ps)).
  { cbn [m_load]. assert (G : Forall (fun s => free_of "," s /\ s <> []) (map print_Z ps)).
    { clear. apply Forall_map. apply Forall_forall. intros p _. split; [apply print_Z_free_comma|apply print_Z_nonempty]. }
    rewrite (proj1 (split_comma_separated _ G)). rewrite (push_all (map print_Z ps) ps); [reflexivity|].
    clear -RG. induction RG as [|p ps H RG IH]; [constructor|]. cbn [map]. constructor; [|exact IH]. exists []. apply stoi_whole. exact H. }
  cbn [step]. unfold new_region. change (match info with [] => cf_policy_model (w_config w) | _ => info end) with (model_string (w_config w) info).
  rewrite EI. change (parse_policy_model ($"Optimal")) with (Ok ($"Optimal", @nil (bytes * bytes)) : outcome (bytes * params)). cbn [bind].
  unfold resolve_static_region. change (bytes_eqb ($"Optimal") ($"StaticRegion")) with false. cbv iota. cbn [bind].
  change (create_model P ($"Optimal") nf np [] init) with (Ok (MOptimal [])). cbn [bind]. unfold load_models. cbn [param_find bind].
  unfold load_persistent. cbn [w_config]. rewrite PE. change (truthy 0) with false. cbn [bind]. unfold load_and_train. cbn [param_find bind].
  set (R := mkRegion true (region_name nm) nf np mt ($"Optimal") ($"Optimal") (MOptimal []) [] 0 None (mkContext [] 0 0 (Clock None None)) [] [] []).
  set (w1 := mkWorld (w_config w) (w_rank w) (w_regions w ++ [R]) (w_registry w) (w_executions w) (w_files w)).
  assert (N : nth_error (w_regions w1) (List.length (w_regions w)) = Some R).
  { cbn. rewrite nth_error_app2 by lia. rewrite Nat.sub_diag. reflexivity. }
  unfold load_optimal. change (bytes_eqb ($"Optimal") ($"Optimal")) with true. cbv iota.
  change (file_find (optimal_file (w_rank w1) (region_name nm)) (w_files w1)) with
    (file_find ($"opt-" ++ firstn 63 (cstr nm) ++ $"-rank-" ++ print_Z (w_rank w) ++ $".txt") (w_files w)). rewrite FF.
  rewrite (proj2 (get_region_ok w1 _ R) (conj N eq_refl)). cbn [bind]. change (r_model R) with (MOptimal []). rewrite ML. cbn [bind].
  unfold load_dataset_map. change (bytes_eqb ($"Optimal") ($"DatasetMap")) with false. cbv iota. cbn [bind].
  set (R2 := with_model R (MOptimal ps)). set (w2 := set_region w1 (List.length (w_regions w)) R2).
  assert (N2 : nth_error (w_regions w2) (List.length (w_regions w)) = Some R2) by exact (nth_set_nth_eq _ _ _ _ N).
  destruct (truthy (cf_trace_csv (w_config w2))).
  - rewrite (proj2 (get_region_ok w2 _ R2) (conj N2 eq_refl)). cbn [bind]. do 2 eexists. split; [reflexivity|]. split; [cbn; exact (nth_set_nth_eq _ _ _ _ N2)|]. reflexivity.
  - cbn [bind]. do 2 eexists. split; [reflexivity|]. split; [exact N2|]. reflexivity.
Qed.

Lemma optimal_missing w nf nm np mt info init : model_string (w_config w) info = $"Optimal" -> cf_persistent (w_config w) = 0 ->
  file_find ($"opt-" ++ firstn 63 (cstr nm) ++ $"-rank-" ++ print_Z (w_rank w) ++ $".txt") (w_files w) = None ->
  step P w (OpRegion nf nm np mt info [] init) = Abort.
Proof.
  intros EI PE FF. cbn [step]. unfold new_region. change (match info with [] => cf_policy_model (w_config w) | _ => info end) with (model_string (w_config w) info).
  rewrite EI. change (parse_policy_model ($"Optimal")) with (Ok ($"Optimal", @nil (bytes * bytes)) : outcome (bytes * params)). cbn [bind].
  unfold resolve_static_region. change (bytes_eqb ($"Optimal") ($"StaticRegion")) with false. cbv iota. cbn [bind].
  change (create_model P ($"Optimal") nf np [] init) with (Ok (MOptimal [])). cbn [bind]. unfold load_models. cbn [param_find bind].
  unfold load_persistent. cbn [w_config]. rewrite PE. change (truthy 0) with false. cbn [bind]. unfold load_and_train. cbn [param_find bind].
  unfold load_optimal. change (bytes_eqb ($"Optimal") ($"Optimal")) with true. cbv iota. cbn [w_rank w_files]. unfold optimal_file, region_name. rewrite FF. reflexivity.
Qed.

Lemma optimal_cut q calls cs e : ask P (MOptimal q) calls = Ok (cs, e) -> exists rest, q = cs ++ rest /\ e = MOptimal rest.
Proof.
  rewrite ask_optimal. destruct (_ <=? _)%nat; [|discriminate]. intros E. injection E as <- <-. eexists. split; [symmetry; apply firstn_skipn|reflexivity].
Qed.

Theorem optimal_run w nf nm np mt info init ps : model_string (w_config w) info = $"Optimal" -> cf_persistent (w_config w) = 0 ->
  file_find ($"opt-" ++ firstn 63 (cstr nm) ++ $"-rank-" ++ print_Z (w_rank w) ++ $".txt") (w_files w) = Some (comma_separated (map print_Z ps)) ->
  Forall (fun p => -2147483648 <= p <= 2147483647) ps ->
  exists w1 r, step P w (OpRegion nf nm np mt info [] init) = Ok (w1, GotRegion r) /\
    forall os w' xs, run P w1 os = Ok (w', xs) ->
    exists rest, ps = answers os xs r ++ rest /\
      (rest = [] -> forall R' p c D, nth_error (w_regions w') r = Some R' -> r_alive R' = true -> get_context w' p = Ok c ->
         step P w' (OpGetPolicy r (Some p) D) = Abort).
Proof.
  intros EI PE FF RG. destruct (optimal_created w nf nm np mt info init ps EI PE FF RG) as (w1 & R & ST & N & M). exists w1, (List.length (w_regions w)).
  split; [exact ST|]. intros os w' xs RU. destruct (unlearning_run os _ _ _ _ _ RU N) as (R2 & N2 & A); [rewrite M; exact I|]. rewrite M in A. apply optimal_cut in A as (rest & Q & M2).
  exists rest. split; [exact Q|]. intros -> R' p c D ER AL GC. rewrite N2 in ER. injection ER as <-. cbn [step resolve bind]. unfold get_policy_index.
  rewrite (proj2 (get_region_ok w' _ R2) (conj N2 AL)). cbn [bind]. rewrite GC. cbn [bind]. rewrite M2. reflexivity.
Qed.

(** Each execution gets a policy that was fastest for it. *)
Theorem optimal_fastest w nf nm np mt info init rows s count : model_string (w_config w) info = $"Optimal" -> cf_persistent (w_config w) = 0 ->
  arranged rows (w_rank w) s -> (forall r, In r rows -> is_nan (o_time r) = false) -> (forall r, In r rows -> -2147483648 <= o_policy r <= 2147483647) ->
  (forall i, (exists r, measured_for rows (w_rank w) (firstn 63 (cstr nm)) i r) <-> 0 <= i < Z.of_nat count) ->
  file_find ($"opt-" ++ firstn 63 (cstr nm) ++ $"-rank-" ++ print_Z (w_rank w) ++ $".txt") (w_files w) = Some (opt_file s (firstn 63 (cstr nm))) ->
  exists w1 r, step P w (OpRegion nf nm np mt info [] init) = Ok (w1, GotRegion r) /\
    forall os w' xs, run P w1 os = Ok (w', xs) -> (List.length (answers os xs r) <= count)%nat /\
      forall i p, nth_error (answers os xs r) i = Some p -> fastest rows (w_rank w) (firstn 63 (cstr nm)) (Z.of_nat i) p.
Proof.
  intros EI PE AR NN RG IX FF. destruct (opt_written rows (w_rank w) s (firstn 63 (cstr nm)) AR NN) as (l & E & S & L1 & L2).
  assert (FF' := FF). rewrite E in FF'. rewrite <- map_map in FF'.
  destruct (optimal_created w nf nm np mt info init (map o_policy l) EI PE FF') as (w1 & R & ST & N & M).
  { apply Forall_map. apply Forall_forall. intros r I. apply RG. destruct (L1 r I) as [(J & _) _]. exact J. }
  destruct (opt_replayed P np rows (w_rank w) s (firstn 63 (cstr nm)) count AR NN RG IX) as (m & CF & K1 & K2).
  assert (m = MOptimal (map o_policy l)) as ->.
  { assert (CF' : new_optimal (Some (opt_file s (firstn 63 (cstr nm)))) = Ok m) by exact CF. clear CF. rename CF' into CF. unfold new_optimal in CF. rewrite E in CF. rewrite <- map_map in CF. rewrite (proj1 (split_comma_separated (map print_Z (map o_policy l)) ltac:(apply Forall_map, Forall_forall; intros p _; split; [apply print_Z_free_comma|apply print_Z_nonempty]))) in CF.
    rewrite (push_all (map print_Z (map o_policy l)) (map o_policy l)) in CF; [cbn in CF; congruence|].
    clear -L1 RG. assert (H : Forall (fun p => -2147483648 <= p <= 2147483647) (map o_policy l)).
    { apply Forall_map. apply Forall_forall. intros r I. apply RG. destruct (L1 r I) as [(J & _) _]. exact J. }
    revert H. generalize (map o_policy l). induction 1 as [|p ps H RG' IH]; [constructor|]. cbn [map]. constructor; [|exact IH]. exists []. apply stoi_whole. exact H. }
  exists w1, (List.length (w_regions w)). split; [exact ST|]. intros os w' xs RU.
  destruct (unlearning_run os _ _ _ _ _ RU N) as (R2 & N2 & A); [rewrite M; exact I|]. rewrite M in A.
  destruct (le_lt_dec (List.length (asked P w1 os (List.length (w_regions w)))) count) as [LE|GT].
  - destruct (K1 _ LE) as (ps & m' & B & LN & F). rewrite A in B. injection B as <- _. split; [lia|exact F].
  - rewrite (K2 _ GT) in A. discriminate A.
Qed.

(** ** RoundRobin and Static *)

Theorem robin_run w nf nm np mt info init w1 r os w' xs : model_string (w_config w) info = $"RoundRobin" -> cf_persistent (w_config w) = 0 -> 1 <= np ->
  step P w (OpRegion nf nm np mt info [] init) = Ok (w1, GotRegion r) -> run P w1 os = Ok (w', xs) -> in_turn np (answers os xs r).
Proof.
  intros EI PE NP ST RU. destruct (region_with_model P w nf nm np mt info init ($"RoundRobin") [] [] (MRoundRobin np (-1))) as (w2 & R & ST2 & N & M & _); auto.
  - cbn. tauto.
  - rewrite ST2 in ST. injection ST as <- <-. destruct (unlearning_run os _ _ _ _ _ RU N) as (R2 & N2 & A); [rewrite M; exact I|]. rewrite M in A. exact (robin_in_turn _ _ _ _ _ NP A).
Qed.

Theorem static_run w nf nm np mt info init k w1 r os w' xs : model_string (w_config w) info = $"Static,policy=" ++ print_Z k -> cf_persistent (w_config w) = 0 -> 0 <= k < np -> k <= 2147483647 ->
  step P w (OpRegion nf nm np mt info [] init) = Ok (w1, GotRegion r) -> run P w1 os = Ok (w', xs) -> Forall (eq k) (answers os xs r).
Proof.
  intros EI PE K KM ST RU.
  assert (EI' : model_string (w_config w) info = model_text ($"Static") [($"policy", Some (print_Z k))]).
  { rewrite EI. unfold model_text, item_text. cbn [map fst snd List.concat]. rewrite app_nil_r. reflexivity. }
  destruct (parse_gives_items ($"Static") [($"policy", Some (print_Z k))]) as (ps & EP & FV).
  - unfold free_of. cbn. intuition discriminate.
  - constructor; [|constructor]. unfold item_ok, free_of. cbn [fst snd]. repeat split; try (cbn; intuition discriminate). apply print_Z_free_comma.
  - intros i [<-|[]]. constructor.
  - assert (PF : param_find ($"policy") ps = Some (print_Z k)) by (apply FV; exact (fv_here ($"policy") (Some (print_Z k)) [])).
    assert (OT : forall s, s <> $"policy" -> param_find s ps = None) by (intros s NE; apply FV; apply fv_later; [congruence|constructor]).
    destruct (region_with_model P w nf nm np mt info init ($"Static") [($"policy", Some (print_Z k))] ps (MStatic np k)) as (w2 & R & ST2 & N & M & _); auto.
    + cbn. tauto.
    + apply OT. discriminate.
    + apply OT. discriminate.
    + unfold create_model. rewrite static_branch. unfold create_static, param_int. rewrite PF, stoi_whole by lia. cbn [bind fst].
      destruct (Z.leb_spec np k); [lia|]. destruct (Z.ltb_spec k 0); [lia|]. reflexivity.
    + rewrite ST2 in ST. injection ST as <- <-. destruct (unlearning_run os _ _ _ _ _ RU N) as (R2 & N2 & A); [rewrite M; exact I|]. rewrite M in A.
      revert A. generalize (answers os xs (List.length (w_regions w))) (r_model R2). induction (asked P w2 os _) as [|[D f] l IH]; intros cs e A; cbn [ask m_get_index bind] in A.
      * injection A as <- _. constructor.
      * apply bind_inv in A. destruct A as ([cs' e3] & A & Q). injection Q as <- _. constructor; [reflexivity|]. exact (IH _ _ A).
Qed.
End Unlearning.
