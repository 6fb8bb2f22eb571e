(** Lemmas on the Kokkos connector: when kernels are fenced. *)
From Coq Require Import ZArith Bool Ascii String Lia List.
From Verif Require Import Model.Base Model.Float Model.ModelStringM Model.PolicyModelsM Model.ConfigM Model.RuntimeM Model.KokkosM Spec.RuntimeSpec Spec.KokkosSpec
  Proofs.TreeFacts Proofs.ModelStringFacts Proofs.RuntimeNew Proofs.RuntimeAccount Proofs.KokkosRuns.
Import ListNotations.
Open Scope Z_scope.

Lemma in_problems ids ps : existsb (same_ids ids) ps = true <-> In ids ps.
Proof.
  rewrite existsb_exists. split.
  - intros (x & I & E). apply same_ids_true in E. subst. exact I.
  - intros I. exists ids. split; [exact I|apply same_ids_refl].
Qed.

Lemma newly_snoc flush os o : newly_met flush (os ++ [o]) <-> meets_problem os o \/ (newly_met flush os /\ ~ flushes flush os o).
Proof.
  split.
  - intros (i & o' & G & M & F). destruct (Nat.lt_ge_cases i (List.length os)) as [L|L].
    + right. rewrite nth_error_app1 in G by exact L. rewrite firstn_app in M. replace (i - List.length os)%nat with 0%nat in M by lia. rewrite app_nil_r in M. split.
      * exists i, o'. split; [exact G|]. split; [exact M|]. intros j x J GX. assert (LJ : (j < List.length os)%nat) by (apply nth_error_Some; congruence).
        specialize (F j x J). rewrite nth_error_app1 in F by exact LJ. specialize (F GX). rewrite firstn_app in F. replace (j - List.length os)%nat with 0%nat in F by lia. rewrite app_nil_r in F. exact F.
      * specialize (F (List.length os) o L). rewrite nth_error_app2, Nat.sub_diag in F by lia. specialize (F eq_refl). rewrite firstn_app, Nat.sub_diag, firstn_all, app_nil_r in F. exact F.
    + left. rewrite nth_error_app2 in G by exact L. destruct (i - List.length os)%nat as [|k] eqn:E; [|destruct k; discriminate]. assert (i = List.length os) by lia. subst i. injection G as <-.
      rewrite firstn_app, Nat.sub_diag, firstn_all, app_nil_r in M. exact M.
  - intros [M|[(i & o' & G & M & F) N]].
    + exists (List.length os), o. split; [rewrite nth_error_app2, Nat.sub_diag by lia; reflexivity|]. split; [rewrite firstn_app, Nat.sub_diag, firstn_all, app_nil_r; exact M|].
      intros j x J G. assert (j < List.length (os ++ [o]))%nat by (apply nth_error_Some; congruence). rewrite app_length in *. cbn in *. lia.
    + assert (L : (i < List.length os)%nat) by (apply nth_error_Some; congruence). exists i, o'. split; [rewrite nth_error_app1 by exact L; exact G|]. split.
      * rewrite firstn_app. replace (i - List.length os)%nat with 0%nat by lia. rewrite app_nil_r. exact M.
      * intros j x J GX. assert (LJ : (j < List.length (os ++ [o]))%nat) by (apply nth_error_Some; congruence). rewrite app_length in LJ. cbn in LJ. destruct (Nat.lt_ge_cases j (List.length os)) as [L2|L2].
        -- rewrite nth_error_app1 in GX by exact L2. rewrite firstn_app. replace (j - List.length os)%nat with 0%nat by lia. rewrite app_nil_r. exact (F j x J GX).
        -- assert (j = List.length os) by lia. subst j. rewrite nth_error_app2, Nat.sub_diag in GX by lia. injection GX as <-. rewrite firstn_app, Nat.sub_diag, firstn_all, app_nil_r. exact N.
Qed.

Section Platform.
Variable P : platform.
Variable hash : bytes -> Z.
Variable c : config.
Variable files : list (bytes * bytes).
Variable flush : Z.

Definition counted (before : list kop) (K : kokkos) : Prop :=
  0 <= k_unconverged K <= Z.of_nat (List.length before) /\ (0 < k_unconverged K <-> newly_met flush before).

Lemma counted_same before K o K' : counted before K -> k_unconverged K' = k_unconverged K -> ~ meets_problem before o -> ~ flushes flush before o -> counted (before ++ [o]) K'.
Proof.
  intros [A B] E M N. unfold counted. rewrite E, newly_snoc, app_length. cbn. split; [lia|]. rewrite B. tauto.
Qed.

Lemma known_problem before ids o : existsb (same_ids ids) (problems before) = true -> problem o = Some ids -> ~ meets_problem before o.
Proof. intros E PO (ids' & PO' & N). rewrite PO in PO'. injection PO' as <-. apply N. apply in_problems. exact E. Qed.

Lemma counted_step before h K o K' vs : kinv P c files flush before h K -> counted before K -> Z.of_nat (List.length before) + 1 < 2 ^ 64 ->
  kstep P hash K o = Ok (K', vs) -> counted (before ++ [o]) K'.
Proof.
  intros I CT LEN H. destruct o as [name id cd|name id|context cs tuning now D init|context now]; cbn [kstep] in H.
  - apply bind_inv in H. destruct H as (K1 & E & H). inversion H; subst K1 vs. clear H. unfold declare_output in E. apply bind_inv in E. destruct E as ([n vals] & EA & E). inversion E; subst K'. clear E.
    apply counted_same with K; [exact CT|reflexivity|intros (ids & X & _); discriminate|intros []].
  - inversion H; subst K' vs. apply counted_same with K; [exact CT|reflexivity|intros (ids & X & _); discriminate|intros []].
  - unfold request_values in H. destruct tuning as [|t ts].
    { inversion H; subst. apply counted_same with K'; [exact CT|reflexivity|intros (ids & X & _); discriminate|intros []]. }
    apply bind_inv in H. destruct H as (tvars & E1 & H). apply bind_inv in H. destruct H as (choices & E2 & H). destruct (_ <? _)%nat; [discriminate|].
    apply bind_inv in H. destruct H as (cvars & E3 & H). apply bind_inv in H. destruct H as ([K1 r] & E4 & H). apply bind_inv in H. destruct H as ([w1 x] & E5 & H). destruct x; try discriminate.
    apply bind_inv in H. destruct H as (w2 & E6 & H). apply bind_inv in H. destruct H as ([w3 y] & E7 & H). destruct y; try discriminate. apply bind_inv in H. destruct H as (vals & E8 & H). inversion H; subst K' vs. clear H E5 E6 E7 E8.
    set (o := KRequest context cs (t :: ts) now D init). assert (PO : problem o = Some (map fst cs ++ t :: ts)) by reflexivity.
    unfold region_for in E4. rewrite (ki_problems _ _ _ _ _ _ _ I) in E4. destruct (place (map fst cs ++ t :: ts) (problems before)) as [k|] eqn:PL.
    + inversion E4; subst K1 k. apply counted_same with K; [exact CT|reflexivity| |intros []]. apply known_problem with (map fst cs ++ t :: ts); [|exact PO].
      destruct (existsb _ _) eqn:EX; [reflexivity|]. rewrite (place_none _ _ EX) in PL. discriminate.
    + apply bind_inv in E4. destruct E4 as (full & EN & E4). destruct (file_find (stored_model_file (firstn 63 full)) (w_files (k_world K))) eqn:FF.
      { rewrite dotted_new_region in E4 by apply stored_model_dotted. discriminate. }
      apply bind_inv in E4. destruct E4 as ([wn rn] & ER & E4). inversion E4; subst K1 rn. clear E4. destruct CT as [A B]. unfold counted. cbn [k_unconverged]. rewrite newly_snoc, app_length. cbn [List.length].
      rewrite Z.mod_small by lia. split; [lia|]. split; [|intros _; lia]. intros _. left. exists (map fst cs ++ t :: ts). split; [exact PO|]. intros IN. apply in_problems in IN. destruct (place_some _ _ IN). congruence.
  - apply bind_inv in H. destruct H as (K1 & E & H). inversion H; subst K1 vs. clear H. unfold end_kokkos_context in E. rewrite (ki_contexts _ _ _ _ _ _ _ I) in E. unfold context_view in E.
    assert (NM : ~ meets_problem before (KEnd context now)) by (intros (ids & X & _); discriminate).
    destruct (open_problem before context) as [ids|] eqn:OP.
    2:{ inversion E; subst. apply counted_same with K'; [exact CT|reflexivity|exact NM|]. intros [X _]. contradiction. }
    assert (EX := ki_open _ _ _ _ _ _ _ I _ _ OP). destruct (place_some _ _ EX) as [r PL]. rewrite PL in E. cbn [option_map] in E.
    apply bind_inv in E. destruct E as ([w x] & E1 & E). destruct (_ <? _) in E; [discriminate|]. destruct (k_flush K =? 0); [discriminate|].
    rewrite (ki_ends _ _ _ _ _ _ _ I), (ki_flush _ _ _ _ _ _ _ I) in E. destruct (Z.rem (ends before + 1) flush =? 0) eqn:ZR.
    + apply bind_inv in E. destruct E as ([w2 y] & E2 & E). inversion E; subst K'. clear E. unfold counted. cbn [k_unconverged]. rewrite newly_snoc. split; [rewrite app_length; cbn; lia|].
      split; [lia|]. intros [X|[_ X]]; [destruct (NM X)|]. exfalso. apply X. split; [congruence|]. apply Z.eqb_eq. exact ZR.
    + inversion E; subst K'. apply counted_same with K; [exact CT|reflexivity|exact NM|]. intros [_ X]. apply Z.eqb_neq in ZR. contradiction.
Qed.

Lemma counted_run os : forall before h K K' vss, kinv P c files flush before h K -> counted before K -> Z.of_nat (List.length (before ++ os)) < 2 ^ 64 ->
  krun P hash K os = Ok (K', vss) -> counted (before ++ os) K'.
Proof.
  induction os as [|o os IH]; intros before h K K' vss I CT L H; cbn [krun] in H.
  - inversion H; subst. rewrite app_nil_r. exact CT.
  - apply bind_inv in H. destruct H as ([K1 x] & E & H). apply bind_inv in H. destruct H as ([K2 xs] & E2 & H). inversion H; subst K2 vss. clear H. rewrite app_length in L. cbn in L.
    destruct (kstep_inv P hash c files flush _ _ _ _ _ _ I E) as (l & _ & I2). assert (CT2 := counted_step _ _ _ _ _ _ I CT ltac:(lia) E).
    replace (before ++ o :: os) with ((before ++ [o]) ++ os) by (rewrite <- app_assoc; reflexivity). eapply IH; [exact I2|exact CT2| |exact E2]. rewrite <- app_assoc, app_length. cbn. lia.
Qed.

Lemma fences os K vss dev : krun P hash (started c files flush) os = Ok (K, vss) -> Z.of_nat (List.length os) < 2 ^ 64 -> 0 <= dev < 2 ^ 32 ->
  (newly_met flush os -> kernel_begins true K dev = (dev, [dev]) /\ kernel_ends true K dev = [dev]) /\
  (~ newly_met flush os -> kernel_begins true K dev = (dev, []) /\ kernel_ends true K dev = []).
Proof.
  intros H L DV. assert (CT : counted [] (started c files flush)).
  { split; [cbn; lia|]. split; [cbn; lia|]. intros (i & o & G & _). destruct i; discriminate. }
  destruct (counted_run os [] [] _ _ _ (kinv_start P c files flush) CT L H) as [A B]. cbn [app] in *.
  unfold kernel_begins, kernel_ends, invoke_fence. rewrite Z.mod_small by lia. cbn [andb]. split; intros N.
  - replace (0 <? k_unconverged K) with true by (symmetry; apply Z.ltb_lt, B; exact N). auto.
  - replace (0 <? k_unconverged K) with false by (symmetry; apply Z.ltb_ge; destruct (Z.le_gt_cases (k_unconverged K) 0); [assumption|exfalso; apply N, B; lia]). auto.
Qed.

(** After a training nothing is fenced until a new problem is met. *)
Lemma unfenced_after os o more K vss dev : krun P hash (started c files flush) (os ++ o :: more) = Ok (K, vss) -> Z.of_nat (List.length (os ++ o :: more)) < 2 ^ 64 -> 0 <= dev < 2 ^ 32 ->
  flushes flush os o -> (forall ids, In ids (problems (os ++ o :: more)) -> In ids (problems os)) -> kernel_begins true K dev = (dev, []) /\ kernel_ends true K dev = [].
Proof.
  intros H L DV F S. apply (proj2 (fences _ _ _ _ H L DV)). clear H L DV. induction more as [|x more IH] using rev_ind.
  - rewrite newly_snoc. intros [(ids & PO & _)|[_ N]]; [|contradiction]. destruct o; destruct F; discriminate.
  - replace (os ++ o :: more ++ [x]) with ((os ++ o :: more) ++ [x]) in * by (rewrite <- app_assoc; reflexivity). rewrite newly_snoc.
    assert (S2 : forall ids, In ids (problems (os ++ o :: more)) -> In ids (problems (( os ++ o :: more) ++ [x]))).
    { intros ids IN. apply in_problems. apply kept_open. apply in_problems. exact IN. }
    intros [(ids & PO & N)|[N _]].
    + apply N. apply in_problems. clear IH S2 N. assert (K0 : In ids (problems os)).
      { apply S. rewrite problems_snoc. unfold problem_step. rewrite PO. destruct (existsb (same_ids ids) (problems (os ++ o :: more))) eqn:E; [apply in_problems; exact E|]. apply in_or_app. right. left. reflexivity. }
      clear S F PO. replace (os ++ o :: more) with ((os ++ [o]) ++ more) by (rewrite <- app_assoc; reflexivity). induction more as [|y more IH2] using rev_ind; [rewrite app_nil_r; apply kept_open, in_problems; exact K0|]. rewrite app_assoc. apply kept_open. exact IH2.
    + apply IH; [|exact N]. intros ids IN. apply S. apply S2. exact IN.
Qed.
End Platform.
