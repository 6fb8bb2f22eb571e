(** Vocabulary for statements about the Kokkos connector. *)
From Coq Require Import ZArith Bool Ascii String List.
From Verif Require Import Model.Base Model.Float Model.ModelStringM Model.PolicyModelsM Model.ConfigM Model.RuntimeM Model.KokkosM Spec.RuntimeSpec.
Import ListNotations.
Open Scope Z_scope.

(** ** Choices *)

(** One index for each of several sets of candidates. *)
Definition in_sizes (ks sizes : list Z) : Prop := Forall2 (fun k n => 0 <= k < n) ks sizes.
(** The number of choices. *)
Definition product (sizes : list Z) : Z := fold_right Z.mul 1 sizes.
(** The number of a choice, the first variable varying fastest. *)
Fixpoint number (ks sizes : list Z) : Z :=
  match ks, sizes with
  | k :: ks', n :: sizes' => k + n * number ks' sizes'
  | _, _ => 0
  end.

(** Variables with candidates: as many as their size. *)
Definition complete_variable (v : variable) : Prop := 0 < v_size v /\ Z.of_nat (List.length (v_values v)) = v_size v.
(** The candidates with the given indices. *)
Definition chosen (vars : list variable) (ks : list Z) (vs : list value) : Prop :=
  Forall2 (fun p x => nth_error (v_values (fst p)) (Z.to_nat (snd p)) = Some x) (combine vars ks) vs.

(** ** Ranges *)

(** The declared members of an integer range. *)
Definition member (lower upper step : Z) (open_lower open_upper : bool) (v : Z) : Prop :=
  (exists i, v = lower + i * step) /\
  (if open_lower then lower < v else lower <= v) /\ (if open_upper then v < upper else v <= upper).

(** ** Runs *)

(** The process after kokkosp_init_library. *)
Definition started (c : config) (files : list (bytes * bytes)) (flush : Z) : kokkos := mkKokkos (start_world c files) [] [] [] 0 0 flush.

(** A variable as last declared. *)
Definition declare_step (id : Z) (s : option variable) (o : kop) : option variable :=
  match o with
  | KOutput name i c =>
      if i =? id then match associate_candidates c with Ok (n, vs) => Some (mkVariable (store_name name) n vs) | _ => None end else s
  | KInput name i => if i =? id then Some (mkVariable (store_name name) 0 []) else s
  | _ => s
  end.
Definition declared (os : list kop) (id : Z) : option variable := fold_left (declare_step id) os None.
Definition all_declared (os : list kop) (ids : list Z) (vars : list variable) : Prop := Forall2 (fun id v => declared os id = Some v) ids vars.

(** Whether a call declares the variable, and declarations that offer no value to choose. *)
Definition declares (id : Z) (o : kop) : Prop := match o with KOutput _ i _ | KInput _ i => i = id | _ => False end.
Definition divides_by_zero (id : Z) (o : kop) : Prop :=
  match o with KOutput _ i c => i = id /\ (c = CUnbounded \/ c = CSet []) | KInput _ i => i = id | _ => False end.
Definition offers_nothing (c : candidates) : Prop :=
  match c with
  | CSet vs => vs = []
  | CIntRange lower upper step _ _ => 0 < step /\ upper + step <= lower
  | CDoubleRange _ _ _ _ _ => False
  | CStringRange | CUnbounded => True
  end.

(** The tuning problem of a request: its variables. *)
Definition problem (o : kop) : option (list Z) :=
  match o with
  | KRequest _ cs (t :: ts) _ _ _ => Some (map fst cs ++ t :: ts)
  | _ => None
  end.

(** The distinct problems requested, the first first. *)
Definition same_ids (a b : list Z) : bool := if list_eq_dec Z.eq_dec a b then true else false.
Definition problem_step (ps : list (list Z)) (o : kop) : list (list Z) :=
  match problem o with
  | Some ids => if existsb (same_ids ids) ps then ps else ps ++ [ids]
  | None => ps
  end.
Definition problems (os : list kop) : list (list Z) := fold_left problem_step os [].
(** The number of a problem among them. *)
Fixpoint place (ids : list Z) (ps : list (list Z)) : option nat :=
  match ps with
  | [] => None
  | p :: rest => if same_ids ids p then Some O else option_map S (place ids rest)
  end.

(** The problem of the last request for a context, unless it was ended since. *)
Definition open_step (context : Z) (s : option (list Z)) (o : kop) : option (list Z) :=
  match o with
  | KRequest c _ _ _ _ _ => if c =? context then match problem o with Some ids => Some ids | None => s end else s
  | KEnd c _ => if c =? context then None else s
  | _ => s
  end.
Definition open_problem (os : list kop) (context : Z) : option (list Z) := fold_left (open_step context) os None.

(** How many calls ended an open context. *)
Fixpoint ends_after (before os : list kop) : Z :=
  match os with
  | [] => 0
  | o :: rest =>
      (match o with KEnd c _ => match open_problem before c with Some _ => 1 | None => 0 end | _ => 0 end) + ends_after (before ++ [o]) rest
  end.
Definition ends (os : list kop) : Z := ends_after [] os.

(** The feature a context value becomes. *)
Definition feature_of (hash : bytes -> Z) (v : value) (x : f32) : Prop :=
  match v with
  | VInt z => x = f32_of_Z z
  | VDouble y => x = f32_of_f64 y
  | VString s => (List.length s < 64)%nat /\ x = f32_of_Z (hash s)
  end.

(** The name of a problem: the names of its variables joined by underscores, with an extension; cut after 63 characters. *)
Fixpoint joined (names : list bytes) : bytes :=
  match names with
  | [] => []
  | [s] => s ++ $".yaml"
  | s :: rest => s ++ $"_" ++ joined rest
  end.
Definition named (os : list kop) (ids : list Z) (name : bytes) : Prop :=
  exists names, Forall2 (fun id s => exists v, declared os id = Some v /\ v_name v = Some s) ids names /\ name = firstn 63 (joined names).

(** The calls of the runtime with their results, and the values given to the tuning variables, that a call of Kokkos
    should lead to after the calls [before]. *)
Definition performs (hash : bytes -> Z) (flush : Z) (before : list kop) (o : kop) (h : history) (vs : list value) : Prop :=
  match o with
  | KRequest _ _ [] _ _ _ | KOutput _ _ _ | KInput _ _ => h = [] /\ vs = []
  | KRequest context cs tuning now D init =>
      let ids := map fst cs ++ tuning in
      exists r create xs policy vars,
        place ids (problems (before ++ [o])) = Some r /\
        all_declared before tuning vars /\
        (if existsb (same_ids ids) (problems before) then create = []
         else exists name, named before ids name /\
           create = [(OpRegion (Z.of_nat (List.length cs)) name (to_int (product (map v_size vars))) 0 [] [] init, GotRegion r)]) /\
        Forall2 (feature_of hash) (map snd cs) xs /\
        h = create ++ (OpBegin r false now, GotContext (r, Sync)) :: map (fun x => (OpSetFeature r (Some (r, Sync)) x, Done)) xs ++
            [(OpGetPolicy r (Some (r, Sync)) D, GotPolicy policy)] /\
        decode vars policy = Ok vs
  | KEnd context now =>
      vs = [] /\
      match open_problem before context with
      | None => h = []
      | Some ids =>
          exists r, place ids (problems before) = Some r /\
            h = (OpEnd r (Some (r, Sync)) now None, Done) ::
                (if Z.rem (ends (before ++ [o])) flush =? 0 then [(OpTrainAll 0 true, Done)] else [])
      end
  end.

(** ** Clients *)

(** The variables declared as inputs and as outputs. *)
Definition inputs (os : list kop) : list Z := flat_map (fun o => match o with KInput _ id => [id] | _ => [] end) os.
Definition outputs (os : list kop) : list Z := flat_map (fun o => match o with KOutput _ id _ => [id] | _ => [] end) os.
(** Each variable is declared once; requests give values for inputs and ask for outputs. *)
Definition orderly (os : list kop) : Prop :=
  NoDup (inputs os ++ outputs os) /\
  forall context cs tuning now D init, In (KRequest context cs tuning now D init) os ->
    (forall id, In id (map fst cs) -> In id (inputs os)) /\ (forall id, In id tuning -> In id (outputs os)).
(** What the standard says of the draws. *)
Definition fair_request (o : kop) : Prop := match o with KRequest _ _ _ _ D _ => draws_ok D | _ => True end.

(** Regions start without anything read from files. *)
Definition starts_fresh (c : config) : Prop :=
  cf_single_model c = 0 /\ cf_persistent c = 0 /\
  forall name ps, parse_policy_model (cf_policy_model c) = Ok (name, ps) ->
    name <> $"Optimal" /\ name <> $"DatasetMap" /\ param_find ($"load") ps = None /\ param_find ($"load-dataset") ps = None.

(** ** Training *)

(** The call ends an open context and is one after which training is due. *)
Definition flushes (flush : Z) (before : list kop) (o : kop) : Prop :=
  match o with
  | KEnd context _ => open_problem before context <> None /\ Z.rem (ends before + 1) flush = 0
  | _ => False
  end.

(** The runtime's own training periods are off. *)
Definition no_periods (c : config) : Prop := cf_global_period c = 0 /\ cf_region_period c = 0.

(** The file in which the model of a region is stored by the connector's training. *)
Definition stores_there (c : config) : Prop :=
  cf_store_models c <> 0 /\ cf_output_dir c = $".apollo" /\ cf_models_dir c = $"models".

(** ** Measurements *)

(** Call number [i] is the last request of a problem. *)
Definition last_request (os : list kop) (ids : list Z) (i : nat) : Prop :=
  (exists o, nth_error os i = Some o /\ problem o = Some ids) /\
  forall j o, (i < j)%nat -> nth_error os j = Some o -> problem o <> Some ids.
(** Some context of the problem was ended after request [i]. *)
Definition ended_since (os : list kop) (ids : list Z) (i : nat) : Prop :=
  exists j context now, (i < j)%nat /\ nth_error os j = Some (KEnd context now) /\ open_problem (firstn j os) context = Some ids.

(** ** Fences *)

(** The call asks for a problem for the first time. *)
Definition meets_problem (before : list kop) (o : kop) : Prop := exists ids, problem o = Some ids /\ ~ In ids (problems before).
(** Since the last training, a problem was met for the first time. *)
Definition newly_met (flush : Z) (os : list kop) : Prop :=
  exists i o, nth_error os i = Some o /\ meets_problem (firstn i os) o /\
    forall j o', (i < j)%nat -> nth_error os j = Some o' -> ~ flushes flush (firstn j os) o'.
