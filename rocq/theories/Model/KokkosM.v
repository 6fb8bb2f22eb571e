(** The Kokkos connector, src/connectors/kokkos/kokkos-connector.cpp. It drives the runtime of Model/RuntimeM.v through
    its public calls. Simplifications: the member of a value union that is read is the one the variable's type names;
    memory is available; the printed messages, the fence calls of lines 359-420 and the copies of VariableInfo (line
    130) are left out; a variable is found by its type_id instead of through its metadata pointer; `untunables` (line
    230), to which nothing is ever added, is left out. *)
From Coq Require Import List ZArith Bool Ascii String.
From Flocq Require Import BinarySingleNaN.
From Verif Require Import Model.Base Model.Float Model.Decimal Model.DatasetM Model.ModelStringM Model.PolicyModelsM Model.ConfigM Model.RuntimeM.
Import ListNotations.
Open Scope Z_scope.

(** ** Numbers *)

(** A result of int64_t arithmetic; overflow is undefined.
    src/connectors/kokkos/kokkos-connector.cpp lines 79-106 and 158-170. *)
Definition i64 (z : Z) : outcome Z := if (- 2 ^ 63 <=? z) && (z <? 2 ^ 63) then Ok z else UB.

(** A double converted to int64_t, line 75: truncation; a value whose integer part does not fit is undefined. *)
Definition i64_of_f64 (x : f64) : outcome Z :=
  if is_finite x then
    let z := Btrunc x in if (- 2 ^ 63 <=? z) && (z <? 2 ^ 63) then Ok z else UB
  else UB.

(** `slice_continuous`, line 56. *)
Definition slice_continuous : Z := 100.

(** `epsilon = 1E-24`, line 57: the double nearest to it. *)
Definition epsilon : f64 := binary_normalize 53 1024 _ _ mode_NE 5444517870735015 (-132) false.

(** ** Candidates *)

(** Kokkos_Tools_VariableValue_ValueUnion with the member in use, Kokkos_Profiling_C_Interface.h lines 165-169; a
    string is the 64 characters of the array up to the first NUL. *)
Inductive value := VInt (z : Z) | VDouble (x : f64) | VString (s : bytes).

(** The candidates of VariableInfo, Kokkos_Profiling_C_Interface.h lines 177-233: a set, a range (lower, upper, step,
    openLower, openUpper) of one of the three types, or unbounded. *)
Inductive candidates :=
| CSet (vs : list value)
| CIntRange (lower upper step : Z) (open_lower open_upper : bool)
| CDoubleRange (lower upper step : f64) (open_lower open_upper : bool)
| CStringRange
| CUnbounded.

(** The int64 case of count_range_slices, lines 83-88. *)
Definition count_int_slices (lower upper step : Z) (open_lower open_upper : bool) : outcome Z :=
  let* hi := if open_upper then i64 (upper - 1) else Ok upper in
  let* lo := if open_lower then i64 (lower + 1) else Ok lower in
  let* d := i64 (hi - lo) in
  if step =? 0 then UB
  else let* q := i64 (Z.quot d step) in i64 (1 + q).

(** slice_helper, lines 73-76, and the double case of count_range_slices, lines 89-101. *)
Definition count_double_slices (lower upper step : f64) (open_lower open_upper : bool) : outcome Z :=
  if eq64 step zero64 then Ok slice_continuous
  else
    let hi := if open_upper then upper else sub64 upper epsilon in
    let lo := if open_lower then lower else add64 lower epsilon in
    i64_of_f64 (div64 (sub64 hi lo) step).

(** The body of form_set_from_range for int64, lines 166-173, for x = i, i + 1, ... *)
Fixpoint int_slices (lower step : Z) (open_lower : bool) (i : Z) (n : nat) : outcome (list value) :=
  match n with
  | O => Ok []
  | S n' =>
      let* lo := if open_lower then Ok lower else i64 (lower + step) in
      let* m := i64 (i * step) in
      let* v := i64 (lo + m) in
      let* r := int_slices lower step open_lower (i + 1) n' in
      Ok (VInt v :: r)
  end.

(** The same for double, lines 175-182. *)
Fixpoint double_slices (lower step : f64) (open_lower : bool) (i : Z) (n : nat) : list value :=
  match n with
  | O => []
  | S n' =>
      let lo := if open_lower then lower else add64 lower epsilon in
      VDouble (add64 lo (mul64 (f64_of_Z i) step)) :: double_slices lower step open_lower (i + 1) n'
  end.

(** The largest value of the int loop counters of lines 166, 175 and 211. *)
Definition int_max : Z := 2147483647.

(** associate_candidates, lines 186-227: candidate_set_size and candidate_values (null, here empty, unless the size is
    positive). The counters of the loops overflow beyond [int_max]. *)
Definition associate_candidates (c : candidates) : outcome (Z * list value) :=
  match c with
  | CSet vs => let n := Z.of_nat (List.length vs) in if int_max <? n then UB else Ok (n, vs)
  | CIntRange lower upper step open_lower open_upper =>
      let* n := count_int_slices lower upper step open_lower open_upper in
      if n <=? 0 then Ok (n, [])
      else if int_max <? n then UB
      else let* vs := int_slices lower step open_lower 0 (Z.to_nat n) in Ok (n, vs)
  | CDoubleRange lower upper step open_lower open_upper =>
      let* n := count_double_slices lower upper step open_lower open_upper in
      if n <=? 0 then Ok (n, [])
      else if int_max <? n then UB
      else Ok (n, double_slices lower step open_lower 0 (Z.to_nat n))
  | CStringRange => Ok (-1, [])
  | CUnbounded => Ok (0, [])
  end.

(** ** State *)

(** VariableDatabaseData, lines 65-72. The name is a buffer of 65 characters filled by strncpy with at most 64: when
    that leaves no NUL in it ([None]) reading it as a string is undefined. *)
Record variable := mkVariable { v_name : option bytes; v_size : Z; v_values : list value }.

(** `strncpy(metadata->name, name, 64)`, lines 427-429 and 438-440. *)
Definition store_name (name : bytes) : option bytes := if (List.length name <? 64)%nat then Some name else None.

(** The process: the Apollo runtime, the declared variables, tuning_regions (line 349) with the type_ids of a variableSet
    as key (lines 245-258), tuned_contexts (line 347), num_unconverged_regions (line 77), encounter (line 596) and
    flush_interval (line 58). *)
Record kokkos := mkKokkos {
  k_world : world;
  k_variables : list (Z * variable);
  k_regions : list (list Z * nat);
  k_contexts : list (Z * (nat * ctxptr));
  k_unconverged : Z;
  k_encounter : Z;
  k_flush : Z
}.

(** kokkosp_declare_output_type, lines 422-432. *)
Definition declare_output (K : kokkos) (name : bytes) (id : Z) (c : candidates) : outcome kokkos :=
  let* (n, vs) := associate_candidates c in
  Ok (mkKokkos (k_world K) ((id, mkVariable (store_name name) n vs) :: k_variables K) (k_regions K) (k_contexts K)
        (k_unconverged K) (k_encounter K) (k_flush K)).

(** kokkosp_declare_input_type, lines 434-443: the value-initialised metadata has no candidates. *)
Definition declare_input (K : kokkos) (name : bytes) (id : Z) : kokkos :=
  mkKokkos (k_world K) ((id, mkVariable (store_name name) 0 []) :: k_variables K) (k_regions K) (k_contexts K)
    (k_unconverged K) (k_encounter K) (k_flush K).

(** `metadata->toolProvidedInfo` of a variable, lines 488, 518 and 574; undefined for one that was not declared. *)
Fixpoint find_variable (id : Z) (l : list (Z * variable)) : outcome variable :=
  match l with
  | [] => UB
  | (i, v) :: r => if i =? id then Ok v else find_variable id r
  end.

(** `max_variables`, line 233. *)
Definition max_variables : nat := 50.

(** The product of the numbers of candidates, lines 515-525; `max_choices / set_size` divides by zero for a variable
    without candidates. *)
Fixpoint choice_space (vars : list variable) (acc : Z) : outcome Z :=
  match vars with
  | [] => Ok acc
  | v :: r => if v_size v =? 0 then UB else let* acc := i64 (acc * v_size v) in choice_space r acc
  end.

(** The declared variables with the given ids. Lines 488, 518 and 574 of src/connectors/kokkos/kokkos-connector.cpp. *)
Fixpoint find_variables (l : list (Z * variable)) (ids : list Z) : outcome (list variable) :=
  match ids with
  | [] => Ok []
  | id :: r => let* v := find_variable id l in let* vs := find_variables l r in Ok (v :: vs)
  end.

(** get_region_name, lines 484-499. *)
Fixpoint problem_name (vars : list variable) : outcome bytes :=
  match vars with
  | [] => Ok []
  | v :: r =>
      match v_name v with
      | None => UB
      | Some s =>
          let* rest := problem_name r in
          Ok (s ++ match r with [] => $".yaml" | _ => $"_" end ++ rest)
      end
  end.

(** The file looked for, lines 541-547. *)
Definition stored_model_file (name : bytes) : bytes := $".apollo/models/" ++ $"RandomForest-step-0-rank-0-" ++ name ++ $".yaml".

(** Equal keys of tuning_regions, lines 245-258. *)
Fixpoint ids_eqb (a b : list Z) : bool :=
  match a, b with
  | [], [] => true
  | x :: a', y :: b' => (x =? y) && ids_eqb a' b'
  | _, _ => false
  end.

(** `tuning_regions.find`, lines 537-539. *)
Fixpoint find_problem (ids : list Z) (l : list (list Z * nat)) : option nat :=
  match l with
  | [] => None
  | (k, r) :: rest => if ids_eqb k ids then Some r else find_problem ids rest
  end.

Section Platform.
Variable P : platform.
(** std::hash of a string, an unsigned 64-bit number, line 454. *)
Variable hash : bytes -> Z.

(** variableToFloat, lines 445-458. A string that fills its array is read past its end. *)
Definition variable_to_float (v : value) : outcome f32 :=
  match v with
  | VInt z => Ok (f32_of_Z z)
  | VDouble x => Ok (f32_of_f64 x)
  | VString s => if (List.length s <? 64)%nat then Ok (f32_of_Z (hash s)) else UB
  end.

(** The region of the tuning problem, lines 537-565: made when the problem is met for the first time. *)
Definition region_for (K : kokkos) (context_ids tuning_ids : list Z) (choices : Z) (vars : list variable)
  (init : nat -> nat -> f64) : outcome (kokkos * nat) :=
  let ids := context_ids ++ tuning_ids in
  match find_problem ids (k_regions K) with
  | Some r => Ok (K, r)
  | None =>
      let* full := problem_name vars in
      let name := firstn 63 full in
      let file := stored_model_file name in
      let known := match file_find file (w_files (k_world K)) with Some _ => true | None => false end in
      let info := if known then file else [] in
      let* (w, r) := new_region P (k_world K) (Z.of_nat (List.length context_ids)) name (to_int choices) 0 info [] init in
      Ok (mkKokkos w (k_variables K) ((ids, r) :: k_regions K) (k_contexts K)
            (if known then k_unconverged K else (k_unconverged K + 1) mod 2 ^ 64) (k_encounter K) (k_flush K), r)
  end.

(** `region->setFeature(context, variableToFloat(contextValues[x]))`, lines 565-569. *)
Fixpoint set_features (w : world) (r : nat) (p : ctxptr) (vs : list value) : outcome world :=
  match vs with
  | [] => Ok w
  | v :: rest =>
      let* x := variable_to_float v in
      let* (w, _) := step P w (OpSetFeature r (Some p) x) in
      set_features w r p rest
  end.

(** The choice for each tuning variable, lines 573-582. *)
Fixpoint decode (vars : list variable) (policy : Z) : outcome (list value) :=
  match vars with
  | [] => Ok []
  | v :: r =>
      let n := to_int (v_size v) in
      if n =? 0 then UB
      else
        let* x := vec_get (v_values v) (Z.rem policy n) in
        let* xs := decode r (Z.quot policy n) in
        Ok (x :: xs)
  end.

(** `tuned_contexts[contextId] = ...` and `tuned_contexts.erase(contextId)`, lines 564 and 595. *)
Definition erase_context (id : Z) (l : list (Z * (nat * ctxptr))) : list (Z * (nat * ctxptr)) := filter (fun e => negb (fst e =? id)) l.
(** `tuned_contexts.find(contextId)`, lines 587-590. *)
Fixpoint find_context (id : Z) (l : list (Z * (nat * ctxptr))) : option (nat * ctxptr) :=
  match l with
  | [] => None
  | (i, c) :: r => if i =? id then Some c else find_context id r
  end.

(** kokkosp_request_values, lines 505-583: the state and the values written to the tuning variables. [now] is the time
    read by begin, [D] the draws of the model. *)
Definition request_values (K : kokkos) (context : Z) (contexts : list (Z * value)) (tuning : list Z) (now : Z * Z)
  (D : draws) (init : nat -> nat -> f64) : outcome (kokkos * list value) :=
  match tuning with
  | [] => Ok (K, [])
  | _ =>
      let* tvars := find_variables (k_variables K) tuning in
      let* choices := choice_space tvars 1 in
      let context_ids := map fst contexts in
      if (max_variables <? List.length context_ids + List.length tuning)%nat then UB
      else
        let* cvars := find_variables (k_variables K) context_ids in
        let* (K, r) := region_for K context_ids tuning choices (cvars ++ tvars) init in
        let* (w, x) := step P (k_world K) (OpBegin r false now) in
        match x with
        | GotContext p =>
            let cs := (context, (r, p)) :: erase_context context (k_contexts K) in
            let* w := set_features w r p (map snd contexts) in
            let* (w, x) := step P w (OpGetPolicy r (Some p) D) in
            match x with
            | GotPolicy policy =>
                let* vs := decode tvars policy in
                Ok (mkKokkos w (k_variables K) (k_regions K) cs (k_unconverged K) (k_encounter K) (k_flush K), vs)
            | _ => Fuel
            end
        | _ => Fuel
        end
  end.

(** kokkosp_end_context, lines 585-601. *)
Definition end_kokkos_context (K : kokkos) (context : Z) (now : Z * Z) : outcome kokkos :=
  match find_context context (k_contexts K) with
  | None => Ok K
  | Some (r, p) =>
      let* (w, _) := step P (k_world K) (OpEnd r (Some p) now None) in
      let cs := erase_context context (k_contexts K) in
      if int_max <? k_encounter K + 1 then UB
      else
        let n := k_encounter K + 1 in
        if k_flush K =? 0 then UB
        else if Z.rem n (k_flush K) =? 0 then
          let* (w, _) := step P w (OpTrainAll 0 true) in
          Ok (mkKokkos w (k_variables K) (k_regions K) cs 0 n (k_flush K))
        else Ok (mkKokkos w (k_variables K) (k_regions K) cs (k_unconverged K) n (k_flush K))
  end.

(** The calls Kokkos makes. src/connectors/kokkos/kokkos-connector.cpp lines 422-443 and 505-601. *)
Inductive kop :=
| KOutput (name : bytes) (id : Z) (c : candidates)
| KInput (name : bytes) (id : Z)
| KRequest (context : Z) (contexts : list (Z * value)) (tuning : list Z) (now : Z * Z) (D : draws) (init : nat -> nat -> f64)
| KEnd (context : Z) (now : Z * Z).

(** One call: the values written, for a request. src/connectors/kokkos/kokkos-connector.cpp lines 422-443 and 505-601. *)
Definition kstep (K : kokkos) (o : kop) : outcome (kokkos * list value) :=
  match o with
  | KOutput name id c => let* K := declare_output K name id c in Ok (K, [])
  | KInput name id => Ok (declare_input K name id, [])
  | KRequest context contexts tuning now D init => request_values K context contexts tuning now D init
  | KEnd context now => let* K := end_kokkos_context K context now in Ok (K, [])
  end.

(** Calls in order, with the values each wrote. The events Kokkos reports, lines 422-601. *)
Fixpoint krun (K : kokkos) (os : list kop) : outcome (kokkos * list (list value)) :=
  match os with
  | [] => Ok (K, [])
  | o :: rest =>
      let* (K, x) := kstep K o in
      let* (K, xs) := krun K rest in
      Ok (K, x :: xs)
  end.
End Platform.

(** ** Kernels *)

(** invoke_fence, lines 360-365: the devices fenced. [given] says whether Kokkos provided a fence (lines 366-371). *)
Definition invoke_fence (given : bool) (K : kokkos) (dev : Z) : list Z :=
  if given && (0 <? k_unconverged K) then [dev] else [].

(** kokkosp_begin_parallel_for, _scan and _reduce, lines 380-386, 394-400 and 408-414: the id of the kernel and the
    devices fenced. *)
Definition kernel_begins (given : bool) (K : kokkos) (dev : Z) : Z * list Z := (dev, invoke_fence given K dev).

(** kokkosp_end_parallel_for, _scan and _reduce, lines 388-392, 402-406 and 416-420: the id is cut to 32 bits. *)
Definition kernel_ends (given : bool) (K : kokkos) (kid : Z) : list Z := invoke_fence given K (kid mod 2 ^ 32).

(** ** Starting *)

(** `arg.find(s) != npos`, line 282. *)
Fixpoint prefix_of (p s : bytes) : bool :=
  match p, s with
  | [], _ => true
  | x :: p', y :: s' => Ascii.eqb x y && prefix_of p' s'
  | _, [] => false
  end.
(** `arg.find(s) != npos`, lines 284-285. *)
Fixpoint contains (p s : bytes) : bool :=
  prefix_of p s || match s with [] => false | _ :: r => contains p r end.

(** atoi: 0 without a number; a number that does not fit in an int is undefined. src/connectors/kokkos/kokkos-connector.cpp line 286. *)
Definition atoi (s : bytes) : outcome Z :=
  let '(neg, s1) := take_sign (drop_space s) in
  let '(ds, _) := span_digits s1 in
  let v := if neg then - digits_val ds else digits_val ds in
  match ds with
  | [] => Ok 0
  | _ => if (- 2 ^ 31 <=? v) && (v <? 2 ^ 31) then Ok v else UB
  end.

(** struct options, lines 261-265, as kokkosp_parse_args has it on its stack: [None] is an indeterminate bool. *)
Record options := mkOptions { o_disable_retrain : option bool; o_distributed : option bool; o_trace : option bool }.

(** The loop over the arguments, lines 270-291: the options and flush_interval. *)
Fixpoint parse_loop (args : list bytes) (o : options) (flush : Z) : outcome (options * Z) :=
  match args with
  | [] => Ok (o, flush)
  | arg :: rest =>
      if bytes_eqb arg ($"--disable_retrain") then parse_loop rest (mkOptions (Some true) (o_distributed o) (o_trace o)) flush
      else if bytes_eqb arg ($"--distributed-training") then parse_loop rest (mkOptions (o_disable_retrain o) (Some true) (o_trace o)) flush
      else if bytes_eqb arg ($"--trace") then parse_loop rest (mkOptions (o_disable_retrain o) (o_distributed o) (Some true)) flush
      else if contains ($"--flush-rate=") arg then let* z := atoi (substr_from_next arg (find_char "=" arg)) in parse_loop rest o z
      else parse_loop rest o flush
  end.

(** Reading a bool; an indeterminate one is undefined. src/connectors/kokkos/kokkos-connector.cpp lines 294-300. *)
Definition read_bool (b : option bool) : outcome bool := match b with Some b => Ok b | None => UB end.

(** `setenv(name, value, true)`, line 306: fails for a name that is empty or contains '='. *)
Definition setenv (name v : bytes) (env : environment) : environment :=
  match name with
  | [] => env
  | _ => match find_char "=" name with
         | Some _ => env
         | None => fun n => if bytes_eqb n name then Some v else env n
         end
  end.

(** kokkosp_parse_args, lines 267-308: the environment and flush_interval afterwards. *)
Definition parse_args (args : list bytes) (env : environment) (flush : Z) : outcome (environment * Z) :=
  let* (o, flush) := parse_loop args (mkOptions None None None) flush in
  let* disable_retrain := read_bool (o_disable_retrain o) in
  let* distributed := read_bool (o_distributed o) in
  let* trace := read_bool (o_trace o) in
  let digit (b : bool) := if b then $"1" else $"0" in
  let env := setenv ($"APOLLO_COLLECTIVE_TRAINING=") (digit distributed) env in
  let env := setenv ($"APOLLO_LOCAL_TRAINING=") (digit (negb distributed)) env in
  let env := setenv ($"APOLLO_POLICY_MODEL") ($"RandomForest,explore=RoundRobin") env in
  let env := setenv ($"APOLLO_REGION_MODEL") ($"1") env in
  let env := setenv ($"APOLLO_RETRAIN_ENABLE=") (digit (negb disable_retrain)) env in
  let env := setenv ($"APOLLO_STORE_MODELS") ($"1") env in
  let env := setenv ($"APOLLO_TRACE_BEST_POLICIES=") (digit trace) env in
  Ok (env, flush).

(** kokkosp_init_library, lines 327-343, with Apollo::instance; putenv of "NAME=value" sets NAME. *)
Definition init_library (mpi : bool) (env : environment) (mkdir : bytes -> bool) (open_trace : bool) (flush : Z)
  (files : list (bytes * bytes)) : outcome kokkos :=
  let env := setenv ($"APOLLO_STORE_MODELS") ($"1") env in
  let env := setenv ($"APOLLO_RETRAIN_ENABLE") ($"0") env in
  let env := setenv ($"APOLLO_REGION_MODEL") ($"1") env in
  let env := setenv ($"APOLLO_LOCAL_TRAINING") ($"1") env in
  let env := setenv ($"APOLLO_COLLECTIVE_TRAINING") ($"0") env in
  let env := setenv ($"APOLLO_TRACE_BEST_POLICIES") ($"1") env in
  let* c := apollo_instance mpi env mkdir open_trace in
  Ok (mkKokkos (start_world c files) [] [] [] 0 0 flush).
