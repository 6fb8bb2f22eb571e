(** Model-selection strings: Region::parsePolicyModel and validate, src/Region.cpp lines 153-245. *)
From Coq Require Import List ZArith Bool Ascii String.
From Verif Require Import Model.Base.
Import ListNotations.
Open Scope Z_scope.

(** std::string::find of a one-character string; [None] is std::string::npos
    (src/Region.cpp lines 220, 228, 231). *)
Fixpoint find_char (c : ascii) (s : bytes) : option nat :=
  match s with
  | [] => None
  | x :: r => if Ascii.eqb x c then Some O else option_map S (find_char c r)
  end.

(** `s.substr(0, pos)`; with pos = npos the whole string (src/Region.cpp lines 221, 229, 235). *)
Definition substr_to (s : bytes) (pos : option nat) : bytes :=
  match pos with Some n => firstn n s | None => s end.

(** `s.substr(pos + 1)`; npos + 1 is 0, so with pos = npos the whole string
    (src/Region.cpp lines 226, 236, 240). *)
Definition substr_from_next (s : bytes) (pos : option nat) : bytes :=
  match pos with Some n => skipn (S n) s | None => s end.

(** The parameter map model_params (include/apollo/Region.h line 82), an unordered_map with unique
    keys. No code depends on its iteration order. *)
Definition params := list (bytes * bytes).

(** unordered_map::find (src/ModelFactory.cpp lines 57, 78, 81, ...; src/Region.cpp line 277). *)
Fixpoint param_find (k : bytes) (m : params) : option bytes :=
  match m with
  | [] => None
  | (k', v) :: r => if bytes_eqb k k' then Some v else param_find k r
  end.

(** unordered_map::emplace: a key already present keeps its value (src/Region.cpp lines 233, 237). *)
Definition param_emplace (k v : bytes) (m : params) : params :=
  match param_find k m with Some _ => m | None => m ++ [(k, v)] end.

(** Body of the loop before the string is advanced, src/Region.cpp lines 231-238. *)
Definition add_keyval (keyval : bytes) (m : params) : params :=
  match find_char "=" keyval with
  | None => param_emplace keyval [] m
  | Some n => param_emplace (substr_to keyval (Some n)) (substr_from_next keyval (Some n)) m
  end.

(** The do-while loop, src/Region.cpp lines 227-242. *)
Fixpoint parse_params (fuel : nat) (s : bytes) (m : params) : outcome params :=
  match fuel with
  | O => Fuel
  | S fuel' =>
      let pos := find_char "," s in
      let m' := add_keyval (substr_to s pos) m in
      let s' := substr_from_next s pos in
      match pos with
      | None => Ok m'
      | Some _ => parse_params fuel' s' m'
      end
  end.

(** `for (auto &entry : model_params) if (entry.first != ...) fatal_error(...)`,
    src/Region.cpp lines 159-162, 173-177, 188-193, 198-208. *)
Definition only_keys (allowed : list bytes) (m : params) : outcome unit :=
  if forallb (fun e => existsb (bytes_eqb (fst e)) allowed) m then Ok tt else Abort.

(** validate, src/Region.cpp lines 154-216. *)
Definition validate (name : bytes) (m : params) : outcome unit :=
  if bytes_eqb name ($"Static") then only_keys [$"policy"] m
  else if bytes_eqb name ($"DecisionTree")
  then only_keys [$"max_depth"; $"explore"; $"load"; $"load-dataset"] m
  else if bytes_eqb name ($"RandomForest")
  then only_keys [$"num_trees"; $"max_depth"; $"explore"; $"load"; $"load-dataset"] m
  else if bytes_eqb name ($"PolicyNet")
  then only_keys [$"lr"; $"beta"; $"beta1"; $"beta2"; $"threshold"; $"load"; $"load-dataset"] m
  else if bytes_eqb name ($"StaticRegion") then Ok tt
  else Abort.

(** Region::parsePolicyModel, src/Region.cpp lines 218-245: the members model_name and model_params
    afterwards (model_params is empty before, as the only caller is the constructor). *)
Definition parse_policy_model (info : bytes) : outcome (bytes * params) :=
  let pos := find_char "," info in
  let name := substr_to info pos in
  match pos with
  | None => Ok (name, [])
  | Some _ =>
      let s := substr_from_next info pos in
      let* m := parse_params (S (List.length s)) s [] in
      let* _ := validate name m in
      Ok (name, m)
  end.
