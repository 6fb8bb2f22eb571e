(** What a model-selection string means, independently of the parser. *)
From Coq Require Import List ZArith Bool Ascii String.
From Verif Require Import Model.Base.
Import ListNotations.

(** An item is a key, or a key with a value. *)
Definition item := (bytes * option bytes)%type.

Definition free_of (c : ascii) (s : bytes) : Prop := ~ In c s.

(** Keys contain neither ',' nor '='; values contain no ','. *)
Definition item_ok (i : item) : Prop :=
  free_of "," (fst i) /\ free_of "=" (fst i) /\
  match snd i with Some v => free_of "," v | None => True end.

Definition item_text (i : item) : bytes :=
  fst i ++ match snd i with Some v => "="%char :: v | None => [] end.

(** name,item,item,... *)
Definition model_text (name : bytes) (items : list item) : bytes :=
  name ++ List.concat (map (fun i => ","%char :: item_text i) items).

(** Value given to a key: that of its first occurrence, empty when it has no '='. *)
Inductive first_value (k : bytes) : list item -> option bytes -> Prop :=
| fv_nil : first_value k [] None
| fv_here v r : first_value k ((k, v) :: r) (Some (match v with Some x => x | None => [] end))
| fv_later k' v r o : k' <> k -> first_value k r o -> first_value k ((k', v) :: r) o.

(** Documented parameters of each model: HOWTO.md lines 100-163 and the comments of src/Region.cpp lines
    158, 168-172, 183-187, 199-202. *)
Inductive documented : bytes -> bytes -> Prop :=
| doc_static : documented ($"Static") ($"policy")
| doc_tree k : In k [$"max_depth"; $"explore"; $"load"; $"load-dataset"] ->
    documented ($"DecisionTree") k
| doc_forest k : In k [$"num_trees"; $"max_depth"; $"explore"; $"load"; $"load-dataset"] ->
    documented ($"RandomForest") k
| doc_net k : In k [$"lr"; $"beta"; $"beta1"; $"beta2"; $"threshold"; $"load"; $"load-dataset"] ->
    documented ($"PolicyNet") k
| doc_static_region k : documented ($"StaticRegion") k.
