(** C++ source generated from a decision tree when ENABLE_JIT_DTREE is set:
    src/models/impl/DecisionTreeImpl.cpp lines 99-121. Compiling, linking and naming the generated function
    (lines 123-168) are not modelled. *)
From Coq Require Import List ZArith Bool Ascii String.
From Verif Require Import Model.Base Model.Float Model.Decimal Model.TreeM Model.TreeIO.
Import ListNotations.
Open Scope Z_scope.

(** DecisionTreeImpl::generate_source, lines 99-121. Called with a reference: a null node has no source. *)
Fixpoint generate_source (level : nat) (t : tree) : bytes :=
  match t with
  | Null => []
  | Node _ _ c f thr Null Null _ => line level ($"return " ++ print_Z c ++ $";")
  | Node _ _ c f thr l r _ =>
      line level ($"if (features[" ++ print_Z f ++ $"] < " ++ print_float thr ++ $") {")
      ++ match l with
         | Null => []
         | _ => generate_source (S level) l ++ line level ($"}")
         end
      ++ match r with
         | Null => []
         | _ => line level ($"else {") ++ generate_source (S level) r ++ line level ($"}")
         end
  end.
