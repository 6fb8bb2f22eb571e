(** The C interface: src/Apollo.cpp lines 514-556, include/apollo/Apollo.h lines 62-73. The strings are not null; the
    line written to the standard output on creation (lines 524-525) is not modelled. *)
From Coq Require Import ZArith List.
From Verif Require Import Model.Base Model.Float Model.PolicyModelsM Model.RuntimeM.
Import ListNotations.
Open Scope Z_scope.

(** The functions and their arguments, src/Apollo.cpp lines 515-555; with the clock readings and draws a call uses. *)
Inductive ccall :=
| CCreate (num_features : Z) (id : bytes) (num_policies min_training : Z) (model_info : bytes) (init : nat -> nat -> f64)
| CBegin (r : nat) (now : Z * Z)
| CEnd (r : nat) (now : Z * Z)
| CSetFeature (r : nat) (x : f32)
| CGetPolicy (r : nat) (D : draws)
| CTrain (r : nat) (step : Z).

(** The member function each calls; begin() is begin with the synchronous timer (src/Region.cpp lines 468-483, 582-604)
    and train(step) collects pending contexts and is not forced (include/apollo/Region.h lines 74-76). *)
Definition c_call (o : ccall) : op :=
  match o with
  | CCreate nf id np mt info init => OpRegion nf id np mt info [] init
  | CBegin r now => OpBegin r false now
  | CEnd r now => OpEnd r None now None
  | CSetFeature r x => OpSetFeature r None x
  | CGetPolicy r D => OpGetPolicy r None D
  | CTrain r st => OpTrain r st true false
  end.
