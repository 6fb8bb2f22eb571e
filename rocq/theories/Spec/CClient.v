(** Clients of the C interface: what is open, from the calls alone. *)
From Coq Require Import ZArith Bool List.
From Verif Require Import Model.Base Model.Float Model.PolicyModelsM Model.ConfigM Model.RuntimeM Model.CInterfaceM Spec.RuntimeSpec Spec.SafeClient.
Import ListNotations.
Open Scope Z_scope.

(** The features given since the last begin of a region not followed by its end. *)
Definition open_step (r : nat) (s : option (list f32)) (o : ccall) : option (list f32) :=
  match o with
  | CBegin q _ => if Nat.eqb q r then Some [] else s
  | CSetFeature q x => if Nat.eqb q r then option_map (fun fs => fs ++ [x]) s else s
  | CEnd q _ => if Nat.eqb q r then None else s
  | _ => s
  end.
Definition opened (calls : list ccall) (r : nat) : option (list f32) := fold_left (open_step r) calls None.

(** The regions made: number of features and model string. *)
Definition made (c : config) (calls : list ccall) : list (Z * bytes) :=
  flat_map (fun o => match o with CCreate nf _ _ _ info _ => [(nf, model_string c info)] | _ => [] end) calls.

(** What a client of C knows; the context of an open region is its synchronous one. *)
Definition c_view (c : config) (calls : list ccall) : view :=
  mkView (made c calls)
    (fun r => match opened calls r with Some _ => Some (r, Sync) | None => None end)
    (fun p => match snd p with Sync => opened calls (fst p) | Heap _ => None end).

(** Every call keeps to the rules. *)
Definition c_well_behaved (c : config) (calls : list ccall) : Prop :=
  forall pre o post, calls = pre ++ o :: post -> allowed c (c_view c pre) (c_call o).

(** The same calls with the contexts named. *)
Definition c_named (o : ccall) : op :=
  match o with
  | CCreate nf id np mt info init => OpRegion nf id np mt info [] init
  | CBegin r now => OpBegin r false now
  | CEnd r now => OpEnd r (Some (r, Sync)) now None
  | CSetFeature r x => OpSetFeature r (Some (r, Sync)) x
  | CGetPolicy r D => OpGetPolicy r (Some (r, Sync)) D
  | CTrain r st => OpTrain r st true false
  end.

(** Calls that need a region to be open. *)
Definition inside (o : ccall) : option nat :=
  match o with CEnd r _ | CSetFeature r _ | CGetPolicy r _ => Some r | _ => None end.
