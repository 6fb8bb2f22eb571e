(** What is said of the files of traces. *)
From Coq Require Import ZArith Bool Ascii String List.
From Verif Require Import Model.Base Model.PolicyModelsM Model.ConfigM Model.RuntimeM Model.TraceFileM.
Import ListNotations.

(** The same events, with streams handing over text in between at any times. *)
Inductive buffered : list stream_event -> list stream_event -> Prop :=
| buffered_end : buffered [] []
| buffered_same e es fs : buffered es fs -> buffered (e :: es) (e :: fs)
| buffered_flush r n es fs : buffered es fs -> buffered es (Flushed r n :: fs).

(** The calls up to some point of a run. *)
Definition up_to (P : platform) (w : world) (os : list op) (w' : world) : Prop :=
  exists os1 os2 xs, os = os1 ++ os2 /\ run P w os1 = Ok (w', xs).

(** As long as the region has been there, no other region that was not yet destroyed wrote to a file of that name. *)
Definition sole_writer (P : platform) (w : world) (os : list op) (r : nat) (path : bytes) : Prop :=
  forall w1, up_to P w os w1 -> nth_error (w_regions w1) r <> None ->
    forall j Q, j <> r -> nth_error (w_regions w1) j = Some Q -> r_alive Q = true -> trace_path w1 Q <> path.

(** What a file holds. *)
Definition holds (d : disk) (path : bytes) : option bytes := file_find path (d_files d).
