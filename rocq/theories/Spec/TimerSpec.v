(** Vocabulary for the times of synchronous executions. *)
From Coq Require Import ZArith Bool Reals List Sorted.
From Flocq Require Import Core BinarySingleNaN.
From Verif Require Import Model.Base Model.Float Model.RuntimeM.
Import ListNotations.
Open Scope Z_scope.

(** A reading of the clock less than 2^k seconds after its start. *)
Definition reading (k : Z) (now : Z * Z) : Prop := 0 <= fst now < 2 ^ k /\ 0 <= snd now < 1000000000.

(** A reading in nanoseconds. *)
Definition nanoseconds (now : Z * Z) : Z := 1000000000 * fst now + snd now.

(** The seconds between two readings. *)
Definition elapsed (b e : Z * Z) : R := (IZR (nanoseconds e - nanoseconds b) / 1000000000)%R.

(** By how much a measured time can be wrong, with readings below 2^k seconds. *)
Definition clock_error (k : Z) : R := (3 * bpow radix2 (k - 54) + bpow radix2 (-53))%R.

(** The clock readings of calls, in order. *)
Definition readings (os : list op) : list (Z * Z) :=
  flat_map (fun o => match o with OpBegin _ _ now | OpBeginFeatures _ _ now | OpEnd _ _ now _ => [now] | _ => [] end) os.

(** The clock does not go back. *)
Definition forward (l : list (Z * Z)) : Prop := StronglySorted (fun a b => nanoseconds a <= nanoseconds b) l.

(** The milliseconds devices report in the course of calls. *)
Definition reported (os : list op) : list f32 :=
  flat_map (fun o => match o with
    | OpEnd _ _ _ (Some ms) => [ms]
    | OpComplete _ ms => [ms]
    | OpDestroy _ waits => map snd (concat waits)
    | _ => [] end) os.

(** A metric that is a number of milliseconds in seconds up to the rounding of one division. *)
Definition in_seconds (ms : f32) (x : f64) : Prop :=
  is_finite x = true /\ (Rabs (B2R x - B2R ms / 1000) <= bpow radix2 (-53) * Rabs (B2R ms / 1000))%R.
