(** Specification vocabulary for collective training. *)
From Coq Require Import ZArith Bool Ascii List.
From Verif Require Import Model.Base Model.Float Model.DatasetM Model.ConfigM Model.RuntimeM Model.MpiM Spec.DatasetSpec.
Import ListNotations.
Open Scope Z_scope.

(** A C++ int. *)
Definition is_int (z : Z) : Prop := - 2 ^ 31 <= z < 2 ^ 31.

(** A library that unpacks what it packed, with a fixed positive number of bytes for each type. *)
Record faithful (M : mpi) : Prop := {
  width_positive : forall t, 0 < mpi_width M t;
  int_width : forall z, Z.of_nat (List.length (put_int M z)) = mpi_width M MpiInt;
  float_width : forall x, Z.of_nat (List.length (put_float M x)) = mpi_width M MpiFloat;
  char_width : forall c, Z.of_nat (List.length (put_char M c)) = mpi_width M MpiChar;
  double_width : forall x, Z.of_nat (List.length (put_double M x)) = mpi_width M MpiDouble;
  int_back : forall z, is_int z -> get_int M (put_int M z) = z;
  float_back : forall x, get_float M (put_float M x) = x;
  char_back : forall c, get_char M (put_char M c) = c;
  double_back : forall x, get_double M (put_double M x) = x
}.

(** What the standard says of MPI_Pack_size: at least the bytes that packing takes. *)
Definition enough (M : mpi) : Prop := forall n t, 0 <= n -> n * mpi_width M t <= mpi_size M n t.
(** The answer of MPI_Pack_size is the number of bytes. *)
Definition exact_sizes (M : mpi) : Prop := forall n t, 0 <= n -> mpi_size M n t = n * mpi_width M t.

(** The regions in the registry, in its order. *)
Definition registered (w : world) : list region :=
  flat_map (fun x => match nth_error (w_regions w) (snd x) with Some R => [R] | None => [] end) (w_registry w).

(** Every registered region exists. *)
Definition all_alive (w : world) : Prop :=
  Forall (fun x => exists R, nth_error (w_regions w) (snd x) = Some R /\ r_alive R = true) (w_registry w).

(** The bytes of a measurement with [n] features. *)
Definition measure_bytes (M : mpi) (n : Z) : Z :=
  3 * mpi_width M MpiInt + n * mpi_width M MpiFloat + 64 * mpi_width M MpiChar + mpi_width M MpiDouble.

(** The bytes of a number of lists of measurements. *)
Definition sum_of (l : list Z) : Z := fold_right Z.add 0 l.

(** The bytes the measurements of a region take, by the number of features it declares. *)
Definition declared_bytes (M : mpi) (R : region) : Z := measure_bytes M (r_num_features R) * ds_size (r_dataset R).
(** All sizes fit in an int. *)
Definition sizes_fit (M : mpi) (ws : list world) : Prop :=
  Forall (fun w => Forall (fun R => 0 <= r_num_features R /\ measure_bytes M (r_num_features R) < 2 ^ 31) (registered w)) ws /\
  sum_of (map (fun w => sum_of (map (declared_bytes M) (registered w))) ws) < 2 ^ 31.

(** The measurements have as many features as their region declares, and policies are ints. *)
Definition sendable (w : world) : Prop :=
  Forall (fun R => is_int (r_num_features R) /\ Forall (fun e : meas => Z.of_nat (List.length (m_features e)) = r_num_features R /\ is_int (m_policy e)) (ds_to_vector (r_dataset R))) (registered w).

(** The measurements a rank has for a region name. *)
Definition measured_as (w : world) (n : bytes) : list meas :=
  flat_map (fun R => if bytes_eqb (r_name R) n then ds_to_vector (r_dataset R) else []) (registered w).

(** Those of all the other ranks, in the order of the ranks. *)
Definition others (ws : list world) (rank : Z) (n : bytes) : list meas :=
  flat_map (fun w => if w_rank w =? rank then [] else measured_as w n) ws.

(** Those of all ranks. *)
Definition everyone (ws : list world) (n : bytes) : list meas := flat_map (fun w => measured_as w n) ws.

(** Two regions with nothing different but their measurements. *)
Definition same_but_measurements (R R' : region) : Prop :=
  r_alive R' = r_alive R /\ r_name R' = r_name R /\ r_num_features R' = r_num_features R /\ r_num_policies R' = r_num_policies R /\
  r_min_training R' = r_min_training R /\ r_model_info R' = r_model_info R /\ r_model_name R' = r_model_name R /\ r_model R' = r_model R /\
  r_idx R' = r_idx R /\ r_current R' = r_current R /\ r_sync R' = r_sync R /\ r_heap R' = r_heap R /\ r_pending R' = r_pending R /\
  r_trace R' = r_trace R.

(** All measurements of all ranks as they are sent: ranks in order, then regions by name, then measurements by key. The
    name is followed by NULs up to 64 characters. *)
Definition sent (w : world) : list record :=
  flat_map (fun R => map (fun e : meas => (w_rank w, m_features e, m_policy e, firstn 64 (r_name R ++ repeat nul 64), m_metric e))
    (ds_to_vector (r_dataset R))) (registered w).

(** Reading a received buffer from a position to its end gives these measurements. *)
Inductive reads (M : mpi) (m : memory) : Z -> list record -> Prop :=
| reads_end : reads M m (Z.of_nat (List.length m)) []
| reads_one pos x next xs : pos < Z.of_nat (List.length m) -> unpack_record M m pos = Ok (x, next) -> reads M m next xs -> reads M m pos (x :: xs).

(** Ranks are numbered from 0. *)
Definition numbered (ws : list world) : Prop := forall i w, nth_error ws i = Some w -> w_rank w = Z.of_nat i.

(** The bytes MPI_Pack_size asks for a measurement with [n] features. *)
Definition asked_measure (M : mpi) (n : Z) : Z :=
  3 * mpi_size M 1 MpiInt + mpi_size M n MpiFloat + mpi_size M 64 MpiChar + mpi_size M 1 MpiDouble.
(** The bytes asked for a region. *)
Definition asked_bytes (M : mpi) (R : region) : Z := asked_measure M (r_num_features R) * ds_size (r_dataset R).
(** The bytes the measurements of a region take. *)
Definition packed_bytes (M : mpi) (R : region) : Z :=
  sum_of (map (fun e : meas => measure_bytes M (Z.of_nat (List.length (m_features e)))) (ds_to_vector (r_dataset R))).
(** All sizes asked for fit in an int. *)
Definition asked_fit (M : mpi) (ws : list world) : Prop :=
  Forall (fun w => Forall (fun R => 0 <= r_num_features R /\ asked_measure M (r_num_features R) < 2 ^ 31) (registered w)) ws /\
  sum_of (map (fun w => sum_of (map (asked_bytes M) (registered w))) ws) < 2 ^ 31.
