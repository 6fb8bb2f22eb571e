(** Model of collective training, src/Apollo.cpp lines 264-485 (a build with ENABLE_MPI). The ranks of a job are
    worlds of [RuntimeM].

    Simplifications. The MPI library is a parameter: how it represents values in packed buffers and what MPI_Pack_size
    answers. MPI errors are fatal (the default error handler, which MPI_Comm_dup copies, line 218). Ranks run in any
    order between collective calls; a collective call happens once every rank has made it. Communication does not
    fail. For a global training period (src/Region.cpp line 497) together with collective training, where an exchange
    takes place within a call, see Model/JobM.v. *)
From Coq Require Import ZArith Bool Ascii String List.
From Flocq Require Import BinarySingleNaN Bits.
From Verif Require Import Model.Base Model.Decimal Model.Float Model.DatasetM Model.ParserM Model.DatasetIO Model.PolicyNetM
  Model.ModelStringM Model.PolicyModelsM Model.ConfigM Model.RuntimeM.
Import ListNotations.
Open Scope Z_scope.

(** ** MPI *)

(** MPI_INT, MPI_FLOAT, MPI_CHAR, MPI_DOUBLE, lines 269-285. *)
Inductive mpi_type := MpiInt | MpiFloat | MpiChar | MpiDouble.

(** An MPI library: the bytes MPI_Pack writes for one value of each type, how MPI_Unpack reads them, how many there
    are, and what MPI_Pack_size answers for a number of values.
    MPI_Pack_size, MPI_Pack and MPI_Unpack, src/Apollo.cpp lines 265-325 and 411-432. *)
Record mpi := {
  mpi_width : mpi_type -> Z;
  mpi_size : Z -> mpi_type -> Z;
  put_int : Z -> bytes;
  get_int : bytes -> Z;
  put_float : f32 -> bytes;
  get_float : bytes -> f32;
  put_char : ascii -> bytes;
  get_char : bytes -> ascii;
  put_double : f64 -> bytes;
  get_double : bytes -> f64
}.

(** Memory from malloc, lines 343 and 371: a byte not written yet is indeterminate. *)
Definition memory := list (option ascii).

(** malloc(size), lines 343 and 371. A negative size becomes a huge one, the call returns null and using it is
    undefined. *)
Definition malloc (size : Z) : outcome memory :=
  if size <? 0 then UB else Ok (repeat None (Z.to_nat size)).

(** Writing bytes at an address: undefined outside the memory.
    MPI_Pack into the buffer, src/Apollo.cpp lines 290-325. *)
Definition write_memory (m : memory) (at_ : Z) (data : memory) : outcome memory :=
  if (at_ <? 0) || (Z.of_nat (List.length m) <? at_ + Z.of_nat (List.length data)) then UB
  else Ok (firstn (Z.to_nat at_) m ++ data ++ skipn (Z.to_nat at_ + List.length data) m).

(** Bytes that have all been written; using an indeterminate one is undefined.
    MPI_Unpack, src/Apollo.cpp lines 411-432. *)
Fixpoint written (m : memory) : outcome bytes :=
  match m with
  | [] => Ok []
  | Some c :: r => let* s := written r in Ok (c :: s)
  | None :: _ => UB
  end.

(** Addition of ints, lines 270-285, 352, 367 and 376: overflow is undefined. *)
Definition int_add (a b : Z) : outcome Z :=
  let s := a + b in if (- 2 ^ 31 <=? s) && (s <? 2 ^ 31) then Ok s else UB.

(** MPI_Pack(data, n, type, m + base, size, &pos, comm), lines 301-323: an error if the data does not fit. *)
Definition mpi_pack (m : memory) (base size pos : Z) (data : bytes) : outcome (memory * Z) :=
  let n := Z.of_nat (List.length data) in
  if size <? pos + n then Abort
  else let* m := write_memory m (base + pos) (map Some data) in Ok (m, pos + n).

(** MPI_Unpack(m, size, &pos, …), lines 419-432, for values that take [n] bytes. *)
Definition mpi_unpack (m : memory) (pos n : Z) : outcome (bytes * Z) :=
  if Z.of_nat (List.length m) <? pos + n then Abort
  else let* s := written (firstn (Z.to_nat n) (skipn (Z.to_nat pos) m)) in Ok (s, pos + n).

(** ** Packing *)

Section Mpi.
Variable M : mpi.

(** MPI_Pack_size, lines 269-285: an error for a negative count. *)
Definition pack_size (count : Z) (t : mpi_type) : outcome Z :=
  if count <? 0 then Abort else Ok (mpi_size M count t).

(** get_mpi_pack_measure_size, lines 265-288. *)
Definition measure_size (num_features : Z) : outcome Z :=
  let* n := pack_size 1 MpiInt in
  let* s := int_add 0 n in
  let* n := pack_size 1 MpiInt in
  let* s := int_add s n in
  let* n := pack_size num_features MpiFloat in
  let* s := int_add s n in
  let* n := pack_size 1 MpiInt in
  let* s := int_add s n in
  let* n := pack_size 64 MpiChar in
  let* s := int_add s n in
  let* n := pack_size 1 MpiDouble in
  int_add s n.

(** The 64 characters of Region::name: strncpy pads with NUL, src/Region.cpp lines 266-267. *)
Definition name_field (name : bytes) : bytes := firstn 64 (name ++ repeat nul 64).

(** The loop over the features, lines 309-312. *)
Fixpoint pack_features (m : memory) (base size pos : Z) (fs : list f32) : outcome (memory * Z) :=
  match fs with
  | [] => Ok (m, pos)
  | x :: r => let* (m, pos) := mpi_pack m base size pos (put_float M x) in pack_features m base size pos r
  end.

(** The body of the loop of packMeasurements, lines 296-324. *)
Definition pack_measure (m : memory) (base size pos rank num_features : Z) (name : bytes) (e : list f32 * Z * f64)
  : outcome (memory * Z) :=
  let '(features, policy, metric) := e in
  let* (m, pos) := mpi_pack m base size pos (put_int M rank) in
  let* (m, pos) := mpi_pack m base size pos (put_int M num_features) in
  let* (m, pos) := pack_features m base size pos features in
  let* (m, pos) := mpi_pack m base size pos (put_int M policy) in
  let* (m, pos) := mpi_pack m base size pos (List.concat (map (put_char M) (name_field name))) in
  mpi_pack m base size pos (put_double M metric).

(** The loop of packMeasurements, lines 295-325. *)
Fixpoint pack_measures (m : memory) (base size pos rank num_features : Z) (name : bytes) (es : list (list f32 * Z * f64))
  : outcome memory :=
  match es with
  | [] => Ok m
  | e :: r =>
      let* (m, pos) := pack_measure m base size pos rank num_features name e in
      pack_measures m base size pos rank num_features name r
  end.

(** packMeasurements, lines 290-327. *)
Definition pack_measurements (m : memory) (base size rank : Z) (R : region) : outcome memory :=
  pack_measures m base size 0 rank (r_num_features R) (r_name R) (ds_to_vector (r_dataset R)).

(** `get_mpi_pack_measure_size(…) * reg->dataset.size()`, lines 338-340 and 348-350: computed in size_t and converted
    to int. *)
Definition region_size (R : region) : outcome Z :=
  let* n := measure_size (r_num_features R) in Ok (to_int (n * ds_size (r_dataset R))).

(** send_size, lines 335-341: each addition is done in size_t and converted to int. *)
Fixpoint send_size (w : world) (rs : list nat) (size : Z) : outcome Z :=
  match rs with
  | [] => Ok size
  | r :: rest =>
      let* R := get_region w r in
      let* n := measure_size (r_num_features R) in
      send_size w rest (to_int (size + n * ds_size (r_dataset R)))
  end.

(** The loop over the regions, lines 346-353. *)
Fixpoint pack_regions (w : world) (m : memory) (rs : list nat) (offset : Z) : outcome memory :=
  match rs with
  | [] => Ok m
  | r :: rest =>
      let* R := get_region w r in
      let* size := region_size R in
      let* m := pack_measurements m offset size (w_rank w) R in
      let* offset := int_add offset size in
      pack_regions w m rest offset
  end.

(** What a rank sends, lines 335-353. *)
Definition send_buffer (w : world) : outcome memory :=
  let rs := map snd (w_registry w) in
  let* size := send_size w rs 0 in
  let* m := malloc size in
  pack_regions w m rs 0.

(** ** Exchange *)

(** recv_size, lines 363-368. *)
Fixpoint sum_sizes (sizes : list Z) (sum : Z) : outcome Z :=
  match sizes with
  | [] => Ok sum
  | n :: r => let* sum := int_add sum n in sum_sizes r sum
  end.

(** disp, lines 373-377. *)
Fixpoint displacements (sizes : list Z) (disp : Z) : outcome (list Z) :=
  match sizes with
  | [] => Ok []
  | [_] => Ok [disp]
  | n :: r => let* next := int_add disp n in let* ds := displacements r next in Ok (disp :: ds)
  end.

(** MPI_Allgatherv, lines 385-392: the buffer of each rank is put at its displacement. *)
Fixpoint allgatherv (m : memory) (bufs : list memory) (disps : list Z) : outcome memory :=
  match bufs, disps with
  | b :: bufs, d :: disps => let* m := write_memory m d b in allgatherv m bufs disps
  | _, _ => Ok m
  end.

(** What every rank receives, lines 355-392. *)
Definition received (bufs : list memory) : outcome memory :=
  let sizes := map (fun b => Z.of_nat (List.length b)) bufs in
  let* size := sum_sizes sizes 0 in
  let* m := malloc size in
  let* disps := displacements sizes 0 in
  allgatherv m bufs disps.

(** ** Unpacking *)

(** The loop over the features, lines 422-427. *)
Fixpoint unpack_features (m : memory) (pos : Z) (n : nat) : outcome (list f32 * Z) :=
  match n with
  | O => Ok ([], pos)
  | S n =>
      let* (s, pos) := mpi_unpack m pos (mpi_width M MpiFloat) in
      let* (fs, pos) := unpack_features m pos n in
      Ok (get_float M s :: fs, pos)
  end.

(** The characters in [n] pieces of [width] bytes, lines 429-430. *)
Fixpoint unpack_chars (s : bytes) (width n : nat) : bytes :=
  match n with
  | O => []
  | S n => get_char M (firstn width s) :: unpack_chars (skipn width s) width n
  end.

(** A measurement of a rank: rank, features, policy, name of the region, metric.
    As unpacked in src/Apollo.cpp lines 411-432. *)
Definition record := (Z * list f32 * Z * bytes * f64)%type.

(** The C string in a character array, lines 435 and 449: undefined without a NUL. *)
Definition array_string (s : bytes) : outcome bytes :=
  if existsb (Ascii.eqb nul) s then Ok (cstr s) else UB.

(** The body of the loop up to the trace, lines 411-432. *)
Definition unpack_record (m : memory) (pos : Z) : outcome (record * Z) :=
  let* (s, pos) := mpi_unpack m pos (mpi_width M MpiInt) in
  let rank := get_int M s in
  let* (s, pos) := mpi_unpack m pos (mpi_width M MpiInt) in
  let num_features := get_int M s in
  let* (features, pos) := unpack_features m pos (Z.to_nat num_features) in
  let* (s, pos) := mpi_unpack m pos (mpi_width M MpiInt) in
  let policy := get_int M s in
  let* (s, pos) := mpi_unpack m pos (64 * mpi_width M MpiChar) in
  let name := unpack_chars s (Z.to_nat (mpi_width M MpiChar)) 64 in
  let* (s, pos) := mpi_unpack m pos (mpi_width M MpiDouble) in
  Ok ((rank, features, policy, name, get_double M s), pos).

(** A line of the trace, lines 434-442. *)
Definition record_line (x : record) : outcome bytes :=
  let '(rank, features, policy, name, metric) := x in
  let* name := array_string name in
  let* fs := trace_features features in
  Ok (print_Z rank ++ $", " ++ name ++ $", " ++ $"[ " ++ fs ++ $"], " ++ print_Z policy ++ $", " ++ print_float metric ++ [nl]).

(** Inserting a measurement, lines 444-453. *)
Definition insert_record (w : world) (x : record) : outcome world :=
  let '(rank, features, policy, name, metric) := x in
  if rank =? w_rank w then Ok w
  else
    let* name := array_string name in
    match map_find bytes_lt name (w_registry w) with
    | None => Ok w
    | Some r =>
        let* R := get_region w r in
        let* d := ds_insert (r_dataset R) features policy metric in
        Ok (set_region w r (with_dataset R d))
    end.

(** The loop over the received buffer, lines 409-454, with the text of the trace. *)
Fixpoint receive_loop (fuel : nat) (w : world) (m : memory) (pos : Z) (text : bytes) : outcome (world * bytes) :=
  if Z.of_nat (List.length m) <=? pos then Ok (w, text)
  else
    match fuel with
    | O => Fuel
    | S fuel =>
        let* (x, pos) := unpack_record m pos in
        let* text := if truthy (cf_trace_allgather (w_config w)) then let* l := record_line x in Ok (text ++ l) else Ok text in
        let* w := insert_record w x in
        receive_loop fuel w m pos text
    end.

(** What a rank does with what it received, lines 396-463. *)
Definition receive (w : world) (m : memory) (step : Z) : outcome world :=
  let header := if truthy (cf_trace_allgather (w_config w)) then $"rank, region_name, features, policy, time_avg" ++ [nl] else [] in
  let* (w, text) := receive_loop (List.length m) w m 0 header in
  if truthy (cf_trace_allgather (w_config w)) then
    let path := $"step-" ++ print_Z step ++ $"-rank-" ++ print_Z (w_rank w) ++ $"-allgather.txt" in
    Ok (set_files w (file_write path text (w_files w)))
  else Ok w.

(** [f] on every rank. All ranks run src/Apollo.cpp lines 331-471. *)
Fixpoint on_each {A B} (f : A -> outcome B) (l : list A) : outcome (list B) :=
  match l with
  | [] => Ok []
  | x :: r => let* y := f x in let* ys := on_each f r in Ok (y :: ys)
  end.

(** Apollo::gatherCollectiveTrainingData on every rank, lines 331-470. *)
Definition gather (ws : list world) (step : Z) : outcome (list world) :=
  let* bufs := on_each send_buffer ws in
  let* m := received bufs in
  on_each (fun w => receive w m step) ws.

(** ** Jobs *)

Variable P : platform.

(** Apollo::train on every rank of a job with collective training, lines 475-512. If only some ranks have the setting,
    those wait for ever ([Fuel]). *)
Definition collective_train (ws : list world) (step : Z) (collect : bool) : outcome (list world) :=
  if forallb (fun w => truthy (cf_collective (w_config w))) ws then
    let* ws := gather ws step in
    on_each (train_regions_by P (fun w r => region_train P w r step collect false)) ws
  else Fuel.

(** What happens in a job: a call on a rank, or Apollo::train on every rank. src/Apollo.cpp lines 475-515. *)
Inductive job_op := Local (rank : nat) (o : op) | Collective (step : Z) (collect : bool).

(** One event of a job. src/Apollo.cpp lines 475-515. *)
Definition job_step (ws : list world) (o : job_op) : outcome (list world) :=
  match o with
  | Local i o =>
      match nth_error ws i with
      | None => UB
      | Some w => let* (w, _) := step P w o in Ok (set_nth ws i w)
      end
  | Collective step collect => collective_train ws step collect
  end.

(** A job: events in order. src/Apollo.cpp lines 475-515. *)
Fixpoint job_run (ws : list world) (os : list job_op) : outcome (list world) :=
  match os with
  | [] => Ok ws
  | o :: rest => let* ws := job_step ws o in job_run ws rest
  end.
End Mpi.

(** The ranks after Apollo::Apollo, lines 120-238, with the settings and files of each. *)
Definition start_job (cs : list (config * list (bytes * bytes))) : list world :=
  map (fun x => mkWorld (fst (snd x)) (Z.of_nat (fst x)) [] [] 0 (snd (snd x))) (combine (seq 0 (List.length cs)) cs).

(** The 32 bits of a float in memory, with the default NaN for NaN. For MPI_FLOAT, src/Apollo.cpp line 425. *)
Definition bits32 (x : f32) : Z := Bits.bits_of_b32 (Binary.BSN2B 24 128 Bits.default_nan_pl32 x).
(** See [bits32]. For MPI_FLOAT, src/Apollo.cpp line 425. *)
Definition of_bits32 (z : Z) : f32 := Binary.B2BSN 24 128 (Bits.b32_of_bits z).

(** A library that packs values as they are in little-endian memory, without anything else, as MPICH and Open MPI do
    between equal machines. src/Apollo.cpp lines 411-432. *)
Definition native_width (t : mpi_type) : Z := match t with MpiInt => 4 | MpiFloat => 4 | MpiChar => 1 | MpiDouble => 8 end.
(** See [native_width]. src/Apollo.cpp lines 411-432. *)
Definition native_mpi : mpi :=
  {| mpi_width := native_width; mpi_size := fun n t => n * native_width t;
     put_int := int_mem; get_int := of_int_mem;
     put_float := fun x => le_bytes 4 (bits32 x); get_float := fun b => of_bits32 (of_le_bytes b);
     put_char := fun c => [c]; get_char := fun b => match b with c :: _ => c | [] => nul end;
     put_double := fun x => le_bytes 8 (bits64 x); get_double := fun b => of_bits64 (of_le_bytes b) |}.
