(** The files of the traces of regions: std::ofstream trace_file, include/apollo/Region.h line 89, with src/Region.cpp lines
    382-399, 414 and 517-524.

    RuntimeM says what each region writes to its stream; here are the files behind the streams. A stream holds text back in a
    buffer and hands over more of it at times of its own choosing, and the rest when it is closed. Each stream writes at its own
    position in the file. Simplified: the calls the runtime makes are taken one by one, and what one call writes to several
    streams is taken in the order of the regions. Opening a file succeeds, and files of different names are different. *)
From Coq Require Import ZArith Bool Ascii String List.
From Verif Require Import Model.Base Model.PolicyModelsM Model.ConfigM Model.RuntimeM Model.AnalyzeM.
Import ListNotations.

(** The name of the file of a region, src/Region.cpp lines 383-386. *)
Definition trace_path (w : world) (R : region) : bytes :=
  in_dir (in_dir (cf_output_dir (w_config w)) (cf_traces_dir (w_config w))) (trace_name (r_model_info R) (r_name R) (w_rank w)).

(** What happens to streams, by number of the region: opened (line 388), written to (lines 393-398 and 517-524), text handed
    over to the file, closed (line 414). *)
Inductive stream_event :=
| Opened (r : nat) (path : bytes)
| Put (r : nat) (text : bytes)
| Flushed (r : nat) (n : nat)
| Closed (r : nat).

(** An open stream: its file, its position in the file, the text in its buffer. src/Region.cpp line 388. *)
Record stream := mkStream { s_path : bytes; s_position : nat; s_buffer : bytes }.

(** The files and the open streams. src/Region.cpp line 388. *)
Record disk := mkDisk { d_files : list (bytes * bytes); d_streams : nat -> option stream }.

(** The streams with one changed. src/Region.cpp lines 388 and 414. *)
Definition set_stream (r : nat) (s : option stream) (l : nat -> option stream) : nat -> option stream :=
  fun i => if Nat.eqb i r then s else l i.

(** Bytes written at a position of a file; what lies between its end and the position reads as NUL. Writing nothing does nothing.
    The write behind src/Region.cpp lines 393-398, 414 and 517-524. *)
Definition write_at (position : nat) (text old : bytes) : bytes :=
  match text with
  | [] => old
  | _ => firstn position (old ++ repeat nul (position - List.length old)) ++ text ++ skipn (position + List.length text) old
  end.

(** The first [n] bytes of the buffer go to the file. The write behind src/Region.cpp lines 393-398, 414 and 517-524. *)
Definition hand_over (d : disk) (r n : nat) (s : stream) : disk :=
  let text := firstn n (s_buffer s) in
  let old := match file_find (s_path s) (d_files d) with Some old => old | None => [] end in
  mkDisk (file_write (s_path s) (write_at (s_position s) text old) (d_files d))
    (set_stream r (Some (mkStream (s_path s) (s_position s + List.length text) (skipn n (s_buffer s)))) (d_streams d)).

(** One event. Opening makes the file empty, whoever else has it open; a stream that is not open takes nothing.
    src/Region.cpp lines 388, 393-398, 414 and 517-524. *)
Definition disk_step (d : disk) (e : stream_event) : disk :=
  match e with
  | Opened r path => mkDisk (file_write path [] (d_files d)) (set_stream r (Some (mkStream path 0 [])) (d_streams d))
  | Put r text =>
      match d_streams d r with
      | None => d
      | Some s => mkDisk (d_files d) (set_stream r (Some (mkStream (s_path s) (s_position s) (s_buffer s ++ text))) (d_streams d))
      end
  | Flushed r n =>
      match d_streams d r with
      | None => d
      | Some s => hand_over d r n s
      end
  | Closed r =>
      match d_streams d r with
      | None => d
      | Some s => let d := hand_over d r (List.length (s_buffer s)) s in mkDisk (d_files d) (set_stream r None (d_streams d))
      end
  end.

(** Events in order, from the files there are at first. src/Region.cpp lines 382-399, 414 and 517-524. *)
Definition disk_after (files : list (bytes * bytes)) (es : list stream_event) : disk :=
  fold_left disk_step es (mkDisk files (fun _ => None)).

(** What a call did to the stream of the region number [i]: lines 382-399 for a new region, lines 517-524, line 414 for a
    region destroyed. *)
Definition region_events (w w' : world) (i : nat) : list stream_event :=
  match nth_error (w_regions w) i, nth_error (w_regions w') i with
  | None, Some R' => [Opened i (trace_path w' R'); Put i (r_trace R')]
  | Some R, Some R' =>
      Put i (skipn (List.length (r_trace R)) (r_trace R')) :: (if r_alive R && negb (r_alive R') then [Closed i] else [])
  | _, None => []
  end.

(** What a call did to the streams: with APOLLO_TRACE_CSV, lines 382 and 510. *)
Definition call_events (w w' : world) : list stream_event :=
  if truthy (cf_trace_csv (w_config w)) then flat_map (region_events w w') (seq 0 (List.length (w_regions w'))) else [].

(** A run with what it does to the streams of its regions. include/apollo/Region.h lines 38-76. *)
Fixpoint traced_run (P : platform) (w : world) (os : list op) : outcome (world * list stream_event) :=
  match os with
  | [] => Ok (w, [])
  | o :: rest =>
      let* (w', _) := step P w o in
      let* (w'', es) := traced_run P w' rest in
      Ok (w'', call_events w w' ++ es)
  end.
