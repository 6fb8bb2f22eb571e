(** PolicyNet (src/models/PolicyNet.cpp lines 415-685, include/apollo/models/PolicyNet.h): the policy model that
    holds a network, a cache of action probabilities and a moving average of rewards.

    Simplifications. The random number generators appear as arguments: the draws that initialise the weights,
    and, for each call of getIndex, the function from a vector of weights to the index that
    std::discrete_distribution returns. Failure to open a file for writing is not modelled; a file that cannot
    be opened for reading is [None]. A double has a single NaN, so stored NaNs lose their payload. *)
From Coq Require Import List ZArith Bool Ascii.
From Flocq Require Import Core BinarySingleNaN.
From Flocq Require IEEE754.Binary IEEE754.Bits.
From Verif Require Import Model.Base Model.Float Model.DatasetM Model.NetM.
Import ListNotations.
Local Open Scope Z_scope.

(** The functions of the C library whose results the standard leaves to the implementation: std::exp and
    std::pow on double. *)
Record libm := { m_exp : f64 -> f64; m_pow : f64 -> f64 -> f64 }.

(** double arithmetic for the network. The literal 1e-8 (line 145) is the double nearest to 1/10^8.
    std::signbit of a NaN (line 247), whose sign is unspecified, is taken as false. *)
Definition f64_arith (M : libm) : arith f64 := {|
  n_zero := zero64; n_one := one64; n_eps := div64 one64 (f64_of_Z 100000000);
  n_nat := fun n => f64_of_Z (Z.of_nat n);
  n_add := add64; n_sub := sub64; n_mul := mul64; n_div := div64; n_opp := Bopp;
  n_exp := m_exp M; n_sqrt := sqrt64; n_pow := fun x z => m_pow M x (f64_of_Z z);
  n_lt := lt64; n_signbit := Bsign |}.

(** `(uint64_t)f`, lines 458, 551, 565: truncation; a value whose integer part does not fit is undefined. *)
Definition to_uint64 (f : f32) : outcome Z :=
  if is_finite f then
    let z := Btrunc f in if (0 <=? z) && (z <? 2 ^ 64) then Ok z else UB
  else UB.

(** std::bitset<64>: element i is bit i. Lines 458-460, 565-568. *)
Definition bit_list (z : Z) : list bool := map (fun i => Z.testbit z (Z.of_nat i)) (seq 0 64).

(** std::bitset::to_string, line 552: most significant bit first, as '0' and '1'. *)
Definition bit_string (z : Z) : bytes :=
  map (fun b : bool => if b then "1"%char else "0"%char) (rev (bit_list z)).

(** The integers that encode a features vector, lines 456-461, 550-553, 562-569. *)
Definition encode (features : list f32) : outcome (list Z) := map_out to_uint64 features.

(** The input of the network for encoded features, lines 458-460 and 561-569 ([bit] converts bool to the
    number type). *)
Definition input_of {T} (bit : bool -> T) (zs : list Z) : list T := List.concat (map (fun z => map bit (bit_list z)) zs).

(** The cache key for encoded features, lines 547-553. *)
Definition key_of (zs : list Z) : bytes := List.concat (map bit_string zs).

Section PolicyNet.
Context {T : Type} (A : arith T).
Local Notation "x + y" := (n_add A x y).
Local Notation "x - y" := (n_sub A x y).
Local Notation "x * y" := (n_mul A x y).
Local Notation "x / y" := (n_div A x y).

(** Members of PolicyNet, include/apollo/models/PolicyNet.h lines 45-55. [pn_cache] is the unordered_map. *)
Record pnet := mkPnet {
  pn_policies : nat;
  pn_net : net T;
  pn_cache : list (bytes * list T);
  pn_avg : T;
  pn_beta : T;
  pn_threshold : T;
  pn_count : Z;
  pn_trainable : bool
}.

(** PolicyNet::PolicyNet, lines 415-438. [init] are the random initial weights. *)
Definition new_pnet (policies features : nat) (lr beta beta1 beta2 threshold : T) (init : nat -> nat -> T) : pnet :=
  let n := Nat.mul 64 features in
  mkPnet policies (new_net A n (Nat.div (Nat.add n policies) 2) policies lr beta1 beta2 init)
    [] (n_zero A) beta threshold 0 true.

(** bool converted to float or double (lines 460, 567 and 506). *)
Definition bit (b : bool) : T := if b then n_one A else n_zero A.

(** The largest int. INT_MAX of <climits>, for the casts of src/models/PolicyNet.cpp. *)
Definition int_max : Z := 2147483647.

(** An action index used to subscript a row, line 328: negative is undefined. *)
Definition action_index (a : Z) : outcome nat := if a <? 0 then UB else Ok (Z.to_nat a).

(** PolicyNet::trainNet, lines 477-530. *)
Definition train_net (P : pnet) (states : list (list T)) (actions : list Z) (rewards : list T) : outcome pnet :=
  match states with
  | [] => Ok P
  | s0 :: _ =>
    let batch := List.length states in
    let input_size := List.length s0 in
    let batch_avg := fold_left (fun s r => s + r) rewards (n_zero A) / n_nat A batch in
    let avg := pn_beta P * pn_avg P + (n_one A - pn_beta P) * batch_avg in
    if pn_count P =? int_max then UB else
    let count := (pn_count P + 1)%Z in
    let baseline := avg / (n_one A - n_pow A (pn_beta P) count) in
    let P' := mkPnet (pn_policies P) (pn_net P) (pn_cache P) avg (pn_beta P) (pn_threshold P) count (pn_trainable P) in
    if n_lt A baseline (pn_threshold P) then Ok P' else
    let* rows := map_out (fun s => map_out (rd s) (seq 0 input_size)) states in
    let* acts := map_out (fun i => let* a := rd actions i in action_index a) (seq 0 batch) in
    let* rews := map_out (fun i => let* r := rd rewards i in Ok (r - baseline)) (seq 0 batch) in
    let* N := train_step A (pn_net P) (List.concat rows) acts rews batch in
    Ok (mkPnet (pn_policies P) N (pn_cache P) avg (pn_beta P) (pn_threshold P) count (pn_trainable P))
  end.

(** PolicyNet::train, lines 442-475. [metric_in] reads a metric as a number. *)
Definition pn_train (metric_in : f64 -> T) (P : pnet) (d : dataset) : outcome pnet :=
  let measures := ds_to_vector d in
  let* states := map_out (fun q => let '(f, _, _) := q in
      let* zs := encode f in Ok (input_of bit zs)) measures in
  let actions := map (fun q => let '(_, p, _) := q in p) measures in
  let rewards := map (fun q => let '(_, _, x) := q in n_exp A (n_opp A (metric_in x))) measures in
  let* P := train_net P states actions rewards in
  Ok (mkPnet (pn_policies P) (pn_net P) [] (pn_avg P) (pn_beta P) (pn_threshold P) (pn_count P) (pn_trainable P)).

(** Lookup in the unordered_map, line 555. *)
Fixpoint cache_find (k : bytes) (c : list (bytes * list T)) : option (list T) :=
  match c with
  | [] => None
  | (k', v) :: r => if bytes_eqb k k' then Some v else cache_find k r
  end.

(** The probabilities a fresh evaluation gives, lines 560-578. *)
Definition evaluate_net (P : pnet) (zs : list Z) : outcome (list T) :=
  let* probs := net_forward A (pn_net P) (input_of bit zs) 1 in
  map_out (rd probs) (seq 0 (pn_policies P)).

(** The debiased average of lines 534-537. *)
Definition baseline (P : pnet) : T :=
  if 0 <? pn_count P then pn_avg P / (n_one A - n_pow A (pn_beta P) (pn_count P)) else n_zero A.

(** The probabilities getIndex samples from and the new cache, lines 543-582. *)
Definition lookup_probs (P : pnet) (features : list f32) : outcome (list T * pnet) :=
  let* zs := encode features in
  match cache_find (key_of zs) (pn_cache P) with
  | Some probs => Ok (probs, P)
  | None =>
    let* probs := evaluate_net P zs in
    Ok (probs, mkPnet (pn_policies P) (pn_net P) ((key_of zs, probs) :: pn_cache P) (pn_avg P) (pn_beta P)
                 (pn_threshold P) (pn_count P) (pn_trainable P))
  end.

(** PolicyNet::getIndex, lines 532-594. [draw] is the behaviour of std::discrete_distribution in this call. *)
Definition pn_get_index (draw : list T -> outcome Z) (P : pnet) (features : list f32) : outcome (Z * pnet) :=
  if n_lt A (baseline P) (pn_threshold P) then Ok (0, P)
  else
    let* (probs, P) := lookup_probs P features in
    let* i := draw probs in
    Ok (i, P).
End PolicyNet.
Arguments pnet T : clear implicits.

(** The 64 bits of a double in memory: sign, exponent, fraction (IEEE-754 interchange format), with the
    default NaN for NaN. PolicyNet::store and load, src/models/PolicyNet.cpp lines 628-686. *)
Definition bits64 (x : f64) : Z :=
  Bits.bits_of_b64 (Binary.BSN2B 53 1024 Bits.default_nan_pl64 x).
(** The double that 64 bits of memory represent.
    PolicyNet::store and load, src/models/PolicyNet.cpp lines 628-686. *)
Definition of_bits64 (z : Z) : f64 := Binary.B2BSN 53 1024 (Bits.b64_of_bits z).

(** The [n] bytes of a number, least significant first (little-endian memory, lines 639-652). *)
Fixpoint le_bytes (n : nat) (z : Z) : bytes :=
  match n with
  | O => []
  | S k => ascii_of_N (Z.to_N (z mod 256)) :: le_bytes k (z / 256)
  end.
(** The number whose bytes, least significant first, are given.
    PolicyNet::store and load, src/models/PolicyNet.cpp lines 628-686. *)
Fixpoint of_le_bytes (b : bytes) : Z :=
  match b with
  | [] => 0
  | c :: r => Z.of_N (N_of_ascii c) + 256 * of_le_bytes r
  end.

(** An array of doubles in memory. PolicyNet::store and load, src/models/PolicyNet.cpp lines 628-686. *)
Definition mem_of (a : list f64) : bytes := List.concat (map (fun x => le_bytes 8 (bits64 x)) a).

(** An int in memory: two's complement, 4 bytes.
    PolicyNet::store and load, src/models/PolicyNet.cpp lines 628-686. *)
Definition int_mem (z : Z) : bytes := le_bytes 4 (z mod 2 ^ 32).
(** See [int_mem]. PolicyNet::store and load, src/models/PolicyNet.cpp lines 628-686. *)
Definition of_int_mem (b : bytes) : Z :=
  let z := of_le_bytes b in if z <? 2 ^ 31 then z else z - 2 ^ 32.

(** PolicyNet::store, lines 629-655: the contents of the file. *)
Definition pn_store (P : pnet f64) : bytes :=
  let N := pn_net P in
  (mem_of (l_w (layer1 N)) ++ mem_of (l_b (layer1 N)) ++
   mem_of (l_w (layer2 N)) ++ mem_of (l_b (layer2 N)) ++
   mem_of (l_w (layer3 N)) ++ mem_of (l_b (layer3 N)) ++
   mem_of [pn_avg P] ++ int_mem (pn_count P))%list.

(** `f.read(p, n)` into the memory [old] of n bytes: copies the bytes there are; the rest of the memory stays.
    Returns the new memory and what is left of the file. Once a read has come short every later read finds
    nothing. PolicyNet::store and load, src/models/PolicyNet.cpp lines 628-686. *)
Definition read_mem (old file : bytes) : bytes * bytes :=
  let n := List.length old in
  ((firstn n file ++ skipn (List.length file) old)%list, skipn n file).

(** The doubles in a piece of memory. PolicyNet::store and load, src/models/PolicyNet.cpp lines 628-686. *)
Fixpoint doubles_of (n : nat) (b : bytes) : list f64 :=
  match n with
  | O => []
  | S k => of_bits64 (of_le_bytes (firstn 8 b)) :: doubles_of k (skipn 8 b)
  end.

(** One f.read of lines 669-681 into an array of doubles. *)
Definition read_doubles (old : list f64) (file : bytes) : list f64 * bytes :=
  let '(m, rest) := read_mem (mem_of old) file in (doubles_of (List.length old) m, rest).

(** The parameters of a layer replaced.
    PolicyNet::store and load, src/models/PolicyNet.cpp lines 628-686. *)
Definition set_params (L : layer f64) (w b : list f64) : layer f64 :=
  mkLayer (l_in L) (l_out L) w b (l_wm L) (l_wv L) (l_bm L) (l_bv L) (l_step L).

(** PolicyNet::load, lines 657-685. *)
Definition pn_load (P : pnet f64) (file : option bytes) : pnet f64 :=
  match file with
  | None => P
  | Some f =>
    let N := pn_net P in
    let '(w1, f) := read_doubles (l_w (layer1 N)) f in
    let '(b1, f) := read_doubles (l_b (layer1 N)) f in
    let '(w2, f) := read_doubles (l_w (layer2 N)) f in
    let '(b2, f) := read_doubles (l_b (layer2 N)) f in
    let '(w3, f) := read_doubles (l_w (layer3 N)) f in
    let '(b3, f) := read_doubles (l_b (layer3 N)) f in
    let '(avg, f) := read_mem (le_bytes 8 (bits64 (pn_avg P))) f in
    let '(cnt, f) := read_mem (int_mem (pn_count P)) f in
    mkPnet (pn_policies P)
      (mkNet (set_params (layer1 N) w1 b1) (set_params (layer2 N) w2 b2) (set_params (layer3 N) w3 b3)
         (learn_rate N) (net_beta1 N) (net_beta2 N))
      (pn_cache P) (of_bits64 (of_le_bytes avg)) (pn_beta P) (pn_threshold P) (of_int_mem cnt) (pn_trainable P)
  end.
