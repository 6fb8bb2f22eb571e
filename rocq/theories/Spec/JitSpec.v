(** The fragment of C++ used by generated tree functions, and its meaning. *)
From Coq Require Import List ZArith Bool Ascii String Reals.
From Flocq Require Import Core BinarySingleNaN.
From Verif Require Import Model.Base Model.Float Model.Decimal Model.TreeM Spec.DecimalSpec.
Import ListNotations.
Open Scope Z_scope.

(** Statements; the threshold is kept as source text. *)
Inductive stmt :=
| Return (c : Z)
| If (f : Z) (thr : bytes) (body : stmt)
| IfElse (f : Z) (thr : bytes) (body other : stmt).

(** Concrete syntax, two spaces per level. *)
Fixpoint spaces (k : nat) : bytes := match k with O => [] | S k => $"  " ++ spaces k end.
Fixpoint code (k : nat) (s : stmt) : bytes :=
  match s with
  | Return c => spaces k ++ $"return " ++ print_Z c ++ $";" ++ [nl]
  | If f thr b =>
      spaces k ++ $"if (features[" ++ print_Z f ++ $"] < " ++ thr ++ $") {" ++ [nl]
      ++ code (S k) b ++ spaces k ++ $"}" ++ [nl]
  | IfElse f thr b o =>
      spaces k ++ $"if (features[" ++ print_Z f ++ $"] < " ++ thr ++ $") {" ++ [nl]
      ++ code (S k) b ++ spaces k ++ $"}" ++ [nl]
      ++ spaces k ++ $"else {" ++ [nl] ++ code (S k) o ++ spaces k ++ $"}" ++ [nl]
  end.

(** A numeric constant expression of C++: a decimal integer literal has type int, a literal with a point or an
    exponent has type double. Anything else (such as inf or nan) does not compile. *)
Inductive constant := CInt (z : Z) | CDouble (x : f64).

Definition unsigned_constant (s : bytes) : option constant :=
  match span_digits s with
  | ([], _) => None
  | (c :: a, []) => if Ascii.eqb c "0" && negb (Nat.eqb (List.length a) 0) then None (* octal *)
                    else Some (CInt (digits_val (c :: a)))
  | (_, c :: _) => if Ascii.eqb c "x" then None
                   else match stod s with Ok (x, []) => Some (CDouble x) | _ => None end
  end.

Definition negated (c : constant) : constant :=
  match c with CInt z => CInt (- z) | CDouble x => CDouble (Bopp x) end.

Definition constant_of (s : bytes) : option constant :=
  match s with
  | c :: r => if Ascii.eqb c "-" then option_map negated (unsigned_constant r) else unsigned_constant s
  | [] => None
  end.

(** `x < c` for a float x: an int is converted to float, a double constant promotes x to double. *)
Definition less (x : f32) (c : constant) : bool :=
  match c with
  | CInt z => lt32 x (f32_of_Z z)
  | CDouble d => lt64 (f64_of_f32 x) d
  end.

Fixpoint compiles (s : stmt) : Prop :=
  match s with
  | Return _ => True
  | If _ thr b => constant_of thr <> None /\ compiles b
  | IfElse _ thr b o => constant_of thr <> None /\ compiles b /\ compiles o
  end.

(** Execution as the body of an int function: [None] when control reaches the end of the statement; reading
    outside the features is undefined. *)
Fixpoint exec (s : stmt) (x : list f32) : outcome (option Z) :=
  match s with
  | Return c => Ok (Some c)
  | If f thr b =>
      let* v := vec_get x f in
      match constant_of thr with
      | Some c => if less v c then exec b x else Ok None
      | None => Abort
      end
  | IfElse f thr b o =>
      let* v := vec_get x f in
      match constant_of thr with
      | Some c => if less v c then exec b x else exec o x
      | None => Abort
      end
  end.

(** Calling the function and using its result: falling off the end is undefined. *)
Definition call (s : stmt) (x : list f32) : outcome Z :=
  let* r := exec s x in match r with Some c => Ok c | None => UB end.

(** Leaves have no feature, inner nodes two children. *)
Fixpoint complete (t : tree) : Prop :=
  match t with
  | Null => False
  | Node _ _ _ f _ Null Null _ => f = -1
  | Node _ _ _ f _ l r _ => f <> -1 /\ complete l /\ complete r
  end.

(** Six decimal digits give the number exactly. *)
Definition six_digit_exact (x : f32) : Prop := is_finite x = true /\ round6 (B2R x) = B2R x.

(** Thresholds of inner nodes. *)
Fixpoint split_thresholds (t : tree) : list f32 :=
  match t with
  | Null => []
  | Node _ _ _ _ thr Null Null _ => []
  | Node _ _ _ _ thr l r _ => thr :: split_thresholds l ++ split_thresholds r
  end.

(** Opening minus closing braces of a text. *)
Definition braces (s : bytes) : Z :=
  Z.of_nat (count_occ Ascii.ascii_dec s "{"%char) - Z.of_nat (count_occ Ascii.ascii_dec s "}"%char).

(** Statements whose constants contain no excess of braces. *)
Fixpoint plain_constants (s : stmt) : Prop :=
  match s with
  | Return _ => True
  | If _ thr b => braces thr = 0 /\ plain_constants b
  | IfElse _ thr b o => braces thr = 0 /\ plain_constants b /\ plain_constants o
  end.
