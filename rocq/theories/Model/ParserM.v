(** Model of the tokenizer, src/helpers/Parser.h and src/helpers/Parser.cpp. *)
From Coq Require Import List ZArith Bool Ascii String.
From Verif Require Import Model.Base Model.Float Model.Decimal.
Import ListNotations.
Open Scope Z_scope.

(** Parser state: the unread input, the contents of `buffer` up to its terminator, and the
    offset of `token` in `buffer` (src/helpers/Parser.h lines 22-26).
    The stream positions used only for error messages are not modelled. *)
Record parser := mkParser { p_in : bytes; p_buf : bytes; p_off : nat }.

(** Size of the token buffer, src/helpers/Parser.h line 23. *)
Definition BUFSIZE : Z := 64.

(** A C string ends at its first NUL. src/helpers/Parser.cpp line 39. *)
Fixpoint cstr (s : bytes) : bytes :=
  match s with
  | [] => []
  | c :: r => if Ascii.eqb c nul then [] else c :: cstr r
  end.

(** The C string `token` points to. src/helpers/Parser.cpp line 41. *)
Definition token (p : parser) : bytes := cstr (skipn (p_off p) (p_buf p)).

(** `while (std::isspace( *it)) ++it;`, src/helpers/Parser.cpp lines 24-25 and 29-30. Dereferencing the
    end-of-stream iterator is undefined (in libstdc++ it yields character 0xFF, which is not a space). *)
Fixpoint skip_space (s : bytes) : outcome bytes :=
  match s with
  | [] => UB
  | c :: r => if isspace c then skip_space r else Ok s
  end.

(** `is.ignore(max, '\n')`, line 28. *)
Fixpoint ignore_line (s : bytes) : bytes :=
  match s with
  | [] => []
  | c :: r => if Ascii.eqb c nl then r else ignore_line r
  end.

(** The comment loop, lines 27-31. *)
Fixpoint skip_comments (fuel : nat) (s : bytes) : outcome bytes :=
  match fuel with
  | O => Fuel
  | S fuel' =>
      match s with
      | [] => UB
      | c :: _ => if Ascii.eqb c "#"
                  then let* s' := skip_space (ignore_line s) in skip_comments fuel' s'
                  else Ok s
      end
  end.

(** The token loop, lines 33-38: [idx] is the buffer index, [acc] the characters stored, last first.
    The store `buffer[idx] = *it` is checked against the size of the buffer. *)
Fixpoint take_token (idx : Z) (acc : bytes) (s : bytes) : outcome (bytes * Z * bytes) :=
  match s with
  | [] => UB
  | c :: r =>
      if isspace c then Ok (rev acc, idx, s)
      else if negb (idx <? BUFSIZE) then UB
      else let idx' := idx + 1 in
           if BUFSIZE <=? idx' then Abort
           else take_token idx' (c :: acc) r
  end.

(** Parser::getNextToken, lines 17-45. *)
Definition get_next_token (p : parser) : outcome parser :=
  let* r := match p_in p with
            | [] => Ok ([], 0, [])
            | s => let* s1 := skip_space s in
                   let* s2 := skip_comments (S (List.length s1)) s1 in
                   take_token 0 [] s2
            end in
  let '(buf, idx, rest) := r in
  (* buffer[idx] = '\0', line 40 *)
  if negb (idx <? BUFSIZE) then UB
  else Ok (mkParser rest buf 0).

(** Parser::getTokenEquals, lines 12-15. *)
Definition token_is (p : parser) (s : bytes) : bool := bytes_eqb (token p) s.

(** Parser::parseExpected, lines 79-87; Parser::error (lines 53-77) always aborts. *)
Definition parse_expected (s : bytes) (p : parser) : outcome parser :=
  if token_is p s then Ok p else Abort.

(** Parser::parse<T>, lines 89-129: convert the token, then `token = &buffer[pos]` where [pos] counts
    the characters consumed. *)
Definition after_parse (p : parser) (rest : bytes) : parser :=
  mkParser (p_in p) (p_buf p) (List.length (token p) - List.length rest).
(** Parser::parse<int>, lines 89-95. *)
Definition parse_int (p : parser) : outcome (Z * parser) :=
  let* r := stoi (token p) in Ok (fst r, after_parse p (snd r)).
(** Parser::parse<double>, lines 97-103. *)
Definition parse_double (p : parser) : outcome (f64 * parser) :=
  let* r := stod (token p) in Ok (fst r, after_parse p (snd r)).
(** Parser::parse<float>, lines 105-111. *)
Definition parse_float (p : parser) : outcome (f32 * parser) :=
  let* r := stof (token p) in Ok (fst r, after_parse p (snd r)).
(** `unsigned int`: stoul truncated to 32 bits (lines 114-120). *)
Definition parse_uint (p : parser) : outcome (Z * parser) :=
  let* r := stoul (token p) in Ok (fst r mod 2 ^ 32, after_parse p (snd r)).
(** `unsigned long` (lines 123-129). *)
Definition parse_ulong (p : parser) : outcome (Z * parser) :=
  let* r := stoul (token p) in Ok (fst r, after_parse p (snd r)).

(** getNextToken followed by parseExpected, the common pair in the loaders. E.g. src/Dataset.cpp lines 117-120. *)
Definition expect_next (s : bytes) (p : parser) : outcome parser :=
  let* p := get_next_token p in parse_expected s p.

(** A parser at the start of a stream: `Parser parser(is)`, src/helpers/Parser.h line 10. The token
    pointer is uninitialised until the first getNextToken; no caller reads it before. *)
Definition new_parser (s : bytes) : parser := mkParser s [] 0.
