(** * Go strings and the library functions on them that rtcg uses.

    Go strings and byte slices are modelled as lists of bytes ([ascii]).
    The functions here model the Go standard library routines that /repo calls;
    each comment names the routine and the call sites in /repo. *)
From Coq Require Export Ascii String NArith ZArith Lia.
From stdpp Require Export strings gmap sorting list.
Global Open Scope string_scope.
Global Open Scope nat_scope.
Global Open Scope list_scope.
Notation length := List.length (only parsing).

Definition gostr := list ascii.
Definition lit (s : string) : gostr := list_ascii_of_string s.
Coercion lit : string >-> gostr.
Global Instance gostr_eq_dec : EqDecision gostr := _.
Global Instance gostr_countable : Countable gostr := _.

(** Results of Go functions: a value, an error value, or a run-time panic. *)
Inductive res (E A : Type) :=
| Ok (a : A)
| Err (e : E)
| Panic.
Global Arguments Ok {E A} a.
Global Arguments Err {E A} e.
Global Arguments Panic {E A}.

Definition res_bind {E A B} (r : res E A) (f : A -> res E B) : res E B :=
  match r with Ok a => f a | Err e => Err e | Panic => Panic end.

Definition is_ok {E A} (r : res E A) : Prop := exists a, r = Ok a.

(** Byte with a given code. *)
Definition byte (n : N) : ascii := ascii_of_N n.
Definition code (c : ascii) : N := N_of_ascii c.

(** ** unicode.IsSpace, as UTF-8 byte sequences

    Models [unicode.IsSpace] as used by bytes.TrimSpace / strings.TrimSpace
    (internal/testlang/channel/channel.go:117,119; internal/testlang/value/value.go:88;
    internal/trace/read.go:77-78) and by encoding/csv's TrimLeadingSpace
    (internal/trace/read.go:42).  Each white-space rune is listed by its UTF-8 encoding. *)
Definition space_seqs : list gostr :=
  [ [byte 9]; [byte 10]; [byte 11]; [byte 12]; [byte 13]; [byte 32];
    [byte 194; byte 133]; [byte 194; byte 160];              (* U+0085, U+00A0 *)
    [byte 225; byte 154; byte 128];                          (* U+1680 *)
    [byte 226; byte 128; byte 128]; [byte 226; byte 128; byte 129];
    [byte 226; byte 128; byte 130]; [byte 226; byte 128; byte 131];
    [byte 226; byte 128; byte 132]; [byte 226; byte 128; byte 133];
    [byte 226; byte 128; byte 134]; [byte 226; byte 128; byte 135];
    [byte 226; byte 128; byte 136]; [byte 226; byte 128; byte 137];
    [byte 226; byte 128; byte 138];                          (* U+2000..U+200A *)
    [byte 226; byte 128; byte 168]; [byte 226; byte 128; byte 169]; (* U+2028, U+2029 *)
    [byte 226; byte 128; byte 175];                          (* U+202F *)
    [byte 226; byte 129; byte 159];                          (* U+205F *)
    [byte 227; byte 128; byte 128] ].                        (* U+3000 *)

(** [strip_prefix p s]: the rest of [s] after [p], if [p] is a prefix. *)
Fixpoint strip_prefix (p s : gostr) : option gostr :=
  match p, s with
  | [], _ => Some s
  | _ :: _, [] => None
  | a :: p', b :: s' => if Ascii.eqb a b then strip_prefix p' s' else None
  end.

(** Strip the first of [seqs] that is a prefix of [s]. *)
Fixpoint strip_one (seqs : list gostr) (s : gostr) : option gostr :=
  match seqs with
  | [] => None
  | p :: ps => match strip_prefix p s with Some r => Some r | None => strip_one ps s end
  end.

Fixpoint strip_all (seqs : list gostr) (fuel : nat) (s : gostr) : gostr :=
  match fuel with
  | O => s
  | S fuel => match strip_one seqs s with Some r => strip_all seqs fuel r | None => s end
  end.

(** bytes.TrimLeftFunc(s, unicode.IsSpace). *)
Definition trim_left (s : gostr) : gostr := strip_all space_seqs (length s) s.
(** bytes.TrimRightFunc(s, unicode.IsSpace); white space is recognised backwards. *)
Definition trim_right (s : gostr) : gostr :=
  rev (strip_all (map (@rev ascii) space_seqs) (length s) (rev s)).
(** bytes.TrimSpace / strings.TrimSpace. *)
Definition trim_space (s : gostr) : gostr := trim_right (trim_left s).

(** ** Splitting and joining *)

(** strings.Cut(s, c) for a one-byte separator (internal/trace/read.go:76). *)
Fixpoint cut (c : ascii) (s : gostr) : option (gostr * gostr) :=
  match s with
  | [] => None
  | a :: r => if Ascii.eqb a c then Some ([], r)
              else match cut c r with Some (x, y) => Some (a :: x, y) | None => None end
  end.

(** bytes.SplitN(s, c, n) for a one-byte separator and n >= 1
    (internal/testlang/channel/channel.go:110).  For n = 0 Go returns nil. *)
Fixpoint split_n (c : ascii) (n : nat) (s : gostr) : list gostr :=
  match n with
  | O => []
  | S O => [s]
  | S m => match cut c s with Some (a, b) => a :: split_n c m b | None => [s] end
  end.

(** bytes.Join / strings.Join (channel.go:106, event.go:63, trace.go:30). *)
Fixpoint join (sep : gostr) (l : list gostr) : gostr :=
  match l with
  | [] => []
  | [a] => a
  | a :: r => a ++ sep ++ join sep r
  end.

(** Split on every separator (used by [clean]). *)
Fixpoint split_all (c : ascii) (s : gostr) : list gostr :=
  match s with
  | [] => [[]]
  | a :: r => if Ascii.eqb a c then [] :: split_all c r
              else match split_all c r with
                   | x :: xs => (a :: x) :: xs
                   | [] => [[a]]
                   end
  end.

(** ** Letter case *)

Definition is_upper (c : ascii) : bool := (65 <=? code c)%N && (code c <=? 90)%N.
Definition is_lower (c : ascii) : bool := (97 <=? code c)%N && (code c <=? 122)%N.
Definition is_ascii (c : ascii) : bool := (code c <? 128)%N.
Definition lower_c (c : ascii) : ascii := if is_upper c then byte (code c + 32) else c.
Definition upper_c (c : ascii) : ascii := if is_lower c then byte (code c - 32) else c.

(** strings.ToLower / bytes.ToLower, used only to compare against ASCII keywords
    (kind_enum.go:60, outcome_enum.go:66, variant_enum.go:53, rstype.go:88).
    The two non-ASCII runes whose lower case is ASCII (U+0130 -> i, U+212A -> k) are
    included.  Simplification: other non-ASCII runes (and invalid UTF-8) are left as they
    are; Go maps them to other non-ASCII runes, so comparison with a keyword is unaffected. *)
Fixpoint to_lower (s : gostr) : gostr :=
  match s with
  | [] => []
  | c :: r =>
    match r with
    | [] => [lower_c c]
    | d :: r' =>
      if Ascii.eqb c (byte 196) && Ascii.eqb d (byte 176) then "i"%char :: to_lower r'
      else match r' with
           | [] => lower_c c :: to_lower r
           | e :: r'' =>
             if Ascii.eqb c (byte 226) && Ascii.eqb d (byte 132) && Ascii.eqb e (byte 170)
             then "k"%char :: to_lower r''
             else lower_c c :: to_lower r
           end
    end
  end.

(** strings.ToUpper (internal/gen/cpp/func.go:85; template function toUpper).
    Simplification: ASCII letters only; non-ASCII bytes are left alone. *)
Definition to_upper (s : gostr) : gostr := map upper_c s.

(** ** Decimal numbers *)

Definition digit (d : N) : ascii := byte (48 + d).
Definition is_digit (c : ascii) : bool := (48 <=? code c)%N && (code c <=? 57)%N.
Definition digit_val (c : ascii) : N := code c - 48.

(** The digit loop of strconv.FormatInt / fmt's %d in base 10: least digit first. *)
Fixpoint fmt_loop (fuel : nat) (n : N) (acc : gostr) : gostr :=
  match fuel with
  | O => acc
  | S fuel => let acc' := digit (n mod 10) :: acc in
              if (n <? 10)%N then acc' else fmt_loop fuel (n / 10) acc'
  end.
Definition format_N (n : N) : gostr := fmt_loop (S (N.size_nat n)) n [].

(** strconv.FormatInt(i, 10) / strconv.AppendInt (value/int.go:17,36); fmt %d of a
    non-negative int (trace/trace.go:117,119; stm/builder.go:156). *)
Definition format_int (z : Z) : gostr :=
  if (z <? 0)%Z then "-"%char :: format_N (Z.abs_N z) else format_N (Z.to_N z).

(** strconv.ParseUint in base 10, without the 64-bit bound (the callers' bound is tighter). *)
Fixpoint parse_digits_acc (acc : N) (s : gostr) : option N :=
  match s with
  | [] => Some acc
  | c :: r => if is_digit c then parse_digits_acc (acc * 10 + digit_val c) r else None
  end.
Definition parse_digits (s : gostr) : option N :=
  match s with [] => None | _ => parse_digits_acc 0 s end.

(** strconv.ParseInt(s, 10, 64) (value/int.go:22); syntax and range errors are both [None].
    ParseUint's own 2^64 overflow error is subsumed by the range check here. *)
Definition int64_cutoff : N := 9223372036854775808. (* 1 << 63 *)
Definition parse_int (s : gostr) : option Z :=
  let '(neg, body) :=
    match s with
    | c :: r => if Ascii.eqb c "+" then (false, r)
                else if Ascii.eqb c "-" then (true, r) else (false, s)
    | [] => (false, s)
    end in
  match parse_digits body with
  | None => None
  | Some un =>
    if negb neg && (int64_cutoff <=? un)%N then None
    else if neg && (int64_cutoff <? un)%N then None
    else Some (if neg then - Z.of_N un else Z.of_N un)%Z
  end.

(** ** strings.ReplaceAll(s, old, new) for non-empty [old] (config/catkin/package.go:80) *)
Fixpoint replace_loop (fuel : nat) (old new s : gostr) : gostr :=
  match fuel with
  | O => s
  | S fuel =>
    match s with
    | [] => []
    | c :: r => match strip_prefix old s with
                | Some rest => new ++ replace_loop fuel old new rest
                | None => c :: replace_loop fuel old new r
                end
    end
  end.
Definition replace_all (old new s : gostr) : gostr := replace_loop (length s) old new s.

(** ** filepath.Clean and filepath.Join on Unix
    (gencommon/dirset.go:14-21, cmd/rtcg-gen/main.go:68-70, templating/set.go:26). *)
Definition clean_step (rooted : bool) (out : list gostr) (comp : gostr) : list gostr :=
  (* [out] is the list of kept components, last first *)
  if decide (comp = []) then out
  else if decide (comp = ".") then out
  else if decide (comp = "..") then
    match out with
    | [] => if rooted then [] else [comp]
    | top :: rest => if decide (top = "..") then comp :: out else rest
    end
  else comp :: out.

Definition is_rooted (p : gostr) : bool :=
  match p with c :: _ => Ascii.eqb c "/" | [] => false end.

Definition clean_comps (p : gostr) : list gostr :=
  rev (fold_left (clean_step (is_rooted p)) (split_all "/" p) []).

Definition render_path (rooted : bool) (comps : list gostr) : gostr :=
  match (if rooted then "/"%char :: join "/" comps else join "/" comps) with
  | [] => "."
  | s => s
  end.

Definition clean (p : gostr) : gostr :=
  match p with
  | [] => "."
  | _ => render_path (is_rooted p) (clean_comps p)
  end.

Fixpoint path_join (elems : list gostr) : gostr :=
  match elems with
  | [] => []
  | e :: r => if decide (e = []) then path_join r else clean (join "/" elems)
  end.
