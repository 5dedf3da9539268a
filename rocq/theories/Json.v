(** * JSON: internal/serial, and the JSON forms of the testlang and stm types

    The tools exchange suites as JSON (testlang/testlang.go:15-31, stm/suite.go:17-34, both
    through serial/serial.go).  This file models, byte for byte, the parts of encoding/json
    (Go 1.20) that these functions rely on: the indenting encoder and the decoder. *)
From Verif Require Export Cpp.

(** ** UTF-8 *)

Definition in_range (lo hi : N) (c : ascii) : bool := (lo <=? code c)%N && (code c <=? hi)%N.

(** utf8.DecodeRune on a non-empty string: the bytes of a valid first sequence and the
    rest; [None] if the first byte does not start a valid sequence (then the routine
    reports RuneError with width 1).  The table is that of unicode/utf8: no overlong forms,
    no surrogates, nothing above U+10FFFF. *)
Definition rune_at (s : gostr) : option (gostr * gostr) :=
  match s with
  | [] => None
  | c0 :: r0 =>
    if (code c0 <? 128)%N then Some ([c0], r0)
    else match r0 with
    | [] => None
    | c1 :: r1 =>
      if in_range 194 223 c0 && in_range 128 191 c1 then Some ([c0; c1], r1)
      else match r1 with
      | [] => None
      | c2 :: r2 =>
        if (in_range 224 224 c0 && in_range 160 191 c1 ||
            in_range 225 236 c0 && in_range 128 191 c1 ||
            in_range 237 237 c0 && in_range 128 159 c1 ||
            in_range 238 239 c0 && in_range 128 191 c1) && in_range 128 191 c2
        then Some ([c0; c1; c2], r2)
        else match r2 with
        | [] => None
        | c3 :: r3 =>
          if (in_range 240 240 c0 && in_range 144 191 c1 ||
              in_range 241 243 c0 && in_range 128 191 c1 ||
              in_range 244 244 c0 && in_range 128 143 c1) &&
             in_range 128 191 c2 && in_range 128 191 c3
          then Some ([c0; c1; c2; c3], r3)
          else None
        end
      end
    end
  end.

(** utf8.EncodeRune for a code point (surrogates and too large numbers become U+FFFD). *)
Definition replacement : gostr := [byte 239; byte 191; byte 189].
Definition encode_rune (r : N) : gostr :=
  if (r <? 128)%N then [byte r]
  else if (r <? 2048)%N then [byte (192 + r / 64); byte (128 + r mod 64)]
  else if (55296 <=? r)%N && (r <? 57344)%N then replacement
  else if (r <? 65536)%N
  then [byte (224 + r / 4096); byte (128 + (r / 64) mod 64); byte (128 + r mod 64)]
  else if (r <? 1114112)%N
  then [byte (240 + r / 262144); byte (128 + (r / 4096) mod 64);
        byte (128 + (r / 64) mod 64); byte (128 + r mod 64)]
  else replacement.

(** How encoding/json sees a string (encodeState.string and unquoteBytes loop over it so):
    valid sequences, and bytes that are not part of one. *)
Inductive chunk := Good (q : gostr) | Bad (c : ascii).
Fixpoint chunk_loop (fuel : nat) (s : gostr) : list chunk :=
  match fuel with
  | O => []
  | S fuel =>
    match s with
    | [] => []
    | c :: r => match rune_at s with
                | Some (q, rest) => Good q :: chunk_loop fuel rest
                | None => Bad c :: chunk_loop fuel r
                end
    end
  end.
Definition chunks (s : gostr) : list chunk := chunk_loop (length s) s.

(** ** JSON values *)

(** A JSON document; numbers are kept as text. *)
Inductive json :=
| JNull
| JBool (b : bool)
| JNum (text : gostr)
| JStr (s : gostr)
| JArr (l : list json)
| JObj (l : list (gostr * json)).

Section json_ind'.
  Context (P : json -> Prop).
  Context (Hnull : P JNull) (Hbool : forall b, P (JBool b)) (Hnum : forall t, P (JNum t))
          (Hstr : forall s, P (JStr s)) (Harr : forall l, Forall P l -> P (JArr l))
          (Hobj : forall l, Forall (fun kv => P kv.2) l -> P (JObj l)).
  Fixpoint json_ind' (j : json) : P j :=
    match j with
    | JNull => Hnull
    | JBool b => Hbool b
    | JNum t => Hnum t
    | JStr s => Hstr s
    | JArr l => Harr l ((fix go l : Forall P l :=
        match l with
        | [] => Forall_nil_2 P
        | x :: r => Forall_cons_2 P x r (json_ind' x) (go r)
        end) l)
    | JObj l => Hobj l ((fix go l : Forall (fun kv => P kv.2) l :=
        match l with
        | [] => Forall_nil_2 _
        | x :: r => Forall_cons_2 (fun kv => P kv.2) x r (json_ind' x.2) (go r)
        end) l)
    end.
End json_ind'.

(** Nesting depth of arrays and objects. *)
Fixpoint jdepth (j : json) : nat :=
  match j with
  | JArr l => S (list_max (map jdepth l))
  | JObj l => S (list_max (map (fun kv => jdepth kv.2) l))
  | _ => 0
  end.

(** encoding/json's maxNestingDepth (scanner.go), enforced by Indent and by the decoder. *)
Definition max_depth : nat := N.to_nat 10000.

(** ** The encoder *)

(** encoding/json's [hex] table: lower case. *)
Definition hex_digit (n : N) : ascii := if (n <? 10)%N then byte (48 + n) else byte (87 + n).

(** encodeState.string with escapeHTML, one ASCII byte: quotes and backslashes are escaped,
    newline, return and tab have short forms; other control characters and [<], [>], [&]
    are written as \u00xx. *)
Definition esc_ascii (c : ascii) : gostr :=
  if decide (c = """"%char) then [byte 92; c]
  else if decide (c = byte 92) then [byte 92; c]
  else if decide (c = byte 10) then lit "\n"
  else if decide (c = byte 13) then lit "\r"
  else if decide (c = byte 9) then lit "\t"
  else if (code c <? 32)%N || bool_decide (c ∈ [byte 60; byte 62; byte 38])
  then lit "\u00" ++ [hex_digit (code c / 16); hex_digit (code c mod 16)]
  else [c].

(** encodeState.string, one chunk: invalid bytes are written \ufffd; U+2028 and U+2029 are
    escaped; other multi-byte sequences are copied. *)
Definition esc_chunk (u : chunk) : gostr :=
  match u with
  | Bad _ => lit "\ufffd"
  | Good [c] => esc_ascii c
  | Good q => if decide (q = [byte 226; byte 128; byte 168]) then lit "\u2028"
              else if decide (q = [byte 226; byte 128; byte 169]) then lit "\u2029"
              else q
  end.

(** encodeState.string: the quoted form. *)
Definition quote (s : gostr) : gostr :=
  """"%char :: mjoin (map esc_chunk (chunks s)) ++ [""""%char].

(** json.Indent with prefix "" and indent "\t" (serial.go:27): newline at a depth. *)
Definition nl_at (lvl : nat) : gostr := byte 10 :: repeat (byte 9) lvl.

Fixpoint sep_by (sep : gostr) (l : list gostr) : gostr :=
  match l with
  | [] => []
  | [x] => x
  | x :: r => x ++ sep ++ sep_by sep r
  end.

(** The output of Marshal as re-formatted by Indent (compact form, then white space put in:
    the two passes are composed here).  Empty arrays and objects get no white space. *)
Fixpoint print (lvl : nat) (j : json) : gostr :=
  match j with
  | JNull => lit "null"
  | JBool b => if b then lit "true" else lit "false"
  | JNum t => t
  | JStr s => quote s
  | JArr [] => lit "[]"
  | JArr l => lit "[" ++ nl_at (S lvl) ++
              sep_by (lit "," ++ nl_at (S lvl)) (map (print (S lvl)) l) ++ nl_at lvl ++ lit "]"
  | JObj [] => lit "{}"
  | JObj l => lit "{" ++ nl_at (S lvl) ++
              sep_by (lit "," ++ nl_at (S lvl))
                     (map (fun kv => quote kv.1 ++ lit ": " ++ print (S lvl) kv.2) l) ++
              nl_at lvl ++ lit "}"
  end.

(** [serial.WriteJSON] (serial.go:24-33) for a value whose Marshal output is [j]:
    Encoder.Encode appends a newline; Indent fails beyond the nesting limit.
    Simplification: the writer itself does not fail. *)
Definition write_doc (j : json) : option gostr :=
  if jdepth j <=? max_depth then Some (print 0 j ++ [byte 10]) else None.

(** ** The decoder *)

(** encoding/json's isSpace (scanner.go). *)
Definition is_ws (c : ascii) : bool :=
  bool_decide (c = byte 32 ∨ c = byte 9 ∨ c = byte 13 ∨ c = byte 10).
Fixpoint skip_ws (s : gostr) : gostr :=
  match s with c :: r => if is_ws c then skip_ws r else s | [] => [] end.

Definition hex_val (c : ascii) : option N :=
  if is_digit c then Some (code c - 48)%N
  else if in_range 97 102 c then Some (code c - 87)%N
  else if in_range 65 70 c then Some (code c - 55)%N
  else None.

(** getu4: four hexadecimal digits. *)
Definition hex4 (s : gostr) : option (N * gostr) :=
  match s with
  | a :: b :: c :: d :: r =>
    match hex_val a, hex_val b, hex_val c, hex_val d with
    | Some a, Some b, Some c, Some d => Some ((((a * 16 + b) * 16 + c) * 16 + d)%N, r)
    | _, _, _, _ => None
    end
  | _ => None
  end.

(** unquoteBytes after \u: a surrogate joins with a directly following escaped second half
    (utf16.DecodeRune); an unpaired surrogate becomes U+FFFD. *)
Definition unescape_u (s : gostr) : option (gostr * gostr) :=
  match hex4 s with
  | None => None
  | Some (r1, rest) =>
    if (55296 <=? r1)%N && (r1 <? 57344)%N then
      match strip_prefix (lit "\u") rest with
      | Some rest1 =>
        match hex4 rest1 with
        | Some (r2, rest2) =>
          if (r1 <? 56320)%N && (56320 <=? r2)%N && (r2 <? 57344)%N
          then Some (encode_rune (65536 + (r1 - 55296) * 1024 + (r2 - 56320))%N, rest2)
          else Some (replacement, rest)
        | None => Some (replacement, rest)
        end
      | None => Some (replacement, rest)
      end
    else Some (encode_rune r1, rest)
  end.

(** One step inside a string literal (stateInString*, unquoteBytes): the decoded bytes and
    the rest; control characters and unknown escapes are errors. *)
Definition str_step (s : gostr) : option (gostr * gostr) :=
  match s with
  | [] => None
  | c :: r =>
    if (code c <? 32)%N then None
    else if decide (c = byte 92) then
      match r with
      | [] => None
      | e :: r' =>
        if decide (e = "b"%char) then Some ([byte 8], r')
        else if decide (e = "f"%char) then Some ([byte 12], r')
        else if decide (e = "n"%char) then Some ([byte 10], r')
        else if decide (e = "r"%char) then Some ([byte 13], r')
        else if decide (e = "t"%char) then Some ([byte 9], r')
        else if decide (e = byte 92) then Some ([e], r')
        else if decide (e = "/"%char) then Some ([e], r')
        else if decide (e = """"%char) then Some ([e], r')
        else if decide (e = "u"%char) then unescape_u r'
        else None
      end
    else match rune_at s with
         | Some (q, rest) => Some (q, rest)
         | None => Some (replacement, r)
         end
  end.

(** The body of a string literal, after the opening quote. *)
Fixpoint parse_str (fuel : nat) (s : gostr) : option (gostr * gostr) :=
  match fuel with
  | O => None
  | S fuel =>
    match s with
    | [] => None
    | c :: r =>
      if decide (c = """"%char) then Some ([], r)
      else match str_step s with
           | None => None
           | Some (out, rest) =>
             match parse_str fuel rest with
             | Some (t, rest') => Some (out ++ t, rest')
             | None => None
             end
           end
    end
  end.

(** A run of digits. *)
Fixpoint digits (s : gostr) : gostr * gostr :=
  match s with
  | c :: r => if is_digit c then let '(d, rest) := digits r in (c :: d, rest) else ([], s)
  | [] => ([], [])
  end.

(** The number grammar of the scanner (stateNeg .. stateE0). *)
Definition parse_num (s : gostr) : option (gostr * gostr) :=
  let '(sign, s1) := match s with
                     | c :: r => if decide (c = "-"%char) then ([c], r) else ([], s)
                     | [] => ([], s)
                     end in
  let int_part :=
    match s1 with
    | c :: r => if decide (c = "0"%char) then Some ([c], r)
                else if is_digit c then Some (digits s1) else None
    | [] => None
    end in
  match int_part with
  | None => None
  | Some (ip, s2) =>
    let frac :=
      match s2 with
      | c :: r => if decide (c = "."%char) then
                    match digits r with ([], _) => None | (d, r') => Some (c :: d, r') end
                  else Some ([], s2)
      | [] => Some ([], s2)
      end in
    match frac with
    | None => None
    | Some (fp, s3) =>
      let exp :=
        match s3 with
        | c :: r =>
          if decide (c = "e"%char ∨ c = "E"%char) then
            let '(sg, r1) := match r with
                             | x :: r' => if decide (x = "+"%char ∨ x = "-"%char)
                                          then ([x], r') else ([], r)
                             | [] => ([], r)
                             end in
            match digits r1 with ([], _) => None | (d, r') => Some (c :: sg ++ d, r') end
          else Some ([], s3)
        | [] => Some ([], s3)
        end in
      match exp with
      | None => None
      | Some (ep, s4) => Some (sign ++ ip ++ fp ++ ep, s4)
      end
    end
  end.

(** The elements of a non-empty array, up to and including the closing bracket. *)
Fixpoint parse_elems (pv : gostr -> option (json * gostr)) (fuel : nat) (s : gostr)
  : option (list json * gostr) :=
  match fuel with
  | O => None
  | S fuel =>
    match pv s with
    | None => None
    | Some (v, r) =>
      match skip_ws r with
      | c :: r' =>
        if decide (c = ","%char) then
          match parse_elems pv fuel r' with
          | Some (l, rest) => Some (v :: l, rest)
          | None => None
          end
        else if decide (c = "]"%char) then Some ([v], r')
        else None
      | [] => None
      end
    end
  end.

(** The members of a non-empty object, up to and including the closing brace. *)
Fixpoint parse_members (pv : gostr -> option (json * gostr)) (fuel : nat) (s : gostr)
  : option (list (gostr * json) * gostr) :=
  match fuel with
  | O => None
  | S fuel =>
    match skip_ws s with
    | c :: r =>
      if decide (c = """"%char) then
        match parse_str (length r) r with
        | None => None
        | Some (k, r1) =>
          match skip_ws r1 with
          | d :: r2 =>
            if decide (d = ":"%char) then
              match pv r2 with
              | None => None
              | Some (v, r3) =>
                match skip_ws r3 with
                | e :: r4 =>
                  if decide (e = ","%char) then
                    match parse_members pv fuel r4 with
                    | Some (l, rest) => Some ((k, v) :: l, rest)
                    | None => None
                    end
                  else if decide (e = "}"%char) then Some ([(k, v)], r4)
                  else None
                | [] => None
                end
              end
            else None
          | [] => None
          end
        end
      else None
    | [] => None
    end
  end.

(** One value (stateBeginValue); [depth] is how many more levels of nesting are allowed. *)
Fixpoint parse_value (depth : nat) (s : gostr) : option (json * gostr) :=
  match skip_ws s with
  | [] => None
  | c :: r =>
    if decide (c = "{"%char) then
      match depth with
      | O => None                                        (* exceeded max depth *)
      | S d =>
        match skip_ws r with
        | c' :: r' => if decide (c' = "}"%char) then Some (JObj [], r')
                      else match parse_members (parse_value d) (length r) r with
                           | Some (l, rest) => Some (JObj l, rest)
                           | None => None
                           end
        | [] => None
        end
      end
    else if decide (c = "["%char) then
      match depth with
      | O => None
      | S d =>
        match skip_ws r with
        | c' :: r' => if decide (c' = "]"%char) then Some (JArr [], r')
                      else match parse_elems (parse_value d) (length r) r with
                           | Some (l, rest) => Some (JArr l, rest)
                           | None => None
                           end
        | [] => None
        end
      end
    else if decide (c = """"%char) then
      match parse_str (length r) r with
      | Some (t, rest) => Some (JStr t, rest)
      | None => None
      end
    else match strip_prefix (lit "null") (c :: r) with
    | Some rest => Some (JNull, rest)
    | None =>
      match strip_prefix (lit "true") (c :: r) with
      | Some rest => Some (JBool true, rest)
      | None =>
        match strip_prefix (lit "false") (c :: r) with
        | Some rest => Some (JBool false, rest)
        | None =>
          match parse_num (c :: r) with
          | Some (t, rest) => Some (JNum t, rest)
          | None => None
          end
        end
      end
    end
  end.

(** The syntax half of [serial.ReadJSON] (serial.go:11-19): Decoder.Decode reads one value
    and ignores what follows it.  The reader is modelled by the whole input. *)
Definition read_doc (s : gostr) : option json :=
  match parse_value max_depth s with Some (j, _) => Some j | None => None end.

(** ** Go types from JSON values *)

(** Why decoding fails: bad syntax, a JSON value of the wrong kind for the Go type, or an
    UnmarshalText/UnmarshalJSON method that fails.  [JUnmodelled] is not an error of the
    code: the plain decoders ([dec_...]) give it for documents with a repeated struct key, of
    which they do not say what they mean; the decoders that are used ([m_...]) do. *)
Inductive jerr := JSyntax | JType | JText | JUnmodelled.
Definition jres := res jerr.

(** Key folding of encoding/json (fold.go): ASCII letters, U+017F and U+212A. *)
Fixpoint fold_key (s : gostr) : gostr :=
  match s with
  | [] => []
  | c :: r =>
    match r with
    | [] => [lower_c c]
    | d :: r' =>
      if Ascii.eqb c (byte 197) && Ascii.eqb d (byte 191) then "s"%char :: fold_key r'
      else match r' with
           | [] => lower_c c :: fold_key r
           | e :: r'' =>
             if Ascii.eqb c (byte 226) && Ascii.eqb d (byte 132) && Ascii.eqb e (byte 170)
             then "k"%char :: fold_key r''
             else lower_c c :: fold_key r
           end
    end
  end.

(** The value given to a struct field; other keys are ignored. *)
Definition get_field (f : gostr) (kvs : list (gostr * json)) : jres (option json) :=
  match base.filter (fun kv => fold_key kv.1 = fold_key f) kvs with
  | [] => Ok None
  | [kv] => Ok (Some kv.2)
  | _ => Err JUnmodelled
  end.
Definition dec_field {A} (f : gostr) (dec : json -> jres A) (zero : A)
           (kvs : list (gostr * json)) : jres A :=
  res_bind (get_field f kvs) (fun o => match o with None => Ok zero | Some v => dec v end).

(** Decoding a string: null leaves the (zero) destination alone. *)
Definition dec_string (j : json) : jres gostr :=
  match j with JStr s => Ok s | JNull => Ok [] | _ => Err JType end.

(** Decoding through UnmarshalText; null leaves the (zero) destination alone. *)
Definition dec_text {A} (f : gostr -> jres A) (zero : A) (j : json) : jres A :=
  match j with JStr s => f s | JNull => Ok zero | _ => Err JType end.

Fixpoint res_map {E A B} (f : A -> res E B) (l : list A) : res E (list B) :=
  match l with
  | [] => Ok []
  | x :: r => res_bind (f x) (fun y => res_bind (res_map f r) (fun ys => Ok (y :: ys)))
  end.

(** Decoding a slice into a nil slice; null gives nil. *)
Definition dec_list {A} (dec : json -> jres A) (j : json) : jres (list A) :=
  match j with JArr l => res_map dec l | JNull => Ok [] | _ => Err JType end.

(** Decoding a pointer: null gives nil. *)
Definition dec_ptr {A} (dec : json -> jres A) (j : json) : jres (option A) :=
  match j with JNull => Ok None | _ => res_bind (dec j) (fun a => Ok (Some a)) end.

(** Decoding a map with string keys into a nil map: of repeated keys the last counts. *)
Fixpoint dec_members {A} (dec : json -> jres A) (kvs : list (gostr * json))
         (m : gmap gostr A) : jres (gmap gostr A) :=
  match kvs with
  | [] => Ok m
  | (k, v) :: r => res_bind (dec v) (fun a => dec_members dec r (<[k := a]> m))
  end.
Definition dec_map {A} (dec : json -> jres A) (j : json) : jres (gmap gostr A) :=
  match j with JObj kvs => dec_members dec kvs ∅ | JNull => Ok ∅ | _ => Err JType end.

Definition of_option {A} (o : option A) : jres A :=
  match o with Some a => Ok a | None => Err JText end.
Definition of_event_res {A} (r : res event_err A) : jres A :=
  match r with Ok a => Ok a | Err _ => Err JText | Panic => Panic end.

(** ** Test suites (testlang/node.go:4-11, testlang/testlang.go) *)

(** A struct field with omitempty: left out when empty. *)
Definition omit (b : bool) (k : gostr) (v : json) : list (gostr * json) :=
  if b then [] else [(k, v)].

(** Marshalling a Node (node.go:5-10).  Nil and empty slices are not distinguished. *)
Fixpoint enc_node (n : node) : json :=
  match n with
  | Node i ts o e next =>
    JObj (omit (bool_decide (i = [])) "id" (JStr i) ++
          omit (bool_decide (ts = [])) "tests" (JArr (map JStr ts)) ++
          omit (bool_decide (o = OUnset)) "outcome" (JStr (outcome_string o)) ++
          match e with None => [] | Some e => [(lit "event", JStr (event_marshal e))] end ++
          omit (bool_decide (next = [])) "next" (JArr (map enc_node next)))
  end.

(** A (possibly nil) *Node. *)
Definition enc_node_ptr (n : option node) : json :=
  match n with None => JNull | Some n => enc_node n end.

(** Marshalling a map[string]T: keys in byte order. *)
Definition enc_map {A} (enc : A -> json) (m : gmap gostr A) : json :=
  JObj (map (fun kv => (kv.1, enc kv.2)) (range_map m)).

(** [Suite.Write] (testlang.go:26-32).  A nil map would be written [null]; nil and empty
    maps are not distinguished. *)
Definition write_suite (s : suite) : option gostr := write_doc (enc_map enc_node_ptr s).

(** Unmarshalling a Node; [fuel] bounds the nesting (it is always enough, see
    [read_suite]). *)
Definition zero_node : node := Node [] [] OUnset None [].
Fixpoint dec_node (fuel : nat) (j : json) : jres node :=
  match fuel with
  | O => Err JType
  | S fuel =>
    match j with
    | JNull => Ok zero_node
    | JObj kvs =>
      res_bind (dec_field "id" dec_string [] kvs) (fun i =>
      res_bind (dec_field "tests" (dec_list dec_string) [] kvs) (fun ts =>
      res_bind (dec_field "outcome" (dec_text (fun s => of_option (parse_outcome s)) OUnset)
                          OUnset kvs) (fun o =>
      res_bind (dec_field "event"
                  (dec_ptr (dec_text (fun s => of_event_res (event_unmarshal zero_event s))
                                     zero_event)) None kvs) (fun e =>
      res_bind (dec_field "next" (dec_list (dec_node fuel)) [] kvs) (fun next =>
      Ok (Node i ts o e next))))))
    | _ => Err JType
    end
  end.

(** Documents in which no struct key is repeated. *)
Definition dec_suite (j : json) : jres suite :=
  dec_map (dec_ptr (dec_node (S (jdepth j)))) j.

(** ** Decoding into what is there already

    A struct key that is repeated (in one object, up to folding) is decoded again into the same
    field (decode.go, Go 1.20: [object], [array], [literalStore], [indirect]).  A string, or what has
    an UnmarshalText method, is overwritten, and left alone by null; a pointer that is not nil is
    followed, and set to nil by null; a map keeps its entries, of which those with a repeated key are
    made anew.  A slice is decoded into element by element, from the first, and cut off after the
    last; what is cut off stays in the memory behind it, and elements for which the slice has to be
    made longer again are decoded into that.  An empty array makes a new slice, null a nil one.
    Every key goes to one field, so the fields can be taken one after the other. *)

(** A slice: the cells of its array up to the last that was written to, and its length. *)
Definition mslice (A : Type) : Type := (list A * nat)%type.
Definition live {A} (s : mslice A) : list A := take s.2 s.1.
Definition m_nil {A} : mslice A := ([], 0).
(** What a key that occurs any number of times makes of a field. *)
Fixpoint m_fold {A} (dec : A -> json -> jres A) (l : list (gostr * json)) (a : A) : jres A :=
  match l with [] => Ok a | kv :: r => res_bind (dec a kv.2) (m_fold dec r) end.
Definition m_field {A} (f : gostr) (dec : A -> json -> jres A) (old : A) (kvs : list (gostr * json)) : jres A :=
  m_fold dec (base.filter (fun kv => fold_key kv.1 = fold_key f) kvs) old.
Definition m_string (old : gostr) (j : json) : jres gostr :=
  match j with JStr s => Ok s | JNull => Ok old | _ => Err JType end.
Definition m_text {A} (f : A -> gostr -> jres A) (old : A) (j : json) : jres A :=
  match j with JStr s => f old s | JNull => Ok old | _ => Err JType end.
Definition m_ptr {A} (zero : A) (dec : A -> json -> jres A) (old : option A) (j : json) : jres (option A) :=
  match j with JNull => Ok None | _ => res_bind (dec (default zero old) j) (fun a => Ok (Some a)) end.
Fixpoint m_cells {A} (zero : A) (dec : A -> json -> jres A) (mem : list A) (l : list json) : jres (list A) :=
  match l with
  | [] => Ok mem
  | j :: r => res_bind (dec (default zero (head mem)) j) (fun x =>
              res_bind (m_cells zero dec (tail mem) r) (fun xs => Ok (x :: xs)))
  end.
Definition m_slice {A} (zero : A) (dec : A -> json -> jres A) (old : mslice A) (j : json) : jres (mslice A) :=
  match j with
  | JNull => Ok m_nil
  | JArr [] => Ok m_nil
  | JArr l => res_bind (m_cells zero dec old.1 l) (fun mem => Ok (mem, length l))
  | _ => Err JType
  end.
(** Elements of maps are decoded into the zero value. *)
Definition m_map {A} (dec : json -> jres A) (old : gmap gostr A) (j : json) : jres (gmap gostr A) :=
  match j with JObj kvs => dec_members dec kvs old | JNull => Ok ∅ | _ => Err JType end.
Definition m_struct {A} (f : A -> list (gostr * json) -> jres A) (old : A) (j : json) : jres A :=
  match j with JNull => Ok old | JObj kvs => f old kvs | _ => Err JType end.

(** A Node (node.go:5-10) with its slices. *)
Inductive mnode := MNode (id : gostr) (tests : mslice gostr) (o : outcome) (e : option event)
                         (next : list mnode) (len : nat).
Definition zero_mnode : mnode := MNode [] m_nil OUnset None [] 0.
Fixpoint node_of (m : mnode) : node :=
  match m with MNode i ts o e next n => Node i (live ts) o e (take n (map node_of next)) end.
Fixpoint m_node (fuel : nat) (old : mnode) (j : json) : jres mnode :=
  match fuel with
  | O => Err JType
  | S fuel =>
    match old, j with
    | _, JNull => Ok old
    | MNode i ts o e next n, JObj kvs =>
      res_bind (m_field "id" m_string i kvs) (fun i =>
      res_bind (m_field "tests" (m_slice [] m_string) ts kvs) (fun ts =>
      res_bind (m_field "outcome" (m_text (fun _ s => of_option (parse_outcome s))) o kvs) (fun o =>
      res_bind (m_field "event"
                  (m_ptr zero_event (m_text (fun e s => of_event_res (event_unmarshal e s)))) e kvs) (fun e =>
      res_bind (m_field "next" (m_slice zero_mnode (m_node fuel)) (next, n) kvs) (fun next =>
      Ok (MNode i ts o e next.1 next.2))))))
    | _, _ => Err JType
    end
  end.
Definition m_suite (j : json) : jres suite :=
  dec_map (fun v => res_bind (m_ptr zero_mnode (m_node (S (jdepth j))) None v) (fun o => Ok (node_of <$> o))) j.

(** [ReadSuite] (testlang.go:15-23). *)
Definition read_suite (text : gostr) : jres suite :=
  match read_doc text with
  | None => Err JSyntax
  | Some j => m_suite j
  end.

(** ** State machine suites (stm/suite.go, stm.go, state.go, transition, verdict, set.go) *)

(** Why writing fails: a value that is absent (value.go:57-59), a type without a name
    (rstype.go:49-55), or too much nesting. *)
Inductive werr := WAbsent | WType | WDepth.
Definition wres := res werr.

(** [Set.MarshalJSON] (structure/set.go:43-50): the values in the order in which the map is
    iterated, here given by the list. *)
Definition enc_set (order : list gostr) : json := JArr (map JStr order).

(** [Verdict.MarshalJSON] (verdict.go:106-119). *)
Definition enc_verdict (v : verdict) : json := enc_map (fun o => JStr (outcome_string o)) v.

(** Marshalling a Transition (transition/transition.go:13-16): omitempty does not apply to
    the struct Value. *)
Definition enc_transition (t : transition) : wres json :=
  match value_marshal (tr_value t) with
  | Ok text => Ok (JObj ([(lit "value", JStr text)] ++
                         omit (bool_decide (tr_next t = [])) "next" (JStr (tr_next t))))
  | Err _ => Err WAbsent
  | Panic => Panic
  end.

(** Marshalling a transition Set (transition/set.go:12-25). *)
Definition enc_tset (ts : tset) : wres json :=
  res_bind (res_map enc_transition (ts_trans ts)) (fun trs =>
  Ok (JObj ([(lit "channel", JStr (channel_marshal (ts_chan ts)))] ++
            omit (bool_decide (trs = [])) "transitions" (JArr trs)))).

(** Marshalling a State (state.go:13-25); the Verdict is never nil. *)
Definition enc_state (s : state) : wres json :=
  res_bind (res_map enc_tset (st_tsets s)) (fun tss =>
  Ok (JObj ([(lit "id", JStr (st_id s))] ++
            omit (bool_decide (tss = [])) "transitionSets" (JArr tss) ++
            [(lit "verdicts", enc_verdict (st_verdict s))]))).

(** Marshalling a map whose elements may fail to marshal: keys in byte order. *)
Definition enc_map_res {A} (enc : gostr -> A -> wres json) (m : gmap gostr A) : wres json :=
  res_bind (res_map (fun kv => res_bind (enc kv.1 kv.2) (fun j => Ok (kv.1, j))) (range_map m))
           (fun l => Ok (JObj l)).

(** Marshalling a TypeMap (stm.go:35; rstype.go:49-55). *)
Definition enc_types (t : type_map) : wres json :=
  enc_map_res (fun _ ty => match ty_string ty with Some s => Ok (JStr s) | None => Err WType end) t.

(** Marshalling an Stm (stm.go:15-33); [order] is the iteration order of its test set.
    Simplification: nil [States] and [Types] would be written [null], not [[]] and [{}];
    they read back the same. *)
Definition enc_stm (order : list gostr) (m : stm) : wres json :=
  res_bind (res_map enc_state (m_states m)) (fun sts =>
  res_bind (enc_types (m_types m)) (fun tys =>
  Ok (JObj [(lit "states", JArr sts); (lit "types", tys); (lit "tests", enc_set order)]))).

(** Marshalling a stm.Suite (suite.go:11-14); [orders] gives the iteration order of each
    machine's test set, by test name. *)
Definition enc_stm_suite (orders : gostr -> list gostr) (s : stm_suite) : wres json :=
  res_bind (enc_types (su_types s)) (fun tys =>
  res_bind (enc_map_res (fun k m => enc_stm (orders k) m) (su_tests s)) (fun ts =>
  Ok (JObj (omit (bool_decide (su_types s = ∅)) "types" tys ++
            omit (bool_decide (su_tests s = ∅)) "tests" ts)))).

(** [Suite.Write] (suite.go:28-34). *)
Definition write_stm_suite (orders : gostr -> list gostr) (s : stm_suite) : wres gostr :=
  res_bind (enc_stm_suite orders s) (fun j =>
  match write_doc j with Some t => Ok t | None => Err WDepth end).

(** What reading gives: the same structures, but every pointer may be nil. *)
Record rstate := RState { rs_id : gostr; rs_tsets : list tset; rs_verdict : option verdict }.
Record rstm := RStm {
  rm_states : list (option rstate);
  rm_types : gmap gostr (option rstype);
  rm_tests : gset gostr;
}.
Record rsuite := RSuite {
  ru_types : gmap gostr (option rstype);
  ru_tests : gmap gostr (option rstm);
}.

(** A struct: null leaves the zero value. *)
Definition dec_struct {A} (zero : A) (f : list (gostr * json) -> jres A) (j : json) : jres A :=
  match j with JNull => Ok zero | JObj kvs => f kvs | _ => Err JType end.

(** [Set.UnmarshalJSON] (structure/set.go:53-65). *)
Definition dec_set (j : json) : jres (gset gostr) :=
  res_bind (dec_list dec_string j) (fun l => Ok (list_to_set l)).

(** [Verdict.UnmarshalJSON] (verdict.go:122-142): first a map of strings, then each outcome. *)
Definition dec_verdict (j : json) : jres verdict :=
  res_bind (dec_map dec_string j) (fun m =>
  if forallb (fun kv => bool_decide (is_Some (parse_outcome kv.2))) (map_to_list m)
  then Ok (omap parse_outcome m) else Err JText).

Definition dec_jvalue : json -> jres value := dec_text (fun s => Ok (value_unmarshal s)) None.
Definition dec_transition : json -> jres transition :=
  dec_struct (Transition None []) (fun kvs =>
    res_bind (dec_field "value" dec_jvalue None kvs) (fun v =>
    res_bind (dec_field "next" dec_string [] kvs) (fun n => Ok (Transition v n)))).
Definition zero_channel : channel := Channel [] KIn.
Definition dec_tset : json -> jres tset :=
  dec_struct (TSet zero_channel []) (fun kvs =>
    res_bind (dec_field "channel"
                (dec_text (fun s => of_event_res (channel_unmarshal s)) zero_channel)
                zero_channel kvs) (fun c =>
    res_bind (dec_field "transitions" (dec_list dec_transition) [] kvs) (fun t =>
    Ok (TSet c t)))).
Definition dec_state : json -> jres rstate :=
  dec_struct (RState [] [] None) (fun kvs =>
    res_bind (dec_field "id" dec_string [] kvs) (fun i =>
    res_bind (dec_field "transitionSets" (dec_list dec_tset) [] kvs) (fun t =>
    res_bind (dec_field "verdicts" (dec_ptr dec_verdict) None kvs) (fun v =>
    Ok (RState i t v))))).
Definition dec_types : json -> jres (gmap gostr (option rstype)) :=
  dec_map (dec_ptr (dec_text (fun s => of_option (parse_type s)) ty_empty)).
Definition dec_stm : json -> jres rstm :=
  dec_struct (RStm [] ∅ ∅) (fun kvs =>
    res_bind (dec_field "states" (dec_list (dec_ptr dec_state)) [] kvs) (fun s =>
    res_bind (dec_field "types" dec_types ∅ kvs) (fun ty =>
    res_bind (dec_field "tests" dec_set ∅ kvs) (fun te =>
    Ok (RStm s ty te))))).
Definition dec_stm_suite : json -> jres rsuite :=
  dec_struct (RSuite ∅ ∅) (fun kvs =>
    res_bind (dec_field "types" dec_types ∅ kvs) (fun ty =>
    res_bind (dec_field "tests" (dec_map (dec_ptr dec_stm)) ∅ kvs) (fun te =>
    Ok (RSuite ty te)))).

(** The same into what is there already. *)
Definition mtset : Type := channel * mslice transition.
Record mstate := MState { ms_id : gostr; ms_tsets : mslice mtset; ms_verdict : option verdict }.
Record mstm := MStm {
  mm_states : mslice (option mstate);
  mm_types : gmap gostr (option rstype);
  mm_tests : gset gostr;
}.
Definition tset_of (m : mtset) : tset := TSet m.1 (live m.2).
Definition rstate_of (m : mstate) : rstate := RState (ms_id m) (map tset_of (live (ms_tsets m))) (ms_verdict m).
Definition rstm_of (m : mstm) : rstm := RStm (map (fmap rstate_of) (live (mm_states m))) (mm_types m) (mm_tests m).
Definition m_transition : transition -> json -> jres transition :=
  m_struct (fun old kvs =>
    res_bind (m_field "value" (m_text (fun _ s => Ok (value_unmarshal s))) (tr_value old) kvs) (fun v =>
    res_bind (m_field "next" m_string (tr_next old) kvs) (fun n => Ok (Transition v n)))).
Definition m_tset : mtset -> json -> jres mtset :=
  m_struct (fun old kvs =>
    res_bind (m_field "channel" (m_text (fun _ s => of_event_res (channel_unmarshal s))) old.1 kvs) (fun c =>
    res_bind (m_field "transitions" (m_slice (Transition None []) m_transition) old.2 kvs) (fun t =>
    Ok (c, t)))).
(** [Set.UnmarshalJSON] and [Verdict.UnmarshalJSON] start from nothing. *)
Definition m_state : mstate -> json -> jres mstate :=
  m_struct (fun old kvs =>
    res_bind (m_field "id" m_string (ms_id old) kvs) (fun i =>
    res_bind (m_field "transitionSets" (m_slice (zero_channel, m_nil) m_tset) (ms_tsets old) kvs) (fun t =>
    res_bind (m_field "verdicts" (m_ptr ∅ (fun _ => dec_verdict)) (ms_verdict old) kvs) (fun v =>
    Ok (MState i t v))))).
Definition m_type_map : gmap gostr (option rstype) -> json -> jres (gmap gostr (option rstype)) :=
  m_map (dec_ptr (dec_text (fun s => of_option (parse_type s)) ty_empty)).
Definition zero_mstate : mstate := MState [] m_nil None.
Definition m_stm : mstm -> json -> jres mstm :=
  m_struct (fun old kvs =>
    res_bind (m_field "states" (m_slice None (m_ptr zero_mstate m_state)) (mm_states old) kvs) (fun s =>
    res_bind (m_field "types" m_type_map (mm_types old) kvs) (fun ty =>
    res_bind (m_field "tests" (fun _ => dec_set) (mm_tests old) kvs) (fun te =>
    Ok (MStm s ty te))))).
Definition zero_mstm : mstm := MStm m_nil ∅ ∅.
Definition m_stm_suite : json -> jres rsuite :=
  m_struct (fun old kvs =>
    res_bind (m_field "types" m_type_map (ru_types old) kvs) (fun ty =>
    res_bind (m_field "tests" (m_map (fun v => res_bind (m_ptr zero_mstm m_stm None v) (fun o => Ok (rstm_of <$> o))))
                      (ru_tests old) kvs) (fun te =>
    Ok (RSuite ty te)))) (RSuite ∅ ∅).

(** [stm.ReadSuite] (suite.go:17-25). *)
Definition read_stm_suite (text : gostr) : jres rsuite :=
  match read_doc text with
  | None => Err JSyntax
  | Some j => m_stm_suite j
  end.

(** Forget that no pointer is nil. *)
Definition raw_state (s : state) : rstate :=
  RState (st_id s) (st_tsets s) (Some (st_verdict s)).
Definition raw_stm (m : stm) : rstm :=
  RStm (map (fun s => Some (raw_state s)) (m_states m)) (Some <$> m_types m) (m_tests m).
Definition raw_suite (s : stm_suite) : rsuite :=
  RSuite (Some <$> su_types s) ((fun m => Some (raw_stm m)) <$> su_tests s).
