(** * Reading the configuration: encoding/xml (Go 1.20) as used by config/config.go:29

    [xml.NewDecoder(file).Decode(&config)]: the tokenizer of encoding/xml/xml.go in its default
    (strict) mode, and the filling in of structs of encoding/xml/read.go for the types of
    internal/gen/config.  Only success and the result are modelled, not the error; running out of
    input in the middle of something is an error.  Line counting is left out. *)
From Verif Require Export Json Gen.

Section Names.
(** unicode.Is(first, c) and unicode.Is(second, c) (xml.go, the tables at the end) for code points
    above ASCII: the tables are not modelled, theorems hold for every table. *)
Context (first second : N -> bool).

(** ** Characters *)

(** The code point of a valid UTF-8 sequence. *)
Definition rune_code (q : gostr) : N :=
  match q with
  | [a] => code a
  | [a; b] => (code a - 192) * 64 + (code b - 128)
  | [a; b; c] => ((code a - 224) * 64 + (code b - 128)) * 64 + (code c - 128)
  | [a; b; c; d] => (((code a - 240) * 64 + (code b - 128)) * 64 + (code c - 128)) * 64 + (code d - 128)
  | _ => 0
  end%N.
(** isInCharacterRange (xml.go). *)
Definition xml_char (r : N) : bool :=
  ((r =? 9) || (r =? 10) || (r =? 13) || ((32 <=? r) && (r <=? 55295)) || ((57344 <=? r) && (r <=? 65533)) ||
   ((65536 <=? r) && (r <=? 1114111)))%N.
(** The loop at the end of Decoder.text: every character is valid UTF-8 and allowed. *)
Definition xml_legal (s : gostr) : bool :=
  forallb (fun u => match u with Good q => xml_char (rune_code q) | Bad _ => false end) (chunks s).

(** ** Names *)

(** isNameByte, and what readName also goes over: bytes above ASCII. *)
Definition name_byte (c : ascii) : bool :=
  ((65 <=? code c) && (code c <=? 90) || (97 <=? code c) && (code c <=? 122) || (48 <=? code c) && (code c <=? 57) ||
   (code c =? 95) || (code c =? 58) || (code c =? 46) || (code c =? 45) || (128 <=? code c))%N.
Fixpoint name_run (s : gostr) : gostr * gostr :=
  match s with
  | c :: r => if name_byte c then let '(n, rest) := name_run r in (c :: n, rest) else ([], s)
  | [] => ([], [])
  end.
(** The tables, on ASCII: names start with a letter, a colon or an underscore; then also digits,
    dots and dashes. *)
Definition first_rune (r : N) : bool :=
  if (r <? 128)%N then ((65 <=? r) && (r <=? 90) || (97 <=? r) && (r <=? 122) || (r =? 95) || (r =? 58))%N else first r.
Definition second_rune (r : N) : bool :=
  if (r <? 128)%N then ((48 <=? r) && (r <=? 57) || (r =? 46) || (r =? 45))%N else second r.
(** isName. *)
Definition is_name (s : gostr) : bool :=
  match chunks s with
  | Good q :: us => first_rune (rune_code q) &&
      forallb (fun u => match u with Good q => first_rune (rune_code q) || second_rune (rune_code q) | Bad _ => false end) us
  | _ => false
  end.
(** Decoder.name with readName: the input has to go on after the name. *)
Definition xname (s : gostr) : option (gostr * gostr) :=
  let '(n, rest) := name_run s in
  match rest with [] => None | _ => if is_name n then Some (n, rest) else None end.
(** Decoder.nsname: prefix and local part. *)
Definition split_name (n : gostr) : option (gostr * gostr) :=
  match cut ":" n with
  | None => Some ([], n)
  | Some (p, l) => match cut ":" l with
                   | Some _ => None
                   | None => if decide (p = [] \/ l = []) then Some ([], n) else Some (p, l)
                   end
  end.
Definition nsname (s : gostr) : option ((gostr * gostr) * gostr) :=
  match xname s with
  | None => None
  | Some (n, rest) => match split_name n with Some pl => Some (pl, rest) | None => None end
  end.

(** ** Text *)

(** strconv.ParseUint(s, base, 64) on the digits of a character reference, up to the question
    whether the result is above unicode.MaxRune (then, or on an error, there is no text). *)
Definition ref_digit (base : N) (c : ascii) : option N :=
  match hex_val c with Some v => if (v <? base)%N then Some v else None | None => None end.
Fixpoint ref_digits (base : N) (s : gostr) : gostr * gostr :=
  match s with
  | c :: r => match ref_digit base c with
              | Some _ => let '(d, rest) := ref_digits base r in (c :: d, rest)
              | None => ([], s)
              end
  | [] => ([], [])
  end.
Definition ref_number (base : N) (d : gostr) : N :=
  fold_left (fun n c => n * base + match ref_digit base c with Some v => v | None => 0 end)%N d 0%N.
(** The entities that need no declaration (xml.go, [entity]). *)
Definition entity (n : gostr) : option gostr :=
  if decide (n = lit "lt") then Some (lit "<")
  else if decide (n = lit "gt") then Some (lit ">")
  else if decide (n = lit "amp") then Some (lit "&")
  else if decide (n = lit "apos") then Some (lit "'")
  else if decide (n = lit "quot") then Some (lit """")
  else None.
(** What follows an ampersand: the text it stands for, and the rest after the semicolon. *)
Definition reference_at (s : gostr) : option (gostr * gostr) :=
  match s with
  | c :: r =>
    if decide (c = "#"%char) then
      let '(base, r1) := match r with
                         | x :: r1 => if decide (x = "x"%char) then (16%N, r1) else (10%N, r)
                         | [] => (10%N, r)
                         end in
      let '(d, rest) := ref_digits base r1 in
      match d, rest with
      | _ :: _, e :: rest' =>
        if decide (e = ";"%char) then
          if (ref_number base d <=? 1114111)%N then Some (encode_rune (ref_number base d), rest') else None
        else None
      | _, _ => None
      end
    else
      let '(n, rest) := name_run s in
      match rest with
      | e :: rest' => if decide (e = ";"%char) then match entity n with Some t => Some (t, rest') | None => None end else None
      | [] => None
      end
  | [] => None
  end.
(** Where text stops: at the given quote, before markup, or at the end of a CDATA section. *)
Inductive text_kind := InQuotes (q : ascii) | InContent | InCData.
(** The loop of Decoder.text; [b0] and [b1] are the last two bytes.  The two brackets before the end
    of a CDATA section are still in the result. *)
Fixpoint text_loop (fuel : nat) (k : text_kind) (b0 b1 : ascii) (s : gostr) : option (gostr * gostr) :=
  match fuel with
  | O => None
  | S fuel =>
    match s with
    | [] => match k with InCData => None | _ => Some ([], []) end
    | b :: r =>
      let go out b0 b1 r := match text_loop fuel k b0 b1 r with Some (t, rest) => Some (out ++ t, rest) | None => None end in
      let plain := if decide (b = byte 13) then go [byte 10] b1 b r
                   else if decide (b1 = byte 13 /\ b = byte 10) then go [] b1 b r
                   else go [b] b1 b r in
      let marked := if decide (b = "&"%char) then
                      match reference_at r with Some (t, r') => go t zero zero r' | None => None end
                    else plain in
      match k with
      | InQuotes q => if decide (b = "<"%char) then None else if decide (b = q) then Some ([], r) else marked
      | InContent => if decide (b0 = "]"%char /\ b1 = "]"%char /\ b = ">"%char) then None
                     else if decide (b = "<"%char) then Some ([], s) else marked
      | InCData => if decide (b0 = "]"%char /\ b1 = "]"%char /\ b = ">"%char) then Some ([], r) else plain
      end
    end
  end.
(** Decoder.text. *)
Definition xml_text (k : text_kind) (s : gostr) : option (gostr * gostr) :=
  match text_loop (S (length s)) k zero zero s with
  | None => None
  | Some (t, rest) =>
    let data := match k with InCData => take (length t - 2) t | _ => t end in
    if xml_legal data then Some (data, rest) else None
  end.

(** ** Tags *)
Record attr := Attr { at_prefix : gostr; at_local : gostr; at_value : gostr }.
(** One attribute: Decoder.rawToken's loop and attrval (values have to be in quotes). *)
Definition xml_attr (s : gostr) : option (attr * gostr) :=
  match nsname s with
  | None => None
  | Some ((p, l), r) =>
    match skip_ws r with
    | e :: r1 =>
      if decide (e = "="%char) then
        match skip_ws r1 with
        | q :: r2 => if decide (q = """"%char \/ q = "'"%char)
                     then match xml_text (InQuotes q) r2 with Some (v, rest) => Some (Attr p l v, rest) | None => None end
                     else None
        | [] => None
        end
      else None
    | [] => None
    end
  end.
(** The rest of a start tag: attributes, and whether the element ends with it. *)
Fixpoint xml_attrs (fuel : nat) (s : gostr) : option (list attr * bool * gostr) :=
  match fuel with
  | O => None
  | S fuel =>
    match skip_ws s with
    | [] => None
    | b :: r =>
      if decide (b = "/"%char) then
        match r with e :: r' => if decide (e = ">"%char) then Some ([], true, r') else None | [] => None end
      else if decide (b = ">"%char) then Some ([], false, r)
      else match xml_attr (b :: r) with
           | None => None
           | Some (a, rest) => match xml_attrs fuel rest with
                               | Some (l, e, rest') => Some (a :: l, e, rest')
                               | None => None
                               end
           end
    end
  end.

(** ** Everything else in angle brackets *)

(** strings.Index: what is before and after the first occurrence. *)
Fixpoint seek (sep s : gostr) : option (gostr * gostr) :=
  match strip_prefix sep s with
  | Some r => Some ([], r)
  | None => match s with
            | [] => None
            | c :: r => match seek sep r with Some (a, b) => Some (c :: a, b) | None => None end
            end
  end.
(** procInst: the value of a parameter in an XML declaration. *)
Definition proc_inst (param s : gostr) : gostr :=
  match seek (param ++ lit "=") s with
  | Some (_, q :: v) => if decide (q = """"%char \/ q = "'"%char) then match seek [q] v with Some (x, _) => x | None => [] end else []
  | _ => []
  end.
Definition decl_ok (data : gostr) : bool :=
  let ver := proc_inst (lit "version") data in
  let enc := proc_inst (lit "encoding") data in
  (bool_decide (ver = []) || bool_decide (ver = lit "1.0")) &&
  (bool_decide (enc = []) || bool_decide (map lower_c enc = lit "utf-8")).
(** Processing instructions, after the question mark: up to the first [?>].  Declarations of another
    version of XML or of another encoding are refused. *)
Definition xml_pi (s : gostr) : option gostr :=
  match xname s with
  | None => None
  | Some (target, r) =>
    match seek (lit "?>") (skip_ws r) with
    | None => None
    | Some (data, rest) => if bool_decide (target = lit "xml") && negb (decl_ok data) then None else Some rest
    end
  end.
(** Comments, after the two dashes: the next two dashes have to end it. *)
Definition xml_comment (s : gostr) : option gostr :=
  match seek (lit "--") s with
  | Some (_, c :: rest) => if decide (c = ">"%char) then Some rest else None
  | _ => None
  end.
(** Directives: up to the matching bracket; quoted brackets and comments do not count. *)
Fixpoint xml_directive (fuel : nat) (depth : nat) (quoted : option ascii) (s : gostr) : option gostr :=
  match fuel with
  | O => None
  | S fuel =>
    match s with
    | [] => None
    | b :: r =>
      match quoted with
      | Some q => xml_directive fuel depth (if decide (b = q) then None else quoted) r
      | None =>
        if decide (b = ">"%char) then
          match depth with O => Some r | S d => xml_directive fuel d None r end
        else if decide (b = """"%char \/ b = "'"%char) then xml_directive fuel depth (Some b) r
        else if decide (b = "<"%char) then
          match strip_prefix (lit "!--") r with
          | Some r' => match seek (lit "-->") r' with Some (_, rest) => xml_directive fuel depth None rest | None => None end
          | None => xml_directive fuel (S depth) None r
          end
        else xml_directive fuel depth None r
      end
    end
  end.

(** ** Tokens *)

(** Comments, processing instructions and directives make no difference later. *)
Inductive token :=
  | TStart (n : gostr * gostr) (l : list attr) (ends : bool)
  | TEnd (n : gostr * gostr)
  | TChars (t : gostr)
  | TMisc.
(** Decoder.rawToken. *)
Definition raw_token (s : gostr) : option (token * gostr) :=
  match s with
  | [] => None
  | b :: r =>
    if decide (b = "<"%char) then
      match r with
      | [] => None
      | c :: r1 =>
        if decide (c = "/"%char) then
          match nsname r1 with
          | None => None
          | Some (n, r2) => match skip_ws r2 with
                            | e :: rest => if decide (e = ">"%char) then Some (TEnd n, rest) else None
                            | [] => None
                            end
          end
        else if decide (c = "?"%char) then
          match xml_pi r1 with Some rest => Some (TMisc, rest) | None => None end
        else if decide (c = "!"%char) then
          match r1 with
          | [] => None
          | d :: r2 =>
            if decide (d = "-"%char) then
              match r2 with
              | e :: r3 => if decide (e = "-"%char) then match xml_comment r3 with Some rest => Some (TMisc, rest) | None => None end else None
              | [] => None
              end
            else if decide (d = "["%char) then
              match strip_prefix (lit "CDATA[") r2 with
              | Some r3 => match xml_text InCData r3 with Some (t, rest) => Some (TChars t, rest) | None => None end
              | None => None
              end
            else match xml_directive (length r2) 0 None r2 with Some rest => Some (TMisc, rest) | None => None end
          end
        else match nsname r with
             | None => None
             | Some (n, r2) => match xml_attrs (length r2) r2 with
                               | Some (l, e, rest) => Some (TStart n l e, rest)
                               | None => None
                               end
             end
      end
    else match xml_text InContent s with Some (t, rest) => Some (TChars t, rest) | None => None end
  end.

(** ** Elements *)

(** Elements are kept with their unprefixed names: structs of the configuration are filled in by
    local names only (no field or XMLName tag has a name space; Decoder.translate does not fail). *)
Inductive xml := Elem (name : gostr) (attrs : list (gostr * gostr)) (kids : list xml_item)
with xml_item := Chars (t : gostr) | Child (e : xml).
Definition plain_attr (a : attr) : gostr * gostr := (at_local a, at_value a).

(** What Decoder.unmarshal takes of the tokens, with Decoder.Skip and the stack of Decoder.Token:
    items up to the end tag that ends them, whose name is checked by popElement against the start
    tag's (prefix and local part as written). *)
Fixpoint xml_items (fuel : nat) (s : gostr) : option (list xml_item * (gostr * gostr) * gostr) :=
  match fuel with
  | O => None
  | S fuel =>
    match raw_token s with
    | None => None
    | Some (TEnd n, rest) => Some ([], n, rest)
    | Some (TMisc, rest) => xml_items fuel rest
    | Some (TChars t, rest) =>
      match xml_items fuel rest with Some (l, n, rest') => Some (Chars t :: l, n, rest') | None => None end
    | Some (TStart n l ends, rest) =>
      let item kids rest :=
        match xml_items fuel rest with
        | Some (its, m, rest') => Some (Child (Elem n.2 (map plain_attr l) kids) :: its, m, rest')
        | None => None
        end in
      if ends : bool then item [] rest
      else match xml_items fuel rest with
           | Some (kids, m, rest') => if decide (m = n) then item kids rest' else None
           | None => None
           end
    end
  end.
(** The first element of a document (Decoder.unmarshal with no start element: it skips to it).  What
    follows it is not read. *)
Fixpoint xml_root (fuel : nat) (s : gostr) : option xml :=
  match fuel with
  | O => None
  | S fuel =>
    match raw_token s with
    | Some (TMisc, rest) | Some (TChars _, rest) => xml_root fuel rest
    | Some (TStart n l ends, rest) =>
      if ends : bool then Some (Elem n.2 (map plain_attr l) [])
      else match xml_items (length rest) rest with
           | Some (kids, m, _) => if decide (m = n) then Some (Elem n.2 (map plain_attr l) kids) else None
           | None => None
           end
    | Some (TEnd _, _) | None => None
    end
  end.

(** ** Filling in structs (read.go) *)

(** The character data of an element itself. *)
Fixpoint chars_of (l : list xml_item) : gostr :=
  match l with
  | [] => []
  | Chars t :: r => t ++ chars_of r
  | Child _ :: r => chars_of r
  end.
Definition elem_text (e : xml) : gostr := match e with Elem _ _ kids => chars_of kids end.

(** Decoder.unmarshal of a struct: first the attributes in order, then the children in order; each
    is given to the field with its name, others are skipped. *)
Fixpoint fold_attrs {A} (f : gostr -> gostr -> A -> option A) (l : list (gostr * gostr)) (x : A) : option A :=
  match l with
  | [] => Some x
  | (n, v) :: r => match f n v x with Some y => fold_attrs f r y | None => None end
  end.
Fixpoint fold_kids {A} (f : gostr -> xml -> A -> option A) (l : list xml_item) (x : A) : option A :=
  match l with
  | [] => Some x
  | Chars _ :: r => fold_kids f r x
  | Child (Elem n a k) :: r => match f n (Elem n a k) x with Some y => fold_kids f r y | None => None end
  end.
Definition fill {A} (fa : gostr -> gostr -> A -> option A) (fk : gostr -> xml -> A -> option A) (e : xml) (x : A) : option A :=
  match e with Elem _ attrs kids => match fold_attrs fa attrs x with Some y => fold_kids fk kids y | None => None end end.

(** copyValue. *)
Definition copy_int (s : gostr) : option Z := if decide (s = []) then Some 0%Z else parse_int (trim_space s).
Definition parse_bool (s : gostr) : option bool :=
  if bool_decide (s ∈ [lit "1"; lit "t"; lit "T"; lit "TRUE"; lit "true"; lit "True"]) then Some true
  else if bool_decide (s ∈ [lit "0"; lit "f"; lit "F"; lit "FALSE"; lit "false"; lit "False"]) then Some false
  else None.
Definition copy_bool (s : gostr) : option bool := if decide (s = []) then Some false else parse_bool (trim_space s).

(** config/cpp/cpp.go:55-59. *)
Definition fill_include (e : xml) : option include :=
  fill (fun n v i => if decide (n = lit "src") then Some (Include v (in_system i))
                     else if decide (n = lit "system") then match copy_bool v with Some b => Some (Include (in_src i) b) | None => None end
                     else Some i)
       (fun _ _ i => Some i) e (Include [] false).
(** config/cpp/cpp.go:66-69. *)
Definition fill_channel (e : xml) : option (gostr * gostr) :=
  fill (fun n v c => if decide (n = lit "name") then Some (v, c.2) else if decide (n = lit "type") then Some (c.1, v) else Some c)
       (fun _ _ c => Some c) e ([], []).
(** config/catkin/package.go:27-30, into a maintainer (name and address) already there: the name is
    the element's own text. *)
Definition fill_maintainer (e : xml) (p : package) : option package :=
  match fill (fun n v (email : gostr) => if decide (n = lit "email") then Some v else Some email) (fun _ _ x => Some x) e (pk_email p) with
  | Some email => Some (Package (pk_format p) (pk_name p) (pk_version p) (pk_description p) (elem_text e) email (pk_license p)
                          (pk_buildtool p) (pk_depends p))
  | None => None
  end.
(** config/catkin/package.go:11-24. *)
Definition fill_package (e : xml) (p : package) : option package :=
  fill (fun n v '(Package fmt nm ver desc mt em lic bt dp) =>
          if decide (n = lit "format") then match copy_int v with Some z => Some (Package z nm ver desc mt em lic bt dp) | None => None end
          else Some (Package fmt nm ver desc mt em lic bt dp))
       (fun n k '(Package fmt nm ver desc mt em lic bt dp) =>
          if decide (n = lit "name") then Some (Package fmt (elem_text k) ver desc mt em lic bt dp)
          else if decide (n = lit "version") then Some (Package fmt nm (elem_text k) desc mt em lic bt dp)
          else if decide (n = lit "description") then Some (Package fmt nm ver (elem_text k) mt em lic bt dp)
          else if decide (n = lit "maintainer") then fill_maintainer k (Package fmt nm ver desc mt em lic bt dp)
          else if decide (n = lit "license") then Some (Package fmt nm ver desc mt em (elem_text k) bt dp)
          else if decide (n = lit "buildtool_depend") then Some (Package fmt nm ver desc mt em lic (bt ++ [elem_text k]) dp)
          else if decide (n = lit "depend") then Some (Package fmt nm ver desc mt em lic bt (dp ++ [elem_text k]))
          else Some (Package fmt nm ver desc mt em lic bt dp)) e p.
(** config/catkin/catkin.go: a nil pointer is filled with an empty package first. *)
Definition fill_catkin (e : xml) (c : option package) : option (option package) :=
  fill (fun _ _ c => Some c)
       (fun n k c => if decide (n = lit "package")
                     then match fill_package k (match c with Some p => p | None => empty_package end) with Some p => Some (Some p) | None => None end
                     else Some c) e c.
(** config/cpp/cpp.go:10-17. *)
Definition fill_cpp (e : xml) : option cpp_config :=
  fill (fun n v '(CppConfig va ins chs mk ck) =>
          if decide (n = lit "variant") then match parse_variant v with Some va => Some (CppConfig va ins chs mk ck) | None => None end
          else Some (CppConfig va ins chs mk ck))
       (fun n k '(CppConfig va ins chs mk ck) =>
          if decide (n = lit "include") then match fill_include k with Some i => Some (CppConfig va (ins ++ [i]) chs mk ck) | None => None end
          else if decide (n = lit "channel") then match fill_channel k with Some c => Some (CppConfig va ins (chs ++ [c]) mk ck) | None => None end
          else if decide (n = lit "makefile") then Some (CppConfig va ins chs true ck)
          else if decide (n = lit "catkin")
          then match fill_catkin k (match ck with Some c => c | None => None end) with Some c => Some (CppConfig va ins chs mk (Some c)) | None => None end
          else Some (CppConfig va ins chs mk ck)) e (CppConfig VAnimate [] [] false None).
(** config/config.go:14-18: the root has to have the right name. *)
Definition fill_config (e : xml) : option config :=
  match e with
  | Elem n _ _ =>
    if decide (n = lit "rtcg-gen") then
      fill (fun _ _ c => Some c)
           (fun n k '(Config cpps dir) =>
              if decide (n = lit "cpp") then match fill_cpp k with Some c => Some (Config (cpps ++ [c]) dir) | None => None end
              else if decide (n = lit "directory") then Some (Config cpps (elem_text k))
              else Some (Config cpps dir)) e (Config [] [])
    else None
  end.

(** [xml.NewDecoder(file).Decode(&config)] (config.go:29). *)
Definition read_config (s : gostr) : option config :=
  match xml_root (length s) s with Some e => fill_config e | None => None end.
End Names.
