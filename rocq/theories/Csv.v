(** * Reading trace files: encoding/csv as configured by newReader, and trace/read.go *)
From Verif Require Export Trace.

(** ** encoding/csv.Reader (Go standard library), with Comma ',', Comment '#',
    TrimLeadingSpace, FieldsPerRecord -1, no LazyQuotes (trace/read.go:38-45). *)

Definition nl : ascii := byte 10.
Definition cr : ascii := byte 13.
Definition dquote : ascii := byte 34.
Definition comma : ascii := ",".
Definition hash : ascii := "#".

(** bufio.Reader.ReadSlice('\n'): the text up to and including the first newline, and the
    rest; the flag says whether a newline was found. *)
Fixpoint read_slice (s : gostr) : gostr * gostr * bool :=
  match s with
  | [] => ([], [], false)
  | c :: r => if Ascii.eqb c nl then ([c], r, true)
              else let '(l, rest, b) := read_slice r in (c :: l, rest, b)
  end.

(** Drop a trailing byte [c]. *)
Definition drop_last_if (c : ascii) (s : gostr) : gostr :=
  match rev s with
  | x :: r => if Ascii.eqb x c then rev r else s
  | [] => s
  end.

(** csv.Reader.readLine: [None] at end of file; otherwise the line and the rest.  A final
    line without newline loses a trailing \r; \r\n becomes \n. *)
Definition read_line (s : gostr) : option (gostr * gostr) :=
  match s with
  | [] => None
  | _ =>
    let '(l, rest, found) := read_slice s in
    if found then
      match rev l with
      | n :: x :: r => if Ascii.eqb x cr then Some (rev (nl :: r), rest) else Some (l, rest)
      | _ => Some (l, rest)
      end
    else Some (drop_last_if cr l, rest)
  end.

(** lengthNL and the text without its newline. *)
Definition length_nl (s : gostr) : nat :=
  match rev s with x :: _ => if Ascii.eqb x nl then 1 else 0 | [] => 0 end.
Definition chop_nl (s : gostr) : gostr := drop_last_if nl s.

Inductive csv_err := ErrBareQuote | ErrQuote.

(** The skipping loop at the head of readRecord: the first line that is neither a comment
    nor empty. [fuel] bounds the number of lines. *)
Fixpoint skip_lines (fuel : nat) (s : gostr) : option (gostr * gostr) :=
  match fuel with
  | O => None
  | S fuel =>
    match read_line s with
    | None => None
    | Some (line, rest) =>
      match line with
      | c :: _ => if Ascii.eqb c hash then skip_lines fuel rest
                  else if length line =? length_nl line then skip_lines fuel rest
                  else Some (line, rest)
      | [] => skip_lines fuel rest
      end
    end
  end.

(** The state while parsing one record: current line, remaining input, finished fields (in
    order).  Results: the fields and the remaining input. *)
Definition rec_res := res csv_err (list gostr * gostr).

(** The field loop of readRecord.  [parse_fields] starts a field; [parse_quoted] continues a
    quoted field whose text so far is [buf].  [fuel] bounds the number of iterations;
    exhaustion is [Panic], which the theorems exclude where they speak about results. *)
Fixpoint parse_fields (fuel : nat) (line rest : gostr) (acc : list gostr) : rec_res :=
  match fuel with
  | O => Panic
  | S fuel =>
    let line := trim_left line in                       (* TrimLeadingSpace *)
    match line with
    | q :: line' =>
      if Ascii.eqb q dquote then parse_quoted fuel line' rest [] acc
      else parse_plain fuel line rest acc
    | [] => parse_plain fuel line rest acc
    end
  end
with parse_plain (fuel : nat) (line rest : gostr) (acc : list gostr) : rec_res :=
  match fuel with
  | O => Panic
  | S fuel =>
    match cut comma line with
    | Some (field, line') =>
      match cut dquote field with
      | Some _ => Err ErrBareQuote
      | None => parse_fields fuel line' rest (acc ++ [field])
      end
    | None =>
      let field := chop_nl line in
      match cut dquote field with
      | Some _ => Err ErrBareQuote
      | None => Ok (acc ++ [field], rest)
      end
    end
  end
with parse_quoted (fuel : nat) (line rest buf : gostr) (acc : list gostr) : rec_res :=
  match fuel with
  | O => Panic
  | S fuel =>
    match cut dquote line with
    | Some (pre, line') =>                               (* hit the next quote *)
      let buf := buf ++ pre in
      match line' with
      | c :: line'' =>
        if Ascii.eqb c dquote then parse_quoted fuel line'' rest (buf ++ [dquote]) acc
        else if Ascii.eqb c comma then parse_fields fuel line'' rest (acc ++ [buf])
        else if length_nl line' =? length line' then Ok (acc ++ [buf], rest)
        else Err ErrQuote
      | [] => Ok (acc ++ [buf], rest)
      end
    | None =>
      match line with
      | _ :: _ =>                                        (* end of line inside the field *)
        match read_line rest with
        | Some (line2, rest2) => parse_quoted fuel line2 rest2 (buf ++ line) acc
        | None => parse_quoted fuel [] [] (buf ++ line) acc
        end
      | [] => Err ErrQuote                               (* abrupt end of file *)
      end
    end
  end.

(** Fuel enough for any record: every iteration uses up a byte of the input. *)
Definition rec_fuel (line rest : gostr) : nat := 2 * (length line + length rest) + 4.

(** csv.Reader.readRecord: [None] at end of file. *)
Definition read_record (s : gostr) : option rec_res :=
  match skip_lines (S (length s)) s with
  | None => None
  | Some (line, rest) => Some (parse_fields (rec_fuel line rest) line rest [])
  end.

(** ** trace/read.go *)

Inductive read_err :=
| RCsv (e : csv_err)                 (* read.go:26 *)
| RNeedOneEvent                      (* read.go:52, ErrNeedOneEvent *)
| RCell (e : event_err).             (* read.go:68 *)

(** [tryParseName] (read.go:75-82): the name (previously empty) and the rest of the cell. *)
Definition try_parse_name (cell : gostr) : gostr * gostr :=
  match cut ":" cell with
  | Some (name, rest) => (trim_space name, trim_space rest)
  | None => ([], cell)
  end.

(** The loop of [parseRow] over the cells (read.go:60-70): each cell is parsed into a fresh
    event, [selectEvent] (read.go:84-90) sending the last one to Forbid. *)
Fixpoint parse_cells (cells : list gostr) : res event_err (list event) :=
  match cells with
  | [] => Ok []
  | c :: rest =>
    match event_unmarshal zero_event c with
    | Ok e => match parse_cells rest with Ok es => Ok (e :: es) | Err x => Err x | Panic => Panic end
    | Err x => Err x
    | Panic => Panic
    end
  end.

(** [selectEvent] (read.go:84-90) as a whole: events 0..prefixLen-1 are the prefix and event
    prefixLen is the forbidden one. *)
Definition select_events (name : gostr) (es : list event) : option forbidden :=
  let prefix_len := length es - 1 in
  match es !! prefix_len with
  | Some f => Some (Forbidden name (take prefix_len es) f)
  | None => None
  end.

(** [parseRow] (read.go:47-73). *)
Definition parse_row (row : list gostr) : res read_err forbidden :=
  match row with
  | [] => Err RNeedOneEvent
  | cell :: cells =>
    let '(name, cell') := try_parse_name cell in
    match parse_cells (cell' :: cells) with
    | Err e => Err (RCell e)
    | Panic => Panic
    | Ok es => match select_events name es with Some f => Ok f | None => Panic end
    end
  end.

(** The loop of [Read] (read.go:19-35). [fuel] bounds the number of records. *)
Fixpoint read_loop (fuel : nat) (s : gostr) (traces : list forbidden)
  : res read_err (list forbidden) :=
  match fuel with
  | O => Panic
  | S fuel =>
    match read_record s with
    | None => Ok traces
    | Some (Err e) => Err (RCsv e)
    | Some Panic => Panic
    | Some (Ok (row, rest)) =>
      match parse_row row with
      | Err e => Err e
      | Panic => Panic
      | Ok t => read_loop fuel rest (traces ++ [t])
      end
    end
  end.

(** [Read] (read.go:14-36). *)
Definition read_traces (s : gostr) : res read_err (list forbidden) :=
  read_loop (S (length s)) s [].
