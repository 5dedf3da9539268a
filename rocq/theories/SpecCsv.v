(** * Specification vocabulary for trace files *)
From Verif Require Export Csv SpecTrace.

(** The records of a file as the csv library delivers them, up to the first syntax error. *)
Inductive csv_file : gostr -> list (res csv_err (list gostr)) -> Prop :=
| cf_end s : read_record s = None -> csv_file s []
| cf_row s row rest l : read_record s = Some (Ok (row, rest)) -> csv_file rest l ->
                        csv_file s (Ok row :: l)
| cf_bad s e : read_record s = Some (Err e) -> csv_file s [Err e].

(** What a record contributes to a trace file. *)
Definition record_trace (r : res csv_err (list gostr)) : res read_err forbidden :=
  match r with Ok row => parse_row row | Err e => Err (RCsv e) | Panic => Panic end.

(** The plain (quote-free) format: one record per line; a line is dropped if it is empty or
    starts with #; cells are separated by commas and lose their leading white space. *)
Definition kept_line (l : gostr) : Prop :=
  match l with [] => False | c :: _ => c <> hash end.
Global Instance kept_line_dec l : Decision (kept_line l).
Proof. destruct l; apply _. Defined.
(** Lines, a carriage return before the line break belonging to it. *)
Definition file_lines (s : gostr) : list gostr := map (drop_last_if cr) (split_all nl s).
Definition plain_rows (s : gostr) : list (list gostr) :=
  map (fun l => map trim_left (split_all comma l)) (filter kept_line (file_lines s)).

(** Parsing a list of rows, stopping at the first bad one. *)
Fixpoint parse_rows (rows : list (list gostr)) : res read_err (list forbidden) :=
  match rows with
  | [] => Ok []
  | r :: rest => match parse_row r with
                 | Ok t => match parse_rows rest with
                           | Ok ts => Ok (t :: ts)
                           | Err e => Err e
                           | Panic => Panic
                           end
                 | Err e => Err e
                 | Panic => Panic
                 end
  end.

(** The name field at the front of the first cell. *)
Inductive cell_name : gostr -> gostr -> gostr -> Prop :=
| cn_none cell : ":"%char ∉ cell -> cell_name cell [] cell
| cn_some a b name body : ":"%char ∉ a -> trimmed a name -> trimmed b body ->
                          cell_name (a ++ ":"%char :: b) name body.

(** Writing traces: NAME:EVENT,EVENT,...,EVENT per line. *)
Definition trace_cells (t : forbidden) : list gostr :=
  match map event_marshal (trace_events t) with
  | c :: cs => ((if decide (f_name t = []) then [] else f_name t ++ [":"%char]) ++ c) :: cs
  | [] => []
  end.
Definition trace_line (t : forbidden) : gostr := join [comma] (trace_cells t).
Definition trace_text (ts : list forbidden) : gostr := concat (map (fun t => trace_line t ++ [nl]) ts).

Definition cell_safe (s : gostr) : Prop := comma ∉ s /\ dquote ∉ s /\ nl ∉ s.
Definition writable_event (e : event) : Prop :=
  valid_kind (ch_kind (e_chan e)) /\ plain_chan_name (ch_name (e_chan e)) /\
  match e_value e with None => True | Some v => plain_value v end /\
  cell_safe (event_marshal e).
Definition not_comment (s : gostr) : Prop := match s with c :: _ => c <> hash | [] => True end.
Definition writable (t : forbidden) : Prop :=
  Forall writable_event (trace_events t) /\
  cell_safe (f_name t) /\ no_outer_space (f_name t) /\ ":"%char ∉ f_name t /\ not_comment (f_name t) /\
  (f_name t = [] -> forall e, head (trace_events t) = Some e ->
                    ":"%char ∉ event_marshal e /\ not_comment (event_marshal e)).
