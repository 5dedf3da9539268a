(** * Specification vocabulary for convert.h: how a C++ compiler reads it *)
From Verif Require Export SpecText.

(** A C++ identifier. *)
Definition ident_char (c : ascii) : bool := is_upper c || is_lower c || is_digit c || Ascii.eqb c "_".
Definition identifier (s : gostr) : Prop := Forall (fun c => ident_char c = true) s /\ exists c r, s = c :: r /\ is_digit c = false.
(** Text that can stand in a macro: one line, without comments or continuation. *)
Definition macro_text (s : gostr) : Prop := byte 10 ∉ (s : list ascii) /\ byte 92 ∉ (s : list ascii) /\ "/"%char ∉ (s : list ascii).
(** Text that can stand in an include. *)
Definition include_text (s : gostr) : Prop := byte 10 ∉ (s : list ascii) /\ byte 34 ∉ (s : list ascii) /\ ">"%char ∉ (s : list ascii).

(** What a header has in it; functions of one parameter, with the lines of their body if they have one. *)
Inductive item :=
| IInclude (system : bool) (src : gostr)
| IDefine (name value : gostr)
| IFun (ret name ptype pname : gostr) (body : option (list gostr)).

(** Lines. *)
Inductive hline := HSkip | HItem (i : item) | HFun (ret name ptype pname : gostr) (decl : bool) | HOpen | HBody (text : gostr) | HClose.
(** A string cut at the last [c]. *)
Fixpoint cut_last (c : ascii) (s : gostr) : option (gostr * gostr) :=
  match s with
  | [] => None
  | x :: r => match cut_last c r with
              | Some (a, b) => Some (x :: a, b)
              | None => if Ascii.eqb x c then Some ([], r) else None
              end
  end.
(** "type name(const type name)" and a semicolon (with a comment) or nothing. *)
Definition read_fun (l : gostr) : option hline :=
  match cut "(" l with
  | None => None
  | Some (lhs, r) =>
    match cut_last " " lhs, cut ")" r with
    | Some (ret, name), Some (ps, tail) =>
      match after (lit "const ") ps with
      | None => None
      | Some ps' =>
        match cut_last " " ps' with
        | None => None
        | Some (ptype, pname) =>
          match tail with
          | [] => Some (HFun ret name ptype pname false)
          | c :: _ => if Ascii.eqb c ";" then Some (HFun ret name ptype pname true) else None
          end
        end
      end
    | _, _ => None
    end
  end.
Definition read_include (r : gostr) : option hline :=
  match r with
  | c :: r' =>
    if decide (c = "<"%char) then match cut ">" r' with Some (s, []) => Some (HItem (IInclude true s)) | _ => None end
    else if decide (c = byte 34) then match cut (byte 34) r' with Some (s, []) => Some (HItem (IInclude false s)) | _ => None end
    else None
  | [] => None
  end.
Definition read_define (r : gostr) : hline := match cut " " r with Some (n, v) => HItem (IDefine n v) | None => HItem (IDefine r []) end.
Definition read_hline (l : gostr) : option hline :=
  match l with
  | [] => Some HSkip
  | c :: _ =>
    if decide (c = "/"%char) then match after (lit "//") l with Some _ => Some HSkip | None => None end
    else if decide (c = "#"%char) then
      match after (lit "#include ") l, after (lit "#define ") l with
      | Some r, _ => read_include r
      | None, Some r => Some (read_define r)
      | None, None => match after (lit "#ifndef ") l, after (lit "#endif ") l with None, None => None | _, _ => Some HSkip end
      end
    else if decide (c = " "%char) then Some (HBody l)
    else if decide (l = lit "{") then Some HOpen
    else if decide (l = lit "}") then Some HClose
    else read_fun l
  end.
(** Read from the end: outside functions, in a body, or at its start. *)
Inductive hstate := Outside | InBody (b : list gostr) | AtOpen (b : list gostr).
Fixpoint read_hlines (ls : list gostr) : option (hstate * list item) :=
  match ls with
  | [] => Some (Outside, [])
  | l :: rest =>
    match read_hline l, read_hlines rest with
    | Some HSkip, Some (Outside, is) => Some (Outside, is)
    | Some (HItem i), Some (Outside, is) => Some (Outside, i :: is)
    | Some HClose, Some (Outside, is) => Some (InBody [], is)
    | Some (HBody t), Some (InBody b, is) => Some (InBody (t :: b), is)
    | Some HOpen, Some (InBody b, is) => Some (AtOpen b, is)
    | Some (HFun r n pt pn false), Some (AtOpen b, is) => Some (Outside, IFun r n pt pn (Some b) :: is)
    | Some (HFun r n pt pn true), Some (Outside, is) => Some (Outside, IFun r n pt pn None :: is)
    | _, _ => None
    end
  end.
Definition read_header (s : gostr) : option (list item) :=
  match read_hlines (lines_of s) with Some (Outside, is) => Some is | _ => None end.

(** Names. *)
Definition macros (is : list item) : list (gostr * gostr) := omap (fun i => match i with IDefine n v => Some (n, v) | _ => None end) is.
Definition functions (is : list item) : list gostr := omap (fun i => match i with IFun _ n _ _ _ => Some n | _ => None end) is.
(** Functions that have a body. *)
Definition defined (is : list item) : list gostr := omap (fun i => match i with IFun _ n _ _ (Some _) => Some n | _ => None end) is.
Definition includes_of (is : list item) : list (bool * gostr) := omap (fun i => match i with IInclude b s => Some (b, s) | _ => None end) is.
Fixpoint drop_spaces (s : gostr) : gostr := match s with c :: r => if Ascii.eqb c " " then drop_spaces r else s | [] => [] end.
(** What the body of a function gives back: the expression of the return at its end. *)
Definition returned (body : list gostr) : option gostr :=
  l ← last body; r ← after (lit "return ") (drop_spaces l); fst <$> cut ";" r.
