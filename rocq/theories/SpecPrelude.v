(** * Specification vocabulary for the prelude (C86): reading rtcg.h and rtcg.cpp, and calling what is in them *)
From Verif Require Export SpecRun.

(** ** Reading *)
(** bool, true and false are read as names, and operator<< as one name; protected as private (nobody looks at it). *)
Fixpoint as_names (ts : list tok) : list tok :=
  match ts with
  | [] => []
  | TKw (KOther k) :: r =>
    match r with
    | TP PShl :: r' => if str_eqb k (lit "operator") then TId (lit "operator<<") :: as_names r' else TKw (KOther k) :: as_names r
    | _ => (if str_eqb k (lit "protected") then TKw KPrivate else if existsb (str_eqb k) [lit "bool"; lit "true"; lit "false"] then TId k else TKw (KOther k)) :: as_names r
    end
  | t :: r => t :: as_names r
  end.
Definition read_source (text : gostr) : option (list citem) :=
  match lex_lines (lines_of text) with Some ts => p_items (S (length ts)) [] (as_names ts) | None => None end.
(** A header of declarations, with their full names. *)
Inductive hdecl :=
| DPre (line : gostr)
| DEnum (q : list gostr) (fields : list gostr)
| DClass (q : list gostr) (ms : list member)
| DFun (t : ctype) (q : list gostr) (ps : list param).
Fixpoint h_items (n : nat) (ns : list gostr) (ts : list tok) : option (list hdecl) :=
  match n with
  | 0 => None
  | S n =>
    match ts with
    | [] => match ns with [] => Some [] | _ => None end
    | TPre l :: r => match h_items n ns r with Some d => Some (DPre l :: d) | None => None end
    | TKw KNamespace :: TId x :: TP PLBrace :: r => h_items n (ns ++ [x]) r
    | TP PRBrace :: r => match ns with [] => None | _ => h_items n (removelast ns) r end
    | TKw KEnum :: r =>
      match SpecCxx.p_enum r with
      | Some (CEnum x fs, r) => match h_items n ns r with Some d => Some (DEnum (ns ++ [x]) fs :: d) | None => None end
      | _ => None
      end
    | TKw KClass :: r =>
      match p_class r with
      | Some (CClass x None ms, r) => match h_items n ns r with Some d => Some (DClass (ns ++ [x]) ms :: d) | None => None end
      | _ => None
      end
    | _ =>
      match p_type ts with
      | Some (t, TId f :: TP PLParen :: r) =>
        match p_params r with
        | Some (ps, TP PSemi :: r) => match h_items n ns r with Some d => Some (DFun t (ns ++ [f]) ps :: d) | None => None end
        | _ => None
        end
      | _ => None
      end
    end
  end.
Definition read_decls (text : gostr) : option (list hdecl) :=
  match lex_lines (lines_of text) with Some ts => h_items (S (length ts)) [] (as_names ts) | None => None end.
(** Full names of the enumerators, and of the functions (and methods) declared. *)
Definition enums_of (d : list hdecl) : list (list gostr) :=
  concat (map (fun i => match i with DEnum q fs => map (fun f => q ++ [f]) fs | _ => [] end) d).
Definition declared_funs (d : list hdecl) : list (list gostr) :=
  concat (map (fun i => match i with
                        | DFun _ q _ => [q]
                        | DClass q ms => omap (fun m => match m with MMethod (Some _) f _ => Some (q ++ [f]) | _ => None end) ms
                        | _ => []
                        end) d).
Definition defined_funs (p : list citem) : list (list gostr) := omap (fun i => match i with CFun _ q _ _ => Some q | _ => None end) p.

(** ** Names *)
(** A name used in a function is looked for in the function's namespaces, from the inside out. *)
Fixpoint in_scope (enums : list (list gostr)) (n : nat) (ns q : list gostr) : list gostr :=
  match n with
  | 0 => q
  | S n => if existsb (path_eqb (ns ++ q)) enums then ns ++ q else in_scope enums n (removelast ns) q
  end.
Definition full_name (enums : list (list gostr)) (scope q : list gostr) : list gostr := in_scope enums (S (length scope)) scope q.
Definition full_label (enums : list (list gostr)) (scope : list gostr) (c : option expr * list stmt) : option expr * list stmt :=
  (match c.1 with Some (EName q) => Some (EName (full_name enums scope q)) | e => e end, c.2).
Definition full_stmt (enums : list (list gostr)) (scope : list gostr) (s : stmt) : stmt :=
  match s with SSwitch e cs => SSwitch e (map (full_label enums scope) cs) | s => s end.

(** ** Calls *)
(** Whether a value can be passed to a parameter: enumerators of its type, and streams. *)
Definition accepts (enums : list (list gostr)) (t : ctype) (v : cval) : bool :=
  match ct_base t, v with
  | BName q, VEnum k => existsb (path_eqb k) enums && path_eqb (removelast k) q
  | BName q, VOstream _ => path_eqb q [lit "std"; lit "ostream"]
  | _, _ => false
  end.
Fixpoint all_accept (enums : list (list gostr)) (ps : list param) (vs : list cval) : bool :=
  match ps, vs with
  | [], [] => true
  | (t, _) :: ps, v :: vs => accepts enums t v && all_accept enums ps vs
  | _, _ => false
  end.
Fixpoint find_overload (enums : list (list gostr)) (p : list citem) (q : list gostr) (vs : list cval) : option (list param * list stmt) :=
  match p with
  | [] => None
  | CFun _ q' ps b :: r => if path_eqb q' q && all_accept enums ps vs then Some (ps, b) else find_overload enums r q vs
  | _ :: r => find_overload enums r q vs
  end.
(** A call of a function of the source [p] with the enumerators [enums]; [this]: where the object is, for methods. *)
Fixpoint call_prelude (p : list citem) (enums : list (list gostr)) (n : nat) (this : option (gostr * list gostr)) (q : list gostr) (args : list cval) (w : world) : result cval :=
  match n with
  | 0 => Fault
  | S n =>
    match find_overload enums p q args with
    | Some (ps, body) =>
      let vars := w_vars w in
      let start := set_vars (zip (map snd ps) args ++ [(lit "true", VBool true); (lit "false", VBool false)]) w in
      rbind (execs p (fun _ _ => None) 0 (call_prelude p enums n) this (map (full_stmt enums (removelast q)) body) start)
        (fun f w => match f with Go => Fine VUnit (set_vars vars w) | Ret v => Fine v (set_vars vars w) | Brk => Fault end)
    | None => Fault
    end
  end.
(** The fields that a class gives to a new object, with their values. *)
Definition initial_fields (enums : list (list gostr)) (d : list hdecl) (c : list gostr) : list (gostr * option cval) :=
  concat (map (fun i => match i with
    | DClass q ms => if path_eqb q c then
        omap (fun m => match m with
          | MField _ x (Some (EName e)) => Some (x, if existsb (path_eqb (full_name enums c e)) enums then Some (VEnum (full_name enums c e)) else None)
          | MField _ x _ => Some (x, None)
          | _ => None
          end) ms else []
    | _ => []
    end) d).
