(** * Specification vocabulary for main.cpp: a subset of C++, its text and its meaning *)
From Verif Require Export SpecHeader.

(** ** Tokens *)
Inductive kw := KIf | KElse | KSwitch | KCase | KDefault | KBreak | KReturn | KFor | KAuto | KClass | KEnum | KNamespace
  | KPublic | KPrivate | KConst | KVoid | KInt | KUnsigned | KDouble | KChar | KOther (s : gostr).
Inductive punct := PLParen | PRParen | PLBrace | PRBrace | PSemi | PComma | PColon | PColon2 | PDot | PAssign | PEq | PNe
  | PNot | PAmp | PAnd | PShl | PShr | PLt | PGt | PMinus | PStar.
(** Names, keywords, numbers, string literals (the text between the quotes), punctuation, lines for the preprocessor. *)
Inductive tok := TId (s : gostr) | TKw (k : kw) | TNum (s : gostr) | TStr (s : gostr) | TP (p : punct) | TPre (s : gostr).

Definition keywords : list (gostr * kw) :=
  [(lit "if", KIf); (lit "else", KElse); (lit "switch", KSwitch); (lit "case", KCase); (lit "default", KDefault); (lit "break", KBreak);
   (lit "return", KReturn); (lit "for", KFor); (lit "auto", KAuto); (lit "class", KClass); (lit "enum", KEnum); (lit "namespace", KNamespace);
   (lit "public", KPublic); (lit "private", KPrivate); (lit "const", KConst); (lit "void", KVoid); (lit "int", KInt); (lit "unsigned", KUnsigned);
   (lit "double", KDouble); (lit "char", KChar)] ++
  map (fun s => (s, KOther s))
  [lit "alignas"; lit "alignof"; lit "and"; lit "and_eq"; lit "asm"; lit "bitand"; lit "bitor"; lit "bool"; lit "catch"; lit "char16_t"; lit "char32_t"; lit "compl";
   lit "constexpr"; lit "const_cast"; lit "continue"; lit "decltype"; lit "delete"; lit "do"; lit "dynamic_cast"; lit "explicit"; lit "export"; lit "extern"; lit "false";
   lit "float"; lit "friend"; lit "goto"; lit "inline"; lit "long"; lit "mutable"; lit "new"; lit "noexcept"; lit "not"; lit "not_eq"; lit "nullptr"; lit "operator";
   lit "or"; lit "or_eq"; lit "protected"; lit "register"; lit "reinterpret_cast"; lit "short"; lit "signed"; lit "sizeof"; lit "static"; lit "static_assert";
   lit "static_cast"; lit "struct"; lit "template"; lit "this"; lit "thread_local"; lit "throw"; lit "true"; lit "try"; lit "typedef"; lit "typeid"; lit "typename";
   lit "union"; lit "using"; lit "virtual"; lit "volatile"; lit "wchar_t"; lit "while"; lit "xor"; lit "xor_eq"].
Definition reserved (s : gostr) : bool := existsb (fun k => bool_decide (k.1 = s)) keywords.
(** A name one can declare. *)
Definition plain_ident (s : gostr) : Prop := identifier s /\ reserved s = false.

Fixpoint find_kw (l : list (gostr * kw)) (s : gostr) : option kw :=
  match l with [] => None | (n, k) :: r => if bool_decide (n = s) then Some k else find_kw r s end.
Definition word (s : gostr) : tok := match find_kw keywords s with Some k => TKw k | None => TId s end.
Definition emit (t : tok) (r : option (list tok)) : option (list tok) := match r with Some l => Some (t :: l) | None => None end.
Definition punct1 (c : ascii) : option punct :=
  if Ascii.eqb c "(" then Some PLParen else if Ascii.eqb c ")" then Some PRParen else if Ascii.eqb c "{" then Some PLBrace
  else if Ascii.eqb c "}" then Some PRBrace else if Ascii.eqb c ";" then Some PSemi else if Ascii.eqb c "," then Some PComma
  else if Ascii.eqb c ":" then Some PColon else if Ascii.eqb c "." then Some PDot else if Ascii.eqb c "=" then Some PAssign
  else if Ascii.eqb c "!" then Some PNot else if Ascii.eqb c "&" then Some PAmp else if Ascii.eqb c "<" then Some PLt
  else if Ascii.eqb c ">" then Some PGt else if Ascii.eqb c "-" then Some PMinus else if Ascii.eqb c "*" then Some PStar else None.
Definition punct2 (c d : ascii) : option punct :=
  if Ascii.eqb c ":" && Ascii.eqb d ":" then Some PColon2 else if Ascii.eqb c "=" && Ascii.eqb d "=" then Some PEq
  else if Ascii.eqb c "!" && Ascii.eqb d "=" then Some PNe else if Ascii.eqb c "&" && Ascii.eqb d "&" then Some PAnd
  else if Ascii.eqb c "<" && Ascii.eqb d "<" then Some PShl else if Ascii.eqb c ">" && Ascii.eqb d ">" then Some PShr else None.
(** Where the reader of a line is: between tokens, in a name, in a number, in a string, after a backslash in a
    string, or after a character that may start a longer token. *)
Inductive lstate := LStart | LWord (acc : gostr) | LNum (acc : gostr) | LStr (acc : gostr) | LEsc (acc : gostr) | LOp (c : ascii).
Definition flush (st : lstate) (r : option (list tok)) : option (list tok) :=
  match st with
  | LStart => r
  | LWord acc => emit (word acc) r
  | LNum acc => emit (TNum acc) r
  | LOp c => match punct1 c with Some p => emit (TP p) r | None => None end
  | LStr _ | LEsc _ => None
  end.
(** The state after a character between tokens. *)
Definition begin (c : ascii) : lstate :=
  if Ascii.eqb c " " then LStart
  else if Ascii.eqb c (byte 34) then LStr []
  else if is_digit c then LNum [c]
  else if ident_char c then LWord [c]
  else LOp c.
Fixpoint lex (st : lstate) (s : gostr) : option (list tok) :=
  match s with
  | [] => flush st (Some [])
  | c :: r =>
    match st with
    | LStr acc => if Ascii.eqb c (byte 34) then emit (TStr acc) (lex LStart r)
                  else if Ascii.eqb c (byte 92) then lex (LEsc (acc ++ [c])) r
                  else lex (LStr (acc ++ [c])) r
    | LEsc acc => lex (LStr (acc ++ [c])) r
    | LOp d =>
      if Ascii.eqb d "/" then (if Ascii.eqb c "/" then Some [] else None)
      else match punct2 d c with
           | Some p => emit (TP p) (lex LStart r)
           | None => flush st (lex (begin c) r)
           end
    | LWord acc => if ident_char c then lex (LWord (acc ++ [c])) r else flush st (lex (begin c) r)
    | LNum acc => if ident_char c then lex (LNum (acc ++ [c])) r else flush st (lex (begin c) r)
    | LStart => lex (begin c) r
    end
  end.
Definition lex_line (l : gostr) : option (list tok) :=
  match l with c :: r => if Ascii.eqb c "#" then Some [TPre l] else lex LStart l | [] => Some [] end.
Fixpoint lex_lines (ls : list gostr) : option (list tok) :=
  match ls with
  | [] => Some []
  | l :: rest => match lex_line l, lex_lines rest with Some a, Some b => Some (a ++ b) | _, _ => None end
  end.

(** ** Syntax *)
Inductive uop := UNeg | UNot | UAddr.
Inductive bop := OpAnd | OpEq | OpNe | OpShl | OpShr.
Inductive expr :=
| EName (q : list gostr)                          (* a::b::c *)
| EStr (s : gostr) | ENum (s : gostr)
| EUn (o : uop) (e : expr)
| EPost (e : expr) (l : list post)                (* calls, members, template arguments, from left to right *)
| EOps (e : expr) (l : list (bop * expr))         (* operators of one precedence, from left to right *)
with post := XCall (args : list expr) | XDot (m : gostr) | XInst (q : list gostr).
(** A type: const, its name, and what follows it (stars, ampersands). *)
Inductive cbase := BVoid | BInt | BUnsigned | BDouble | BChar | BAuto | BName (q : list gostr).
Record ctype := CType { ct_const : bool; ct_base : cbase; ct_suffix : list punct }.
Inductive stmt :=
| SExpr (e : expr) | SAssign (a b : expr) | SReturn (e : option expr) | SBreak
| SBlock (b : list stmt) | SIf (c : expr) (a : stmt) (b : option stmt)
| SSwitch (e : expr) (cases : list (option expr * list stmt))          (* None: default *)
| SFor (x : gostr) (init cond lhs rhs : expr) (body : stmt)            (* for (auto x = init; cond; lhs = rhs) body *)
| SDecl (t : ctype) (x : gostr) (init : option expr)
| SInit (t : ctype) (x : gostr) (args : list expr).                     (* t x {args}; *)
Notation param := (ctype * gostr)%type.
Inductive member :=
| MLabel (public : bool)
| MMethod (t : option ctype) (name : gostr) (ps : list param)          (* None: a constructor *)
| MField (t : ctype) (name : gostr) (init : option expr).
Inductive citem :=
| CPre (line : gostr)
| CVar (t : ctype) (name : gostr) (init : expr)
| CEnum (name : gostr) (fields : list gostr)
| CClass (name : gostr) (base : option (list gostr)) (members : list member)
| CFun (t : option ctype) (name : list gostr) (ps : list param) (body : list stmt).

(** ** Parsing: recursive descent; the number bounds the depth of the recursion. *)
Notation parser A := (list tok -> option (A * list tok)).
Fixpoint p_name_rest (ts : list tok) : list gostr * list tok :=
  match ts with
  | TP PColon2 :: TId b :: r => let (q, r') := p_name_rest r in (b :: q, r')
  | _ => ([], ts)
  end.
Definition p_name : parser (list gostr) := fun ts =>
  match ts with TId a :: r => let (q, r') := p_name_rest r in Some (a :: q, r') | _ => None end.
Definition punct_eqb (p q : punct) : bool :=
  match p, q with
  | PLParen, PLParen | PRParen, PRParen | PLBrace, PLBrace | PRBrace, PRBrace | PSemi, PSemi | PColon, PColon
  | PAssign, PAssign | PComma, PComma | PGt, PGt => true
  | _, _ => false
  end.
Definition is_p (p : punct) (t : tok) : bool := match t with TP q => punct_eqb p q | _ => false end.
Definition expect (p : punct) (ts : list tok) : option (list tok) :=
  match ts with t :: r => if is_p p t then Some r else None | [] => None end.

(** Operators, and how tightly they bind: 0 for the conjunction, 1 for comparisons, 2 for shifts. *)
Definition op_of (t : tok) : option bop :=
  match t with
  | TP PAnd => Some OpAnd | TP PEq => Some OpEq | TP PNe => Some OpNe | TP PShl => Some OpShl | TP PShr => Some OpShr
  | _ => None
  end.
Definition op_level (o : bop) : nat := match o with OpAnd => 0 | OpEq | OpNe => 1 | OpShl | OpShr => 2 end.
Definition uop_of (t : tok) : option uop :=
  match t with TP PMinus => Some UNeg | TP PNot => Some UNot | TP PAmp => Some UAddr | _ => None end.
Definition p_prim : parser expr := fun ts =>
  match ts with
  | TStr s :: r => Some (EStr s, r)
  | TNum s :: r => Some (ENum s, r)
  | _ => '(q, r) ← p_name ts; Some (EName q, r)
  end.
Definition ops (e : expr) (l : list (bop * expr)) : expr := match l with [] => e | _ => EOps e l end.
Definition posts (e : expr) (l : list post) : expr := match l with [] => e | _ => EPost e l end.
(** Expressions of level [k]: chains of operators of that level between expressions of the next
    one; level 3 are unary operators and what follows a name. *)
Fixpoint p_expr (n k : nat) (ts : list tok) : option (expr * list tok) :=
  match n with
  | 0 => None
  | S n =>
    if k <? 3 then '(e, r) ← p_expr n (S k) ts; '(l, r) ← p_ops n k r; Some (ops e l, r)
    else match ts with
         | [] => None
         | t :: r => match uop_of t with
                     | Some o => '(e, r) ← p_expr n 3 r; Some (EUn o e, r)
                     | None => '(e, r) ← p_prim ts; '(l, r) ← p_posts n r; Some (posts e l, r)
                     end
         end
  end
with p_ops (n k : nat) (ts : list tok) : option (list (bop * expr) * list tok) :=
  match n with
  | 0 => None
  | S n =>
    match ts with
    | [] => Some ([], ts)
    | t :: r => match op_of t with
                | Some o => if op_level o =? k then '(e, r) ← p_expr n (S k) r; '(l, r) ← p_ops n k r; Some ((o, e) :: l, r)
                            else Some ([], ts)
                | None => Some ([], ts)
                end
    end
  end
with p_posts (n : nat) (ts : list tok) : option (list post * list tok) :=
  match n with
  | 0 => None
  | S n =>
    match ts with
    | TP PLParen :: r => '(a, r) ← p_args PRParen n r; '(l, r) ← p_posts n r; Some (XCall a :: l, r)
    | TP PDot :: TId m :: r => '(l, r) ← p_posts n r; Some (XDot m :: l, r)
    | TP PLt :: r => '(q, r) ← p_name r; r ← expect PGt r; '(l, r) ← p_posts n r; Some (XInst q :: l, r)
    | _ => Some ([], ts)
    end
  end
(** Arguments up to the closing bracket [c], which is consumed. *)
with p_args (c : punct) (n : nat) (ts : list tok) : option (list expr * list tok) :=
  match n with
  | 0 => None
  | S n =>
    match expect c ts with
    | Some r => Some ([], r)
    | None => '(e, r) ← p_expr n 0 ts; '(l, r) ← p_more c n r; Some (e :: l, r)
    end
  end
with p_more (c : punct) (n : nat) (ts : list tok) : option (list expr * list tok) :=
  match n with
  | 0 => None
  | S n =>
    match expect c ts with
    | Some r => Some ([], r)
    | None => r ← expect PComma ts; '(e, r) ← p_expr n 0 r; '(l, r) ← p_more c n r; Some (e :: l, r)
    end
  end.
Definition steps (ts : list tok) : nat := 10 * S (length ts).
Definition p_e : parser expr := fun ts => p_expr (steps ts) 0 ts.

(** Types. *)
Fixpoint p_suffix (ts : list tok) : list punct * list tok :=
  match ts with
  | TP PStar :: r => let (s, r') := p_suffix r in (PStar :: s, r')
  | TP PAmp :: r => let (s, r') := p_suffix r in (PAmp :: s, r')
  | _ => ([], ts)
  end.
Definition p_base : parser cbase := fun ts =>
  match ts with
  | TKw KVoid :: r => Some (BVoid, r)
  | TKw KInt :: r => Some (BInt, r)
  | TKw KUnsigned :: TKw KInt :: r => Some (BUnsigned, r)
  | TKw KDouble :: r => Some (BDouble, r)
  | TKw KChar :: r => Some (BChar, r)
  | TKw KAuto :: r => Some (BAuto, r)
  | _ => '(q, r) ← p_name ts; Some (BName q, r)
  end.
Definition p_type : parser ctype := fun ts =>
  let (c, ts) := match ts with TKw KConst :: r => (true, r) | _ => (false, ts) end in
  '(q, r) ← p_base ts; let (s, r) := p_suffix r in Some (CType c q s, r).
Definition p_param : parser param := fun ts =>
  '(t, r) ← p_type ts; match r with TId x :: r => Some ((t, x), r) | _ => None end.
Fixpoint p_params_more (n : nat) (ts : list tok) : option (list param * list tok) :=
  match n with
  | 0 => None
  | S n => match expect PRParen ts with
           | Some r => Some ([], r)
           | None => r ← expect PComma ts; '(p, r) ← p_param r; '(ps, r) ← p_params_more n r; Some (p :: ps, r)
           end
  end.
Definition p_params : parser (list param) := fun ts =>
  match expect PRParen ts with
  | Some r => Some ([], r)
  | None => '(p, r) ← p_param ts; '(ps, r) ← p_params_more (length ts) r; Some (p :: ps, r)
  end.

(** Statements. *)
Definition type_start (ts : list tok) : bool :=
  match ts with
  | TKw (KVoid | KInt | KUnsigned | KDouble | KChar | KAuto | KConst) :: _ => true
  | _ => match p_name ts with Some (_, TId _ :: _) => true | _ => false end
  end.
Definition p_decl : parser stmt := fun ts =>
  '(t, r) ← p_type ts;
  match r with
  | TId x :: r =>
    match expect PSemi r with
    | Some r => Some (SDecl t x None, r)
    | None =>
      match expect PAssign r with
      | Some r => '(e, r) ← p_e r; r ← expect PSemi r; Some (SDecl t x (Some e), r)
      | None => r ← expect PLBrace r; '(es, r) ← p_args PRBrace (steps r) r; r ← expect PSemi r; Some (SInit t x es, r)
      end
    end
  | _ => None
  end.
Definition p_simple : parser stmt := fun ts =>
  if type_start ts then p_decl ts
  else '(e, r) ← p_e ts;
       match expect PSemi r with
       | Some r => Some (SExpr e, r)
       | None => r ← expect PAssign r; '(b, r) ← p_e r; r ← expect PSemi r; Some (SAssign e b, r)
       end.
Fixpoint p_stmt (n : nat) (ts : list tok) : option (stmt * list tok) :=
  match n with
  | 0 => None
  | S n =>
    match ts with
    | TP PLBrace :: r => '(b, r) ← p_stmts n r; Some (SBlock b, r)
    | TKw KIf :: r =>
      r ← expect PLParen r; '(c, r) ← p_e r; r ← expect PRParen r; '(a, r) ← p_stmt n r;
      match r with
      | TKw KElse :: r => '(b, r) ← p_stmt n r; Some (SIf c a (Some b), r)
      | _ => Some (SIf c a None, r)
      end
    | TKw KSwitch :: r =>
      r ← expect PLParen r; '(e, r) ← p_e r; r ← expect PRParen r; r ← expect PLBrace r;
      '(cs, r) ← p_cases n r; Some (SSwitch e cs, r)
    | TKw KFor :: TP PLParen :: TKw KAuto :: TId x :: r =>
      r ← expect PAssign r; '(i, r) ← p_e r; r ← expect PSemi r; '(c, r) ← p_e r; r ← expect PSemi r; '(a, r) ← p_e r; r ← expect PAssign r; '(b, r) ← p_e r;
      r ← expect PRParen r; '(body, r) ← p_stmt n r; Some (SFor x i c a b body, r)
    | TKw KReturn :: r =>
      match expect PSemi r with
      | Some r => Some (SReturn None, r)
      | None => '(e, r) ← p_e r; r ← expect PSemi r; Some (SReturn (Some e), r)
      end
    | TKw KBreak :: r => r ← expect PSemi r; Some (SBreak, r)
    | _ => p_simple ts
    end
  end
(** Statements up to the closing brace. *)
with p_stmts (n : nat) (ts : list tok) : option (list stmt * list tok) :=
  match n with
  | 0 => None
  | S n => match expect PRBrace ts with
           | Some r => Some ([], r)
           | None => '(s, r) ← p_stmt n ts; '(ss, r) ← p_stmts n r; Some (s :: ss, r)
           end
  end
(** The labels of a switch and their statements. *)
with p_cases (n : nat) (ts : list tok) : option (list (option expr * list stmt) * list tok) :=
  match n with
  | 0 => None
  | S n => match ts with
           | TP PRBrace :: r => Some ([], r)
           | TKw KCase :: r => '(e, r) ← p_e r; r ← expect PColon r; '(b, r) ← p_case_body n r; '(cs, r) ← p_cases n r; Some ((Some e, b) :: cs, r)
           | TKw KDefault :: r => r ← expect PColon r; '(b, r) ← p_case_body n r; '(cs, r) ← p_cases n r; Some ((None, b) :: cs, r)
           | _ => None
           end
  end
(** Statements up to the next label or closing brace, which stays. *)
with p_case_body (n : nat) (ts : list tok) : option (list stmt * list tok) :=
  match n with
  | 0 => None
  | S n => match ts with
           | TP PRBrace :: _ | TKw KCase :: _ | TKw KDefault :: _ => Some ([], ts)
           | _ => '(s, r) ← p_stmt n ts; '(ss, r) ← p_case_body n r; Some (s :: ss, r)
           end
  end.
(** The statements of a body, after its opening brace. *)
Definition p_body : parser (list stmt) := fun ts => p_stmts (steps ts) ts.

(** Declarations. *)
Fixpoint p_fields (ts : list tok) : option (list gostr * list tok) :=
  match ts with
  | TP PRBrace :: r => Some ([], r)
  | TId x :: TP PComma :: r => '(l, r) ← p_fields r; Some (x :: l, r)
  | TId x :: TP PRBrace :: r => Some ([x], r)
  | _ => None
  end.
Definition p_member_typed : parser member := fun ts =>
  '(t, r) ← p_type ts;
  match r with
  | TId x :: r =>
    match expect PLParen r with
    | Some r => '(pl, r) ← p_params r; r ← expect PSemi r; Some (MMethod (Some t) x pl, r)
    | None =>
      match expect PSemi r with
      | Some r => Some (MField t x None, r)
      | None => r ← expect PAssign r; '(e, r) ← p_e r; r ← expect PSemi r; Some (MField t x (Some e), r)
      end
    end
  | _ => None
  end.
Definition p_member : parser member := fun ts =>
  match ts with
  | TKw KPublic :: r => r ← expect PColon r; Some (MLabel true, r)
  | TKw KPrivate :: r => r ← expect PColon r; Some (MLabel false, r)
  | TId c :: r => match expect PLParen r with
                  | Some r => '(pl, r) ← p_params r; r ← expect PSemi r; Some (MMethod None c pl, r)
                  | None => p_member_typed ts
                  end
  | _ => p_member_typed ts
  end.
Fixpoint p_members (n : nat) (ts : list tok) : option (list member * list tok) :=
  match n with
  | 0 => None
  | S n => match expect PRBrace ts with
           | Some r => Some ([], r)
           | None => '(m, r) ← p_member ts; '(ms, r) ← p_members n r; Some (m :: ms, r)
           end
  end.
Definition p_fun_rest (t : option ctype) (q : list gostr) : parser citem := fun ts =>
  '(pl, r) ← p_params ts; r ← expect PLBrace r; '(b, r) ← p_body r; Some (CFun t q pl b, r).
Definition p_enum : parser citem := fun ts =>
  match ts with
  | TKw KClass :: TId x :: r => r ← expect PLBrace r; '(l, r) ← p_fields r; r ← expect PSemi r; Some (CEnum x l, r)
  | _ => None
  end.
Definition p_class_rest (x : gostr) (b : option (list gostr)) : parser citem := fun ts =>
  r ← expect PLBrace ts; '(ms, r) ← p_members (S (length r)) r; r ← expect PSemi r; Some (CClass x b ms, r).
Definition p_class : parser citem := fun ts =>
  match ts with
  | TId x :: r => match expect PColon r with
                  | Some (TKw KPublic :: r) => '(b, r) ← p_name r; p_class_rest x (Some b) r
                  | Some _ => None
                  | None => p_class_rest x None r
                  end
  | _ => None
  end.
Definition p_item_typed (ns : list gostr) : parser citem := fun ts =>
  '(t, r) ← p_type ts; '(q, r) ← p_name r;
  match expect PLParen r with
  | Some r => p_fun_rest (Some t) (ns ++ q) r
  | None => r ← expect PAssign r; '(e, r) ← p_e r; r ← expect PSemi r; match q with [x] => Some (CVar t x e, r) | _ => None end
  end.
(** One item outside classes; [ns] are the namespaces around it. *)
Definition p_item (ns : list gostr) : parser citem := fun ts =>
  match ts with
  | TPre l :: r => Some (CPre l, r)
  | TKw KEnum :: r => p_enum r
  | TKw KClass :: r => p_class r
  | _ => match p_name ts with
         | Some (q, r) => match expect PLParen r with Some r => p_fun_rest None (ns ++ q) r | None => p_item_typed ns ts end
         | None => p_item_typed ns ts
         end
  end.
Fixpoint p_items (n : nat) (ns : list gostr) (ts : list tok) : option (list citem) :=
  match n with
  | 0 => None
  | S n =>
    match ts with
    | [] => match ns with [] => Some [] | _ => None end
    | TKw KNamespace :: r => match r with TId x :: r => r ← expect PLBrace r; p_items n (ns ++ [x]) r | _ => None end
    | TP PRBrace :: r => match ns with [] => None | _ => p_items n (removelast ns) r end
    | _ => '(i, r) ← p_item ns ts; l ← p_items n ns r; Some (i :: l)
    end
  end.
Definition read_cpp (text : gostr) : option (list citem) :=
  ts ← lex_lines (lines_of text); p_items (S (length ts)) [] ts.
