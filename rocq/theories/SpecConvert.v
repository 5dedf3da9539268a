(** * Specification vocabulary for convert.h (C85): what its functions do when called

    Conversion functions as SpecHeader.v reads them: types spelled with macros, and bodies of
    a few kinds of statement.  A function whose body does not compile gives no result. *)
From Verif Require Export SpecHeader SpecSession.

(** ** Types: the standard ones, std_msgs::String, and (references to) pointers to const messages *)
Inductive hty := TyStr | TyUnsigned | TyInt | TyDouble | TyMsg | TyPtr.
(** A macro at the start of a type is replaced, again and again; the number bounds the steps. *)
Fixpoint ident_prefix (s : gostr) : gostr * gostr :=
  match s with
  | c :: r => if ident_char c then let (a, b) := ident_prefix r in (c :: a, b) else ([], s)
  | [] => ([], [])
  end.
Fixpoint macro_value (ms : list (gostr * gostr)) (n : gostr) : option gostr :=
  match ms with [] => None | (m, x) :: r => if decide (m = n) then Some x else macro_value r n end.
Fixpoint expand_macros (k : nat) (ms : list (gostr * gostr)) (t : gostr) : gostr :=
  match k with
  | 0 => t
  | S k => let (a, b) := ident_prefix t in match macro_value ms a with Some x => expand_macros k ms (x ++ b) | None => t end
  end.
Definition plain_type (t : gostr) : option hty :=
  if decide (t = lit "std::string") then Some TyStr
  else if decide (t = lit "unsigned int") then Some TyUnsigned
  else if decide (t = lit "int") then Some TyInt
  else if decide (t = lit "double") then Some TyDouble
  else if decide (t = lit "std_msgs::String") then Some TyMsg
  else if decide (t = lit "std_msgs::String::ConstPtr&") then Some TyPtr
  else None.
Definition type_of (is : list item) (t : gostr) : option hty := plain_type (expand_macros (S (length (macros is))) (macros is) t).

(** ** Values: numbers, strings, messages with their text, pointers to such *)
Inductive hval := HInt (z : Z) | HStr (s : gostr) | HMsg (s : gostr) | HPtr (s : gostr).
(** A value as that of a variable of a type (a parameter, or what is given back): unsigned and int are 32
    bits wide and wrap around; a double holds whole numbers exactly up to 2^53. *)
Definition into (t : hty) (x : hval) : option hval :=
  match t, x with
  | TyStr, HStr s => Some (HStr s)
  | TyUnsigned, HInt z => Some (HInt (z mod 2 ^ 32))
  | TyInt, HInt z => Some (HInt ((z + 2 ^ 31) mod 2 ^ 32 - 2 ^ 31))
  | TyDouble, HInt z => if (Z.abs z <=? 2 ^ 53)%Z then Some (HInt z) else None
  | TyMsg, HMsg s => Some (HMsg s)
  | TyPtr, HPtr s => Some (HPtr s)
  | _, _ => None
  end.
(** A C string ends at the first NUL. *)
Fixpoint c_str (s : gostr) : gostr := match s with c :: r => if Ascii.eqb c (byte 0) then [] else c :: c_str r | [] => [] end.

(** ** Bodies *)
Definition hvars := list (gostr * hval).
Fixpoint hvar (l : hvars) (x : gostr) : option hval :=
  match l with [] => None | (y, v) :: r => if decide (y = x) then Some v else hvar r x end.
(** What follows a name: ->data, .c_str(). *)
Fixpoint members (x : hval) (ts : list tok) : option (hval * list tok) :=
  match ts with
  | TP PMinus :: TP PGt :: TId d :: r => if decide (d = lit "data") then match x with HPtr s => members (HStr s) r | _ => None end else None
  | TP PDot :: TId d :: TP PLParen :: TP PRParen :: r => if decide (d = lit "c_str") then match x with HStr s => members (HStr (c_str s)) r | _ => None end else None
  | _ => Some (x, ts)
  end.
(** A name with what follows it, or a string made from that. *)
Definition h_expr (vars : hvars) (ts : list tok) : option (hval * list tok) :=
  match ts with
  | TId a :: TP PColon2 :: TId b :: TP PLParen :: TId y :: r =>
    if decide (a = lit "std" /\ b = lit "string") then
      x ← hvar vars y;
      match members x r with Some (HStr s, TP PRParen :: r) => Some (HStr s, r) | _ => None end
    else None
  | TId y :: r => x ← hvar vars y; members x r
  | _ => None
  end.
Fixpoint h_body (k : nat) (vars : hvars) (ts : list tok) : option hval :=
  match k with
  | 0 => None
  | S k =>
    match ts with
    | TKw KReturn :: r => match h_expr vars r with Some (x, [TP PSemi]) => Some x | _ => None end
    (* std_msgs::String y; *)
    | TId a :: TP PColon2 :: TId b :: TId y :: TP PSemi :: r =>
      if decide (a = lit "std_msgs" /\ b = lit "String") then h_body k ((y, HMsg []) :: vars) r else None
    (* y.data = ...; *)
    | TId y :: TP PDot :: TId d :: TP PAssign :: r =>
      if decide (d = lit "data") then
        match h_expr vars r, hvar vars y with Some (HStr s, TP PSemi :: r), Some (HMsg _) => h_body k ((y, HMsg s) :: vars) r | _, _ => None end
      else None
    | _ => None
    end
  end.

(** ** Calls *)
(** Messages are known by their text (SpecRun.v): as an argument, a text is one for the parameter's type. *)
Definition arg_of (t : hty) (x : cval) : option hval :=
  match x, t with
  | VInt z, _ => Some (HInt z)
  | VStr s, TyPtr => Some (HPtr s)
  | VStr s, TyMsg => Some (HMsg s)
  | VStr s, _ => Some (HStr s)
  | _, _ => None
  end.
Definition result_of (x : hval) : option cval := match x with HInt z => Some (VInt z) | HStr s | HMsg s => Some (VStr s) | HPtr _ => None end.
Fixpoint find_function (is : list item) (f : gostr) : option (gostr * gostr * gostr * option (list gostr)) :=
  match is with
  | [] => None
  | IFun ret n pt pn b :: r => if decide (n = f) then Some (ret, pt, pn, b) else find_function r f
  | _ :: r => find_function r f
  end.
(** A call of a function of one argument: those that the header only declares are the user's. *)
Definition call_conversion (is : list item) (user : gostr -> cval -> option cval) (f : gostr) (x : cval) : option cval :=
  match find_function is f with
  | Some (ret, pt, pn, Some b) =>
    tp ← type_of is pt; tr ← type_of is ret; a ← arg_of tp x; a ← into tp a;
    ts ← lex_lines b; y ← h_body (S (length ts)) [(pn, a)] ts; y ← into tr y; result_of y
  | Some (_, _, _, None) => user f x
  | None => None
  end.
(** The user's functions change nothing either. *)
Record plain_user (types : type_map) (typed : gostr -> Prop) (user : gostr -> cval -> option cval) : Prop := {
  pu_to : forall c t x y, types !! c = Some t -> typed c -> c_string x -> pass_value t x = Some y -> user (convert_to c) (val x) = Some (val y);
  pu_from : forall c t x, types !! c = Some t -> typed c -> fits_type t x -> user (convert_from c) (val x) = Some (val x);
}.
