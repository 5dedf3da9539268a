(** * Specification vocabulary for main.cpp: the types of its expressions

    What a C++ compiler checks of the parts of C++ that SpecCxx.v reads, beside the declarations
    (SpecStatic.v): every expression has a type; operands, arguments, initial values, assigned and
    returned values have types that convert to what is asked for; conditions are truth values; the
    labels of a switch are of the enumeration it switches on; constants are not assigned; methods
    called from outside their class are public. It is stricter than C++ where the difference does
    not matter here (a condition has to be a bool, pointers are not printed). *)
From Verif Require Export SpecStatic.

Inductive cty :=
| TVoid | TBool | TInt | TLong | TUnsigned | TDouble
| TCStr                        (* const char * *)
| TString                      (* std::string *)
| TArgv                        (* char ** *)
| TOut | TIn | TEndl           (* std::cout and std::cerr; std::cin; std::endl *)
| TClass (q : list gostr)      (* an enumeration or a class, by its name *)
| TUser (s : gostr)            (* the text of an override that is none of the above *)
| TConstPtr (t : cty)          (* T::ConstPtr, for a message type T of ROS *)
| TPtr (t : cty)
| TMember (c m : gostr).       (* &c::m *)
Global Instance cty_eq_dec : EqDecision cty. Proof. solve_decision. Defined.
Definition cty_eqb (a b : cty) : bool := bool_decide (a = b).

Notation status_ty := (TClass [lit "rtcg"; lit "Status"]).
Notation outcome_ty := (TClass [lit "rtcg"; lit "Outcome"]).
Notation string_msg := (TClass [lit "std_msgs"; lit "String"]).
Notation bool_msg := (TClass [lit "std_msgs"; lit "Bool"]).
Definition ros_ty (x : gostr) : cty := TClass [lit "ros"; x].

(** ** Types by their text in convert.h *)
Definition text_types : list (gostr * cty) :=
  [(lit "std::string", TString); (lit "unsigned int", TUnsigned); (lit "int", TInt); (lit "double", TDouble); (lit "void", TVoid); (lit "void *", TPtr TVoid);
   (lit "std_msgs::String", string_msg)].
Fixpoint look {A} (l : list (gostr * A)) (x : gostr) : option A :=
  match l with [] => None | (y, a) :: r => if str_eqb y x then Some a else look r x end.
Definition text_type (s : gostr) : cty := match look text_types s with Some t => t | None => TUser s end.
(** "T::ConstPtr&" *)
Definition const_ptr_of (s : gostr) : option gostr := reverse <$> after (reverse (lit "::ConstPtr&")) (reverse s).

(** ** What the override types can do: only the user knows. *)
Record user_types := UserTypes {
  ut_values : gostr -> bool;      (* their values can be passed and copied *)
  ut_printed : gostr -> bool;     (* their values can be sent to a stream *)
  ut_messages : gostr -> bool;    (* they are message types of ROS *)
}.

Fixpoint find_method (public : bool) (ms : list member) (m : gostr) : option (bool * (ctype * list ctype)) :=
  match ms with
  | [] => None
  | MLabel b :: r => find_method b r m
  | MMethod (Some t) x ps :: r => if str_eqb x m then Some (public, (t, map fst ps)) else find_method public r m
  | _ :: r => find_method public r m
  end.
Fixpoint find_ctor (public : bool) (ms : list member) : option (bool * list ctype) :=
  match ms with
  | [] => None
  | MLabel b :: r => find_ctor b r
  | MMethod None _ ps :: r => Some (public, map fst ps)
  | _ :: r => find_ctor public r
  end.
Fixpoint find_field (ms : list member) (x : gostr) : option ctype :=
  match ms with [] => None | MField t y _ :: r => if str_eqb y x then Some t else find_field r x | _ :: r => find_field r x end.
Fixpoint find_fun (p : list citem) (q : list gostr) : option (ctype * list ctype) :=
  match p with
  | [] => None
  | CFun (Some t) q' ps _ :: r => if path_eqb q' q then Some (t, map fst ps) else find_fun r q
  | _ :: r => find_fun r q
  end.
Fixpoint find_global (p : list citem) (x : gostr) : option ctype :=
  match p with [] => None | CVar t y _ :: r => if str_eqb y x then Some t else find_global r x | _ :: r => find_global r x end.
Fixpoint find_hfun (h : list item) (f : gostr) : option (gostr * gostr) :=
  match h with [] => None | IFun ret n pt _ _ :: r => if str_eqb n f then Some (ret, pt) else find_hfun r f | _ :: r => find_hfun r f end.

(** A variable: whether it can be assigned, and its type. *)
Notation cvars := (list (gostr * (bool * cty))).

Section Types.
  Context (u : user_types) (h : list item) (p : list citem).

  (** A macro is replaced by its text, and that, if it is a macro, by its. *)
  Definition expand1 (s : gostr) : gostr := match look (macros h) s with Some t => t | None => s end.
  Definition header_type (s : gostr) : cty :=
    let s := expand1 (expand1 s) in
    match const_ptr_of s with Some b => TConstPtr (text_type (expand1 (expand1 b))) | None => text_type s end.

  Definition message (t : cty) : bool :=
    match t with TUser s => ut_messages u s | _ => cty_eqb t string_msg || cty_eqb t bool_msg end.
  (** Types of values that can be stored. *)
  Definition storable (t : cty) : bool :=
    match t with
    | TVoid | TOut | TIn | TEndl | TMember _ _ => false
    | TUser s => ut_values u s
    | TConstPtr t => message t
    | _ => true
    end.
  Definition number_ty (t : cty) : bool := match t with TInt | TLong | TUnsigned | TDouble => true | _ => false end.
  Definition printed (t : cty) : bool :=
    match t with
    | TBool | TCStr | TString | TEndl => true
    | TUser s => ut_printed u s
    | _ => number_ty t || cty_eqb t status_ty || cty_eqb t outcome_ty     (* rtcg.h: operator<< *)
    end.
  Definition read_ty (t : cty) : bool := match t with TString => true | _ => number_ty t end.
  Definition enum_ty (t : cty) : bool :=
    cty_eqb t status_ty || cty_eqb t outcome_ty ||
    match t with TClass [e] => existsb (fun i => match i with CEnum x _ => str_eqb x e | _ => false end) p | _ => false end.
  (** Implicit conversions. *)
  Definition converts (a b : cty) : bool := (cty_eqb a b && storable a) || (number_ty a && number_ty b) || (cty_eqb a TCStr && cty_eqb b TString).
  Fixpoint all_convert (l ts : list cty) : bool :=
    match l, ts with [], [] => true | a :: l, t :: ts => converts a t && all_convert l ts | _, _ => false end.
  Definition text_ty (t : cty) : bool := cty_eqb t TCStr || cty_eqb t TString.
  Definition compared (a b : cty) : bool :=
    (number_ty a && number_ty b) || (enum_ty a && cty_eqb a b) || (text_ty a && text_ty b && negb (cty_eqb a TCStr && cty_eqb b TCStr)).
  (** [target]: whether the right operand is a variable that can be assigned. *)
  Definition op_type (o : bop) (a b : cty) (target : bool) : option cty :=
    match o with
    | OpAnd => if cty_eqb a TBool && cty_eqb b TBool then Some TBool else None
    | OpEq | OpNe => if compared a b then Some TBool else None
    | OpShl => if cty_eqb a TOut && printed b then Some TOut else None
    | OpShr => if cty_eqb a TIn && read_ty b && target then Some TIn else None
    end.

  (** ** Declared types *)
  Definition own_name (x : gostr) : bool := existsb (fun i => match i with CClass c _ _ => str_eqb c x | CEnum e _ => str_eqb e x | _ => false end) p.
  Definition base_ty (b : cbase) : option cty :=
    match b with
    | BVoid => Some TVoid | BInt => Some TInt | BUnsigned => Some TUnsigned | BDouble => Some TDouble | BChar => None | BAuto => None
    | BName [x] => Some (if own_name x then TClass [x] else header_type x)
    | BName q => Some (if path_eqb q [lit "std"; lit "string"] then TString
                       else if path_eqb q [lit "std_msgs"; lit "Bool"; lit "ConstPtr"] then TConstPtr bool_msg else TClass q)
    end.
  (** References count as what they refer to. *)
  Definition decl_ty (t : ctype) : option cty :=
    match ct_base t, ct_suffix t with
    | BChar, [PStar] => if ct_const t then Some TCStr else None
    | BChar, [PStar; PStar] => if ct_const t then None else Some TArgv
    | b, [] => base_ty b
    | b, [PAmp] => base_ty b
    | b, [PStar] => TPtr <$> base_ty b
    | _, _ => None
    end.
  Definition sig_ty (s : ctype * list ctype) : option (cty * list cty) := r ← decl_ty s.1; ts ← mapM decl_ty s.2; Some (r, ts).
  Definition var_ty (t : ctype) : option (bool * cty) := (fun a => (negb (ct_const t), a)) <$> decl_ty t.

  (** ** The library: rtcg.h:51-72, the C++ library, ROS *)
  Definition lib_fun (q : list gostr) : option (cty * list cty) :=
    if path_eqb q [lit "rtcg"; lit "status"; lit "isRunning"] then Some (TBool, [status_ty])
    else if path_eqb q [lit "rtcg"; lit "status"; lit "exitCode"] then Some (TInt, [status_ty])
    else if path_eqb q [lit "ros"; lit "init"] then Some (TVoid, [TInt; TArgv; TString])
    else if path_eqb q [lit "ros"; lit "Duration"] then Some (ros_ty (lit "Duration"), [TDouble])
    else if path_eqb q [lit "ros"; lit "shutdown"] then Some (TVoid, [])
    else if path_eqb q [lit "ros"; lit "spin"] then Some (TVoid, [])
    else None.
  (** The only parameter of a method that a library calls back: it has to be public. *)
  Definition callback_param (c m : gostr) : option cty :=
    k ← find_class p c;
    f ← find_method false k.2 m;
    s ← sig_ty f.2;
    match f.1, s.2 with true, [t] => Some t | _, _ => None end.
  Definition is_message_ptr (t : cty) : bool := match t with TConstPtr t => message t | _ => false end.
  Definition lib_method (t : cty) (m : gostr) (inst : option (list gostr)) (args : list cty) : option cty :=
    match inst with
    | Some q =>
      if cty_eqb t (ros_ty (lit "NodeHandle")) && str_eqb m (lit "advertise") then
        a ← base_ty (BName q); if message a && all_convert args [TString; TUnsigned] then Some (ros_ty (lit "Publisher")) else None
      else None
    | None =>
      if cty_eqb t TString && str_eqb m (lit "compare") then if all_convert args [TString] then Some TInt else None
      else if cty_eqb t (ros_ty (lit "Publisher")) && str_eqb m (lit "publish") then
        match args with [a] => if message a then Some TVoid else None | _ => None end
      else if cty_eqb t (ros_ty (lit "NodeHandle")) && str_eqb m (lit "subscribe") then
        match args with
        | [a; n; TMember c f; o] =>
          b ← callback_param c f;
          if all_convert [a; n] [TString; TUnsigned] && cty_eqb o (TPtr (TClass [c])) && is_message_ptr b then Some (ros_ty (lit "Subscriber")) else None
        | _ => None
        end
      else if cty_eqb t (ros_ty (lit "NodeHandle")) && str_eqb m (lit "createTimer") then
        match args with
        | [d; TMember c f; o] =>
          b ← callback_param c f;
          if cty_eqb d (ros_ty (lit "Duration")) && cty_eqb o (TPtr (TClass [c])) && cty_eqb b (ros_ty (lit "TimerEvent")) then Some (ros_ty (lit "Timer")) else None
        | _ => None
        end
      else None
    end.

  Section Body.
    (** The class whose method it is; what it returns. *)
    Context (cls : option gostr) (ret : cty).

    Definition field_ty (x : gostr) : option (bool * cty) :=
      c ← cls; k ← find_class p c;
      match find_field k.2 x with
      | Some t => var_ty t
      | None => if mem x (inherited k.1) then Some (true, status_ty) else None     (* rtcg.h:72 *)
      end.
    Definition name_ty (vars : cvars) (q : list gostr) : option (bool * cty) :=
      match q with
      | [x] => match look vars x with
               | Some t => Some t
               | None => match field_ty x with
                         | Some t => Some t
                         | None => t ← find_global p x; var_ty t
                         end
               end
      | _ => if existsb (path_eqb q) prelude_enums || own_enumerator p q then Some (false, TClass (removelast q))
             else if path_eqb q [lit "std"; lit "cout"] || path_eqb q [lit "std"; lit "cerr"] then Some (false, TOut)
             else if path_eqb q [lit "std"; lit "cin"] then Some (false, TIn)
             else if path_eqb q [lit "std"; lit "endl"] then Some (false, TEndl) else None
      end.
    Definition is_target (vars : cvars) (e : expr) : bool :=
      match e with EName q => match name_ty vars q with Some (b, _) => b | None => false end | _ => false end.
    Definition apply_sig (s : cty * list cty) (args : list cty) : option cty := if all_convert args s.2 then Some s.1 else None.
    Definition fun_call (q : list gostr) (args : list cty) : option cty :=
      match q with
      | [f] => match find_method false (methods_of p cls) f with
               | Some (_, s) => s ← sig_ty s; apply_sig s args
               | None => s ← find_hfun h f; apply_sig (header_type s.1, [header_type s.2]) args
               end
      | _ => match lib_fun q with
             | Some s => apply_sig s args
             | None => s ← find_fun p q; s ← sig_ty s; apply_sig s args
             end
      end.
    Definition method_call (t : cty) (m : gostr) (inst : option (list gostr)) (args : list cty) : option cty :=
      match lib_method t m inst args with
      | Some r => Some r
      | None =>
        match t, inst with
        | TClass [c], None =>
          k ← find_class p c;
          match find_method false k.2 m with
          | Some (true, s) => s ← sig_ty s; apply_sig s args
          | Some (false, _) => None
          | None => if bool_decide (k.1 = Some [lit "rtcg"; lit "TestCase"]) && str_eqb m (lit "getStatus") && (length args =? 0) then Some status_ty else None   (* rtcg.h:70 *)
          end
        | _, _ => None
        end
      end.
    Definition small_number (s : gostr) : bool := match nat_lit s with Some n => (n <? 2 ^ 31)%N | None => false end.
    Fixpoint ty_expr (vars : cvars) (e : expr) {struct e} : option cty :=
      let types := fix types (l : list expr) {struct l} : option (list cty) :=
        match l with [] => Some [] | e :: r => t ← ty_expr vars e; ts ← types r; Some (t :: ts) end in
      let ops := fix ops (t : cty) (l : list (bop * expr)) {struct l} : option cty :=
        match l with [] => Some t | (o, e) :: r => b ← ty_expr vars e; t ← op_type o t b (is_target vars e); ops t r end in
      let posts := fix posts (t : cty) (l : list post) {struct l} : option cty :=
        match l with
        | [] => Some t
        | XDot m :: XCall args :: r => ts ← types args; t ← method_call t m None ts; posts t r
        | XDot m :: XInst q :: XCall args :: r => ts ← types args; t ← method_call t m (Some q) ts; posts t r
        | _ => None
        end in
      match e with
      | EName q => snd <$> name_ty vars q
      | EStr _ => Some TCStr
      | ENum s => Some (if small_number s then TInt else TLong)
      | EUn UAddr (EName [x]) => t ← look vars x; Some (TPtr t.2)
      | EUn UAddr (EName [c; m]) => Some (TMember c m)
      | EUn UAddr _ => None
      | EUn UNot e => t ← ty_expr vars e; if cty_eqb t TBool then Some TBool else None
      | EUn UNeg e => t ← ty_expr vars e; if number_ty t then Some t else None
      | EOps e l => t ← ty_expr vars e; ops t l
      | EPost (EName q) (XCall args :: r) =>
        t ← (if log_macro q && negb (has_method (methods_of p cls) (default [] (head q))) then
               match args with       (* stream << args *)
               | [EOps e l] => b ← ty_expr vars e; t ← op_type OpShl TOut b false; _ ← ops t l; Some TVoid
               | [e] => b ← ty_expr vars e; if printed b then Some TVoid else None
               | _ => None
               end
             else ts ← types args; fun_call q ts);
        posts t r
      | EPost e l => t ← ty_expr vars e; posts t l
      end.

    Definition is_bool (vars : cvars) (e : expr) : bool := bool_decide (ty_expr vars e = Some TBool).
    Definition gives (vars : cvars) (e : expr) (t : cty) : bool := match ty_expr vars e with Some a => converts a t | None => false end.
    Definition ty_assign (vars : cvars) (a b : expr) : bool :=
      match a with EName [x] => match name_ty vars [x] with Some (true, t) => gives vars b t | _ => false end | _ => false end.
    (** The variables that a statement declares; None if it does so wrongly. *)
    Definition binds (vars : cvars) (s : stmt) : option cvars :=
      match s with
      | SDecl t x i =>
        a ← match i with
            | Some e => if bool_decide (ct_base t = BAuto) then ty_expr vars e else a ← decl_ty t; if gives vars e a then Some a else None
            | None => if ct_const t then None else decl_ty t
            end;
        if storable a then Some [(x, (negb (ct_const t), a))] else None
      | SInit t x args =>
        match ct_base t with
        | BName [c] =>
          k ← find_class p c; f ← find_ctor false k.2; ps ← mapM decl_ty f.2; ts ← mapM (ty_expr vars) args;
          if (f.1 : bool) && all_convert ts ps then Some [(x, (true, TClass [c]))] else None
        | _ => None
        end
      | _ => Some []
      end.
    Definition label_ok (t : cty) (c : option expr) : bool :=
      match c with Some (EName q) => own_enumerator p q && cty_eqb (TClass (removelast q)) t | Some _ => false | None => true end.
    Fixpoint ty_stmt (vars : cvars) (s : stmt) {struct s} : bool :=
      let block := fix block (vars : cvars) (l : list stmt) {struct l} : bool :=
        match l with [] => true | s :: r => ty_stmt vars s && match binds vars s with Some b => block (b ++ vars) r | None => false end end in
      match s with
      | SExpr e => bool_decide (is_Some (ty_expr vars e))
      | SAssign a b => ty_assign vars a b
      | SReturn None => cty_eqb ret TVoid
      | SReturn (Some e) => gives vars e ret
      | SBreak => true
      | SBlock b => block vars b
      | SIf c a b => is_bool vars c && ty_stmt vars a && match b with Some b => ty_stmt vars b | None => true end
      | SSwitch e cases =>
        match ty_expr vars e with
        | Some t => enum_ty t && (fix all (cs : list (option expr * list stmt)) {struct cs} : bool :=
                                    match cs with [] => true | (c, b) :: r => label_ok t c && block vars b && all r end) cases
        | None => false
        end
      | SFor x i c a b body =>
        match ty_expr vars i with
        | Some t => let vars := (x, (true, t)) :: vars in storable t && is_bool vars c && ty_assign vars a b && ty_stmt vars body
        | None => false
        end
      | SDecl _ _ _ => true       (* see binds *)
      | SInit _ _ _ => true
      end.
    Fixpoint ty_block (vars : cvars) (l : list stmt) : bool :=
      match l with [] => true | s :: r => ty_stmt vars s && match binds vars s with Some b => ty_block (b ++ vars) r | None => false end end.
  End Body.

  (** ** Items *)
  Definition ty_params (ps : list param) : option cvars :=
    mapM (fun tx => a ← var_ty tx.1; if storable a.2 then Some (tx.2, a) else None) ps.
  Definition return_ty (r : option ctype) : option cty :=
    match r with Some t => a ← decl_ty t; if storable a || cty_eqb a TVoid then Some a else None | None => Some TVoid end.
  Definition ty_member (c : gostr) (i : member) : bool :=
    match i with
    | MLabel _ => true
    | MMethod r _ ps => bool_decide (is_Some (return_ty r)) && bool_decide (is_Some (ty_params ps))
    | MField t _ e => match decl_ty t with Some a => storable a && match e with Some e => gives (Some c) [] e a | None => true end | None => false end
    end.
  Definition ty_item (i : citem) : bool :=
    match i with
    | CPre _ | CEnum _ _ => true
    | CVar t _ e => match decl_ty t with Some a => storable a && gives None [] e a | None => false end
    | CClass c _ ms => forallb (ty_member c) ms
    | CFun r q ps b =>
      let cls := match q with [c; _] => if bool_decide (is_Some (find_class p c)) then Some c else None | _ => None end in
      match return_ty r, ty_params ps with Some t, Some vars => ty_block cls t vars b | _, _ => false end
    end.
  Definition types_ok : bool := forallb ty_item p.
End Types.

(** ** Hypotheses *)
(** No two channels differ only in the case of their first letter (C74: convert.h would define their types twice). *)
Definition names_apart (types : type_map) : Prop :=
  forall a b, is_Some (types !! a) -> is_Some (types !! b) -> upcase_first a = upcase_first b -> a = b.
(** The override of a channel in a configuration: the last one that there is. *)
Definition override_of (cfg : cpp_config) (c o : gostr) : Prop := exists l1 l2, cc_channels cfg = l1 ++ (c, o) :: l2 /\ (forall o', (c, o') ∉ l2) /\ o <> [].
(** The texts of the overrides of the channels of a tree: not one of the type names of convert.h itself. *)
Definition overrides_named (cfg : cpp_config) (types : type_map) (root : node) : Prop :=
  forall e o, tree_event root e -> override_of cfg (ch_name (e_chan e)) o ->
    o <> lit "CONVERT_H_DEFINED" /\ (forall d, is_Some (types !! d) -> o <> upcase_first d ++ lit "Val" /\ o <> upcase_first d ++ lit "Msg") /\ const_ptr_of o = None.
(** Their types: in the animate variant values that can be stored, and for inputs of the system under test printed; over ROS message types. *)
Definition overrides_able (u : user_types) (v : variant) (cfg : cpp_config) (root : node) : Prop :=
  forall e o, tree_event root e -> override_of cfg (ch_name (e_chan e)) o ->
    match v with
    | VRos => message u (text_type o) = true
    | _ => storable u (text_type o) = true /\ (ch_kind (e_chan e) = KIn -> printed u (text_type o) = true)
    end.
Definition overrides_fit (u : user_types) (v : variant) (cfg : cpp_config) (types : type_map) (root : node) : Prop :=
  overrides_named cfg types root /\ overrides_able u v cfg root.
