(** * Specification vocabulary for main.cpp: what a C++ compiler checks of declarations

    Beside the parts of C++ that SpecCxx.v reads: every name that is used has been declared before,
    with the right number of arguments if it is called; nothing is declared twice in one scope;
    methods are declared in their class as they are defined, and all of them are defined; the labels
    of a switch are distinct; break and return stand where they may; literals are well-formed. *)
From Verif Require Export SpecRun.

Global Instance punct_eq_dec : EqDecision punct. Proof. solve_decision. Defined.
Global Instance cbase_eq_dec : EqDecision cbase. Proof. solve_decision. Defined.
Global Instance ctype_eq_dec : EqDecision ctype. Proof. solve_decision. Defined.

Definition mem (x : gostr) (l : list gostr) : bool := bool_decide (x ∈ l).
Definition distinct (l : list gostr) : bool := bool_decide (NoDup l).

(** ** What the headers other than convert.h declare: rtcg.h:21-126, the C++ library, ROS. *)
Definition lib_types : list (list gostr) :=
  [[lit "rtcg"; lit "Outcome"]; [lit "rtcg"; lit "Status"]; [lit "rtcg"; lit "TestCase"]; [lit "std"; lit "string"]; [lit "ros"; lit "Publisher"];
   [lit "ros"; lit "NodeHandle"]; [lit "ros"; lit "TimerEvent"]; [lit "std_msgs"; lit "Bool"; lit "ConstPtr"]].
Definition lib_functions : list (list gostr * nat) :=
  [([lit "rtcg"; lit "status"; lit "isRunning"], 1); ([lit "rtcg"; lit "status"; lit "exitCode"], 1); ([lit "ros"; lit "init"], 3);
   ([lit "ros"; lit "Duration"], 1); ([lit "ros"; lit "shutdown"], 0); ([lit "ros"; lit "spin"], 0)].
Definition lib_methods : list (gostr * nat) :=
  [(lit "getStatus", 0); (lit "compare", 1); (lit "publish", 1); (lit "advertise", 2); (lit "subscribe", 4); (lit "createTimer", 3)].

Definition field_names (ms : list member) : list gostr := omap (fun i => match i with MField _ x _ => Some x | _ => None end) ms.
Definition method_names (ms : list member) : list gostr := omap (fun i => match i with MMethod (Some _) x _ => Some x | _ => None end) ms.
Definition method_n (ms : list member) (m : gostr) (n : nat) : bool :=
  existsb (fun i => match i with MMethod (Some _) x ps => str_eqb x m && (length ps =? n) | _ => false end) ms.
Definition ctor_n (ms : list member) (n : nat) : bool :=
  existsb (fun i => match i with MMethod None _ ps => length ps =? n | _ => false end) ms.

Section Static.
  (** What convert.h declares, as SpecHeader.v reads it. *)
  Context (h : list item).

  Section Env.
    (** The items so far. *)
    Context (p : list citem).

    Definition included (s : gostr) : bool :=
      existsb (fun i => match i with CPre l => bool_decide ((lit "#include " ++ s) `prefix_of` l) | _ => false end) p.
    Definition convert_included : bool := included (lit """convert.h""").
    Definition ros_included : bool := included (lit """ros/ros.h""").
    Definition lib_has (q : list gostr) : bool :=
      match q with
      | r :: _ =>
        if str_eqb r (lit "rtcg") then included (lit """rtcg.h""")
        else if str_eqb r (lit "ros") then ros_included
        else if str_eqb r (lit "std_msgs") then included (lit """std_msgs/Bool.h""")
        else if path_eqb q [lit "std"; lit "string"] then included (lit "<string>")
        else str_eqb r (lit "std") && (included (lit "<iostream>") || ros_included)
      | [] => false
      end.
    Definition own_type (x : gostr) : bool := existsb (fun i => match i with CClass c _ _ => str_eqb c x | CEnum e _ => str_eqb e x | _ => false end) p.
    Definition ck_base (b : cbase) : bool :=
      match b with
      | BName [x] => own_type x || (mem x (map fst (macros h)) && convert_included)
      | BName q => existsb (path_eqb q) lib_types && lib_has q
      | _ => true
      end.
    Definition ck_type (t : ctype) : bool := ck_base (ct_base t).
    (** A declared name is not a macro: of convert.h, or (for what is called) of ROS's log. *)
    Definition no_macro (x : gostr) : bool := negb (mem x (map fst (macros h)) && convert_included).
    Definition no_call_macro (x : gostr) : bool := no_macro x && negb (log_macro [x] && ros_included).

    Definition inherited (b : option (list gostr)) : list gostr :=
      match b with Some q => if path_eqb q [lit "rtcg"; lit "TestCase"] then [lit "status_"] else [] | None => [] end.
    Definition ck_field (cls : option gostr) (x : gostr) : bool :=
      match cls with
      | Some c => match find_class p c with Some (b, ms) => mem x (field_names ms) || mem x (inherited b) | None => false end
      | None => false
      end.
    Definition methods_of (cls : option gostr) : list member := match cls with Some c => match find_class p c with Some (_, ms) => ms | None => [] end | None => [] end.
    Definition any_method (m : gostr) (n : nat) : bool :=
      existsb (fun i => match i with CClass _ _ ms => method_n ms m n | _ => false end) p ||
      existsb (fun x => str_eqb x.1 m && (x.2 =? n)) lib_methods.
    Definition own_enumerator (q : list gostr) : bool :=
      existsb (fun i => match i with CEnum e fs => existsb (fun f => path_eqb [e; f] q) fs | _ => false end) p.
    Definition own_function (q : list gostr) (n : nat) : bool :=
      existsb (fun i => match i with CFun _ q' ps _ => path_eqb q' q && (length ps =? n) | _ => false end) p.

    Section Body.
      (** The class whose method it is; whether it returns a value. *)
      Context (cls : option gostr) (ret : bool).

      Definition ck_name (vars : list gostr) (q : list gostr) : bool :=
        match q with
        | [x] => mem x vars || ck_field cls x || bool_decide (is_Some (find_const p x))
        | _ => (existsb (path_eqb q) prelude_enums && lib_has q) || own_enumerator q || (bool_decide (is_Some (std_name q)) && lib_has q)
        end.
      Definition ck_fun (q : list gostr) (n : nat) : bool :=
        match q with
        | [f] => if has_method (methods_of cls) f then method_n (methods_of cls) f n
                 else if log_macro q then (n =? 1) && ros_included
                 else mem f (functions h) && (n =? 1) && convert_included
        | _ => (existsb (fun x => path_eqb x.1 q && (x.2 =? n)) lib_functions && lib_has q) || own_function q n
        end.
      Fixpoint ck_expr (vars : list gostr) (e : expr) {struct e} : bool :=
        let all := fix all (l : list expr) {struct l} : bool := match l with [] => true | e :: r => ck_expr vars e && all r end in
        let ops := fix ops (l : list (bop * expr)) {struct l} : bool := match l with [] => true | (_, e) :: r => ck_expr vars e && ops r end in
        let posts := fix posts (l : list post) {struct l} : bool :=
          match l with
          | [] => true
          | XDot m :: XCall args :: r => any_method m (length args) && all args && posts r
          | XDot m :: XInst q :: XCall args :: r => any_method m (length args) && ck_base (BName q) && all args && posts r
          | _ => false
          end in
        match e with
        | EName q => ck_name vars q
        | EStr s => bool_decide (is_Some (str_value s))
        | ENum s => bool_decide (is_Some (num_value s))
        | EUn UAddr (EName [c; m]) => class_has p c m
        | EUn _ e => ck_expr vars e
        | EOps e l => ck_expr vars e && ops l
        | EPost (EName q) (XCall args :: r) => ck_fun q (length args) && all args && posts r
        | EPost e l => ck_expr vars e && posts l
        end.
      Definition ck_assign (vars : list gostr) (a b : expr) : bool := match a with EName [_] => ck_expr vars a | _ => false end && ck_expr vars b.
      Definition declared (s : stmt) : option gostr := match s with SDecl _ x _ => Some x | SInit _ x _ => Some x | _ => None end.
      Definition label_name (c : option expr * list stmt) : option gostr :=
        match c.1 with Some (EName q) => Some (concat (map (fun x => lit "::" ++ x) q)) | Some _ => None | None => Some (lit "default") end.
      Definition ck_label (c : option expr) : bool := match c with Some (EName q) => own_enumerator q | Some _ => false | None => true end.
      Fixpoint ck_stmt (brk : bool) (vars : list gostr) (s : stmt) {struct s} : bool :=
        let block := fix block (brk : bool) (here vars : list gostr) (l : list stmt) {struct l} : bool :=
          match l with
          | [] => true
          | s :: r => ck_stmt brk vars s && match declared s with Some x => negb (mem x here) && block brk (x :: here) (x :: vars) r | None => block brk here vars r end
          end in
        match s with
        | SExpr e => ck_expr vars e
        | SAssign a b => ck_assign vars a b
        | SReturn None => negb ret
        | SReturn (Some e) => ret && ck_expr vars e
        | SBreak => brk
        | SBlock b => block brk [] vars b
        | SIf c a b => ck_expr vars c && ck_stmt brk vars a && match b with Some b => ck_stmt brk vars b | None => true end
        | SSwitch e cases =>
          ck_expr vars e && bool_decide (NoDup (omap label_name cases)) &&
          (fix all (cs : list (option expr * list stmt)) {struct cs} : bool :=
             match cs with
             | [] => true
             | (c, b) :: r => ck_label c && forallb (fun s => negb (bool_decide (is_Some (declared s)))) b && block true [] vars b && all r
             end) cases
        | SFor x i c a b body => no_macro x && ck_expr vars i && ck_expr (x :: vars) c && ck_assign (x :: vars) a b && ck_stmt true (x :: vars) body
        | SDecl t x i => no_macro x && ck_type t && match i with Some e => ck_expr vars e | None => true end
        | SInit t x args => no_macro x && ck_type t && forallb (ck_expr vars) args &&
            match ct_base t with BName [c] => match find_class p c with Some (_, ms) => ctor_n ms (length args) | None => false end | _ => false end
        end.
      Fixpoint ck_block (brk : bool) (here vars : list gostr) (l : list stmt) : bool :=
        match l with
        | [] => true
        | s :: r => ck_stmt brk vars s && match declared s with Some x => negb (mem x here) && ck_block brk (x :: here) (x :: vars) r | None => ck_block brk here vars r end
        end.
      Definition ends_with_return (l : list stmt) : bool := match last l with Some (SReturn (Some _)) => true | _ => false end.
    End Body.

    Definition ck_params (ps : list param) : bool := forallb ck_type (map fst ps) && distinct (map snd ps) && forallb no_macro (map snd ps).
    Definition returns_value (r : option ctype) : bool := match r with Some t => bool_decide (t <> CType false BVoid []) | None => false end.
    Definition ck_return (r : option ctype) : bool := match r with Some t => ck_type t | None => true end.
    Definition ck_member (c : gostr) (i : member) : bool :=
      match i with
      | MLabel _ => true
      | MMethod None x ps => str_eqb x c && ck_params ps
      | MMethod (Some t) x ps => no_call_macro x && ck_type t && ck_params ps
      | MField t x e => no_macro x && ck_type t && match e with Some e => ck_expr (Some c) [] e | None => true end
      end.
    Definition declares_method (ms : list member) (r : option ctype) (f : gostr) (ts : list ctype) : bool :=
      existsb (fun i => match i with MMethod r' x ps => bool_decide (r' = r) && str_eqb x f && bool_decide (map fst ps = ts) | _ => false end) ms.
    Definition ck_body (cls : option gostr) (r : option ctype) (ps : list param) (b : list stmt) : bool :=
      ck_block cls (returns_value r) false (map snd ps) (map snd ps) b && (negb (returns_value r) || ends_with_return b).
    Definition ck_item (i : citem) : bool :=
      match i with
      | CPre _ => true
      | CVar t x e => no_macro x && ck_type t && ck_expr None [] e
      | CEnum x fs => no_macro x && distinct fs && forallb no_macro fs
      | CClass c b ms => no_macro c && match b with Some q => ck_base (BName q) | None => true end &&
          distinct (c :: method_names ms ++ field_names ms) && forallb (ck_member c) ms
      | CFun r q ps b =>
        forallb no_call_macro q && ck_return r && ck_params ps &&
        match q with
        | [c; f] => match find_class p c with
                    | Some (_, ms) => declares_method ms r f (map fst ps) && ck_body (Some c) r ps b
                    | None => ck_body None r ps b
                    end
        | _ => ck_body None r ps b
        end
      end.
  End Env.

  (** Each item is checked against what comes before it, and itself. *)
  Fixpoint ck_items (before : list citem) (l : list citem) : bool :=
    match l with
    | [] => true
    | i :: r => ck_item (before ++ [i]) i && ck_items (before ++ [i]) r
    end.
  Definition global_names (p : list citem) : list gostr :=
    omap (fun i => match i with CVar _ x _ => Some x | CEnum x _ => Some x | CClass x _ _ => Some x | CFun _ [x] _ _ => Some x | _ => None end) p.
  Definition function_names (p : list citem) : list (list gostr) := omap (fun i => match i with CFun _ q _ _ => Some q | _ => None end) p.
  (** Everything declared is declared once, and the methods of a class are all defined. *)
  Definition method_defined (p : list citem) (c : gostr) (i : member) : bool :=
    match i with
    | MMethod r x ps => existsb (fun j => match j with CFun r' q ps' _ => bool_decide (r' = r) && path_eqb q [c; x] && bool_decide (map fst ps' = map fst ps) | _ => false end) p
    | _ => true
    end.
  Definition declarations_ok (p : list citem) : bool :=
    ck_items [] p && distinct (global_names p) && bool_decide (NoDup (function_names p)) &&
    forallb (fun i => match i with CClass c _ ms => forallb (method_defined p c) ms | _ => true end) p.
End Static.
