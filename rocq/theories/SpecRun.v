(** * Specification vocabulary for main.cpp: what a program of the C++ subset does when run

    The meaning of the parts of C++ that SpecCxx.v reads, of the prelude rtcg.h/rtcg.cpp
    (rtcg::TestCase, rtcg::Status, rtcg::Outcome), and of the library calls found in test
    programs (streams, ROS).  A program either ends with an exit code, or waits for input that is
    not there, or goes on for more rounds of a loop than it was given, or is faulty: a name is not declared,
    types do not match, a literal is malformed. *)
From Verif Require Export SpecMain.

(** ** Values, effects, inputs *)
Inductive cval :=
| VInt (z : Z) | VStr (s : gostr) | VBool (b : bool) | VUnit
| VEnum (q : list gostr)                     (* an enumerator, by its full name *)
| VNew (t : ctype)                           (* a variable without a value yet *)
| VObj (cls : gostr) (at_ : list gostr)      (* an object, and where it is *)
| VMethod (cls m : gostr)                    (* a pointer to a method *)
| VOstream (q : gostr) | VCin | VEndl        (* std::cout and std::cerr, std::cin, std::endl *)
| VNode | VTopic (t : gostr) | VHandle.      (* ros::NodeHandle, ros::Publisher, subscribers and timers *)
(** A chain of << into a stream, and a message published on a topic. *)
Inductive effect := FPrint (stream : gostr) (parts : list cval) | FPublish (topic : gostr) (v : cval).
(** A word typed by the user, the end of what they type, a message on a topic, the passing of a timer's period. *)
Inductive input := IWord (w : gostr) | IClosed | IMsg (topic : gostr) (v : cval) | ITick (seconds : Z).

(** Fields of objects, by the path to them; local variables, innermost first; inputs to come;
    effects so far; topics subscribed to and timers, with the method to call; whether
    ros::shutdown() has been called. *)
Record world := World {
  w_fields : gmap (list gostr) cval;
  w_vars : list (gostr * cval);
  w_in : list input;
  w_out : list effect;
  w_subs : list (gostr * (cval * cval));
  w_timers : list (Z * (cval * cval));
  w_down : bool;
}.
Definition set_fields f w := World f (w_vars w) (w_in w) (w_out w) (w_subs w) (w_timers w) (w_down w).
Definition set_vars x w := World (w_fields w) x (w_in w) (w_out w) (w_subs w) (w_timers w) (w_down w).
Definition set_in i w := World (w_fields w) (w_vars w) i (w_out w) (w_subs w) (w_timers w) (w_down w).
Definition put_out e w := World (w_fields w) (w_vars w) (w_in w) (w_out w ++ [e]) (w_subs w) (w_timers w) (w_down w).
Definition add_sub s w := World (w_fields w) (w_vars w) (w_in w) (w_out w) (w_subs w ++ [s]) (w_timers w) (w_down w).
Definition add_timer t w := World (w_fields w) (w_vars w) (w_in w) (w_out w) (w_subs w) (w_timers w ++ [t]) (w_down w).
Definition shut_down w := World (w_fields w) (w_vars w) (w_in w) (w_out w) (w_subs w) (w_timers w) true.

Inductive result (A : Type) := Fine (a : A) (w : world) | Waits (w : world) | Busy (w : world) | Fault.
Arguments Fine {A}. Arguments Waits {A}. Arguments Busy {A}. Arguments Fault {A}.
Definition rbind {A B} (r : result A) (k : A -> world -> result B) : result B :=
  match r with Fine a w => k a w | Waits w => Waits w | Busy w => Busy w | Fault => Fault end.
Notation "' ( x , w ) <~ r ; k" := (rbind r (fun x w => k)) (at level 65, r at level 100, k at level 200, x name, w name).
Definition opt {A} (o : option A) (w : world) : result A := match o with Some a => Fine a w | None => Fault end.

(** ** Declarations *)
Definition str_eqb (a b : gostr) : bool := bool_decide (a = b).
Definition path_eqb (a b : list gostr) : bool := bool_decide (a = b).
Fixpoint find_fun (p : list citem) (q : list gostr) : option (list param * list stmt) :=
  match p with
  | [] => None
  | CFun _ q' ps b :: r => if path_eqb q' q then Some (ps, b) else find_fun r q
  | _ :: r => find_fun r q
  end.
Fixpoint find_class (p : list citem) (c : gostr) : option (option (list gostr) * list member) :=
  match p with
  | [] => None
  | CClass c' b ms :: r => if str_eqb c' c then Some (b, ms) else find_class r c
  | _ :: r => find_class r c
  end.
Fixpoint find_const (p : list citem) (x : gostr) : option expr :=
  match p with
  | [] => None
  | CVar _ y e :: r => if str_eqb y x then Some e else find_const r x
  | _ :: r => find_const r x
  end.
Fixpoint has_method (ms : list member) (m : gostr) : bool :=
  match ms with
  | [] => false
  | MMethod (Some _) x _ :: r => str_eqb x m || has_method r m
  | _ :: r => has_method r m
  end.
Definition class_has (p : list citem) (c m : gostr) : bool :=
  match find_class p c with Some (_, ms) => has_method ms m | None => false end.
(** rtcg.h:21-48. *)
Definition prelude_enums : list (list gostr) :=
  map (fun x => [lit "rtcg"; lit "Outcome"; x]) [lit "UNSET"; lit "INC"; lit "FAIL"; lit "PASS"] ++
  map (fun x => [lit "rtcg"; lit "Status"; x]) [lit "WAIT_START"; lit "WAIT_IN"; lit "WAIT_OUT"; lit "OFF_SCRIPT"; lit "TIMEOUT"; lit "FAIL"; lit "BUG"].
Definition enumerator (p : list citem) (q : list gostr) : bool :=
  existsb (path_eqb q) prelude_enums ||
  existsb (fun i => match i with CEnum e fs => existsb (fun f => path_eqb [e; f] q) fs | _ => false end) p.
(** rtcg.cpp:66-90. *)
Definition status_of (v : cval) : option status :=
  match v with
  | VEnum [r; s; x] =>
    if str_eqb r (lit "rtcg") && str_eqb s (lit "Status") then
      if str_eqb x (lit "WAIT_START") then Some WAIT_START else if str_eqb x (lit "WAIT_IN") then Some WAIT_IN
      else if str_eqb x (lit "WAIT_OUT") then Some WAIT_OUT else if str_eqb x (lit "OFF_SCRIPT") then Some OFF_SCRIPT
      else if str_eqb x (lit "TIMEOUT") then Some TIMEOUT else if str_eqb x (lit "FAIL") then Some FAIL
      else if str_eqb x (lit "BUG") then Some BUG else None
    else None
  | _ => None
  end.

(** ** Names and variables *)
Fixpoint var_of {A} (x : gostr) (l : list (gostr * A)) : option A :=
  match l with [] => None | (y, v) :: r => if str_eqb y x then Some v else var_of x r end.
Fixpoint set_var {A} (x : gostr) (v : A) (l : list (gostr * A)) : list (gostr * A) :=
  match l with [] => [] | (y, u) :: r => if str_eqb y x then (y, v) :: r else (y, u) :: set_var x v r end.
(** The object whose method is running: its class and place. *)
Notation self := (option (gostr * list gostr)).
Definition field_of (this : self) (x : gostr) : option (list gostr) := match this with Some (_, at_) => Some (at_ ++ [x]) | None => None end.
Definition const_value (e : expr) : option cval := match e with ENum n => (fun n => VInt (Z.of_N n)) <$> nat_lit n | _ => None end.
Definition std_name (q : list gostr) : option cval :=
  if path_eqb q [lit "std"; lit "cout"] then Some (VOstream (lit "cout"))
  else if path_eqb q [lit "std"; lit "cerr"] then Some (VOstream (lit "cerr"))
  else if path_eqb q [lit "std"; lit "cin"] then Some VCin
  else if path_eqb q [lit "std"; lit "endl"] then Some VEndl else None.
Definition name_value (p : list citem) (this : self) (q : list gostr) (w : world) : option cval :=
  match q with
  | [x] => match var_of x (w_vars w) with
           | Some v => Some v
           | None => match (match field_of this x with Some k => w_fields w !! k | None => None end) with
                     | Some v => Some v
                     | None => match find_const p x with Some e => const_value e | None => None end
                     end
           end
  | _ => if enumerator p q then Some (VEnum q) else std_name q
  end.
Definition store (this : self) (a : expr) (v : cval) (w : world) : result unit :=
  match a with
  | EName [x] => match var_of x (w_vars w) with
                 | Some _ => Fine tt (set_vars (set_var x v (w_vars w)) w)
                 | None => match field_of this x with
                           | Some k => match w_fields w !! k with Some _ => Fine tt (set_fields (<[k := v]> (w_fields w)) w) | None => Fault end
                           | None => Fault
                           end
                 end
  | _ => Fault
  end.
Definition str_value (s : gostr) : option cval := VStr <$> str_body (s ++ [byte 34]).
Definition num_value (s : gostr) : option cval := (fun n => VInt (Z.of_N n)) <$> nat_lit s.

(** ** Operators *)
Definition same_value (a b : cval) : option bool :=
  match a, b with
  | VInt x, VInt y => Some (x =? y)%Z
  | VStr x, VStr y => Some (str_eqb x y)
  | VEnum x, VEnum y => Some (path_eqb x y)
  | _, _ => None
  end.
Definition bin (o : bop) (a b : cval) : option cval :=
  match o with
  | OpEq => VBool <$> same_value a b
  | OpNe => (fun x => VBool (negb x)) <$> same_value a b
  | OpAnd => match a, b with VBool x, VBool y => Some (VBool (x && y)) | _, _ => None end
  | _ => None
  end.
(** std::cin >> x.  A std::string takes the next word.  A number takes the digits at the beginning of the next
    word, after a sign if there is one, and the rest of the word stays.  (A minus wraps an unsigned number around,
    as in GNU's library.)  Without digits the number is 0; one that does not fit becomes the nearest that does;
    both times the stream fails, and a stream that has failed or is at its end stores nothing any more. *)
Fixpoint leading_digits (s : gostr) : gostr * gostr :=
  match s with
  | c :: r => if is_digit c then let '(d, t) := leading_digits r in (c :: d, t) else ([], s)
  | [] => ([], [])
  end.
Definition sign_of (s : gostr) : bool * gostr :=
  match s with
  | c :: r => if Ascii.eqb c "-" then (true, r) else if Ascii.eqb c "+" then (false, r) else (false, s)
  | [] => (false, s)
  end.
Definition read_number (unsigned : bool) (s : gostr) : Z * option gostr :=
  let '(neg, t) := sign_of s in
  let '(ds, rest) := leading_digits t in
  let n := Z.of_N (Spec.dec_value ds) in
  (if bool_decide (ds = []) then (0, None)
   else if unsigned then if n <? 2 ^ 32 then ((if neg then (- n) mod 2 ^ 32 else n), Some rest) else (2 ^ 32 - 1, None)
   else let z := if neg then - n else n in
        if z <? - 2 ^ 31 then (- 2 ^ 31, None) else if z <? 2 ^ 31 then (z, Some rest) else (2 ^ 31 - 1, None))%Z.
Definition after_number (rest : option gostr) (ins : list input) : list input :=
  match rest with None => [IClosed] | Some [] => ins | Some s => IWord s :: ins end.
(** What is stored in a variable with the value [old], and the inputs that are left. *)
Definition read_input (old : cval) (ins : list input) : option (cval * list input) :=
  match ins with
  | IWord s :: r =>
    match old with
    | VStr _ => Some (VStr s, r)
    | VNew (CType _ BUnsigned _) => let '(z, rest) := read_number true s in Some (VInt z, after_number rest r)
    | VNew (CType _ BInt _) => let '(z, rest) := read_number false s in Some (VInt z, after_number rest r)
    | _ => None
    end
  | IClosed :: _ => Some (old, ins)
  | _ => None
  end.
Definition read_var (this : self) (x : gostr) (w : world) : result cval :=
  match var_of x (w_vars w) with
  | None => Fault
  | Some old => match w_in w with
                | [] => Waits w
                | ins => match read_input old ins with Some (v, r) => Fine VCin (set_vars (set_var x v (w_vars w)) (set_in r w)) | None => Fault end
                end
  end.
Definition log_macros : list gostr := [lit "ROS_INFO_STREAM"; lit "ROS_ERROR_STREAM"].
Definition log_macro (q : list gostr) : bool := match q with [x] => existsb (str_eqb x) log_macros | _ => false end.

Section Program.
  (** The program, the conversion functions of convert.h, and a bound on the rounds of a loop. *)
  Context (p : list citem) (conv : gostr -> cval -> option cval) (rounds : nat).

  Section Bodies.
    (** How to call a function: the object it is called on, its full name, its arguments. *)
    Context (call : self -> list gostr -> list cval -> world -> result cval) (this : self).

    (** ros::spin(): callbacks are delivered until ros::shutdown(). *)
    Fixpoint deliver (l : list (cval * cval)) (args : list cval) (w : world) : result cval :=
      match l with
      | [] => Fine VUnit w
      | (VMethod c m, VObj c' at_) :: r => if str_eqb c c' then '(_, w) <~ call (Some (c, at_)) [c; m] args w; deliver r args w else Fault
      | _ :: _ => Fault
      end.
    Definition callbacks (i : input) (w : world) : option (list (cval * cval) * list cval) :=
      match i with
      | IMsg t v => Some (map snd (filter (fun s => str_eqb s.1 t = true) (w_subs w)), [v])
      | ITick n => Some (map snd (filter (fun s => (s.1 =? n)%Z = true) (w_timers w)), [VUnit])
      | _ => None
      end.
    Fixpoint spin (ins : list input) (w : world) : result cval :=
      if w_down w then Fine VUnit w
      else match ins with
           | [] => Waits w
           | i :: r => match callbacks i w with
                       | Some (l, args) => '(_, w) <~ deliver l args (set_in r w); spin r w
                       | None => Fault
                       end
           end.

    (** A call of a function by its name. *)
    Definition call_named (q : list gostr) (args : list cval) (w : world) : result cval :=
      match q, this with
      | [f], Some (c, at_) => if class_has p c f then call this [c; f] args w else
                              match args with [v] => opt (conv f v) w | _ => Fault end
      | [f], None => match args with [v] => opt (conv f v) w | _ => Fault end
      | _, _ =>
        if path_eqb q [lit "rtcg"; lit "status"; lit "isRunning"] then
          match args with [v] => opt ((fun s => VBool (is_running s)) <$> status_of v) w | _ => Fault end
        else if path_eqb q [lit "rtcg"; lit "status"; lit "exitCode"] then
          match args with [v] => opt ((fun s => VInt (exit_code s)) <$> status_of v) w | _ => Fault end
        else if path_eqb q [lit "ros"; lit "init"] then Fine VUnit w
        else if path_eqb q [lit "ros"; lit "Duration"] then match args with [VInt n] => Fine (VInt n) w | _ => Fault end
        else if path_eqb q [lit "ros"; lit "shutdown"] then Fine VUnit (shut_down w)
        else if path_eqb q [lit "ros"; lit "spin"] then spin (w_in w) w
        else call None q args w
      end.
    (** A call of a method of a value. *)
    Definition call_member (v : cval) (m : gostr) (args : list cval) (w : world) : result cval :=
      match v with
      | VObj c at_ =>
        if class_has p c m then call (Some (c, at_)) [c; m] args w
        else match find_class p c with
             | Some (Some b, _) => if path_eqb b [lit "rtcg"; lit "TestCase"] && str_eqb m (lit "getStatus")
                                   then opt (w_fields w !! (at_ ++ [lit "status_"])) w else Fault
             | _ => Fault
             end
      | VStr a => match args with [VStr b] => if str_eqb m (lit "compare") then Fine (VInt (if str_eqb a b then 0 else 1)) w else Fault | _ => Fault end
      | VTopic t => match args with [x] => if str_eqb m (lit "publish") then Fine VUnit (put_out (FPublish t x) w) else Fault | _ => Fault end
      | VNode =>
        match args with
        | [VStr t; VInt _] => if str_eqb m (lit "advertise") then Fine (VTopic t) w else Fault
        | [VStr t; VInt _; f; o] => if str_eqb m (lit "subscribe") then Fine VHandle (add_sub (t, (f, o)) w) else Fault
        | [VInt n; f; o] => if str_eqb m (lit "createTimer") then Fine VHandle (add_timer (n, (f, o)) w) else Fault
        | _ => Fault
        end
      | _ => Fault
      end.

    Fixpoint eval (e : expr) (w : world) {struct e} : result cval :=
      let evals := fix evals (l : list expr) (w : world) {struct l} : result (list cval) :=
        match l with
        | [] => Fine [] w
        | e :: r => '(v, w) <~ eval e w; '(vs, w) <~ evals r w; Fine (v :: vs) w
        end in
      (* e1 << e2 << ... *)
      let parts := fix parts (l : list (bop * expr)) (w : world) {struct l} : result (list cval) :=
        match l with
        | [] => Fine [] w
        | (OpShl, e) :: r => '(v, w) <~ eval e w; '(vs, w) <~ parts r w; Fine (v :: vs) w
        | _ :: _ => Fault
        end in
      let bins := fix bins (a : cval) (l : list (bop * expr)) (w : world) {struct l} : result cval :=
        match l with
        | [] => Fine a w
        | (o, e) :: r => '(b, w) <~ eval e w; '(c, w) <~ opt (bin o a b) w; bins c r w
        end in
      let posts := fix posts (v : cval) (l : list post) (w : world) {struct l} : result cval :=
        match l with
        | [] => Fine v w
        | XDot m :: XCall args :: r => '(vs, w) <~ evals args w; '(v, w) <~ call_member v m vs w; posts v r w
        | XDot m :: XInst _ :: XCall args :: r => '(vs, w) <~ evals args w; '(v, w) <~ call_member v m vs w; posts v r w
        | _ => Fault
        end in
      match e with
      | EName q => opt (name_value p this q w) w
      | EStr s => opt (str_value s) w
      | ENum s => opt (num_value s) w
      | EUn UNeg e => '(v, w) <~ eval e w; match v with VInt z => Fine (VInt (- z)) w | _ => Fault end
      | EUn UNot e => '(v, w) <~ eval e w; match v with VBool b => Fine (VBool (negb b)) w | _ => Fault end
      | EUn UAddr (EName [c; m]) => if class_has p c m then Fine (VMethod c m) w else Fault
      | EUn UAddr e => '(v, w) <~ eval e w; match v with VObj c a => Fine (VObj c a) w | _ => Fault end
      | EOps e l =>
        '(v, w) <~ eval e w;
        match v with
        | VOstream s => '(vs, w) <~ parts l w; Fine (VOstream s) (put_out (FPrint s vs) w)
        | VCin => match l with [(OpShr, EName [x])] => read_var this x w | _ => Fault end
        | _ => bins v l w
        end
      | EPost (EName q) (XCall args :: r) =>
        if log_macro q then
          match args, r with
          | [EOps e l], [] => '(v, w) <~ eval e w; '(vs, w) <~ parts l w; Fine VUnit (put_out (FPrint (concat q) (v :: vs)) w)
          | _, _ => Fault
          end
        else '(vs, w) <~ evals args w; '(v, w) <~ call_named q vs w; posts v r w
      | EPost e l => '(v, w) <~ eval e w; posts v l w
      end.
    Fixpoint evals (l : list expr) (w : world) : result (list cval) :=
      match l with
      | [] => Fine [] w
      | e :: r => '(v, w) <~ eval e w; '(vs, w) <~ evals r w; Fine (v :: vs) w
      end.

    (** ** Objects *)
    (** The fields of a new object of class [c] at [at_], with those of its parts; the number bounds their depth. *)
    Fixpoint construct (n : nat) (c : gostr) (at_ : list gostr) (w : world) : result unit :=
      match n with
      | 0 => Fault
      | S n =>
        match find_class p c with
        | None => Fault
        | Some (b, ms) =>
          let w := match b with
                   | Some q => if path_eqb q [lit "rtcg"; lit "TestCase"]
                               then set_fields (<[at_ ++ [lit "status_"] := VEnum [lit "rtcg"; lit "Status"; lit "WAIT_START"]]> (w_fields w)) w else w
                   | None => w
                   end in
          (fix fields (ms : list member) (w : world) : result unit :=
             match ms with
             | [] => Fine tt w
             | MField t x i :: r =>
               '(_, w) <~ (match i, t with
                          | Some e, _ => '(v, w) <~ eval e w; Fine tt (set_fields (<[at_ ++ [x] := v]> (w_fields w)) w)
                          | None, CType _ (BName [d]) [] => '(_, w) <~ construct n d (at_ ++ [x]) w; Fine tt (set_fields (<[at_ ++ [x] := VObj d (at_ ++ [x])]> (w_fields w)) w)
                          | None, _ => Fine tt (set_fields (<[at_ ++ [x] := VNew t]> (w_fields w)) w)
                          end);
               fields r w
             | _ :: r => fields r w
             end) ms w
        end
      end.
    (** A variable declared without an initial value. *)
    Definition default_value (t : ctype) : cval :=
      match ct_base t with
      | BName q => if path_eqb q [lit "std"; lit "string"] then VStr [] else if path_eqb q [lit "ros"; lit "NodeHandle"] then VNode else VNew t
      | _ => VNew t
      end.

    (** ** Statements *)
    (** How a statement ends: normally, by break, by return. *)
    Inductive flow := Go | Brk | Ret (v : cval).
    Definition declare (x : gostr) (v : cval) (w : world) : world := set_vars ((x, v) :: w_vars w) w.
    (** At the end of a block its variables are gone. *)
    Definition leave (outer : list (gostr * cval)) (w : world) : world := set_vars (drop (length (w_vars w) - length outer) (w_vars w)) w.
    Definition label (e : expr) (w : world) : option (list gostr) :=
      match e with EName q => match name_value p this q w with Some (VEnum k) => Some k | _ => None end | _ => None end.
    Definition label_is (k : list gostr) (c : option expr) (w : world) : bool :=
      match c with Some e => match label e w with Some q => path_eqb q k | None => false end | None => false end.
    Definition label_ok (c : option expr) (w : world) : bool := match c with Some e => bool_decide (is_Some (label e w)) | None => true end.

    Fixpoint exec (s : stmt) (w : world) {struct s} : result flow :=
      let execs := fix execs (l : list stmt) (w : world) {struct l} : result flow :=
        match l with
        | [] => Fine Go w
        | s :: r => '(f, w) <~ exec s w; match f with Go => execs r w | _ => Fine f w end
        end in
      match s with
      | SExpr e => '(_, w) <~ eval e w; Fine Go w
      | SAssign a b => '(v, w) <~ eval b w; '(_, w) <~ store this a v w; Fine Go w
      | SReturn None => Fine (Ret VUnit) w
      | SReturn (Some e) => '(v, w) <~ eval e w; Fine (Ret v) w
      | SBreak => Fine Brk w
      | SBlock b => let outer := w_vars w in '(f, w) <~ execs b w; Fine f (leave outer w)
      | SIf c a b =>
        '(v, w) <~ eval c w;
        match v with
        | VBool true => exec a w
        | VBool false => match b with Some b => exec b w | None => Fine Go w end
        | _ => Fault
        end
      | SSwitch e cases =>
        '(v, w) <~ eval e w;
        match v with
        | VEnum k =>
          if forallb (fun c => label_ok c.1 w) cases then
            let found := existsb (fun c => label_is k c.1 w) cases in
            let starts c := if found then label_is k c w else match c with None => true | Some _ => false end in
            let outer := w_vars w in
            '(f, w) <~ (fix from (started : bool) (cases : list (option expr * list stmt)) (w : world) {struct cases} : result flow :=
               match cases with
               | [] => Fine Go w
               | (c, b) :: r =>
                 if started || starts c then '(f, w) <~ execs b w; match f with Go => from true r w | Brk => Fine Go w | Ret v => Fine (Ret v) w end
                 else from false r w
               end) false cases w;
            Fine f (leave outer w)
          else Fault
        | _ => Fault
        end
      | SFor x i c a b body =>
        let outer := w_vars w in
        '(v, w) <~ eval i w;
        '(f, w) <~ (fix loop (n : nat) (w : world) {struct n} : result flow :=
           match n with
           | 0 => Busy w
           | S n =>
             '(v, w) <~ eval c w;
             match v with
             | VBool true =>
               '(f, w) <~ exec body w;
               match f with
               | Go => '(v, w) <~ eval b w; '(_, w) <~ store this a v w; loop n w
               | Brk => Fine Go w
               | Ret v => Fine (Ret v) w
               end
             | VBool false => Fine Go w
             | _ => Fault
             end
           end) rounds (declare x v w);
        Fine f (leave outer w)
      | SDecl t x None => Fine Go (declare x (default_value t) w)
      | SDecl _ x (Some e) => '(v, w) <~ eval e w; Fine Go (declare x v w)
      | SInit (CType _ (BName [c]) []) x args =>
        '(vs, w) <~ evals args w; '(_, w) <~ construct (length p) c [x] w; '(_, w) <~ call (Some (c, [x])) [c; c] vs w; Fine Go (declare x (VObj c [x]) w)
      | SInit _ _ _ => Fault
      end.
    Fixpoint execs (l : list stmt) (w : world) : result flow :=
      match l with
      | [] => Fine Go w
      | s :: r => '(f, w) <~ exec s w; match f with Go => execs r w | _ => Fine f w end
      end.
  End Bodies.

  (** Calls, nested at most so many deep. *)
  Fixpoint run_call (n : nat) (this : self) (q : list gostr) (args : list cval) (w : world) : result cval :=
    match n with
    | 0 => Fault
    | S n =>
      match find_fun p q with
      | Some (ps, body) =>
        if length ps =? length args then
          let vars := w_vars w in
          '(f, w) <~ execs (run_call n) this body (set_vars (zip (map snd ps) args) w);
          match f with Go => Fine VUnit (set_vars vars w) | Ret v => Fine v (set_vars vars w) | Brk => Fault end
        else Fault
      | None => Fault
      end
    end.
  (** main, with its arguments if it has any. *)
  Definition run_main (n : nat) (ins : list input) : result cval :=
    let w := World ∅ [] ins [] [] [] false in
    match find_fun p [lit "main"] with
    | Some ([], _) => run_call n None [lit "main"] [] w
    | Some ([_; _], _) => run_call n None [lit "main"] [VInt 1; VUnit] w
    | _ => Fault
    end.
End Program.
