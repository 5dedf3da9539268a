(** * The generated C++ test programs: internal/gen/cpp/func.go, internal/strmanip, the
    templates under internal/gen/cpp/embed/templates and the prelude rtcg.{h,cpp}.

    The generator is modelled as a function from a machine to the program it writes
    ([gen_program]), the program being represented by what the templates interpolate:
    enumerators, function names, case labels, literals, call targets, all as text.  The C++
    run-time behaviour of such a program is given by [enter], [end_test] and the callbacks
    below.  Logging, the interactive prompt's output and time stamps are not modelled. *)
From Verif Require Export Stm.

(** ** strmanip/strmanip.go *)

(** [UpcaseFirst] (strmanip.go:10-23).  Simplification: ASCII letters only; a non-ASCII first
    rune is left alone, and invalid UTF-8 is not replaced by U+FFFD. *)
Definition upcase_first (s : gostr) : gostr :=
  match s with [] => [] | c :: r => upper_c c :: r end.

(** [formatter.format] in mode LowerUnderscored (strmanip.go:39-71), from a given value of
    lastLower; [markSplit] writes an underscore.  Simplification: unicode.IsUpper, IsLower and
    ToLower are taken on ASCII letters only. *)
Fixpoint lower_underscored (last_lower : bool) (s : gostr) : gostr :=
  match s with
  | [] => []
  | c :: r =>
    if is_upper c && last_lower then "_"%char :: lower_c c :: lower_underscored (is_lower c) r
    else if Ascii.eqb c "_" then "_"%char :: lower_underscored false r
    else lower_c c :: lower_underscored (is_lower c) r
  end.
(** [ToLowerUnderscored] (strmanip.go:26-31). *)
Definition to_lower_underscored (s : gostr) : gostr := lower_underscored false s.

(** ** func.go *)

(** [CallbackName] (func.go:33-35). *)
Definition callback_name (cha : gostr) : gostr := cha ++ lit "Callback".
(** [ChannelMsgType] (:39-41), [ChannelValueType] (:45-47). *)
Definition channel_msg_type (cha : gostr) : gostr := upcase_first cha ++ lit "Msg".
Definition channel_value_type (cha : gostr) : gostr := upcase_first cha ++ lit "Val".
(** [ConvertTo], [ConvertFrom], [convert] (:50-61). *)
Definition convert_to (cha : gostr) : gostr := lit "to" ++ upcase_first cha.
Definition convert_from (cha : gostr) : gostr := lit "from" ++ upcase_first cha.
(** [StateEntry] (:64-66). *)
Definition state_entry (id : gostr) : gostr := lit "enter" ++ upcase_first id.
(** [EnumField] (:84-86); [StateEnum], [TestEnum] (:74-81) and [OutcomeEnum] (:69-71) put it
    after a fixed State::, Test:: or rtcg::Outcome::. *)
Definition enum_field (s : gostr) : gostr := to_upper s.
Definition outcome_enum (o : outcome) : gostr := enum_field (outcome_string o).

(** [StdType] (:89-102). *)
Definition std_type (t : rstype) : gostr :=
  if is_enum_ty t then lit "std::string"
  else if is_nat_ty t then lit "unsigned int"
  else if is_int_ty t then lit "int"
  else if is_real_ty t then lit "double"
  else lit "void *".

(** [Value] (:105-114). *)
Definition cpp_value (v : value) : gostr :=
  if is_enum_ty (value_type v) then (lit """" ++ value_string_value v) ++ lit """"
  else value_string_value v.

(** ** The generated program *)

(** The test of an output transition (out_callback.cpp.tmpl:15-22): [value.compare(LIT) == 0]
    or [value == LIT], with the text of the literal. *)
Inductive vtest := GCompare (l : gostr) | GEqual (l : gostr).
(** The last part of an entry function (state_entry.cpp.tmpl:15-41). *)
Inductive entry_act :=
| ActFail                                      (* end(FAIL) *)
| ActIn (send : option (gostr * gostr))        (* WAIT_IN; send a literal on a channel *)
| ActOut.                                      (* WAIT_OUT *)
(** An entry function (stm.cpp.tmpl:139-146, state_entry.cpp.tmpl). *)
Record entry := Entry {
  en_name : gostr;                       (* the function *)
  en_state : gostr;                      (* state_ = State::... *)
  en_verdict : list (gostr * gostr);     (* verdict_.TEST(rtcg::Outcome::...) *)
  en_act : entry_act;
}.
(** An output callback (stm.cpp.tmpl:124-131, out_callback.cpp.tmpl): the cases of the switch,
    each a chain of tests with the entry function to call. *)
Record out_cb := OutCb {
  oc_name : gostr;                                      (* the callback *)
  oc_chan : gostr;                                      (* the channel, as typed by the user *)
  oc_cases : list (gostr * list (vtest * gostr));
}.
Record program := Program {
  p_tests : list gostr;                     (* members of Verdict (verdict.cpp.tmpl) *)
  p_enum : list gostr;                      (* enum class State (state_meta.cpp.tmpl:7-12) *)
  p_state0 : gostr;                         (* initial value of state_ (stm.cpp.tmpl:33) *)
  p_initial : gostr;                        (* entry function of the initial state (:52,:110) *)
  p_delay : bool;                           (* FirstStateHasIn *)
  p_accept : option (list (gostr * gostr)); (* inputAcceptedCallback, if HasIn *)
  p_outs : list out_cb;
  p_entries : list entry;
  p_types : type_map;                       (* functions of convert.h: the basic type of each channel *)
}.

(** Go templates range over maps in increasing order of keys. *)
Fixpoint str_leb (a b : gostr) : bool :=
  match a, b with
  | [], _ => true
  | _ :: _, [] => false
  | x :: a', y :: b' => if (code x <? code y)%N then true
                        else if (code y <? code x)%N then false else str_leb a' b'
  end.
Definition key_le {A} (x y : gostr * A) : Prop := str_leb x.1 y.1 = true.
Global Instance key_le_dec {A} : RelDecision (@key_le A).
Proof. intros x y. unfold key_le. apply _. Defined.
Definition range_map {A} (m : gmap gostr A) : list (gostr * A) := merge_sort key_le (map_to_list m).

(** out_callback.cpp.tmpl:15-22. *)
Definition gen_guard (v : value) : vtest :=
  if is_enum_ty (value_type v) then GCompare ((lit """" ++ value_string_value v) ++ lit """")
  else GEqual (value_string_value v).
(** stm.cpp.tmpl:124-131 and out_callback.cpp.tmpl. *)
Definition gen_out (a : agg) : out_cb :=
  OutCb (callback_name (ch_name (ag_chan a))) (ch_name (ag_chan a))
        (map (fun sts => (enum_field sts.1,
                          map (fun t => (gen_guard (tr_value t), state_entry (tr_next t))) sts.2))
             (range_map (ag_states a))).
(** in_callback.cpp.tmpl: [index $ts 0] fails on an empty list. *)
Fixpoint gen_accept (l : list (gostr * list transition)) : option (list (gostr * gostr)) :=
  match l with
  | [] => Some []
  | (s, t :: _) :: rest =>
    match gen_accept rest with
    | Some cs => Some ((enum_field s, state_entry (tr_next t)) :: cs)
    | None => None
    end
  | (_, []) :: _ => None
  end.
(** stm.cpp.tmpl:139-146 and state_entry.cpp.tmpl. *)
Definition gen_entry (s : state) : entry :=
  Entry (state_entry (st_id s)) (enum_field (st_id s))
        (map (fun to => (to.1, outcome_enum to.2)) (range_map (st_verdict s)))
        (if verdict_is OFail (st_verdict s) then ActFail
         else if state_has_in s then
           ActIn (match state_in s with
                  | Some (c, t) => Some (ch_name c, cpp_value (tr_value t))
                  | None => None
                  end)
         else ActOut).

(** main.cpp for one test (base.cpp.tmpl), with convert.h's channel types; [None] is a failing
    template: no state at all ([index .Stm.States 0], stm.cpp.tmpl:33), or an output channel
    without a type (animate/main_body.cpp.tmpl:46).  [tests] is the order in which the set of
    tests is listed. *)
Definition gen_program (m : stm) (types : type_map) (tests : list gostr) : option program :=
  match m_states m with
  | [] => None
  | s0 :: _ =>
    let tc := make_transitions m in
    if forallb (fun a => bool_decide (is_Some (types !! ch_name (ag_chan a)))) (tc_out tc) then
      match gen_accept (range_map (tc_in_merged tc)) with
      | None => None
      | Some acc =>
        Some (Program tests (map (fun s => enum_field (st_id s)) (m_states m))
                (enum_field (st_id s0)) (state_entry (st_id s0))
                (tc_first_state_has_in tc)
                (if tc_has_in tc then Some acc else None)
                (map gen_out (tc_out tc)) (map gen_entry (m_states m)) types)
      end
    else None
  end.

(** ** C++ literals and conversions *)

(** A C++ string literal body up to the closing quote: escapes of \\, quotes, \n, \r and \t
    are understood; raw line breaks, NUL and other escapes are not ([None]). *)
Fixpoint str_body (s : gostr) : option gostr :=
  match s with
  | [] => None
  | c :: r =>
    if Ascii.eqb c (byte 34) then match r with [] => Some [] | _ => None end
    else if Ascii.eqb c (byte 92) then
      match r with
      | d :: r' =>
        let esc := if Ascii.eqb d (byte 92) then Some (byte 92)
                   else if Ascii.eqb d (byte 34) then Some (byte 34)
                   else if Ascii.eqb d "n" then Some (byte 10)
                   else if Ascii.eqb d "r" then Some (byte 13)
                   else if Ascii.eqb d "t" then Some (byte 9)
                   else None in
        match esc, str_body r' with
        | Some x, Some b => Some (x :: b)
        | _, _ => None
        end
      | [] => None
      end
    else if Ascii.eqb c (byte 10) || Ascii.eqb c (byte 13) || Ascii.eqb c (byte 0) then None
    else match str_body r with Some b => Some (c :: b) | None => None end
  end.
(** A decimal C++ integer literal: no leading zero (that would be octal), at most 2^63-1. *)
Definition nat_lit (s : gostr) : option N :=
  match s with
  | c :: _ :: _ => if Ascii.eqb c "0" then None
                   else match parse_digits s with
                        | Some n => if (n <? int64_cutoff)%N then Some n else None
                        | None => None
                        end
  | _ => parse_digits s
  end.
(** The value denoted by a C++ expression text: a string literal or a (negated) integer. *)
Definition cpp_lit (s : gostr) : option valuable :=
  match s with
  | [] => None
  | c :: r =>
    if Ascii.eqb c (byte 34) then EnumV <$> str_body r
    else if Ascii.eqb c "-" then (fun n => IntV (- Z.of_N n)) <$> nat_lit r
    else (fun n => IntV (Z.of_N n)) <$> nat_lit s
  end.

(** Passing a value to a parameter of the standard type of [t] (the const parameter of the
    toX conversion functions): unsigned and int are 32 bits wide and wrap around; a double
    holds integers exactly up to 2^53; anything else does not compile. *)
Definition wrap32 (z : Z) : Z := (z mod 2 ^ 32)%Z.
Definition swrap32 (z : Z) : Z := ((z + 2 ^ 31) mod 2 ^ 32 - 2 ^ 31)%Z.
Definition pass_value (t : rstype) (v : valuable) : option valuable :=
  match v with
  | EnumV s => if is_enum_ty t then Some (EnumV s) else None
  | IntV z => if is_nat_ty t then Some (IntV (wrap32 z))
              else if is_int_ty t then Some (IntV (swrap32 z))
              else if is_real_ty t then (if (Z.abs z <=? 2 ^ 53)%Z then Some (IntV z) else None)
              else None
  end.

(** ** The prelude (rtcg.h, rtcg.cpp) *)

(** rtcg.h:36-48. *)
Inductive status := WAIT_START | WAIT_IN | WAIT_OUT | OFF_SCRIPT | TIMEOUT | FAIL | BUG.
Global Instance status_eq_dec : EqDecision status.
Proof. solve_decision. Defined.
(** rtcg.cpp:66-77. *)
Definition is_running (s : status) : bool :=
  match s with WAIT_START | WAIT_IN | WAIT_OUT => true | _ => false end.
(** rtcg.cpp:79-90. *)
Definition exit_code (s : status) : Z :=
  match s with FAIL => 1 | BUG => 2 | _ => 0 end.

(** ** Run-time behaviour *)

(** The fields of StateMachine, and the inputs sent so far (channel, value). *)
Record cpp := Cpp {
  c_status : status;
  c_state : gostr;
  c_verdict : gmap gostr gostr;
  c_sent : list (gostr * valuable);
}.

(** [StateMachine::end] (stm.cpp.tmpl:67-84). *)
Definition end_test (s : status) (c : cpp) : cpp :=
  if is_running (c_status c)
  then Cpp (if is_running s then BUG else s) (c_state c) (c_verdict c) (c_sent c)
  else c.

(** The setters of Verdict (verdict.cpp.tmpl:30-39). *)
Definition set_verdict (v : gmap gostr gostr) (to : gostr * gostr) : gmap gostr gostr := <[to.1 := to.2]> v.

(** An entry function (stm.cpp.tmpl:141-146; state_entry.cpp.tmpl; animate/main.cpp.tmpl:13-15
    and ros/main.cpp.tmpl:28-30 for the sending).  [None]: the program is not valid C++ (no
    such function, or the literal does not fit the channel's type). *)
Definition run_entry (P : program) (e : entry) (c : cpp) : option cpp :=
  let c1 := Cpp (c_status c) (en_state e) (fold_left set_verdict (en_verdict e) (c_verdict c)) (c_sent c) in
  match en_act e with
  | ActFail => Some (end_test FAIL c1)
  | ActIn None => Some (Cpp WAIT_IN (c_state c1) (c_verdict c1) (c_sent c1))
  | ActIn (Some (ch, l)) =>
    match p_types P !! ch, cpp_lit l with
    | Some t, Some v =>
      match pass_value t v with
      | Some w => Some (Cpp WAIT_IN (c_state c1) (c_verdict c1) (c_sent c1 ++ [(ch, w)]))
      | None => None
      end
    | _, _ => None
    end
  | ActOut => Some (Cpp WAIT_OUT (c_state c1) (c_verdict c1) (c_sent c1))
  end.
Definition find_entry (P : program) (f : gostr) : option entry :=
  head (filter (fun e => en_name e = f) (p_entries P)).
Definition enter (P : program) (f : gostr) (c : cpp) : option cpp :=
  match find_entry P f with Some e => run_entry P e c | None => None end.

(** The value of a Verdict before any setter (verdict.cpp.tmpl:15-17). *)
Definition initial_verdict (P : program) : gmap gostr gostr :=
  list_to_map (map (fun t => (t, outcome_enum OUnset)) (p_tests P)).
(** The constructor (stm.cpp.tmpl:45-55; field initialisers :33 and rtcg.h:70). *)
Definition start (P : program) : option cpp :=
  let c0 := Cpp WAIT_START (p_state0 P) (initial_verdict P) [] in
  if p_delay P then Some c0 else enter P (p_initial P) c0.

(** [timeoutCallback] (stm.cpp.tmpl:91-99). *)
Definition timeout_callback (c : cpp) : cpp :=
  if is_running (c_status c) then end_test TIMEOUT c else c.
(** [initialDelayCallback] (stm.cpp.tmpl:103-111). *)
Definition initial_delay_callback (P : program) (c : cpp) : option cpp :=
  if bool_decide (c_status c = WAIT_START) then enter P (p_initial P) c else Some c.
(** [inputAcceptedCallback] (stm.cpp.tmpl:116-121, in_callback.cpp.tmpl). *)
Definition find_case {A} (s : gostr) (cases : list (gostr * A)) : option A :=
  snd <$> head (filter (fun kv => kv.1 = s) cases).
Definition input_accepted_callback (P : program) (c : cpp) : option cpp :=
  match p_accept P with
  | None => None
  | Some cases =>
    match find_case (c_state c) cases with
    | Some f => enter P f c
    | None => Some (end_test BUG c)
    end
  end.
(** The tests of an output callback: the comparison of a received value with a literal.  A
    comparison between a number and a string does not compile and is given as false here;
    C46 proves that generated programs have none. *)
Definition eval_guard (g : vtest) (v : valuable) : bool :=
  match g with GCompare l | GEqual l => bool_decide (cpp_lit l = Some v) end.
Fixpoint run_chain (P : program) (chain : list (vtest * gostr)) (v : valuable) (c : cpp) : option cpp :=
  match chain with
  | [] => Some (end_test OFF_SCRIPT c)
  | (g, f) :: rest => if eval_guard g v then enter P f c else run_chain P rest v c
  end.
(** An output callback (out_callback.cpp.tmpl) on the value [v] that the conversion function
    makes of the message. *)
Definition output_callback (P : program) (o : out_cb) (v : valuable) (c : cpp) : option cpp :=
  match find_case (c_state c) (oc_cases o) with
  | Some chain => run_chain P chain v c
  | None => Some (end_test OFF_SCRIPT c)
  end.

(** One round of the interactive loop (animate/main_body.cpp.tmpl:5-53): the word typed and,
    for an output, the value typed. *)
Definition animate_step (P : program) (choice : gostr) (v : valuable) (c : cpp) : option cpp :=
  if negb (is_running (c_status c)) then Some c                      (* the loop has ended *)
  else if bool_decide (choice = lit "timeout") then Some (timeout_callback c)
  else if p_delay P && bool_decide (choice = lit "ready") && bool_decide (c_status c = WAIT_START)
  then initial_delay_callback P c
  else if bool_decide (is_Some (p_accept P)) && bool_decide (choice = lit "accept") && bool_decide (c_status c = WAIT_IN)
  then input_accepted_callback P c
  else match head (filter (fun o => oc_chan o = choice) (p_outs P)) with
       | Some o => output_callback P o v c
       | None => Some c
       end.
(** main (entry.cpp.tmpl) of the animate variant on a script of words and values. *)
Fixpoint animate_loop (P : program) (script : list (gostr * valuable)) (c : cpp) : option cpp :=
  match script with
  | [] => Some c
  | (w, v) :: rest => match animate_step P w v c with
                      | Some c' => animate_loop P rest c'
                      | None => None
                      end
  end.
Definition animate (P : program) (script : list (gostr * valuable)) : option cpp :=
  match start P with Some c => animate_loop P script c | None => None end.

(** The callbacks as ROS delivers them (ros/main.cpp.tmpl:58-74): timers, the acknowledgement
    topic and one topic per output channel. *)
Inductive ros_event := RTimeout | RDelay | RAccept | ROut (chan : gostr) (v : valuable).
Definition ros_callback (P : program) (ev : ros_event) (c : cpp) : option cpp :=
  match ev with
  | RTimeout => Some (timeout_callback c)
  | RDelay => if p_delay P then initial_delay_callback P c else Some c
  | RAccept => match p_accept P with Some _ => input_accepted_callback P c | None => Some c end
  | ROut ch v => match head (filter (fun o => oc_chan o = ch) (p_outs P)) with
                 | Some o => output_callback P o v c
                 | None => Some c
                 end
  end.
(** ros::spin(): callbacks are delivered until end() calls ros::shutdown()
    (ros/main.cpp.tmpl:110-112). *)
Definition ros_step (P : program) (ev : ros_event) (c : cpp) : option cpp :=
  if is_running (c_status c) then ros_callback P ev c else Some c.
Fixpoint ros_loop (P : program) (evs : list ros_event) (c : cpp) : option cpp :=
  match evs with
  | [] => Some c
  | e :: rest => match ros_step P e c with Some c' => ros_loop P rest c' | None => None end
  end.
Definition ros (P : program) (evs : list ros_event) : option cpp :=
  match start P with Some c => ros_loop P evs c | None => None end.
