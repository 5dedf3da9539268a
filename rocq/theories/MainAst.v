(** * What main.cpp says, as a program of the C++ subset of SpecCxx.v

    Used in the proofs: the reader of SpecCxx.v finds exactly these items in the text of MainText.v. *)
From Verif Require Export LexProofs.
From Verif Require Export StmProofs.

Definition nm (x : gostr) : expr := EName [x].
Definition nm2 (a b : gostr) : expr := EName [a; b].
Definition nm3 (a b c : gostr) : expr := EName [a; b; c].
Definition call (q : list gostr) (args : list expr) : expr := EPost (EName q) [XCall args].
Definition mcall (o m : gostr) (args : list expr) : expr := EPost (EName [o]) [XDot m; XCall args].
Definition ecall (q : list gostr) (args : list expr) : stmt := SExpr (call q args).
Definition shl (l : list expr) : list (bop * expr) := map (fun e => (OpShl, e)) l.
Definition endl : expr := nm2 (lit "std") (lit "endl").
Definition cout (s : gostr) : stmt := SExpr (EOps (nm2 (lit "std") (lit "cout")) [(OpShl, EStr s)]).
Definition a_log (v : variant) (level : gostr) (p : expr) (ps : list expr) : stmt :=
  match v with
  | VRos => ecall [lit "ROS_" ++ to_upper level ++ lit "_STREAM"] [EOps p (shl (ps ++ [endl]))]
  | _ => SExpr (EOps (nm2 (lit "std") (lit "cerr")) (shl (EStr (lit "[" ++ level ++ lit "] ") :: p :: ps ++ [endl])))
  end.
Definition err : gostr := lit "error".
Definition status_q (x : gostr) : expr := nm3 (lit "rtcg") (lit "Status") x.
Definition outcome_q (x : gostr) : expr := nm3 (lit "rtcg") (lit "Outcome") x.
Definition state_q (id : gostr) : expr := nm2 (lit "State") (enum_field id).
Definition e_eq (a b : expr) : expr := EOps a [(OpEq, b)].
Definition e_ne (a b : expr) : expr := EOps a [(OpNe, b)].
Definition is_running_of (e : expr) : expr := call [lit "rtcg"; lit "status"; lit "isRunning"] [e].
Definition plain_t (q : list gostr) : ctype := CType false (BName q) [].
Definition void_t : ctype := CType false BVoid [].
Definition auto_t : ctype := CType false BAuto [].
Definition cstr_t : ctype := CType true BChar [PStar].
Definition outcome_t : ctype := plain_t [lit "rtcg"; lit "Outcome"].
Definition a_end (s : gostr) : stmt := ecall [lit "end"] [status_q s].
Definition fld (t : gostr) : gostr := t ++ ["_"%char].

(** ** Verdict *)
Definition a_dump (v : variant) (tests : list gostr) : citem :=
  CFun (Some void_t) [lit "Verdict"; lit "dump"] []
    ([a_log v info (EStr (lit "Final outcomes: ")) []] ++
     map (fun t => a_log v info (EStr (lit "  " ++ t ++ lit " = ")) [nm (fld t)]) tests).
Definition a_setter (v : variant) (t : gostr) : citem :=
  CFun (Some void_t) [lit "Verdict"; t] [(outcome_t, lit "new_val")]
    [SIf (e_eq (nm (fld t)) (nm (lit "new_val"))) (SReturn None) None;
     a_log v info (EStr (lit "Test " ++ t ++ lit " is now ")) [nm (lit "new_val"); EStr (lit "; was "); nm (fld t); EStr (lit ".")];
     SAssign (nm (fld t)) (nm (lit "new_val"))].
Definition a_verdict_members (tests : list gostr) : list member :=
  [MLabel true; MMethod (Some void_t) (lit "dump") []] ++
  map (fun t => MMethod (Some void_t) t [(outcome_t, lit "new_val")]) tests ++
  [MLabel false] ++ map (fun t => MField outcome_t (fld t) (Some (outcome_q (lit "UNSET")))) tests.
Definition a_verdict (v : variant) (tests : list gostr) : list citem :=
  [CClass (lit "Verdict") None (a_verdict_members tests); a_dump v tests] ++ map (a_setter v) tests.

(** ** States *)
Definition a_enum (states : list state) : citem := CEnum (lit "State") (map (fun s => enum_field (st_id s)) states).
Definition a_name (states : list state) : citem :=
  CFun (Some cstr_t) [lit "name"] [(plain_t [lit "State"], lit "s")]
    [SSwitch (nm (lit "s")) (map (fun s => (Some (state_q (st_id s)), [SReturn (Some (EStr (st_id s)))])) states);
     SReturn (Some (EStr (lit "???")))].

(** ** StateMachine *)
Definition pub_t : ctype := plain_t [lit "ros"; lit "Publisher"].
Definition a_ctor_params (v : variant) (ins : list agg) : list param :=
  match v with VRos => map (fun a => (pub_t, publisher_name (agg_name a))) ins | _ => [] end.
Definition a_timer_params (v : variant) : list param :=
  match v with VRos => [(CType true (BName [lit "ros"; lit "TimerEvent"]) [PAmp], lit "event")] | _ => [] end.
Definition a_accept_params (v : variant) : list param :=
  match v with VRos => [(CType true (BName [lit "std_msgs"; lit "Bool"; lit "ConstPtr"]) [PAmp], lit "msg")] | _ => [] end.
Definition a_out_params (a : agg) : list param := [(CType true (BName [channel_msg_type (agg_name a)]) [], lit "msg")].
Definition verdict_ref : ctype := CType false (BName [lit "Verdict"]) [PAmp].
Definition status_t : ctype := plain_t [lit "rtcg"; lit "Status"].
Definition a_members (v : variant) (tc : tctx) (s0 : gostr) (states : list state) : list member :=
  [MLabel true; MMethod None (lit "StateMachine") (a_ctor_params v (tc_in tc)); MMethod (Some verdict_ref) (lit "getVerdict") [];
   MMethod (Some void_t) (lit "timeoutCallback") (a_timer_params v)] ++
  (if tc_first_state_has_in tc then [MMethod (Some void_t) (lit "initialDelayCallback") (a_timer_params v)] else []) ++
  (if tc_has_in tc then [MMethod (Some void_t) (lit "inputAcceptedCallback") (a_accept_params v)] else []) ++
  map (fun a => MMethod (Some void_t) (callback_name (agg_name a)) (a_out_params a)) (tc_out tc) ++
  [MLabel false; MField (plain_t [lit "Verdict"]) (lit "verdict_") None; MField (plain_t [lit "State"]) (lit "state_") (Some (state_q s0))] ++
  match v with VRos => map (fun a => MField pub_t (fld (publisher_name (agg_name a))) None) (tc_in tc) | _ => [] end ++
  map (fun s => MMethod (Some void_t) (state_entry (st_id s)) []) states ++
  [MMethod (Some cstr_t) (lit "stateName") []; MMethod (Some void_t) (lit "end") [(status_t, lit "status")]].
Definition a_class (v : variant) (tc : tctx) (s0 : gostr) (states : list state) : citem :=
  CClass (lit "StateMachine") (Some [lit "rtcg"; lit "TestCase"]) (a_members v tc s0 states).
Definition SMq (x : gostr) : list gostr := [lit "StateMachine"; x].
Definition set_status (x : gostr) : stmt := SAssign (nm (lit "status_")) (status_q x).
Definition a_ctor (v : variant) (tc : tctx) (s0 : gostr) : citem :=
  CFun None (SMq (lit "StateMachine")) (a_ctor_params v (tc_in tc))
    ((if tc_first_state_has_in tc then [set_status (lit "WAIT_START")] else [ecall [state_entry s0] []]) ++
     match v with VRos => map (fun a => SAssign (nm (fld (publisher_name (agg_name a)))) (nm (publisher_name (agg_name a)))) (tc_in tc) | _ => [] end).
Definition a_getVerdict : citem := CFun (Some verdict_ref) (SMq (lit "getVerdict")) [] [SReturn (Some (nm (lit "verdict_")))].
Definition a_stateName : citem := CFun (Some cstr_t) (SMq (lit "stateName")) [] [SReturn (Some (call [lit "state"; lit "name"] [nm (lit "state_")]))].
Definition running_status : expr := is_running_of (nm (lit "status_")).
Definition a_end_fun (v : variant) : citem :=
  CFun (Some void_t) (SMq (lit "end")) [(status_t, lit "s")]
    ([SIf (EUn UNot running_status)
        (SBlock [a_log v err (EStr (lit "Tried to end test twice (first as ")) [nm (lit "status_"); EStr (lit ", then as "); nm (lit "s"); EStr (lit ".")]; SReturn None]) None;
      SIf (is_running_of (nm (lit "s")))
        (SBlock [a_log v err (EStr (lit "Tried to end with a non-ending status ")) [nm (lit "s"); EStr (lit ".")]; SAssign (nm (lit "s")) (status_q (lit "BUG"))]) None;
      SAssign (nm (lit "status_")) (nm (lit "s"))] ++
     match v with VRos => [ecall [lit "ros"; lit "shutdown"] []] | _ => [] end).
Definition a_timeout (v : variant) : citem :=
  CFun (Some void_t) (SMq (lit "timeoutCallback")) (a_timer_params v)
    [SIf (EUn UNot running_status) (SReturn None) None; a_log v info (EStr (lit "Timeout!")) []; a_end (lit "TIMEOUT")].
Definition a_delay (v : variant) (s0 : gostr) : citem :=
  CFun (Some void_t) (SMq (lit "initialDelayCallback")) (a_timer_params v)
    [SIf (e_ne (nm (lit "status_")) (status_q (lit "WAIT_START"))) (SReturn None) None;
     a_log v info (EStr (lit "Initial delay finished, now entering first state.")) []; ecall [state_entry s0] []].
Definition a_accept_case (v : variant) (s next : gostr) : option expr * list stmt :=
  (Some (state_q s), [a_log v info (EStr (lit "Accepted input on state " ++ s ++ lit " as expected.")) []; ecall [state_entry next] []; SBreak]).
Definition a_accept_cases (v : variant) (l : list (gostr * list transition)) : list (option expr * list stmt) :=
  concat (map (fun sts => match sts.2 with t :: _ => [a_accept_case v sts.1 (tr_next t)] | [] => [] end) l).
Definition a_accept (v : variant) (tc : tctx) : citem :=
  CFun (Some void_t) (SMq (lit "inputAcceptedCallback")) (a_accept_params v)
    [SSwitch (nm (lit "state_")) (a_accept_cases v (range_map (tc_in_merged tc)) ++
       [(None, [a_log v err (EStr (lit "Accepted input in unexpected state")) [call [lit "stateName"] []]; a_end (lit "BUG")])])].
Definition a_lit (w : value) : expr :=
  match w with
  | Some (EnumV s) => EStr s
  | Some (IntV z) => if (z <? 0)%Z then EUn UNeg (ENum (format_N (Z.abs_N z))) else ENum (format_N (Z.to_N z))
  | None => EStr []
  end.
Definition a_guard (w : value) : expr :=
  if is_enum_ty (value_type w) then e_eq (mcall (lit "value") (lit "compare") [a_lit w]) (ENum (lit "0"))
  else e_eq (nm (lit "value")) (a_lit w).
Definition a_chain (ts : list transition) (last : stmt) : stmt :=
  foldr (fun t s => SIf (a_guard (tr_value t)) (ecall [state_entry (tr_next t)] []) (Some s)) last ts.
Definition a_out_case (v : variant) (c : channel) (s : gostr) (ts : list transition) : option expr * list stmt :=
  (Some (state_q s),
   [a_chain ts (SBlock [a_log v info (EStr (lit "Unexpected value ")) [nm (lit "value"); EStr (lit " for " ++ channel_string c ++ lit " in state " ++ s ++ lit ".")];
                        a_end (lit "OFF_SCRIPT")]); SBreak]).
Definition a_out (v : variant) (a : agg) : citem :=
  CFun (Some void_t) (SMq (callback_name (agg_name a))) (a_out_params a)
    [SDecl auto_t (lit "value") (Some (call [convert_from (agg_name a)] [nm (lit "msg")]));
     SSwitch (nm (lit "state_")) (map (fun sts => a_out_case v (ag_chan a) sts.1 sts.2) (range_map (ag_states a)) ++
       [(None, [a_log v info (EStr (lit "Output ")) [nm (lit "value"); EStr (lit " on " ++ channel_string (ag_chan a) ++ lit " in unexpected state "); call [lit "stateName"] []; EStr (lit ".")];
                a_end (lit "OFF_SCRIPT")])])].
Definition a_input (v : variant) (c : channel) (t : transition) : stmt :=
  let sent := call [convert_to (ch_name c)] [a_lit (tr_value t)] in
  match v with
  | VRos => SExpr (mcall (fld (publisher_name (ch_name c))) (lit "publish") [sent])
  | _ => a_log v info (EStr (lit "(Actual value received by SUT on " ++ ch_name c ++ lit " after conversion: ")) [sent; EStr (lit ")")]
  end.
Definition a_two (v : variant) (id a b : gostr) : stmt := a_log v info (EStr (lit "State '" ++ id ++ a)) [EStr b].
Definition a_expected (v : variant) (id : gostr) (c : channel) (t : transition) : stmt :=
  a_two v id (lit "' can receive " ++ value_string_value (tr_value t) ++ lit " from SUT on " ++ ch_name c ++ lit "; ")
    (lit "if received, next state will be '" ++ tr_next t ++ lit "'.").
Definition a_act (v : variant) (s : state) : list stmt :=
  if verdict_is OFail (st_verdict s) then [a_end (lit "FAIL")]
  else if state_has_in s then
    [set_status (lit "WAIT_IN")] ++
    match state_in s with
    | Some (c, t) => [a_two v (st_id s) (lit "' sends " ++ value_string_value (tr_value t) ++ lit " to SUT on " ++ ch_name c ++ lit "; ")
                        (lit "if accepted, next state will be '" ++ tr_next t ++ lit "'."); a_input v c t]
    | None => []
    end
  else [set_status (lit "WAIT_OUT")] ++ concat (map (fun ts => map (a_expected v (st_id s) (ts_chan ts)) (ts_trans ts)) (st_tsets s)).
Definition a_set_verdict (to : gostr * outcome) : stmt := SExpr (mcall (lit "verdict_") to.1 [outcome_q (outcome_enum to.2)]).
Definition a_entry (v : variant) (s : state) : citem :=
  CFun (Some void_t) (SMq (state_entry (st_id s))) []
    ([SAssign (nm (lit "state_")) (state_q (st_id s)); a_log v info (EStr (lit "Entered state " ++ st_id s ++ lit ".")) []] ++
     map a_set_verdict (range_map (st_verdict s)) ++ a_act v s).
Definition a_stm (v : variant) (tc : tctx) (s0 : gostr) (states : list state) : list citem :=
  [a_class v tc s0 states; a_ctor v tc s0; a_getVerdict; a_stateName; a_end_fun v; a_timeout v] ++
  (if tc_first_state_has_in tc then [a_delay v s0] else []) ++ (if tc_has_in tc then [a_accept v tc] else []) ++
  map (a_out v) (tc_out tc) ++ map (a_entry v) states.

(** ** main *)
Definition std_t (t : rstype) : ctype :=
  if is_enum_ty t then plain_t [lit "std"; lit "string"] else if is_nat_ty t then CType false BUnsigned []
  else if is_int_ty t then CType false BInt [] else if is_real_ty t then CType false BDouble [] else CType false BVoid [PStar].
Definition a_type_std (ctx : cctx) (c : gostr) : ctype := match cx_types ctx !! c with Some t => std_t t.1 | None => void_t end.
Definition read_into (x : gostr) : stmt := SExpr (EOps (nm2 (lit "std") (lit "cin")) [(OpShr, nm x)]).
Definition a_choice (ctx : cctx) (a : agg) : expr * stmt :=
  (e_eq (nm (lit "choice")) (EStr (agg_name a)),
   SBlock [SDecl (a_type_std ctx (agg_name a)) (lit "in") None; read_into (lit "in");
           SExpr (mcall (lit "stm") (callback_name (agg_name a)) [call [convert_to (agg_name a)] [nm (lit "in")]])]).
Definition if_chain (l : list (expr * stmt)) (last : stmt) : stmt := foldr (fun ca s => SIf ca.1 ca.2 (Some s)) last l.
Definition choice_and (w s : gostr) : expr := EOps (e_eq (nm (lit "choice")) (EStr w)) [(OpAnd, e_eq (nm (lit "s")) (status_q s))].
Definition get_status : expr := mcall (lit "stm") (lit "getStatus") [].
Definition a_prompt (tc : tctx) (ctx : cctx) : list stmt :=
  [cout (lit "\nType one of the following:\n")] ++
  (if tc_has_in tc then
     [let acc := SIf (e_eq (nm (lit "s")) (status_q (lit "WAIT_IN"))) (cout (lit "  accept (accepts an input)\n")) None in
      if tc_first_state_has_in tc
      then SIf (e_eq (nm (lit "s")) (status_q (lit "WAIT_START"))) (cout (lit "  ready (prepares SUT for inputs)\n")) (Some acc) else acc]
   else []) ++
  [cout (lit "  timeout (quits the test with a timeout)\n"); cout (lit "\nOr, to enter an output, type its name and the desired value: \n")] ++
  match tc_out tc with
  | [] => [cout (lit "  No outputs available for this test-case.\n")]
  | outs => map (fun a => cout (lit "  " ++ agg_name a ++ lit " (type: " ++ type_name ctx (agg_name a) ++ lit ")\n")) outs
  end ++
  [cout (lit "\n> ")].
Definition a_choices (tc : tctx) (ctx : cctx) : list (expr * stmt) :=
  [(e_eq (nm (lit "choice")) (EStr (lit "timeout")), SExpr (mcall (lit "stm") (lit "timeoutCallback") []))] ++
  (if tc_first_state_has_in tc then [(choice_and (lit "ready") (lit "WAIT_START"), SExpr (mcall (lit "stm") (lit "initialDelayCallback") []))] else []) ++
  (if tc_has_in tc then [(choice_and (lit "accept") (lit "WAIT_IN"), SExpr (mcall (lit "stm") (lit "inputAcceptedCallback") []))] else []) ++
  map (a_choice ctx) (tc_out tc).
Definition a_round (tc : tctx) (ctx : cctx) : list stmt :=
  a_prompt tc ctx ++ [SDecl (plain_t [lit "std"; lit "string"]) (lit "choice") None; read_into (lit "choice"); if_chain (a_choices tc ctx) (cout (lit "Sorry, try again.\n"))].
Definition a_loop (tc : tctx) (ctx : cctx) : list stmt :=
  (if tc_first_state_has_in tc then [cout (lit "[!] Test is waiting for the SUT to initialise before sending an input.\n")] else []) ++
  [SFor (lit "s") get_status (is_running_of (nm (lit "s"))) (nm (lit "s")) get_status (SBlock (a_round tc ctx))].
Definition nh_call (m : gostr) (args : list expr) : expr := mcall (lit "nh") m args.
Definition method_ref (x : gostr) : expr := EUn UAddr (EName (SMq x)).
Definition stm_ref : expr := EUn UAddr (nm (lit "stm")).
Definition a_ros_init (name : gostr) (tc : tctx) : list stmt :=
  [ecall [lit "ros"; lit "init"] [nm (lit "argc"); nm (lit "argv"); EStr name]; SDecl (plain_t [lit "ros"; lit "NodeHandle"]) (lit "nh") None] ++
  map (fun a => SDecl auto_t (publisher_name (agg_name a))
         (Some (EPost (nm (lit "nh")) [XDot (lit "advertise"); XInst [channel_value_type (agg_name a)]; XCall [EStr (topic_name (agg_name a)); ENum (lit "1000")]]))) (tc_in tc).
Definition a_timer (x sec cb : gostr) : stmt :=
  SDecl auto_t x (Some (nh_call (lit "createTimer") [call [lit "ros"; lit "Duration"] [nm sec]; method_ref cb; stm_ref])).
Definition a_ros_sub (x topic cb : gostr) : stmt :=
  SDecl auto_t x (Some (nh_call (lit "subscribe") [EStr topic; ENum (lit "10"); method_ref cb; stm_ref])).
Definition a_ros_subs (tc : tctx) : list stmt :=
  (if tc_has_in tc then [a_ros_sub (lit "input_accepted_sub") (lit "input_accepted") (lit "inputAcceptedCallback")] else []) ++
  map (fun a => a_ros_sub (subscriber_name (agg_name a)) (topic_name (agg_name a)) (callback_name (agg_name a))) (tc_out tc) ++
  [a_timer (lit "timeout_timer") (lit "TIMEOUT_SEC") (lit "timeoutCallback")] ++
  (if tc_first_state_has_in tc then [a_timer (lit "initial_delay_timer") (lit "INPUT_DELAY_SEC") (lit "initialDelayCallback")] else []).
Definition a_ctor_args (v : variant) (ins : list agg) : list expr :=
  match v with VRos => map (fun a => nm (publisher_name (agg_name a))) ins | _ => [] end.
Definition a_main_params (v : variant) : list param :=
  match v with VRos => [(CType false BInt [], lit "argc"); (CType false BChar [PStar; PStar], lit "argv")] | _ => [] end.
Definition a_init (v : variant) (name : gostr) (tc : tctx) : list stmt :=
  match v with VRos => a_ros_init name tc | _ => [] end ++
  [SInit (plain_t [lit "StateMachine"]) (lit "stm") (a_ctor_args v (tc_in tc))] ++
  match v with VRos => a_ros_subs tc | _ => [] end ++
  [a_log v info (EStr (lit "Test " ++ name ++ lit " in main loop.")) []].
Definition a_final (v : variant) (name : gostr) : list stmt :=
  [SDecl auto_t (lit "status") (Some get_status);
   a_log v info (EStr (lit "Test " ++ name ++ lit " finished: ")) [nm (lit "status"); EStr (lit ".")];
   SExpr (EPost (nm (lit "stm")) [XDot (lit "getVerdict"); XCall []; XDot (lit "dump"); XCall []]);
   SReturn (Some (call [lit "rtcg"; lit "status"; lit "exitCode"] [nm (lit "status")]))].
Definition a_main (v : variant) (name : gostr) (tc : tctx) (ctx : cctx) : citem :=
  CFun (Some (CType false BInt [])) [lit "main"] (a_main_params v)
    (a_init v name tc ++ match v with VRos => [ecall [lit "ros"; lit "spin"] []] | _ => a_loop tc ctx end ++ a_final v name).

(** ** The file *)
Definition a_includes (v : variant) (ctx : cctx) : list citem :=
  map CPre ([lit "#include <string>"] ++
    match v with
    | VRos => [lit "#include ""ros/ros.h"""; lit "#include ""std_msgs/Bool.h"""; lit "#include ""std_msgs/String.h"""]
    | _ => [lit "#include <iostream>"]
    end ++ map cv_include (cx_includes ctx) ++
    [lit "#include ""rtcg.h""    // Helper definitions (compile with ../rtcg/rtcg.cpp)";
     lit "#include ""convert.h"" // Channel type definitions and conversion functions"]).
Definition int_const (x n : gostr) : citem := CVar (CType true BInt []) x (ENum n).
Definition a_constants (v : variant) : list citem :=
  match v with VRos => [int_const (lit "TIMEOUT_SEC") (lit "15"); int_const (lit "INPUT_DELAY_SEC") (lit "3")] | _ => [] end.
Definition main_tops (v : variant) (name : gostr) (m : stm) (ctx : cctx) (tests : list gostr) : list top :=
  let tc := make_transitions m in
  let s0 := match m_states m with s :: _ => st_id s | [] => [] end in
  map TopItem (a_includes v ctx ++ a_constants v ++ a_verdict v tests ++ [a_enum (m_states m)]) ++
  [TopNs (lit "state") [a_name (m_states m)]] ++
  map TopItem (a_stm v tc s0 (m_states m) ++ [a_main v name tc ctx]).
(** The items of main.cpp. *)
Definition main_items (v : variant) (name : gostr) (m : stm) (ctx : cctx) (tests : list gostr) : list citem :=
  concat (map flat (main_tops v name m ctx tests)).
