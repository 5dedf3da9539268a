(** * The text of main.cpp: internal/gen/cpp/embed/templates/{base,animate,ros}

    What the templates make of a test's state machine, byte for byte.  [date] is the time of
    generation (gencommon/context.go:25), [tests] the order in which the set of tests is listed
    (structure/set.go:30-40). *)
From Verif Require Export Xml.

Definition quoted (s : gostr) : gostr := byte 34 :: s ++ [byte 34].
(** The templates "log" and "end_log" (animate/main.cpp.tmpl:9-10, ros/main.cpp.tmpl:20-21). *)
Definition log_open (v : variant) (level : gostr) : gostr :=
  match v with
  | VRos => lit "ROS_" ++ to_upper level ++ lit "_STREAM("
  | _ => lit "std::cerr << " ++ quoted (lit "[" ++ level ++ lit "] ") ++ lit " << "
  end.
Definition log_close (v : variant) : gostr := match v with VRos => lit " << std::endl);" | _ => lit " << std::endl;" end.
Definition log_line (v : variant) (level body : gostr) : gostr := log_open v level ++ body ++ log_close v.
Definition info : gostr := lit "info".

(** The names of ROS handles (ros/main.cpp.tmpl:23-25). *)
Definition topic_name (c : gostr) : gostr := to_lower_underscored c.
Definition publisher_name (c : gostr) : gostr := topic_name c ++ lit "_pub".
Definition subscriber_name (c : gostr) : gostr := topic_name c ++ lit "_sub".
Definition agg_name (a : agg) : gostr := ch_name (ag_chan a).

(** Channel.String (pkg channel.go:88-94). *)
Definition channel_string (c : channel) : gostr :=
  match ch_name c with [] => lit "(empty channel)" | n => join [event_sep] [n; kind_string (ch_kind c)] end.

(** includes.cpp.tmpl:7-19, with "system_includes" (animate/main.cpp.tmpl:1-3, ros/main.cpp.tmpl:8-12). *)
Definition mn_includes (v : variant) (ctx : cctx) : list gostr :=
  [lit "#include <string>"] ++
  match v with
  | VRos => [lit "#include ""ros/ros.h"""; lit "#include ""std_msgs/Bool.h"""; lit "#include ""std_msgs/String.h"""]
  | _ => [lit "#include <iostream>"]
  end ++ map cv_include (cx_includes ctx) ++
  [lit "";
   lit "#include ""rtcg.h""    // Helper definitions (compile with ../rtcg/rtcg.cpp)";
   lit "#include ""convert.h"" // Channel type definitions and conversion functions"; lit ""].
(** "constants" (animate/main.cpp.tmpl:5-7, ros/main.cpp.tmpl:14-17). *)
Definition mn_constants (v : variant) : list gostr :=
  match v with
  | VRos => [lit ""; lit "const int TIMEOUT_SEC     = 15;"; lit "const int INPUT_DELAY_SEC = 3;"]
  | _ => [lit ""; lit "// no constants defined"]
  end.

(** verdict.cpp.tmpl:5-40. *)
Definition mn_setter (v : variant) (t : gostr) : list gostr :=
  [lit "";
   lit "void Verdict::" ++ t ++ lit "(rtcg::Outcome new_val)";
   lit "{";
   lit "  if (" ++ t ++ lit "_ == new_val)";
   lit "    return;";
   lit "";
   lit "  " ++ log_line v info (quoted (lit "Test " ++ t ++ lit " is now ") ++ lit " << new_val << ""; was "" << " ++ t ++ lit "_ << "".""");
   lit "  " ++ t ++ lit "_ = new_val;";
   lit "}"].
Definition mn_verdict (v : variant) (tests : list gostr) : list gostr :=
  [lit "";
   lit "// Records information about test verdicts.";
   lit "class Verdict";
   lit "{";
   lit "public:";
   lit "  void dump(); // Outputs all test verdicts to log."] ++
  map (fun t => lit "  void " ++ t ++ lit "(rtcg::Outcome new_val); // Sets the outcome of " ++ t ++ lit ".") tests ++
  [lit "private:"] ++
  map (fun t => lit "  rtcg::Outcome " ++ t ++ lit "_ = rtcg::Outcome::UNSET;") tests ++
  [lit "};";
   lit "";
   lit "void Verdict::dump()";
   lit "{";
   lit "  " ++ log_line v info (quoted (lit "Final outcomes: "))] ++
  map (fun t => lit "  " ++ log_line v info (quoted (lit "  " ++ t ++ lit " = ") ++ lit " << " ++ t ++ lit "_")) tests ++
  [lit "}"] ++ concat (map (mn_setter v) tests).

(** state_meta.cpp.tmpl:5-26. *)
Definition state_enum (id : gostr) : gostr := lit "State::" ++ enum_field id.
Definition mn_meta (states : list state) : list gostr :=
  [lit "";
   lit "// A numerical identifier for each state in the testing state machine.";
   lit "enum class State";
   lit "{"] ++
  map (fun s => lit "  " ++ enum_field (st_id s) ++ lit ",") states ++
  [lit "};";
   lit "";
   lit "namespace state";
   lit "{";
   lit "  // Gets the name of a state.";
   lit "  const char* name(State s)";
   lit "  {";
   lit "    switch (s) {"] ++
  concat (map (fun s => [lit "    case " ++ state_enum (st_id s) ++ lit ":";
                         lit "      return " ++ quoted (st_id s) ++ lit ";"]) states) ++
  [lit "    }";
   lit "    return ""???"";";
   lit "  }";
   lit "}"].

(** The arguments of callbacks and of the constructor (animate/main.cpp.tmpl:17-30,
    ros/main.cpp.tmpl:32-45 and 96-108). *)
Definition timer_args (v : variant) : gostr := match v with VRos => lit "const ros::TimerEvent& event" | _ => [] end.
Definition accept_args (v : variant) : gostr := match v with VRos => lit "const std_msgs::Bool::ConstPtr& msg" | _ => [] end.
Definition ctor_params (v : variant) (ins : list agg) : gostr :=
  match v with VRos => join (lit ", ") (map (fun a => lit "ros::Publisher " ++ publisher_name (agg_name a)) ins) | _ => [] end.
Definition ctor_args (v : variant) (ins : list agg) : gostr :=
  match v with VRos => join (lit ", ") (map (fun a => publisher_name (agg_name a)) ins) | _ => [] end.
Definition out_params (a : agg) : gostr := lit "(const " ++ channel_msg_type (agg_name a) ++ lit " msg)".

(** The class (stm.cpp.tmpl:5-43), with "stm_fields" (ros/main.cpp.tmpl:86-93). *)
Definition mn_class (v : variant) (tc : tctx) (s0 : gostr) (states : list state) : list gostr :=
  [lit "";
   lit "// The main testing state machine, containing all state used in the test.";
   lit "class StateMachine : public rtcg::TestCase";
   lit "{";
   lit "public:";
   lit "  StateMachine(" ++ ctor_params v (tc_in tc) ++ lit ");";
   lit "  Verdict& getVerdict(); // Gets the current verdict.";
   lit "";
   lit "  //";
   lit "  // Callbacks";
   lit "  //";
   lit "";
   lit "  void timeoutCallback(" ++ timer_args v ++ lit ");  // Called when the test has run out of time."] ++
  (if tc_first_state_has_in tc then [lit "  void initialDelayCallback(" ++ timer_args v ++ lit ");  // Called after the initial delay timer."] else []) ++
  (if tc_has_in tc then [lit "  void inputAcceptedCallback(" ++ accept_args v ++ lit ");  // Called when the SUT accepts an input."] else []) ++
  [lit "";
   lit "  // Output callbacks:"] ++
  map (fun a => lit "  void " ++ callback_name (agg_name a) ++ out_params a ++ lit ";") (tc_out tc) ++
  [lit "private:";
   lit "  Verdict verdict_;";
   lit "  State state_ = " ++ state_enum s0 ++ lit ";"] ++
  match v with
  | VRos => [lit ""; lit "  // Publisher handles"] ++ map (fun a => lit "  ros::Publisher " ++ publisher_name (agg_name a) ++ lit "_;") (tc_in tc)
  | _ => []
  end ++
  [lit "";
   lit "  // State entry functions"] ++
  map (fun s => lit "  void " ++ state_entry (st_id s) ++ lit "();") states ++
  [lit "";
   lit "  const char* stateName();       // Gets the name of the current state.";
   lit "  void end(rtcg::Status status); // Ends the test with the given status.";
   lit "};"].

(** The constructor and the small methods (stm.cpp.tmpl:45-84), with "stm_ctor" and "stm_end"
    (ros/main.cpp.tmpl:110-121). *)
Definition mn_ctor (v : variant) (tc : tctx) (s0 : gostr) : list gostr :=
  [lit "";
   lit "StateMachine::StateMachine(" ++ ctor_params v (tc_in tc) ++ lit ")";
   lit "{"] ++
  (if tc_first_state_has_in tc
   then [lit "  // This test's first state has an input, so we delay entry into the initial";
         lit "  // state to initialDelayCallback.";
         lit "  status_ = rtcg::Status::WAIT_START;"]
   else [lit "  " ++ state_entry s0 ++ lit "();"]) ++
  match v with
  | VRos => [lit ""; lit "  // Install the publisher handles"] ++
            map (fun a => lit "  " ++ publisher_name (agg_name a) ++ lit "_ = " ++ publisher_name (agg_name a) ++ lit ";") (tc_in tc)
  | _ => []
  end ++
  [lit "}"].
Definition mn_methods (v : variant) : list gostr :=
  [lit "";
   lit "Verdict& StateMachine::getVerdict()";
   lit "{";
   lit "  return verdict_;";
   lit "}";
   lit "";
   lit "const char* StateMachine::stateName()";
   lit "{";
   lit "  return state::name(state_);";
   lit "}";
   lit "";
   lit "void StateMachine::end(rtcg::Status s)";
   lit "{";
   lit "  if (!rtcg::status::isRunning(status_))";
   lit "  {";
   lit "    " ++ log_line v (lit "error") (lit """Tried to end test twice (first as "" << status_ << "", then as "" << s << "".""");
   lit "    return;";
   lit "  }";
   lit "";
   lit "  if (rtcg::status::isRunning(s))";
   lit "  {";
   lit "    " ++ log_line v (lit "error") (lit """Tried to end with a non-ending status "" << s << "".""");
   lit "    s = rtcg::Status::BUG;";
   lit "  }";
   lit "";
   lit "  status_ = s;"] ++
  match v with VRos => [lit "  ros::shutdown();"] | _ => [] end ++
  [lit "}"].

(** The callbacks (stm.cpp.tmpl:87-131, in_callback.cpp.tmpl, out_callback.cpp.tmpl). *)
Definition mn_timers (v : variant) (tc : tctx) (s0 : gostr) : list gostr :=
  [lit "";
   lit "";
   lit "//";
   lit "// Callback functions";
   lit "//";
   lit "";
   lit "void StateMachine::timeoutCallback(" ++ timer_args v ++ lit ")";
   lit "{";
   lit "  // Don't acknowledge this callback if we've already timed out.";
   lit "  if (!rtcg::status::isRunning(status_))";
   lit "    return;";
   lit "";
   lit "  " ++ log_line v info (lit """Timeout!""");
   lit "  end(rtcg::Status::TIMEOUT);";
   lit "}"] ++
  (if tc_first_state_has_in tc
   then [lit "";
         lit "void StateMachine::initialDelayCallback(" ++ timer_args v ++ lit ")";
         lit "{";
         lit "  // Only acknowledge this callback if we're actually waiting to start.";
         lit "  if (status_ != rtcg::Status::WAIT_START)";
         lit "    return;";
         lit "";
         lit "  " ++ log_line v info (lit """Initial delay finished, now entering first state.""");
         lit "  " ++ state_entry s0 ++ lit "();";
         lit "}"]
   else []).
Definition mn_accept_case (v : variant) (s next : gostr) : list gostr :=
  [lit "  case " ++ state_enum s ++ lit ":";
   lit "    " ++ log_line v info (quoted (lit "Accepted input on state " ++ s ++ lit " as expected."));
   lit "    " ++ state_entry next ++ lit "();";
   lit "    break;"].
(** [index $ts 0] fails on an empty list (as [gen_accept] says); such a case is left out here. *)
Definition mn_accept_cases (v : variant) (l : list (gostr * list transition)) : list gostr :=
  concat (map (fun sts => match sts.2 with t :: _ => mn_accept_case v sts.1 (tr_next t) | [] => [] end) l).
Definition mn_accept (v : variant) (tc : tctx) : list gostr :=
  if tc_has_in tc then
    [lit "";
     lit "void StateMachine::inputAcceptedCallback(" ++ accept_args v ++ lit ")";
     lit "{";
     lit "  switch (state_)";
     lit "  {"] ++ mn_accept_cases v (range_map (tc_in_merged tc)) ++
    [lit "  default:";
     lit "    // We shouldn't be seeing an input acknowledgement in this state.";
     lit "    " ++ log_line v (lit "error") (lit """Accepted input in unexpected state"" << stateName()");
     lit "    end(rtcg::Status::BUG);";
     lit "  }";
     lit "}"]
  else [].
(** out_callback.cpp.tmpl:15-22. *)
Definition mn_guard (w : value) : gostr :=
  if is_enum_ty (value_type w) then lit "value.compare(" ++ quoted (value_string_value w) ++ lit ") == 0"
  else lit "value == " ++ value_string_value w.
(** out_callback.cpp.tmpl:13-24, from the second transition on. *)
Definition mn_elif (t : transition) : list gostr :=
  [lit "    else if (" ++ mn_guard (tr_value t) ++ lit ")";
   lit "      " ++ state_entry (tr_next t) ++ lit "();"].
Definition mn_out_case (v : variant) (c : channel) (s : gostr) (ts : list transition) : list gostr :=
  [lit "  case " ++ state_enum s ++ lit ":"] ++
  match ts with
  | [] => []
  | t :: rest =>
    [lit "    if (" ++ mn_guard (tr_value t) ++ lit ")";
     lit "      " ++ state_entry (tr_next t) ++ lit "();"] ++ concat (map mn_elif rest)
  end ++
  [lit "    else";
   lit "    {";
   lit "      " ++ log_line v info (lit """Unexpected value "" << value << " ++ quoted (lit " for " ++ channel_string c ++ lit " in state " ++ s ++ lit "."));
   lit "      end(rtcg::Status::OFF_SCRIPT);";
   lit "    }";
   lit "    break;"].
Definition mn_out (v : variant) (a : agg) : list gostr :=
  [lit "";
   lit "void StateMachine::" ++ callback_name (agg_name a) ++ out_params a;
   lit "{";
   lit "  auto value = " ++ convert_from (agg_name a) ++ lit "(msg);";
   lit "";
   lit "  switch (state_)";
   lit "  {"] ++
  concat (map (fun sts => mn_out_case v (ag_chan a) sts.1 sts.2) (range_map (ag_states a))) ++
  [lit "  default:";
   lit "    " ++ log_line v info (lit """Output "" << value << " ++ quoted (lit " on " ++ channel_string (ag_chan a) ++ lit " in unexpected state ") ++ lit " << stateName() << "".""");
   lit "    end(rtcg::Status::OFF_SCRIPT);";
   lit "  }";
   lit "}"].

(** The entry functions (stm.cpp.tmpl:134-147, state_entry.cpp.tmpl), with "input"
    (animate/main.cpp.tmpl:13-15, ros/main.cpp.tmpl:28-30). *)
Definition mn_input (v : variant) (c : channel) (t : transition) : gostr :=
  let sent := convert_to (ch_name c) ++ lit "(" ++ cpp_value (tr_value t) ++ lit ")" in
  match v with
  | VRos => lit "  " ++ publisher_name (ch_name c) ++ lit "_.publish(" ++ sent ++ lit ");"
  | _ => lit "  " ++ log_line v info (quoted (lit "(Actual value received by SUT on " ++ ch_name c ++ lit " after conversion: ") ++ lit " << " ++ sent ++ lit " << "")""")
  end.
Definition mn_two_lines (v : variant) (id a b : gostr) : list gostr :=
  [lit ""; lit "  " ++ log_open v info ++ quoted (lit "State '" ++ id ++ a) ++ lit " <<"; lit "    " ++ quoted b ++ log_close v].
Definition mn_expected (v : variant) (id : gostr) (c : channel) (t : transition) : list gostr :=
  mn_two_lines v id (lit "' can receive " ++ value_string_value (tr_value t) ++ lit " from SUT on " ++ ch_name c ++ lit "; ")
    (lit "if received, next state will be '" ++ tr_next t ++ lit "'.").
Definition mn_entry (v : variant) (s : state) : list gostr :=
  [lit "";
   lit "void StateMachine::" ++ state_entry (st_id s) ++ lit "()";
   lit "{";
   lit "  state_ = " ++ state_enum (st_id s) ++ lit ";";
   lit "";
   lit "  " ++ log_line v info (quoted (lit "Entered state " ++ st_id s ++ lit "."))] ++
  map (fun to => lit "  verdict_." ++ to.1 ++ lit "(rtcg::Outcome::" ++ outcome_enum to.2 ++ lit ");") (range_map (st_verdict s)) ++
  (if verdict_is OFail (st_verdict s) then [lit ""; lit "  end(rtcg::Status::FAIL); // This state fails at least one test"]
   else if state_has_in s then
     [lit ""; lit "  // This state provides an input to the SUT"; lit "  status_ = rtcg::Status::WAIT_IN;"] ++
     match state_in s with
     | Some (c, t) =>
       mn_two_lines v (st_id s) (lit "' sends " ++ value_string_value (tr_value t) ++ lit " to SUT on " ++ ch_name c ++ lit "; ")
         (lit "if accepted, next state will be '" ++ tr_next t ++ lit "'.") ++ [lit ""; mn_input v c t]
     | None => []
     end
   else
     [lit ""; lit "  // This state expects an output from the SUT"; lit "  status_ = rtcg::Status::WAIT_OUT;"] ++
     concat (map (fun ts => concat (map (mn_expected v (st_id s) (ts_chan ts)) (ts_trans ts))) (st_tsets s))) ++
  [lit "}"].

(** stm.cpp.tmpl. *)
Definition mn_stm (v : variant) (tc : tctx) (s0 : gostr) (states : list state) : list gostr :=
  mn_class v tc s0 states ++ mn_ctor v tc s0 ++ mn_methods v ++ mn_timers v tc s0 ++ mn_accept v tc ++ concat (map (mn_out v) (tc_out tc)) ++
  [lit ""; lit ""; lit "//"; lit "// State machine entry functions"; lit "//"] ++ concat (map (mn_entry v) states).

(** The interactive loop (animate/main_body.cpp.tmpl).  A channel without a type does not
    render; it has an empty type text here. *)
Definition type_name (ctx : cctx) (c : gostr) : gostr := match cx_types ctx !! c with Some t => default [] (ty_string t.1) | None => [] end.
Definition type_std (ctx : cctx) (c : gostr) : gostr := match cx_types ctx !! c with Some t => std_type t.1 | None => [] end.
Definition mn_choice (ctx : cctx) (a : agg) : list gostr :=
  [lit "    else if (choice == " ++ quoted (agg_name a) ++ lit ")";
   lit "    {";
   lit "      " ++ type_std ctx (agg_name a) ++ lit " in;";
   lit "      std::cin >> in;";
   lit "";
   lit "      stm." ++ callback_name (agg_name a) ++ lit "(" ++ convert_to (agg_name a) ++ lit "(in));";
   lit "    }"].
Definition mn_loop (tc : tctx) (ctx : cctx) : list gostr :=
  [lit ""] ++
  (if tc_first_state_has_in tc then [lit "  std::cout << ""[!] Test is waiting for the SUT to initialise before sending an input.\n"";"] else []) ++
  [lit "";
   lit "  for (auto s = stm.getStatus(); rtcg::status::isRunning(s); s = stm.getStatus())";
   lit "  {";
   lit "    std::cout << ""\nType one of the following:\n"";"] ++
  (if tc_has_in tc then
     (if tc_first_state_has_in tc
      then [lit "    if (s == rtcg::Status::WAIT_START)";
            lit "      std::cout << ""  ready (prepares SUT for inputs)\n"";";
            lit "    else if (s == rtcg::Status::WAIT_IN)"]
      else [lit "    if"; lit " (s == rtcg::Status::WAIT_IN)"]) ++
     [lit "      std::cout << ""  accept (accepts an input)\n"";"]
   else []) ++
  [lit "    std::cout << ""  timeout (quits the test with a timeout)\n"";";
   lit "";
   lit "    std::cout << ""\nOr, to enter an output, type its name and the desired value: \n"";"] ++
  (match tc_out tc with
   | [] => [lit "    std::cout << ""  No outputs available for this test-case.\n"";"]
   | outs => map (fun a => lit "    std::cout << " ++ quoted (lit "  " ++ agg_name a ++ lit " (type: " ++ type_name ctx (agg_name a) ++ lit ")\n") ++ lit ";") outs
   end) ++
  [lit "";
   lit "    std::cout << ""\n> "";";
   lit "    std::string choice;";
   lit "    std::cin >> choice;";
   lit "";
   lit "    if (choice == ""timeout"")";
   lit "      stm.timeoutCallback();"] ++
  (if tc_first_state_has_in tc
   then [lit "    else if (choice == ""ready"" && s == rtcg::Status::WAIT_START)"; lit "    stm.initialDelayCallback();"] else []) ++
  (if tc_has_in tc
   then [lit "    else if (choice == ""accept"" && s == rtcg::Status::WAIT_IN)"; lit "      stm.inputAcceptedCallback();"] else []) ++
  concat (map (mn_choice ctx) (tc_out tc)) ++
  [lit "    else";
   lit "      std::cout << ""Sorry, try again.\n"";";
   lit "  }"].

(** entry.cpp.tmpl, with "pre_init" and "init" (ros/main.cpp.tmpl:48-77) and the main bodies. *)
Definition mn_main (v : variant) (name : gostr) (tc : tctx) (ctx : cctx) : list gostr :=
  [lit "";
   lit "int main(" ++ match v with VRos => lit "int argc, char** argv" | _ => [] end ++ lit ")";
   lit "{";
   lit "  // Initialisation"] ++
  match v with
  | VRos => [lit "  ros::init(argc, argv, " ++ quoted name ++ lit ");"; lit "  ros::NodeHandle nh;"; lit ""; lit "  // Publishers"] ++
            map (fun a => lit "  auto " ++ publisher_name (agg_name a) ++ lit " = nh.advertise<" ++ channel_value_type (agg_name a) ++ lit ">(" ++ quoted (topic_name (agg_name a)) ++ lit ", 1000);") (tc_in tc)
  | _ => []
  end ++
  [lit "";
   lit "  StateMachine stm {" ++ ctor_args v (tc_in tc) ++ lit "};"] ++
  match v with
  | VRos => [lit "  // Subscribers"] ++
            (if tc_has_in tc then [lit "  auto input_accepted_sub = nh.subscribe(""input_accepted"", 10, &StateMachine::inputAcceptedCallback, &stm);"] else []) ++
            [lit ""] ++
            map (fun a => lit "  auto " ++ subscriber_name (agg_name a) ++ lit " = nh.subscribe(" ++ quoted (topic_name (agg_name a)) ++ lit ", 10, &StateMachine::" ++ callback_name (agg_name a) ++ lit ", &stm);") (tc_out tc) ++
            [lit ""; lit "  // Timers"; lit "  auto timeout_timer = nh.createTimer(ros::Duration(TIMEOUT_SEC), &StateMachine::timeoutCallback, &stm);"] ++
            (if tc_first_state_has_in tc then [lit "  auto initial_delay_timer = nh.createTimer(ros::Duration(INPUT_DELAY_SEC), &StateMachine::initialDelayCallback, &stm);"] else [])
  | _ => []
  end ++
  [lit "";
   lit "  // Test loop";
   lit "  " ++ log_line v info (quoted (lit "Test " ++ name ++ lit " in main loop."))] ++
  match v with VRos => [lit "  ros::spin();"] | _ => mn_loop tc ctx end ++
  [lit "";
   lit "  auto status = stm.getStatus();";
   lit "  " ++ log_line v info (quoted (lit "Test " ++ name ++ lit " finished: ") ++ lit " << status << "".""");
   lit "  stm.getVerdict().dump();";
   lit "";
   lit "  return rtcg::status::exitCode(status);";
   lit "}"].

(** base.cpp.tmpl. *)
Definition main_lines (v : variant) (name date : gostr) (m : stm) (ctx : cctx) (tests : list gostr) : list gostr :=
  let tc := make_transitions m in
  let s0 := match m_states m with s :: _ => st_id s | [] => [] end in
  [lit "//";
   lit "// Test " ++ name;
   lit "//";
   lit "// Test autogenerated by rtcg on " ++ date;
   lit "//";
   lit ""] ++ mn_includes v ctx ++
  [lit "";
   lit "//";
   lit "// CONSTANTS";
   lit "//"] ++ mn_constants v ++
  [lit "";
   lit "";
   lit "//";
   lit "// TEST VERDICTS";
   lit "//";
   lit "// In non-factorised tests, there will usually only be one test verdict;";
   lit "// factorised tests may have multiple.";
   lit "//"] ++ mn_verdict v tests ++
  [lit "";
   lit "";
   lit "//";
   lit "// STATES";
   lit "//";
   lit "// Every step in the test has a corresponding state in the test state machine.";
   lit "// For non-factorised tests, these relate directly to points on the trace.";
   lit "//"] ++ mn_meta (m_states m) ++
  [lit "";
   lit "";
   lit "//";
   lit "// MAIN TEST CLASS";
   lit "//";
   lit "// Most of the working parts of the test are here.";
   lit "//"] ++ mn_stm v tc s0 (m_states m) ++
  [lit "";
   lit "";
   lit "//";
   lit "// ENTRY POINT";
   lit "//"] ++ mn_main v name tc ctx ++ [lit ""].
Definition main_text (v : variant) (name date : gostr) (m : stm) (ctx : cctx) (tests : list gostr) : gostr :=
  join newline (main_lines v name date m ctx tests).
