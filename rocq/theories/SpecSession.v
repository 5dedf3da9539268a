(** * Specification vocabulary: sessions with the program that main.cpp is *)
From Verif Require Export MainText SpecRun.

(** ** Values *)
Definition val (x : valuable) : cval := match x with IntV z => VInt z | EnumV s => VStr s end.
(** A text that C functions can handle too: without the character NUL. *)
Definition c_string (x : valuable) : Prop := match x with EnumV s => byte 0 ∉ (s : list ascii) | IntV _ => True end.
(** The values that a variable of the channel's C++ type can have (and messages can carry). *)
Definition fits_type (t : rstype) (x : valuable) : Prop :=
  match x with
  | EnumV _ => t = ty_enum /\ c_string x
  | IntV z => (t = ty_arithmos DNat /\ (0 <= z < 2 ^ 32)%Z) \/ (t = ty_arithmos DInt /\ (- 2 ^ 31 <= z < 2 ^ 31)%Z)
  end.
(** The conversion functions of convert.h change nothing: what toX returns is its argument, as
    passed to its parameter, and fromX gives back what is in a message. *)
Record plain_conversions (types : type_map) (conv : gostr -> cval -> option cval) : Prop := {
  pc_to : forall c t x y, types !! c = Some t -> c_string x -> pass_value t x = Some y -> conv (convert_to c) (val x) = Some (val y);
  pc_from : forall c t x, types !! c = Some t -> fits_type t x -> conv (convert_from c) (val x) = Some (val x);
}.

(** ** Effects *)
Definition status_text (s : status) : gostr :=
  match s with
  | WAIT_START => lit "WAIT_START" | WAIT_IN => lit "WAIT_IN" | WAIT_OUT => lit "WAIT_OUT" | OFF_SCRIPT => lit "OFF_SCRIPT"
  | TIMEOUT => lit "TIMEOUT" | FAIL => lit "FAIL" | BUG => lit "BUG"
  end.
Definition v_status (s : status) : cval := VEnum [lit "rtcg"; lit "Status"; status_text s].
Definition v_outcome (o : gostr) : cval := VEnum [lit "rtcg"; lit "Outcome"; o].
(** A line of the log: std::cerr, or the log of ROS. *)
Definition logged (v : variant) (level : gostr) (parts : list cval) : effect :=
  match v with
  | VRos => FPrint (lit "ROS_" ++ to_upper level ++ lit "_STREAM") (parts ++ [VEndl])
  | _ => FPrint (lit "cerr") (VStr (lit "[" ++ level ++ lit "] ") :: parts ++ [VEndl])
  end.
Definition info_line (v : variant) (parts : list cval) : effect := logged v (lit "info") parts.
(** How the program shows the inputs that it gives to the system under test: as messages on the
    channel's topic, or as lines of the log. *)
Definition actual : gostr := lit "(Actual value received by SUT on ".
Definition input_effect (v : variant) (e : effect) : bool :=
  match v, e with
  | VRos, FPublish _ _ => true
  | VRos, FPrint _ _ => false
  | _, FPrint _ (_ :: VStr s :: _) => bool_decide (actual `prefix_of` s)
  | _, _ => false
  end.
Definition sent_effect (v : variant) (cx : gostr * valuable) : effect :=
  match v with
  | VRos => FPublish (topic_name cx.1) (val cx.2)
  | _ => info_line v [VStr (actual ++ cx.1 ++ lit " after conversion: "); val cx.2; VStr (lit ")")]
  end.
(** The last lines of the log: the status and the outcome of each test. *)
Definition final_lines (v : variant) (name : gostr) (tests : list gostr) (s : status) (outcome_of : gostr -> gostr) : list effect :=
  [info_line v [VStr (lit "Test " ++ name ++ lit " finished: "); v_status s; VStr (lit ".")]; info_line v [VStr (lit "Final outcomes: ")]] ++
  map (fun t => info_line v [VStr (lit "  " ++ t ++ lit " = "); v_outcome (outcome_of t)]) tests.

(** ** Inputs *)
(** What a user types, or the environment sends, as the model of Cpp.v has it: words each with the
    value of an output, if the word names an output channel, ... *)
Definition shown (x : valuable) : gostr := match x with IntV z => format_int z | EnumV s => s end.
Definition typed_words (root : node) (wx : gostr * valuable) : list input :=
  IWord wx.1 :: if bool_decide (wx.1 ∈ out_names root) then [IWord (shown wx.2)] else [].
Definition typed_in (root : node) (script : list (gostr * valuable)) : list input := concat (map (typed_words root) script).
Definition script_fits (root : node) (types : type_map) (script : list (gostr * valuable)) : Prop :=
  forall w x, (w, x) ∈ script -> w ∈ out_names root -> exists t, types !! w = Some t /\ fits_type t x.
(** Anything that a user types means such words and values: the words are read as the program does, that is,
    one or two at a time, the second as the channel's type reads it.  The last part says whether the input has
    then ended (or failed, after something typed for a number that is not one), so that nothing is read any more.
    A channel's name can be the last word of all: its value is then awaited, or, after the end of the input, the
    empty text; a number would have no value at all (in C++ the behaviour is undefined). *)
Definition reads_unsigned (t : rstype) (u : bool) : Prop := t = if u then ty_arithmos DNat else ty_arithmos DInt.
Inductive typed_as (outs : gostr -> Prop) (types : type_map) : list input -> list (gostr * valuable) -> bool -> Prop :=
  | ta_none : typed_as outs types [] [] false
  | ta_end r : typed_as outs types (IClosed :: r) [] true
  | ta_word w x r script e : ~ outs w -> typed_as outs types r script e -> typed_as outs types (IWord w :: r) ((w, x) :: script) e
  | ta_no_value w : outs w -> typed_as outs types [IWord w] [] false
  | ta_text w s r script e : outs w -> types !! w = Some ty_enum -> byte 0 ∉ (s : list ascii) -> typed_as outs types r script e ->
      typed_as outs types (IWord w :: IWord s :: r) ((w, EnumV s) :: script) e
  | ta_no_text w r : outs w -> types !! w = Some ty_enum -> typed_as outs types (IWord w :: IClosed :: r) [(w, EnumV [])] true
  | ta_number w t u s z rest r script e : outs w -> types !! w = Some t -> reads_unsigned t u -> read_number u s = (z, rest) ->
      typed_as outs types (after_number rest r) script e -> typed_as outs types (IWord w :: IWord s :: r) ((w, IntV z) :: script) e.
(** The answer to a word that is none of those asked for. *)
Definition sorry_line : effect := FPrint (lit "cout") [VStr (lit "Sorry, try again." ++ [byte 10])].
Definition is_sorry (e : effect) : bool :=
  match e with
  | FPrint o [VStr s] => str_eqb o (lit "cout") && str_eqb s (lit "Sorry, try again." ++ [byte 10])
  | _ => false
  end.
Definition sorries (l : list effect) : nat := length (filter (fun e => is_sorry e = true) l).
(** ... and events: the timers of 15 and 3 seconds, and messages. *)
Definition ros_in (e : ros_event) : input :=
  match e with
  | RTimeout => ITick 15
  | RDelay => ITick 3
  | RAccept => IMsg (lit "input_accepted") (VBool true)
  | ROut ch x => IMsg (topic_name ch) (val x)
  end.
Definition events_fit (root : node) (types : type_map) (evs : list ros_event) : Prop :=
  forall c x, ROut c x ∈ evs -> c ∈ out_names root /\ exists t, types !! c = Some t /\ fits_type t x.

(** ** Results *)
(** The run shows that the program is as the tester's observations say: it has given the inputs it should
    have, and either waits for more or has ended with the exit code and the final lines it should have. *)
Record run_shows (v : variant) (name : gostr) (root : node) (types : type_map) (tests : list gostr) (o : obs) (r : result cval) : Prop := {
  rs_end : match r with
           | Fine x w => is_running (obs_status root o) = false /\ x = VInt (exit_code (obs_status root o)) /\
               exists before, w_out w = before ++ final_lines v name tests (obs_status root o) (fun t => outcome_enum (obs_outcome root o t))
           | Waits w => is_running (obs_status root o) = true
           | Busy _ | Fault => False
           end;
  rs_sent : forall w, r = Waits w \/ (exists x, r = Fine x w) -> exists sent,
    Forall2 (passed types) (obs_sent root o) sent /\ filter (fun e => input_effect v e = true) (w_out w) = map (sent_effect v) sent;
}.
(** Without input a test that is not over never ends: whatever the number of rounds it is given, it goes on,
    and says sorry in each. *)
Record run_spins (v : variant) (root : node) (types : type_map) (o : obs) (rounds : nat) (r : result cval) : Prop := {
  sp_running : is_running (obs_status root o) = true;
  sp_busy : exists w sent, r = Busy w /\ rounds <= sorries (w_out w) /\
    Forall2 (passed types) (obs_sent root o) sent /\ filter (fun e => input_effect v e = true) (w_out w) = map (sent_effect v) sent;
}.
