(** * Specification vocabulary for generated test programs *)
From Verif Require Export Cpp SpecStm SpecTrace.

(** ** What a test tree means, as seen by the tester

    A run of a test follows the tree from the root: the tester is [At] a node (or has not
    started yet) and the test may have ended.  Identifiers play no role. *)

(** What a node says about a test: the outcome of its last successor naming the test. *)
Definition says (n : node) (t : gostr) : option outcome :=
  n_outcome <$> last (filter (fun k => t ∈ n_tests k) (n_next n)).
(** A node fails if it says so of some test. *)
Definition failing (n : node) : Prop :=
  Exists (fun t => says n t = Some OFail) (concat (map n_tests (n_next n))).
Global Instance failing_dec n : Decision (failing n).
Proof. unfold failing. apply _. Defined.

(** The successor offering an input, resp. the first one expecting [v] on channel [c]. *)
Definition offers (n : node) (i : nat) (e : event) : Prop :=
  exists k, n_next n !! i = Some k /\ n_outcome k <> OFail /\ n_event k = Some e.
Definition input_kid (k : node) : Prop :=
  n_outcome k <> OFail /\ match n_event k with Some e => ch_kind (e_chan e) = KIn | None => False end.
Definition output_kid (c : gostr) (v : valuable) (k : node) : Prop :=
  n_outcome k <> OFail /\
  match n_event k with
  | Some e => ch_kind (e_chan e) <> KIn /\ ch_name (e_chan e) = c /\ e_value e = Some v
  | None => False
  end.
Global Instance input_kid_dec k : Decision (input_kid k).
Proof. unfold input_kid. destruct (n_event k); apply _. Defined.
Global Instance output_kid_dec c v k : Decision (output_kid c v k).
Proof. unfold output_kid. destruct (n_event k); apply _. Defined.
Definition next_input (n : node) : option nat := fst <$> list_find input_kid (n_next n).
Definition next_output (n : node) (c : gostr) (v : valuable) : option nat :=
  fst <$> list_find (output_kid c v) (n_next n).

(** The names of the output channels of the test. *)
Fixpoint out_names (n : node) : list gostr :=
  match n with
  | Node _ _ _ _ next =>
    concat (map (fun k => (if decide (n_outcome k = OFail) then []
                           else match n_event k with
                                | Some e => if decide (ch_kind (e_chan e) = KIn) then [] else [ch_name (e_chan e)]
                                | None => []
                                end) ++ out_names k) next)
  end.

(** Where the tester is ([None]: waiting to start), and how the test ended, if it has. *)
Record obs := Obs { o_at : option path; o_end : option status }.
Definition arrive (T : node) (p : path) : obs :=
  Obs (Some p) (match node_at T p with
                | Some n => if decide (failing n) then Some FAIL else None
                | None => None
                end).
Definition obs_start (T : node) : obs :=
  match next_input T with Some _ => Obs None None | None => arrive T [] end.
(** One word of the interactive session (with a value, for outputs). *)
Definition obs_step (T : node) (o : obs) (w : gostr) (v : valuable) : obs :=
  match o_end o with
  | Some _ => o
  | None =>
    if decide (w = lit "timeout") then Obs (o_at o) (Some TIMEOUT)
    else match o_at o with
         | None =>
           if decide (w = lit "ready") then arrive T []
           else if decide (w ∈ out_names T) then Obs None (Some OFF_SCRIPT) else o
         | Some p =>
           match node_at T p with
           | None => o
           | Some n =>
             if decide (w = lit "accept") then
               match next_input n with Some i => arrive T (p ++ [i]) | None => o end
             else if decide (w ∈ out_names T) then
               match next_output n w v with
               | Some i => arrive T (p ++ [i])
               | None => Obs (Some p) (Some OFF_SCRIPT)
               end
             else o
           end
         end
  end.
Definition obs_run (T : node) (script : list (gostr * valuable)) : obs :=
  fold_left (fun o wv => obs_step T o wv.1 wv.2) script (obs_start T).

(** The status shown, the outcome recorded for a test and the inputs sent so far. *)
Definition obs_status (T : node) (o : obs) : status :=
  match o_end o with
  | Some s => s
  | None => match o_at o with
            | None => WAIT_START
            | Some p => match node_at T p ≫= next_input with Some _ => WAIT_IN | None => WAIT_OUT end
            end
  end.
Fixpoint recorded (n : node) (p : path) (t : gostr) (o : outcome) : outcome :=
  let o' := default o (says n t) in
  match p with
  | [] => o'
  | i :: p' => match n_next n !! i with Some k => recorded k p' t o' | None => o' end
  end.
Definition obs_outcome (T : node) (o : obs) (t : gostr) : outcome :=
  match o_at o with None => OUnset | Some p => recorded T p t OUnset end.
Definition input_of (n : node) : list (gostr * value) :=
  if decide (failing n) then []
  else match next_input n with
       | Some i => match n_next n !! i with
                   | Some k => match n_event k with
                               | Some e => [(ch_name (e_chan e), e_value e)]
                               | None => []
                               end
                   | None => []
                   end
       | None => []
       end.
Fixpoint sends (n : node) (p : path) : list (gostr * value) :=
  input_of n ++ match p with
                | [] => []
                | i :: p' => match n_next n !! i with Some k => sends k p' | None => [] end
                end.
Definition obs_sent (T : node) (o : obs) : list (gostr * value) :=
  match o_at o with None => [] | Some p => sends T p end.

(** ** Trees that the templates support *)

(** At most one input, and no mixture of inputs and outputs (the assumption stated in
    state_entry.cpp.tmpl:14). *)
Definition valid_state (n : node) : Prop :=
  Forall (fun ek => ch_kind (e_chan ek.1) <> KIn) (live_succs n) \/
  exists e k, live_succs n = [(e, k)] /\ ch_kind (e_chan e) = KIn.
Definition valid_tree (T : node) : Prop :=
  forall p n, node_at T p = Some n -> n_outcome n <> OFail -> valid_state n.
(** No channel is used both for outputs and for calls (each gives a callback of that name). *)
Definition one_kind (T : node) : Prop :=
  forall e1 e2, tree_event T e1 -> tree_event T e2 ->
    ch_name (e_chan e1) = ch_name (e_chan e2) ->
    ch_kind (e_chan e1) <> KIn -> ch_kind (e_chan e2) <> KIn -> ch_kind (e_chan e1) = ch_kind (e_chan e2).
(** No output channel has the name of one of the interactive commands. *)
Definition no_reserved (T : node) : Prop :=
  lit "timeout" ∉ out_names T /\ lit "ready" ∉ out_names T /\ lit "accept" ∉ out_names T.

(** Constants that a C++ string literal can hold as they are. *)
Definition cpp_safe (s : gostr) : Prop :=
  byte 34 ∉ s /\ byte 92 ∉ s /\ byte 10 ∉ s /\ byte 13 ∉ s /\ byte 0 ∉ s.
(** Values that a literal of the channel's type can be compared with: numbers have literals up
    to 63 bits, and naturals (unsigned int) are not compared with negative literals, which
    C++ would wrap around. *)
Definition expressible (t : rstype) (v : value) : Prop :=
  match v with
  | Some (EnumV s) => t = ty_enum /\ cpp_safe s
  | Some (IntV z) => ((t = ty_arithmos DNat /\ (0 <= z)%Z) \/ t = ty_arithmos DInt) /\ (Z.abs z < 2 ^ 63)%Z
  | None => False
  end.
Definition typed (types : type_map) (T : node) : Prop :=
  forall e, tree_event T e -> exists t, types !! ch_name (e_chan e) = Some t /\ expressible t (e_value e).
(** Values that fit the C++ type of the channel. *)
Definition fits32 (t : rstype) (v : value) : Prop :=
  match v with
  | Some (IntV z) => (t = ty_arithmos DNat -> (0 <= z < 2 ^ 32)%Z) /\ (t = ty_arithmos DInt -> (- 2 ^ 31 <= z < 2 ^ 31)%Z)
  | _ => True
  end.

(** What is left of a number after passing it as the channel's type. *)
Definition passed (types : type_map) (cv : gostr * value) (cw : gostr * valuable) : Prop :=
  cw.1 = cv.1 /\
  match cv.2, cw.2 with
  | Some (EnumV s), EnumV s' => s' = s
  | Some (IntV z), IntV z' =>
    (types !! cv.1 = Some (ty_arithmos DNat) -> (0 <= z' < 2 ^ 32)%Z /\ (z' mod 2 ^ 32 = z mod 2 ^ 32)%Z) /\
    (types !! cv.1 = Some (ty_arithmos DInt) -> (- 2 ^ 31 <= z' < 2 ^ 31)%Z /\ (z' mod 2 ^ 32 = z mod 2 ^ 32)%Z)
  | _, _ => False
  end.

(** Distinct states have distinct constants. *)
Definition case_distinct (m : stm) : Prop := NoDup (map (fun s => to_upper (st_id s)) (m_states m)).

(** ** Well-formed programs: every name used is declared exactly once *)
Definition used_entries (P : program) : list gostr :=
  p_initial P :: default [] ((fun l => l.*2) <$> p_accept P) ++
  concat (map (fun o => concat (map (fun c => map snd c.2) (oc_cases o))) (p_outs P)).
Definition used_states (P : program) : list gostr :=
  p_state0 P :: map en_state (p_entries P) ++ default [] ((fun l => l.*1) <$> p_accept P) ++
  concat (map (fun o => (oc_cases o).*1) (p_outs P)).
Definition literals_ok (P : program) : Prop :=
  (forall o c g f, o ∈ p_outs P -> c ∈ oc_cases o -> (g, f) ∈ c.2 ->
     exists t, p_types P !! oc_chan o = Some t /\
       match g with
       | GCompare l => std_type t = lit "std::string" /\ exists s, cpp_lit l = Some (EnumV s)
       | GEqual l => (std_type t = lit "unsigned int" \/ std_type t = lit "int") /\ exists z, cpp_lit l = Some (IntV z)
       end) /\
  (forall e ch l, e ∈ p_entries P -> en_act e = ActIn (Some (ch, l)) ->
     exists t v, p_types P !! ch = Some t /\ cpp_lit l = Some v /\ is_Some (pass_value t v)).
Record well_declared (P : program) : Prop := {
  wd_tests : NoDup (p_tests P);
  wd_enum : NoDup (p_enum P);
  wd_entries : NoDup (map en_name (p_entries P));
  wd_callbacks : NoDup (map oc_name (p_outs P));
  wd_calls : forall f, f ∈ used_entries P -> f ∈ map en_name (p_entries P);
  wd_states : forall s, s ∈ used_states P -> s ∈ p_enum P;
  wd_setters : forall e t o, e ∈ p_entries P -> (t, o) ∈ en_verdict e ->
    t ∈ p_tests P /\ o ∈ [lit "UNSET"; lit "INC"; lit "PASS"; lit "FAIL"];
  wd_accept_cases : forall l, p_accept P = Some l -> NoDup l.*1;
  wd_out_cases : forall o, o ∈ p_outs P -> NoDup (oc_cases o).*1;
  wd_nonempty : forall o c, o ∈ p_outs P -> c ∈ oc_cases o -> c.2 <> []
}.

(** ** One forbidden trace

    The words and values of a session make the events of a trace happen, in order:
    acknowledgements of inputs and outputs with the expected value.  Words that mean nothing
    at the time are ignored; a timeout, or any other output of a channel of the test, is a
    deviation after which no more events count.  Once the events have all happened anything
    may follow. *)
Inductive seen (names : list gostr) : list event -> list (gostr * valuable) -> Prop :=
| seen_all script : seen names [] script
| seen_input e es v script : ch_kind (e_chan e) = KIn -> seen names es script ->
    seen names (e :: es) ((lit "accept", v) :: script)
| seen_output e es v script : ch_kind (e_chan e) <> KIn -> e_value e = Some v -> seen names es script ->
    seen names (e :: es) ((ch_name (e_chan e), v) :: script)
| seen_ignored e es w v script :
    w <> lit "timeout" -> w ∉ names -> (w = lit "accept" -> ch_kind (e_chan e) <> KIn) ->
    seen names (e :: es) script -> seen names (e :: es) ((w, v) :: script).
(** As above, once the word ready has been given. *)
Inductive seen_ready (names : list gostr) (es : list event) : list (gostr * valuable) -> Prop :=
| sr_ready v script : seen names es script -> seen_ready names es ((lit "ready", v) :: script)
| sr_ignored w v script : w <> lit "timeout" -> w <> lit "ready" -> w ∉ names ->
    seen_ready names es script -> seen_ready names es ((w, v) :: script).

(** The output channels of some events. *)
Definition output_names (es : list event) : list gostr :=
  map (fun e => ch_name (e_chan e)) (filter (fun e => ch_kind (e_chan e) <> KIn) es).
(** [reached t es script]: in the session, the test for [t] has begun and the events [es] (the
    first ones of [t]) have been observed.  A test whose first event is an input begins with
    the word ready, any other one immediately. *)
Definition reached (t : forbidden) (es : list event) (script : list (gostr * valuable)) : Prop :=
  match trace_events t with
  | e :: _ => if decide (ch_kind (e_chan e) = KIn) then seen_ready (output_names (trace_events t)) es script
              else seen (output_names (trace_events t)) es script
  | [] => True
  end.
(** Traces that the templates support: every event has a value that its channel's type can
    express, no channel is used both for outputs and for calls, and no output channel has the
    name of an interactive command. *)
Definition trace_ok (types : type_map) (t : forbidden) : Prop :=
  (forall e, e ∈ trace_events t -> exists ty, types !! ch_name (e_chan e) = Some ty /\ expressible ty (e_value e)) /\
  (forall e1 e2, e1 ∈ trace_events t -> e2 ∈ trace_events t -> ch_name (e_chan e1) = ch_name (e_chan e2) ->
     ch_kind (e_chan e1) <> KIn -> ch_kind (e_chan e2) <> KIn -> ch_kind (e_chan e1) = ch_kind (e_chan e2)) /\
  (lit "timeout" ∉ output_names (trace_events t) /\ lit "ready" ∉ output_names (trace_events t) /\
   lit "accept" ∉ output_names (trace_events t)).

(** Pre-assigned identifiers that cannot collide even when letter case is ignored (constants
    of the generated program are upper-cased). *)
Definition fresh_cased (root : node) : Prop :=
  (forall p q n m, p <> [] -> q <> [] -> node_at root p = Some n -> node_at root q = Some m ->
     to_upper (n_id n) = to_upper (n_id m) -> n_id n <> [] -> p = q) /\
  (forall p n, p <> [] -> node_at root p = Some n ->
     to_upper (n_id n) <> to_upper (lit "initial") /\ forall k, to_upper (n_id n) <> to_upper (lit "step" ++ format_N k)).

(** Trees that the templates support. *)
Record supported (types : type_map) (root : node) : Prop := {
  sp_valid : valid_tree root;
  sp_kind : one_kind root;
  sp_typed : typed types root;
  sp_ids : fresh_cased root;
}.

(** The inputs among some events, with their values. *)
Definition inputs_of (l : list event) : list (gostr * value) :=
  map (fun e => (ch_name (e_chan e), e_value e)) (filter (fun e => ch_kind (e_chan e) = KIn) l).

(** The program state [c] shows what the tester expects of [root]. *)
Record shows (root : node) (types : type_map) (tests : list gostr) (o : obs) (c : cpp) : Prop := {
  sh_status : c_status c = obs_status root o;
  sh_outcome : forall t, t ∈ tests -> c_verdict c !! t = Some (outcome_enum (obs_outcome root o t));
  sh_sent : Forall2 (passed types) (obs_sent root o) (c_sent c);
}.

(** ** Entering a state, for trees with any branching *)
(** The continuation [k] by input [e] is the only one on its channel. *)
Definition sole_input (n : node) (e : event) (k : node) : Prop :=
  ch_kind (e_chan e) = KIn /\ filter (fun ek => e_chan ek.1 = e_chan e) (live_succs n) = [(e, k)].
(** The first continuation that is. *)
Definition first_sole_input (n : node) (e : event) (k : node) : Prop :=
  exists l1 l2, live_succs n = l1 ++ (e, k) :: l2 /\ sole_input n e k /\
    forall e' k', (e', k') ∈ l1 -> ~ sole_input n e' k'.
Definition has_input_kid (n : node) : Prop := exists e k, (e, k) ∈ live_succs n /\ ch_kind (e_chan e) = KIn.
