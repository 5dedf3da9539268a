(** * Specification vocabulary for the tools *)
From Verif Require Export Tools SpecJson SpecStm SpecCpp SpecRos SpecCsv SpecGen.
From Verif Require Export StmProofs.

(** Iteration orders that Go may choose. *)
Definition any_order (ord : gmap gostr forbidden -> list (gostr * forbidden)) : Prop :=
  forall m, order_of m (ord m).
Record any_orders (o : ms_orders) : Prop := {
  ao_valid : forall s, order_of s (ms_valid o s);
  ao_build : forall t, order_of t (ms_build o t);
  ao_unify : forall ms, orders_of ms (ms_unify o ms);
  ao_sets : forall s, set_orders s (ms_sets o s);
}.

(** The events of a suite of tests; each channel carries values of one class; every event
    carries a value. *)
Definition suite_event (tests : gmap gostr node) (e : event) : Prop :=
  exists k t, tests !! k = Some t /\ tree_event t e.
Definition one_class (P : event -> Prop) : Prop :=
  forall e1 e2, P e1 -> P e2 -> ch_name (e_chan e1) = ch_name (e_chan e2) -> class_of (e_value e1) = class_of (e_value e2).
Definition all_valued (P : event -> Prop) : Prop := forall e, P e -> e_value e <> None.

(** The suite of machines for a suite of tests: machine by machine what the builder makes
    (C22-C29), with the least types covering all of them. *)
Definition machines_of (tests : gmap gostr node) (s : stm_suite) : Prop :=
  (forall k, match tests !! k, su_tests s !! k with
             | Some t, Some m => exists b', build new_builder t = Ok b' /\ b_stm b' = m
             | None, None => True
             | _, _ => False
             end) /\
  (forall c u, su_types s !! c = Some u <-> suite_lub (su_tests s) c u).

(** The events of a list of traces. *)
Definition traces_event (ts : list forbidden) (e : event) : Prop := exists t, t ∈ ts /\ e ∈ trace_events t.
(** Values that C++ literals express. *)
Definition literal_value (v : value) : Prop :=
  match v with
  | None => False
  | Some (IntV z) => (Z.abs z < 2 ^ 63)%Z
  | Some (EnumV s) => cpp_safe s
  end.
(** Traces that can be run: no channel both for outputs and calls within a trace, and no output
    channel called like a command of the session. *)
Definition runnable (t : forbidden) : Prop :=
  (forall e1 e2, e1 ∈ trace_events t -> e2 ∈ trace_events t -> ch_name (e_chan e1) = ch_name (e_chan e2) ->
     ch_kind (e_chan e1) <> KIn -> ch_kind (e_chan e2) <> KIn -> ch_kind (e_chan e1) = ch_kind (e_chan e2)) /\
  (forall w, w ∈ [lit "timeout"; lit "ready"; lit "accept"] -> w ∉ output_names (trace_events t)).

(** The suite of the trees of some traces under their names. *)
Definition trees_of (ts : list forbidden) (names : list gostr) (tests : gmap gostr node) : Prop :=
  forall k n, tests !! k = Some n <-> exists i t, names !! i = Some k /\ ts !! i = Some t /\ n = expand t k.

(** The program in a generated main.cpp (None for other files): its data are the machine, the
    channel types and the machine's tests. *)
Definition main_program (x : content) : option program :=
  match x with
  | CMain _ _ m ctx => gen_program m (fst <$> cx_types ctx) (elements (m_tests m))
  | _ => None
  end.
(** The program of the interactive variant tests [t]: in every session it fails exactly if the
    whole trace has been observed. *)
Definition tests_trace (t : forbidden) (P : program) : Prop :=
  forall script, exists c, animate P script = Some c /\ (c_status c = FAIL <-> reached t (trace_events t) script).
(** The same for the ROS variant, as long as acknowledgements come only when awaited and
    messages only on channels the test listens to. *)
Definition tests_trace_ros (t : forbidden) (name : gostr) (P : program) : Prop :=
  forall evs, acks_expected (expand t name) evs -> (forall w v, ROut w v ∈ evs -> w ∈ output_names (trace_events t)) ->
    exists c, ros P evs = Some c /\ (c_status c = FAIL <-> reached t (trace_events t) (map ros_word evs)).

(** Traces that can be turned into running tests. *)
Record testable (ts : list forbidden) : Prop := {
  tt_safe : Forall safe_trace ts;
  tt_depth : Forall (fun t => length (f_prefix t) <= 4996) ts;
  tt_class : one_class (traces_event ts);
  tt_values : forall e, traces_event ts e -> literal_value (e_value e);
  tt_run : Forall runnable ts;
}.
