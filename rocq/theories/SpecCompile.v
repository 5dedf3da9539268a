(** * Specification vocabulary for compiling what the tools make of a file of traces (C93) *)
From Verif Require Export SpecChain SpecTypes SpecLink SpecConvert.
From Verif Require Export StmProofs.

(** Names that C++ needs to be different: no two channels differ only in the case of their first letter; no test is called
    like a macro of convert.h or of ROS's log. *)
Record suite_names (ts : list forbidden) (names : list gostr) : Prop := {
  sn_apart : forall e1 e2, traces_event ts e1 -> traces_event ts e2 -> upcase_first (ch_name (e_chan e1)) = upcase_first (ch_name (e_chan e2)) -> ch_name (e_chan e1) = ch_name (e_chan e2);
  sn_tests : forall n, n ∈ names -> n <> lit "CONVERT_H_DEFINED" /\ n <> lit "ROS_INFO_STREAM" /\ n <> lit "ROS_ERROR_STREAM" /\
    forall e, traces_event ts e -> n <> upcase_first (ch_name (e_chan e)) ++ lit "Val" /\ n <> upcase_first (ch_name (e_chan e)) ++ lit "Msg";
}.
(** Over ROS, the topics of a trace are different. *)
Definition input_topics (t : forbidden) : Prop :=
  forall e f, e ∈ trace_events t -> f ∈ trace_events t -> ch_kind (e_chan e) = KIn -> ch_kind (e_chan f) = KIn ->
    topic_name (ch_name (e_chan e)) = topic_name (ch_name (e_chan f)) -> ch_name (e_chan e) = ch_name (e_chan f).
(** The texts of a configuration: types of channels that can be macros and are none of convert.h's own; includes. *)
Record config_texts (ts : list forbidden) (cc : cpp_config) : Prop := {
  ct_types : forall e o, traces_event ts e -> override_of cc (ch_name (e_chan e)) o -> macro_text o /\ const_ptr_of o = None /\ o <> lit "CONVERT_H_DEFINED" /\
    forall d, traces_event ts d -> o <> upcase_first (ch_name (e_chan d)) ++ lit "Val" /\ o <> upcase_first (ch_name (e_chan d)) ++ lit "Msg";
  ct_includes : forall i, i ∈ cc_includes cc -> include_text (in_src i);
}.

(** What a compiler makes of main.cpp and convert.h: the declarations are in order; so are the types, if those of the
    configuration that the trace uses can do what they have to. *)
Definition cxx_accepts (t : forbidden) (cc : cpp_config) (h : list item) (p : list citem) : Prop :=
  declarations_ok h p = true /\
  forall u, (forall e o, e ∈ trace_events t -> override_of cc (ch_name (e_chan e)) o ->
      match cc_variant cc with
      | VRos => message u (text_type o) = true
      | _ => storable u (text_type o) = true /\ (ch_kind (e_chan e) = KIn -> printed u (text_type o) = true)
      end) -> types_ok u h p = true.
(** And a linker, of both with rtcg.h, rtcg.cpp and a convert.cpp that defines the functions [user]: they make a program. *)
Definition makes_program (d : list hdecl) (r p : list citem) (h : list item) (user : list gostr) : Prop :=
  let own := source_symbols (declared_types d) p ++ source_symbols (declared_types d) r in
  linkable own (defined h ++ user) /\ (forall f, f ∈ functions h -> f ∈ defined h ++ user) /\
  (forall s, s ∈ header_symbols (declared_types d) d \/ s ∈ class_symbols (declared_types d) p -> s ∈ own) /\ (exists ts, ([lit "main"], ts) ∈ own).
