(** * Specification vocabulary for the text of main.cpp *)
From Verif Require Export SpecCxx SpecCpp MainText.

(** Names that C++ can spell: identifiers given to states, names of tests (which are also
    functions, so not keywords), names of channels. *)
Record spellable (root : node) : Prop := {
  sl_ids : forall p n, p <> [] -> node_at root p = Some n -> n_id n <> [] -> identifier (n_id n);
  sl_tests : forall p n t, node_at root p = Some n -> t ∈ n_tests n -> plain_ident t;
  sl_chans : forall e, tree_event root e -> identifier (ch_name (e_chan e));
}.

(** Names that the templates do not also give to something else. *)
Record unambiguous (root : node) (tests : list gostr) : Prop := {
  (* the class Verdict has a constructor, a method dump, and for each test t a method t and a field t_ *)
  ua_tests : lit "Verdict" ∉ tests /\ lit "dump" ∉ tests;
  ua_fields : forall t, t ∈ tests -> t ++ lit "_" ∉ tests;
  (* the class StateMachine has methods timeoutCallback, initialDelayCallback, inputAcceptedCallback, ... *)
  ua_callbacks : lit "timeout" ∉ out_names root /\ lit "initialDelay" ∉ out_names root /\ lit "inputAccepted" ∉ out_names root;
  (* ... enterInitial, enterStepN and enterX for each state that was given the identifier x, ... *)
  ua_entries : forall c, c ∈ out_names root -> forall id,
    id = lit "initial" \/ (exists k, id = lit "step" ++ format_N k) \/ (exists p n, p <> [] /\ node_at root p = Some n /\ n_id n = id /\ id <> []) ->
    callback_name c <> state_entry id;
  (* ... none of which is a conversion function toX or fromX. *)
  ua_convs : forall c e, c ∈ out_names root -> tree_event root e ->
    callback_name c <> convert_to (ch_name (e_chan e)) /\ callback_name c <> convert_from (ch_name (e_chan e));
}.
(** ROS: each output channel has its own topic, and none that of the acknowledgements. *)
Record topics_distinct (root : node) : Prop := {
  td_inj : forall c d, c ∈ out_names root -> d ∈ out_names root -> topic_name c = topic_name d -> c = d;
  td_ack : forall c, c ∈ out_names root -> topic_name c <> lit "input_accepted";
}.
(** The other texts that get into main.cpp. *)
Record header_texts (name date : gostr) (includes : list include) : Prop := {
  ht_name : cpp_safe name;
  ht_date : byte 10 ∉ (date : list ascii);
  ht_includes : forall i, i ∈ includes -> byte 10 ∉ (in_src i : list ascii);
}.
(** The names of a forbidden trace and its test, for one test per program. *)
Record trace_names (t : forbidden) (name : gostr) : Prop := {
  tn_test : plain_ident name /\ name <> lit "Verdict" /\ name <> lit "dump";
  tn_chans : forall e, e ∈ trace_events t -> identifier (ch_name (e_chan e));
  tn_callbacks : forall c, c ∈ output_names (trace_events t) -> c <> lit "timeout" /\ c <> lit "initialDelay" /\ c <> lit "inputAccepted" /\
    forall e, e ∈ trace_events t -> callback_name c <> convert_to (ch_name (e_chan e)) /\ callback_name c <> convert_from (ch_name (e_chan e));
}.
(** No name is also a macro: of convert.h (its guard, XVal and XMsg of every channel x) or of ROS's log. *)
Record no_macros (types : type_map) (root : node) (tests : list gostr) : Prop := {
  nm_tests : forall t, t ∈ tests -> t <> lit "CONVERT_H_DEFINED" /\ t <> lit "ROS_INFO_STREAM" /\ t <> lit "ROS_ERROR_STREAM" /\
    forall c, is_Some (types !! c) -> t <> upcase_first c ++ lit "Val" /\ t <> upcase_first c ++ lit "Msg";
  nm_states : forall p n, p <> [] -> node_at root p = Some n -> to_upper (n_id n) <> lit "CONVERT_H_DEFINED";
}.
(** ROS: each input channel has its own topic, and its publisher is not called like the entry of a state. *)
Record publishers_distinct (root : node) : Prop := {
  pd_inj : forall e f, tree_event root e -> tree_event root f -> ch_kind (e_chan e) = KIn -> ch_kind (e_chan f) = KIn ->
    topic_name (ch_name (e_chan e)) = topic_name (ch_name (e_chan f)) -> ch_name (e_chan e) = ch_name (e_chan f);
  pd_entries : forall e p n, tree_event root e -> ch_kind (e_chan e) = KIn -> p <> [] -> node_at root p = Some n ->
    topic_name (ch_name (e_chan e)) ++ lit "_pub_" <> lit "enter" ++ upcase_first (n_id n);
}.
