(** * Specification vocabulary for the JSON properties *)
From Verif Require Export Json Trace SpecLang SpecTree.

(** Unicode scalar values: code points that are not surrogates. *)
Definition scalar (r : N) : Prop := (r < 55296 ∨ 57344 <= r < 1114112)%N.

(** Well-formed UTF-8: the encoding of some sequence of scalar values. *)
Definition valid_utf8 (s : gostr) : Prop :=
  exists rs : list N, Forall scalar rs /\ s = mjoin (map encode_rune rs).

(** What a string becomes on its way through JSON: every byte that is not part of a valid
    sequence is replaced by U+FFFD. *)
Definition coerce_chunk (u : chunk) : gostr :=
  match u with Good q => q | Bad _ => replacement end.
Definition coerce (s : gostr) : gostr := mjoin (map coerce_chunk (chunks s)).

(** The same for a document: keys and strings. *)
Fixpoint jcoerce (j : json) : json :=
  match j with
  | JStr s => JStr (coerce s)
  | JArr l => JArr (map jcoerce l)
  | JObj l => JObj (map (fun kv => (coerce kv.1, jcoerce kv.2)) l)
  | _ => j
  end.

(** Documents without numbers (rtcg writes none). *)
Fixpoint no_num (j : json) : Prop :=
  match j with
  | JNum _ => False
  | JArr l => foldr and True (map no_num l)
  | JObj l => foldr and True (map (fun kv => no_num kv.2) l)
  | _ => True
  end.

(** All strings of a document are valid UTF-8. *)
Fixpoint jvalid (j : json) : Prop :=
  match j with
  | JStr s => valid_utf8 s
  | JArr l => foldr and True (map jvalid l)
  | JObj l => foldr and True (map (fun kv => valid_utf8 kv.1 /\ jvalid kv.2) l)
  | _ => True
  end.

(** Strings that JSON keeps, in the parts of an event, a node and a suite. *)
Definition safe_value (v : value) : Prop :=
  match v with None => True | Some v => plain_value v /\ valid_utf8 (valuable_text v) end.
Definition safe_channel (c : channel) : Prop :=
  valid_kind (ch_kind c) /\ plain_chan_name (ch_name c) /\ valid_utf8 (ch_name c).
Definition safe_event (e : event) : Prop := safe_channel (e_chan e) /\ safe_value (e_value e).
Fixpoint safe_node (n : node) : Prop :=
  match n with
  | Node i ts o e next =>
    valid_utf8 i /\ Forall valid_utf8 ts /\ valid_outcome o /\
    match e with None => True | Some e => safe_event e end /\
    foldr and True (map safe_node next)
  end.
Definition safe_suite (s : suite) : Prop :=
  forall k n, s !! k = Some n ->
    valid_utf8 k /\ match n with None => True | Some n => safe_node n end.

(** Number of nodes on the longest path of a tree. *)
Fixpoint height (n : node) : nat :=
  match n with Node _ _ _ _ next => S (list_max (map height next)) end.

(** State machines that JSON keeps. *)
Definition safe_state (s : state) : Prop :=
  valid_utf8 (st_id s) /\
  (forall ts, ts ∈ st_tsets s -> safe_channel (ts_chan ts) /\
     forall t, t ∈ ts_trans ts -> safe_value (tr_value t) /\ valid_utf8 (tr_next t)) /\
  (forall t o, st_verdict s !! t = Some o -> valid_utf8 t /\ valid_outcome o).
Definition safe_types (ts : type_map) : Prop :=
  forall c t, ts !! c = Some t -> valid_utf8 c /\ t ∈ basic_types.
Definition safe_stm (m : stm) : Prop :=
  (forall s, s ∈ m_states m -> safe_state s) /\ safe_types (m_types m) /\
  (forall t, t ∈ m_tests m -> valid_utf8 t).
Definition safe_stm_suite (s : stm_suite) : Prop :=
  safe_types (su_types s) /\
  forall k m, su_tests s !! k = Some m -> valid_utf8 k /\ safe_stm m.

(** Every transition of the suite carries a value. *)
Definition valued_stm (m : stm) : Prop :=
  forall s ts t, s ∈ m_states m -> ts ∈ st_tsets s -> t ∈ ts_trans ts -> tr_value t <> None.
Definition valued_stm_suite (s : stm_suite) : Prop :=
  forall k m, su_tests s !! k = Some m -> valued_stm m.

(** [orders] lists each machine's tests in some order. *)
Definition set_orders (s : stm_suite) (orders : gostr -> list gostr) : Prop :=
  forall k m, su_tests s !! k = Some m -> orders k ≡ₚ elements (m_tests m).

(** Traces that JSON keeps. *)
Definition safe_trace (t : forbidden) : Prop :=
  valid_utf8 (f_name t) /\ Forall safe_event (f_prefix t) /\ safe_event (f_forbid t).
