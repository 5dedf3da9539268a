(** * Properties C01-C07, C31, C38: text formats, equality, types *)
From Verif Require Import TestLangProofs Trace TraceProofs.

(** C01: writing a value and reading it back gives the same value exactly for int64 numbers
    and for constants without outer white space that do not spell an int64; an absent value
    cannot be written. *)
Theorem C01_value_text_roundtrip : forall v : valuable,
  value_marshal (Some v) = Ok (valuable_text v) /\
  (value_unmarshal (valuable_text v) = Some v <->
   match v with
   | IntV z => int64 z
   | EnumV s => no_outer_space s /\ ~ spells_int64 s
   end).
Proof. intros v. split; [reflexivity|]. exact (value_roundtrip v). Qed.
Print Assumptions C01_value_text_roundtrip.

Theorem C01_absent_value_not_written : value_marshal None = Err ErrMarshallAbsentValue.
Proof. reflexivity. Qed.

Example C01_witness :
  value_unmarshal (valuable_text (IntV (-42))) = Some (IntV (-42)) /\
  value_unmarshal (valuable_text (EnumV (lit "Red"))) = Some (EnumV (lit "Red")) /\
  value_unmarshal (valuable_text (EnumV (lit "007"))) = Some (IntV 7).
Proof. vm_compute. done. Qed.

(** C02: every text reads as a value; it is a number exactly if the trimmed text is an
    optionally signed decimal in the int64 range, otherwise the trimmed text itself. *)
Theorem C02_value_recognition : forall s t : gostr, trimmed s t ->
  (forall z, value_unmarshal s = Some (IntV z) <-> int_syntax t z /\ int64 z) /\
  (~ spells_int64 t -> value_unmarshal s = Some (EnumV t)).
Proof.
  intros s t H. split; [intros z; exact (value_unmarshal_int s t z H)|].
  exact (value_unmarshal_enum s t H).
Qed.
Print Assumptions C02_value_recognition.

Theorem C02_trimming_total_and_unique : forall s : gostr,
  exists t, trimmed s t /\ forall t', trimmed s t' -> t' = t.
Proof.
  intros s. destruct (trimmed_exists s) as [t Ht]. exists t. split; [exact Ht|].
  intros t' Ht'. exact (trimmed_unique s t' t Ht' Ht).
Qed.

Example C02_witness :
  value_unmarshal (lit " -9223372036854775808 ") = Some (IntV (-9223372036854775808)) /\
  value_unmarshal (lit "9223372036854775808") = Some (EnumV (lit "9223372036854775808")) /\
  value_unmarshal (lit "+0012") = Some (IntV 12) /\
  value_unmarshal (lit "1_000") = Some (EnumV (lit "1_000")).
Proof. vm_compute. done. Qed.

(** C03: an event survives writing and re-reading iff its kind is valid, its channel name
    is non-empty, dot-free and without outer white space, and its value, if any, survives. *)
Theorem C03_event_text_roundtrip : forall e : event,
  event_unmarshal zero_event (event_marshal e) = Ok e <->
  valid_kind (ch_kind (e_chan e)) /\
  plain_chan_name (ch_name (e_chan e)) /\
  match e_value e with None => True | Some v => plain_value v end.
Proof. exact event_roundtrip. Qed.
Print Assumptions C03_event_text_roundtrip.

Example C03_witness :
  let e := Event (Channel (lit "speed") KOut) (Some (IntV (-3))) in
  event_marshal e = lit "speed.out.-3" /\
  event_unmarshal zero_event (lit "speed.out.-3") = Ok e.
Proof. vm_compute. done. Qed.

(** C04: exactly which texts are events, and which event each denotes. *)
Theorem C04_event_text_accepted : forall old text e,
  event_unmarshal old text = Ok e <-> event_denoted old text e.
Proof. exact event_denoted_iff. Qed.
Print Assumptions C04_event_text_accepted.

Theorem C04_event_text_never_crashes : forall old text, event_unmarshal old text <> Panic.
Proof. exact event_unmarshal_no_panic. Qed.

Example C04_witness :
  event_unmarshal zero_event (lit " obs . OuT. 1.5") =
    Ok (Event (Channel (lit "obs") KOut) (Some (EnumV (lit "1.5")))) /\
  event_unmarshal zero_event (lit "foo.in") = Ok (Event (Channel (lit "foo") KIn) None) /\
  event_unmarshal zero_event (lit "foo.in.") = Ok (Event (Channel (lit "foo") KIn) (Some (EnumV []))) /\
  event_unmarshal zero_event (lit "foo") = Err (BadFieldCountError 1) /\
  event_unmarshal zero_event (lit "foo.inn") = Err (ErrInvalidKind (lit "inn")).
Proof. vm_compute. done. Qed.

(** C05: events obtained from text, with a channel name, are stable. *)
Theorem C05_parsed_events_stable : forall text e,
  event_unmarshal zero_event text = Ok e -> ch_name (e_chan e) <> [] ->
  event_unmarshal zero_event (event_marshal e) = Ok e.
Proof. exact event_parsed_stable. Qed.
Print Assumptions C05_parsed_events_stable.

Theorem C05_empty_name_refuted : exists text e,
  event_unmarshal zero_event text = Ok e /\
  event_unmarshal zero_event (event_marshal e) = Err (ErrInvalidKind (lit "3")).
Proof. exists (lit ".in.3"), (Event (Channel [] KIn) (Some (IntV 3))). vm_compute. done. Qed.

(** In general no accepted event with an empty channel name survives. *)
Theorem C05_empty_name_never_survives : forall text e,
  event_unmarshal zero_event text = Ok e -> ch_name (e_chan e) = [] ->
  event_unmarshal zero_event (event_marshal e) <> Ok e.
Proof. exact event_empty_name_unstable. Qed.
Print Assumptions C05_empty_name_never_survives.

Example C05_witness :
  event_unmarshal zero_event (lit "  a b . Call .  007 ") =
    Ok (Event (Channel (lit "a b") KCall) (Some (IntV 7))) /\
  event_marshal (Event (Channel (lit "a b") KCall) (Some (IntV 7))) = lit "a b.call.7".
Proof. vm_compute. done. Qed.

(** C06: what parsing into a used event does with the old contents. *)
Theorem C06_parse_into_used_event : forall old text,
  (forall old', is_ok (event_unmarshal old text) <-> is_ok (event_unmarshal old' text)) /\
  (forall e, event_unmarshal old text = Ok e ->
    (* no value in the text: the old value stays, everything else is new *)
    ((exists name k, event_text text name k None) ->
      e_value e = e_value old /\
      event_unmarshal zero_event text = Ok (Event (e_chan e) None)) /\
    (* a value in the text: the old contents do not matter *)
    ((exists name k v, event_text text name k (Some v)) ->
      event_unmarshal zero_event text = Ok e)).
Proof. exact event_unmarshal_used. Qed.
Print Assumptions C06_parse_into_used_event.

Example C06_witness :
  event_unmarshal (Event (Channel (lit "x") KIn) (Some (IntV 5))) (lit "y.out") =
    Ok (Event (Channel (lit "y") KOut) (Some (IntV 5))).
Proof. vm_compute. done. Qed.

(** C07: the comparison functions decide equality and prefix. *)
Theorem C07_event_equals : forall a b, event_equals a b = true <-> a = b.
Proof. exact event_equals_iff. Qed.
Theorem C07_trace_prefix : forall t o : trace,
  (is_prefix_of t o = Ok true <-> exists r, o = t ++ r) /\
  (is_prefix_of t o = Ok false <-> ~ exists r, o = t ++ r).
Proof. exact is_prefix_of_iff. Qed.
Theorem C07_trace_equals : forall t o : trace,
  (trace_equals t o = Ok true <-> t = o) /\ (trace_equals t o = Ok false <-> t <> o).
Proof. exact trace_equals_iff. Qed.
Print Assumptions C07_event_equals.
Print Assumptions C07_trace_prefix.
Print Assumptions C07_trace_equals.

Example C07_witness :
  let a := Event (Channel (lit "a") KIn) None in let b := Event (Channel (lit "a") KOut) None in
  is_prefix_of [a] [a; b] = Ok true /\ is_prefix_of [b] [a; b] = Ok false /\
  trace_equals [a; b] [a; b] = Ok true /\ trace_equals [a] [a; b] = Ok false.
Proof. vm_compute. done. Qed.

(** C31: unification is a partial join. *)
Theorem C31_unify_join : forall a b : rstype, wf_type a -> wf_type b ->
  (is_ok (unify (Some a) (Some b)) <-> t_kind a = t_kind b) /\
  (forall r, unify (Some a) (Some b) = Ok r ->
     exists c, r = Some c /\ wf_type c /\ ty_le a c /\ ty_le b c /\
               forall d, ty_le a d -> ty_le b d -> ty_le c d) /\
  unify (Some a) (Some b) <> Panic.
Proof. exact unify_join. Qed.
Theorem C31_unify_laws :
  (forall a, unify None a = Ok a /\ unify a None = Ok a /\ unify a a = Ok a) /\
  (forall a b, match a with Some a => wf_type a | None => True end ->
               match b with Some b => wf_type b | None => True end -> unify a b = unify b a) /\
  (forall a b c, res_bind (unify a b) (fun x => unify x c) = res_bind (unify b c) (fun x => unify a x)).
Proof.
  split; [|split; [exact unify_comm|exact unify_assoc]].
  intros a. split; [exact (unify_none_l a)|]. split; [exact (unify_none_r a)|exact (unify_idem a)].
Qed.
Print Assumptions C31_unify_join.
Print Assumptions C31_unify_laws.

Theorem C31_types_of_values_wf : forall v, wf_type (value_type v).
Proof. exact value_type_wf. Qed.

Example C31_witness :
  unify (Some (ty_arithmos DNat)) (Some (ty_arithmos DInt)) = Ok (Some (ty_arithmos DInt)) /\
  unify (Some ty_enum) (Some (ty_arithmos DInt)) = Err ErrUnifyDifferentKinds.
Proof. vm_compute. done. Qed.

(** C38: enumeration names (the C++ variants are in PropGen.v). *)
Theorem C38_kind_names :
  (forall s k, parse_kind s = Some k <-> valid_kind k /\ to_lower s = kind_string k) /\
  (forall s k, valid_kind k -> same_but_case s (kind_string k) -> parse_kind s = Some k) /\
  (forall k k', valid_kind k -> valid_kind k' -> kind_string k = kind_string k' -> k = k') /\
  (forall n, parse_kind (kind_string (KBad n)) = None).
Proof. exact kind_names. Qed.
Theorem C38_outcome_names :
  (forall s o, parse_outcome s = Some o <-> valid_outcome o /\ to_lower s = outcome_string o) /\
  (forall s o, valid_outcome o -> same_but_case s (outcome_string o) -> parse_outcome s = Some o) /\
  (forall o o', valid_outcome o -> valid_outcome o' -> outcome_string o = outcome_string o' -> o = o') /\
  (forall n, parse_outcome (outcome_string (OBad n)) = None).
Proof. exact outcome_names. Qed.
Theorem C38_type_names :
  (forall s t, parse_type s = Some t <-> t ∈ basic_types /\ ty_string t = Some (to_lower s)) /\
  (forall t, t ∈ basic_types -> exists n, ty_string t = Some n /\
     forall s, same_but_case s n -> parse_type s = Some t) /\
  (forall a b n, a ∈ basic_types -> b ∈ basic_types ->
     ty_string a = Some n -> ty_string b = Some n -> a = b).
Proof. exact type_names. Qed.
Print Assumptions C38_kind_names.
Print Assumptions C38_outcome_names.
Print Assumptions C38_type_names.

(** The names themselves, as documented in README.md. *)
Theorem C38_documented_names :
  map kind_string [KIn; KOut; KCall] = [lit "in"; lit "out"; lit "call"] /\
  map outcome_string [OUnset; OInc; OFail; OPass] = [lit "unset"; lit "inc"; lit "fail"; lit "pass"] /\
  map ty_string basic_types =
    [Some (lit "()"); Some (lit "enum"); Some (lit "nat"); Some (lit "int"); Some (lit "real")].
Proof. vm_compute. done. Qed.

Example C38_witness : parse_kind (lit "CaLL") = Some KCall /\ parse_outcome (lit "PASS") = Some OPass /\
  parse_type (lit "NAT") = Some (ty_arithmos DNat) /\ parse_kind (lit "calls") = None.
Proof. vm_compute. done. Qed.
