(** * What a JSON document says, in words that allow for keys that are repeated

    A value given several times is described by the list of what is given for it, in the order of
    the document.  How JSON text stands for a document is said in SpecJsonText.v, how events are
    written in SpecLang.v. *)
From Verif Require Export Json SpecLang.
From Verif Require Export Spec.

(** ** Looking into documents *)

(** What is given for a field of a record: keys match up to case (and the two characters that fold
    to ASCII letters). *)
Definition said (f : gostr) (kvs : list (gostr * json)) : list json :=
  map snd (base.filter (fun kv => fold_key kv.1 = fold_key f) kvs).
(** What is given for a key of a map: keys match exactly. *)
Definition said_at (k : gostr) (kvs : list (gostr * json)) : list json :=
  map snd (base.filter (fun kv => kv.1 = k) kvs).
Definition is_null (j : json) : bool := match j with JNull => true | _ => false end.
Definition no_elements (j : json) : bool := match j with JNull | JArr [] => true | _ => false end.
Definition texts (l : list json) : list gostr := omap (fun j => match j with JStr s => Some s | _ => None end) l.
Definition members (j : json) : list (gostr * json) := match j with JObj kvs => kvs | _ => [] end.
Definition row (j : json) : list json := match j with JArr l => l | _ => [] end.
(** The members of several objects together, and the i-th elements of several arrays. *)
Definition all_members (l : list json) : list (gostr * json) := concat (map members l).
Definition column (i : nat) (l : list json) : list json := omap (fun j => row j !! i) l.
(** What comes after the last value with the property [P]: everything if there is none. *)
Fixpoint since (P : json -> bool) (l : list json) : list json :=
  match l with
  | [] => []
  | j :: r => if existsb P (j :: r) then since P r else j :: r
  end.

(** ** What is said of values *)

(** Texts: the last that is not null counts. *)
Definition text_says {A} (parse : gostr -> option A) (zero : A) (l : list json) (a : A) : Prop :=
  match last (texts l) with None => a = zero | Some s => parse s = Some a end.
Definition string_says : list json -> gostr -> Prop := text_says Some [].
(** Lists: null and the empty array forget what was there.  The last array says how many elements
    there are; each of them is made of all that was given for its place. *)
Definition list_says {A} (says : list json -> A -> Prop) (l : list json) (xs : list A) : Prop :=
  length xs = length (row (default JNull (last (since no_elements l)))) /\
  forall i x, xs !! i = Some x -> says (column i (since no_elements l)) x.
(** What can be null: null forgets what was there. *)
Definition pointer_says {A} (says : list json -> A -> Prop) (l : list json) (o : option A) : Prop :=
  match o with None => since is_null l = [] | Some a => since is_null l <> [] /\ says (since is_null l) a end.
(** Maps: null forgets what was there; the last value for a key counts. *)
Definition map_says {A} (says : json -> A -> Prop) (kvs : list (gostr * json)) (m : gmap gostr A) : Prop :=
  forall k, match last (said_at k kvs) with None => m !! k = None | Some j => exists a, m !! k = Some a /\ says j a end.
(** Events, where a text without a value leaves the value that was there before (C06). *)
Inductive events_say : event -> list gostr -> event -> Prop :=
| es_nil e : events_say e [] e
| es_cons e s e1 r e2 : event_denoted e s e1 -> events_say e1 r e2 -> events_say e (s :: r) e2.

(** ** Test suites *)
Inductive node_says : list (gostr * json) -> node -> Prop :=
| NodeSays kvs i ts o e next :
    string_says (said "id" kvs) i ->
    list_says string_says (said "tests" kvs) ts ->
    text_says parse_outcome OUnset (said "outcome" kvs) o ->
    pointer_says (fun l => events_say zero_event (texts l)) (said "event" kvs) e ->
    length next = length (row (default JNull (last (since no_elements (said "next" kvs))))) ->
    (forall i n, next !! i = Some n -> node_says (all_members (column i (since no_elements (said "next" kvs)))) n) ->
    node_says kvs (Node i ts o e next).
Definition suite_says (j : json) (s : suite) : Prop :=
  map_says (fun j => pointer_says (fun l => node_says (all_members l)) [j]) (members j) s.

(** ** Machines *)
Definition channel_of_text (s : gostr) : option channel := match channel_unmarshal s with Ok c => Some c | _ => None end.
Record transition_says (kvs : list (gostr * json)) (t : transition) : Prop := {
  trs_value : text_says (fun s => Some (value_unmarshal s)) None (said "value" kvs) (tr_value t);
  trs_next : string_says (said "next" kvs) (tr_next t);
}.
Record tset_says (kvs : list (gostr * json)) (t : tset) : Prop := {
  tss_channel : text_says channel_of_text zero_channel (said "channel" kvs) (ts_chan t);
  tss_trans : list_says (fun l => transition_says (all_members l)) (said "transitions" kvs) (ts_trans t);
}.
(** Verdicts and sets of tests: what is given last counts as a whole. *)
Definition string_value (j : json) : option gostr := match j with JNull => Some [] | JStr s => Some s | _ => None end.
Definition verdict_says (l : list json) (v : verdict) : Prop :=
  exists j, last l = Some j /\ map_says (fun j o => exists s, string_value j = Some s /\ parse_outcome s = Some o) (members j) v.
Definition set_says (l : list json) (X : gset gostr) : Prop :=
  forall x, x ∈ X <-> exists j k, last l = Some j /\ k ∈ row j /\ string_value k = Some x.
Record state_says (kvs : list (gostr * json)) (s : rstate) : Prop := {
  sts_id : string_says (said "id" kvs) (rs_id s);
  sts_tsets : list_says (fun l => tset_says (all_members l)) (said "transitionSets" kvs) (rs_tsets s);
  sts_verdict : pointer_says verdict_says (said "verdicts" kvs) (rs_verdict s);
}.
Definition types_say (l : list json) (m : gmap gostr (option rstype)) : Prop :=
  map_says (fun j => pointer_says (text_says parse_type ty_empty) [j]) (all_members (since is_null l)) m.
Record stm_says (kvs : list (gostr * json)) (m : rstm) : Prop := {
  sms_states : list_says (pointer_says (fun l => state_says (all_members l))) (said "states" kvs) (rm_states m);
  sms_types : types_say (said "types" kvs) (rm_types m);
  sms_tests : set_says (said "tests" kvs) (rm_tests m);
}.
Record machines_say (j : json) (u : rsuite) : Prop := {
  mas_types : types_say (said "types" (members j)) (ru_types u);
  mas_tests : map_says (fun j => pointer_says (fun l => stm_says (all_members l)) [j]) (all_members (since is_null (said "tests" (members j)))) (ru_tests u);
}.

(** ** Documents that are accepted: everything that is given must fit, also where it is forgotten *)
Definition text_ok {A} (parse : gostr -> option A) (j : json) : Prop := j = JNull \/ exists s a, j = JStr s /\ parse s = Some a.
Definition string_ok : json -> Prop := text_ok Some.
Definition list_ok (ok : json -> Prop) (j : json) : Prop := j = JNull \/ exists l, j = JArr l /\ Forall ok l.
Definition map_ok (ok : json -> Prop) (j : json) : Prop := j = JNull \/ exists kvs, j = JObj kvs /\ Forall (fun kv => ok kv.2) kvs.
Definition record_ok (ok : list (gostr * json) -> Prop) (j : json) : Prop := j = JNull \/ exists kvs, j = JObj kvs /\ ok kvs.
Definition event_ok (j : json) : Prop := j = JNull \/ exists s e, j = JStr s /\ event_denoted zero_event s e.
Inductive node_ok : json -> Prop :=
| NodeNull : node_ok JNull
| NodeObj kvs :
    Forall string_ok (said "id" kvs) -> Forall (list_ok string_ok) (said "tests" kvs) ->
    Forall (text_ok parse_outcome) (said "outcome" kvs) -> Forall event_ok (said "event" kvs) ->
    (forall j, j ∈ said "next" kvs -> j = JNull \/ exists l, j = JArr l) ->
    (forall l j, JArr l ∈ said "next" kvs -> j ∈ l -> node_ok j) ->
    node_ok (JObj kvs).
Definition suite_ok : json -> Prop := map_ok node_ok.
Definition transition_ok : json -> Prop := record_ok (fun kvs =>
  Forall (text_ok (fun s => Some (value_unmarshal s))) (said "value" kvs) /\ Forall string_ok (said "next" kvs)).
Definition tset_ok : json -> Prop := record_ok (fun kvs =>
  Forall (text_ok channel_of_text) (said "channel" kvs) /\ Forall (list_ok transition_ok) (said "transitions" kvs)).
(** Of the outcomes of a verdict only those that count need to fit. *)
Definition verdict_ok (j : json) : Prop :=
  map_ok string_ok j /\ forall k v s, last (said_at k (members j)) = Some v -> string_value v = Some s -> is_Some (parse_outcome s).
Definition state_ok : json -> Prop := record_ok (fun kvs =>
  Forall string_ok (said "id" kvs) /\ Forall (list_ok tset_ok) (said "transitionSets" kvs) /\ Forall verdict_ok (said "verdicts" kvs)).
Definition types_ok : json -> Prop := map_ok (text_ok parse_type).
Definition stm_ok : json -> Prop := record_ok (fun kvs =>
  Forall (list_ok state_ok) (said "states" kvs) /\ Forall types_ok (said "types" kvs) /\ Forall (list_ok string_ok) (said "tests" kvs)).
Definition machines_ok : json -> Prop := record_ok (fun kvs =>
  Forall types_ok (said "types" kvs) /\ Forall (map_ok stm_ok) (said "tests" kvs)).
