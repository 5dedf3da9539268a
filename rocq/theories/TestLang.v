(** * The testing language: internal/testlang and its sub-packages. *)
From Verif Require Export GoStr.

(** ** Channel kinds (internal/testlang/channel/kind_enum.go) *)

(** [channel.Kind], a uint8 (kind.go:14, kind_enum.go:15-25): three named members;
    [KBad n] stands for an out-of-range value [n] (3..255). *)
Inductive kind := KIn | KOut | KCall | KBad (n : N).
Global Instance kind_eq_dec : EqDecision kind.
Proof. solve_decision. Defined.

(** [Kind.String] (kind_enum.go:38-43), also [Kind.MarshalText] (kind_enum.go:67-69). *)
Definition kind_string (k : kind) : gostr :=
  match k with
  | KIn => "in"
  | KOut => "out"
  | KCall => "call"
  | KBad n => ("Kind(" : gostr) ++ format_N n ++ (")" : gostr)
  end.

(** The lookup table [_KindValue] (kind_enum.go:45-52). *)
Definition kind_value (s : gostr) : option kind :=
  if decide (s = lit "in") then Some KIn
  else if decide (s = lit "out") then Some KOut
  else if decide (s = lit "call") then Some KCall
  else None.

(** [ParseKind] (kind_enum.go:55-64), also [Kind.UnmarshalText] (kind_enum.go:72-80). *)
Definition parse_kind (s : gostr) : option kind :=
  match kind_value s with
  | Some k => Some k
  | None => kind_value (to_lower s)
  end.

(** ** Outcomes (internal/testlang/outcome_enum.go) *)

(** [testlang.Outcome], a uint8 (outcome_enum.go:15-28); [OBad n] is out of range. *)
Inductive outcome := OUnset | OInc | OFail | OPass | OBad (n : N).
Global Instance outcome_eq_dec : EqDecision outcome.
Proof. solve_decision. Defined.

(** [Outcome.String] (outcome_enum.go:42-47), also [MarshalText] (:73-75). *)
Definition outcome_string (o : outcome) : gostr :=
  match o with
  | OUnset => "unset"
  | OInc => "inc"
  | OFail => "fail"
  | OPass => "pass"
  | OBad n => ("Outcome(" : gostr) ++ format_N n ++ (")" : gostr)
  end.

(** [_OutcomeValue] (outcome_enum.go:49-58). *)
Definition outcome_value (s : gostr) : option outcome :=
  if decide (s = lit "unset") then Some OUnset
  else if decide (s = lit "inc") then Some OInc
  else if decide (s = lit "fail") then Some OFail
  else if decide (s = lit "pass") then Some OPass
  else None.

(** [ParseOutcome] (outcome_enum.go:61-70), also [UnmarshalText] (:78-86). *)
Definition parse_outcome (s : gostr) : option outcome :=
  match outcome_value s with
  | Some o => Some o
  | None => outcome_value (to_lower s)
  end.

(** ** Types (internal/testlang/rstype) *)

(** [rstype.Kind] (rstype/kind_enum.go:15-25). *)
Inductive tkind := TEmpty | TArithmos | TEnum.
Global Instance tkind_eq_dec : EqDecision tkind.
Proof. solve_decision. Defined.

(** [rstype.ArithmosDomain] (arithmos_enum.go:15-28), in ascending order. *)
Inductive domain := DUnknown | DNat | DInt | DReal.
Global Instance domain_eq_dec : EqDecision domain.
Proof. solve_decision. Defined.

(** The uint8 value of a domain (arithmos_enum.go:18 iota). *)
Definition domain_num (d : domain) : N :=
  match d with DUnknown => 0 | DNat => 1 | DInt => 2 | DReal => 3 end.

(** [rstype.RsType] (rstype.go:10-13).  Simplification: out-of-range kinds and domains are
    not representable; the fields are private and no code in /repo sets them so. *)
Record rstype := RsType { t_kind : tkind; t_domain : domain }.
Global Instance rstype_eq_dec : EqDecision rstype.
Proof. solve_decision. Defined.

(** [Empty], [Enum], [Arithmos] (rstype.go:116-137). *)
Definition ty_empty : rstype := RsType TEmpty DUnknown.
Definition ty_enum : rstype := RsType TEnum DUnknown.
Definition ty_arithmos (d : domain) : rstype := RsType TArithmos d.

(** [IsEmpty], [IsEnum], [IsArithmos], [IsNat], [IsInt], [IsReal] (rstype.go:16-47). *)
Definition is_empty_ty (t : rstype) : bool := bool_decide (t_kind t = TEmpty).
Definition is_enum_ty (t : rstype) : bool := bool_decide (t_kind t = TEnum).
Definition is_arithmos (t : rstype) (d : domain) : bool :=
  if negb (bool_decide (t_kind t = TArithmos)) then false
  else bool_decide (t_domain t = d).
Definition is_nat_ty (t : rstype) : bool := is_arithmos t DNat.
Definition is_int_ty (t : rstype) : bool := is_arithmos t DInt.
Definition is_real_ty (t : rstype) : bool := is_arithmos t DReal.

(** [RsType.tryString] (rstype.go:65-81), also [MarshalText] (:49-55), which fails when
    tryString does. *)
Definition ty_string (t : rstype) : option gostr :=
  if is_empty_ty t then Some (lit "()")
  else if is_nat_ty t then Some (lit "nat")
  else if is_int_ty t then Some (lit "int")
  else if is_real_ty t then Some (lit "real")
  else if is_enum_ty t then Some (lit "enum")
  else None.

(** [RsType.UnmarshalText] (rstype.go:83-109). *)
Definition parse_type (text : gostr) : option rstype :=
  let s := to_lower text in
  if decide (s = lit "()") then Some ty_empty
  else if decide (s = lit "enum") then Some ty_enum
  else if decide (s = lit "nat") then Some (ty_arithmos DNat)
  else if decide (s = lit "int") then Some (ty_arithmos DInt)
  else if decide (s = lit "real") then Some (ty_arithmos DReal)
  else None.

(** [MaxDomain] (arithmos.go:18-25). *)
Definition max_domain (a b : domain) : domain :=
  if (domain_num a <=? domain_num b)%N then b else a.

(** [Unify] (unify.go:6-21); a nil *RsType is [None].  The only error is
    ErrUnifyDifferentKinds. *)
Inductive unify_err := ErrUnifyDifferentKinds.
Definition unify (lhs rhs : option rstype) : res unify_err (option rstype) :=
  match lhs, rhs with
  | None, _ => Ok rhs
  | _, None => Ok lhs
  | Some l, Some r =>
    if negb (bool_decide (t_kind l = t_kind r)) then Err ErrUnifyDifferentKinds
    else if bool_decide (t_kind l = TArithmos)
    then Ok (Some (ty_arithmos (max_domain (t_domain l) (t_domain r))))
    else Ok lhs
  end.

(** ** Values (internal/testlang/value) *)

(** The content of a value: [*IntValue] (value/int.go:11) or [*EnumValue] (value/enum.go:11).
    [Z] stands for int64; every constructor in the code yields an in-range number. *)
Inductive valuable := IntV (z : Z) | EnumV (s : gostr).
Global Instance valuable_eq_dec : EqDecision valuable.
Proof. solve_decision. Defined.

(** [value.Value] (value/value.go:18-20); a nil content is [None]. *)
Definition value := option valuable.

(** [Value.IsEmpty] (value/value.go:38-40). *)
Definition value_is_empty (v : value) : bool :=
  match v with None => true | Some _ => false end.

(** [IntValue.MarshalText] / [EnumValue.MarshalText] (int.go:16-18, enum.go:13-16);
    [StringValue] (int.go:35-37, enum.go:29-31) gives the same text. *)
Definition valuable_text (v : valuable) : gostr :=
  match v with IntV z => format_int z | EnumV s => s end.

(** [Value.MarshalText] (value/value.go:56-67); the error is ErrMarshallAbsentValue. *)
Inductive value_err := ErrMarshallAbsentValue.
Definition value_marshal (v : value) : res value_err gostr :=
  match v with
  | None => Err ErrMarshallAbsentValue
  | Some c => Ok (valuable_text c)
  end.

(** [Value.StringValue] (value/value.go:79-85). *)
Definition value_string_value (v : value) : gostr :=
  match v with None => [] | Some c => valuable_text c end.

(** [Value.UnmarshalText] (value/value.go:87-109).  The enum parser never fails, so neither
    does this function; the receiver's previous content is always overwritten. *)
Definition value_unmarshal (text : gostr) : value :=
  let text := trim_space text in
  match parse_int text with
  | Some z => Some (IntV z)
  | None => Some (EnumV text)
  end.

(** [Value.Equals] (value/value.go:43-54).  reflect.DeepEqual compares the pointed-to
    values and their types. *)
Definition value_equals (v other : value) : bool :=
  match v, other with
  | None, None => true
  | None, Some _ => false
  | Some _, None => false
  | Some (IntV a), Some (IntV b) => (a =? b)%Z
  | Some (EnumV a), Some (EnumV b) => bool_decide (a = b)
  | Some _, Some _ => false
  end.

(** [Value.Type] (value/value.go:111-117; int.go:39-45; enum.go:33-35). *)
Definition value_type (v : value) : rstype :=
  match v with
  | None => ty_empty
  | Some (IntV z) => if (0 <=? z)%Z then ty_arithmos DNat else ty_arithmos DInt
  | Some (EnumV _) => ty_enum
  end.

(** ** Channels (internal/testlang/channel/channel.go) *)

(** [channel.Channel] (channel.go:13-16). *)
Record channel := Channel { ch_name : gostr; ch_kind : kind }.
Global Instance channel_eq_dec : EqDecision channel.
Proof. solve_decision. Defined.

(** [IsIn] (channel.go:29-31), [IsOut] (:41-43), [IsCall] (:51-53), [IsEmpty] (:58-60). *)
Definition is_in (c : channel) : bool := bool_decide (ch_kind c = KIn).
Definition is_out (c : channel) : bool := bool_decide (ch_kind c = KOut).
Definition is_call (c : channel) : bool := bool_decide (ch_kind c = KCall).
Definition channel_is_empty (c : channel) : bool := bool_decide (ch_name c = []).

(** [Channel.Equals] (channel.go:63-65). *)
Definition channel_equals (c other : channel) : bool :=
  bool_decide (ch_name c = ch_name other) && bool_decide (ch_kind c = ch_kind other).

(** [EventSep] (channel.go:98). *)
Definition event_sep : ascii := ".".

(** [Channel.MarshalText] (channel.go:67-80); it cannot fail. *)
Definition channel_marshal (c : channel) : gostr :=
  match ch_name c with
  | [] => []
  | name => join [event_sep] [name; kind_string (ch_kind c)]
  end.

(** Errors of [UnmarshalTextWithRemainder] (channel.go:109-138). *)
Inductive event_err := BadFieldCountError (got : nat) | ErrInvalidKind (name : gostr).

(** [Channel.UnmarshalTextWithRemainder] (channel.go:109-129).  The receiver's fields are
    both overwritten on success; a nil remainder is [None].  Simplification: the partial
    write of Name before a kind error is dropped (no caller looks at it after an error). *)
Definition num_channel_parts : nat := 2.
Definition num_event_parts : nat := num_channel_parts + 1.
Definition channel_unmarshal_rem (text : gostr) : res event_err (channel * option gostr) :=
  let fields := split_n event_sep num_event_parts text in
  let num_fields := length fields in
  if (num_fields <? num_channel_parts) || (num_event_parts <? num_fields)
  then Err (BadFieldCountError num_fields)
  else match fields with
       | f0 :: f1 :: rest =>
         let name := trim_space f0 in
         let kind_bytes := trim_space f1 in
         match parse_kind kind_bytes with
         | None => Err (ErrInvalidKind kind_bytes)
         | Some k =>
           if num_fields =? num_channel_parts then Ok (Channel name k, None)
           else match rest with
                | f2 :: _ => Ok (Channel name k, Some f2)
                | [] => Panic (* index out of range *)
                end
         end
       | _ => Panic (* index out of range *)
       end.

(** [Channel.UnmarshalText] (channel.go:82-86). *)
Definition channel_unmarshal (text : gostr) : res event_err channel :=
  res_bind (channel_unmarshal_rem text) (fun p => Ok p.1).

(** ** Events (internal/testlang/event.go) *)

(** [testlang.Event] (event.go:14-17). *)
Record event := Event { e_chan : channel; e_value : value }.
Global Instance event_eq_dec : EqDecision event.
Proof. solve_decision. Defined.

(** The zero Event (Go's zero value: Kind 0 is KindIn). *)
Definition zero_event : event := Event (Channel [] KIn) None.

(** [Event.Equals] (event.go:35-37). *)
Definition event_equals (e other : event) : bool :=
  channel_equals (e_chan e) (e_chan other) && value_equals (e_value e) (e_value other).

(** [Event.MarshalText] (event.go:39-55); it cannot fail, as the absent value is handled. *)
Definition event_marshal (e : event) : gostr :=
  let chan_bytes := channel_marshal (e_chan e) in
  match e_value e with
  | None => chan_bytes
  | Some v => join [event_sep] [chan_bytes; valuable_text v]
  end.

(** [Event.UnmarshalText] (event.go:66-82) on receiver [old]. *)
Definition event_unmarshal (old : event) (text : gostr) : res event_err event :=
  match channel_unmarshal_rem text with
  | Panic => Panic
  | Err e => Err e
  | Ok (c, None) => Ok (Event c (e_value old))
  | Ok (c, Some v) => Ok (Event c (value_unmarshal v))
  end.

(** ** Nodes (internal/testlang/node.go) *)

(** [testlang.Node] (node.go:4-11). *)
Inductive node := Node (id : gostr) (tests : list gostr) (o : outcome)
                       (e : option event) (next : list node).

Definition n_id (n : node) := let 'Node i _ _ _ _ := n in i.
Definition n_tests (n : node) := let 'Node _ t _ _ _ := n in t.
Definition n_outcome (n : node) := let 'Node _ _ o _ _ := n in o.
Definition n_event (n : node) := let 'Node _ _ _ e _ := n in e.
Definition n_next (n : node) := let 'Node _ _ _ _ x := n in x.

Section node_ind'.
  Context (P : node -> Prop).
  Context (IH : forall i t o e next, Forall P next -> P (Node i t o e next)).
  Fixpoint node_ind' (n : node) : P n :=
    match n with
    | Node i t o e next =>
      IH i t o e next
         ((fix go l : Forall P l :=
             match l with
             | [] => Forall_nil_2 P
             | x :: r => Forall_cons_2 P x r (node_ind' x) (go r)
             end) next)
    end.
End node_ind'.

(** [NewNode] (node.go:48-50) and the constructors [Root], [Pass], [Inc], [Fail]
    (node.go:14-32). *)
Definition new_node (o : outcome) (e : option event) (next : list node) : node :=
  Node [] [] o e next.
Definition root_node (next : list node) : node := new_node OUnset None next.
Definition pass_node (e : event) (next : list node) : node := new_node OPass (Some e) next.
Definition inc_node (e : event) (next : list node) : node := new_node OInc (Some e) next.
Definition fail_node : node := new_node OFail None [].

(** [Node.Mark] (node.go:53-57). *)
Definition mark (tests : list gostr) (n : node) : node :=
  match n with Node i _ o e next => Node i tests o e next end.

(** [TestPoint] (node.go:35-43). *)
Definition test_point (e : event) (tests : list gostr) : node :=
  mark tests (pass_node e [mark tests fail_node]).

(** Assign an identifier (builder.go:77,156 write [n.ID]). *)
Definition set_id (i : gostr) (n : node) : node :=
  match n with Node _ t o e next => Node i t o e next end.

(** Number of nodes in a tree; used as fuel. *)
Fixpoint nsize (n : node) : nat :=
  match n with Node _ _ _ _ next => S (list_sum (map nsize next)) end.
Definition sizes (l : list node) : nat := list_sum (map nsize l).

(** ** Walk (internal/testlang/walk.go)

    A pointer to a node of the tree is modelled by the node's path: the list of child
    indices from the root, so [node == root] holds exactly for the empty path. *)
Definition path := list nat.

(** Pointers to the children of the node at [p]: [&node.Next[i]]. *)
Definition children (p : path) (n : node) : list (path * node) :=
  imap (fun i c => (p ++ [i], c)) (n_next n).

(** [Stack.Push] (structure/stack.go:10-13), the top of the stack being the list's head. *)
Definition push {A} (x : A) (st : list A) : list A := x :: st.

(** The loop of [Walk] (walk.go:11-22).  The visitor is stateful: it takes and returns a
    state of arbitrary type, standing for whatever the Go closure mutates.  [None] is fuel
    exhaustion (excluded by the theorems). *)
Fixpoint walk_loop {E A} (f : path -> node -> A -> res E A) (fuel : nat)
         (stack : list (path * node)) (a : A) : option (res E A) :=
  match stack with
  | [] => Some (Ok a)                                  (* walk.go:11 *)
  | (p, n) :: rest =>                                  (* walk.go:12 *)
    match fuel with
    | O => None
    | S fuel =>
      match f p n a with                               (* walk.go:14-16 *)
      | Ok a' =>
        (* walk.go:19-21: pushed from the last to the first *)
        walk_loop f fuel (fold_left (fun st c => push c st) (rev (children p n)) rest) a'
      | Err e => Some (Err e)
      | Panic => Some Panic
      end
    end
  end.

(** [Walk] (walk.go:6-25). *)
Definition walk {E A} (f : path -> node -> A -> res E A) (root : node) (a : A)
  : option (res E A) :=
  walk_loop f (nsize root) (push ([], root) []) a.

(** [MarkAll] (walk.go:28-34): every visited node has its tests replaced; the visitor's
    state is the list of visited paths (the writes), applied to the tree afterwards. *)
Fixpoint update_at (p : path) (g : node -> node) (n : node) : node :=
  match p with
  | [] => g n
  | i :: p' => match n with Node x t o e next => Node x t o e (alter (update_at p' g) i next) end
  end.
Definition mark_all (tests : list gostr) (root : node) : option (res Empty_set node) :=
  walk (fun p _ (t : node) => Ok (update_at p (mark tests) t)) root root.
