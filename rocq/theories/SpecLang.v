(** * Specification vocabulary for the testing language *)
From Verif Require Export TestLang Spec.

(** Values that their own text denotes. *)
Definition plain_value (v : valuable) : Prop :=
  match v with
  | IntV z => int64 z
  | EnumV s => no_outer_space s /\ ~ spells_int64 s
  end.
Definition valid_kind (k : kind) : Prop := k = KIn \/ k = KOut \/ k = KCall.
(** Channel names that events can be read back with. *)
Definition plain_chan_name (s : gostr) : Prop := s <> [] /\ "."%char ∉ s /\ no_outer_space s.

Definition valid_outcome (o : outcome) : Prop :=
  o = OUnset \/ o = OInc \/ o = OFail \/ o = OPass.

(** Types that occur: the domain is only set for arithmetic types. *)
Definition basic_types : list rstype :=
  [ty_empty; ty_enum; ty_arithmos DNat; ty_arithmos DInt; ty_arithmos DReal].

(** Splitting text at the first dots. *)
Inductive event_text : gostr -> gostr -> gostr -> option gostr -> Prop :=
| et_two name k : "."%char ∉ name -> "."%char ∉ k -> event_text (name ++ "."%char :: k) name k None
| et_three name k v : "."%char ∉ name -> "."%char ∉ k ->
    event_text (name ++ "."%char :: k ++ "."%char :: v) name k (Some v).

(** Order on types: same kind and no larger domain. *)
Definition ty_le (a b : rstype) : Prop :=
  t_kind a = t_kind b /\ (domain_num (t_domain a) <= domain_num (t_domain b))%N.

(** Types whose domain is set only for numbers; every type the code makes is such. *)
Definition wf_type (t : rstype) : Prop := t_kind t = TArithmos \/ t_domain t = DUnknown.

(** The complete description of an event that text denotes: [old] is what the receiver held
    before. *)
Definition event_denoted (old : event) (text : gostr) (e : event) : Prop :=
  exists name ktext v name' ktext',
    event_text text name ktext v /\
    trimmed name name' /\ ch_name (e_chan e) = name' /\
    trimmed ktext ktext' /\ valid_kind (ch_kind (e_chan e)) /\
    to_lower ktext' = kind_string (ch_kind (e_chan e)) /\
    match v with
    | None => e_value e = e_value old
    | Some t => e_value e = value_unmarshal t
    end.
