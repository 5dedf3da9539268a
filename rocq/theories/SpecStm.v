(** * Specification vocabulary for state machines *)
From Verif Require Export Stm SpecTree SpecLang.

(** The tree without its identifiers. *)
Fixpoint erase_ids (n : node) : node :=
  match n with Node _ t o e next => Node [] t o e (map erase_ids next) end.

(** First occurrences, in order. *)
Definition firsts {A} `{EqDecision A} (l : list A) : list A := reverse (remove_dups (reverse l)).

(** The transitions of a state on a channel, in order. *)
Definition trans_on (s : state) (c : channel) : list transition :=
  concat (map ts_trans (filter (fun ts => ts_chan ts = c) (st_tsets s))).

(** The non-failing successors of a node, with their events. *)
Definition live_succs (n : node) : list (event * node) :=
  omap (fun k => if decide (n_outcome k = OFail) then None else (fun e => (e, k)) <$> n_event k) (n_next n).

(** [s] is the state for node [n] (identifiers included): it has the node's identifier; on
    each channel its transitions are, in order, those of the node's non-failing successors
    with an event on it, labelled with the event's value and leading to the successor's
    identifier; there is one transition set per channel, in order of first occurrence; its
    verdict gives to each test named by some successor the outcome of the last such one. *)
Record state_for (n : node) (s : state) : Prop := {
  sf_id : st_id s = n_id n;
  sf_trans : forall c, trans_on s c =
    map (fun ek => Transition (e_value ek.1) (n_id ek.2)) (filter (fun ek => e_chan ek.1 = c) (live_succs n));
  sf_chans : map ts_chan (st_tsets s) = firsts (map (fun ek => e_chan ek.1) (live_succs n));
  sf_verdict : forall t, st_verdict s !! t = n_outcome <$> last (filter (fun k => t ∈ n_tests k) (n_next n))
}.

(** [l] lists the non-failing nodes of a tree, each once, the root first. *)
Definition live_listing (T : node) (l : list (path * node)) : Prop :=
  head l = Some ([], T) /\ NoDup l.*1 /\
  forall p n, (p, n) ∈ l <-> node_at T p = Some n /\ n_outcome n <> OFail.

(** The tree after building: as before except for identifiers, where only missing ones (and
    the root's) have been assigned. *)
Definition identified (before after : node) : Prop :=
  erase_ids after = erase_ids before /\
  n_id after = lit "initial" /\
  forall p n, p <> [] -> node_at before p = Some n ->
    exists n', node_at after p = Some n' /\ n_id n' <> [] /\ (n_id n <> [] -> n_id n' = n_id n).

(** The events of a tree. *)
Definition tree_event (T : node) (e : event) : Prop :=
  exists p n, node_at T p = Some n /\ n_event n = Some e.

(** Kinds of value: none, number or constant. *)
Inductive vclass := VNone | VNumber | VConstant.
Definition class_of (v : value) : vclass :=
  match v with None => VNone | Some (IntV _) => VNumber | Some (EnumV _) => VConstant end.
Definition no_type_conflict (T : node) : Prop :=
  forall e1 e2, tree_event T e1 -> tree_event T e2 ->
    ch_name (e_chan e1) = ch_name (e_chan e2) -> class_of (e_value e1) = class_of (e_value e2).

(** The exact type of a channel in a tree. *)
Definition channel_type (T : node) (c : gostr) (t : rstype) : Prop :=
  exists e, tree_event T e /\ ch_name (e_chan e) = c /\
    match e_value e with
    | None => t = ty_empty
    | Some (EnumV _) => t = ty_enum
    | Some (IntV _) =>
      ((exists e' z, tree_event T e' /\ ch_name (e_chan e') = c /\ e_value e' = Some (IntV z) /\ (z < 0)%Z) /\
        t = ty_arithmos DInt) \/
      ((forall e' z, tree_event T e' -> ch_name (e_chan e') = c -> e_value e' = Some (IntV z) -> (0 <= z)%Z) /\
        t = ty_arithmos DNat)
    end.

(** All transitions of a machine, and reachability by identifiers. *)
Definition state_trans (s : state) : list transition := concat (map ts_trans (st_tsets s)).
Definition machine_targets (m : stm) : list gostr := map tr_next (concat (map state_trans (m_states m))).
Inductive reachable (m : stm) : gostr -> Prop :=
| reach_first s : head (m_states m) = Some s -> reachable m (st_id s)
| reach_step s t : reachable m (st_id s) -> s ∈ m_states m -> t ∈ state_trans s -> reachable m (tr_next t).

(** A least upper bound of the types given to a channel. *)
Definition lub_type (l : list (gostr * rstype)) (c : gostr) (u : rstype) : Prop :=
  wf_type u /\ (exists t, (c, t) ∈ l) /\ (forall t, (c, t) ∈ l -> ty_le t u) /\
  forall d, (forall t, (c, t) ∈ l -> ty_le t d) -> ty_le u d.

(** Pre-assigned identifiers that cannot collide: distinct, and none of the builder's own. *)
Definition fresh_ids (root : node) : Prop :=
  (forall p q n m, p <> [] -> q <> [] -> node_at root p = Some n -> node_at root q = Some m ->
     n_id n = n_id m -> n_id n <> [] -> p = q) /\
  (forall p n, p <> [] -> node_at root p = Some n -> n_id n <> lit "initial" /\ forall k, n_id n <> lit "step" ++ format_N k).

(** The types some machine of a suite gives to a channel. *)
Definition suite_type (tests : gmap gostr stm) (c : gostr) (t : rstype) : Prop :=
  exists k m, tests !! k = Some m /\ m_types m !! c = Some t.
(** [u] is the least type covering them all. *)
Definition suite_lub (tests : gmap gostr stm) (c : gostr) (u : rstype) : Prop :=
  wf_type u /\ (exists t, suite_type tests c t) /\ (forall t, suite_type tests c t -> ty_le t u) /\
  forall d, (forall t, suite_type tests c t -> ty_le t d) -> ty_le u d.

(** The transitions on [c] of the states called [id], in order. *)
Definition trans_at (states : list state) (id : gostr) (c : channel) : list transition :=
  concat (map (fun s => trans_on s c) (filter (fun s => st_id s = id) states)).
