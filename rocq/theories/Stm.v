(** * State machines: internal/stm, and the template context of internal/gen/gencommon *)
From Verif Require Export Validate.

(** ** Transitions (stm/transition) *)

(** [transition.Transition] (transition/transition.go:13-17). *)
Record transition := Transition { tr_value : value; tr_next : gostr }.
Global Instance transition_eq_dec : EqDecision transition.
Proof. solve_decision. Defined.

(** [transition.Set] (transition/set.go:22-25). *)
Record tset := TSet { ts_chan : channel; ts_trans : list transition }.
Global Instance tset_eq_dec : EqDecision tset.
Proof. solve_decision. Defined.

(** [AddToSets] (transition/set.go:36-47). *)
Fixpoint add_to_sets (sets : list tset) (c : channel) (t : transition) : list tset :=
  match sets with
  | [] => [TSet c [t]]
  | ts :: rest =>
    if channel_equals (ts_chan ts) c then TSet (ts_chan ts) (ts_trans ts ++ [t]) :: rest
    else ts :: add_to_sets rest c t
  end.

(** [StateMap] (transition/set.go:59) and [AggregateSet] (:62-66). *)
Notation state_map := (gmap gostr (list transition)).
Record agg := Agg { ag_chan : channel; ag_states : state_map }.

(** Look up in a Go map of slices: missing is the nil slice. *)
Definition sm_get (m : state_map) (s : gostr) : list transition := default [] (m !! s).

(** [AddToAggregateSets] (transition/set.go:77-88). *)
Fixpoint add_to_aggs (aggs : list agg) (id : gostr) (ts : tset) : list agg :=
  match aggs with
  | [] => [Agg (ts_chan ts) {[ id := ts_trans ts ]}]
  | a :: rest =>
    if channel_equals (ag_chan a) (ts_chan ts)
    then Agg (ag_chan a) (<[id := sm_get (ag_states a) id ++ ts_trans ts]> (ag_states a)) :: rest
    else a :: add_to_aggs rest id ts
  end.

(** ** Verdicts (stm/verdict/verdict.go) *)

(** [verdict.Verdict] (verdict.go:17). *)
Notation verdict := (gmap gostr outcome).

(** [Verdict.Add] (verdict.go:87-91). *)
Definition verdict_add (o : outcome) (tests : list gostr) (v : verdict) : verdict :=
  fold_left (fun v t => <[t := o]> v) tests v.

(** [Verdict.Is] (verdict.go:63-71); the answer does not depend on the iteration order. *)
Definition verdict_is (o : outcome) (v : verdict) : bool :=
  existsb (fun kv => bool_decide (kv.2 = o)) (map_to_list v).

(** [Verdict.SetOf] (verdict.go:74-84), as the set of its members. *)
Definition verdict_set_of (o : outcome) (v : verdict) : gset gostr :=
  dom (filter (fun kv => kv.2 = o) v).

(** ** States (stm/state.go) *)

(** [stm.State] (state.go:13-25); the Verdict pointer is never nil here. *)
Record state := State { st_id : gostr; st_tsets : list tset; st_verdict : verdict }.

(** [NewState] (state.go:28-34). *)
Definition new_state (id : gostr) : state := State id [] ∅.

(** [addVerdictsFromNode] (state.go:64-66). *)
Definition add_verdicts (n : node) (s : state) : state :=
  State (st_id s) (st_tsets s) (verdict_add (n_outcome n) (n_tests n) (st_verdict s)).

(** [addTransitionToNode] (state.go:45-57): panics on a missing identifier, and on a nil
    event of a non-failing node. *)
Definition add_transition (n : node) (s : state) : res Empty_set state :=
  if bool_decide (n_outcome n = OFail) then Ok s
  else if bool_decide (n_id n = []) then Panic
  else match n_event n with
       | None => Panic
       | Some e => Ok (State (st_id s)
                             (add_to_sets (st_tsets s) (e_chan e)
                                          (Transition (e_value e) (n_id n)))
                             (st_verdict s))
       end.

(** [AddOutgoingNode] (state.go:37-40). *)
Definition add_outgoing (n : node) (s : state) : res Empty_set state :=
  add_transition n (add_verdicts n s).

(** [HasIn] (state.go:86-94). *)
Definition state_has_in (s : state) : bool := existsb (fun ts => is_in (ts_chan ts)) (st_tsets s).

(** [In] (state.go:97-108): the first input transition set with exactly one transition. *)
Fixpoint first_in (l : list tset) : option (channel * transition) :=
  match l with
  | [] => None
  | ts :: rest =>
    if is_in (ts_chan ts) && (length (ts_trans ts) =? 1)
    then match ts_trans ts with t :: _ => Some (ts_chan ts, t) | [] => None end
    else first_in rest
  end.
Definition state_in (s : state) : option (channel * transition) := first_in (st_tsets s).

(** ** Machines (stm/stm.go) *)

Notation type_map := (gmap gostr rstype).

(** [stm.Stm] (stm.go:23-34). *)
Record stm := Stm { m_states : list state; m_types : type_map; m_tests : gset gostr }.

(** [InitialState] (stm.go:39-42); panics on an empty machine. *)
Definition initial_state (m : stm) : option gostr := st_id <$> head (m_states m).

(** [TransitionSets] (stm.go:45-55). *)
Definition transition_sets (m : stm) : list agg :=
  fold_left (fun result st =>
    fold_left (fun result ts => add_to_aggs result (st_id st) ts) (st_tsets st) result)
  (m_states m) [].

(** ** The builder (stm/builder.go) *)

(** [Builder] (builder.go:13-17).  The stack holds pointers into the test tree: a path, and
    the node as it is when pushed (its identifier is assigned just before it is pushed and
    never changes afterwards).  [b_writes] records the assignments to node identifiers in
    the test tree, oldest first: Build mutates the tree it is given. *)
Record builder := Builder {
  b_num : N;
  b_stack : list (path * node);
  b_stm : stm;
  b_writes : list (path * gostr);
}.

Definition empty_stm : stm := Stm [] ∅ ∅.
(** A fresh Builder (cmd/rtcg-make-stms/main.go: [var builder stm.Builder]). *)
Definition new_builder : builder := Builder 0 [] empty_stm [].

(** [ensureNodeID] (builder.go:151-158), on the node at path [p].  nodeNum is a uint64; its
    wrap-around needs 2^64 nodes and is not modelled. *)
Definition ensure_node_id (b : builder) (p : path) (n : node) : builder * node :=
  if bool_decide (n_id n <> []) then (b, n)
  else let i := lit "step" ++ format_N (b_num b) in
       (Builder (b_num b + 1) (b_stack b) (b_stm b) (b_writes b ++ [(p, i)]), set_id i n).

(** The loop of [buildState] (builder.go:140-146) over the children; returns the children
    as identified. *)
Fixpoint build_children (b : builder) (cs : list (path * node)) (s : state)
  : res Empty_set (builder * state * list (path * node)) :=
  match cs with
  | [] => Ok (b, s, [])
  | (p, c) :: rest =>
    let '(b1, c1) := ensure_node_id b p c in                       (* builder.go:143 *)
    let m := b_stm b1 in
    let b2 := Builder (b_num b1) (b_stack b1)
                      (Stm (m_states m) (m_types m) (m_tests m ∪ list_to_set (n_tests c1)))
                      (b_writes b1) in                             (* builder.go:144 *)
    match add_outgoing c1 s with                                   (* builder.go:145 *)
    | Ok s1 =>
      match build_children b2 rest s1 with
      | Ok (b3, s3, cs3) => Ok (b3, s3, (p, c1) :: cs3)
      | Err e => Err e
      | Panic => Panic
      end
    | Err e => Err e
    | Panic => Panic
    end
  end.

Inductive berr := BTypeConflict (chan : gostr).   (* builder.go:131, builder.go:45 *)

(** [inferNodeEventType], [inferEventType] (builder.go:117-135). *)
Definition infer_type (e : option event) (types : type_map) : res berr type_map :=
  match e with
  | None => Ok types
  | Some e =>
    let c := ch_name (e_chan e) in
    match unify (types !! c) (Some (value_type (e_value e))) with
    | Ok (Some t) => Ok (<[c := t]> types)
    | Ok None => Panic (* impossible: one side is not nil *)
    | Err _ => Err (BTypeConflict c)
    | Panic => Panic
    end
  end.

(** [processNode] (builder.go:93-109), with [pushNext] (:111-115). *)
Definition process_node (b : builder) (p : path) (n : node) : res berr builder :=
  if bool_decide (n_outcome n = OFail) then Ok b
  else
    match build_children b (children p n) (new_state (n_id n)) with
    | Ok (b1, sn, cs) =>
      let m := b_stm b1 in
      match infer_type (n_event n) (m_types m) with
      | Ok types =>
        Ok (Builder (b_num b1)
                    (fold_left (fun st c => push c st) cs (b_stack b1))
                    (Stm (m_states m ++ [sn]) types (m_tests m))
                    (b_writes b1))
      | Err e => Err e
      | Panic => Panic
      end
    | Err e => match e with end
    | Panic => Panic
    end.

(** The loop of [Build] (builder.go:82-88); fuel exhaustion is [Panic], which the theorems
    exclude. *)
Fixpoint build_loop (fuel : nat) (b : builder) : res berr builder :=
  match b_stack b with
  | [] => Ok b
  | (p, n) :: rest =>
    match fuel with
    | O => Panic
    | S fuel =>
      match process_node (Builder (b_num b) rest (b_stm b) (b_writes b)) p n with
      | Ok b' => build_loop fuel b'
      | Err e => Err e
      | Panic => Panic
      end
    end
  end.

(** [Build] (builder.go:72-91) on builder [b]; the tree is the root of a validated test. *)
Definition build (b : builder) (root : node) : res berr builder :=
  let root := set_id (lit "initial") root in                        (* builder.go:77 *)
  build_loop (nsize root)
    (Builder 0 (push ([], root) []) empty_stm [([], lit "initial")]).

(** The tree after Build: the identifier assignments applied to it. *)
Definition apply_write (t : node) (w : path * gostr) : node := update_at w.1 (set_id w.2) t.
Definition apply_writes (ws : list (path * gostr)) (t : node) : node := fold_left apply_write ws t.

(** [BuildMany] (builder.go:56-69), for an iteration order of the validated suite; the
    builder is reused from test to test. *)
Fixpoint build_many (b : builder) (order : list (gostr * node)) (acc : gmap gostr stm)
  : res berr (gmap gostr stm) :=
  match order with
  | [] => Ok acc
  | (name, test) :: rest =>
    match build b test with
    | Ok b' => build_many b' rest (<[name := b_stm b']> acc)
    | Err e => Err e
    | Panic => Panic
    end
  end.

(** The inner loop of [unifyTypes] (builder.go:42-49), over one machine's types in some
    order. *)
Fixpoint unify_inner (order : list (gostr * rstype)) (tmap : type_map) : res berr type_map :=
  match order with
  | [] => Ok tmap
  | (c, t) :: rest =>
    match unify (Some t) (tmap !! c) with
    | Ok (Some u) => unify_inner rest (<[c := u]> tmap)
    | Ok None => Panic
    | Err _ => Err (BTypeConflict c)
    | Panic => Panic
    end
  end.

(** [unifyTypes] (builder.go:38-53): the argument lists, for each test in iteration order,
    its types in iteration order. *)
Fixpoint unify_types (orders : list (list (gostr * rstype))) (tmap : type_map)
  : res berr type_map :=
  match orders with
  | [] => Ok tmap
  | o :: rest => match unify_inner o tmap with
                 | Ok tmap' => unify_types rest tmap'
                 | Err e => Err e
                 | Panic => Panic
                 end
  end.

(** [stm.Suite] (stm/suite.go:11-14). *)
Record stm_suite := StmSuite { su_types : type_map; su_tests : gmap gostr stm }.

(** [BuildSuite] (builder.go:20-35): [order1] is the iteration order of the tests in
    BuildMany; [orders2] gives the iteration orders in unifyTypes, from the built machines. *)
Definition build_suite (b : builder) (order1 : list (gostr * node))
           (orders2 : gmap gostr stm -> list (list (gostr * rstype))) : res berr stm_suite :=
  match build_many b order1 ∅ with
  | Ok tests =>
    match unify_types (orders2 tests) ∅ with
    | Ok types => Ok (StmSuite types tests)
    | Err e => Err e
    | Panic => Panic
    end
  | Err e => Err e
  | Panic => Panic
  end.

(** A legitimate choice of iteration orders for unifyTypes: the machines in some order, each
    with its types in some order. *)
Definition orders_of (tests : gmap gostr stm) (orders : list (list (gostr * rstype))) : Prop :=
  exists ms : list stm,
    ms ≡ₚ (map_to_list tests).*2 /\
    Forall2 (fun m o => o ≡ₚ map_to_list (m_types m)) ms orders.

(** ** The transition context (gen/gencommon/context.go) *)

(** [TransitionContext] (context.go:34-45). *)
Record tctx := TCtx {
  tc_channels : list channel;
  tc_all : list agg;
  tc_in : list agg;
  tc_out : list agg;
  tc_in_merged : state_map;
  tc_has_in : bool;
  tc_first_state_has_in : bool;
}.

(** The merging loop of [addInput] (context.go:51-53); it visits each state once, so its
    iteration order cannot matter. *)
Definition merge_states (m : state_map) (states : state_map) : state_map :=
  map_fold (fun s ts m => <[s := sm_get m s ++ ts]> m) m states.

(** [addInput] (context.go:47-54). *)
Definition add_input (c : tctx) (a : agg) : tctx :=
  TCtx (tc_channels c) (tc_all c) (tc_in c ++ [a]) (tc_out c)
       (merge_states (tc_in_merged c) (ag_states a)) true (tc_first_state_has_in c).

(** [populateFilters] (context.go:56-66). *)
Definition populate_filters (c : tctx) : tctx :=
  fold_left (fun c a =>
    let c1 := TCtx (tc_channels c ++ [ag_chan a]) (tc_all c) (tc_in c) (tc_out c)
                   (tc_in_merged c) (tc_has_in c) (tc_first_state_has_in c) in
    if is_in (ag_chan a) then add_input c1 a
    else TCtx (tc_channels c1) (tc_all c1) (tc_in c1) (tc_out c1 ++ [a])
              (tc_in_merged c1) (tc_has_in c1) (tc_first_state_has_in c1))
  (tc_all c) c.

(** [firstStateHasIn] (context.go:87-99). *)
Definition first_state_has_in (m : stm) : bool :=
  match m_states m with
  | [] => false
  | s :: _ => existsb (fun ts => is_in (ts_chan ts)) (st_tsets s)
  end.

(** [makeTransitions] (context.go:68-85). *)
Definition make_transitions (m : stm) : tctx :=
  populate_filters (TCtx [] (transition_sets m) [] [] ∅ false (first_state_has_in m)).
