(** * Forbidden traces: internal/trace (except reading) and internal/factorise *)
From Verif Require Export Validate.

(** [trace.Trace] (trace/trace.go:15). *)
Definition trace := list event.

(** [Trace.IsPrefixOf] (trace/trace.go:39-52). *)
Fixpoint prefix_loop (t other : trace) : res Empty_set bool :=
  match t with
  | [] => Ok true
  | e :: t' => match other with
               | [] => Panic (* index out of range *)
               | o :: other' => if negb (event_equals e o) then Ok false
                                else prefix_loop t' other'
               end
  end.
Definition is_prefix_of (t other : trace) : res Empty_set bool :=
  if length other <? length t then Ok false else prefix_loop t other.

(** [Trace.Equals] (trace/trace.go:34-36). *)
Definition trace_equals (t other : trace) : res Empty_set bool :=
  if length t =? length other then is_prefix_of t other else Ok false.

(** [trace.Forbidden] (trace/trace.go:65-69).  Simplification: a nil and an empty Prefix are
    the same list. *)
Record forbidden := Forbidden { f_name : gostr; f_prefix : trace; f_forbid : event }.
Global Instance forbidden_eq_dec : EqDecision forbidden.
Proof. solve_decision. Defined.

(** ** Naming (trace/trace.go:84-123) *)

(** [synthesiseName] (trace/trace.go:113-123). *)
Definition synthesise_name (base : gostr) (attempt : nat) : gostr :=
  if decide (base = lit "test") then base ++ format_N (N.of_nat attempt)
  else if 0 <? attempt then base ++ format_N (N.of_nat (attempt - 1))
  else base.

(** The loop of [insertName] (trace/trace.go:101-111) from attempt [i]; [None] is fuel
    exhaustion. *)
Fixpoint insert_loop (fuel i : nat) (result : gmap gostr forbidden) (base : gostr)
         (t : forbidden) : option (gmap gostr forbidden) :=
  match fuel with
  | O => None
  | S fuel =>
    let name := synthesise_name base i in
    match result !! name with
    | None => Some (<[name := t]> result)
    | Some _ => insert_loop fuel (S i) result base t
    end
  end.

(** [insertName] (trace/trace.go:101-111).  The Go loop is unbounded; the fuel is one more
    than the number of names already taken, and C14 proves it is never exhausted. *)
Definition insert_name (result : gmap gostr forbidden) (base : gostr) (t : forbidden) :=
  insert_loop (S (base.size result)) 0 result base t.

(** The body of the loop of [Name] (trace/trace.go:87-96). *)
Definition base_name (t : forbidden) : gostr :=
  if decide (f_name t = []) then lit "test" else f_name t.

(** [Name] (trace/trace.go:84-99). *)
Fixpoint name_loop (traces : list forbidden) (result : gmap gostr forbidden)
  : option (gmap gostr forbidden) :=
  match traces with
  | [] => Some result
  | t :: rest => match insert_name result (base_name t) t with
                 | Some r => name_loop rest r
                 | None => None
                 end
  end.
Definition name_all (traces : list forbidden) : option (gmap gostr forbidden) :=
  name_loop traces ∅.

(** ** Expanding (trace/expand.go) *)

(** The loop of [Expand] (trace/expand.go:13-16), over the prefix from last to first. *)
Definition expand_step (name : gostr) (n : node) (e : event) : node :=
  mark [name] (inc_node e [n]).
(** [Forbidden.Expand] (trace/expand.go:9-22). *)
Definition expand (t : forbidden) (name : gostr) : node :=
  mark [name] (root_node
    [fold_left (expand_step name) (rev (f_prefix t)) (test_point (f_forbid t) [name])]).

(** [ExpandAll] (trace/expand.go:25-29), for a given iteration order. *)
Definition expand_all (order : list (gostr * forbidden)) : suite :=
  over_map (fun k t => (k, Some (expand t k))) order ∅.

(** ** Collapsing (trace/collapse.go) *)

Inductive cerr :=
| CBadRoot (e : verr)               (* collapse.go:21 *)
| CNoNode (e : verr)                (* collapse.go:26 *)
| CBadNode (e : verr)               (* collapse.go:30 *)
| CBadOutcome (o : outcome).        (* collapse.go:54, BadOutcomeError *)

(** [collapseNode] (trace/collapse.go:41-58). *)
Definition collapse_node (c : forbidden) (n : node) : res cerr (bool * forbidden) :=
  match n_outcome n with
  | OFail => Ok (true, c)
  | OPass => match n_event n with
             | Some e => Ok (false, Forbidden (f_name c) (f_prefix c) e)
             | None => Panic (* nil dereference *)
             end
  | OInc => match n_event n with
            | Some e => Ok (false, Forbidden (f_name c) (f_prefix c ++ [e]) (f_forbid c))
            | None => Panic
            end
  | OUnset | OBad _ => Err (CBadOutcome (n_outcome n))
  end.

(** The loop of [Collapse] (trace/collapse.go:24-36); fuel exhaustion is [Panic], which the
    theorems exclude. *)
Fixpoint collapse_loop (fuel : nat) (c : forbidden) (n : node) : res cerr forbidden :=
  match fuel with
  | O => Panic
  | S fuel =>
    match one_next n with
    | Err e => Err (CNoNode e)
    | Panic => Panic
    | Ok n' =>
      match v_node n' with
      | Some e => Err (CBadNode e)
      | None =>
        match collapse_node c n' with
        | Err e => Err e
        | Panic => Panic
        | Ok (true, c') => Ok c'
        | Ok (false, c') => collapse_loop fuel c' n'
        end
      end
    end
  end.

(** [Collapse] (trace/collapse.go:13-39); a nil test is dereferenced. *)
Definition collapse (test : option node) : res cerr forbidden :=
  match test with
  | None => Panic
  | Some n =>
    match v_root n with
    | Some e => Err (CBadRoot e)
    | None => collapse_loop (nsize n) (Forbidden [] [] zero_event) n
    end
  end.

(** [CollapseAll] (trace/collapse.go:71-78). *)
Definition collapse_all (order : list (gostr * option node)) :=
  try_over_map_values collapse order ∅.

(** ** Factorisation (internal/factorise/factorise.go) *)

(** [Failure] (factorise.go:63-66). *)
Record failure := Failure { fl_test : gostr; fl_event : event }.

(** [Failures] (factorise.go:49-60), for a given iteration order.  Trace comparison cannot
    panic (C07), so [Panic] is treated as "not equal" here. *)
Definition failures (order : list (gostr * forbidden)) (after : trace) : list failure :=
  fold_left (fun acc kt =>
    match trace_equals (f_prefix kt.2) after with
    | Ok true => acc ++ [Failure kt.1 (f_forbid kt.2)]
    | _ => acc
    end) order [].

(** [Failure.Node] (factorise.go:69-71). *)
Definition failure_node (f : failure) : node := test_point (fl_event f) [fl_test f].

(** [lastEvent] (factorise.go:38-46). *)
Definition last_event (after : trace) : event := default zero_event (last after).

(** [SpineNodes] (factorise.go:14-36). *)
Definition spine_nodes (order : list (gostr * forbidden)) (after : trace) : list node :=
  let lst := last_event after in
  let '(ins, outs) :=
    fold_left (fun acc f =>
      let n := failure_node f in
      if is_in (e_chan (fl_event f)) then (acc.1 ++ [inc_node lst [n]], acc.2)
      else (acc.1, acc.2 ++ [n])) (failures order after) ([], []) in
  ins ++ [inc_node lst outs].
