(** * Validation: internal/validate, and internal/structure/map.go *)
From Verif Require Export TestLang.

(** The error values of internal/validate/errors.go:5-35. *)
Inductive verr :=
| ErrBadOutcome | ErrFailHasEvent | ErrFailHasNextNodes | ErrNeedOneNode | ErrNoEvent
| ErrNoNextNodes | ErrNoOutcome | ErrNoTests | ErrRootHasEvent | ErrRootHasOutcome.
Global Instance verr_eq_dec : EqDecision verr.
Proof. solve_decision. Defined.

(** A check: [None] is success (a nil error). *)
Definition check := option verr.

(** [Root] (validate/node.go:10-24). *)
Definition v_root (n : node) : check :=
  match n_event n with
  | Some _ => Some ErrRootHasEvent
  | None =>
    if negb (bool_decide (n_outcome n = OUnset)) then Some ErrRootHasOutcome
    else if length (n_tests n) =? 0 then Some ErrNoTests
    else None
  end.

(** [OneNext] (validate/validate.go:50-56). *)
Definition one_next (n : node) : res verr node :=
  if negb (length (n_next n) =? 1) then Err ErrNeedOneNode
  else match n_next n with c :: _ => Ok c | [] => Panic end.

(** [failNode] (validate/node.go:51-61). *)
Definition v_fail_node (n : node) : check :=
  match n_event n with
  | Some _ => Some ErrFailHasEvent
  | None => if negb (length (n_next n) =? 0) then Some ErrFailHasNextNodes else None
  end.

(** [passNode] (validate/node.go:64-70). *)
Definition v_pass_node (n : node) : check :=
  match one_next n with Err e => Some e | _ => None end.

(** [nonFailNode] (validate/node.go:73-83). *)
Definition v_non_fail_node (n : node) : check :=
  match n_event n with
  | None => Some ErrNoEvent
  | Some _ => if length (n_next n) =? 0 then Some ErrNoNextNodes else None
  end.

(** [Node] (validate/node.go:27-48). *)
Definition v_node (n : node) : check :=
  if length (n_tests n) =? 0 then Some ErrNoTests
  else match n_outcome n with
       | OUnset => Some ErrNoOutcome
       | OFail => v_fail_node n
       | OPass => match v_pass_node n with
                  | Some e => Some e
                  | None => v_non_fail_node n
                  end
       | OInc => v_non_fail_node n
       | OBad _ => Some ErrBadOutcome
       end.

(** The visitor passed to Walk by [Full] (validate/validate.go:24-38); [node == root] is
    pointer equality, i.e. the empty path. *)
Definition v_visit (p : path) (n : node) (_ : unit) : res verr unit :=
  match (if bool_decide (p = []) then v_root n else v_node n) with
  | Some e => Err e
  | None => Ok tt
  end.

(** [Full] (validate/validate.go:22-44).  A nil root (a JSON [null] test) is dereferenced by
    [Root].  The Test it returns just wraps the root.  Running out of fuel would be
    reported as [Panic], which the theorems exclude for non-nil roots. *)
Definition full (root : option node) : res verr node :=
  match root with
  | None => Panic
  | Some r =>
    match walk v_visit r tt with
    | Some (Ok _) => Ok r
    | Some (Err e) => Err e
    | Some Panic | None => Panic
    end
  end.

(** ** structure/map.go *)

(** [TryOverMapValues] (structure/map.go:4-17), visiting the entries in the order given by
    the list (Go's map iteration order is arbitrary). *)
Fixpoint try_over_map_values {E T U} (mapper : T -> res E U) (order : list (gostr * T))
         (result : gmap gostr U) : res E (gmap gostr U) :=
  match order with
  | [] => Ok result
  | (k, v) :: rest =>
    match mapper v with
    | Ok nv => try_over_map_values mapper rest (<[k := nv]> result)
    | Err e => Err e
    | Panic => Panic
    end
  end.

(** [OverMap] (structure/map.go:20-29). *)
Fixpoint over_map {T U} (mapper : gostr -> T -> gostr * U) (order : list (gostr * T))
         (result : gmap gostr U) : gmap gostr U :=
  match order with
  | [] => result
  | (k, v) :: rest => let '(nk, nv) := mapper k v in over_map mapper rest (<[nk := nv]> result)
  end.

(** [testlang.Suite] (testlang/testlang.go:12): test names to (possibly nil) nodes. *)
Notation suite := (gmap gostr (option node)).

(** An iteration order of a map. *)
Definition order_of {T} (m : gmap gostr T) (order : list (gostr * T)) : Prop :=
  order ≡ₚ map_to_list m.

(** [FullSuite] (validate/suite.go:14-21). *)
Definition full_suite (order : list (gostr * option node)) : res verr (gmap gostr node) :=
  try_over_map_values full order ∅.
