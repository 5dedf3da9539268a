(** * Specification vocabulary for test trees *)
From Verif Require Export TestLang Validate.

(** The node at a path (a list of child indices from the root). *)
Fixpoint node_at (n : node) (p : path) : option node :=
  match p with
  | [] => Some n
  | i :: p' => match n_next n !! i with Some c => node_at c p' | None => None end
  end.

(** Pre-order on paths: parents first, then children from left to right. *)
Inductive path_lt : path -> path -> Prop :=
| pl_parent i p : path_lt [] (i :: p)
| pl_left i j p q : i < j -> path_lt (i :: p) (j :: q)
| pl_deeper i p q : path_lt p q -> path_lt (i :: p) (i :: q).

(** [l] is the pre-order listing of the tree: every node of the tree, exactly once (the
    order is strict), parents before children, earlier siblings' subtrees before later ones. *)
Definition preorder_of (n : node) (l : list (path * node)) : Prop :=
  StronglySorted path_lt l.*1 /\ forall p m, (p, m) ∈ l <-> node_at n p = Some m.

(** Run a visitor over a list of nodes until it fails. *)
Fixpoint visit_all {E A} (f : path -> node -> A -> res E A) (l : list (path * node)) (a : A)
  : res E A :=
  match l with
  | [] => Ok a
  | (p, n) :: rest => match f p n a with
                      | Ok a' => visit_all f rest a'
                      | Err e => Err e
                      | Panic => Panic
                      end
  end.

(** Documented well-formedness (README.md; comments of internal/testlang/node.go and
    internal/validate/errors.go). *)
Definition good_root (n : node) : Prop :=
  n_event n = None /\ n_outcome n = OUnset /\ n_tests n <> [].
Definition good_node (n : node) : Prop :=
  n_tests n <> [] /\
  ( (n_outcome n = OFail /\ n_event n = None /\ n_next n = [])
  \/ (n_outcome n = OInc /\ n_event n <> None /\ n_next n <> [])
  \/ (n_outcome n = OPass /\ n_event n <> None /\ exists c, n_next n = [c]) ).
Definition good_tree (n : node) : Prop :=
  good_root n /\ forall p m, p <> [] -> node_at n p = Some m -> good_node m.

(** Which error describes which fault: the documented meaning of each error value
    (internal/validate/errors.go), a node with several faults being described by the first in
    the order given here. *)
Inductive root_fault (n : node) : verr -> Prop :=
| rf_event : n_event n <> None -> root_fault n ErrRootHasEvent
| rf_outcome : n_event n = None -> n_outcome n <> OUnset -> root_fault n ErrRootHasOutcome
| rf_tests : n_event n = None -> n_outcome n = OUnset -> n_tests n = [] -> root_fault n ErrNoTests.
Inductive node_fault (n : node) : verr -> Prop :=
| nf_tests : n_tests n = [] -> node_fault n ErrNoTests
| nf_outcome : n_tests n <> [] -> n_outcome n = OUnset -> node_fault n ErrNoOutcome
| nf_bad b : n_tests n <> [] -> n_outcome n = OBad b -> node_fault n ErrBadOutcome
| nf_fail_event : n_tests n <> [] -> n_outcome n = OFail -> n_event n <> None ->
                  node_fault n ErrFailHasEvent
| nf_fail_next : n_tests n <> [] -> n_outcome n = OFail -> n_event n = None -> n_next n <> [] ->
                 node_fault n ErrFailHasNextNodes
| nf_pass_next : n_tests n <> [] -> n_outcome n = OPass -> length (n_next n) <> 1 ->
                 node_fault n ErrNeedOneNode
| nf_pass_event : n_tests n <> [] -> n_outcome n = OPass -> length (n_next n) = 1 ->
                  n_event n = None -> node_fault n ErrNoEvent
| nf_inc_event : n_tests n <> [] -> n_outcome n = OInc -> n_event n = None ->
                 node_fault n ErrNoEvent
| nf_inc_next : n_tests n <> [] -> n_outcome n = OInc -> n_event n <> None -> n_next n = [] ->
                node_fault n ErrNoNextNodes.
Definition fault_at (p : path) (n : node) (e : verr) : Prop :=
  (p = [] /\ root_fault n e) \/ (p <> [] /\ node_fault n e).

(** The same tree with every node tagged with exactly [tests]. *)
Fixpoint retag (tests : list gostr) (n : node) : node :=
  match n with Node i _ o e next => Node i tests o e (map (retag tests) next) end.
