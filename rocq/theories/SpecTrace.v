(** * Specification vocabulary for traces, naming and chains *)
From Verif Require Export Trace SpecTree SpecLang.

(** The k-th name to try for a trace: [n], [n]0, [n]1, ... for a trace called [n], and test0,
    test1, ... for one with no name or called test. *)
Definition candidate (t : forbidden) (k : nat) : gostr :=
  if decide (f_name t = [] \/ f_name t = lit "test") then lit "test" ++ format_N (N.of_nat k)
  else match k with
       | O => f_name t
       | S j => f_name t ++ format_N (N.of_nat j)
       end.

(** [names] names [traces] in order: each gets the first of its candidates that no earlier
    one has, and that one is found within (number of earlier traces) + 1 attempts. *)
Definition named (traces : list forbidden) (names : list gostr) : Prop :=
  length names = length traces /\
  forall i t, traces !! i = Some t ->
    exists k, names !! i = Some (candidate t k) /\ k <= i /\
      candidate t k ∉ take i names /\
      forall j, j < k -> candidate t j ∈ take i names.

(** [l] is the whole chain of nodes below [n]: each has exactly one successor, up to the
    first failing node, which ends it. *)
Fixpoint chain (n : node) (l : list node) : Prop :=
  match l with
  | [] => False
  | c :: rest => n_next n = [c] /\
                 ((n_outcome c = OFail /\ rest = []) \/ (n_outcome c <> OFail /\ chain c rest))
  end.
(** The events of the inconclusive, resp. passing, nodes of a list. *)
Definition inc_events (l : list node) : list event :=
  omap (fun n => if decide (n_outcome n = OInc) then n_event n else None) l.
Definition pass_events (l : list node) : list event :=
  omap (fun n => if decide (n_outcome n = OPass) then n_event n else None) l.

(** The trace with its name removed. *)
Definition unnamed (t : forbidden) : forbidden := Forbidden [] (f_prefix t) (f_forbid t).

(** All events of a trace. *)
Definition trace_events (t : forbidden) : list event := f_prefix t ++ [f_forbid t].
