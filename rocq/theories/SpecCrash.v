(** * Specification vocabulary for interrupted runs (C94) *)
From Verif Require Export Crash SpecGenRun.

(** Every file but [p0] is what it was before, or what it is to be. *)
Definition intact_but (p0 : fpath) (cwd : fpath) (c : config) (out : gostr) (s : stm_suite) (f f' : fs) : Prop :=
  forall p, p <> p0 -> fs_files f' !! p = fs_files f !! p \/ exists x, fs_files f' !! p = Some x /\ expected cwd c out s f p x.
(** A path given on the command line is not in the output directory. *)
Definition outside (cwd : fpath) (a : gen_action) (p : gostr) : Prop := ~ resolve cwd (ga_output a) `prefix_of` resolve cwd p.
(** What is outside [d] is as before; new directories outside it only lead to it. *)
Definition outside_same (d : fpath) (f f' : fs) : Prop :=
  (forall p, ~ d `prefix_of` p -> fs_files f' !! p = fs_files f !! p) /\
  (forall p, ~ d `prefix_of` p -> is_dir f p -> is_dir f' p) /\
  (forall p, ~ d `prefix_of` p -> is_dir f' p -> is_dir f p \/ p `prefix_of` d).
