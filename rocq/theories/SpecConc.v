(** * Specification vocabulary for two runs at the same time (C97) *)
From Verif Require Export Conc SpecGenRun.

(** Neither directory is in the other. *)
Definition apart (d d' : fpath) : Prop := ~ d `prefix_of` d' /\ ~ d' `prefix_of` d.
(** Below [d1] as in [g1], below [d2] as in [g2]; elsewhere the files are those of [f], and the directories are those
    of [g1] and of [g2]. *)
Record side_by_side (d1 d2 : fpath) (f g1 g2 m : fs) : Prop := {
  sd_files1 : forall p, d1 `prefix_of` p -> fs_files m !! p = fs_files g1 !! p;
  sd_files2 : forall p, d2 `prefix_of` p -> fs_files m !! p = fs_files g2 !! p;
  sd_files : forall p, ~ d1 `prefix_of` p -> ~ d2 `prefix_of` p -> fs_files m !! p = fs_files f !! p;
  sd_dirs1 : forall p, d1 `prefix_of` p -> is_dir m p <-> is_dir g1 p;
  sd_dirs2 : forall p, d2 `prefix_of` p -> is_dir m p <-> is_dir g2 p;
  sd_dirs : forall p, ~ d1 `prefix_of` p -> ~ d2 `prefix_of` p -> is_dir m p <-> is_dir g1 p \/ is_dir g2 p;
}.
(** Where a process writes. *)
Definition output_of (P : gen_process) : fpath := resolve (pr_cwd P) (ga_output (pr_action P)).
(** A process with suite [s] and configuration [c] reads nothing in [d]: not its suite, not its configuration, not
    the conversion code. *)
Definition reads_elsewhere (d : fpath) (P : gen_process) (c : config) : Prop :=
  (~ d `prefix_of` resolve (pr_cwd P) (ga_input (pr_action P)) \/ names_stdin (ga_input (pr_action P))) /\
  ~ d `prefix_of` resolve (pr_cwd P) (ga_config (pr_action P)) /\
  forall cc, cc ∈ cf_cpps c -> ~ d `prefix_of` conv_source (pr_cwd P) c cc.
(** What it is given: the suite and the configuration that it finds in [f] once its output directory is cleaned,
    if it is to. *)
Definition works_on (xml : gostr -> option config) (json : gostr -> option stm_suite) (f : fs) (P : gen_process) (s : stm_suite) (c : config) : Prop :=
  is_dir f (pr_cwd P) /\ (forall s, orders s (pr_order P s)) /\ sane c s /\
  reads_suite json (pr_cwd P) (pr_stdin P) f (ga_input (pr_action P)) s /\
  ~ output_of P `prefix_of` resolve (pr_cwd P) (ga_config (pr_action P)) /\
  reads_config xml (pr_cwd P) f (ga_config (pr_action P)) c.
(** How many turns a process has had. *)
Definition turns_of (b : bool) (turns : list bool) : nat := length (filter (eq b) turns).
