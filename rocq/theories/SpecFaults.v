(** * Specification vocabulary for failing system calls (C96) *)
From Verif Require Export Faults SpecCrash SpecTruncate.
From Verif Require Export StmProofs.

(** None of the calls that an operation makes fails. *)
Definition no_call_fails (o : op) (ff : file_faults) : Prop :=
  match o with
  | OpMkdir _ => ff_mkdir ff = None
  | OpPrelude _ _ => ff_create ff = false /\ ff_body ff = None /\ ff_close ff = None /\ ff_close_src ff = false
  | OpCopy _ _ => ff_open ff = false /\ ff_create ff = false /\ ff_body ff = None /\ ff_close ff = None /\ ff_close_src ff = false
  | OpWrite _ _ => ff_create ff = false /\ ff_body ff = None /\ ff_close ff = None
  end.
(** Removing that fails has removed part. *)
Definition possible (cwd : fpath) (a : gen_action) (f : fs) (rf : run_faults) : Prop :=
  forall f', rf_clean rf = Some f' -> part_removed (resolve cwd (ga_output a)) f f'.
(** A reader that, once it has a complete value, does not look further. *)
Definition stops_early {A} (read : gostr -> option A) : Prop :=
  forall p text x, beginning p text -> read p = Some x -> read text = Some x.
(** No call of a run fails, apart from those of the operations. *)
Definition reads_well (a : gen_action) (rf : run_faults) : Prop :=
  rf_open rf = false /\ rf_close rf = false /\ rf_config_open rf = false /\ rf_config_close rf = false /\
  (ga_clean a = true -> rf_clean rf = None).
(** Any number of runs, each with failing calls. *)
Inductive tries xml json cwd stdin (a : gen_action) : fs -> fs -> Prop :=
  | no_try f : tries xml json cwd stdin a f f
  | try_once ord rf f f1 f2 : (forall s, orders s (ord s)) -> possible cwd a f rf -> (io_run xml json ord cwd stdin a rf f).1 = f1 ->
      tries xml json cwd stdin a f1 f2 -> tries xml json cwd stdin a f f2.
