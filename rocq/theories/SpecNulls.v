(** * Specification vocabulary for machine files with null in them (C90) *)
From Verif Require Export SpecGenRun Nulls.
From Verif Require Export StmProofs.

(** ** Where null can stand *)
Definition null_machine (r : rsuite) (name : gostr) : Prop := ru_tests r !! name = Some None.
Definition null_state (r : rsuite) (name : gostr) : Prop := exists m, ru_tests r !! name = Some (Some m) /\ None ∈ rm_states m.
Definition null_verdict (r : rsuite) (name : gostr) : Prop :=
  exists m s, ru_tests r !! name = Some (Some m) /\ Some s ∈ rm_states m /\ rs_verdict s = None.
Definition null_type (r : rsuite) (ch : gostr) : Prop := ru_types r !! ch = Some None.
(** No null where the generator looks: nothing is said about the types in single machines. *)
Record usable (r : rsuite) : Prop := {
  us_machines : forall name, ~ null_machine r name;
  us_states : forall name, ~ null_state r name;
  us_verdicts : forall name, ~ null_verdict r name;
  us_types : forall ch, ~ null_type r ch;
}.
(** No null at all. *)
Definition whole (r : rsuite) : Prop := usable r /\ forall name m ch, ru_tests r !! name = Some (Some m) -> rm_types m !! ch <> Some None.
(** A machine file without null: one that cannot be read has none. *)
Definition no_nulls (text : gostr) : Prop := forall r, read_stm_suite text = Ok r -> whole r.
(** A run that does not crash. *)
Definition same_run (r : fs * option run_err) : fs * run_end := (r.1, Ended r.2).

(** ** The same with something in the place of each null *)
Inductive filled_state : option rstate -> state -> Prop :=
  | fl_state i ts v : filled_state (Some (RState i ts (Some v))) (State i ts v)
  | fl_verdict i ts v : filled_state (Some (RState i ts None)) (State i ts v)
  | fl_null s : filled_state None s.
Definition filled_types (m : gmap gostr (option rstype)) (t : type_map) : Prop :=
  dom t = dom m /\ forall ch ty, m !! ch = Some (Some ty) -> t !! ch = Some ty.
Record filled_stm (m : rstm) (m' : stm) : Prop := {
  fm_states : Forall2 filled_state (rm_states m) (m_states m');
  fm_types : filled_types (rm_types m) (m_types m');
  fm_tests : m_tests m' = rm_tests m;
}.
Record filled (r : rsuite) (s : stm_suite) : Prop := {
  fd_types : filled_types (ru_types r) (su_types s);
  fd_names : dom (su_tests s) = dom (ru_tests r);
  fd_tests : forall name m, ru_tests r !! name = Some (Some m) -> exists m', su_tests s !! name = Some m' /\ filled_stm m m';
}.

(** ** How a run of rtcg-gen ends, as [gen_run], from what is in the machine file *)
Section NullRun.
Context (xml : gostr -> option config) (ord : stm_suite -> nat -> list (gostr * stm)) (cwd : fpath) (stdin : gostr).
Definition reads_machines (f : fs) (p : gostr) (r : rsuite) : Prop :=
  exists text, read_stm_suite text = Ok r /\
    ((names_stdin p /\ text = stdin) \/ (~ names_stdin p /\ fs_files f !! resolve cwd p = Some (Bytes text))).
Definition end_of (e : gend) : run_end :=
  match e with GDone => Ended None | GFailed e => Ended (Some (GenErr e)) | GCrashed => Crashed end.
Inductive null_run (a : gen_action) (f : fs) : fs -> run_end -> Prop :=
  | nrun_no_suite : (forall r, ~ reads_machines f (ga_input a) r) -> null_run a f f (Ended (Some ReadSuiteErr))
  | nrun_refused r : reads_machines f (ga_input a) r -> ga_clean a = true -> names_here (ga_output a) ->
      null_run a f f (Ended (Some ErrCleanDot))
  | nrun_not_deleted r f1 : reads_machines f (ga_input a) r -> ga_clean a = true -> ~ names_here (ga_output a) -> names_above (ga_output a) ->
      cleared (resolve cwd (ga_output a)) f f1 -> null_run a f f1 (Ended (Some CleanErr))
  | nrun_no_config r f1 : reads_machines f (ga_input a) r -> prepared cwd a f f1 -> (forall c, ~ reads_config xml cwd f1 (ga_config a) c) ->
      null_run a f f1 (Ended (Some ConfigErr))
  | nrun_generated r f1 c f2 e : reads_machines f (ga_input a) r -> prepared cwd a f f1 -> reads_config xml cwd f1 (ga_config a) c ->
      generate_nulls cwd c (clean (ga_output a)) r ord f1 = (f2, e) -> null_run a f f2 (end_of e).
End NullRun.
