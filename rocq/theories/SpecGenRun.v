(** * Specification vocabulary for whole runs of rtcg-gen (C78) *)
From Verif Require Export SpecGen.

(** ** What paths on the command line mean, wherever the command is run *)
Definition names_stdin (p : gostr) : Prop := forall here, resolve here p = resolve here (lit "-").
Definition names_here (p : gostr) : Prop := forall here, resolve here p = here.
(** The root, or a directory some levels above the current one. *)
Definition names_above (p : gostr) : Prop :=
  (forall here, resolve here p = []) \/ exists k, forall here, resolve here p = take (length here - S k) here.

Section GenRun.
Context (xml : gostr -> option config) (json : gostr -> option stm_suite)
        (ord : stm_suite -> nat -> list (gostr * stm)) (cwd : fpath) (stdin : gostr).

(** ** What is read *)
Definition reads_suite (f : fs) (p : gostr) (s : stm_suite) : Prop :=
  exists text, json text = Some s /\
    ((names_stdin p /\ text = stdin) \/ (~ names_stdin p /\ fs_files f !! resolve cwd p = Some (Bytes text))).
(** The configuration in a file: where the user's code is, is what the file says, or the directory
    the file is in. *)
Definition reads_config (f : fs) (p : gostr) (c : config) : Prop :=
  exists text c0, fs_files f !! resolve cwd p = Some (Bytes text) /\ xml text = Some c0 /\
    cf_cpps c = cf_cpps c0 /\
    (cf_dir c0 <> [] -> cf_dir c = cf_dir c0) /\
    (cf_dir c0 = [] -> resolve cwd (cf_dir c) = removelast (resolve cwd p)).

(** ** Removing everything at or below a directory *)
Definition cleared (d : fpath) (f f' : fs) : Prop :=
  (forall p, d `prefix_of` p -> fs_files f' !! p = None /\ p ∉ fs_dirs f') /\
  (forall p, ~ d `prefix_of` p -> fs_files f' !! p = fs_files f !! p /\ (p ∈ fs_dirs f' <-> p ∈ fs_dirs f)).

(** ** What the generator starts from *)
Inductive prepared (a : gen_action) (f : fs) : fs -> Prop :=
  | keep : ga_clean a = false -> prepared a f f
  | clear f1 : ga_clean a = true -> ~ names_here (ga_output a) -> ~ names_above (ga_output a) ->
      cleared (resolve cwd (ga_output a)) f f1 -> prepared a f f1.

(** ** How a run ends *)
Inductive gen_run (a : gen_action) (f : fs) : fs -> option run_err -> Prop :=
  | run_no_suite : (forall s, ~ reads_suite f (ga_input a) s) -> gen_run a f f (Some ReadSuiteErr)
  | run_refused s : reads_suite f (ga_input a) s -> ga_clean a = true -> names_here (ga_output a) ->
      gen_run a f f (Some ErrCleanDot)
  | run_not_deleted s f1 : reads_suite f (ga_input a) s -> ga_clean a = true -> ~ names_here (ga_output a) -> names_above (ga_output a) ->
      cleared (resolve cwd (ga_output a)) f f1 -> gen_run a f f1 (Some CleanErr)
  | run_no_config s f1 : reads_suite f (ga_input a) s -> prepared a f f1 -> (forall c, ~ reads_config f1 (ga_config a) c) ->
      gen_run a f f1 (Some ConfigErr)
  | run_generated s f1 c f2 e : reads_suite f (ga_input a) s -> prepared a f f1 -> reads_config f1 (ga_config a) c ->
      generate cwd c (clean (ga_output a)) s (ord s) f1 = (f2, e) -> gen_run a f f2 (GenErr <$> e).
End GenRun.

(** ** Machines the templates can be filled in with *)
(** [s] has inputs. *)
Definition input_set (s : state) (ts : tset) : Prop := ts ∈ st_tsets s /\ ch_kind (ts_chan ts) = KIn.
Record printable (v : variant) (types : gset gostr) (m : stm) : Prop := {
  pr_states : m_states m <> [];
  pr_inputs : forall s ts, s ∈ m_states m -> input_set s ts ->
    exists s' ts' t, s' ∈ m_states m /\ st_id s' = st_id s /\ input_set s' ts' /\ t ∈ ts_trans ts';
  pr_typed : v = VAnimate -> forall s ts, s ∈ m_states m -> ts ∈ st_tsets s -> ch_kind (ts_chan ts) <> KIn ->
    ch_name (ts_chan ts) ∈ types;
}.
(** Everything needed to generate is there (as [complete], without reference to the generator). *)
Definition supplied (cwd : fpath) (c : config) (s : stm_suite) (f : fs) : Prop :=
  forall cc, cc ∈ cf_cpps c ->
    (overridden cc s \/ lit "convert" ∈ dom (su_tests s)) /\
    (overridden cc s -> has_file f (conv_source cwd c cc)) /\
    (forall name m, su_tests s !! name = Some m -> printable (cc_variant cc) (dom (su_types s)) m).
