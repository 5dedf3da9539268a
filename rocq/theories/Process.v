(** * The tools as processes: command lines, exit codes, and rtcg.sh

    What is printed to the standard error is not modelled. *)
From Verif Require Export Tools XmlRead Nulls.

(** ** Flags: package flag (Go 1.20, FlagSet.parseOne) for the flags of cmd/rtcg-gen/main.go:42-45 *)
Record gen_flags := GenFlags { gf_clean : bool; gf_output : gostr }.
Definition default_flags : gen_flags := GenFlags false (lit "out").
(** FlagHelp: -h or -help (exit code 0); FlagBad: exit code 2 (ExitOnError). *)
Inductive flag_result := FlagsOk (fl : gen_flags) (args : list gostr) | FlagHelp | FlagBad.
(** The name and value in a flag without its dashes: the first character belongs to the name. *)
Definition flag_split (s : gostr) : gostr * option gostr :=
  match s with
  | [] => ([], None)
  | c :: r => match cut "=" r with Some (n, v) => (c :: n, Some v) | None => (s, None) end
  end.
Fixpoint parse_flags (args : list gostr) (fl : gen_flags) : flag_result :=
  match args with
  | [] => FlagsOk fl []
  | s :: rest =>
    match s with
    | c0 :: c1 :: r =>
      if decide (c0 = "-"%char) then
        if decide (c1 = "-"%char /\ r = []) then FlagsOk fl rest
        else
          let body := if decide (c1 = "-"%char) then r else c1 :: r in
          match body with
          | [] => FlagBad
          | b :: _ =>
            if decide (b = "-"%char \/ b = "="%char) then FlagBad
            else
              let '(name, value) := flag_split body in
              if decide (name = lit "clean") then
                match value with
                | None => parse_flags rest (GenFlags true (gf_output fl))
                | Some v => match parse_bool v with
                            | Some b => parse_flags rest (GenFlags b (gf_output fl))
                            | None => FlagBad
                            end
                end
              else if decide (name = lit "output") then
                match value with
                | Some v => parse_flags rest (GenFlags (gf_clean fl) v)
                | None => match rest with
                          | v :: rest' => parse_flags rest' (GenFlags (gf_clean fl) v)
                          | [] => FlagBad
                          end
                end
              else if decide (name = lit "help" \/ name = lit "h") then FlagHelp
              else FlagBad
          end
      else FlagsOk fl args
    | _ => FlagsOk fl args
    end
  end.

(** ** Opening files by paths that are not cleaned: every component but the last has to be a directory,
    and the last too if a slash or . or .. follows *)
Fixpoint walk_path (f : fs) (cur : fpath) (comps : list gostr) : option fpath :=
  match comps with
  | [] => Some cur
  | c :: r => if bool_decide (cur = [] \/ cur ∈ fs_dirs f) then walk_path f (walk_comp cur c) r else None
  end.
(** os.Open and reading everything; directories cannot be read. *)
Definition open_path (cwd : fpath) (f : fs) (p : gostr) : option gostr :=
  if decide (p = []) then None
  else match walk_path f (if is_rooted p then [] else cwd) (split_all "/" p) with
       | Some q => file_bytes f q
       | None => None
       end.
(** [OpenFileOrStdin] (cli/cli.go:32-43). *)
Definition open_input (cwd : fpath) (stdin : gostr) (f : fs) (p : gostr) : option gostr :=
  if decide (p = stdin_path) then Some stdin else open_path cwd f p.

(** ** Processes: exit code and standard output

    [HandleError] (cli.go:50-62): any error gives exit code 1; a panic gives 2.  The JSON encoder writes
    nothing unless it succeeds. *)
Definition finish {E} (r : res E gostr) : N * gostr :=
  match r with Ok out => (0%N, out) | Err _ => (1%N, []) | Panic => (2%N, []) end.
(** cmd/rtcg-read-traces/main.go; [args] without the program's name. *)
Definition proc_read_traces (ord : gmap gostr forbidden -> list (gostr * forbidden)) (cwd : fpath) (f : fs) (stdin : gostr) (args : list gostr) : N * gostr :=
  match parse_tool_args (lit "rtcg-read-traces" :: args) with
  | ArgOk p => match open_input cwd stdin f p with
               | Some text => finish (run_read_traces ord text)
               | None => (1%N, [])
               end
  | ErrBadArgs => (1%N, [])
  | ArgPanic => (2%N, [])
  end.
(** cmd/rtcg-make-stms/main.go. *)
Definition proc_make_stms (o : ms_orders) (cwd : fpath) (f : fs) (stdin : gostr) (args : list gostr) : N * gostr :=
  match parse_tool_args (lit "rtcg-make-stms" :: args) with
  | ArgOk p => match open_input cwd stdin f p with
               | Some text => finish (run_make_stms o text)
               | None => (1%N, [])
               end
  | ErrBadArgs => (1%N, [])
  | ArgPanic => (2%N, [])
  end.
(** cmd/rtcg-gen/main.go: the file system after it, and the exit code (it prints nothing). *)
Definition proc_gen (xml : gostr -> option config) (ord : stm_suite -> nat -> list (gostr * stm)) (cwd : fpath) (f : fs) (stdin : gostr) (args : list gostr) : fs * N :=
  match parse_flags args default_flags with
  | FlagHelp => (f, 0%N)
  | FlagBad => (f, 2%N)
  | FlagsOk fl argv =>
    match parse_gen_args argv with
    | GenArgs c i =>
      let '(f', e) := run_gen_nulls xml ord cwd stdin (GenAction (gf_clean fl) (gf_output fl) c i) f in (f', exit_code e)
    | GenBadArgs => (f, 1%N)
    | GenPanic => (f, 2%N)
    end
  end.

(** ** rtcg.sh

    The three tools in a pipe.  The first two do not change files, and the third changes nothing before
    it has read the machines, which are printed at once when everything before has been read: so running
    them one after the other is the same.  The exit code is that of the last. *)
Record sh_orders := ShOrders {
  sh_traces : gmap gostr forbidden -> list (gostr * forbidden);
  sh_stms : ms_orders;
  sh_gen : stm_suite -> nat -> list (gostr * stm);
}.
Definition sh_pipe (xml : gostr -> option config) (o : sh_orders) (cwd : fpath) (f : fs) (stdin : gostr) (dir traces : gostr) : fs * N :=
  let '(_, tests_text) := proc_read_traces (sh_traces o) cwd f stdin [traces] in
  let '(_, stms_text) := proc_make_stms (sh_stms o) cwd f tests_text [lit "-"] in
  proc_gen xml (sh_gen o) cwd f stms_text [dir; lit "-"].
Definition rtcg_sh (xml : gostr -> option config) (o : sh_orders) (cwd : fpath) (f : fs) (stdin : gostr) (args : list gostr) : fs * N :=
  match args with
  | [dir] => sh_pipe xml o cwd f stdin dir (lit "-")
  | [dir; traces] => sh_pipe xml o cwd f stdin dir traces
  | _ => (f, 1%N)
  end.
