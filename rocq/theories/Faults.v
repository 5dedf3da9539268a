(** * rtcg-gen and the printing tools when system calls fail

    Any call may fail: opening, making, reading, writing and closing files, making directories,
    removing, printing.  What is on the disk then is left open as far as the calls made can have changed
    it.  Errors are not told apart: [true] is any error, which [HandleError] (cli/cli.go:50-62) turns
    into exit code 1. *)
From Verif Require Export Crash Process.

(** errors.Join (Go 1.20): nil only if all are nil. *)
Definition joined (l : list bool) : bool := existsb id l.

(** What goes wrong in one operation.  [ff_body], [ff_close]: what is in the file after a failed read
    or write, or a failed close (which may report a delayed write). *)
Record file_faults := FileFaults {
  ff_open : bool;                  (* opening the source (cpp/copy.go:53) *)
  ff_mkdir : option nat;           (* making directories, after some of them (gen.go:152) *)
  ff_create : bool;                (* os.Create *)
  ff_body : option content;        (* io.Copy, ExecuteTemplate, pkg.Write *)
  ff_close : option content;       (* closing the file written *)
  ff_close_src : bool;             (* closing the source (copy.go:73) *)
}.
Definition no_faults : file_faults := FileFaults false None false None None false.
(** [writeFile] (cpp/copy.go:61-74), [CreateFile] (templating/templating.go:12-21) and
    [generatePackageXML] (catkin/catkin.go:98-107): they differ in the [body], which is given the file system with
    the empty file.  Closing the source has no effect on the disk; only [writeFile] has one ([src]). *)
Definition create_io (ff : file_faults) (src : bool) (f : fs) (p : fpath) (body : fs -> fs * bool) : fs * bool :=
  if ff_create ff || negb (creatable f p) then (f, true)
  else
    let f1 := put f p (Bytes []) in
    let '(f2, e1) := match ff_body ff with Some x => (put f1 p x, true) | None => body f1 end in
    let '(f3, e2) := match ff_close ff with Some x => (put f2 p x, true) | None => (f2, false) end in
    (f3, joined [e1; e2; src && ff_close_src ff]).
(** One operation, as [exec] (Gen.v): mkdirs (gen.go:147-159), copyPreludeFile and copyLocalFile
    (cpp/copy.go:40-59), and the above. *)
Definition io_exec (cwd : fpath) (ff : file_faults) (o : op) (f : fs) : fs * bool :=
  match o with
  | OpMkdir p =>
    match mkdir_all f (resolve cwd p), ff_mkdir ff with
    | None, _ => (f, true)
    | Some f', None => (f', false)
    | Some _, Some k => (Fs (list_to_set (take k (prefixes (resolve cwd p))) ∪ fs_dirs f) (fs_files f), true)
    end
  | OpPrelude name p =>
    create_io ff true f (resolve cwd p) (fun f1 => (put f1 (resolve cwd p) (CPrelude name), false))
  | OpCopy src dst =>
    let s := resolve cwd src in let d := resolve cwd dst in
    if ff_open ff || negb (bool_decide (is_Some (fs_files f !! s)) || bool_decide (is_dir f s)) then (f, true)
    else create_io ff true f d (fun f1 => match fs_files f1 !! s with Some c => (put f1 d c, false) | None => (f1, true) end)
  | OpWrite p c =>
    create_io ff false f (resolve cwd p)
      (fun f1 => match c with Some c => (put f1 (resolve cwd p) c, false) | None => (put f1 (resolve cwd p) CBroken, true) end)
  end.
(** The loops of gen.go:147-171, set.go:15-23 and the generators stop at the first error; [faults] gives
    those of the n-th operation. *)
Fixpoint io_all (cwd : fpath) (faults : nat -> file_faults) (ops : list op) (f : fs) : fs * bool :=
  match ops with
  | [] => (f, false)
  | o :: rest => match io_exec cwd (faults 0) o f with
                 | (f', false) => io_all cwd (fun n => faults (S n)) rest f'
                 | (f', true) => (f', true)
                 end
  end.

(** ** A run *)
(** Reading breaks off after a number of bytes: the decoders report it unless they have a complete
    value by then (for a JSON value that is not an object or array this is optimistic). *)
Record run_faults := RunFaults {
  rf_open : bool;                  (* opening the machines (cli.go:37) *)
  rf_input : option nat;           (* reading them *)
  rf_close : bool;                 (* closing them (main.go:112) *)
  rf_clean : option fs;            (* os.RemoveAll: what it leaves (main.go:93) *)
  rf_config_open : bool;           (* config.go:25 *)
  rf_config : option nat;          (* config.go:29 *)
  rf_config_close : bool;          (* config.go:35 *)
  rf_ops : nat -> file_faults;
}.
Definition cut_off {A} (k : option nat) (l : list A) : list A := match k with Some k => take k l | None => l end.
(** cmd/rtcg-gen/main.go:67-132, as [run_gen] (Gen.v). *)
Definition io_run (xml : gostr -> option config) (json : gostr -> option stm_suite)
  (ord : stm_suite -> nat -> list (gostr * stm)) (cwd : fpath) (stdin : gostr) (a : gen_action) (rf : run_faults) (f : fs)
  : fs * bool :=
  let out := clean (ga_output a) in
  let cfg := clean (ga_config a) in
  let input := clean (ga_input a) in
  if rf_open rf then (f, true) else
  match read_input cwd stdin f input ≫= (fun text => json (cut_off (rf_input rf) text)) with
  | None => (f, true)
  | Some s =>
    if rf_close rf then (f, true) else
    let gen f :=
      if rf_config_open rf then (f, true) else
      match load_config (fun text => xml (cut_off (rf_config rf) text)) cwd f cfg with
      | None => (f, true)
      | Some c => if rf_config_close rf then (f, true)
                  else io_all cwd (rf_ops rf) (gen_ops s (ord s) (gen_new c out)) f
      end in
    if ga_clean a then
      if decide (out = lit ".") then (f, true)
      else match rf_clean rf with
           | Some f' => (f', true)
           | None => let f' := remove_below (resolve cwd out) f in
                     if undeletable out then (f', true) else gen f'
           end
    else gen f
  end.

(** ** Printing: rtcg-read-traces and rtcg-make-stms write everything at once (serial.go:23-30); if this
    fails after some bytes, the exit code is 1. *)
Definition printed (k : option nat) (r : N * gostr) : N * gostr :=
  match k with Some k => if decide (k < length r.2) then (1%N, take k r.2) else r | None => r end.
(** rtcg.sh, where the first two tools may fail to print. *)
Definition sh_pipe_io (xml : gostr -> option config) (o : sh_orders) (cwd : fpath) (f : fs) (stdin : gostr) (dir traces : gostr) (k1 k2 : option nat) : fs * N :=
  let '(_, tests_text) := printed k1 (proc_read_traces (sh_traces o) cwd f stdin [traces]) in
  let '(_, stms_text) := printed k2 (proc_make_stms (sh_stms o) cwd f tests_text [lit "-"]) in
  proc_gen xml (sh_gen o) cwd f stms_text [dir; lit "-"].
