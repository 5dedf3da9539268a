(** * Files that end too early (C95)

    A full disk, a pipe that closes or a tool that is killed leaves the first bytes of a file and nothing
    more. *)
From Verif Require Export SpecJsonText SpecCsv SpecProcess SpecConfigText.
From Verif Require Export StmProofs.

(** What is left of a text: its first bytes. *)
Definition beginning (p text : gostr) : Prop := p `prefix_of` text.
(** More than a newline at the very end is missing. *)
Definition cut_short (p text : gostr) : Prop := exists lost, text = p ++ lost /\ lost <> [] /\ lost <> [byte 10].
(** What rtcg-gen reads its machines from: the standard input, or a file. *)
Definition machines_from (cwd : fpath) (f : fs) (stdin i text : gostr) : Prop :=
  (names_stdin i /\ text = stdin) \/ (~ names_stdin i /\ fs_files f !! resolve cwd i = Some (Bytes text)).
(** A command line of rtcg-gen that names a configuration file [c] and machines [i]. *)
Definition gen_line (args : list gostr) (c i : gostr) : Prop :=
  exists fl rest, command_line args fl (c :: rest) /\ ((rest = [] /\ i = lit "-") \/ rest = [i]).
