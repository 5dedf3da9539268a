(** * Specification vocabulary for command lines (C83) and rtcg.sh (C84) *)
From Verif Require Export SpecGenRun Process SpecChain SpecNulls.
From Verif Require Export StmProofs.

(** ** Flags of rtcg-gen *)
Inductive dashes : gostr -> Prop := one_dash : dashes (lit "-") | two_dashes : dashes (lit "--").
(** Texts that mean true or false. *)
Definition says_bool (s : gostr) (b : bool) : Prop :=
  if b then s ∈ [lit "1"; lit "t"; lit "T"; lit "TRUE"; lit "true"; lit "True"]
  else s ∈ [lit "0"; lit "f"; lit "F"; lit "FALSE"; lit "false"; lit "False"].
(** Arguments that make up one flag, and what they change. *)
Inductive flag_args : list gostr -> gen_flags -> gen_flags -> Prop :=
  | fa_clean d c o : dashes d -> flag_args [d ++ lit "clean"] (GenFlags c o) (GenFlags true o)
  | fa_clean_is d v b c o : dashes d -> says_bool v b -> flag_args [d ++ lit "clean=" ++ v] (GenFlags c o) (GenFlags b o)
  | fa_output d v c o : dashes d -> flag_args [d ++ lit "output"; v] (GenFlags c o) (GenFlags c v)
  | fa_output_is d v c o : dashes d -> flag_args [d ++ lit "output=" ++ v] (GenFlags c o) (GenFlags c v).
Inductive flags_args : list gostr -> gen_flags -> gen_flags -> Prop :=
  | fas_nil fl : flags_args [] fl fl
  | fas_cons a b fl fl' fl'' : flag_args a fl fl' -> flags_args b fl' fl'' -> flags_args (a ++ b) fl fl''.
(** An argument that is not taken for a flag: a single dash, or something that does not start with one. *)
Definition not_flag (s : gostr) : Prop := s = lit "-" \/ head s <> Some "-"%char.
(** Flags and what follows them: from the first argument that is not one, or after two dashes. *)
Inductive command_line : list gostr -> gen_flags -> list gostr -> Prop :=
  | cl_plain a fl rest : flags_args a default_flags fl -> (forall s, head rest = Some s -> not_flag s) -> command_line (a ++ rest) fl rest
  | cl_dashes a fl rest : flags_args a default_flags fl -> command_line (a ++ lit "--" :: rest) fl rest.
(** Some flags, and then a request for help. *)
Definition help_name (s : gostr) : Prop := exists d n v, dashes d /\ (n = lit "h" \/ n = lit "help") /\ (v = [] \/ exists w, v = lit "=" ++ w) /\ s = d ++ n ++ v.
Definition help_line (args : list gostr) : Prop := exists a fl s rest, flags_args a default_flags fl /\ help_name s /\ args = a ++ s :: rest.

(** ** Files by name: the file is there, and whatever stands before a slash in the path is a directory *)
Definition opens (cwd : fpath) (f : fs) (p text : gostr) : Prop :=
  p <> [] /\ fs_files f !! resolve cwd p = Some (Bytes text) /\
  forall a r, p = a ++ "/"%char :: r -> a <> [] -> is_dir f (resolve cwd a).
(** What rtcg-read-traces or rtcg-make-stms reads, from its arguments: a single dash, or nothing, for the
    standard input. *)
Inductive tool_reads (cwd : fpath) (f : fs) (stdin : gostr) : list gostr -> gostr -> Prop :=
  | tr_none : tool_reads cwd f stdin [] stdin
  | tr_dash : tool_reads cwd f stdin [lit "-"] stdin
  | tr_file p text : p <> lit "-" -> opens cwd f p text -> tool_reads cwd f stdin [p] text.

(** ** How a run of rtcg-gen ends, from its arguments *)
Inductive gen_process (xml : gostr -> option config) (ord : stm_suite -> nat -> list (gostr * stm)) (cwd : fpath) (f : fs) (stdin : gostr) (args : list gostr) : fs -> N -> Prop :=
  | gp_help : help_line args -> gen_process xml ord cwd f stdin args f 0
  | gp_bad_flags : ~ help_line args -> (forall fl rest, ~ command_line args fl rest) -> gen_process xml ord cwd f stdin args f 2
  | gp_bad_args fl rest : command_line args fl rest -> length rest <> 1 -> length rest <> 2 -> gen_process xml ord cwd f stdin args f 1
  | gp_run fl c rest i f' e : command_line args fl (c :: rest) -> (rest = [] /\ i = lit "-") \/ rest = [i] ->
      null_run xml ord cwd stdin (GenAction (gf_clean fl) (gf_output fl) c i) f f' e ->
      gen_process xml ord cwd f stdin args f' (match e with Ended None => 0 | Ended (Some _) => 1 | Crashed => 2 end).

(** ** rtcg.sh: the configuration file and what the traces are read from *)
Inductive sh_args : list gostr -> gostr -> list gostr -> Prop :=
  | sha_one conf : sh_args [conf] conf []
  | sha_two conf traces : sh_args [conf; traces] conf [traces].
Definition any_sh_orders (o : sh_orders) : Prop :=
  any_order (sh_traces o) /\ any_orders (sh_stms o) /\ forall s, orders s (sh_gen o s).
