(** * Specification vocabulary for build files: how make, CMake and the compiler read them *)
From Verif Require Export GoStr.

(** ** Words *)
(** Characters that mean nothing special to make, CMake or the shell. *)
Definition word_char (c : ascii) : bool :=
  is_upper c || is_lower c || is_digit c || bool_decide (c ∈ ["_"%char; "-"%char; "."%char; "+"%char; ","%char]).
(** A word made of such characters. *)
Definition plain_word (s : gostr) : Prop := s <> [] /\ Forall (fun c => word_char c = true) s.
(** The words of a line, cut at blanks. *)
Definition words_of (s : gostr) : list gostr := base.filter (fun w => w <> []) (split_all " " s).
(** The lines of a file. *)
Definition lines_of (s : gostr) : list gostr := split_all (byte 10) s.
(** [s] without a given start. *)
Definition after (p s : gostr) : option gostr := if decide (take (length p) s = p) then Some (drop (length p) s) else None.

(** ** Makefiles *)
(** Outside commands only plain words, slashes, blanks and the two separators are understood:
    no macros, patterns, comments or continuation lines. *)
Definition make_char (c : ascii) : bool := word_char c || bool_decide (c ∈ ["/"%char; " "%char; ":"%char; "="%char]).
Inductive make_line := MkBlank | MkCommand (text : gostr) | MkMacro (name value : list gostr) | MkHead (targets prereqs : list gostr).
(** A line: a command if it starts with a tab; otherwise a macro if there is an equals sign, a rule's
    first line if there is a colon. *)
Definition read_make_line (l : gostr) : option make_line :=
  match l with
  | [] => Some MkBlank
  | c :: r =>
    if decide (c = byte 9) then Some (MkCommand r)
    else if negb (forallb make_char l) then None
    else match cut "=" l with
         | Some (n, v) => Some (MkMacro (words_of n) (words_of v))
         | None => match cut ":" l with
                   | Some (t, p) => Some (MkHead (words_of t) (words_of p))
                   | None => None
                   end
         end
  end.
Record rule := Rule { ru_targets : list gostr; ru_prereqs : list gostr; ru_commands : list gostr }.
Record makefile := Makefile { mf_macros : list (list gostr * list gostr); mf_rules : list rule }.
(** Commands belong to the rule before them.  The first component: commands whose rule is still to
    come (the file is read from its end). *)
Fixpoint read_make_lines (ls : list gostr) : option (list gostr * makefile) :=
  match ls with
  | [] => Some ([], Makefile [] [])
  | l :: rest =>
    match read_make_line l, read_make_lines rest with
    | Some MkBlank, r => r
    | Some (MkCommand c), Some (pending, mf) => Some (c :: pending, mf)
    | Some (MkMacro n v), Some ([], mf) => Some ([], Makefile ((n, v) :: mf_macros mf) (mf_rules mf))
    | Some (MkHead t p), Some (pending, mf) => Some ([], Makefile (mf_macros mf) (Rule t p pending :: mf_rules mf))
    | _, _ => None
    end
  end.
Definition read_makefile (s : gostr) : option makefile :=
  match read_make_lines (lines_of s) with Some ([], mf) => Some mf | _ => None end.

(** What make does when nothing has been built: the rule for a target; the default goal is the first
    target not starting with a dot. *)
Definition rule_for (mf : makefile) (t : gostr) : option rule := head (base.filter (fun r => t ∈ ru_targets r) (mf_rules mf)).
Definition default_goal (mf : makefile) : option gostr :=
  head (base.filter (fun t => head (t : list ascii) <> Some "."%char) (concat (map ru_targets (mf_rules mf)))).
(** A target is needed for a goal. *)
Inductive needed (mf : makefile) (goal : gostr) : gostr -> Prop :=
| needed_goal : needed mf goal goal
| needed_prereq t r p : needed mf goal t -> rule_for mf t = Some r -> p ∈ ru_prereqs r -> needed mf goal p.
(** An order in which the commands of targets may be run for a goal, by a make that runs
    independent commands in any order (or at the same time): every needed target that has a rule is
    run once, after those it needs, and nothing else is; what has no rule must be a file. *)
Record schedule (mf : makefile) (exists_file : gostr -> Prop) (goal : gostr) (order : list gostr) : Prop := {
  sch_once : NoDup order;
  sch_needed : forall t, t ∈ order <-> needed mf goal t /\ is_Some (rule_for mf t);
  sch_files : forall t, needed mf goal t -> rule_for mf t = None -> exists_file t;
  sch_order : forall i t r p, order !! i = Some t -> rule_for mf t = Some r -> p ∈ ru_prereqs r ->
    is_Some (rule_for mf p) -> exists j, j < i /\ order !! j = Some p;
}.
(** The order of a make that does one thing at a time: depth first, prerequisites from left to right. *)
Fixpoint serial (fuel : nat) (mf : makefile) (done : list gostr) (goals : list gostr) : list gostr :=
  match fuel with
  | O => done
  | S fuel =>
    match goals with
    | [] => done
    | g :: rest =>
      if decide (g ∈ done) then serial fuel mf done rest
      else match rule_for mf g with
           | None => serial fuel mf done rest
           | Some r => let done' := serial fuel mf done (ru_prereqs r) in
                       serial fuel mf (if decide (g ∈ done') then done' else done' ++ [g]) rest
           end
    end
  end.

(** A compiler command: source files are the words that are not options (nor the target of -o). *)
Fixpoint operands (ws : list gostr) : list gostr :=
  match ws with
  | [] => []
  | w :: rest => if decide (w = lit "-o") then match rest with _ :: rest' => operands rest' | [] => [] end
                 else if decide (head (w : list ascii) = Some "-"%char) then operands rest
                 else w :: operands rest
  end.
Definition include_dirs (ws : list gostr) : list gostr := omap (after (lit "-I")) ws.

(** A file name (of an include) is found in one of the directories. *)
Definition found_in (exists_file : gostr -> Prop) (dirs : list gostr) (name : gostr) : Prop :=
  exists d, d ∈ dirs /\ exists_file (d ++ lit "/" ++ name).

(** What the Makefile of a set of tests should say: the sources of a test's program, and its command. *)
Definition test_target (t : gostr) : gostr := lit "bin/" ++ t.
Definition test_sources (conv : bool) (t : gostr) : list gostr :=
  [lit "src/" ++ t ++ lit "/src/main.cpp"; lit "src/rtcg/rtcg.cpp"] ++ (if conv then [lit "src/convert/convert.cpp"] else []).
Definition test_includes (conv : bool) (t : gostr) : list gostr :=
  [lit "src/" ++ t ++ lit "/include"; lit "src/rtcg"] ++ (if conv then [lit "src/convert"] else []).
(** A command that compiles the sources, with the include directories, into the target. *)
Definition compiles (cmd : gostr) (dirs sources : list gostr) : Prop :=
  exists args, words_of cmd = [lit "$(CXX)"; lit "$(CXXFLAGS)"; lit "-o"; lit "$@"] ++ args /\
    include_dirs args = dirs /\ operands args = sources.

(** ** CMake files *)
(** A sequence of commands name(arguments), arguments cut at blanks and line ends.  Understood are
    plain words with slashes and variable references, and the empty argument "". *)
Record command := Command { cm_name : gostr; cm_args : list gostr }.
Definition is_blank (c : ascii) : bool := bool_decide (c ∈ [byte 32; byte 10]).
Fixpoint skip_blanks (s : gostr) : gostr :=
  match s with c :: r => if is_blank c then skip_blanks r else s | [] => [] end.
Definition arg_char (c : ascii) : bool := word_char c || bool_decide (c ∈ ["/"%char; "$"%char; "{"%char; "}"%char; "="%char]).
Definition read_arg (w : gostr) : option gostr :=
  if decide (w = [byte 34; byte 34]) then Some [] else if forallb arg_char w then Some w else None.
Definition arg_words (body : gostr) : list gostr := words_of (map (fun c => if is_blank c then " "%char else c) body).
Fixpoint read_commands (fuel : nat) (s : gostr) : option (list command) :=
  match fuel with
  | O => None
  | S fuel =>
    match skip_blanks s with
    | [] => Some []
    | s' =>
      match cut "(" s' with
      | None => None
      | Some (name, r) =>
        if negb (forallb word_char name) then None
        else match cut ")" r with
             | None => None
             | Some (body, rest) =>
               match mapM read_arg (arg_words body), read_commands fuel rest with
               | Some args, Some cs => Some (Command name args :: cs)
               | _, _ => None
               end
             end
      end
    end
  end.
Definition read_cmake (s : gostr) : option (list command) := read_commands (S (length s)) s.
(** The arguments of the commands of a given name. *)
Definition args_of (name : gostr) (cs : list command) : list (list gostr) :=
  map cm_args (base.filter (fun c => cm_name c = name) cs).
(** The library and executable targets a file declares in a project. *)
Definition declared_targets (project : gostr) (cs : list command) : list gostr :=
  map (fun c => replace_all (lit "${PROJECT_NAME}") project (default [] (head (cm_args c))))
      (base.filter (fun c => cm_name c = lit "add_library" \/ cm_name c = lit "add_executable") cs).
