(** * Specification vocabulary for all the tools together, from files to exit codes (C82) *)
From Verif Require Export SpecGenRun SpecTools SpecMain SpecSession SpecConfigText Xml MainText.
From Verif Require Import PropCppTrace.
From Verif Require Export StmProofs.

(** What is in a generated file that was made on [date].  The tests of a machine are listed in some order
    (cpp/test_context.go gives the template a set). *)
Inductive file_text (date : gostr) : content -> gostr -> Prop :=
  | ft_main v name m ctx tests : lists_tests m tests -> file_text date (CMain v name m ctx) (main_text v name date m ctx tests)
  | ft_other x t : content_text x = Some t -> file_text date x t.

(** Where the user's code is: where the configuration says, or where its file is. *)
Definition code_dir (cwd : fpath) (file : gostr) (c : config) : fpath :=
  if decide (cf_dir c = []) then removelast (resolve cwd file) else resolve cwd (cf_dir c).

(** A text of a program that ends with exit code 1 exactly if the forbidden trace is observed: when the
    operator types anything at it (what is typed means the observations [script], see [typed_as]), or over ROS. *)
Definition animate_tests (t : forbidden) (types : type_map) (txt : gostr) : Prop :=
  exists p, read_cpp txt = Some p /\
    forall conv ins script closed depth rounds, plain_conversions types conv -> typed_as (fun c => c ∈ output_names (trace_events t)) types ins script closed ->
      4 <= depth -> length script < rounds ->
      (exists w, run_main p conv rounds depth ins = Fine (VInt 1) w) <-> reached t (trace_events t) script.
Definition ros_tests (t : forbidden) (name : gostr) (types : type_map) (txt : gostr) : Prop :=
  exists p, read_cpp txt = Some p /\
    forall conv evs depth rounds, plain_conversions types conv -> events_fit (expand t name) types evs -> acks_expected (expand t name) evs -> 4 <= depth ->
      (exists w, run_main p conv rounds depth (map ros_in evs) = Fine (VInt 1) w) <-> reached t (trace_events t) (map ros_word evs).
(** ROS topics of a trace. *)
Definition trace_topics (t : forbidden) : Prop :=
  (forall c d, c ∈ output_names (trace_events t) -> d ∈ output_names (trace_events t) -> topic_name c = topic_name d -> c = d) /\
  (forall c, c ∈ output_names (trace_events t) -> topic_name c <> lit "input_accepted").
