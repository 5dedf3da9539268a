(** * Two rtcg-gen processes at the same time

    A run (cmd/rtcg-gen/main.go:60-132) in steps: reading the suite (main.go:68, 103-113), cleaning (74, 84-98),
    reading the configuration (116) and the operations of the generator (125; [gen_ops], Gen.v), each of
    which is one step.  Together the steps are [run_gen] (Gen.v): [C97_steps]. *)
From Verif Require Export Gen.

Record gen_process := Process {
  pr_order : stm_suite -> nat -> list (gostr * stm);     (* the orders in which it ranges over maps *)
  pr_cwd : fpath;
  pr_stdin : gostr;
  pr_action : gen_action;                                 (* its command line *)
}.
(** What a process has to do next. *)
Inductive phase := ToRead | ToClean (s : stm_suite) | ToLoad (s : stm_suite) | ToDo (ops : list op) | Over (ok : bool).
Section Conc.
Context (xml : gostr -> option config) (json : gostr -> option stm_suite).
Definition pstep (P : gen_process) (ph : phase) (f : fs) : phase * fs :=
  let a := pr_action P in let cwd := pr_cwd P in
  let out := clean (ga_output a) in
  match ph with
  | ToRead => match read_input cwd (pr_stdin P) f (clean (ga_input a)) ≫= json with
              | Some s => (ToClean s, f)
              | None => (Over false, f)
              end
  | ToClean s =>
    if ga_clean a then
      if decide (out = lit ".") then (Over false, f)
      else let f' := remove_below (resolve cwd out) f in
           if undeletable out then (Over false, f') else (ToLoad s, f')
    else (ToLoad s, f)
  | ToLoad s => match load_config xml cwd f (clean (ga_config a)) with
                | Some c => (ToDo (gen_ops s (pr_order P s) (gen_new c out)), f)
                | None => (Over false, f)
                end
  | ToDo [] => (Over true, f)
  | ToDo (o :: rest) => match exec cwd o f with
                        | (f', None) => (ToDo rest, f')
                        | (f', Some _) => (Over false, f')
                        end
  | Over b => (Over b, f)
  end.
Fixpoint psteps (n : nat) (P : gen_process) (ph : phase) (f : fs) : phase * fs :=
  match n with O => (ph, f) | S n => let '(ph', f') := pstep P ph f in psteps n P ph' f' end.
(** A schedule says whose turn it is. *)
Fixpoint together (P1 P2 : gen_process) (turns : list bool) (ph1 ph2 : phase) (f : fs) : phase * phase * fs :=
  match turns with
  | [] => (ph1, ph2, f)
  | true :: r => let '(ph, f') := pstep P1 ph1 f in together P1 P2 r ph ph2 f'
  | false :: r => let '(ph, f') := pstep P2 ph2 f in together P1 P2 r ph1 ph f'
  end.
End Conc.
