(** * The command-line tools as functions of their input text *)
From Verif Require Export Json Csv Trace Validate Stm Gen.
From Verif Require Export StmProofs.

(** rtcg-read-traces (cmd/rtcg-read-traces/main.go:21-49): from a traces file to what is
    printed.  [ord] is the order in which ExpandAll ranges over the named traces. *)
Inductive rt_err := RtRead (e : read_err) | RtWrite.
Definition run_read_traces (ord : gmap gostr forbidden -> list (gostr * forbidden)) (text : gostr)
  : res rt_err gostr :=
  match read_traces text with                                       (* main.go:27-30 *)
  | Ok traces =>
    match name_all traces with                                      (* main.go:32; never None, C14 *)
    | None => Panic
    | Some m => match write_suite (expand_all (ord m)) with         (* main.go:32-36 *)
                | Some out => Ok out
                | None => Err RtWrite
                end
    end
  | Err e => Err (RtRead e)
  | Panic => Panic
  end.

(** rtcg-make-stms (cmd/rtcg-make-stms/main.go:48-91): from a test suite to what is printed.
    The choices are the iteration orders in FullSuite, BuildMany, unifyTypes and
    Set.MarshalJSON. *)
Record ms_orders := MsOrders {
  ms_valid : suite -> list (gostr * option node);
  ms_build : gmap gostr node -> list (gostr * node);
  ms_unify : gmap gostr stm -> list (list (gostr * rstype));
  ms_sets : stm_suite -> gostr -> list gostr;
}.
Inductive ms_err := MsRead (e : jerr) | MsInvalid (e : verr) | MsBuild (e : berr) | MsWrite (e : werr).
Definition run_make_stms (o : ms_orders) (text : gostr) : res ms_err gostr :=
  match read_suite text with                                        (* main.go:49-52, 70-79 *)
  | Ok s =>
    match full_suite (ms_valid o s) with                            (* main.go:54-57 *)
    | Ok vs =>
      match build_suite new_builder (ms_build o vs) (ms_unify o) with (* main.go:59-62, 81-90 *)
      | Ok stms =>
        match write_stm_suite (ms_sets o stms) stms with            (* main.go:64-66 *)
        | Ok out => Ok out
        | Err e => Err (MsWrite e)
        | Panic => Panic
        end
      | Err e => Err (MsBuild e)
      | Panic => Panic
      end
    | Err e => Err (MsInvalid e)
    | Panic => Panic
    end
  | Err e => Err (MsRead e)
  | Panic => Panic
  end.

(** What rtcg-gen makes of its input (cmd/rtcg-gen/main.go:119-132, stm/suite.go:16-25): a
    suite without nil pointers.  [None] for a file with null for a machine, a state, a type or a
    verdict: see [run_gen_nulls] (Nulls.v) for those. *)
Definition use_state (r : option rstate) : option state :=
  match r with
  | Some (RState i ts (Some v)) => Some (State i ts v)
  | _ => None
  end.
Definition use_types (m : gmap gostr (option rstype)) : option type_map :=
  if decide (map_Forall (fun _ t => is_Some t) m) then Some (omap id m) else None.
Definition use_stm (r : option rstm) : option stm :=
  match r with
  | Some r => match mapM use_state (rm_states r), use_types (rm_types r) with
              | Some ss, Some ty => Some (Stm ss ty (rm_tests r))
              | _, _ => None
              end
  | None => None
  end.
Definition use_suite (r : rsuite) : option stm_suite :=
  if decide (map_Forall (fun _ m => is_Some (use_stm m)) (ru_tests r)) then
    match use_types (ru_types r) with
    | Some ty => Some (StmSuite ty (omap use_stm (ru_tests r)))
    | None => None
    end
  else None.
Definition gen_input (text : gostr) : option stm_suite :=
  match read_stm_suite text with Ok r => use_suite r | _ => None end.
