(** * rtcg-gen on machine files that have null where a machine, a state, a verdict or a type should be

    encoding/json leaves a nil pointer for null.  The generator looks at those pointers in the following
    places:
    - a nil machine or a nil state is dereferenced by Stm.TransitionSets (stm/stm.go:50-54), called from
      NewContext (gencommon/context.go:22-29, 66-67) before main.cpp is created: a crash;
    - a nil verdict is ranged over by state_entry.cpp.tmpl:10 ("range can't iterate over"): the template
      fails when main.cpp has been created;
    - a nil type of the suite is an argument of cppType in convert_base.h.tmpl:54 ("dereference of nil
      pointer"): the template fails when convert.h has been created;
    - a nil type in a machine's own type map is never looked at. *)
From Verif Require Export Tools.
From Verif Require Export StmProofs.

Definition is_nil {A} (o : option A) : bool := match o with None => true | Some _ => false end.
(** Something in the place of each null, so that the definitions for suites without nulls can be used for
    everything that does not look at them: an empty verdict, the empty type; and for a machine that is null
    or has a null among its states, at which the generator crashes, a machine with one empty state. *)
Definition fill_state (r : option rstate) : state :=
  match r with
  | Some r => State (rs_id r) (rs_tsets r) (default ∅ (rs_verdict r))
  | None => State [] [] ∅
  end.
Definition fill_types (m : gmap gostr (option rstype)) : type_map := default ty_empty <$> m.
Definition fill_stm (r : option rstm) : stm :=
  match r with
  | Some r => if existsb is_nil (rm_states r) then Stm [fill_state None] ∅ ∅
              else Stm (map fill_state (rm_states r)) (fill_types (rm_types r)) (rm_tests r)
  | None => Stm [fill_state None] ∅ ∅
  end.
Definition fill_suite (r : rsuite) : stm_suite := StmSuite (fill_types (ru_types r)) (fill_stm <$> ru_tests r).

(** TransitionSets (stm.go:48-57) dereferences a nil pointer. *)
Definition derefs_nil (m : option rstm) : bool :=
  match m with None => true | Some m => existsb is_nil (rm_states m) end.
(** state_entry.cpp.tmpl:10 ranges over a nil pointer in some state. *)
Definition ranges_nil (m : option rstm) : bool :=
  match m with
  | None => false
  | Some m => existsb (fun s => match s with Some s => is_nil (rs_verdict s) | None => false end) (rm_states m)
  end.

(** What the generator does next: an operation on files, or a crash. *)
Inductive gop := GOp (o : op) | GCrash.
(** [generateTest] (cpp/cpp.go:129-137). *)
Definition test_gop (r : rsuite) (v : variant) (ctx : cctx) (d : dirset) (t : gostr * stm) : gop :=
  let m := ru_tests r !! t.1 in
  if default false (derefs_nil <$> m) then GCrash
  else GOp (OpWrite (path_join [ds_out (subdir d t.1); src_dir; lit "main.cpp"])
              (if negb (default false (ranges_nil <$> m)) && renders v t.2 ctx then Some (CMain v t.1 t.2 ctx) else None)).
(** [Generate] of the three generators, as [sub_ops]; [order] is an order of the tests of [fill_suite r]. *)
Definition sub_gops (r : rsuite) (order : list (gostr * stm)) (g : subgen) : list gop :=
  match g with
  | SCpp c d =>
    let ctx := process c (su_types (fill_suite r)) in
    map GOp
      (map (fun n => OpPrelude n (output_path d (path_join [prelude_dir; n]))) [lit "rtcg.cpp"; lit "rtcg.h"]
       ++ (if cx_conv ctx
           then let dd := subdir d convert_dir in
                [OpCopy (path_join [ds_in dd; lit "convert.cpp"]) (path_join [ds_out dd; lit "convert.cpp"])]
           else [])
       ++ [OpWrite (path_join [ds_out d; lit "convert"; lit "convert.h"])
             (if bool_decide (map_Forall (fun _ t => is_Some t) (ru_types r)) then Some (CConvertH (cc_variant c) ctx) else None)])
    ++ map (test_gop r (cc_variant c) ctx d) order
  | _ => map GOp (sub_ops (fill_suite r) order g)
  end.
(** [OnSuite], [Generate], [mkdirs], [runSubgens] (gen.go:118-171), as [gen_ops]; the directories depend on
    the names of tests and typed channels only. *)
Definition gen_gops (r : rsuite) (ord : nat -> list (gostr * stm)) (gs : list subgen) : list gop :=
  concat (mapi_from (fun i g => map (fun p => GOp (OpMkdir p)) (sub_dirs (fill_suite r) (ord i) g)) 0 gs)
  ++ concat (mapi_from (fun i g => sub_gops r (ord (length gs + i)) g) 0 gs).
(** Until an error or a crash; what has been written by then stays. *)
Inductive gend := GDone | GFailed (e : gerr) | GCrashed.
Fixpoint exec_gops (cwd : fpath) (ops : list gop) (f : fs) : fs * gend :=
  match ops with
  | [] => (f, GDone)
  | GCrash :: _ => (f, GCrashed)
  | GOp o :: rest => match exec cwd o f with
                     | (f', None) => exec_gops cwd rest f'
                     | (f', Some e) => (f', GFailed e)
                     end
  end.
Definition generate_nulls (cwd : fpath) (c : config) (out : gostr) (r : rsuite)
  (ord : stm_suite -> nat -> list (gostr * stm)) (f : fs) : fs * gend :=
  exec_gops cwd (gen_gops r (ord (fill_suite r)) (gen_new c out)) f.

(** rtcg-gen after argument parsing (cmd/rtcg-gen/main.go:60-132), as [run_gen], with the decoder of
    machine files. *)
Inductive run_end := Ended (e : option run_err) | Crashed.
Definition run_gen_nulls (xml : gostr -> option config)
  (ord : stm_suite -> nat -> list (gostr * stm)) (cwd : fpath) (stdin : gostr) (a : gen_action) (f : fs)
  : fs * run_end :=
  let out := clean (ga_output a) in
  let cfg := clean (ga_config a) in
  let input := clean (ga_input a) in
  match read_input cwd stdin f input ≫= (fun text => match read_stm_suite text with Ok r => Some r | _ => None end) with
  | None => (f, Ended (Some ReadSuiteErr))
  | Some r =>
    let gen f := match load_config xml cwd f cfg with
                 | None => (f, Ended (Some ConfigErr))
                 | Some c => match generate_nulls cwd c out r ord f with
                             | (f', GDone) => (f', Ended None)
                             | (f', GFailed e) => (f', Ended (Some (GenErr e)))
                             | (f', GCrashed) => (f', Crashed)
                             end
                 end in
    if ga_clean a then
      if decide (out = lit ".") then (f, Ended (Some ErrCleanDot))
      else let f' := remove_below (resolve cwd out) f in
           if undeletable out then (f', Ended (Some CleanErr)) else gen f'
    else gen f
  end.
(** The exit code: HandleError (cli/cli.go:50-62) exits with 1; a Go program that panics exits with 2. *)
Definition exit_code (e : run_end) : N := match e with Ended None => 0 | Ended (Some _) => 1 | Crashed => 2 end.
