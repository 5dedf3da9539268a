(** * The generator driver: internal/gen (gen.go, cpp, catkin, makefile, config, gencommon,
    templating), internal/cli and cmd/rtcg-gen.

    The generator is modelled as the list of file system operations it performs, in order,
    run against a file system.  File contents are represented by the data the templates are
    given ([content]); what main.cpp contains is the subject of Cpp.v. *)
From Verif Require Export Cpp.

(** ** Configuration *)

(** config/cpp/variant.go, variant_enum.go:15-39; [VBad] is a number that names no variant. *)
Inductive variant := VAnimate | VRos | VBad (n : N).
Global Instance variant_eq_dec : EqDecision variant.
Proof. solve_decision. Defined.
Definition variant_string (v : variant) : gostr :=
  match v with
  | VAnimate => lit "animate"
  | VRos => lit "ros"
  | VBad n => lit "Variant(" ++ format_N n ++ lit ")"
  end.
(** variant_enum.go:41-58 (the map also has the lower-cased names, which are the same). *)
Definition variant_value (s : gostr) : option variant :=
  if decide (s = lit "animate") then Some VAnimate
  else if decide (s = lit "ros") then Some VRos
  else None.
Definition parse_variant (s : gostr) : option variant :=
  match variant_value s with Some v => Some v | None => variant_value (to_lower s) end.

(** config/catkin/package.go:11-31, without the XML name. *)
Record package := Package {
  pk_format : Z;
  pk_name : gostr;
  pk_version : gostr;
  pk_description : gostr;
  pk_maintainer : gostr;
  pk_email : gostr;
  pk_license : gostr;
  pk_buildtool : list gostr;
  pk_depends : list gostr;
}.
Definition empty_package : package := Package 0 [] [] [] [] [] [] [] [].
(** [autofillOne] (package.go:62-68). *)
Definition autofill_one (input def : gostr) : gostr := if decide (input = []) then def else input.
(** [Autofill] (package.go:50-60). *)
Definition placeholder : gostr := lit "${NAME}".
Definition autofill (p : package) : package :=
  Package 2 (autofill_one (pk_name p) placeholder) (autofill_one (pk_version p) (lit "0.1.0"))
    (autofill_one (pk_description p) (lit "Package for ${NAME}"))
    (autofill_one (pk_maintainer p) (lit "${NAME} Maintainers"))
    (autofill_one (pk_email p) (lit "email@example.com"))
    (autofill_one (pk_license p) (lit "Proprietary")) (pk_buildtool p) (pk_depends p).
(** [expandOne] (package.go:79-81). *)
Definition expand_one (template name : gostr) : gostr := replace_all placeholder name template.
(** [Expand] (package.go:71-77). *)
Definition expand_package (name : gostr) (p : package) : package :=
  Package (pk_format p) (expand_one (pk_name p) name) (pk_version p) (expand_one (pk_description p) name)
    (expand_one (pk_maintainer p) name) (expand_one (pk_email p) name) (expand_one (pk_license p) name)
    (pk_buildtool p) (pk_depends p).

(** config/cpp/cpp.go:10-17, 55-69; config/catkin/catkin.go; config/makefile/makefile.go (an
    empty struct). *)
Record include := Include { in_src : gostr; in_system : bool }.
Record cpp_config := CppConfig {
  cc_variant : variant;
  cc_includes : list include;
  cc_channels : list (gostr * gostr);         (* channel name, type *)
  cc_makefile : bool;
  cc_catkin : option (option package);
}.
(** config/config.go:14-18. *)
Record config := Config { cf_cpps : list cpp_config; cf_dir : gostr }.

(** [ChannelMap] (cpp.go:45-53). *)
Definition channel_map (c : cpp_config) : gmap gostr gostr :=
  fold_left (fun m over => <[over.1 := over.2]> m) (cc_channels c) ∅.
(** config/cpp/context.go:11-15, 39-42: channel types are the inferred type and the override
    (empty if there is none). *)
Record cctx := Cctx {
  cx_includes : list include;
  cx_types : gmap gostr (rstype * gostr);
  cx_conv : bool;
}.
(** [Process] (context.go:19-36), ranging over the type map in the given order. *)
Definition process_in (c : cpp_config) (order : list (gostr * rstype)) : cctx :=
  let over := channel_map c in
  fold_left (fun ctx nt =>
               Cctx (cx_includes ctx) (<[nt.1 := (nt.2, default [] (over !! nt.1))]> (cx_types ctx))
                    (cx_conv ctx || bool_decide (is_Some (over !! nt.1))))
            order (Cctx (cc_includes c) ∅ false).
(** The order does not matter (C55), so one is fixed from here on. *)
Definition process (c : cpp_config) (types : type_map) : cctx := process_in c (map_to_list types).
(** [HasOverride] (context.go:48-50). *)
Definition has_override (t : rstype * gostr) : bool := negb (bool_decide (t.2 = [])).

(** gencommon/dirset.go. *)
Record dirset := DirSet { ds_in : gostr; ds_out : gostr }.
Definition subdir (d : dirset) (s : gostr) : dirset :=
  DirSet (path_join [ds_in d; s]) (path_join [ds_out d; s]).
Definition output_path (d : dirset) (file : gostr) : gostr := path_join [ds_out d; file].

(** ** The file system

    Paths are resolved to lists of components from the root; there are no symbolic links, no
    permissions, no limits on names or space. *)
Notation fpath := (list gostr).
Definition walk_comp (base : fpath) (c : gostr) : fpath :=
  if decide (c = []) then base
  else if decide (c = lit ".") then base
  else if decide (c = lit "..") then removelast base
  else base ++ [c].
Definition resolve (cwd : fpath) (p : gostr) : fpath :=
  fold_left walk_comp (split_all "/" p) (if is_rooted p then [] else cwd).

(** What a file holds. *)
Inductive content :=
  | Bytes (b : gostr)                                               (* a file of the user's *)
  | CPrelude (name : gostr)                                         (* embed/prelude/name *)
  | CConvertH (v : variant) (ctx : cctx)
  | CMain (v : variant) (name : gostr) (m : stm) (ctx : cctx)
  | CPackage (p : package)
  | CCMake (p : package)
  | CMakefile (tests : gset gostr) (conv : bool)
  | CBroken.                                                        (* output of a failing template *)
Record fs := Fs { fs_dirs : gset fpath; fs_files : gmap fpath content }.
Definition is_dir (f : fs) (p : fpath) : Prop := p = [] \/ p ∈ fs_dirs f.
Global Instance is_dir_dec f p : Decision (is_dir f p).
Proof. unfold is_dir. apply _. Defined.
Definition prefixes (p : fpath) : list fpath := map (fun i => take i p) (seq 1 (length p)).

Inductive gerr := EMkdir (p : gostr) | EOpen (p : gostr) | ECreate (p : gostr) | ECopy (p : gostr) | ETemplate (p : gostr).
(** os.MkdirAll: fails if the path or a parent is a file (parents above that one may have been
    created by then; not modelled, as they exist if there is a file in them). *)
Definition mkdir_all (f : fs) (p : fpath) : option fs :=
  if decide (Exists (fun q => is_Some (fs_files f !! q)) (prefixes p)) then None
  else Some (Fs (list_to_set (prefixes p) ∪ fs_dirs f) (fs_files f)).
(** os.Create. *)
Definition creatable (f : fs) (p : fpath) : bool :=
  bool_decide (is_dir f (removelast p)) && negb (bool_decide (is_dir f p)).
Definition put (f : fs) (p : fpath) (c : content) : fs := Fs (fs_dirs f) (<[p := c]> (fs_files f)).

(** File system operations of the generator; the content of [OpWrite] is [None] if the
    template fails. *)
Inductive op :=
  | OpMkdir (p : gostr)
  | OpPrelude (name p : gostr)
  | OpCopy (src dst : gostr)
  | OpWrite (p : gostr) (c : option content).
(** One operation: the resulting file system and the error, if any.
    OpMkdir: gen.go:152.  OpPrelude: copyPreludeFile (cpp/copy.go:40-47).  OpCopy:
    copyLocalFile, writeFile (copy.go:49-74): the source is opened, then the destination is
    created or truncated, then the source is read.  OpWrite: CreateFile
    (templating/templating.go:12-21), generatePackageXML (catkin/catkin.go:98-107). *)
Definition exec (cwd : fpath) (o : op) (f : fs) : fs * option gerr :=
  match o with
  | OpMkdir p => match mkdir_all f (resolve cwd p) with
                 | Some f' => (f', None)
                 | None => (f, Some (EMkdir p))
                 end
  | OpPrelude name p => if creatable f (resolve cwd p) then (put f (resolve cwd p) (CPrelude name), None)
                        else (f, Some (ECreate p))
  | OpCopy src dst =>
    let s := resolve cwd src in let d := resolve cwd dst in
    if negb (bool_decide (is_Some (fs_files f !! s)) || bool_decide (is_dir f s)) then (f, Some (EOpen src))
    else if creatable f d then
      let f1 := put f d (Bytes []) in
      match fs_files f1 !! s with
      | Some c => (put f1 d c, None)
      | None => (f1, Some (ECopy dst))
      end
    else (f, Some (ECreate dst))
  | OpWrite p c =>
    if creatable f (resolve cwd p) then
      match c with
      | Some c => (put f (resolve cwd p) c, None)
      | None => (put f (resolve cwd p) CBroken, Some (ETemplate p))
      end
    else (f, Some (ECreate p))
  end.
Fixpoint exec_all (cwd : fpath) (ops : list op) (f : fs) : fs * option gerr :=
  match ops with
  | [] => (f, None)
  | o :: rest => match exec cwd o f with
                 | (f', None) => exec_all cwd rest f'
                 | (f', Some e) => (f', Some e)
                 end
  end.

(** ** The sub-generators *)

Definition src_dir : gostr := lit "src".
(** copy.go:19-23. *)
Definition prelude_dir : gostr := lit "rtcg".
Definition convert_dir : gostr := lit "convert".

(** Whether the templates of main.cpp run through on a machine: it has a state
    (stm.cpp.tmpl:33), each state with inputs has a first one (in_callback.cpp.tmpl:13) and,
    for animate, all output channels have types (animate/main_body.cpp.tmpl:46). *)
Definition renders (v : variant) (m : stm) (ctx : cctx) : bool :=
  let tc := make_transitions m in
  negb (bool_decide (m_states m = [])) &&
  bool_decide (is_Some (gen_accept (range_map (tc_in_merged tc)))) &&
  match v with
  | VAnimate => forallb (fun a => bool_decide (is_Some (cx_types ctx !! ch_name (ag_chan a)))) (tc_out tc)
  | _ => true
  end.

Inductive subgen :=
  | SCpp (c : cpp_config) (src : dirset)               (* cpp.Generator; src is srcDirSet *)
  | SCatkin (p : package) (src : dirset)               (* catkin.Generator *)
  | SMakefile (c : cpp_config) (out : gostr).          (* makefile.Generator *)
(** [initCppVariant] with [initCppMain] (cpp.New, cpp.go:22-36), [initCppCatkin] (catkin.New,
    catkin.go:26-42) and [initCppMakefile] (makefile.New) (gen.go:47-101). *)
Definition init_variant (c : cpp_config) (d : dirset) : list subgen :=
  [SCpp c (subdir d src_dir)]
  ++ match cc_catkin c with
     | None => []
     | Some p => [SCatkin (autofill (default empty_package p)) (subdir d src_dir)]
     end
  ++ (if cc_makefile c then [SMakefile c (ds_out d)] else []).
(** [New], [initCpp] (gen.go:28-43, 104-116).  A variant number without a name cannot come out of
    a configuration file, and parsing its (missing) templates panics; not modelled. *)
Definition gen_new (c : config) (out : gostr) : list subgen :=
  let dirs := DirSet (cf_dir c) out in
  concat (map (fun cc => init_variant cc (subdir dirs (variant_string (cc_variant cc)))) (cf_cpps c)).

(** [Dirs], [testDirs] (cpp.go:60-83; catkin.go:65-68; makefile.go:45-48), ranging over the tests in
    the given order. *)
Definition sub_dirs (s : stm_suite) (order : list (gostr * stm)) (g : subgen) : list gostr :=
  match g with
  | SCpp c d =>
    [output_path d prelude_dir]
    ++ (if cx_conv (process c (su_types s)) then [output_path d convert_dir] else [])
    ++ concat (map (fun t => let dd := subdir d t.1 in [output_path dd (lit "include"); output_path dd src_dir]) order)
  | _ => []
  end.
(** [Generate] of the three generators (cpp.go:85-138, template.go:27-35, templating/set.go:15-34;
    catkin.go:70-96; makefile.go:51-63). *)
Definition sub_ops (s : stm_suite) (order : list (gostr * stm)) (g : subgen) : list op :=
  match g with
  | SCpp c d =>
    let ctx := process c (su_types s) in
    map (fun n => OpPrelude n (output_path d (path_join [prelude_dir; n]))) [lit "rtcg.cpp"; lit "rtcg.h"]
    ++ (if cx_conv ctx
        then let dd := subdir d convert_dir in
             [OpCopy (path_join [ds_in dd; lit "convert.cpp"]) (path_join [ds_out dd; lit "convert.cpp"])]
        else [])
    ++ [OpWrite (path_join [ds_out d; lit "convert"; lit "convert.h"]) (Some (CConvertH (cc_variant c) ctx))]
    ++ map (fun t => OpWrite (path_join [ds_out (subdir d t.1); src_dir; lit "main.cpp"])
                       (if renders (cc_variant c) t.2 ctx then Some (CMain (cc_variant c) t.1 t.2 ctx) else None)) order
  | SCatkin p d =>
    concat (map (fun t => let pkg := expand_package t.1 p in
                          [OpWrite (path_join [ds_out (subdir d t.1); lit "package.xml"]) (Some (CPackage pkg));
                           OpWrite (path_join [ds_out (subdir d t.1); lit ""; lit "CMakeLists.txt"]) (Some (CCMake pkg))]) order)
  | SMakefile c out =>
    [OpWrite (path_join [out; lit "Makefile"]) (Some (CMakefile (dom (su_tests s)) (cx_conv (process c (su_types s)))))]
  end.
(** [OnSuite], [Generate], [mkdirs], [runSubgens] (gen.go:118-171).  [ord] gives the order in which
    the n-th range over the tests sees them. *)
Fixpoint mapi_from {A B} (f : nat -> A -> B) (i : nat) (l : list A) : list B :=
  match l with [] => [] | x :: r => f i x :: mapi_from f (S i) r end.
Definition gen_ops (s : stm_suite) (ord : nat -> list (gostr * stm)) (gs : list subgen) : list op :=
  concat (mapi_from (fun i g => map OpMkdir (sub_dirs s (ord i) g)) 0 gs)
  ++ concat (mapi_from (fun i g => sub_ops s (ord (length gs + i)) g) 0 gs).
Definition generate (cwd : fpath) (c : config) (out : gostr) (s : stm_suite)
  (ord : nat -> list (gostr * stm)) (f : fs) : fs * option gerr :=
  exec_all cwd (gen_ops s ord (gen_new c out)) f.

(** ** Command lines *)

(** [ParseFileArgument] (cli/cli.go:18-29); indexing is partial. *)
Definition stdin_path : gostr := lit "-".
Inductive arg_result := ArgOk (s : gostr) | ErrBadArgs | ArgPanic.
Definition parse_file_argument (args : list gostr) (max : nat) : arg_result :=
  if decide (length args = max) then
    match max with
    | O => ArgPanic                                  (* args[-1] *)
    | S i => match args !! i with Some a => ArgOk a | None => ArgPanic end
    end
  else if decide (Z.of_nat (length args) = Z.of_nat max - 1)%Z then ArgOk stdin_path
  else ErrBadArgs.
(** cmd/rtcg-gen/main.go:36-58: on the arguments left over by flag. *)
Inductive gen_args := GenArgs (config_file input_file : gostr) | GenBadArgs | GenPanic.
Definition parse_gen_args (argv : list gostr) : gen_args :=
  match parse_file_argument argv 2 with
  | ArgOk input => match argv !! 0 with Some c => GenArgs c input | None => GenPanic end
  | ErrBadArgs => GenBadArgs
  | ArgPanic => GenPanic
  end.
(** cmd/rtcg-make-stms/main.go:30-42, cmd/rtcg-read-traces/main.go:51-58: on os.Args, whose first
    element is the program. *)
Definition parse_tool_args (os_args : list gostr) : arg_result := parse_file_argument os_args 2.

(** filepath.Dir (config/config.go:40): what precedes the last slash, cleaned. *)
Fixpoint upto_slash (s : gostr) : gostr :=
  match s with
  | [] => []
  | c :: r => if existsb (Ascii.eqb "/") r || Ascii.eqb c "/" then c :: upto_slash r else []
  end.
Definition path_dir (p : gostr) : gostr := clean (upto_slash p).

(** os.RemoveAll: everything at or below the path goes.  If the path ends in .. or is the root,
    the last step (removing the directory itself) fails. *)
Definition below (d p : fpath) : Prop := d `prefix_of` p.
Global Instance below_dec d p : Decision (below d p).
Proof. unfold below. apply _. Defined.
Definition remove_below (d : fpath) (f : fs) : fs :=
  Fs (filter (fun p => ~ below d p) (fs_dirs f)) (filter (fun kv => ~ below d kv.1) (fs_files f)).
Definition undeletable (p : gostr) : bool :=
  bool_decide (clean p = lit "/") || bool_decide (last (clean_comps p) = Some (lit "..")).

(** rtcg-gen after argument parsing (cmd/rtcg-gen/main.go:60-132).  [xml] and [json] are the
    configuration and suite decoders.  [readSuite] comes first, then [maybeClean], then the
    configuration is loaded (config.go:21-44). *)
Inductive run_err := ReadSuiteErr | ErrCleanDot | CleanErr | ConfigErr | GenErr (e : gerr).
Definition file_bytes (f : fs) (p : fpath) : option gostr :=
  match fs_files f !! p with Some (Bytes b) => Some b | _ => None end.
(** [OpenFileOrStdin] (cli.go:32-43) and reading what it gives. *)
Definition read_input (cwd : fpath) (stdin : gostr) (f : fs) (p : gostr) : option gostr :=
  if decide (p = stdin_path) then Some stdin else file_bytes f (resolve cwd p).
Definition load_config (xml : gostr -> option config) (cwd : fpath) (f : fs) (p : gostr) : option config :=
  match file_bytes f (resolve cwd p) ≫= xml with
  | Some c => Some (Config (cf_cpps c) (if decide (cf_dir c = []) then path_dir p else cf_dir c))
  | None => None
  end.
Record gen_action := GenAction { ga_clean : bool; ga_output : gostr; ga_config : gostr; ga_input : gostr }.
Definition run_gen (xml : gostr -> option config) (json : gostr -> option stm_suite)
  (ord : stm_suite -> nat -> list (gostr * stm)) (cwd : fpath) (stdin : gostr) (a : gen_action) (f : fs)
  : fs * option run_err :=
  let out := clean (ga_output a) in
  let cfg := clean (ga_config a) in
  let input := clean (ga_input a) in
  match read_input cwd stdin f input ≫= json with
  | None => (f, Some ReadSuiteErr)
  | Some s =>
    let gen f := match load_config xml cwd f cfg with
                 | None => (f, Some ConfigErr)
                 | Some c => match generate cwd c out s (ord s) f with
                             | (f', None) => (f', None)
                             | (f', Some e) => (f', Some (GenErr e))
                             end
                 end in
    if ga_clean a then
      if decide (out = lit ".") then (f, Some ErrCleanDot)
      else let f' := remove_below (resolve cwd out) f in
           if undeletable out then (f', Some CleanErr) else gen f'
    else gen f
  end.
