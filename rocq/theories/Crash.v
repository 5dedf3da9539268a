(** * rtcg-gen killed while it runs

    The states of the disk a run of rtcg-gen passes through (Gen.v gives the states between its
    operations).  Operations reach the disk in the order the program makes them: losing
    power, which may reorder them, is not modelled. *)
From Verif Require Export Gen.

(** While one operation runs.  os.MkdirAll makes a path from the top (gen.go:152).  os.Create makes
    or empties the file, which is then written piece by piece (cpp/copy.go:40-74,
    templating/templating.go:12-21, catkin/catkin.go:98-107): what is in it meanwhile is left open. *)
Definition writes_to (o : op) : option gostr :=
  match o with OpMkdir _ => None | OpPrelude _ p => Some p | OpCopy _ p => Some p | OpWrite p _ => Some p end.
Inductive during (cwd : fpath) (f : fs) : op -> fs -> Prop :=
  | during_mkdir p k : Forall (fun q => fs_files f !! q = None) (prefixes (resolve cwd p)) ->
      during cwd f (OpMkdir p) (Fs (list_to_set (take k (prefixes (resolve cwd p))) ∪ fs_dirs f) (fs_files f))
  | during_write o p x : writes_to o = Some p -> creatable f (resolve cwd p) = true ->
      during cwd f o (put f (resolve cwd p) x).
(** Killed somewhere along a list of operations, including after it and after one of them failed
    ([mkdirs], [runSubgens], gen.go:130-171; cpp.go:85-138; catkin.go:70-96; makefile.go:51-63). *)
Inductive killed (cwd : fpath) : list op -> fs -> fs -> Prop :=
  | killed_here ops f : killed cwd ops f f
  | killed_during o ops f f' : during cwd f o f' -> killed cwd (o :: ops) f f'
  | killed_failed o ops f f' e : exec cwd o f = (f', Some e) -> killed cwd (o :: ops) f f'
  | killed_later o ops f f1 f' : exec cwd o f = (f1, None) -> killed cwd ops f1 f' -> killed cwd (o :: ops) f f'.
(** os.RemoveAll under way (cmd/rtcg-gen/main.go:84-98): some of what is at or below the directory
    is gone. *)
Definition part_removed (d : fpath) (f f' : fs) : Prop :=
  (forall p, ~ d `prefix_of` p -> fs_files f' !! p = fs_files f !! p /\ (p ∈ fs_dirs f' <-> p ∈ fs_dirs f)) /\
  (forall p, fs_files f' !! p = fs_files f !! p \/ fs_files f' !! p = None) /\
  fs_dirs f' ⊆ fs_dirs f.
(** A run of rtcg-gen (cmd/rtcg-gen/main.go:67-132) killed at any time, or over: before it changes
    anything, while it cleans, or while it generates. *)
Section Interrupted.
Context (xml : gostr -> option config) (json : gostr -> option stm_suite)
        (ord : stm_suite -> nat -> list (gostr * stm)) (cwd : fpath) (stdin : gostr).
Inductive interrupted (a : gen_action) (f : fs) : fs -> Prop :=
  | int_start : interrupted a f f
  | int_cleaning s f' :
      read_input cwd stdin f (clean (ga_input a)) ≫= json = Some s -> ga_clean a = true -> clean (ga_output a) <> lit "." ->
      part_removed (resolve cwd (clean (ga_output a))) f f' -> interrupted a f f'
  | int_generating s c f1 f' :
      read_input cwd stdin f (clean (ga_input a)) ≫= json = Some s ->
      (if ga_clean a then clean (ga_output a) <> lit "." /\ undeletable (clean (ga_output a)) = false /\ f1 = remove_below (resolve cwd (clean (ga_output a))) f
       else f1 = f) ->
      load_config xml cwd f1 (clean (ga_config a)) = Some c ->
      killed cwd (gen_ops s (ord s) (gen_new c (clean (ga_output a)))) f1 f' -> interrupted a f f'.
End Interrupted.
(** The command tried any number of times, each try cut off somewhere; maps may be ranged over in
    another order each time. *)
Inductive attempts xml json cwd stdin (a : gen_action) : fs -> fs -> Prop :=
  | no_attempt f : attempts xml json cwd stdin a f f
  | attempt ord f f1 f2 : (forall (s : stm_suite) i, ord s i ≡ₚ map_to_list (su_tests s)) -> interrupted xml json ord cwd stdin a f f1 ->
      attempts xml json cwd stdin a f1 f2 -> attempts xml json cwd stdin a f f2.
