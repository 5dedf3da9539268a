(** * Specification vocabulary for the generator *)
From Verif Require Export Gen.

(** ** Variants *)
Definition valid_variant (v : variant) : Prop := v = VAnimate \/ v = VRos.

(** ** Packages *)
(** [a] occurs in [s]. *)
Definition occurs (a s : gostr) : Prop := exists u v, s = u ++ a ++ v.
(** [s] cut at the placeholders: the pieces have no placeholder in them. *)
Definition cut_at_placeholders (s : gostr) (pieces : list gostr) : Prop :=
  pieces <> [] /\ s = join placeholder pieces /\ Forall (fun p => ~ occurs placeholder p) pieces.

(** ** Paths *)
(** A name that is one path component. *)
Definition plain_name (s : gostr) : Prop := s <> [] /\ s <> lit "." /\ s <> lit ".." /\ "/"%char ∉ (s : list ascii).
(** A name none of whose path components is .. *)
Definition inside_name (s : gostr) : Prop := lit ".." ∉ split_all "/" s.

(** ** Orders in which Go may range over the tests *)
Definition orders (s : stm_suite) (ord : nat -> list (gostr * stm)) : Prop := forall i, ord i ≡ₚ map_to_list (su_tests s).

(** ** File systems *)
(** Directories contain what is in them, and nothing is both a file and a directory. *)
Record wf_fs (f : fs) : Prop := {
  wf_dirs : forall p q, p `prefix_of` q -> is_dir f q -> is_dir f p;
  wf_files : forall p c, fs_files f !! p = Some c -> is_dir f (removelast p);
  wf_disjoint : forall p c, fs_files f !! p = Some c -> ~ is_dir f p;
}.
(** Nothing exists at or below [d] (except that [d] may be a directory), and no parent of [d] is a file. *)
Definition unused (f : fs) (d : fpath) : Prop :=
  (forall p c, fs_files f !! p = Some c -> ~ d `prefix_of` p /\ ~ p `prefix_of` d) /\
  (forall p, p ∈ fs_dirs f -> d `prefix_of` p -> p = d).
Definition has_file (f : fs) (p : fpath) : Prop := is_Some (fs_files f !! p).
(** Everything that exists in [f] exists in [f']. *)
Definition nothing_deleted (f f' : fs) : Prop :=
  (forall p, has_file f p -> has_file f' p) /\ (forall p, is_dir f p -> is_dir f' p).
(** [f'] differs from [f] only at or below [d], apart from directories leading to [d]. *)
Definition changes_only_below (d : fpath) (f f' : fs) : Prop :=
  (forall p, ~ d `prefix_of` p -> fs_files f' !! p = fs_files f !! p) /\
  (forall p, ~ d `prefix_of` p -> is_dir f' p -> is_dir f p \/ p `prefix_of` d) /\
  (forall p, is_dir f p -> is_dir f' p).

(** ** What generation puts where: path (from the variant's directory) and content. *)
Definition shared_files (c : cpp_config) (s : stm_suite) : list (fpath * content) :=
  let ctx := process c (su_types s) in
  [([lit "src"; lit "rtcg"; lit "rtcg.cpp"], CPrelude (lit "rtcg.cpp"));
   ([lit "src"; lit "rtcg"; lit "rtcg.h"], CPrelude (lit "rtcg.h"));
   ([lit "src"; lit "convert"; lit "convert.h"], CConvertH (cc_variant c) ctx)]
  ++ (if cc_makefile c then [([lit "Makefile"], CMakefile (dom (su_tests s)) (cx_conv ctx))] else []).
Definition test_files (c : cpp_config) (s : stm_suite) (name : gostr) (m : stm) : list (fpath * content) :=
  [([lit "src"; name; lit "src"; lit "main.cpp"], CMain (cc_variant c) name m (process c (su_types s)))]
  ++ match cc_catkin c with
     | None => []
     | Some p => let pkg := expand_package name (autofill (default empty_package p)) in
                 [([lit "src"; name; lit "package.xml"], CPackage pkg);
                  ([lit "src"; name; lit "CMakeLists.txt"], CCMake pkg)]
     end.

(** ** What the generator is normally given: a list of distinct variants, and test names that can
    be directory names. *)
Record sane (c : config) (s : stm_suite) : Prop := {
  sane_variants : forall cc, cc ∈ cf_cpps c -> valid_variant (cc_variant cc);
  sane_distinct : NoDup (map cc_variant (cf_cpps c));
  sane_names : forall name, name ∈ dom (su_tests s) -> plain_name name;
}.
(** The user's files and the generated ones are apart. *)
Definition separate (cwd : fpath) (c : config) (out : gostr) : Prop := resolve cwd (cf_dir c) <> resolve cwd out.
(** Some channel of the suite is given a type by the configuration. *)
Definition overridden (cc : cpp_config) (s : stm_suite) : Prop :=
  exists channel, channel ∈ dom (su_types s) /\ channel ∈ map fst (cc_channels cc).
(** The user's conversion code. *)
Definition conv_source (cwd : fpath) (c : config) (cc : cpp_config) : fpath :=
  resolve cwd (cf_dir c) ++ [variant_string (cc_variant cc); lit "src"; lit "convert"; lit "convert.cpp"].
(** File [p] with content [x] is part of what is to be generated; [f] holds the conversion code. *)
Definition expected (cwd : fpath) (c : config) (out : gostr) (s : stm_suite) (f : fs) (p : fpath) (x : content) : Prop :=
  exists cc r, cc ∈ cf_cpps c /\ p = resolve cwd out ++ variant_string (cc_variant cc) :: r /\
    ((r, x) ∈ shared_files cc s \/
     (exists name m, su_tests s !! name = Some m /\ (r, x) ∈ test_files cc s name m) \/
     (overridden cc s /\ r = [lit "src"; lit "convert"; lit "convert.cpp"] /\ fs_files f !! conv_source cwd c cc = Some x)).
(** Everything needed to generate is there: a directory for convert.h, the conversion code, and
    machines the templates accept. *)
Definition complete (cwd : fpath) (c : config) (s : stm_suite) (f : fs) : Prop :=
  forall cc, cc ∈ cf_cpps c ->
    (overridden cc s \/ lit "convert" ∈ dom (su_tests s)) /\
    (overridden cc s -> has_file f (conv_source cwd c cc)) /\
    (forall name m, su_tests s !! name = Some m -> renders (cc_variant cc) m (process cc (su_types s)) = true).
