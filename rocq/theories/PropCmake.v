(** * CMakeLists.txt: property C72 *)
From Verif Require Export PropBuild.
From Verif Require Import PathProofs PropGen.
From Verif Require Export StmProofs.

Lemma join_app_mid (A B : list gostr) (ds : list gostr) : A <> [] -> B <> [] ->
  join newline (A ++ map (fun d => lit "    " ++ d) ds ++ B) =
  join newline A ++ concat (map (fun d => newline ++ lit "    " ++ d) ds) ++ newline ++ join newline B.
Proof.
  assert (Hj : forall (x : gostr) l, l <> [] -> join newline (x :: l) = x ++ newline ++ join newline l) by (by intros x [|]).
  intros HA HB. induction A as [|a A IH]; [done|]. destruct A as [|a' A].
  - clear IH HA. cbn [app]. revert a. induction ds as [|d ds IH]; intros a.
    + cbn [map app concat]. by rewrite Hj.
    + cbn [map app concat]. rewrite Hj by done. rewrite IH. rewrite <- !app_assoc. done.
  - change ((a :: a' :: A) ++ map (fun d => lit "    " ++ d) ds ++ B) with (a :: ((a' :: A) ++ map (fun d => lit "    " ++ d) ds ++ B)).
    rewrite Hj by done. rewrite IH by done. rewrite (Hj a (a' :: A)) by done. rewrite <- !app_assoc. done.
Qed.

Lemma words_split (a b : gostr) : words_of (a ++ " "%char :: b) = words_of a ++ words_of b.
Proof. unfold words_of. by rewrite split_all_app, filter_app. Qed.
Lemma read_step fuel name body rest args cs : name <> [] -> forallb word_char name = true -> ")"%char ∉ (body : list ascii) ->
  mapM read_arg (arg_words body) = Some args -> read_commands fuel rest = Some cs ->
  read_commands (S fuel) (name ++ "("%char :: body ++ ")"%char :: rest) = Some (Command name args :: cs).
Proof.
  intros Hne Hn Hb Ha Hr. cbn [read_commands].
  assert (Hs : skip_blanks (name ++ "("%char :: body ++ ")"%char :: rest) = name ++ "("%char :: body ++ ")"%char :: rest).
  { destruct name as [|c name]; [done|]. cbn [app skip_blanks]. cbn [forallb] in Hn. apply andb_prop in Hn as [Hc _].
    destruct (is_blank c) eqn:Eb; [|done]. unfold is_blank in Eb. apply bool_decide_eq_true in Eb. rewrite !elem_of_cons, elem_of_nil in Eb. by destruct Eb as [->|[->|[]]]. }
  assert (Hp : "("%char ∉ (name : list ascii)).
  { intros Hin. rewrite forallb_forall in Hn. apply elem_of_list_In in Hin. by apply Hn in Hin. }
  rewrite Hs. destruct name as [|c name]; [done|]. cbn [app]. change (c :: name ++ "("%char :: body ++ ")"%char :: rest) with ((c :: name) ++ "("%char :: body ++ ")"%char :: rest).
  rewrite (cut_app "(") by done. rewrite Hn. cbn [negb]. rewrite (cut_app ")") by done. by rewrite Ha, Hr.
Qed.
Lemma read_skip fuel c s : is_blank c = true -> read_commands (S fuel) (c :: s) = read_commands (S fuel) s.
Proof. intros H. cbn [read_commands skip_blanks]. by rewrite H. Qed.

Definition depend_lines (p : package) : gostr := concat (map (fun d => newline ++ lit "    " ++ d) (pk_depends p)).
Lemma depend_words p : Forall plain_word (pk_depends p) -> forall s,
  arg_words (s ++ depend_lines p ++ newline) = arg_words s ++ pk_depends p.
Proof.
  unfold depend_lines, arg_words. intros H s. rewrite map_app. 
  assert (Hd : map (fun c => if is_blank c then " "%char else c) (concat (map (fun d => newline ++ lit "    " ++ d) (pk_depends p)) ++ newline) =
    " "%char :: concat (map (fun d => lit "    " ++ d ++ lit " ") (pk_depends p))).
  { induction H as [|d ds Hd _ IH]; [reflexivity|]. cbn [map concat]. rewrite <- app_assoc, map_app, IH.
    assert (Ed : map (fun c => if is_blank c then " "%char else c) d = d).
    { destruct Hd as [_ Hd]. clear IH. induction Hd as [|c d Hc _ IH]; [done|]. cbn [map]. rewrite IH. destruct (is_blank c) eqn:Eb; [|done].
      unfold is_blank in Eb. apply bool_decide_eq_true in Eb. rewrite !elem_of_cons, elem_of_nil in Eb. by destruct Eb as [->|[->|[]]]. }
    change (newline ++ lit "    " ++ d) with (lit (String (byte 10) "    ") ++ d). rewrite map_app, Ed. 
    change (map (fun c => if is_blank c then " "%char else c) (lit (String (byte 10) "    "))) with (lit "     ").
    rewrite <- !app_assoc. reflexivity. }
  rewrite Hd. rewrite words_split. f_equal. clear Hd. induction H as [|d ds Hd _ IH]; [done|]. cbn [map concat].
  change ((lit "    " ++ d ++ lit " ") ++ concat (map (fun d => lit "    " ++ d ++ lit " ") ds)) with
    (" "%char :: " "%char :: " "%char :: " "%char :: (d ++ lit " ") ++ concat (map (fun d => lit "    " ++ d ++ lit " ") ds)).
  rewrite !words_skip. rewrite <- app_assoc. change (lit " " ++ concat (map (fun d => lit "    " ++ d ++ lit " ") ds)) with (" "%char :: concat (map (fun d => lit "    " ++ d ++ lit " ") ds)).
  rewrite words_cons by (by apply solid_plain). by rewrite IH.
Qed.
Lemma read_commands_more n : forall s r m, read_commands n s = Some r -> n <= m -> read_commands m s = Some r.
Proof.
  induction n as [|n IH]; intros s r m H Hm; [done|]. destruct m as [|m]; [lia|]. cbn [read_commands] in *.
  destruct (skip_blanks s) as [|c s']; [done|]. destruct (cut "(" (c :: s')) as [[nm r']|]; [|done].
  destruct (negb (forallb word_char nm)); [done|]. destruct (cut ")" r') as [[body rest]|]; [|done].
  destruct (mapM read_arg (arg_words body)) as [args|]; [|done].
  destruct (read_commands n rest) as [cs|] eqn:E; [|done]. rewrite (IH _ _ m E) by lia. done.
Qed.
Definition cmake_end : gostr := tail (join newline
  [lit ")"; lit ""; lit "include_directories("; lit "    include"; lit "    ${catkin_INCLUDE_DIRS}"; lit "    ../convert/"; lit "    ../rtcg/"; lit ")"; lit "";
   lit "add_library(convert"; lit "    ../convert/convert.cpp"; lit ")"; lit ""; lit "add_library(rtcg"; lit "    ../rtcg/rtcg.cpp"; lit ")"; lit "";
   lit "add_executable(${PROJECT_NAME}_node"; lit "    src/main.cpp"; lit "    ../convert/convert.cpp"; lit "    ../rtcg/rtcg.cpp"; lit ")"; lit "";
   lit "set_target_properties(${PROJECT_NAME}_node PROPERTIES OUTPUT_NAME node PREFIX """")"; lit "";
   lit "add_dependencies(${PROJECT_NAME}_node"; lit "    ${${PROJECT_NAME}_EXPORTED_TARGETS}"; lit "    ${catkin_EXPORTED_TARGETS}"; lit "    convert"; lit "    rtcg"; lit ")"; lit "";
   lit "target_link_libraries(${PROJECT_NAME}_node"; lit "    ${catkin_LIBRARIES}"; lit "    convert"; lit "    rtcg"; lit ")"]).
Definition cmake_end_commands : list command :=
  [Command (lit "include_directories") [lit "include"; lit "${catkin_INCLUDE_DIRS}"; lit "../convert/"; lit "../rtcg/"];
   Command (lit "add_library") [lit "convert"; lit "../convert/convert.cpp"];
   Command (lit "add_library") [lit "rtcg"; lit "../rtcg/rtcg.cpp"];
   Command (lit "add_executable") [lit "${PROJECT_NAME}_node"; lit "src/main.cpp"; lit "../convert/convert.cpp"; lit "../rtcg/rtcg.cpp"];
   Command (lit "set_target_properties") [lit "${PROJECT_NAME}_node"; lit "PROPERTIES"; lit "OUTPUT_NAME"; lit "node"; lit "PREFIX"; lit ""];
   Command (lit "add_dependencies") [lit "${PROJECT_NAME}_node"; lit "${${PROJECT_NAME}_EXPORTED_TARGETS}"; lit "${catkin_EXPORTED_TARGETS}"; lit "convert"; lit "rtcg"];
   Command (lit "target_link_libraries") [lit "${PROJECT_NAME}_node"; lit "${catkin_LIBRARIES}"; lit "convert"; lit "rtcg"]].
Lemma read_cmake_end : read_commands 8 cmake_end = Some cmake_end_commands.
Proof. vm_compute. reflexivity. Qed.
Definition cmake_commands (p : package) : list command :=
  [Command (lit "cmake_minimum_required") [lit "VERSION"; lit "3.0.2"];
   Command (lit "project") [pk_name p];
   Command (lit "add_compile_options") [lit "-std=c++11"];
   Command (lit "find_package") ([lit "catkin"; lit "REQUIRED"; lit "COMPONENTS"; lit "roscpp"; lit "std_msgs"] ++ pk_depends p);
   Command (lit "catkin_package") ([lit "CATKIN_DEPENDS"; lit "roscpp"; lit "std_msgs"] ++ pk_depends p)]
  ++ cmake_end_commands.
Definition in_lines (a b c : string) : gostr := join newline [lit a; lit b; lit c].
Definition wrap (name body rest : gostr) : gostr := name ++ "("%char :: body ++ ")"%char :: rest.
Lemma cmake_text_parts p : cmake_text p =
  wrap (lit "cmake_minimum_required") (lit "VERSION 3.0.2") (newline ++
  wrap (lit "project") (pk_name p) (newline ++ newline ++
  wrap (lit "add_compile_options") (lit "-std=c++11") (newline ++ newline ++
  wrap (lit "find_package") (in_lines "catkin REQUIRED COMPONENTS" "    roscpp" "    std_msgs" ++ depend_lines p ++ newline) (newline ++ newline ++
  wrap (lit "catkin_package") (in_lines "CATKIN_DEPENDS" "    roscpp" "    std_msgs" ++ depend_lines p ++ newline) cmake_end)))).
Proof.
  unfold cmake_text, cmake_lines, cm_depends. rewrite join_app_mid by done. rewrite join_app_mid by done. fold (depend_lines p). unfold wrap.
  cbn [join]. rewrite <- !app_assoc. reflexivity.
Qed.
Lemma plain_arg w : plain_word w -> read_arg w = Some w.
Proof.
  intros [Hne H]. unfold read_arg. rewrite decide_False.
  - assert (E : forallb arg_char w = true); [|by rewrite E]. apply forallb_forall. intros c Hc%elem_of_list_In. rewrite Forall_forall in H. unfold arg_char. by rewrite (H c Hc).
  - intros ->. inversion H as [|? ? Hc _]; subst. done.
Qed.
Lemma plain_args ws : Forall plain_word ws -> mapM read_arg ws = Some ws.
Proof. intros H. apply mapM_Some. induction H; constructor; [by apply plain_arg|done]. Qed.
Lemma mapM_app_some {A B} (f : A -> option B) l k l' k' : mapM f l = Some l' -> mapM f k = Some k' -> mapM f (l ++ k) = Some (l' ++ k').
Proof. rewrite !mapM_Some. apply Forall2_app. Qed.
Lemma depend_no_paren p : Forall plain_word (pk_depends p) -> ")"%char ∉ (depend_lines p : list ascii).
Proof.
  unfold depend_lines. intros H. induction H as [|d ds Hd _ IH]; [apply not_elem_of_nil|]. cbn [map concat]. apply not_in_app; [|done].
  apply not_in_app; [by apply lit_not_in|]. nin.
Qed.
Lemma plain_arg_words w : plain_word w -> arg_words w = [w].
Proof.
  intros H. unfold arg_words. replace (map (fun c => if is_blank c then " "%char else c) w) with w; [by apply words_one, solid_plain|].
  destruct H as [_ H]. induction H as [|c w Hc _ IH]; [done|]. cbn [map]. rewrite <- IH. destruct (is_blank c) eqn:Eb; [|done].
  unfold is_blank in Eb. apply bool_decide_eq_true in Eb. rewrite !elem_of_cons, elem_of_nil in Eb. by destruct Eb as [->|[->|[]]].
Qed.
Lemma read_cmake_text p : plain_word (pk_name p) -> Forall plain_word (pk_depends p) -> read_cmake (cmake_text p) = Some (cmake_commands p).
Proof.
  intros Hn Hd. assert (Hr : read_commands 13 (cmake_text p) = Some (cmake_commands p)).
  { rewrite cmake_text_parts. unfold cmake_commands. cbn [app].
    assert (Hnl : forall fuel s, read_commands (S fuel) (newline ++ s) = read_commands (S fuel) s) by (intros; by apply read_skip).
    apply read_step; [done|reflexivity|by apply lit_not_in|reflexivity|]. rewrite Hnl.
    apply read_step; [done|reflexivity|by apply plain_not_in|rewrite plain_arg_words by done; by apply (plain_args [pk_name p]), Forall_singleton|]. rewrite !Hnl.
    apply read_step; [done|reflexivity|by apply lit_not_in|reflexivity|]. rewrite !Hnl.
    apply read_step; [done|reflexivity| | |]; [| |rewrite !Hnl; apply read_step; [done|reflexivity| | |exact read_cmake_end]].
    1, 3: apply not_in_app; [by apply lit_not_in|apply not_in_app; [by apply depend_no_paren|by apply lit_not_in]].
    1: rewrite depend_words by done; apply (mapM_app_some read_arg _ _ [lit "catkin"; lit "REQUIRED"; lit "COMPONENTS"; lit "roscpp"; lit "std_msgs"]); [reflexivity|by apply plain_args].
    rewrite depend_words by done; apply (mapM_app_some read_arg _ _ [lit "CATKIN_DEPENDS"; lit "roscpp"; lit "std_msgs"]); [reflexivity|by apply plain_args]. }
  unfold read_cmake. eapply read_commands_more; [exact Hr|]. rewrite cmake_text_parts. unfold wrap. rewrite !app_length. cbn. lia.
Qed.
Print Assumptions read_cmake_text.

(** ** C72: CMakeLists.txt *)
(** CMake reads the package's name, and roscpp, std_msgs and the configured dependencies (in this order,
    each as often as configured) as components to look for and to pass on; it makes three targets. *)
Theorem C72_commands : forall p, plain_word (pk_name p) -> Forall plain_word (pk_depends p) ->
  exists cs, read_cmake (cmake_text p) = Some cs /\
    args_of (lit "project") cs = [[pk_name p]] /\
    args_of (lit "find_package") cs = [[lit "catkin"; lit "REQUIRED"; lit "COMPONENTS"] ++ [lit "roscpp"; lit "std_msgs"] ++ pk_depends p] /\
    args_of (lit "catkin_package") cs = [[lit "CATKIN_DEPENDS"] ++ [lit "roscpp"; lit "std_msgs"] ++ pk_depends p] /\
    args_of (lit "include_directories") cs = [[lit "include"; lit "${catkin_INCLUDE_DIRS}"; lit "../convert/"; lit "../rtcg/"]] /\
    args_of (lit "add_library") cs = [[lit "convert"; lit "../convert/convert.cpp"]; [lit "rtcg"; lit "../rtcg/rtcg.cpp"]] /\
    args_of (lit "add_executable") cs = [[lit "${PROJECT_NAME}_node"; lit "src/main.cpp"; lit "../convert/convert.cpp"; lit "../rtcg/rtcg.cpp"]] /\
    args_of (lit "target_link_libraries") cs = [[lit "${PROJECT_NAME}_node"; lit "${catkin_LIBRARIES}"; lit "convert"; lit "rtcg"]] /\
    declared_targets (pk_name p) cs = [lit "convert"; lit "rtcg"; pk_name p ++ lit "_node"].
Proof. intros p Hn Hd. exists (cmake_commands p). split; [by apply read_cmake_text|]. split_and!; reflexivity. Qed.
Print Assumptions C72_commands.

(** Names of packages: two tests get different package names exactly if the configured name is missing
    or has a placeholder. *)
Lemma join_length (sep : gostr) l : l <> [] -> length (join sep l) + length sep = sum_list (map length l) + length l * length sep.
Proof.
  induction l as [|a l IH]; [done|]. intros _. destruct l as [|b l]; [cbn; lia|]. rewrite join_cons_ne by done. rewrite !app_length. 
  specialize (IH ltac:(done)). change (map length (a :: b :: l)) with (length a :: map length (b :: l)). change (sum_list (length a :: map length (b :: l))) with (length a + sum_list (map length (b :: l))).
  change (length (a :: b :: l)) with (S (length (b :: l))). unfold gostr in *. lia.
Qed.
Lemma join_inj (a b : gostr) l : 2 <= length l -> join a l = join b l -> a = b.
Proof.
  intros Hl E. assert (Hlen : length a = length b).
  { assert (Hne : l <> []) by (by destruct l; cbn in Hl; [lia|]). pose proof (join_length a l Hne) as Ha. pose proof (join_length b l Hne) as Hb.
    apply (f_equal length) in E. assert (length l * length a + length b = length l * length b + length a) by lia. nia. }
  destruct l as [|x [|y l]]; cbn in Hl; [lia|lia|]. rewrite !join_cons_ne in E by done. apply app_inv_head in E. by apply app_inj_1 in E as [? _].
Qed.
Lemma expanded_name a b p : a <> b ->
  (pk_name (expand_package a p) <> pk_name (expand_package b p) <-> occurs placeholder (pk_name p)).
Proof.
  intros Hab. destruct (cut_total (pk_name p)) as [l Hl]. unfold expand_package. cbn [pk_name]. rewrite !(expand_one_cut _ _ l Hl).
  destruct Hl as (Hl & E & Hp). split.
  - intros Hd. destruct l as [|x [|y l]]; [done|done|]. rewrite E, join_cons_ne by done. by exists x, (join placeholder (y :: l)).
  - intros (u & v & Ho) Ej. destruct (decide (2 <= length l)) as [H2|H2]; [by apply Hab, (join_inj a b l)|].
    destruct l as [|x [|y l]]; [done| |cbn in H2; lia]. inversion Hp as [|?? Hx _]; subst. apply Hx. cbn [join] in E. rewrite <- E, Ho. by exists u, v.
Qed.
Theorem C72_names : forall p a b, a <> b ->
  (pk_name (expand_package a (autofill p)) <> pk_name (expand_package b (autofill p)) <->
   pk_name p = [] \/ occurs (lit "${NAME}") (pk_name p)).
Proof.
  intros p a b Hab. destruct (C53_autofill p) as (_ & H & _). destruct (H pk_name (lit "${NAME}") ltac:(by left)) as [H1 H2].
  rewrite (expanded_name a b (autofill p) Hab). destruct (decide (pk_name p = [])) as [E|E].
  - rewrite (H2 E). split; [by left|]. intros _. by exists [], [].
  - rewrite (H1 E). split; [by right|by intros [?|?]].
Qed.
Print Assumptions C72_names.

Lemma resolve_up (b : fpath) (n x y : gostr) : plain_name x -> plain_name y -> resolve (b ++ [n]) (lit "../" ++ x ++ lit "/" ++ y) = b ++ [x; y].
Proof.
  intros Hx Hy. change (lit "../" ++ x ++ lit "/" ++ y) with (join (lit "/") [lit ".."; x; y]). unfold resolve.
  change (is_rooted (join (lit "/") [lit ".."; x; y])) with false. cbn match.
  rewrite (split_join "/") by (done || (repeat constructor; [by apply lit_not_in|by destruct Hx as (_ & _ & _ & ?)|by destruct Hy as (_ & _ & _ & ?)])).
  assert (Hw : forall b c, plain_name c -> walk_comp b c = b ++ [c]).
  { intros b' c (H1 & H2 & H3 & _). unfold walk_comp. by rewrite !decide_False. }
  cbn [fold_left]. rewrite walk_dots, removelast_last. rewrite !Hw by done. by rewrite <- app_assoc.
Qed.
(** After a successful run, every test's directory holds such a file; the sources of its program are
    there, except that convert.cpp is there only if some channel has an override.  The headers are there. *)
Theorem C72_generated : forall cwd c out s ord f f' cc p name,
  sane c s -> separate cwd c out -> orders s ord -> generate cwd c out s ord f = (f', None) ->
  cc ∈ cf_cpps c -> cc_catkin cc = Some p -> name ∈ dom (su_tests s) ->
  let pkg := expand_package name (autofill (default empty_package p)) in
  let dir := resolve cwd out ++ [variant_string (cc_variant cc); lit "src"; name] in
  let exists_file p := has_file f' (resolve dir p) in
  plain_word (pk_name pkg) -> Forall plain_word (pk_depends pkg) ->
  exists x text cs, fs_files f' !! (dir ++ [lit "CMakeLists.txt"]) = Some x /\ content_text x = Some text /\ read_cmake text = Some cs /\
    args_of (lit "project") cs = [[pk_name pkg]] /\ pk_depends pkg = pk_depends (default empty_package p) /\
    exists_file (lit "src/main.cpp") /\ exists_file (lit "../rtcg/rtcg.cpp") /\
    exists_file (lit "../rtcg/rtcg.h") /\ exists_file (lit "../convert/convert.h") /\
    (overridden cc s -> exists_file (lit "../convert/convert.cpp")) /\
    (unused f (resolve cwd out) -> exists_file (lit "../convert/convert.cpp") -> overridden cc s).
Proof.
  intros cwd c out s ord f f' cc p name Hs Hio Ho E Hcc Hk Hn pkg dir ex Hpn Hpd.
  destruct (C52_package_per_test cwd c out s ord f f' cc p Hs Hio Ho E Hcc Hk name Hn) as [_ Hcm]. fold pkg dir in Hcm.
  pose proof (C49_success_files cwd c out s ord f f' Hs Hio Ho E) as Hfiles.
  destruct (C51_contents cwd c out s ord f f' cc Hs Hio Ho E Hcc) as [Hsh Hte]. cbn zeta in Hsh, Hte.
  assert (Hname : plain_name name) by (by apply Hs).
  set (b := resolve cwd out ++ [variant_string (cc_variant cc); lit "src"]).
  assert (Hdir : dir = b ++ [name]) by (unfold dir, b; by rewrite <- app_assoc).
  assert (Hup : forall x y, plain_name x -> plain_name y -> ex (lit "../" ++ x ++ lit "/" ++ y) = has_file f' (resolve cwd out ++ variant_string (cc_variant cc) :: [lit "src"; x; y])).
  { intros x y Hx Hy. unfold ex. rewrite Hdir, resolve_up by done. unfold b. by rewrite <- app_assoc. }
  assert (Hshf : forall r x, (r, x) ∈ shared_files cc s -> has_file f' (resolve cwd out ++ variant_string (cc_variant cc) :: r)).
  { intros r x Hr. apply Hsh in Hr. rewrite <- app_assoc in Hr. by eexists. }
  exists (CCMake pkg), (cmake_text pkg), (cmake_commands pkg). split; [done|]. split; [done|]. split; [by apply read_cmake_text|]. split; [reflexivity|].
  split; [reflexivity|]. split_and!.
  - apply elem_of_dom in Hn as [m Hm]. unfold ex. change (lit "src/main.cpp") with (join (lit "/") [lit "src"; lit "main.cpp"]).
    rewrite (resolve_src dir (lit "main.cpp") []) by (by apply plain_lit || constructor).
    specialize (Hte name m [lit "src"; name; lit "src"; lit "main.cpp"] _ Hm ltac:(left)). rewrite <- app_assoc in Hte. unfold dir. rewrite <- app_assoc. by eexists.
  - change (lit "../rtcg/rtcg.cpp") with (lit "../" ++ lit "rtcg" ++ lit "/" ++ lit "rtcg.cpp"). rewrite Hup by (by apply plain_lit).
    eapply Hshf. unfold shared_files. cbn zeta. apply elem_of_app. left. left.
  - change (lit "../rtcg/rtcg.h") with (lit "../" ++ lit "rtcg" ++ lit "/" ++ lit "rtcg.h"). rewrite Hup by (by apply plain_lit).
    eapply Hshf. unfold shared_files. cbn zeta. apply elem_of_app. left. right. left.
  - change (lit "../convert/convert.h") with (lit "../" ++ lit "convert" ++ lit "/" ++ lit "convert.h"). rewrite Hup by (by apply plain_lit).
    eapply Hshf. unfold shared_files. cbn zeta. apply elem_of_app. left. right. right. left.
  - intros Hov. change (lit "../convert/convert.cpp") with (lit "../" ++ lit "convert" ++ lit "/" ++ lit "convert.cpp"). rewrite Hup by (by apply plain_lit).
    assert (Hw : is_Some (fs_files f !! conv_source cwd c cc)).
    { destruct Hs as [Hv Hnd Hp]. destruct (generate_result cwd c out s Hv Hp Hnd Hio ord f Ho) as (f1 & e & E1 & He & _). rewrite E in E1. injection E1 as <- <-.
      destruct (proj1 He eq_refl) as [_ Hok]. destruct (Hok (vbase cwd out cc ++ [lit "src"; lit "convert"; lit "convert.cpp"], fs_files f !! conv_source cwd c cc)) as [_ H]; [|done].
      exists cc. split; [done|]. apply elem_under. eexists. split; [done|]. apply rel_cases. cbn zeta. do 2 right. left. split; [done|]. split; [by apply conv_iff|done]. }
    destruct Hw as [x Hx]. exists x. apply Hfiles. left. exists cc. eexists. split; [done|]. split; [done|]. right. right. done.
  - intros Hun. change (lit "../convert/convert.cpp") with (lit "../" ++ lit "convert" ++ lit "/" ++ lit "convert.cpp"). rewrite Hup by (by apply plain_lit).
    intros [x Hx]. apply Hfiles in Hx as [(cc' & r & Hcc' & Hr & Hex)|[_ Hx]].
    + apply app_inv_head in Hr. injection Hr as Hv <-.
      assert (cc = cc') as <-.
      { assert (Hvv : cc_variant cc = cc_variant cc') by (destruct (sane_variants _ _ Hs cc Hcc) as [Ev|Ev], (sane_variants _ _ Hs cc' Hcc') as [Ev'|Ev']; rewrite Ev, Ev' in Hv |- *; done).
        apply elem_of_list_lookup in Hcc as [i Hi]. apply elem_of_list_lookup in Hcc' as [j Hj].
        assert (i = j) as <- by (eapply (NoDup_lookup (cc_variant <$> cf_cpps c)); [exact (sane_distinct _ _ Hs)|rewrite list_lookup_fmap, Hi; reflexivity|rewrite list_lookup_fmap, Hj; cbn; by rewrite Hvv]).
        congruence. }
      destruct Hex as [Hex|[(n' & m' & _ & Hex)|(Hex & _)]]; [exfalso|exfalso|done].
      * unfold shared_files in Hex. cbn zeta in Hex. rewrite elem_of_app, !elem_of_cons, elem_of_nil in Hex. rewrite !pair_equal_spec in Hex.
        destruct Hex as [[[Hq _]|[[Hq _]|[[Hq _]|[]]]]|Hex]; [discriminate Hq..|]. destruct (cc_makefile cc); [|by apply elem_of_nil in Hex]. apply elem_of_list_singleton in Hex. injection Hex as Hq _. discriminate Hq.
      * unfold test_files in Hex. rewrite elem_of_app, elem_of_list_singleton in Hex. destruct Hex as [Hq|Hex]; [injection Hq as _ Hb' _; discriminate Hb'|].
        rewrite Hk in Hex. cbn zeta in Hex. rewrite !elem_of_cons, elem_of_nil in Hex. destruct Hex as [Hq|[Hq|[]]]; injection Hq as _ Hb' _; discriminate Hb'.
    + destruct Hun as [Hun _]. apply Hun in Hx as [Hx _]. exfalso. apply Hx. by eexists.
Qed.
Print Assumptions C72_generated.
(** A workspace of several packages is one CMake project to catkin_make, and targets are global in it: the
    programs are told apart by the names of their packages, but the libraries of any two tests clash. *)
Theorem C72_targets : forall p q, plain_word (pk_name p) -> plain_word (pk_name q) -> Forall plain_word (pk_depends p) -> Forall plain_word (pk_depends q) ->
  exists cs ds, read_cmake (cmake_text p) = Some cs /\ read_cmake (cmake_text q) = Some ds /\
    (forall t, t ∈ declared_targets (pk_name p) cs -> t ∈ declared_targets (pk_name q) ds ->
       t = lit "convert" \/ t = lit "rtcg" \/ pk_name p = pk_name q) /\
    lit "convert" ∈ declared_targets (pk_name p) cs /\ lit "convert" ∈ declared_targets (pk_name q) ds /\
    lit "rtcg" ∈ declared_targets (pk_name p) cs /\ lit "rtcg" ∈ declared_targets (pk_name q) ds.
Proof.
  intros p q Hp Hq Hdp Hdq. exists (cmake_commands p), (cmake_commands q). split; [by apply read_cmake_text|]. split; [by apply read_cmake_text|].
  assert (Ht : forall p, declared_targets (pk_name p) (cmake_commands p) = [lit "convert"; lit "rtcg"; pk_name p ++ lit "_node"]) by reflexivity.
  rewrite !Ht. split; [|split_and!; try (left); right; left]. intros t. rewrite !elem_of_cons, !elem_of_nil.
  intros [->|[->|[->|[]]]]; [by left|by right; left|]. intros [H|[H|[H|[]]]].
  - apply (f_equal last) in H. by rewrite last_app in H.
  - apply (f_equal last) in H. by rewrite last_app in H.
  - apply app_inv_tail in H. by do 2 right.
Qed.
Print Assumptions C72_targets.

(** ** Witnesses *)
Lemma ex_generated : exists f', generate ex_home ex_config (lit "out") ex_suite ex_ord ex_fs = (f', None).
Proof.
  destruct C49_witness as (_ & _ & _ & _ & _ & H). destruct (generate ex_home ex_config (lit "out") ex_suite ex_ord ex_fs) as [f' e] eqn:E. cbn in H. subst e. by exists f'.
Qed.
Lemma ex_names name : name ∈ dom (su_tests ex_suite) -> plain_word name.
Proof.
  intros H. apply elem_of_dom in H as [m H]. unfold ex_suite in H. cbn [su_tests] in H.
  apply lookup_insert_Some in H as [[<- _]|[_ H]]; [|apply lookup_singleton_Some in H as [<- _]]; (split; [done|by repeat constructor]).
Qed.
Example C71_witness : exists f', sane ex_config ex_suite /\ separate ex_home ex_config (lit "out") /\ orders ex_suite ex_ord /\
  generate ex_home ex_config (lit "out") ex_suite ex_ord ex_fs = (f', None) /\ ex_cpp VAnimate ∈ cf_cpps ex_config /\ cc_makefile (ex_cpp VAnimate) = true /\
  (forall name, name ∈ dom (su_tests ex_suite) -> plain_word name) /\ overridden (ex_cpp VAnimate) ex_suite /\ lit "t" ∈ dom (su_tests ex_suite) /\ lit "u" ∈ dom (su_tests ex_suite).
Proof.
  destruct C49_witness as (H1 & H2 & H3 & _). destruct ex_generated as [f' E]. exists f'. split_and!; [exact H1|exact H2|exact H3|exact E|left|reflexivity|exact ex_names| |vm_compute; reflexivity..].
  exists (lit "c"). split; [vm_compute; reflexivity|by left].
Qed.
Example C72_witness : exists f', sane ex_config ex_suite /\ separate ex_home ex_config (lit "out") /\ orders ex_suite ex_ord /\
  generate ex_home ex_config (lit "out") ex_suite ex_ord ex_fs = (f', None) /\ ex_cpp VRos ∈ cf_cpps ex_config /\ cc_catkin (ex_cpp VRos) = Some None /\
  lit "t" ∈ dom (su_tests ex_suite) /\ unused ex_fs (resolve ex_home (lit "out")) /\
  let pkg := expand_package (lit "t") (autofill (default empty_package None)) in plain_word (pk_name pkg) /\ Forall plain_word (pk_depends pkg).
Proof.
  destruct C49_witness as (H1 & H2 & H3 & H4 & _). destruct ex_generated as [f' E]. exists f'. split; [exact H1|]. split; [exact H2|]. split; [exact H3|]. split; [exact E|]. split; [right; left|]. split; [reflexivity|]. split; [vm_compute; reflexivity|]. split; [exact H4|].
  cbn zeta. split; [split; [done|by repeat constructor]|constructor].
Qed.
Example C72_witness_depends : plain_word (lit "a_b") /\ Forall plain_word [lit "geometry_msgs"; lit "tf2"] /\
  match read_cmake (cmake_text (Package 2 (lit "a_b") [] [] [] [] [] [] [lit "geometry_msgs"; lit "tf2"])) with
  | Some cs => args_of (lit "find_package") cs | None => [] end =
  [[lit "catkin"; lit "REQUIRED"; lit "COMPONENTS"; lit "roscpp"; lit "std_msgs"; lit "geometry_msgs"; lit "tf2"]].
Proof. split; [split; [done|by repeat constructor]|]. split; [repeat (constructor; [split; [done|by repeat constructor]|]); constructor|]. vm_compute. reflexivity. Qed.
