(** * C82: all the tools together, from files to exit codes *)
From Verif Require Export SpecChain PropTools PropMain PropTyped PropGenRun PropConfigText.
From Verif Require Export StmProofs.

Lemma ident_plain_name name : plain_ident name -> plain_name name.
Proof.
  intros [[Hi (c & r & -> & Hc)] _]. rewrite Forall_forall in Hi. split; [done|].
  split; [intros E|split; [intros E|intros E]].
  - specialize (Hi "."%char). rewrite E in Hi. specialize (Hi ltac:(left)). discriminate Hi.
  - specialize (Hi "."%char). rewrite E in Hi. specialize (Hi ltac:(left)). discriminate Hi.
  - specialize (Hi _ E). discriminate Hi.
Qed.
Lemma one_test b t name b' tests : build b (expand t name) = Ok b' -> lists_tests (b_stm b') tests -> tests = [name].
Proof.
  intros Hb [Hnd Hl]. assert (H : forall x, x ∈ tests <-> x = name) by (intros x; by rewrite Hl, (trace_tests_in b t name b' Hb)).
  destruct tests as [|x [|y r]].
  - pose proof (proj2 (H name) eq_refl) as Hn. by apply elem_of_nil in Hn.
  - f_equal. apply H. left.
  - assert (x = name) as -> by (apply H; left). assert (y = name) as -> by (apply H; right; left). apply NoDup_cons in Hnd as [Hx _]. destruct Hx. left.
Qed.

Lemma Forall2_elem_r {A B} (P : A -> B -> Prop) l k y : Forall2 P l k -> y ∈ k -> exists x, x ∈ l /\ P x y.
Proof.
  induction 1 as [|x z l k Hx _ IH]; intros H; [by apply elem_of_nil in H|]. apply elem_of_cons in H as [->|H]; [exists x; split; [left|done]|].
  destruct (IH H) as (u & Hu & Hp). exists u. split; [by right|done].
Qed.
Lemma says_variants e c : says_config e c -> forall cc, cc ∈ cf_cpps c -> valid_variant (cc_variant cc).
Proof.
  intros [_ Hf _] k Hk. destruct (Forall2_elem_r _ _ _ _ Hf Hk) as (ek & _ & [Hv _ _ _ _]).
  destruct Hv as (vs & Hvs & ->). unfold last_or. destruct (last vs) as [v|] eqn:El; [|by left].
  apply last_Some_elem_of in El. by destruct (Forall2_elem_r _ _ _ _ Hvs El) as (sv & _ & [Hvv _]).
Qed.
(** The configuration that a run of rtcg-gen goes by is the one in the file. *)
Lemma chain_config first second cwd a f f1 c xml e c0 :
  prepared cwd a f f1 -> reads_config (read_config first second) cwd f1 (ga_config a) c ->
  fs_files f !! resolve cwd (ga_config a) = Some (Bytes xml) -> document first second xml e -> says_config e c0 ->
  cf_cpps c = cf_cpps c0 /\ resolve cwd (cf_dir c) = code_dir cwd (ga_config a) c0.
Proof.
  intros Hp (text & c1 & Hf & Hx & Hc & Hd1 & Hd2) Hxml Hd Hs.
  assert (text = xml) as ->.
  { destruct Hp as [_|f1 _ _ _ [Hc1 Hc2]]; [rewrite Hf in Hxml; by injection Hxml|].
    destruct (decide (resolve cwd (ga_output a) `prefix_of` resolve cwd (ga_config a))) as [P|P]; [destruct (Hc1 _ P) as [E _]; by rewrite E in Hf|].
    destruct (Hc2 _ P) as [E _]. rewrite E, Hxml in Hf. by injection Hf. }
  rewrite (C81_reads _ _ _ _ _ Hd Hs) in Hx. injection Hx as <-. split; [done|]. unfold code_dir. destruct (decide (cf_dir c0 = [])); [by apply Hd2|]. by rewrite Hd1.
Qed.

(** A file of traces and a configuration file, run through rtcg-read-traces, rtcg-make-stms and rtcg-gen
    (which reads the machines from its standard input).  The tools before rtcg-gen succeed.  If rtcg-gen
    does too, each trace has, under its name and in each configured variant, a main.cpp; and whenever that
    was written, the program in it ends with exit code 1 exactly if the trace is observed. *)
Theorem C82_exit_codes : forall first second ord o gord text ts names xml e c a cwd f tests_text stms_text,
  any_order ord -> any_orders o -> (forall s, orders s (gord s)) ->
  read_traces text = Ok ts -> testable ts -> named ts names ->
  (forall i t name, ts !! i = Some t -> names !! i = Some name -> trace_names t name) ->
  wf_fs f -> is_dir f cwd -> names_stdin (ga_input a) ->
  fs_files f !! resolve cwd (ga_config a) = Some (Bytes xml) -> document first second xml e -> says_config e c ->
  NoDup (map cc_variant (cf_cpps c)) -> code_dir cwd (ga_config a) c <> resolve cwd (ga_output a) ->
  run_read_traces ord text = Ok tests_text -> run_make_stms o tests_text = Ok stms_text ->
  forall f', run_gen (read_config first second) gen_input gord cwd stms_text a f = (f', None) ->
  forall cc i t name, cc ∈ cf_cpps c -> ts !! i = Some t -> names !! i = Some name ->
  exists x s, gen_input stms_text = Some s /\
    fs_files f' !! (resolve cwd (ga_output a) ++ [variant_string (cc_variant cc); lit "src"; name; lit "src"; lit "main.cpp"]) = Some x /\
    forall date, header_texts name date (cc_includes cc) ->
      (exists txt, file_text date x txt) /\
      forall txt, file_text date x txt ->
        (cc_variant cc = VAnimate -> animate_tests t (su_types s) txt) /\
        (cc_variant cc = VRos -> trace_topics t -> ros_tests t name (su_types s) txt).
Proof.
  intros first second ord o gord text ts names xml e c a cwd f tests_text stms_text Ho Hos Hgo Hr Htt Hnam Htn Hwf Hcwd Hin Hxml Hd Hsc Hnd Hsep H1 H2 f' Hrun cc i t name Hcc Hi Hn.
  pose proof (C78_outcome (read_config first second) gen_input gord cwd stms_text a f Hwf Hcwd) as Hout. rewrite Hrun in Hout. cbn [fst snd] in Hout.
  inversion Hout as [| | | |s f1 c' f2 e' Hs Hp Hc Hg E1 E2]. subst f2. destruct e' as [e'|]; [discriminate E2|]. clear E2 Hout.
  destruct Hs as (stext & Hs & Htext). assert (stext = stms_text) as ->. { destruct Htext as [[_ ?]|[? _]]; done. } clear Htext.
  destruct (chain_config first second cwd a f f1 c' xml e c Hp Hc Hxml Hd Hsc) as [Hcpps Hdir].
  destruct (C61_pipeline ord o text ts Ho Hos Hr Htt) as (x1 & x2 & s' & names' & A1 & A2 & A3 & Hnam' & _ & Hdom & _).
  rewrite H1 in A1. apply Ok_inj in A1. subst x1. rewrite H2 in A2. apply Ok_inj in A2. subst x2. rewrite Hs in A3. injection A3 as <-.
  assert (names' = names) as -> by (by eapply named_unique).
  assert (Hplain : forall k, k ∈ dom (su_tests s) -> plain_name k).
  { intros k Hk%elem_of_dom%Hdom. apply elem_of_list_lookup in Hk as [j Hj]. destruct (lookup_lt_is_Some_2 ts j) as [u Hu]; [destruct Hnam as [<- _]; by eapply lookup_lt_Some|].
    destruct (Htn j u k Hu Hj) as [[Hk _] _ _]. by apply ident_plain_name. }
  assert (Hsane : sane c' s).
  { split; [rewrite Hcpps; by eapply says_variants|by rewrite Hcpps|done]. }
  assert (Hsep' : separate cwd c' (clean (ga_output a))) by (unfold separate; by rewrite Hdir, resolve_clean).
  destruct (C69_output ord text ts tests_text Ho Hr (tt_safe _ Htt) H1) as (names2 & tests & Hn2 & _ & Ht & Hread & Hss).
  assert (names2 = names) as -> by (by eapply named_unique).
  destruct (C68_output o tests_text tests stms_text Hos Hread Hss H2) as (s2 & Hs2 & Hm2). rewrite Hs in Hs2. injection Hs2 as <-.
  destruct (trace_machine ts names tests s i t name Htt Hn2 Ht Hm2 Hi Hn) as (Hok & m & b' & Hm & Hb & Em). subst m.
  exists (CMain (cc_variant cc) name (b_stm b') (process cc (su_types s))), s. split; [done|]. split.
  { destruct (C51_contents cwd c' (clean (ga_output a)) s (gord s) f1 f' cc Hsane Hsep' (Hgo s) Hg) as [_ Hc5]; [by rewrite Hcpps|].
    specialize (Hc5 name (b_stm b') [lit "src"; name; lit "src"; lit "main.cpp"] (CMain (cc_variant cc) name (b_stm b') (process cc (su_types s))) Hm).
    rewrite <- app_assoc, resolve_clean in Hc5. apply Hc5. left. }
  intros date Hh. pose proof (Htn i t name Hi Hn) as Hnames. split.
  { exists (main_text (cc_variant cc) name date (b_stm b') (process cc (su_types s)) [name]). constructor. by apply (trace_lists new_builder t name). }
  intros txt Htxt. assert (txt = main_text (cc_variant cc) name date (b_stm b') (process cc (su_types s)) [name]) as ->.
  { inversion Htxt as [v nm m ctx tsts Hl|x tt Hx]; [|discriminate Hx]. by rewrite (one_test _ _ _ _ _ Hb Hl). }
  destruct (expand_supported (su_types s) t name Hok) as [Hsup _]. destruct (trace_spellable t name Hnames) as [Hsp Hu].
  pose proof (trace_lists new_builder t name b' Hb) as Hlists.
  pose proof (expand_good t name) as Hgt.
  split; intros Hvar; rewrite Hvar in *.
  - eexists. split; [by apply (text_reads new_builder (expand t name) b' (su_types s) cc name date [name] VAnimate)|]. intros conv ins script closed depth rounds Hconv.
    destruct (C88_exit_code new_builder t name b' (su_types s) cc name date conv Hb Hok Hnames Hh Hconv) as (p' & Hp2 & H).
    rewrite (text_reads new_builder (expand t name) b' (su_types s) cc name date [name] VAnimate) in Hp2 by done. injection Hp2 as <-. apply H.
  - intros [Ht1 Ht2]. eexists. split; [by apply (text_reads new_builder (expand t name) b' (su_types s) cc name date [name] VRos)|]. intros conv evs depth rounds Hconv.
    destruct (C77_ros_exit_code new_builder t name b' (su_types s) cc name date conv Hb Hok Hnames Hh Hconv Ht1 Ht2) as (p' & Hp2 & H).
    rewrite (text_reads new_builder (expand t name) b' (su_types s) cc name date [name] VRos) in Hp2 by done. injection Hp2 as <-. apply H.
Qed.
Print Assumptions C82_exit_codes.

(** The channels that the suite has types for are those of the traces. *)
Lemma chain_types ts names tests s c : testable ts -> length names = length ts -> trees_of ts names tests -> machines_of tests s ->
  c ∈ dom (su_types s) <-> exists e, traces_event ts e /\ ch_name (e_chan e) = c.
Proof.
  intros Htt Hl Ht Hm. pose proof (trees_good ts names tests Ht) as Hg. pose proof (proj2 Hm) as Hty. rewrite elem_of_dom. split.
  - intros [u Hu]. apply Hty in Hu as (_ & [ty Hst] & _). destruct (suite_types tests s c ty Hm Hg Hst) as (k & t & Hk & (e & He & Hn & _)).
    exists e. split; [|done]. apply (trees_event ts names tests e Hl Ht). by exists k, t.
  - intros (e & He & <-). pose proof (tt_values _ Htt e He) as Hv. apply (trees_event ts names tests e Hl Ht) in He.
    destruct (types_expressible tests s e Hm Hg) as (ty & Hty' & _); [|done|done|by exists ty].
    intros e1 e2 H1 H2. apply (tt_class _ Htt); by apply (trees_event ts names tests _ Hl Ht).
Qed.
(** The configuration gives a type to some channel of the traces. *)
Definition chain_overrides (ts : list forbidden) (cc : cpp_config) : Prop :=
  exists e, traces_event ts e /\ ch_name (e_chan e) ∈ map fst (cc_channels cc).
(** And rtcg-gen succeeds exactly if, in each variant, some channel is given a type (or a test is called
    convert), and then there is conversion code: [f1] is the file system after deleting the old output, if
    it was asked for; it has to have the configuration file still. *)
Theorem C82_succeeds : forall first second ord o gord text ts names xml e c a cwd f f1 tests_text stms_text f' err,
  any_order ord -> any_orders o -> (forall s, orders s (gord s)) ->
  read_traces text = Ok ts -> testable ts -> named ts names -> Forall plain_name names ->
  wf_fs f -> is_dir f cwd -> names_stdin (ga_input a) -> prepared cwd a f f1 ->
  fs_files f1 !! resolve cwd (ga_config a) = Some (Bytes xml) -> document first second xml e -> says_config e c ->
  NoDup (map cc_variant (cf_cpps c)) -> code_dir cwd (ga_config a) c <> resolve cwd (ga_output a) ->
  (ga_clean a = false -> unused f (resolve cwd (ga_output a))) ->
  (ga_clean a = true -> forall p, p `prefix_of` resolve cwd (ga_output a) -> p <> resolve cwd (ga_output a) -> ~ has_file f p) ->
  run_read_traces ord text = Ok tests_text -> run_make_stms o tests_text = Ok stms_text ->
  run_gen (read_config first second) gen_input gord cwd stms_text a f = (f', err) ->
  err = None <-> forall cc, cc ∈ cf_cpps c ->
    (chain_overrides ts cc \/ lit "convert" ∈ names) /\
    (chain_overrides ts cc -> has_file f1 (code_dir cwd (ga_config a) c ++ [variant_string (cc_variant cc); lit "src"; lit "convert"; lit "convert.cpp"])).
Proof.
  intros first second ord o gord text ts names xml e c a cwd f f1 tests_text stms_text f' err Ho Hos Hgo Hr Htt Hnam Hpl Hwf Hcwd Hin Hp Hxml Hd Hsc Hnd Hsep Hun Hpar H1 H2 Hrun.
  destruct (C61_pipeline ord o text ts Ho Hos Hr Htt) as (x1 & x2 & s & names' & A1 & A2 & Hs & Hnam' & _ & Hdom & Hall).
  rewrite H1 in A1. apply Ok_inj in A1. subst x1. rewrite H2 in A2. apply Ok_inj in A2. subst x2.
  assert (names' = names) as -> by (by eapply named_unique).
  destruct (C69_output ord text ts tests_text Ho Hr (tt_safe _ Htt) H1) as (names2 & tests & Hn2 & _ & Ht & Hread & Hss).
  assert (names2 = names) as -> by (by eapply named_unique).
  destruct (C68_output o tests_text tests stms_text Hos Hread Hss H2) as (s2 & Hs2 & Hm2). rewrite Hs in Hs2. injection Hs2 as <-.
  pose proof (fun k => chain_types ts names tests s k Htt (proj1 Hnam) Ht Hm2) as Hty.
  assert (Hov : forall cc, overridden cc s <-> chain_overrides ts cc).
  { intros cc. unfold overridden, chain_overrides. split.
    - intros (k & Hk & Hin'). apply Hty in Hk as (ev & Hev & <-). by exists ev.
    - intros (ev & Hev & Hin'). exists (ch_name (e_chan ev)). split; [|done]. apply Hty. by exists ev. }
  assert (Hc : exists c', reads_config (read_config first second) cwd f1 (ga_config a) c' /\ cf_cpps c' = cf_cpps c /\ resolve cwd (cf_dir c') = code_dir cwd (ga_config a) c).
  { pose proof (C81_reads _ _ _ _ _ Hd Hsc) as Hx.
    assert (Hsub : forall q, has_file f1 q -> has_file f q) by (destruct Hp as [_|f1 _ _ _ Hcl]; [done|by eapply cleared_sub]).
    destruct (load_config (read_config first second) cwd f1 (clean (ga_config a))) as [c'|] eqn:El.
    - pose proof (load_reads (read_config first second) cwd f f1 _ c' Hwf Hcwd Hsub El) as Hrc. exists c'. split; [done|].
      destruct Hrc as (xt & c1 & E1 & E2 & E3 & E4 & E5). rewrite Hxml in E1. injection E1 as <-. rewrite Hx in E2. injection E2 as <-.
      split; [done|]. unfold code_dir. destruct (decide (cf_dir c = [])); [by apply E5|by rewrite E4].
    - exfalso. unfold load_config, file_bytes in El. rewrite resolve_clean, Hxml in El. cbn in El. by rewrite Hx in El. }
  destruct Hc as (c' & Hrc & Hcpps & Hdir).
  assert (Hsane : sane c' s).
  { split; [rewrite Hcpps; by eapply says_variants|by rewrite Hcpps|]. intros k Hk%elem_of_dom%Hdom. rewrite Forall_forall in Hpl. by apply Hpl. }
  assert (Hsep' : separate cwd c' (ga_output a)) by (unfold separate; by rewrite Hdir).
  destruct (C78_succeeds (read_config first second) gen_input gord cwd stms_text a f s f1 c' f' err Hwf Hcwd Hgo) as [Hok _]; [|done..|].
  { exists stms_text. split; [done|]. by left. }
  rewrite Hok, <- supplied_iff by (apply (sane_variants _ _ Hsane)). unfold complete. rewrite Hcpps.
  assert (Hsrc : forall cc, conv_source cwd c' cc = code_dir cwd (ga_config a) c ++ [variant_string (cc_variant cc); lit "src"; lit "convert"; lit "convert.cpp"]) by (intros cc; unfold conv_source; by rewrite Hdir).
  assert (Hconv : lit "convert" ∈ dom (su_tests s) <-> lit "convert" ∈ names) by (by rewrite elem_of_dom).
  split; intros H cc Hcc; specialize (H cc Hcc); rewrite Hov, Hconv, Hsrc in *; [tauto|]. destruct H as [Ha Hb]. split; [done|]. split; [done|].
  intros name m Hm. assert (Hin' : name ∈ names) by (apply Hdom; by eexists). apply elem_of_list_lookup in Hin' as [i Hi].
  destruct (lookup_lt_is_Some_2 ts i) as [t Hti]; [destruct Hnam as [<- _]; by eapply lookup_lt_Some|].
  destruct (Hall i t name Hti Hi) as (m' & P & Hm' & _ & HP & _). replace m' with m in * by congruence. by eapply program_renders.
Qed.
Print Assumptions C82_succeeds.

(** *** Witness: the traces of C61's witness, and a configuration file that leaves its directory out *)
Definition chain_xml : gostr := lit "<?xml version=""1.0""?>
<rtcg-gen>
  <cpp variant=""Animate""><channel name=""c"" type=""int""/><makefile/></cpp>
  <cpp variant=""ros""><include src=""std_msgs/String.h"" system=""true""/><channel name=""d"" type=""std_msgs::String""/><catkin/></cpp>
</rtcg-gen>".
Definition chain_conf : config :=
  Config [CppConfig VAnimate [] [(lit "c", lit "int")] true None;
          CppConfig VRos [Include (lit "std_msgs/String.h") true] [(lit "d", lit "std_msgs::String")] false (Some None)] [].
Definition chain_files : list (fpath * content) :=
  [(ex_source (lit "animate"), Bytes (lit "A")); (ex_source (lit "ros"), Bytes (lit "R")); ([lit "home"; lit "in"; lit "rtcg.xml"], Bytes chain_xml);
   ([lit "home"; lit "out"; lit "old"], Bytes (lit "old"))].
Definition chain_fs : fs := list_fs run_dirs chain_files.
Definition chain_act : gen_action := GenAction true (lit "./out") (lit "in/./rtcg.xml") (lit "./-").
Definition chain_fs1 : fs := remove_below (resolve ex_home (ga_output chain_act)) chain_fs.
Lemma chain_prepared : prepared ex_home chain_act chain_fs chain_fs1.
Proof.
  apply clear; [done| | |apply remove_cleared].
  - intros H. specialize (H []). discriminate H.
  - intros H. apply above_names in H. vm_compute in H. discriminate H.
Qed.
Lemma chain_wf : wf_fs chain_fs.
Proof. apply wf_listb_ok. vm_compute. reflexivity. Qed.
Definition chain_event (e : event) : bool := plain_identb (ch_name (e_chan e)).
Lemma chain_names i t name : w_traces !! i = Some t -> [lit "a"; lit "test0"] !! i = Some name -> trace_names t name.
Proof.
  intros Ht Hn. assert (Ho : output_names (trace_events t) ⊆ [lit "d"]).
  { destruct i as [|[|i]]; [| |done]; injection Ht as <-; intros c Hc; vm_compute in Hc; repeat (apply elem_of_cons in Hc as [->|Hc]; [left|]); by apply elem_of_nil in Hc. }
  split.
  - destruct i as [|[|i]]; [| |done]; injection Hn as <-; (split; [by apply plain_identb_ok|done]).
  - intros e He. apply plain_identb_ok. revert e He. apply (proj1 (Forall_forall (fun e => plain_identb (ch_name (e_chan e)) = true) _)).
    destruct i as [|[|i]]; [| |done]; injection Ht as <-; repeat constructor.
  - intros c Hc%Ho. apply elem_of_list_singleton in Hc as ->. do 3 (split; [done|]).
    apply (proj1 (Forall_forall (fun e => callback_name (lit "d") <> convert_to (ch_name (e_chan e)) /\ callback_name (lit "d") <> convert_from (ch_name (e_chan e))) _)).
    destruct i as [|[|i]]; [| |done]; injection Ht as <-; repeat constructor; done.
Qed.
Lemma chain_topics i t : w_traces !! i = Some t -> trace_topics t.
Proof.
  intros Ht. assert (Ho : output_names (trace_events t) ⊆ [lit "d"]).
  { destruct i as [|[|i]]; [| |done]; injection Ht as <-; intros c Hc; vm_compute in Hc; repeat (apply elem_of_cons in Hc as [->|Hc]; [left|]); by apply elem_of_nil in Hc. }
  split.
  - intros c d Hc%Ho Hd%Ho _. apply elem_of_list_singleton in Hc as ->. by apply elem_of_list_singleton in Hd as ->.
  - intros c Hc%Ho. apply elem_of_list_singleton in Hc as ->. done.
Qed.
Example C82_witness : forall first second, exists tests_text stms_text s f',
  run_read_traces map_to_list w_file = Ok tests_text /\ run_make_stms some_orders tests_text = Ok stms_text /\ gen_input stms_text = Some s /\
  run_gen (read_config first second) gen_input run_ord ex_home stms_text chain_act chain_fs = (f', None) /\
  exists x txt, fs_files f' !! [lit "home"; lit "out"; lit "ros"; lit "src"; lit "test0"; lit "src"; lit "main.cpp"] = Some x /\
    file_text (lit "today") x txt /\
    ros_tests (Forbidden [] [w_ev (lit "d") KOut (Some (EnumV (lit "off"))); w_ev (lit "c") KIn (Some (IntV (-4)))] (w_ev (lit "d") KOut (Some (EnumV (lit "on")))))
      (lit "test0") (su_types s) txt.
Proof.
  intros first second. assert (Ho : any_order map_to_list) by (intros m; unfold order_of; done).
  assert (Hgo : forall s, orders s (run_ord s)) by (by intros s i).
  destruct (C61_pipeline map_to_list some_orders w_file w_traces Ho some_orders_any w_file_read w_testable)
    as (x & y & s & names & H1 & H2 & H3 & Hn & Hnd & Hdom & Hall).
  pose proof (w_names names Hn) as ->.
  destruct (run_gen (read_config first second) gen_input run_ord ex_home y chain_act chain_fs) as [f' err] eqn:Er.
  assert (Hd : exists e, document first second chain_xml e /\ says_config e chain_conf) by (apply C81_only; vm_compute; reflexivity).
  destruct Hd as (e & Hd & Hs).
  assert (Hcwd : is_dir chain_fs ex_home) by (right; refine (bool_decide_eq_true_1 _ _); vm_compute; reflexivity).
  assert (Hin : names_stdin (ga_input chain_act)) by (by intros here).
  assert (Hnv : NoDup (map cc_variant (cf_cpps chain_conf))) by (apply (bool_decide_eq_true_1 _); vm_compute; reflexivity).
  assert (Hsep : code_dir ex_home (ga_config chain_act) chain_conf <> resolve ex_home (ga_output chain_act)) by (refine (bool_decide_eq_false_1 _ _); vm_compute; reflexivity).
  assert (Hxf : fs_files chain_fs1 !! resolve ex_home (ga_config chain_act) = Some (Bytes chain_xml)) by (vm_compute; reflexivity).
  assert (He : err = None).
  { apply (C82_succeeds first second map_to_list some_orders run_ord w_file w_traces [lit "a"; lit "test0"] chain_xml e chain_conf chain_act ex_home chain_fs chain_fs1 x y f' err
      Ho some_orders_any Hgo w_file_read w_testable Hn ltac:(repeat constructor; plain) chain_wf Hcwd Hin chain_prepared Hxf Hd Hs Hnv Hsep ltac:(discriminate)); [|exact H1|exact H2|exact Er|].
    - intros _ p Hp Hne. change (resolve ex_home (ga_output chain_act)) with [lit "home"; lit "out"] in *. destruct Hp as [k Hk]. destruct p as [|a p]; [|injection Hk as <- Hk; destruct p as [|b p]].
      + intros [z Hz]. vm_compute in Hz. discriminate Hz.
      + intros [z Hz]. vm_compute in Hz. discriminate Hz.
      + injection Hk as <- Hk. symmetry in Hk. apply app_eq_nil in Hk as [-> _]. exfalso. apply Hne. reflexivity.
    - intros cc Hcc. apply elem_of_list_In in Hcc. assert (Ht0 : Forbidden (lit "a") [w_ev (lit "c") KIn (Some (IntV 3))] (w_ev (lit "d") KOut (Some (EnumV (lit "on")))) ∈ w_traces) by left.
      destruct Hcc as [<-|[<-|[]]]; (split; [left|intros _; eexists; vm_compute; reflexivity]).
      + exists (w_ev (lit "c") KIn (Some (IntV 3))). split; [|left]. eexists. split; [exact Ht0|]. left.
      + exists (w_ev (lit "d") KOut (Some (EnumV (lit "on")))). split; [|left]. eexists. split; [exact Ht0|]. right. left. }
  subst err. exists x, y, s, f'. split; [exact H1|]. split; [exact H2|]. split; [exact H3|]. split; [exact Er|].
  destruct (C82_exit_codes first second map_to_list some_orders run_ord w_file w_traces [lit "a"; lit "test0"] chain_xml e chain_conf chain_act ex_home chain_fs x y
     Ho some_orders_any Hgo w_file_read w_testable Hn chain_names chain_wf Hcwd Hin eq_refl Hd Hs Hnv Hsep H1 H2 f' Er
     (CppConfig VRos [Include (lit "std_msgs/String.h") true] [(lit "d", lit "std_msgs::String")] false (Some None)) 1
     _ (lit "test0") ltac:(right; left) eq_refl eq_refl) as (c & s' & Hs' & Hc & Ht).
  rewrite H3 in Hs'. injection Hs' as <-.
  destruct (Ht (lit "today")) as [[txt Htxt] Hall'].
  { split; [by apply safeb_ok| |intros i ->%elem_of_list_singleton]; apply (bool_decide_eq_true_1 (_ ∉ _)); by vm_compute. }
  exists c, txt. split; [exact Hc|]. split; [exact Htxt|]. destruct (Hall' txt Htxt) as [_ Hros]. apply Hros; [reflexivity|]. apply (chain_topics 1). reflexivity.
Qed.
