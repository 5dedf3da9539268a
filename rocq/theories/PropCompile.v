(** * C93: from a file of traces to sources that compile and link *)
From Verif Require Export SpecCompile PropMainExact.
From Verif Require Import PropConfig PropHeader PropCppRun PropChain PropConvert PropLink ChainProofs.
From Verif Require Export StmProofs.

(** The expanded tree of a trace has no identifiers yet. *)
Lemma expand_ids t name p n : node_at (expand t name) p = Some n -> n_id n = [].
Proof.
  assert (A : forall l k, (forall p n, node_at k p = Some n -> n_id n = []) -> forall p n, node_at (fold_left (expand_step name) l k) p = Some n -> n_id n = []).
  { induction l as [|e l IH]; intros k Hk; [done|]. cbn [fold_left]. apply IH. intros [|[|i] q] m Hm; [by injection Hm as <-|exact (Hk q m Hm)|discriminate Hm]. }
  destruct p as [|[|i] p]; intros Hn; [by injection Hn as <-| |discriminate Hn]. revert p n Hn. change (forall p n, node_at (fold_left (expand_step name) (rev (f_prefix t)) (test_point (f_forbid t) [name])) p = Some n -> n_id n = []).
  apply A. intros [|[|i] [|j q]] m Hm; try discriminate Hm; by injection Hm as <-.
Qed.

Theorem C93_compiles : forall first second ord o gord text ts names xml e c a cwd f tests_text stms_text,
  any_order ord -> any_orders o -> (forall s, orders s (gord s)) ->
  read_traces text = Ok ts -> testable ts -> named ts names ->
  (forall i t name, ts !! i = Some t -> names !! i = Some name -> trace_names t name) -> suite_names ts names ->
  wf_fs f -> is_dir f cwd -> names_stdin (ga_input a) ->
  fs_files f !! resolve cwd (ga_config a) = Some (Bytes xml) -> document first second xml e -> says_config e c ->
  NoDup (map cc_variant (cf_cpps c)) -> code_dir cwd (ga_config a) c <> resolve cwd (ga_output a) ->
  run_read_traces ord text = Ok tests_text -> run_make_stms o tests_text = Ok stms_text ->
  forall f', run_gen (read_config first second) gen_input gord cwd stms_text a f = (f', None) ->
  forall cc i t name, cc ∈ cf_cpps c -> ts !! i = Some t -> names !! i = Some name ->
  config_texts ts cc -> (cc_variant cc = VRos -> trace_topics t /\ input_topics t) ->
  let dir := resolve cwd (ga_output a) ++ [variant_string (cc_variant cc); lit "src"] in
  exists x y htxt h d r,
    fs_files f' !! (dir ++ [name; lit "src"; lit "main.cpp"]) = Some x /\
    fs_files f' !! (dir ++ [lit "convert"; lit "convert.h"]) = Some y /\ content_text y = Some htxt /\ read_header htxt = Some h /\
    fs_files f' !! (dir ++ [lit "rtcg"; lit "rtcg.h"]) = Some (CPrelude (lit "rtcg.h")) /\ read_decls prelude_h = Some d /\
    fs_files f' !! (dir ++ [lit "rtcg"; lit "rtcg.cpp"]) = Some (CPrelude (lit "rtcg.cpp")) /\ read_source prelude_cpp = Some r /\
    forall date, header_texts name date (cc_includes cc) ->
      (exists txt, file_text date x txt) /\
      forall txt, file_text date x txt -> exists p, read_cpp txt = Some p /\ cxx_accepts t cc h p /\
        forall user : list gostr, lit "operator<<" ∉ user ->
          (makes_program d r p h user <->
           NoDup user /\ lit "main" ∉ user /\
           forall ev, traces_event ts ev -> forall g, g = lit "from" ++ upcase_first (ch_name (e_chan ev)) \/ g = lit "to" ++ upcase_first (ch_name (e_chan ev)) ->
             (g ∈ user <-> exists o, override_of cc (ch_name (e_chan ev)) o)).
Proof.
  intros first second ord o gord text ts names xml e c a cwd f tests_text stms_text Ho Hos Hgo Hr Htt Hnam Htn Hsn Hwf Hcwd Hin Hxml Hd Hsc Hnd Hsep H1 H2 f' Hrun cc i t name Hcc Hi Hn Hct Hros dir.
  pose proof (C78_outcome (read_config first second) gen_input gord cwd stms_text a f Hwf Hcwd) as Hout. rewrite Hrun in Hout. cbn [fst snd] in Hout.
  inversion Hout as [| | | |s f1 c' f2 e' Hs Hp Hc Hg E1 E2]. subst f2. destruct e' as [e'|]; [discriminate E2|]. clear E2 Hout.
  destruct Hs as (stext & Hs & Htext). assert (stext = stms_text) as ->. { destruct Htext as [[_ ?]|[? _]]; done. } clear Htext.
  destruct (chain_config first second cwd a f f1 c' xml e c Hp Hc Hxml Hd Hsc) as [Hcpps Hdir].
  destruct (C61_pipeline ord o text ts Ho Hos Hr Htt) as (x1 & x2 & s' & names' & A1 & A2 & A3 & Hnam' & _ & Hdom & _).
  rewrite H1 in A1. apply Ok_inj in A1. subst x1. rewrite H2 in A2. apply Ok_inj in A2. subst x2. rewrite Hs in A3. injection A3 as <-.
  assert (names' = names) as -> by (by eapply named_unique).
  assert (Hplain : forall k, k ∈ dom (su_tests s) -> plain_name k).
  { intros k Hk%elem_of_dom%Hdom. apply elem_of_list_lookup in Hk as [j Hj]. destruct (lookup_lt_is_Some_2 ts j) as [u Hu]; [destruct Hnam as [<- _]; by eapply lookup_lt_Some|].
    destruct (Htn j u k Hu Hj) as [[Hk _] _ _]. by apply ident_plain_name. }
  assert (Hsane : sane c' s).
  { split; [rewrite Hcpps; by eapply says_variants|by rewrite Hcpps|done]. }
  assert (Hsep' : separate cwd c' (clean (ga_output a))) by (unfold separate; by rewrite Hdir, resolve_clean).
  destruct (C69_output ord text ts tests_text Ho Hr (tt_safe _ Htt) H1) as (names2 & tests & Hn2 & _ & Ht & Hread & Hss).
  assert (names2 = names) as -> by (by eapply named_unique).
  destruct (C68_output o tests_text tests stms_text Hos Hread Hss H2) as (s2 & Hs2 & Hm2). rewrite Hs in Hs2. injection Hs2 as <-.
  destruct (trace_machine ts names tests s i t name Htt Hn2 Ht Hm2 Hi Hn) as (Hok & m & b' & Hm & Hb & Em). subst m.
  assert (Hchan : forall n, n ∈ dom (su_types s) <-> exists e, traces_event ts e /\ ch_name (e_chan e) = n).
  { intros n. apply (chain_types ts names tests s n Htt); [by destruct Hnam|done|done]. }
  assert (Hchan' : forall n, is_Some (su_types s !! n) -> exists e, traces_event ts e /\ ch_name (e_chan e) = n) by (intros n Hx; by apply Hchan, elem_of_dom).
  assert (Hev : forall ev, ev ∈ trace_events t -> traces_event ts ev) by (intros ev Hx; exists t; split; [by eapply elem_of_list_lookup_2|done]).
  destruct (C55_process cc (su_types s) _ (reflexivity _)) as (_ & Hincs & Hdm & Hl & _). set (ctx := process cc (su_types s)) in *. set (v := cc_variant cc) in *.
  assert (Hovr : forall n, default [] (last_override cc n) <> [] -> override_of cc n (default [] (last_override cc n))).
  { intros n N. destruct (last_override cc n) as [o'|] eqn:Eo; [|done]. by apply override_last. }
  assert (Hread' : readable ctx).
  { split; [|rewrite Hincs; apply (ct_includes _ _ Hct)]. intros n ty ov H. assert (Hdn : n ∈ dom (su_types s)) by (rewrite <- Hdm; apply elem_of_dom; by eexists).
    pose proof Hdn as [ty' Hty']%elem_of_dom. pose proof (eq_trans (eq_sym H) (Hl n ty' Hty')) as H'. injection H' as -> ->. apply Hchan in Hdn as (ev & Hev' & <-). split.
    - destruct Hev' as (u & Hu & Hue). apply elem_of_list_lookup in Hu as [j Hj]. destruct (lookup_lt_is_Some_2 names j) as [nm Hnm]; [destruct Hnam as [-> _]; by eapply lookup_lt_Some|].
      by apply (tn_chans _ _ (Htn j u nm Hj Hnm)).
    - destruct (decide (default [] (last_override cc (ch_name (e_chan ev))) = [])) as [E|N].
      + rewrite E. split_and!; apply not_elem_of_nil.
      + apply (ct_types _ _ Hct ev _ Hev' (Hovr _ N)). }
  assert (Hap : names_apart (su_types s)).
  { intros n m (e1 & He1 & <-)%Hchan' (e2 & He2 & <-)%Hchan'. by apply (sn_apart _ _ Hsn). }
  assert (Hon : overrides_named cc (su_types s) (expand t name)).
  { intros ev ov Hte Hov. apply expand_event in Hte. destruct (ct_types _ _ Hct ev ov (Hev _ Hte) Hov) as (_ & C1 & C2 & C3). split; [done|]. split; [|done]. intros d (e1 & He1 & <-)%Hchan'. by apply C3. }
  assert (Hnm : no_macros (su_types s) (expand t name) [name]).
  { split.
    - intros n ->%elem_of_list_singleton. destruct (sn_tests _ _ Hsn name) as (S1 & S2 & S3 & S4); [by eapply elem_of_list_lookup_2|]. split_and!; [done..|]. intros d (e1 & He1 & <-)%Hchan'. by apply S4.
    - intros p n _ Hp'. by rewrite (expand_ids t name p n Hp'). }
  pose proof (Htn i t name Hi Hn) as Hnames. destruct (expand_supported (su_types s) t name Hok) as [Hsup _]. destruct (trace_spellable t name Hnames) as [Hsp Hu].
  pose proof (trace_lists new_builder t name b' Hb) as Hlists. pose proof (expand_good t name) as Hgt.
  assert (Hros' : v = VRos -> publishers_distinct (expand t name) /\ topics_distinct (expand t name)).
  { intros Ev. destruct (Hros Ev) as [[T1 T2] T3]. split; split.
    - intros e1 e2 He1%expand_event He2%expand_event. by apply T3.
    - intros ev p n _ _ _ Hp'. rewrite (expand_ids t name p n Hp'). intros X. apply (f_equal reverse) in X. rewrite !reverse_app in X. discriminate X.
    - intros n1 n2 Hn1%expand_out_names Hn2'%expand_out_names. by apply T1.
    - intros n1 Hn1%expand_out_names. by apply T2. }
  destruct (C74_header v ctx Hread') as (h & Hh & _).
  destruct (C51_contents cwd c' (clean (ga_output a)) s (gord s) f1 f' cc Hsane Hsep' (Hgo s) Hg) as [Hsh Hc5]; [by rewrite Hcpps|]. cbn zeta in Hsh, Hc5. rewrite resolve_clean in Hsh, Hc5.
  exists (CMain v name (b_stm b') ctx), (CConvertH v ctx), (convert_text v ctx), h, the_decls, the_source. unfold dir. rewrite <- !app_assoc.
  assert (Hsh' : forall r x, (r, x) ∈ shared_files cc s -> fs_files f' !! (resolve cwd (ga_output a) ++ variant_string v :: r) = Some x).
  { intros r x Hx. specialize (Hsh r x Hx). by rewrite <- app_assoc in Hsh. }
  split.
  { specialize (Hc5 name (b_stm b') [lit "src"; name; lit "src"; lit "main.cpp"] (CMain v name (b_stm b') ctx) Hm). rewrite <- app_assoc in Hc5. apply Hc5. left. }
  split; [apply (Hsh' [lit "src"; lit "convert"; lit "convert.h"]); unfold shared_files; cbn zeta; apply elem_of_app; left; do 2 right; by left|].
  split; [done|]. split; [done|].
  split; [apply (Hsh' [lit "src"; lit "rtcg"; lit "rtcg.h"]); unfold shared_files; cbn zeta; apply elem_of_app; left; right; by left|]. split; [exact decls_read|].
  split; [apply (Hsh' [lit "src"; lit "rtcg"; lit "rtcg.cpp"]); unfold shared_files; cbn zeta; apply elem_of_app; left; by left|]. split; [exact source_read|].
  intros date Hdate. split.
  { exists (main_text v name date (b_stm b') ctx [name]). by constructor. }
  intros txt Htxt. assert (txt = main_text v name date (b_stm b') ctx [name]) as ->.
  { inversion Htxt as [v' nm m ctx' tsts Hl'|x tt Hx]; [|discriminate Hx]. by rewrite (one_test _ _ _ _ _ Hb Hl'). }
  assert (Hh' : header_items v ctx = h). { pose proof (header_read v ctx (readable_good ctx Hread')) as E. pose proof (eq_trans (eq_sym Hh) E) as E'. by injection E'. }
  exists (main_items v name (b_stm b') ctx [name]). split; [by apply (text_reads new_builder (expand t name) b' (su_types s) cc name date [name] v)|]. split.
  - split.
    + rewrite <- Hh'. by apply (static_ok new_builder (expand t name) b' (su_types s) cc name date [name] v).
    + intros u Hab. rewrite <- Hh'. eapply (typed_ok new_builder (expand t name) b' (su_types s) cc name [name] v u); try done.
      intros ev ov Hte%expand_event. by apply Hab.
  - intros user Hop. destruct (C89_links new_builder (expand t name) b' (su_types s) cc name date [name] v Hgt Hb Hsup Hlists Hsp Hu Hdate Hread' Hnm Hros') as (h2 & p2 & d2 & r2 & B1 & B2 & B3 & B4 & B5).
    { intros n1 n2 Hd1%elem_of_dom Hd2%elem_of_dom. by apply Hap. }
    fold ctx in B1, B2. assert (h2 = h) as -> by (pose proof (eq_trans (eq_sym B1) Hh) as E; by injection E).
    assert (p2 = main_items v name (b_stm b') ctx [name]) as ->.
    { pose proof (text_reads new_builder (expand t name) b' (su_types s) cc name date [name] v Hgt Hb Hsup Hlists Hsp Hdate) as E. pose proof (eq_trans (eq_sym B2) E) as E'. by injection E'. }
    assert (d2 = the_decls) as -> by (pose proof (eq_trans (eq_sym B3) decls_read) as E; by injection E). assert (r2 = the_source) as -> by (pose proof (eq_trans (eq_sym B4) source_read) as E; by injection E).
    cbn zeta in B5. destruct B5 as (B5 & B6 & _ & B7 & B8). specialize (B8 user Hop).
    assert (Hiff : forall n, default [] (last_override cc n) <> [] <-> exists ov, override_of cc n ov).
    { intros n. split; [intros N; eexists; by apply Hovr|]. intros (ov & Hov). rewrite (last_override_of _ _ _ Hov). cbn [default]. by destruct Hov as (? & ? & _ & _ & ?). }
    split.
    + intros (L1 & L2 & _). destruct (proj1 B8 (conj L1 L2)) as (U1 & U2 & U3). split; [done|]. split; [done|]. intros ev Hev' g Hg'. rewrite <- Hiff. apply U3; [|exact Hg']. apply Hchan. exists ev. split; [exact Hev'|reflexivity].
    + intros (U1 & U2 & U3). destruct (proj2 B8) as [L1 L2].
      * split; [done|]. split; [done|]. intros n (ev & Hev' & <-)%Hchan g Hg'. rewrite Hiff. by apply (U3 ev).
      * split; [exact L1|]. split; [exact L2|]. split; [|exact B7]. intros y [Hy|Hy]; [by apply B5|by apply B6].
Qed.
Print Assumptions C93_compiles.

(** *** Witness: the run of C82's witness *)
Lemma w_events e : traces_event w_traces e -> ch_name (e_chan e) = lit "c" \/ ch_name (e_chan e) = lit "d".
Proof.
  intros (t & Ht & He). revert e He. assert (Hall : Forall (fun t => Forall (fun e => ch_name (e_chan e) = lit "c" \/ ch_name (e_chan e) = lit "d") (trace_events t)) w_traces).
  { apply (bool_decide_eq_true_1 (Forall _ _)). vm_compute. reflexivity. }
  rewrite Forall_forall in Hall. specialize (Hall t Ht). by rewrite Forall_forall in Hall.
Qed.
Lemma w_suite_names : suite_names w_traces [lit "a"; lit "test0"].
Proof.
  split.
  - intros e1 e2 H1 H2. apply w_events in H1 as [-> | ->], H2 as [-> | ->]; done.
  - intros n Hn. rewrite !elem_of_cons, elem_of_nil in Hn. destruct Hn as [->|[->|[]]]; (split_and!; [done..|]); intros e H; apply w_events in H as [-> | ->]; done.
Qed.
Lemma w_config_texts cc : cc ∈ cf_cpps chain_conf -> config_texts w_traces cc.
Proof.
  intros Hcc. split.
  - intros e o _ (l1 & l2 & E & _). assert (Ho : o = lit "int" \/ o = lit "std_msgs::String").
    { assert (Hin : (ch_name (e_chan e), o) ∈ cc_channels cc) by (rewrite E, elem_of_app; right; left). cbn [chain_conf cf_cpps] in Hcc. rewrite !elem_of_cons, elem_of_nil in Hcc.
      destruct Hcc as [Ec|[Ec|[]]]; rewrite Ec in Hin; cbn [cc_channels] in Hin; apply elem_of_list_singleton in Hin; injection Hin as _ ->; auto. }
    assert (Hm : macro_text o). { destruct Ho as [-> | ->]; split_and!; apply (bool_decide_eq_true_1 (_ ∉ _)); by vm_compute. }
    split; [done|]. split; [destruct Ho as [-> | ->]; by vm_compute|]. split; [destruct Ho as [-> | ->]; done|]. intros d H. apply w_events in H as [-> | ->]; destruct Ho as [-> | ->]; done.
  - intros i Hi. cbn [chain_conf cf_cpps] in Hcc. rewrite !elem_of_cons, elem_of_nil in Hcc. destruct Hcc as [Ec|[Ec|[]]]; rewrite Ec in Hi; cbn [cc_includes] in Hi; [by apply elem_of_nil in Hi|].
    apply elem_of_list_singleton in Hi as ->. split_and!; apply (bool_decide_eq_true_1 (_ ∉ _)); by vm_compute.
Qed.
Lemma w_input_topics i t : w_traces !! i = Some t -> input_topics t.
Proof.
  intros Ht e f He Hf _ _. assert (Hin : t ∈ w_traces) by (by eapply elem_of_list_lookup_2).
  destruct (w_events e) as [-> | ->]; [by exists t| |]; (destruct (w_events f) as [-> | ->]; [by exists t| |]); done.
Qed.
Example C93_witness : forall first second, exists tests_text stms_text f' x h p,
  run_read_traces map_to_list w_file = Ok tests_text /\ run_make_stms some_orders tests_text = Ok stms_text /\
  run_gen (read_config first second) gen_input run_ord ex_home stms_text chain_act chain_fs = (f', None) /\
  (exists y htxt, fs_files f' !! [lit "home"; lit "out"; lit "ros"; lit "src"; lit "convert"; lit "convert.h"] = Some y /\ content_text y = Some htxt /\ read_header htxt = Some h) /\
  fs_files f' !! [lit "home"; lit "out"; lit "ros"; lit "src"; lit "test0"; lit "src"; lit "main.cpp"] = Some x /\
  (exists txt, file_text (lit "today") x txt /\ read_cpp txt = Some p) /\
  declarations_ok h p = true /\ types_ok (foo_type false false false) h p = true /\
  (exists d r, read_decls prelude_h = Some d /\ read_source prelude_cpp = Some r /\ makes_program d r p h [lit "fromD"; lit "toD"] /\ ~ makes_program d r p h [lit "fromD"; lit "toC"]).
Proof.
  intros first second. destruct (C82_witness first second) as (x & y & s & f' & H1 & H2 & H3 & Er & _).
  assert (Ho : any_order map_to_list) by (intros m; unfold order_of; done).
  assert (Hgo : forall s, orders s (run_ord s)) by (by intros s' i).
  destruct (C61_pipeline map_to_list some_orders w_file w_traces Ho some_orders_any w_file_read w_testable) as (x' & y' & s' & names & _ & _ & _ & Hn & _).
  pose proof (w_names names Hn) as ->.
  assert (Hd : exists e, document first second chain_xml e /\ says_config e chain_conf) by (apply C81_only; vm_compute; reflexivity).
  destruct Hd as (e & Hd & Hs).
  assert (Hcwd : is_dir chain_fs ex_home) by (right; refine (bool_decide_eq_true_1 _ _); vm_compute; reflexivity).
  assert (Hin : names_stdin (ga_input chain_act)) by (by intros here).
  assert (Hnv : NoDup (map cc_variant (cf_cpps chain_conf))) by (apply (bool_decide_eq_true_1 _); vm_compute; reflexivity).
  assert (Hsep : code_dir ex_home (ga_config chain_act) chain_conf <> resolve ex_home (ga_output chain_act)) by (refine (bool_decide_eq_false_1 _ _); vm_compute; reflexivity).
  set (cc := CppConfig VRos [Include (lit "std_msgs/String.h") true] [(lit "d", lit "std_msgs::String")] false (Some None)).
  assert (Hcc : cc ∈ cf_cpps chain_conf) by (right; left).
  destruct (C93_compiles first second map_to_list some_orders run_ord w_file w_traces [lit "a"; lit "test0"] chain_xml e chain_conf chain_act ex_home chain_fs x y
     Ho some_orders_any Hgo w_file_read w_testable Hn chain_names w_suite_names chain_wf Hcwd Hin eq_refl Hd Hs Hnv Hsep H1 H2 f' Er cc 1
     _ (lit "test0") Hcc eq_refl eq_refl (w_config_texts cc Hcc) (fun _ => conj (chain_topics 1 _ eq_refl) (w_input_topics 1 _ eq_refl))) as (xm & xh & htxt & h & d & r & F1 & F2 & F3 & F4 & _ & F5 & _ & F6 & F7).
  destruct (F7 (lit "today")) as [[txt Htxt] Hall].
  { split; [by apply safeb_ok| |intros i ->%elem_of_list_singleton]; apply (bool_decide_eq_true_1 (_ ∉ _)); by vm_compute. }
  destruct (Hall txt Htxt) as (p & Hp & [Hdec Hty] & Hlink). clear F7 Hall.
  exists x, y, f', xm, h, p. split; [exact H1|]. split; [exact H2|]. split; [exact Er|]. split; [exists xh, htxt; split; [exact F2|split; [exact F3|exact F4]]|]. split; [exact F1|]. split; [exists txt; split; [exact Htxt|exact Hp]|].
  assert (Hov : forall n o, override_of cc n o <-> n = lit "d" /\ o = lit "std_msgs::String").
  { intros n o. split.
    - intros (l1 & l2 & E & _). assert (Hi : (n, o) ∈ cc_channels cc) by (rewrite E, elem_of_app; right; left). cbn [cc cc_channels] in Hi. apply elem_of_list_singleton in Hi. injection Hi as -> ->. split; reflexivity.
    - intros [-> ->]. exists [], []. split; [reflexivity|]. split; [intros o'; apply not_elem_of_nil|discriminate]. }
  split; [exact Hdec|]. split.
  { apply Hty. intros ev o _ Hx. apply Hov in Hx as [_ ->]. vm_compute. reflexivity. }
  exists d, r. split; [exact F5|]. split; [exact F6|]. split.
  - apply Hlink; [apply (bool_decide_eq_true_1 (_ ∉ _)); vm_compute; reflexivity|]. split; [apply (bool_decide_eq_true_1 (NoDup _)); vm_compute; reflexivity|]. split; [apply (bool_decide_eq_true_1 (_ ∉ _)); vm_compute; reflexivity|].
    intros ev Hev g Hg. apply w_events in Hev. rewrite !elem_of_cons, elem_of_nil. destruct Hev as [E|E]; rewrite E in Hg |- *.
    + split; [intros X; exfalso|intros [o X]; apply Hov in X as [X _]; discriminate X]. destruct Hg as [Hg|Hg]; rewrite Hg in X; destruct X as [X|[X|X]]; try discriminate X; exact X.
    + split; [intros _; exists (lit "std_msgs::String"); apply Hov; split; reflexivity|]. intros _. destruct Hg as [-> | ->]; [left|right; left]; reflexivity.
  - intros X. apply Hlink in X as (_ & _ & X); [|apply (bool_decide_eq_true_1 (_ ∉ _)); vm_compute; reflexivity].
    assert (Hev : traces_event w_traces (w_ev (lit "d") KOut (Some (EnumV (lit "on"))))). { exists (Forbidden (lit "a") [w_ev (lit "c") KIn (Some (IntV 3))] (w_ev (lit "d") KOut (Some (EnumV (lit "on"))))). split; [left|]. right. left. }
    destruct (X _ Hev (lit "toD") ltac:(by right)) as [_ X']. assert (Y : lit "toD" ∈ [lit "fromD"; lit "toC"]). { apply X'. exists (lit "std_msgs::String"). apply Hov. split; reflexivity. }
    revert Y. apply (bool_decide_eq_true_1 (_ ∉ _)). vm_compute. reflexivity.
Qed.
