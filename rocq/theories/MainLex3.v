(** * The reader of SpecCxx.v on the text of main.cpp, concluded *)
From Verif Require Export MainLex2 TextProofs.
From Verif Require Export StmProofs.

Lemma reads_main v name tc ctx : tc_ok tc -> body_ok name -> (forall a, a ∈ tc_out tc -> is_Some (cx_types ctx !! agg_name a)) ->
  reads (mn_main v name tc ctx) (pr_item (a_main v name tc ctx)).
Proof.
  intros Htc Hname Hty. pose proof (reads_loop tc ctx Htc Hty) as Hloop. destruct Htc as [H1 H2 _ _]. clear Hty. revert Hloop. unfold mn_main, a_main.
  generalize (mn_loop tc ctx) (a_loop tc ctx). intros ll al Hloop. unfold a_init, a_final, a_ros_init, a_ros_subs.
  destruct v.
  - cbn [ctor_args a_ctor_args]. open_lines. eapply reads_eq; [rd; exact Hloop|]. cbn [map concat pr_item]. rewrite ?map_app, ?concat_app. generalize (concat (map pr_stmt al)). intros T. same.
  - open_lines. set (L := lit "  StateMachine stm {" ++ _).
    assert (HL : reads [L] _) by (apply (args_line (lit "  StateMachine stm {") (lit ";") [TId (lit "StateMachine"); TId (lit "stm")] [TP PSemi] (tc_in tc)); [done|reflexivity|reflexivity|reflexivity|reflexivity]).
    clearbody L. set (Q := a_ctor_args VRos (tc_in tc)) in *. clearbody Q. abs.
    destruct (tc_has_in tc), (tc_first_state_has_in tc);
      (eapply reads_eq; [eapply reads_app; [rd|]; eapply reads_app; [rd|]; eapply reads_app; [eapply (reads_take 1); cbn [take drop]; [rd|exact HL]|rd]|]; same).
  - cbn [ctor_args a_ctor_args]. open_lines. eapply reads_eq; [rd; exact Hloop|]. cbn [map concat pr_item]. rewrite ?map_app, ?concat_app. generalize (concat (map pr_stmt al)). intros T. same.
Qed.
Lemma include_hash i : exists r, cv_include i = "#"%char :: r.
Proof. unfold cv_include. destruct (in_system i); by eexists. Qed.
Lemma reads_pre' l r : l = "#"%char :: r -> byte 10 ∉ (l : list ascii) -> reads [l] [TPre l].
Proof. intros -> H. apply reads_pre. by apply not_elem_of_cons in H as [_ H]. Qed.
Lemma include_no_lf i : byte 10 ∉ (in_src i : list ascii) -> byte 10 ∉ (cv_include i : list ascii).
Proof.
  intros H. unfold cv_include. destruct (in_system i); rewrite !elem_of_app; intros [Hx|[Hx|Hx]]; try done; revert Hx; apply (bool_decide_eq_true_1 (_ ∉ _)); by vm_compute.
Qed.
Lemma reads_includes v ctx : (forall i, i ∈ cx_includes ctx -> byte 10 ∉ (in_src i : list ascii)) -> reads (mn_includes v ctx) (concat (map pr_item (a_includes v ctx))).
Proof.
  intros H. unfold mn_includes, a_includes. rewrite !map_app, !concat_app.
  assert (Hp : forall s, bool_decide (head (lit s) = Some "#"%char /\ byte 10 ∉ (lit s : list ascii)) = true -> reads [lit s] [TPre (lit s)]).
  { intros s [Hs1 Hs2]%bool_decide_eq_true_1. destruct (lit s) as [|c r] eqn:E; [done|]. cbn in Hs1. injection Hs1 as ->. by apply (reads_pre' _ r). }
  apply reads_app; [apply Hp; by vm_compute|]. apply reads_app.
  { destruct v; cbn [map concat pr_item]; repeat (change (?a :: ?b :: ?l) with ([a] ++ b :: l); apply (reads_app [_]); [apply Hp; by vm_compute|]); eapply reads_eq; try (apply Hp; by vm_compute); done. }
  apply reads_app.
  { rewrite !map_map. apply (reads_map _ (fun i => pr_item (CPre (cv_include i)))). intros i Hi. destruct (include_hash i) as [r Hr]. apply (reads_pre' _ r); [done|]. by apply include_no_lf, H. }
  eapply reads_eq; [eapply (reads_take 1); [cbn [take]; blocke|]; cbn [drop]; eapply (reads_take 1); [cbn [take]; apply Hp; by vm_compute|]; cbn [drop]; eapply (reads_take 1); [cbn [take]; apply Hp; by vm_compute|]; cbn [drop]; blocke|done].
Qed.
Lemma reads_constants v : reads (mn_constants v) (concat (map pr_item (a_constants v))).
Proof. destruct v; cbn [mn_constants]; block. Qed.

Record main_ok (name date : gostr) (m : stm) (ctx : cctx) (tests : list gostr) : Prop := MainOk {
  mk_name : body_ok name;
  mk_date : byte 10 ∉ (date : list ascii);
  mk_inc : forall i, i ∈ cx_includes ctx -> byte 10 ∉ (in_src i : list ascii);
  mk_tests : Forall plain_ident tests;
  mk_states : forall s, s ∈ m_states m -> state_ok s;
  mk_some : m_states m <> [];
  mk_tc : tc_ok (make_transitions m);
  mk_ne : forall a s ts, a ∈ tc_out (make_transitions m) -> (s, ts) ∈ range_map (ag_states a) -> ts <> [];
  mk_types : forall a, a ∈ tc_out (make_transitions m) -> is_Some (cx_types ctx !! agg_name a);
}.
Lemma reads_file v name date m ctx tests : main_ok name date m ctx tests ->
  reads (main_lines v name date m ctx tests) (concat (map pr_top (main_tops v name m ctx tests))).
Proof.
  intros [H1 H2 H3 H4 H5 H6 H7 H8 H9]. unfold main_lines, main_tops. cbv zeta.
  set (s0 := match m_states m with s :: _ => st_id s | [] => [] end).
  assert (Hs0 : identifier s0). { subst s0. destruct (m_states m) as [|s l]; [done|]. apply H5, elem_of_list_here. }
  clearbody s0. set (tc := make_transitions m) in *. clearbody tc. set (states := m_states m) in *. clearbody states.
  assert (Hhead : reads [lit "//"; lit "// Test " ++ name; lit "//"; lit "// Test autogenerated by rtcg on " ++ date; lit "//"; lit ""] []).
  { change (@nil tok) with (@nil tok ++ ([] ++ ([] ++ ([] ++ [])))). eapply (reads_take 1); [cbn [take]; block|]. cbn [drop]. eapply (reads_take 1).
    - cbn [take]. apply (reads_comment (lit " Test " ++ name)). rewrite elem_of_app. intros [Hx|Hx]; [|by destruct H1 as (_ & _ & ?)]. revert Hx. apply (bool_decide_eq_true_1 (_ ∉ _)). by vm_compute.
    - cbn [drop]. eapply (reads_take 1); [cbn [take]; block|]. cbn [drop]. eapply (reads_take 1); [|cbn [drop]; block]. cbn [take].
      apply (reads_comment (lit " Test autogenerated by rtcg on " ++ date)). rewrite elem_of_app. intros [Hx|Hx]; [|done]. revert Hx. apply (bool_decide_eq_true_1 (_ ∉ _)). by vm_compute. }
  eapply reads_eq.
  - eapply reads_app; [exact Hhead|]. eapply reads_app; [by apply reads_includes|]. eapply reads_app; [blocke|]. eapply reads_app; [apply reads_constants|]. eapply reads_app; [blocke|].
    eapply reads_app; [by apply reads_verdict|]. eapply reads_app; [blocke|]. eapply reads_app; [apply reads_meta; intros s Hs; by apply H5|]. eapply reads_app; [blocke|].
    eapply reads_app; [by apply reads_stm|]. eapply reads_app; [blocke|]. eapply reads_app; [by apply reads_main|]. blocke.
  - rewrite !map_app, !map_map, !concat_app. cbn [map concat app pr_top]. rewrite ?app_nil_r.
    change (fun x => pr_top (TopItem x)) with pr_item. rewrite ?map_app, ?concat_app. cbn [map concat]. rewrite ?app_nil_r. repeat progress (cbn [app]; rewrite <- ?app_assoc). reflexivity.
Qed.

(** ** Well-formedness *)
Lemma fb_map {X Y} (g : X -> Y) (f : Y -> bool) xs : (forall x, f (g x) = true) -> forallb f (map g xs) = true.
Proof. intros H. induction xs as [|x xs IH]; [done|]. cbn. by rewrite H. Qed.
Lemma fb_app {X} (f : X -> bool) xs ys : forallb f xs = true -> forallb f ys = true -> forallb f (xs ++ ys) = true.
Proof. intros H1 H2. by rewrite forallb_app, H1, H2. Qed.
Lemma fb_concat {X Y} (g : X -> list Y) (f : Y -> bool) xs : (forall x, forallb f (g x) = true) -> forallb f (concat (map g xs)) = true.
Proof. intros H. induction xs as [|x xs IH]; [done|]. cbn. by rewrite forallb_app, H. Qed.
Lemma wf_lit w : wf_e 3 (a_lit w) = true.
Proof. destruct w as [[z|s]|]; [|done|done]. cbn. by destruct (z <? 0)%Z. Qed.
Lemma wf_lit0 w : wf_e 0 (a_lit w) = true.
Proof. destruct w as [[z|s]|]; [|done|done]. cbn. by destruct (z <? 0)%Z. Qed.
Lemma wf_lit2 w : wf_e 2 (a_lit w) = true.
Proof. destruct w as [[z|s]|]; [|done|done]. cbn. by destruct (z <? 0)%Z. Qed.
Lemma wf_guard w : wf_e 0 (a_guard w) = true.
Proof. unfold a_guard. destruct (is_enum_ty (value_type w)); cbn -[a_lit]; [by rewrite wf_lit0|by rewrite wf_lit2]. Qed.
Lemma wf_chain ts last : wf_s last = true -> wf_s (a_chain ts last) = true.
Proof. intros H. induction ts as [|t ts IH]; [done|]. change (wf_e 0 (a_guard (tr_value t)) && true && (true && wf_s (a_chain ts last)) = true). by rewrite wf_guard, IH. Qed.
Lemma wf_if_chain l last : forallb (fun ca => wf_e 0 ca.1 && wf_s ca.2 && negb (open_if ca.2)) l = true -> wf_s last = true -> wf_s (if_chain l last) = true.
Proof.
  intros H1 H2. induction l as [|x l IH]; [done|]. cbn [forallb] in H1. apply andb_prop in H1 as [Hx Hl]. apply andb_prop in Hx as [Hx Ho]. change (wf_e 0 x.1 && wf_s x.2 && (negb (open_if x.2) && wf_s (if_chain l last)) = true). by rewrite Hx, Ho, (IH Hl).
Qed.
Lemma wf_std t : wf_local (std_t t) = true.
Proof. unfold std_t. by destruct (is_enum_ty t), (is_nat_ty t), (is_int_ty t), (is_real_ty t). Qed.
Lemma wf_input v c t : wf_s (a_input v c t) = true.
Proof. unfold a_input. cbv zeta. destruct v; cbn -[a_lit]; by rewrite wf_lit0. Qed.
Lemma wf_act v s : forallb wf_s (a_act v s) = true.
Proof.
  unfold a_act. destruct (verdict_is OFail (st_verdict s)); [done|]. destruct (state_has_in s).
  - apply fb_app; [done|]. destruct (state_in s) as [[c t]|]; [|done]. cbn [forallb]. rewrite wf_input. by destruct v.
  - apply fb_app; [done|]. apply fb_concat. intros ts. apply fb_map. intros t. by destruct v.
Qed.
Lemma wf_entry v s : wf_i (a_entry v s) = true.
Proof. unfold a_entry. cbn -[a_act range_map]. rewrite forallb_app, wf_act, andb_true_r. rewrite fb_map by done. by destruct v. Qed.
Lemma wf_out v a : wf_i (a_out v a) = true.
Proof.
  unfold a_out. cbn -[range_map a_out_case a_log]. rewrite forallb_app. rewrite fb_map.
  - by destruct v.
  - intros [s ts]. cbn -[a_chain a_log]. rewrite wf_chain; [done|]. by destruct v.
Qed.
Lemma wf_accept v tc : wf_i (a_accept v tc) = true.
Proof.
  unfold a_accept. cbn -[range_map a_accept_cases a_log a_accept_params]. rewrite forallb_app. unfold a_accept_cases. rewrite fb_concat.
  - by destruct v.
  - intros [s ts]. cbn [snd fst]. destruct ts; [done|]. by destruct v.
Qed.
Lemma wf_main v name tc ctx : wf_i (a_main v name tc ctx) = true.
Proof.
  assert (Hi : forallb wf_s (a_init v name tc) = true).
  { unfold a_init. repeat apply fb_app; try (by destruct v).
    - destruct v; try done. unfold a_ros_init. apply fb_app; [done|]. by apply fb_map.
    - destruct v; try done. cbn. rewrite andb_true_r. by apply fb_map.
    - destruct v; try done. unfold a_ros_subs. repeat apply fb_app; try done; [by destruct (tc_has_in tc)|by apply fb_map|by destruct (tc_first_state_has_in tc)]. }
  assert (Hl : forallb wf_s (a_loop tc ctx) = true).
  { unfold a_loop. apply fb_app; [by destruct (tc_first_state_has_in tc)|]. cbn -[a_round]. rewrite andb_true_r. unfold a_round, a_prompt. repeat apply fb_app; try done.
    - destruct (tc_has_in tc); [|done]. by destruct (tc_first_state_has_in tc).
    - destruct (tc_out tc) as [|a l]; [done|]. by apply fb_map.
    - cbn [forallb]. rewrite wf_if_chain; [done| |done]. unfold a_choices. repeat apply fb_app; [done|by destruct (tc_first_state_has_in tc)|by destruct (tc_has_in tc)|].
      apply fb_map. intros a. cbn -[a_type_std]. assert (Hstd : wf_local (a_type_std ctx (agg_name a)) = true); [|by rewrite Hstd].
      unfold a_type_std. destruct (cx_types ctx !! agg_name a); [apply wf_std|done]. }
  change (CxxProofs.wf_type (CType false BInt []) && true && forallb wf_param (a_main_params v) && forallb wf_s (a_init v name tc ++ match v with VRos => [ecall [lit "ros"; lit "spin"] []] | _ => a_loop tc ctx end ++ a_final v name) = true).
  rewrite !forallb_app, Hi. destruct v; cbn [forallb a_main_params]; rewrite ?Hl; reflexivity.
Qed.
Lemma wf_stm v tc s0 states : forallb wf_i (a_stm v tc s0 states) = true.
Proof.
  unfold a_stm. apply fb_app; [|repeat apply fb_app].
  - cbn [forallb]. assert (wf_i (a_class v tc s0 states) = true) as ->.
    { unfold a_class. change (forallb wf_m (a_members v tc s0 states) = true). unfold a_members. repeat apply fb_app; try done.
      - destruct v; try done. cbn. rewrite fb_map; done.
      - destruct (tc_first_state_has_in tc); [by destruct v|done].
      - destruct (tc_has_in tc); [by destruct v|done].
      - by apply fb_map.
      - destruct v; try done. by apply fb_map.
      - by apply fb_map. }
    assert (wf_i (a_ctor v tc s0) = true) as ->; [|by destruct v]. unfold a_ctor. cbn. rewrite forallb_app. apply andb_true_intro. split.
    + destruct v; try done. by apply fb_map.
    + apply andb_true_intro. split; [by destruct (tc_first_state_has_in tc)|]. destruct v; try done. by apply fb_map.
  - destruct (tc_first_state_has_in tc); [by destruct v|done].
  - destruct (tc_has_in tc); [cbn [forallb]; by rewrite wf_accept|done].
  - apply fb_map, wf_out.
  - apply fb_map, wf_entry.
Qed.
Lemma wf_main_tops v name m ctx tests : forallb wf_top (main_tops v name m ctx tests) = true.
Proof.
  unfold main_tops. cbv zeta. assert (Ht : forall l, forallb wf_i l = true -> forallb wf_top (map TopItem l) = true).
  { intros l. induction l as [|i l IH]; [done|]. cbn. intros [Hi H]%andb_prop. rewrite Hi. by apply IH. }
  repeat apply fb_app.
  - apply Ht. apply fb_app; [|apply fb_app; [|apply fb_app]].
    + unfold a_includes. by apply fb_map.
    + by destruct v.
    + unfold a_verdict. apply fb_app; [|apply fb_map; intros t; by destruct v]. cbn [forallb]. rewrite andb_true_r. apply andb_true_intro. split.
      * change (forallb wf_m (a_verdict_members tests) = true). unfold a_verdict_members. repeat apply fb_app; try done; by apply fb_map.
      * unfold a_dump. cbn. rewrite fb_map; by destruct v.
    + done.
  - cbn. rewrite fb_map; done.
  - apply Ht, fb_app; [apply wf_stm|]. cbn [forallb]. by rewrite wf_main.
Qed.
(** The reader finds in the text what MainAst.v says. *)
Lemma read_main v name date m ctx tests : main_ok name date m ctx tests -> read_cpp (main_text v name date m ctx tests) = Some (main_items v name m ctx tests).
Proof.
  intros H. destruct (reads_file v name date m ctx tests H) as [E Hn]. apply read_tokens; [|apply wf_main_tops]. unfold main_text, lines_of. change newline with [byte 10].
  rewrite split_join; [exact E|done|exact Hn].
Qed.
