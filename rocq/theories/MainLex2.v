(** * The reader of SpecCxx.v on the text of main.cpp, continued *)
From Verif Require Export MainLex.
From Verif Require Export StmProofs.

Definition if_toks (w : value) (f : gostr) : list tok := TKw KIf :: TP PLParen :: pr_expr (a_guard w) ++ TP PRParen :: pr_stmt (ecall [f] []).
Lemma int_not_enum z : is_enum_ty (value_type (Some (IntV z))) = false.
Proof. cbn. by destruct (0 <=? z)%Z. Qed.
Lemma enum_enum s : is_enum_ty (value_type (Some (EnumV s))) = true.
Proof. reflexivity. Qed.
Ltac abs_digits := match goal with |- context [format_N ?n] => let h := fresh in pose proof (format_digits n) as h; revert h; generalize (format_N n); intros ? h end.
Ltac by_value w := destruct w as [[z|str]|]; [|cbn [text_value] in *|done]; cbn [value_string_value valuable_text a_lit];
  [rewrite ?int_not_enum; unfold format_int; destruct (z <? 0)%Z; abs_digits|rewrite ?enum_enum].
Lemma reads_if w next : text_value w -> identifier next ->
  reads [lit "    if (" ++ mn_guard w ++ lit ")"; lit "      " ++ state_entry next ++ lit "();"] (if_toks w (state_entry next)).
Proof. intros H1 H2. unfold mn_guard, if_toks, a_guard. by_value w; abs; block. Qed.
Lemma reads_elif t : text_value (tr_value t) -> identifier (tr_next t) -> reads (mn_elif t) (TKw KElse :: if_toks (tr_value t) (state_entry (tr_next t))).
Proof. intros H1 H2. unfold mn_elif, mn_guard, if_toks, a_guard. generalize dependent (tr_value t). intros w H1. by_value w; abs; block. Qed.
Lemma chain_toks t ts last : pr_stmt (a_chain (t :: ts) last) =
  if_toks (tr_value t) (state_entry (tr_next t)) ++ concat (map (fun t => TKw KElse :: if_toks (tr_value t) (state_entry (tr_next t))) ts) ++ TKw KElse :: pr_stmt last.
Proof.
  revert t. induction ts as [|u ts IH]; intros t.
  - cbn [a_chain foldr map concat pr_stmt app]. unfold if_toks. cbn [app]. by rewrite <- app_assoc.
  - change (pr_stmt (a_chain (t :: u :: ts) last)) with (TKw KIf :: TP PLParen :: pr_expr (a_guard (tr_value t)) ++ TP PRParen :: pr_stmt (ecall [state_entry (tr_next t)] []) ++ TKw KElse :: pr_stmt (a_chain (u :: ts) last)).
    rewrite IH. cbn [map concat]. generalize (concat (map (fun t => TKw KElse :: if_toks (tr_value t) (state_entry (tr_next t))) ts)). unfold if_toks at 2. intros T.
    repeat progress (cbn [app]; rewrite <- ?app_assoc). reflexivity.
Qed.
Lemma reads_out_case v c s ts : ts <> [] -> identifier (ch_name c) -> identifier s -> (forall t, t ∈ ts -> identifier (tr_next t) /\ text_value (tr_value t)) ->
  reads (mn_out_case v c s ts) (match a_out_case v c s ts with (c, b) => pr_label c ++ concat (map pr_stmt b) end).
Proof.
  intros Hne Hc Hs Ht. unfold mn_out_case, a_out_case. destruct ts as [|t ts]; [done|].
  assert (H1 : reads [lit "    if (" ++ mn_guard (tr_value t) ++ lit ")"; lit "      " ++ state_entry (tr_next t) ++ lit "();"] (if_toks (tr_value t) (state_entry (tr_next t)))).
  { destruct (Ht t (elem_of_list_here _ _)). by apply reads_if. }
  assert (H2 : reads (concat (map mn_elif ts)) (concat (map (fun t => TKw KElse :: if_toks (tr_value t) (state_entry (tr_next t))) ts))).
  { apply reads_concat. intros u Hu. destruct (Ht u (elem_of_list_further _ _ _ Hu)). by apply reads_elif. }
  cbn [map concat]. rewrite chain_toks. revert H1 H2. generalize (if_toks (tr_value t) (state_entry (tr_next t))). generalize (concat (map (fun t => TKw KElse :: if_toks (tr_value t) (state_entry (tr_next t))) ts)).
  generalize ([lit "    if (" ++ mn_guard (tr_value t) ++ lit ")"; lit "      " ++ state_entry (tr_next t) ++ lit "();"]). generalize (concat (map mn_elif ts)). intros l1 l2 T1 T2 H1 H2. clear -Hc Hs H1 H2.
  assert (Hcb : body_ok (channel_string c)) by eauto with names. revert Hcb. generalize (channel_string c). intros cs Hcb.
  destruct v; open_lines; abs; (eapply reads_eq; [eapply reads_app; [rd|eapply reads_app; [eapply reads_app; [exact H1|exact H2]|rd]]|same]).
Qed.
Lemma reads_out v tc a : tc_ok tc -> a ∈ tc_out tc -> (forall s ts, (s, ts) ∈ range_map (ag_states a) -> ts <> []) -> reads (mn_out v a) (pr_item (a_out v a)).
Proof.
  intros [_ H2 _ H4] Ha Hne. pose proof (H2 a Ha) as Hc. specialize (H4 a). unfold mn_out, a_out, agg_name.
  assert (Hcs : reads (concat (map (fun sts => mn_out_case v (ag_chan a) sts.1 sts.2) (range_map (ag_states a)))) (pr_cases (map (fun sts => a_out_case v (ag_chan a) sts.1 sts.2) (range_map (ag_states a))))).
  { rewrite map_map. apply (reads_concat _ (fun sts => match a_out_case v (ag_chan a) sts.1 sts.2 with (c, b) => pr_label c ++ concat (map pr_stmt b) end)). intros [s ts] Hin.
    destruct (H4 s ts Ha Hin) as [Hs Ht]. apply reads_out_case; [by eapply Hne|done|done|done]. }
  revert Hcs. generalize (concat (map (fun sts => mn_out_case v (ag_chan a) sts.1 sts.2) (range_map (ag_states a)))). generalize (map (fun sts => a_out_case v (ag_chan a) sts.1 sts.2) (range_map (ag_states a))).
  unfold agg_name in Hc. clear -Hc. intros cs ls Hcs. unfold out_params, a_out_params, agg_name. revert Hc. generalize (ag_chan a). intros c Hc.
  assert (Hcb : body_ok (channel_string c)) by eauto with names. revert Hcb. generalize (channel_string c). intros s Hcb.
  destruct v; open_lines; abs; (eapply reads_eq; [eapply reads_app; [rd|eapply reads_app; [exact Hcs|rd]]|]; cbn [map concat pr_item pr_stmt]; rewrite ?map_app, ?concat_app; generalize (pr_cases cs); intros T; same).
Qed.

(** ** Entry functions *)
Lemma reads_two v id a b : body_ok id -> body_ok a -> body_ok b -> reads (mn_two_lines v id a b) (pr_stmt (a_two v id a b)).
Proof. intros H1 H2 H3. unfold mn_two_lines, a_two. destruct v; open_lines; abs; block. Qed.
Lemma reads_input v c t : identifier (ch_name c) -> text_value (tr_value t) -> reads [mn_input v c t] (pr_stmt (a_input v c t)).
Proof.
  intros H1 H2. unfold mn_input, a_input, cpp_value. cbv zeta. generalize dependent (tr_value t). intros w H2. generalize dependent (ch_name c). intros n Hn.
  by_value w; try change ((lit """" ++ str) ++ lit """") with (quoted str); destruct v; open_lines; abs; block.
Qed.
Definition state_ok (s : state) : Prop :=
  identifier (st_id s) /\ (forall t o, (t, o) ∈ range_map (st_verdict s) -> plain_ident t /\ plain_ident (outcome_enum o)) /\
  (forall ts t, ts ∈ st_tsets s -> t ∈ ts_trans ts -> identifier (ch_name (ts_chan ts)) /\ text_value (tr_value t) /\ identifier (tr_next t)).
Lemma in_from s c t : state_in s = Some (c, t) -> exists ts, ts ∈ st_tsets s /\ t ∈ ts_trans ts /\ ts_chan ts = c.
Proof.
  unfold state_in. induction (st_tsets s) as [|ts l IH]; [done|]. cbn. destruct (is_in (ts_chan ts) && (length (ts_trans ts) =? 1)).
  - destruct (ts_trans ts) as [|u us] eqn:E; [done|]. intros [= <- <-]. exists ts. split; [apply elem_of_list_here|]. rewrite E. split; [apply elem_of_list_here|done].
  - intros H. destruct (IH H) as (x & Hx & Hr). exists x. split; [by apply elem_of_list_further|done].
Qed.
Lemma reads_act v s : state_ok s ->
  reads (if verdict_is OFail (st_verdict s) then [lit ""; lit "  end(rtcg::Status::FAIL); // This state fails at least one test"]
   else if state_has_in s then
     [lit ""; lit "  // This state provides an input to the SUT"; lit "  status_ = rtcg::Status::WAIT_IN;"] ++
     match state_in s with
     | Some (c, t) =>
       mn_two_lines v (st_id s) (lit "' sends " ++ value_string_value (tr_value t) ++ lit " to SUT on " ++ ch_name c ++ lit "; ")
         (lit "if accepted, next state will be '" ++ tr_next t ++ lit "'.") ++ [lit ""; mn_input v c t]
     | None => []
     end
   else
     [lit ""; lit "  // This state expects an output from the SUT"; lit "  status_ = rtcg::Status::WAIT_OUT;"] ++
     concat (map (fun ts => concat (map (mn_expected v (st_id s) (ts_chan ts)) (ts_trans ts))) (st_tsets s))) (concat (map pr_stmt (a_act v s))).
Proof.
  intros (Hid & _ & Ht). unfold a_act. assert (Hlit : forall x, bool_decide (body_ok (lit x)) = true -> body_ok (lit x)) by (intros x; apply bool_decide_eq_true_1).
  destruct (verdict_is OFail (st_verdict s)); [block|]. destruct (state_has_in s).
  - rewrite map_app, concat_app. apply reads_app; [block|]. destruct (state_in s) as [[c t]|] eqn:E; [|apply reads_nil]. apply in_from in E as (ts & Hts & Htr & <-).
    destruct (Ht ts t Hts Htr) as (H1 & H2 & H3). cbn [map concat]. rewrite app_nil_r. apply reads_app.
    + apply reads_two; [by apply ident_body| |]; repeat apply body_app; eauto with names; apply Hlit; by vm_compute.
    + eapply reads_eq; [eapply (reads_take 1); cbn [take drop]; [block|by apply reads_input]|done].
  - rewrite map_app, concat_app. apply reads_app; [block|]. rewrite concat_map, concat_concat_map || idtac.
    eapply reads_eq; [apply (reads_concat _ (fun ts => concat (map (fun t => pr_stmt (a_expected v (st_id s) (ts_chan ts) t)) (ts_trans ts))))|].
    + intros ts Hts. apply reads_concat. intros t Htr. destruct (Ht ts t Hts Htr) as (H1 & H2 & H3). unfold mn_expected, a_expected.
      apply reads_two; [by apply ident_body| |]; repeat apply body_app; eauto with names; apply Hlit; by vm_compute.
    + induction (st_tsets s) as [|ts l IH]; [done|]. cbn [map concat]. rewrite map_app, concat_app, map_map. f_equal. apply IH. intros ts' t Hts'. apply Ht. by apply elem_of_list_further.
Qed.
Lemma reads_entry v s : state_ok s -> reads (mn_entry v s) (pr_item (a_entry v s)).
Proof.
  intros H. pose proof (reads_act v s H) as Ha. destruct H as (Hid & Hv & _). unfold mn_entry, a_entry. revert Ha.
  match goal with |- reads ?x _ -> _ => generalize x end. generalize (a_act v s). intros act la Ha. revert Hv. generalize (range_map (st_verdict s)). intros vs Hv.
  assert (Hvs : reads (map (fun to => lit "  verdict_." ++ to.1 ++ lit "(rtcg::Outcome::" ++ outcome_enum to.2 ++ lit ");") vs) (concat (map pr_stmt (map a_set_verdict vs)))).
  { rewrite map_map. apply (reads_map _ (fun x => pr_stmt (a_set_verdict x))). intros [t o] Hin. destruct (Hv t o Hin) as [H1 H2]. unfold a_set_verdict. cbn [fst snd]. revert H2. generalize (outcome_enum o). intros e H2. block. }
  revert Hvs. generalize (map (fun to => lit "  verdict_." ++ to.1 ++ lit "(rtcg::Outcome::" ++ outcome_enum to.2 ++ lit ");") vs). generalize (map a_set_verdict vs). intros sv lv Hvs. clear Hv.
  destruct v; open_lines; abs; (eapply reads_eq; [eapply reads_app; [rd|eapply reads_app; [exact Hvs|eapply reads_app; [exact Ha|rd]]]|];
    cbn [map concat pr_item]; rewrite ?map_app, ?concat_app; generalize (concat (map pr_stmt sv)); generalize (concat (map pr_stmt act)); intros T1 T2; same).
Qed.
Lemma reads_stm v tc s0 states : tc_ok tc -> identifier s0 -> (forall s, s ∈ states -> state_ok s) ->
  (forall a s ts, a ∈ tc_out tc -> (s, ts) ∈ range_map (ag_states a) -> ts <> []) ->
  reads (mn_stm v tc s0 states) (concat (map pr_item (a_stm v tc s0 states))).
Proof.
  intros Htc Hs0 Hst Hne. unfold mn_stm, a_stm.
  assert (Hid : forall s, s ∈ states -> identifier (st_id s)) by (intros s Hs; by apply Hst).
  eapply reads_eq.
  - eapply reads_app; [by apply reads_class|]. eapply reads_app; [by apply reads_ctor|]. eapply reads_app; [apply reads_methods|]. eapply reads_app; [by apply reads_timers|].
    eapply reads_app; [by apply reads_accept|]. eapply reads_app; [apply (reads_concat _ (fun a => pr_item (a_out v a))); intros a Ha; apply (reads_out v tc); [done|done|]; intros s ts Hin; by apply (Hne a s ts)|].
    eapply reads_app; [blocke|]. apply (reads_concat _ (fun s => pr_item (a_entry v s))). intros s Hs. by apply reads_entry, Hst.
  - rewrite !map_app, !concat_app, !map_map. cbn [map concat app]. rewrite ?app_nil_r, <- !app_assoc. reflexivity.
Qed.

(** ** main *)
Lemma reads_choice ctx a : identifier (agg_name a) -> is_Some (cx_types ctx !! agg_name a) -> 
  reads (mn_choice ctx a) (TKw KElse :: TKw KIf :: TP PLParen :: pr_expr (a_choice ctx a).1 ++ TP PRParen :: pr_stmt (a_choice ctx a).2).
Proof.
  intros H [[t o] Ht]. unfold mn_choice, a_choice, type_std, a_type_std. rewrite Ht. cbn [fst snd]. generalize dependent (agg_name a). intros n Hn _. unfold std_type, std_t.
  destruct (is_enum_ty t), (is_nat_ty t), (is_int_ty t), (is_real_ty t); abs; block.
Qed.
Lemma chain_pr x l last : pr_stmt (if_chain (x :: l) last) = TKw KIf :: TP PLParen :: pr_expr x.1 ++ TP PRParen :: pr_stmt x.2 ++
  concat (map (fun ca => TKw KElse :: TKw KIf :: TP PLParen :: pr_expr ca.1 ++ TP PRParen :: pr_stmt ca.2) l) ++ TKw KElse :: pr_stmt last.
Proof.
  revert x. induction l as [|y l IH]; intros x; [done|]. change (pr_stmt (if_chain (x :: y :: l) last)) with (TKw KIf :: TP PLParen :: pr_expr x.1 ++ TP PRParen :: pr_stmt x.2 ++ TKw KElse :: pr_stmt (if_chain (y :: l) last)).
  rewrite IH. cbn [map concat]. repeat progress (cbn [app]; rewrite <- ?app_assoc). reflexivity.
Qed.
Lemma reads_loop tc ctx : tc_ok tc -> (forall a, a ∈ tc_out tc -> is_Some (cx_types ctx !! agg_name a)) -> reads (mn_loop tc ctx) (concat (map pr_stmt (a_loop tc ctx))).
Proof.
  intros [_ H2 _ _] Hty. unfold mn_loop, a_loop, a_round, a_prompt.
  assert (Hch : reads (concat (map (mn_choice ctx) (tc_out tc))) (concat (map (fun ca => TKw KElse :: TKw KIf :: TP PLParen :: pr_expr ca.1 ++ TP PRParen :: pr_stmt ca.2) (map (a_choice ctx) (tc_out tc))))).
  { rewrite map_map. apply (reads_concat _ (fun a => TKw KElse :: TKw KIf :: TP PLParen :: pr_expr (a_choice ctx a).1 ++ TP PRParen :: pr_stmt (a_choice ctx a).2)). intros a Ha. by apply reads_choice; [apply H2|apply Hty]. }
  assert (Hls : reads (match tc_out tc with
   | [] => [lit "    std::cout << ""  No outputs available for this test-case.\n"";"]
   | outs => map (fun a => lit "    std::cout << " ++ quoted (lit "  " ++ agg_name a ++ lit " (type: " ++ type_name ctx (agg_name a) ++ lit ")\n") ++ lit ";") outs
   end) (concat (map pr_stmt (match tc_out tc with
  | [] => [cout (lit "  No outputs available for this test-case.\n")]
  | outs => map (fun a => cout (lit "  " ++ agg_name a ++ lit " (type: " ++ type_name ctx (agg_name a) ++ lit ")\n")) outs
  end)))).
  { clear -H2. destruct (tc_out tc) as [|a l]; [block|]. generalize dependent (a :: l). clear. intros outs H2. rewrite map_map. apply (reads_map _ (fun a => pr_stmt (cout (lit "  " ++ agg_name a ++ lit " (type: " ++ type_name ctx (agg_name a) ++ lit ")\n")))).
    intros a Ha. specialize (H2 a Ha). generalize dependent (agg_name a). intros n Hn. assert (Hb : body_ok (type_name ctx n)) by apply type_name_body. revert Hb. generalize (type_name ctx n). intros y Hb. block. }
  unfold a_choices. revert Hch Hls. generalize (map (a_choice ctx) (tc_out tc)). generalize (concat (map (mn_choice ctx) (tc_out tc))).
  match goal with |- context [reads (match tc_out tc with _ => _ end) (concat (map pr_stmt ?y))] => generalize y end.
  match goal with |- context [reads (match tc_out tc with _ => _ end) _] => idtac end.
  intros outs lc cs Hch Hls. revert Hls. match goal with |- reads ?x _ -> _ => generalize x end. intros lo Hlo.
  clear Hty H2. destruct (tc_first_state_has_in tc), (tc_has_in tc);
  (eapply reads_eq; [rd; first [exact Hlo|exact Hch]|];
   cbn [map concat pr_stmt app]; rewrite ?map_app, ?concat_app; cbn [map concat app]; rewrite chain_pr; cbn [map concat app];
   generalize (concat (map pr_stmt outs)); generalize (concat (map (fun ca : expr * stmt => TKw KElse :: TKw KIf :: TP PLParen :: pr_expr ca.1 ++ TP PRParen :: pr_stmt ca.2) cs)); intros T1 T2; same).
Qed.
