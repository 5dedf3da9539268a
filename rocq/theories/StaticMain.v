(** * The function main of main.cpp checks *)
From Verif Require Export StaticProofs.
From Verif Require Export StmProofs.

Section Main.
  Context (h : list item) (v : variant) (tests : list gostr) (m : stm) (p : list citem) (name : gostr) (ctx : cctx).
  Context (Hm : machine_static v m) (HH : header_has h m) (Hu : declared_upto v tests m 4 p).
  Notation tc := (make_transitions m).
  Notation ex vars := (ck_expr h p None vars).
  Notation st := (ck_stmt h p None true).
  Context (Hname : cpp_safe name) (Houts : forall a, a ∈ tc_out tc -> cpp_safe (agg_name a)) (Hins : forall a, a ∈ tc_in tc -> cpp_safe (agg_name a)).

  Lemma mn_class : find_class p (lit "StateMachine") = Some (Some [lit "rtcg"; lit "TestCase"], members_of v m).
  Proof. apply (du_machine _ _ _ _ _ Hu). lia. Qed.
  Lemma mn_headers : headers v p.
  Proof. apply Hu. Qed.
  Lemma mn_log level s ps brk vars : level = info \/ level = err -> cpp_safe s -> forallb (ex vars) ps = true -> st brk vars (a_log v level (EStr s) ps) = true.
  Proof. intros Hl Hs Hps. eapply ck_log; [apply mn_headers|done|done|done|done]. Qed.
  Lemma mn_plain level e ps : declared (a_log v level e ps) = None.
  Proof. by destruct v. Qed.
  (** Statements that need only some of the variables. *)
  Definition fine (need : list gostr) (brk : bool) (s : stmt) : Prop := forall vars, (forall x, x ∈ need -> x ∈ vars) -> st brk vars s = true.
  Lemma fine_more (need need' : list gostr) brk s : (forall x, x ∈ need -> x ∈ need') -> fine need brk s -> fine need' brk s.
  Proof. intros H Hf vars Hv. apply Hf. intros x Hx. by apply Hv, H. Qed.
  Lemma block_fine need brk a b here vars : Forall (fine need brk) a -> (forall x, x ∈ need -> x ∈ vars) -> NoDup (omap declared a) -> (forall x, x ∈ omap declared a -> x ∉ here) ->
    ck_block h p None true brk (rev (omap declared a) ++ here) (rev (omap declared a) ++ vars) b = true -> ck_block h p None true brk here vars (a ++ b) = true.
  Proof.
    revert here vars. induction a as [|s a IH]; intros here vars Ha Hv Hnd Hh Hb; [done|]. apply Forall_cons in Ha as [Hs Ha]. cbn [app ck_block]. rewrite (Hs vars Hv). cbn [andb].
    cbn [omap list_omap] in Hnd, Hh, Hb. destruct (declared s) as [x|].
    - apply NoDup_cons in Hnd as [Hx Hnd]. rewrite (proj2 (negb_true_iff (mem x here))). 2: { apply bool_decide_eq_false_2. apply Hh. left. }
      cbn [andb]. apply IH; [done|intros y Hy; right; by apply Hv|done| |].
      + intros y Hy. rewrite elem_of_cons. intros [->|Hy']; [done|]. apply (Hh y); [by right|done].
      + cbn [rev] in Hb. by rewrite <- !app_assoc in Hb.
    - by apply IH.
  Qed.
  Lemma fine_log need level s ps brk : level = info \/ level = err -> cpp_safe s -> (forall vars, (forall x, x ∈ need -> x ∈ vars) -> forallb (ex vars) ps = true) -> fine need brk (a_log v level (EStr s) ps).
  Proof. intros H1 H2 H3 vars Hv. apply mn_log; [done|done|by apply H3]. Qed.
  Lemma var_fine (need : list gostr) x vars : x ∈ need -> (forall x, x ∈ need -> x ∈ vars) -> ex vars (nm x) = true.
  Proof. intros H Hv. apply ck_var. by apply Hv. Qed.
  Lemma mn_no_macro x : match x with c :: _ => is_lower c | [] => false end = true -> no_macro h p x = true.
  Proof. destruct x as [|c r]; [done|]. intros Hc. apply not_macro; [apply HH|by apply low_not_macro]. Qed.

  (** ** Methods of the machine *)
  Lemma stm_call (need : list gostr) vars f args : lit "stm" ∈ need -> (forall x, x ∈ need -> x ∈ vars) -> (exists t ps, MMethod (Some t) f ps ∈ members_of v m /\ length ps = length args) -> forallb (ex vars) args = true ->
    ex vars (mcall (lit "stm") f args) = true.
  Proof.
    intros H1 H2 H3 H4. rewrite ck_mcall, H4. change (ck_name p None vars [?x]) with (ex vars (nm x)). rewrite ck_var by (by apply H2).
    rewrite (any_method_in p (lit "StateMachine") _ _ f (length args) mn_class) by (by apply method_n_elem). done.
  Qed.
  Lemma get_status_ok (need : list gostr) vars : lit "stm" ∈ need -> (forall x, x ∈ need -> x ∈ vars) -> ex vars get_status = true.
  Proof.
    intros H1 H2. unfold get_status. rewrite ck_mcall. change (ck_name p None vars [?x]) with (ex vars (nm x)). rewrite ck_var by (by apply H2). cbn [length forallb andb]. rewrite andb_true_r.
    unfold any_method. apply orb_true_iff. right. by vm_compute.
  Qed.
  Lemma has_timeout : MMethod (Some void_t) (lit "timeoutCallback") (a_timer_params v) ∈ members_of v m.
  Proof. unfold members_of, a_members. right; right; right; left. Qed.
  Lemma has_delay : tc_first_state_has_in tc = true -> MMethod (Some void_t) (lit "initialDelayCallback") (a_timer_params v) ∈ members_of v m.
  Proof. intros Hf. unfold members_of, a_members. rewrite Hf. rewrite !elem_of_app. right; left. left. Qed.
  Lemma has_accept : tc_has_in tc = true -> MMethod (Some void_t) (lit "inputAcceptedCallback") (a_accept_params v) ∈ members_of v m.
  Proof. intros Hin. unfold members_of, a_members. rewrite Hin. rewrite !elem_of_app. right; right; left. left. Qed.

  (** ** The end *)
  Lemma mn_running vars e : ex vars e = true -> ex vars (is_running_of e) = true.
  Proof.
    intros He. unfold is_running_of. rewrite ck_call. cbn [length forallb]. rewrite He. cbn [andb]. rewrite andb_true_r. unfold ck_fun. apply orb_true_iff. left.
    change (lib_has p [lit "rtcg"; lit "status"; lit "isRunning"]) with (included p (lit """rtcg.h""")). rewrite (hd_rtcg _ _ mn_headers). by vm_compute.
  Qed.
  Lemma final_ok here vars : lit "stm" ∈ vars -> lit "status" ∉ here -> ck_block h p None true false here vars (a_final v name) = true.
  Proof.
    intros Hs Hh. unfold a_final. apply (block_fine [lit "stm"] false [_]); [|by intros x ->%elem_of_list_singleton|by apply NoDup_singleton|by intros x ->%elem_of_list_singleton|].
    - constructor; [|constructor]. intros w Hw. cbn [ck_stmt]. rewrite mn_no_macro by done. cbn [andb]. apply (get_status_ok [lit "stm"]); [left|done].
    - cbn [omap list_omap declared rev app]. apply ck_block_all. assert (H1 : ex (lit "status" :: vars) (nm (lit "status")) = true) by (apply ck_var; left).
      assert (H2 : ex (lit "status" :: vars) (nm (lit "stm")) = true) by (apply ck_var; by right).
      constructor; [|constructor; [|constructor; [|constructor]]].
      + split; [apply mn_plain|]. apply mn_log; [by left| |].
        * apply cpp_safe_app; [by apply safeb_ok|]. apply cpp_safe_app; [done|by apply safeb_ok].
        * cbn [forallb]. rewrite H1, ck_str by (by apply safeb_ok). done.
      + split; [done|]. rewrite ck_expr_stmt.
        assert (E : ex (lit "status" :: vars) (EPost (nm (lit "stm")) [XDot (lit "getVerdict"); XCall []; XDot (lit "dump"); XCall []]) =
          ex (lit "status" :: vars) (nm (lit "stm")) && (any_method p (lit "getVerdict") 0 && true && (any_method p (lit "dump") 0 && true && true))) by reflexivity.
        rewrite E, H2. clear E. rewrite (any_method_in p (lit "StateMachine") _ _ _ _ mn_class).
        2: { apply method_n_elem. exists verdict_ref, []. split; [|done]. unfold members_of, a_members. right; right; left. }
        rewrite (any_method_in p (lit "Verdict") None (a_verdict_members tests)); [done|apply (du_verdict _ _ _ _ _ Hu); lia|].
        apply method_n_elem. exists void_t, []. split; [|done]. unfold a_verdict_members. right; left.
      + split; [done|]. cbn [ck_stmt]. rewrite ck_call. cbn [length forallb]. rewrite H1. cbn [andb]. rewrite andb_true_r. unfold ck_fun. apply orb_true_iff. left.
        change (lib_has p [lit "rtcg"; lit "status"; lit "exitCode"]) with (included p (lit """rtcg.h""")). rewrite (hd_rtcg _ _ mn_headers). by vm_compute.
  Qed.
  (** ** The loop of the animation *)
  Lemma cout_ok brk vars s : is_Some (str_body (s ++ [byte 34])) -> declared (cout s) = None /\ st brk vars (cout s) = true.
  Proof.
    intros [x Hx]. split; [done|]. unfold cout. rewrite ck_expr_stmt, ck_ops. rewrite (ck_std _ _ v mn_headers) by (by eexists). cbn [forallb snd andb ck_expr]. unfold str_value. by rewrite Hx.
  Qed.
  Lemma cout_st brk vars s : is_Some (str_body (s ++ [byte 34])) -> st brk vars (cout s) = true.
  Proof. intros H. by apply cout_ok. Qed.
  Lemma mn_eq vars a b : ex vars a = true -> ex vars b = true -> ex vars (e_eq a b) = true.
  Proof. intros Ha Hb. unfold e_eq. rewrite ck_ops. cbn [forallb snd]. by rewrite Ha, Hb. Qed.
  Lemma mn_is vars s : lit "s" ∈ vars -> ex vars (e_eq (nm (lit "s")) (status_q (status_text s))) = true.
  Proof. intros H. apply mn_eq; [by apply ck_var|apply (ck_status _ _ v mn_headers)]. Qed.
  Lemma prompt_ok vars : lit "s" ∈ vars -> Forall (fun s => declared s = None /\ st true vars s = true) (a_prompt tc ctx).
  Proof.
    intros Hs. unfold a_prompt. repeat apply Forall_app_2.
    - constructor; [|constructor]. apply cout_ok. by eexists.
    - destruct (tc_has_in tc); [|constructor]. constructor; [|constructor]. cbv zeta.
      assert (A : st true vars (SIf (e_eq (nm (lit "s")) (status_q (lit "WAIT_IN"))) (cout (lit "  accept (accepts an input)\n")) None) = true).
      { rewrite ck_if. change (lit "WAIT_IN") with (status_text WAIT_IN). rewrite mn_is by done. rewrite cout_st by (by eexists). done. }
      destruct (tc_first_state_has_in tc); [|by split]. split; [done|]. rewrite ck_if. change (lit "WAIT_START") with (status_text WAIT_START). rewrite mn_is by done. rewrite cout_st by (by eexists). exact A.
    - constructor; [|constructor; [|constructor]]; apply cout_ok; by eexists.
    - assert (Hl : forall l, (forall a, a ∈ l -> a ∈ tc_out tc) -> Forall (fun s => declared s = None /\ st true vars s = true)
        (map (fun a => cout (lit "  " ++ agg_name a ++ lit " (type: " ++ type_name ctx (agg_name a) ++ lit ")\n")) l)).
      { intros l Hl. apply Forall_forall. intros x Hx. apply elem_of_list_fmap in Hx as (a & -> & Ha). apply cout_ok.
        rewrite <- !app_assoc. rewrite str_body_app by (by apply safeb_ok). rewrite str_body_app by (by apply Houts, Hl).
        rewrite str_body_app by (by apply safeb_ok). rewrite str_body_app by apply type_name_safe. by eexists. }
      destruct (tc_out tc) as [|a l] eqn:Eo; [constructor; [|constructor]; apply cout_ok; by eexists|]. by apply Hl.
    - constructor; [|constructor]. apply cout_ok. by eexists.
  Qed.
  Lemma mn_conv vars f e : (forall g, f <> "R"%char :: g) -> f ∈ functions h -> ex vars e = true -> ex vars (MainAst.call [f] [e]) = true.
  Proof.
    intros H1 H3 He. rewrite ck_call. cbn [length forallb]. rewrite He. unfold ck_fun. change (has_method (methods_of p None) f) with false. cbn iota.
    assert (log_macro [f] = false) as ->. { unfold log_macro, log_macros. cbn [existsb]. rewrite !str_eqb_ne; [done|apply H1|apply H1]. }
    rewrite (proj2 (mem_true _ _) H3), (hd_convert _ _ mn_headers). done.
  Qed.
  Lemma ty_string : ck_type h p (plain_t [lit "std"; lit "string"]) = true.
  Proof. unfold ck_type. cbn [plain_t ct_base ck_base]. change (lib_has p [lit "std"; lit "string"]) with (included p (lit "<string>")). rewrite (hd_string _ _ mn_headers). by vm_compute. Qed.
  Lemma ty_std c : ck_type h p (a_type_std ctx c) = true.
  Proof.
    unfold a_type_std. destruct (cx_types ctx !! c) as [t|]; [|done]. unfold std_t. destruct (is_enum_ty t.1); [apply ty_string|]. destruct (is_nat_ty t.1); [done|]. destruct (is_int_ty t.1); [done|].
    by destruct (is_real_ty t.1).
  Qed.
  Lemma read_ok brk vars x : x ∈ vars -> st brk vars (read_into x) = true.
  Proof. intros Hx. unfold read_into. rewrite ck_expr_stmt, ck_ops. rewrite (ck_std _ _ v mn_headers) by (by eexists). cbn [forallb snd]. rewrite ck_var by done. done. Qed.
  Lemma if_chain_ok brk vars l last : Forall (fun ca => ex vars ca.1 = true /\ st brk vars ca.2 = true) l -> st brk vars last = true -> st brk vars (if_chain l last) = true.
  Proof. intros Hl Hlast. induction Hl as [|[c a] l [H1 H2] _ IH]; [done|]. unfold if_chain. cbn [foldr fst snd]. fold (if_chain l last). cbn [fst snd] in H1, H2. by rewrite ck_if, H1, H2, IH. Qed.
  Lemma choices_ok' brk vars : v <> VRos -> lit "stm" ∈ vars -> lit "s" ∈ vars -> lit "choice" ∈ vars -> Forall (fun ca => ex vars ca.1 = true /\ st brk vars ca.2 = true) (a_choices tc ctx).
  Proof.
    intros Hv H1 H2 H3. assert (Hc : ex vars (nm (lit "choice")) = true) by (by apply ck_var).
    assert (Ht : a_timer_params v = []) by (by destruct v). assert (Ha : a_accept_params v = []) by (by destruct v).
    assert (And : forall w s, safeb w = true -> ex vars (choice_and w (status_text s)) = true).
    { intros w s Hw. unfold choice_and. rewrite ck_ops. cbn [forallb snd]. rewrite mn_eq; [|done|by apply ck_str, safeb_ok]. by rewrite mn_is. }
    assert (Call : forall f t ps args, MMethod (Some t) f ps ∈ members_of v m -> length ps = length args -> forallb (ex vars) args = true -> st brk vars (SExpr (mcall (lit "stm") f args)) = true).
    { intros f t ps args Hf Hl Hargs. rewrite ck_expr_stmt. apply (stm_call [lit "stm"]); [left|by intros x ->%elem_of_list_singleton|by exists t, ps|done]. }
    unfold a_choices. repeat apply Forall_app_2.
    - constructor; [|constructor]. split; [apply mn_eq; [done|by apply ck_str, safeb_ok]|]. eapply Call; [apply has_timeout|by rewrite Ht|done].
    - destruct (tc_first_state_has_in tc) eqn:E; [|constructor]. constructor; [|constructor]. split; [by apply (And _ WAIT_START)|]. eapply Call; [by apply has_delay|by rewrite Ht|done].
    - destruct (tc_has_in tc) eqn:E; [|constructor]. constructor; [|constructor]. split; [by apply (And _ WAIT_IN)|]. eapply Call; [by apply has_accept|by rewrite Ha|done].
    - apply Forall_forall. intros x Hx. apply elem_of_list_fmap in Hx as (a & -> & Hin). split; cbn [a_choice fst snd].
      + apply mn_eq; [done|]. by apply ck_str, Houts.
      + rewrite ck_block_eq. cbn [ck_block declared]. apply andb_true_iff. split; [cbn [ck_stmt]; by rewrite mn_no_macro, ty_std|]. apply andb_true_iff. split; [done|].
        apply andb_true_iff. split; [apply read_ok; left|]. rewrite andb_true_r. rewrite ck_expr_stmt. apply (stm_call [lit "stm"]); [left|intros x ->%elem_of_list_singleton; by right| |].
        * exists void_t, (a_out_params a). split; [|done]. unfold members_of, a_members. rewrite !elem_of_app. do 3 right. left. apply elem_of_list_fmap. by exists a.
        * cbn [forallb]. rewrite mn_conv; [done|done|apply (hh_chan _ _ HH a); by right|]. apply ck_var. left.
  Qed.
  Lemma round_ok' vars : v <> VRos -> lit "stm" ∈ vars -> lit "s" ∈ vars -> ck_block h p None true true [] vars (a_round tc ctx) = true.
  Proof.
    intros Hv H1 H2. unfold a_round. rewrite ck_block_app. 2: { eapply Forall_impl; [by apply (prompt_ok vars)|]. by intros s []. }
    rewrite ck_block_all by (by apply prompt_ok). cbn [andb ck_block declared]. apply andb_true_iff. split; [cbn [ck_stmt]; by rewrite mn_no_macro, ty_string|]. apply andb_true_iff. split; [done|].
    apply andb_true_iff. split; [apply read_ok; left|].
    assert (Hd : declared (if_chain (a_choices tc ctx) (cout (lit "Sorry, try again.\n"))) = None) by reflexivity. rewrite Hd, andb_true_r.
    apply if_chain_ok; [|apply cout_ok; by eexists]. apply choices_ok'; [done|by right|by right|left].
  Qed.
  Lemma loop_ok' vars : v <> VRos -> lit "stm" ∈ vars -> Forall (fun s => declared s = None /\ st false vars s = true) (a_loop tc ctx).
  Proof.
    intros Hv H1. unfold a_loop. apply Forall_app_2.
    - destruct (tc_first_state_has_in tc); [|constructor]. constructor; [|constructor]. apply cout_ok. by eexists.
    - constructor; [|constructor]. split; [done|]. cbn [ck_stmt]. fold (ck_block h p None true).
      assert (E : forall l, ck_stmt h p None true true (lit "s" :: vars) (SBlock l) = ck_block h p None true true [] (lit "s" :: vars) l) by (intros l; apply ck_block_eq).
      assert (G1 : ex vars get_status = true) by (apply (get_status_ok [lit "stm"]); [left|by intros x ->%elem_of_list_singleton]).
      assert (G2 : ex (lit "s" :: vars) get_status = true) by (apply (get_status_ok [lit "stm"]); [left|intros x ->%elem_of_list_singleton; by right]).
      assert (G3 : ex (lit "s" :: vars) (nm (lit "s")) = true) by (apply ck_var; left).
      rewrite mn_no_macro by done. rewrite G1, mn_running by done. unfold ck_assign. cbn [nm]. change (EName [lit "s"]) with (nm (lit "s")). rewrite G3, G2. cbn [andb].
      etransitivity; [apply E|]. apply round_ok'; [done|by right|left].
  Qed.
  (** ** The start *)
  Lemma init_fine : fine (pubs_of v m) false (SInit (plain_t [lit "StateMachine"]) (lit "stm") (a_ctor_args v (tc_in tc))).
  Proof.
    intros vars Hv. cbn [ck_stmt]. rewrite mn_no_macro by done. unfold ck_type. cbn [plain_t ct_base ck_base].
    assert (own_type p (lit "StateMachine") = true) as ->. { unfold own_type. apply existsb_exists. eexists. split; [apply elem_of_list_In, find_class_elem, mn_class|]. apply str_eqb_refl. }
    cbn [orb andb]. rewrite mn_class. apply andb_true_iff. split.
    - assert (G : v = VRos -> forallb (ex vars) (map (fun a => nm (publisher_name (agg_name a))) (tc_in tc)) = true).
      { intros Hr. apply forallb_forall. intros e He. apply in_map_iff in He as (a & <- & Ha). apply ck_var, Hv. rewrite Hr. apply elem_of_list_fmap. exists a. split; [done|by apply elem_of_list_In]. }
      unfold a_ctor_args. destruct v; [done|by apply G|done].
    - unfold ctor_n. apply existsb_exists. exists (MMethod None (lit "StateMachine") (a_ctor_params v (tc_in tc))). split.
      + apply elem_of_list_In. unfold members_of, a_members. right; left.
      + apply Nat.eqb_eq. unfold a_ctor_params, a_ctor_args. destruct v; [done|by rewrite !map_length|done].
  Qed.
  Lemma started brk vars : st brk vars (a_log v info (EStr (lit "Test " ++ name ++ lit " in main loop.")) []) = true.
  Proof. apply mn_log; [by left| |done]. apply cpp_safe_app; [by apply safeb_ok|]. apply cpp_safe_app; [done|by apply safeb_ok]. Qed.
  Lemma ends b : ends_with_return (b ++ a_final v name) = true.
  Proof.
    unfold ends_with_return, a_final. change [?a; ?b; ?c; ?d] with ([a; b; c] ++ [d]). rewrite app_assoc, last_snoc. done.
  Qed.
  Lemma main_fun ps body : NoDup (map snd ps) -> (forall x, x ∈ map snd ps -> ~ macro_like x) -> forallb (ck_type h p) (map fst ps) = true ->
    ck_block h p None true false (map snd ps) (map snd ps) body = true -> ends_with_return body = true ->
    ck_item h p (CFun (Some (CType false BInt [])) [lit "main"] ps body) = true.
  Proof.
    intros H1 H2 H3 H4 H5. cbn [ck_item forallb]. rewrite not_call_macro; [|apply HH|by apply (low_not_macro "m")|apply (bool_decide_eq_true_1 _); by vm_compute].
    unfold ck_params. rewrite H3, (proj2 (distinct_true _) H1). rewrite (proj2 (forallb_forall _ _)). 2: { intros x Hx. apply not_macro; [apply HH|]. by apply H2, elem_of_list_In. }
    cbn [andb ck_return]. unfold ck_body. assert (returns_value (Some (CType false BInt [])) = true) as -> by (apply bool_decide_eq_true; done). rewrite H4, H5. done.
  Qed.
  Lemma ck_main_animate : v <> VRos -> ck_item h p (a_main v name tc ctx) = true.
  Proof.
    intros Hv. unfold a_main. assert (Ep : a_main_params v = []) by (by destruct v). rewrite Ep.
    assert (Ei : a_init v name tc = [SInit (plain_t [lit "StateMachine"]) (lit "stm") (a_ctor_args v (tc_in tc))] ++ [a_log v info (EStr (lit "Test " ++ name ++ lit " in main loop.")) []]) by (by destruct v).
    assert (El : match v with VRos => [ecall [lit "ros"; lit "spin"] []] | _ => a_loop tc ctx end = a_loop tc ctx) by (by destruct v). rewrite Ei, El.
    apply main_fun; [apply NoDup_nil_2|by intros x ?%elem_of_nil|done| |rewrite !app_assoc; apply ends].
    cbn [map]. rewrite <- app_assoc. apply (block_fine (pubs_of v m)).
    - constructor; [apply init_fine|constructor].
    - intros x Hx. by apply pubs_elem in Hx as (a & -> & _).
    - by apply NoDup_singleton.
    - intros x _. apply not_elem_of_nil.
    - cbn [omap list_omap declared rev app]. change (?a :: a_loop tc ctx ++ ?b) with ((a :: a_loop tc ctx) ++ b).
      assert (F : Forall (fun s => declared s = None /\ st false [lit "stm"] s = true) (a_log v info (EStr (lit "Test " ++ name ++ lit " in main loop.")) [] :: a_loop tc ctx)).
      { constructor; [split; [apply mn_plain|apply started]|]. apply loop_ok'; [done|left]. }
      rewrite ck_block_app. 2: { eapply Forall_impl; [exact F|]. by intros s []. }
      rewrite ck_block_all by done. apply final_ok; [left|]. apply (bool_decide_eq_true_1 (_ ∉ _)). by vm_compute.
  Qed.
  (** ** The start of a ROS node *)
  Definition tail4 (x : gostr) : gostr := take 4 (reverse x).
  Lemma tail_pub x : tail4 (publisher_name x) = lit "bup_".
  Proof. unfold tail4, publisher_name. rewrite reverse_app. reflexivity. Qed.
  Lemma tail_sub x : tail4 (subscriber_name x) = lit "bus_".
  Proof. unfold tail4, subscriber_name. rewrite reverse_app. reflexivity. Qed.
  Lemma pubs_tail x : x ∈ pubs_of v m -> tail4 x = lit "bup_".
  Proof. intros H. apply pubs_elem in H as (a & _ & _ & ->). apply tail_pub. Qed.
  Context (Hsubs : v = VRos -> NoDup (map (fun a => subscriber_name (agg_name a)) (tc_out tc)) /\ lit "input_accepted_sub" ∉ map (fun a => subscriber_name (agg_name a)) (tc_out tc)).
  Context (Htop : forall a, a ∈ tc_in tc \/ a ∈ tc_out tc -> cpp_safe (topic_name (agg_name a))).
  Lemma decl_fine need x e : ~ macro_like x -> (forall vars, (forall y, y ∈ need -> y ∈ vars) -> ex vars e = true) -> fine need false (SDecl auto_t x (Some e)).
  Proof. intros H1 H2 vars Hv. cbn [ck_stmt]. rewrite not_macro; [|apply HH|done]. cbn [andb]. by apply H2. Qed.
  Lemma nh_ok m' args vars : lit "nh" ∈ vars -> (m', length args) ∈ lib_methods -> forallb (ex vars) args = true -> ex vars (nh_call m' args) = true.
  Proof.
    intros H1 H2 H3. unfold nh_call. rewrite ck_mcall, H3. change (ck_name p None vars [?x]) with (ex vars (nm x)). rewrite ck_var by done. cbn [andb]. rewrite andb_true_r. unfold any_method.
    apply orb_true_iff. right. apply existsb_exists. eexists. split; [apply elem_of_list_In, H2|]. cbn [fst snd]. by rewrite str_eqb_refl, Nat.eqb_refl.
  Qed.
  Lemma ref_ok vars f r ps : MMethod (Some r) f ps ∈ members_of v m -> ex vars (method_ref f) = true.
  Proof. intros H. cbn [method_ref SMq ck_expr]. unfold class_has. rewrite mn_class. apply has_method_elem. by exists r, ps. Qed.
  Lemma stm_ref_ok vars : lit "stm" ∈ vars -> ex vars stm_ref = true.
  Proof. intros H. cbn [stm_ref ck_expr]. change (ex vars (nm (lit "stm")) = true). by apply ck_var. Qed.
  Lemma sub_fine x topic cb r ps : ~ macro_like x -> cpp_safe topic -> MMethod (Some r) cb ps ∈ members_of v m -> fine [lit "nh"; lit "stm"] false (a_ros_sub x topic cb).
  Proof.
    intros H1 H2 H3. apply decl_fine; [done|]. intros vars Hv. apply nh_ok; [apply Hv; left|apply (bool_decide_eq_true_1 _); by vm_compute|].
    cbn [forallb]. rewrite ck_str by done. rewrite (ref_ok vars cb r ps) by done. rewrite stm_ref_ok by (apply Hv; right; left). done.
  Qed.
  Lemma timer_fine x sec cb r ps : v = VRos -> ~ macro_like x -> sec ∈ [lit "TIMEOUT_SEC"; lit "INPUT_DELAY_SEC"] -> MMethod (Some r) cb ps ∈ members_of v m -> fine [lit "nh"; lit "stm"] false (a_timer x sec cb).
  Proof.
    intros Hr H1 H2 H3. apply decl_fine; [done|]. intros vars Hv. apply nh_ok; [apply Hv; left|apply (bool_decide_eq_true_1 _); by vm_compute|].
    cbn [forallb]. rewrite (ref_ok vars cb r ps) by done. rewrite stm_ref_ok by (apply Hv; right; left). cbn [andb]. rewrite andb_true_r.
    pose proof (hd_stream _ _ mn_headers) as Hst. rewrite Hr in Hst. destruct Hst as (Hi & _ & C1 & C2).
    assert (Hn : ex vars (nm sec) = true).
    { rewrite ck_nm. unfold ck_name. apply orb_true_iff. right. apply bool_decide_eq_true. rewrite !elem_of_cons, elem_of_nil in H2. by destruct H2 as [->|[->|[]]]. }
    rewrite ck_call. cbn [length forallb]. rewrite Hn. cbn [andb]. rewrite andb_true_r. unfold ck_fun. apply orb_true_iff. left. change (lib_has p [lit "ros"; lit "Duration"]) with (ros_included p). rewrite Hi. by vm_compute.
  Qed.
  Lemma subs_fine : v = VRos -> Forall (fine [lit "nh"; lit "stm"] false) (a_ros_subs tc).
  Proof.
    intros Hr. unfold a_ros_subs. repeat apply Forall_app_2.
    - destruct (tc_has_in tc) eqn:E; [|constructor]. constructor; [|constructor]. eapply sub_fine; [by apply (low_not_macro "i")|by apply safeb_ok|by apply has_accept].
    - apply Forall_forall. intros s Hs. apply elem_of_list_fmap in Hs as (a & -> & Ha). eapply sub_fine; [apply sub_not_macro|apply Htop; by right|].
      unfold members_of, a_members. rewrite !elem_of_app. do 3 right. left. apply elem_of_list_fmap. by exists a.
    - constructor; [|constructor]. eapply timer_fine; [done|by apply (low_not_macro "t")|left|apply has_timeout].
    - destruct (tc_first_state_has_in tc) eqn:E; [|constructor]. constructor; [|constructor]. eapply timer_fine; [done|by apply (low_not_macro "i")|right; left|by apply has_delay].
  Qed.
  Definition sub_vars : list gostr := (if tc_has_in tc then [lit "input_accepted_sub"] else []) ++ map (fun a => subscriber_name (agg_name a)) (tc_out tc) ++ [lit "timeout_timer"] ++
    (if tc_first_state_has_in tc then [lit "initial_delay_timer"] else []).
  Lemma subs_declare : omap declared (a_ros_subs tc) = sub_vars.
  Proof.
    unfold a_ros_subs, sub_vars. rewrite !omap_app. rewrite (omap_map' _ _ (fun a => subscriber_name (agg_name a))) by done. f_equal; [by destruct (tc_has_in tc)|]. f_equal. f_equal. by destruct (tc_first_state_has_in tc).
  Qed.
  Lemma sub_vars_tail x : x ∈ sub_vars -> tail4 x = lit "bus_" \/ tail4 x = lit "remi".
  Proof.
    unfold sub_vars. rewrite !elem_of_app. intros [H|[H|[H|H]]].
    - destruct (tc_has_in tc); [|by apply elem_of_nil in H]. apply elem_of_list_singleton in H as ->. by left.
    - apply elem_of_list_fmap in H as (a & -> & _). left. apply tail_sub.
    - apply elem_of_list_singleton in H as ->. by right.
    - destruct (tc_first_state_has_in tc); [|by apply elem_of_nil in H]. apply elem_of_list_singleton in H as ->. by right.
  Qed.
  Lemma sub_vars_nodup : v = VRos -> NoDup sub_vars.
  Proof.
    intros Hr. destruct (Hsubs Hr) as [H1 H2]. unfold sub_vars. apply NoDup_app2; [destruct (tc_has_in tc); [apply NoDup_singleton|apply NoDup_nil_2]| |].
    - apply NoDup_app2; [done| |].
      + destruct (tc_first_state_has_in tc); apply (bool_decide_eq_true_1 _); by vm_compute.
      + intros x Hx Hy. apply elem_of_list_fmap in Hx as (a & -> & _). pose proof (tail_sub (agg_name a)) as E. apply elem_of_app in Hy as [Hy|Hy].
        * apply elem_of_list_singleton in Hy. rewrite Hy in E. discriminate E.
        * destruct (tc_first_state_has_in tc); [|by apply elem_of_nil in Hy]. apply elem_of_list_singleton in Hy. rewrite Hy in E. discriminate E.
    - intros x Hx Hy. destruct (tc_has_in tc); [|by apply elem_of_nil in Hx]. apply elem_of_list_singleton in Hx as ->. rewrite !elem_of_app in Hy. destruct Hy as [Hy|[Hy|Hy]]; [done| |].
      + apply elem_of_list_singleton in Hy. discriminate Hy.
      + destruct (tc_first_state_has_in tc); [|by apply elem_of_nil in Hy]. apply elem_of_list_singleton in Hy. discriminate Hy.
  Qed.
  Lemma pub_decls : v = VRos -> Forall (fine [lit "nh"] false) (map (fun a => SDecl auto_t (publisher_name (agg_name a))
         (Some (EPost (nm (lit "nh")) [XDot (lit "advertise"); XInst [channel_value_type (agg_name a)]; XCall [EStr (topic_name (agg_name a)); ENum (lit "1000")]]))) (tc_in tc)).
  Proof.
    intros Hr. apply Forall_forall. intros s Hs. apply elem_of_list_fmap in Hs as (a & -> & Ha). apply decl_fine; [apply pub_not_macro|]. intros vars Hv.
    assert (E : ex vars (EPost (nm (lit "nh")) [XDot (lit "advertise"); XInst [channel_value_type (agg_name a)]; XCall [EStr (topic_name (agg_name a)); ENum (lit "1000")]]) =
      ex vars (nm (lit "nh")) && (any_method p (lit "advertise") 2 && ck_base h p (BName [channel_value_type (agg_name a)]) && (ex vars (EStr (topic_name (agg_name a))) && (ex vars (ENum (lit "1000")) && true)) && true)) by reflexivity.
    rewrite E. clear E. rewrite ck_var by (apply Hv; left). assert (any_method p (lit "advertise") 2 = true) as ->. { unfold any_method. apply orb_true_iff. right. by vm_compute. }
    cbn [ck_base]. destruct (hh_chan _ _ HH a (or_introl Ha)) as (_ & H & _). rewrite (proj2 (mem_true _ _) H), (hd_convert _ _ mn_headers). rewrite ck_str by (apply Htop; by left). rewrite orb_true_r. done.
  Qed.
  Lemma ck_main_ros : v = VRos -> ck_item h p (a_main v name tc ctx) = true.
  Proof.
    intros Hr. unfold a_main. assert (Ep : a_main_params v = [(CType false BInt [], lit "argc"); (CType false BChar [PStar; PStar], lit "argv")]) by (by rewrite Hr).
    assert (Ei : a_init v name tc = [ecall [lit "ros"; lit "init"] [nm (lit "argc"); nm (lit "argv"); EStr name]; SDecl (plain_t [lit "ros"; lit "NodeHandle"]) (lit "nh") None] ++
      map (fun a => SDecl auto_t (publisher_name (agg_name a))
         (Some (EPost (nm (lit "nh")) [XDot (lit "advertise"); XInst [channel_value_type (agg_name a)]; XCall [EStr (topic_name (agg_name a)); ENum (lit "1000")]]))) (tc_in tc) ++
      [SInit (plain_t [lit "StateMachine"]) (lit "stm") (a_ctor_args v (tc_in tc))] ++ a_ros_subs tc ++ [a_log v info (EStr (lit "Test " ++ name ++ lit " in main loop.")) []]).
    { rewrite Hr. unfold a_init, a_ros_init. by rewrite <- !app_assoc. }
    assert (El : match v with VRos => [ecall [lit "ros"; lit "spin"] []] | _ => a_loop tc ctx end = [ecall [lit "ros"; lit "spin"] []]) by (by rewrite Hr). rewrite Ei, El, Ep.
    pose proof (hd_stream _ _ mn_headers) as Hst. rewrite Hr in Hst. destruct Hst as (Hi & _).
    assert (Epubs : omap declared (map (fun a => SDecl auto_t (publisher_name (agg_name a))
         (Some (EPost (nm (lit "nh")) [XDot (lit "advertise"); XInst [channel_value_type (agg_name a)]; XCall [EStr (topic_name (agg_name a)); ENum (lit "1000")]]))) (tc_in tc)) = pubs_of v m).
    { rewrite (omap_map' _ _ (fun a => publisher_name (agg_name a))) by done. by rewrite Hr. }
    apply main_fun; [apply (bool_decide_eq_true_1 _); by vm_compute| |done| |rewrite !app_assoc; apply ends].
    { cbn [map snd]. intros x. rewrite !elem_of_cons, elem_of_nil. intros [->|[->|[]]]; by apply (low_not_macro "a"). }
    cbn [map snd]. rewrite <- !app_assoc.
    apply (block_fine [lit "argc"; lit "argv"]).
    { constructor; [|constructor; [|constructor]].
      - intros vars Hv. unfold ecall. rewrite ck_expr_stmt, ck_call. cbn [length forallb]. rewrite !ck_var by (apply Hv; rewrite !elem_of_cons; tauto). rewrite ck_str by done. cbn [andb]. rewrite andb_true_r.
        unfold ck_fun. apply orb_true_iff. left. change (lib_has p [lit "ros"; lit "init"]) with (ros_included p). rewrite Hi. by vm_compute.
      - intros vars Hv. cbn [ck_stmt]. rewrite mn_no_macro by done. unfold ck_type. cbn [plain_t ct_base ck_base]. change (lib_has p [lit "ros"; lit "NodeHandle"]) with (ros_included p). rewrite Hi. by vm_compute. }
    { done. }
    { by apply NoDup_singleton. }
    { cbn [omap list_omap declared ecall]. intros x ->%elem_of_list_singleton. apply (bool_decide_eq_true_1 (_ ∉ _)). by vm_compute. }
    cbn [omap list_omap declared ecall rev app].
    apply (block_fine [lit "nh"]); [by apply pub_decls|intros x ->%elem_of_list_singleton; left|rewrite Epubs; apply Hm| |].
    { rewrite Epubs. intros x Hx Hy. apply pubs_tail in Hx. rewrite !elem_of_cons, elem_of_nil in Hy. destruct Hy as [->|[->|[->|[]]]]; discriminate Hx. }
    rewrite Epubs. set (vars1 := rev (pubs_of v m) ++ [lit "nh"; lit "argc"; lit "argv"]).
    assert (P1 : forall x, x ∈ rev (pubs_of v m) -> tail4 x = lit "bup_"). { intros x Hx. apply pubs_tail. apply elem_of_list_In, in_rev, elem_of_list_In. done. }
    change (SInit ?a ?b ?c :: ?r) with ([SInit a b c] ++ r).
    apply (block_fine (pubs_of v m)); [constructor; [apply init_fine|constructor]| |by apply NoDup_singleton| |].
    { intros x Hx. unfold vars1. apply elem_of_app. left. apply elem_of_list_In. rewrite <- in_rev. by apply elem_of_list_In. }
    { cbn [omap list_omap declared]. intros x ->%elem_of_list_singleton. unfold vars1. rewrite elem_of_app. intros [Hx|Hx]; [apply P1 in Hx; discriminate Hx|]. revert Hx. apply (bool_decide_eq_true_1 (_ ∉ _)). by vm_compute. }
    cbn [omap list_omap declared rev app].
    apply (block_fine [lit "nh"; lit "stm"]); [by apply subs_fine| |rewrite subs_declare; by apply sub_vars_nodup| |].
    { intros x. rewrite !elem_of_cons, elem_of_nil. intros [->|[->|[]]]; [|by left]. right. unfold vars1. apply elem_of_app. right. left. }
    { rewrite subs_declare. intros x Hx. apply sub_vars_tail in Hx. unfold vars1. rewrite elem_of_cons, elem_of_app, !elem_of_cons, elem_of_nil.
      intros [->|[Hy|[->|[->|[->|[]]]]]]; try (destruct Hx as [Hx|Hx]; discriminate Hx). apply P1 in Hy. rewrite Hy in Hx. destruct Hx as [Hx|Hx]; discriminate Hx. }
    rewrite subs_declare. set (vars2 := rev sub_vars ++ lit "stm" :: vars1).
    cbn [app]. change (?a :: ?b :: a_final v name) with ([a; b] ++ a_final v name).
    assert (F : Forall (fun s => declared s = None /\ st false vars2 s = true) [a_log v info (EStr (lit "Test " ++ name ++ lit " in main loop.")) []; ecall [lit "ros"; lit "spin"] []]).
    { constructor; [split; [apply mn_plain|apply started]|]. constructor; [|constructor]. split; [done|]. unfold ecall. rewrite ck_expr_stmt, ck_call. cbn [length forallb]. rewrite andb_true_r.
      unfold ck_fun. apply orb_true_iff. left. change (lib_has p [lit "ros"; lit "spin"]) with (ros_included p). rewrite Hi. by vm_compute. }
    rewrite ck_block_app. 2: { eapply Forall_impl; [exact F|]. by intros s []. }
    rewrite ck_block_all by done. apply final_ok; [unfold vars2; apply elem_of_app; right; left|].
    unfold vars2. rewrite elem_of_app, elem_of_cons. intros [Hx|[Hx|Hx]]; [|discriminate Hx|].
    - apply elem_of_list_In, in_rev, elem_of_list_In in Hx. apply sub_vars_tail in Hx as [Hx|Hx]; discriminate Hx.
    - unfold vars1 in Hx. apply elem_of_app in Hx as [Hx|Hx]; [apply P1 in Hx; discriminate Hx|]. revert Hx. apply (bool_decide_eq_true_1 (_ ∉ _)). by vm_compute.
  Qed.
End Main.

(** ** The file *)
Lemma global_names_app a b : global_names (a ++ b) = global_names a ++ global_names b.
Proof. apply omap_app. Qed.
Lemma own_type_snoc p x fs : own_type (p ++ [CEnum x fs]) x = true.
Proof. unfold own_type. rewrite existsb_app. cbn [existsb]. rewrite str_eqb_refl. by rewrite orb_true_r. Qed.
Section All.
  Context (h : list item) (v : variant) (tests : list gostr) (m : stm) (types : type_map) (P : program) (name : gostr) (ctx : cctx).
  Context (Hm : machine_static v m) (HH : header_has h m) (HM : machine_ok v m types tests P) (Ht : tests_ok h tests) (Hs : states_ok m) (Hname : cpp_safe name).
  Context (Hins : forall a, a ∈ tc_in (make_transitions m) -> cpp_safe (agg_name a)).
  Context (Hsubs : v = VRos -> NoDup (map (fun a => subscriber_name (agg_name a)) (tc_out (make_transitions m))) /\ lit "input_accepted_sub" ∉ map (fun a => subscriber_name (agg_name a)) (tc_out (make_transitions m))).
  Context (Htop : forall a, a ∈ tc_in (make_transitions m) \/ a ∈ tc_out (make_transitions m) -> cpp_safe (topic_name (agg_name a))).
  Context (Hfuns : NoDup (fun_names (main_items v name m ctx tests))).
  Notation tc := (make_transitions m).
  Notation upto := (declared_upto v tests m).
  Definition pre0 : list citem := a_includes v ctx ++ a_constants v.
  Definition pre1 : list citem := pre0 ++ [CClass (lit "Verdict") None (a_verdict_members tests)].
  Definition pre2 : list citem := pre1 ++ a_dump v tests :: map (a_setter v) tests.
  Definition pre3 : list citem := pre2 ++ [a_enum (m_states m)].
  Definition pre4 : list citem := pre3 ++ [in_ns [lit "state"] (a_name (m_states m))].
  Definition pre5 : list citem := pre4 ++ [a_class v tc (s0_of m) (m_states m)].
  Lemma pre0_class x r : find_class (pre0 ++ r) x = find_class r x.
  Proof.
    apply find_class_skip. unfold pre0. rewrite forallb_app. apply andb_true_iff. split; [by apply forallb_map_true|]. by destruct v.
  Qed.
  Lemma upto1 : upto 1 pre1.
  Proof. split; try lia; [apply headers_app, main_headers|]. intros _. unfold pre1. by rewrite pre0_class. Qed.
  Lemma upto2 : upto 2 pre3.
  Proof.
    pose proof (declared_app _ _ _ _ _ (a_dump v tests :: map (a_setter v) tests ++ [a_enum (m_states m)]) upto1) as [H1 H2 _ _ _].
    assert (E : pre3 = pre1 ++ a_dump v tests :: map (a_setter v) tests ++ [a_enum (m_states m)]) by (unfold pre3, pre2; by rewrite <- !app_assoc). rewrite E. split; try lia; [done|by intros _; apply H2; lia|].
    intros _. rewrite <- E. unfold pre3, a_enum. split; [apply own_type_snoc|]. intros s Hin. unfold own_enumerator. rewrite existsb_app. apply orb_true_iff. right. cbn [existsb]. rewrite orb_false_r.
    apply existsb_exists. exists (enum_field (st_id s)). split; [apply in_map_iff; exists s; split; [done|by apply elem_of_list_In]|]. apply path_eqb_refl.
  Qed.
  Lemma upto3 : upto 3 pre4.
  Proof.
    pose proof (declared_app _ _ _ _ _ [in_ns [lit "state"] (a_name (m_states m))] upto2) as [H1 H2 H3 _ _]. split; try lia; [done|by intros _; apply H2; lia|by intros _; apply H3; lia|].
    intros _. unfold pre4, own_function. rewrite existsb_app. apply orb_true_iff. right. cbn [existsb in_ns a_name app]. by rewrite path_eqb_refl.
  Qed.
  Lemma upto4 : upto 4 pre5.
  Proof.
    pose proof (declared_app _ _ _ _ _ [a_class v tc (s0_of m) (m_states m)] upto3) as [H1 H2 H3 H4 _]. split; try lia; [done|by intros _; apply H2; lia|by intros _; apply H3; lia|by intros _; apply H4; lia|].
    intros _. unfold pre5, pre4, pre3, pre2, pre1. rewrite <- !app_assoc. rewrite pre0_class. cbn [app]. cbn [find_class a_dump].
    change (str_eqb (lit "Verdict") (lit "StateMachine")) with false. cbn iota. rewrite (find_class_skip (map (a_setter v) tests)) by (by apply forallb_map_true). reflexivity.
  Qed.
  Lemma no_state_class : find_class pre4 (lit "state") = None.
  Proof.
    unfold pre4, pre3, pre2, pre1. rewrite <- !app_assoc. rewrite pre0_class. cbn [app]. cbn [find_class a_dump].
    change (str_eqb (lit "Verdict") (lit "state")) with false. cbn iota. rewrite (find_class_skip (map (a_setter v) tests)) by (by apply forallb_map_true). reflexivity.
  Qed.
  Lemma upto_le j k p : j <= k -> upto k p -> upto j p.
  Proof. intros Hj [H1 H2 H3 H4 H5]. split; [done|by intros; apply H2; lia|by intros; apply H3; lia|by intros; apply H4; lia|by intros; apply H5; lia]. Qed.
  Lemma mo_outs' a : a ∈ tc_out tc -> cpp_safe (agg_name a).
  Proof. intros Ha. exact (proj1 (mo_outs _ _ _ _ _ HM a Ha)). Qed.
  Lemma items_ok : ck_items h [] (main_items v name m ctx tests) = true.
  Proof.
    rewrite main_items_eq. rewrite app_assoc. fold pre0. rewrite ck_items_app. cbn [app].
    apply andb_true_iff. split.
    { apply (ck_items_all h (fun _ => True)); [done|done|]. intros p i Hi _. unfold pre0 in Hi. apply elem_of_app in Hi as [Hi|Hi].
      - unfold a_includes in Hi. apply elem_of_list_fmap in Hi as (l & -> & _). done.
      - unfold a_constants in Hi. destruct v; try (by apply elem_of_nil in Hi). rewrite !elem_of_cons, elem_of_nil in Hi.
        destruct Hi as [->|[->|[]]]; unfold int_const; cbn [ck_item]; (rewrite not_macro; [|apply (hh_macros _ _ HH)|by apply end_not_macro]); cbn; by vm_compute. }
    unfold a_verdict. rewrite <- !app_assoc. cbn [app]. cbn [ck_items]. fold pre1.
    apply andb_true_iff. split; [eapply (ck_verdict h (hh_macros _ _ HH) v tests m); [done|by apply (du_headers _ _ _ _ _ upto1)]|].
    apply andb_true_iff. split; [eapply ck_dump; [apply HH|done|by apply declared_app, upto1]|].
    rewrite ck_items_app. apply andb_true_iff. split.
    { apply (ck_items_all h (upto 1)); [intros p q; by apply declared_app|by apply declared_app, upto1|]. intros p i Hi Hp. apply elem_of_list_fmap in Hi as (t & -> & Hi). eapply ck_setter; [apply HH|done|done|done]. }
    rewrite <- app_assoc. cbn [app]. fold pre2. cbn [ck_items]. fold pre3.
    apply andb_true_iff. split; [apply ck_enum; [apply HH|done]|]. fold pre4.
    apply andb_true_iff. split; [eapply ck_name_fun; [apply HH|done|apply (upto_le 2 3 _ ltac:(lia) upto3)|apply no_state_class]|].
    unfold a_stm. rewrite <- !app_assoc. cbn [app]. cbn [ck_items]. fold pre5.
    apply andb_true_iff. split; [eapply ck_class; [done|done|]; apply (upto_le 3 4 _ ltac:(lia) upto4)|].
    assert (K : forall l r, (forall p i, i ∈ l -> upto 4 p -> ck_item h p i = true) -> (forall seen, upto 4 seen -> ck_items h seen r = true) -> forall seen, upto 4 seen -> ck_items h seen (l ++ r) = true).
    { intros l r Hl Hr seen Hseen. rewrite ck_items_app. apply andb_true_iff. split; [|by apply Hr, declared_app]. apply (ck_items_all h (upto 4)); [intros p q; by apply declared_app|done|done]. }
    change (ck_items h pre5 ([a_ctor v tc (s0_of m); a_getVerdict; a_stateName; a_end_fun v; a_timeout v] ++ (if tc_first_state_has_in tc then [a_delay v (s0_of m)] else []) ++
      (if tc_has_in tc then [a_accept v tc] else []) ++ map (a_out v) (tc_out tc) ++ map (a_entry v) (m_states m) ++ [a_main v name tc ctx]) = true).
    pose proof upto4 as Hu. revert Hu. generalize pre5.
    apply (K [a_ctor v tc (s0_of m); a_getVerdict; a_stateName; a_end_fun v; a_timeout v]).
    { intros p i Hi Hu. rewrite !elem_of_cons, elem_of_nil in Hi. destruct Hi as [->|[->|[->|[->|[->|[]]]]]].
      - by eapply ck_ctor.
      - by eapply ck_getVerdict.
      - by eapply ck_stateName.
      - by eapply ck_end.
      - by eapply ck_timeout. }
    apply K. { intros p i Hi Hu. destruct (tc_first_state_has_in tc) eqn:E; [|by apply elem_of_nil in Hi]. apply elem_of_list_singleton in Hi as ->. by eapply ck_delay. }
    apply K. { intros p i Hi Hu. destruct (tc_has_in tc) eqn:E; [|by apply elem_of_nil in Hi]. apply elem_of_list_singleton in Hi as ->. by eapply ck_accept. }
    apply K. { intros p i Hi Hu. apply elem_of_list_fmap in Hi as (a & -> & Ha). by eapply ck_out. }
    apply K. { intros p i Hi Hu. apply elem_of_list_fmap in Hi as (s & -> & Hi). by eapply ck_entry. }
    intros seen Hu. apply (ck_items_all h (upto 4)); [intros p q; by apply declared_app|done|]. intros p i ->%elem_of_list_singleton Hp.
    destruct (decide (v = VRos)) as [Hr|Hr].
    - eapply ck_main_ros; try done.
    - eapply ck_main_animate; try done. apply mo_outs'.
  Qed.
  Lemma globals_ok : NoDup (global_names (main_items v name m ctx tests)).
  Proof.
    rewrite main_items_eq. unfold a_verdict, a_stm. rewrite !global_names_app.
    assert (N : forall {A} (f : A -> citem) l, (forall x, global_names [f x] = []) -> global_names (map f l) = []).
    { intros A f l Hf. induction l as [|x l IH]; [done|]. change (map f (x :: l)) with ([f x] ++ map f l). by rewrite global_names_app, Hf, IH. }
    unfold a_includes. rewrite !(N _ (a_setter v)), !(N _ (a_out v)), !(N _ (a_entry v)), !(N _ CPre) by done. cbn [app].
    destruct v, (tc_first_state_has_in tc), (tc_has_in tc); apply (bool_decide_eq_true_1 _); by vm_compute.
  Qed.
  Lemma defined_in p r c x ps ps' b : CFun r [c; x] ps' b ∈ p -> map fst ps' = map fst ps -> method_defined p c (MMethod r x ps) = true.
  Proof.
    intros H E. cbn [method_defined]. apply existsb_exists. eexists. split; [apply elem_of_list_In, H|]. cbn. rewrite E, path_eqb_refl. by rewrite !bool_decide_eq_true_2.
  Qed.
  Lemma methods_defined : forallb (fun i => match i with CClass c _ ms => forallb (method_defined (main_items v name m ctx tests) c) ms | _ => true end) (main_items v name m ctx tests) = true.
  Proof.
    set (p := main_items v name m ctx tests).
    assert (V : forallb (method_defined p (lit "Verdict")) (a_verdict_members tests) = true).
    { apply forallb_forall. intros i Hi. apply elem_of_list_In in Hi. unfold a_verdict_members in Hi. rewrite !elem_of_app in Hi. destruct Hi as [Hi|[Hi|[Hi|Hi]]].
      - rewrite !elem_of_cons, elem_of_nil in Hi. destruct Hi as [->|[->|[]]]; [done|]. eapply defined_in; [|done]. unfold p. rewrite main_items_eq, !elem_of_app. do 2 right. left. unfold a_verdict. right. left.
      - apply elem_of_list_fmap in Hi as (t & -> & Hi). eapply defined_in; [|done]. unfold p. rewrite main_items_eq, !elem_of_app. do 2 right. left. unfold a_verdict. do 2 right. apply elem_of_list_fmap. by exists t.
      - by apply elem_of_list_singleton in Hi as ->.
      - by apply elem_of_list_fmap in Hi as (t & -> & Hi). }
    assert (S : forallb (method_defined p (lit "StateMachine")) (a_members v tc (s0_of m) (m_states m)) = true).
    { assert (I : forall i, i ∈ a_stm v tc (s0_of m) (m_states m) -> i ∈ p) by (intros i Hi; unfold p; rewrite main_items_eq, !elem_of_app; do 5 right; by left).
      apply forallb_forall. intros i Hi. apply elem_of_list_In in Hi. unfold a_members in Hi. rewrite !elem_of_app in Hi. destruct Hi as [Hi|[Hi|[Hi|[Hi|[Hi|[Hi|[Hi|Hi]]]]]]].
      - rewrite !elem_of_cons, elem_of_nil in Hi. destruct Hi as [->|[->|[->|[->|[]]]]]; [done|..]; (eapply defined_in; [apply I; unfold a_stm|done]).
        + do 1 right. left.
        + do 2 right. left.
        + do 5 right. left.
      - destruct (tc_first_state_has_in tc) eqn:E; [|by apply elem_of_nil in Hi]. apply elem_of_list_singleton in Hi as ->. eapply defined_in; [apply I; unfold a_stm; rewrite E, !elem_of_app; do 1 right; left; left|done].
      - destruct (tc_has_in tc) eqn:E; [|by apply elem_of_nil in Hi]. apply elem_of_list_singleton in Hi as ->. eapply defined_in; [apply I; unfold a_stm; rewrite E, !elem_of_app; do 2 right; left; left|done].
      - apply elem_of_list_fmap in Hi as (a & -> & Ha). eapply defined_in; [apply I; unfold a_stm; rewrite !elem_of_app; do 3 right; left; apply elem_of_list_fmap; by exists a|done].
      - rewrite !elem_of_cons, elem_of_nil in Hi. by destruct Hi as [->|[->|[->|[]]]].
      - destruct v; try (by apply elem_of_nil in Hi). by apply elem_of_list_fmap in Hi as (a & -> & Ha).
      - apply elem_of_list_fmap in Hi as (s & -> & Hi). eapply defined_in; [apply I; unfold a_stm; rewrite !elem_of_app; do 4 right; apply elem_of_list_fmap; by exists s|done].
      - rewrite !elem_of_cons, elem_of_nil in Hi. destruct Hi as [->|[->|[]]].
        + eapply defined_in; [apply I; unfold a_stm; do 3 right; left|done].
        + eapply (defined_in p _ _ _ _ [(status_t, lit "s")]); [apply I; unfold a_stm; do 4 right; left|done]. }
    apply forallb_forall. intros i Hi. destruct i as [| | |c b ms|]; try done. apply elem_of_list_In in Hi. revert Hi. unfold p at 1. rewrite main_items_eq. unfold a_verdict, a_stm. rewrite !elem_of_app.
    intros Hi. assert (Hc : CClass c b ms = CClass (lit "Verdict") None (a_verdict_members tests) \/ CClass c b ms = a_class v tc (s0_of m) (m_states m)).
    { destruct Hi as [Hi|[Hi|[[Hi|Hi]|[Hi|[Hi|[[Hi|[Hi|[Hi|[Hi|Hi]]]]|Hi]]]]]].
      - apply elem_of_list_fmap in Hi as (l & [=] & _).
      - unfold a_constants in Hi. destruct v; try (by apply elem_of_nil in Hi). rewrite !elem_of_cons, elem_of_nil in Hi. destruct Hi as [Hi|[Hi|[]]]; discriminate Hi.
      - rewrite !elem_of_cons, elem_of_nil in Hi. destruct Hi as [Hi|[Hi|[]]]; [by left|discriminate Hi].
      - apply elem_of_list_fmap in Hi as (t & [=] & _).
      - apply elem_of_list_singleton in Hi. discriminate Hi.
      - apply elem_of_list_singleton in Hi. discriminate Hi.
      - rewrite !elem_of_cons, elem_of_nil in Hi. destruct Hi as [Hi|[Hi|[Hi|[Hi|[Hi|[Hi|[]]]]]]]; try discriminate Hi. by right.
      - destruct (tc_first_state_has_in tc); [|by apply elem_of_nil in Hi]. apply elem_of_list_singleton in Hi. discriminate Hi.
      - destruct (tc_has_in tc); [|by apply elem_of_nil in Hi]. apply elem_of_list_singleton in Hi. discriminate Hi.
      - apply elem_of_list_fmap in Hi as (t & [=] & _).
      - apply elem_of_list_fmap in Hi as (t & [=] & _).
      - apply elem_of_list_singleton in Hi. discriminate Hi. }
    destruct Hc as [Hc|Hc]; [injection Hc as -> -> ->; exact V|]. unfold a_class in Hc. injection Hc as -> -> ->. exact S.
  Qed.
  Lemma main_declarations : declarations_ok h (main_items v name m ctx tests) = true.
  Proof.
    unfold declarations_ok. rewrite items_ok, methods_defined. rewrite (proj2 (distinct_true _) globals_ok). rewrite bool_decide_eq_true_2 by exact Hfuns. done.
  Qed.
End All.
