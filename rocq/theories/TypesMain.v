(** * The other expressions of main.cpp have types *)
From Verif Require Export TypesMachine.
From Verif Require Export StmProofs.

(** ** Variables that are needed, or must not be there *)
Notation needs := (list (gostr * option (bool * cty))).
Definition has (need : needs) (vars : cvars) : Prop := forall x t, (x, t) ∈ need -> look vars x = t.
Lemma look_app_out {A} (l r : list (gostr * A)) x : x ∉ map fst l -> look (l ++ r) x = look r x.
Proof.
  induction l as [|[y a] l IH]; [done|]. cbn. rewrite elem_of_cons. intros H. rewrite str_eqb_ne; [|intros ->; apply H; by left]. apply IH. intros H'. apply H. by right.
Qed.
Lemma look_app_const {A} (l : list gostr) (t : A) r x : x ∈ l -> look (map (fun y => (y, t)) l ++ r) x = Some t.
Proof. induction l as [|y l IH]; [by intros ?%elem_of_nil|]. rewrite elem_of_cons. intros H. cbn. destruct (str_eqb y x) eqn:E; [done|]. apply IH. destruct H as [->|H]; [by rewrite str_eqb_refl in E|done]. Qed.
Lemma has_app need l vars : has need vars -> (forall x, x ∈ map fst l -> x ∉ map fst need) -> has need (l ++ vars).
Proof. intros H1 H2 x t Hx. rewrite look_app_out; [by apply H1|]. intros Hl. apply (H2 x Hl). apply elem_of_list_fmap. by exists (x, t). Qed.
Lemma has_sub need need' vars : (forall x, x ∈ need -> x ∈ need') -> has need' vars -> has need vars.
Proof. intros H1 H2 x t Hx. apply H2, H1, Hx. Qed.

Section Blocks.
  Context (u : user_types) (h : list item) (p : list citem) (cls : option gostr) (ret : cty).
  Lemma block_keep need a b vars :
    Forall (fun s => forall vars, has need vars -> ty_stmt u h p cls ret vars s = true /\ exists l, binds u h p cls vars s = Some l /\ forall x, x ∈ map fst l -> x ∉ map fst need) a ->
    has need vars -> (forall vars', has need vars' -> ty_block u h p cls ret vars' b = true) -> ty_block u h p cls ret vars (a ++ b) = true.
  Proof.
    intros Ha. revert vars. induction Ha as [|s a Hs _ IH]; intros vars Hv Hb; [by apply Hb|]. cbn [app ty_block]. destruct (Hs vars Hv) as (H1 & l & H2 & H3). rewrite H1, H2. cbn [andb]. apply IH; [|done]. by apply has_app.
  Qed.
  Lemma block_decls need {A} (f : A -> stmt) (g : A -> gostr) t (l : list A) b vars :
    (forall x vars, x ∈ l -> has need vars -> ty_stmt u h p cls ret vars (f x) = true /\ binds u h p cls vars (f x) = Some [(g x, t)] /\ g x ∉ map fst need) ->
    has need vars -> ty_block u h p cls ret (map (fun y => (y, t)) (rev (map g l)) ++ vars) b = true -> ty_block u h p cls ret vars (map f l ++ b) = true.
  Proof.
    revert vars. induction l as [|x l IH]; intros vars Hl Hv Hb; [done|]. cbn [map app ty_block]. destruct (Hl x vars ltac:(left) Hv) as (H1 & H2 & H3). rewrite H1, H2. cbn [andb]. apply IH.
    - intros y w Hy Hw. apply Hl; [by right|done].
    - apply has_app; [done|]. cbn [map fst]. by intros y ->%elem_of_list_singleton.
    - cbn [map rev] in Hb. rewrite map_app in Hb. rewrite <- app_assoc in Hb. exact Hb.
  Qed.
End Blocks.

(** ** The class Verdict *)
Section Verdict.
  Context (u : user_types) (h : list item) (v : variant) (tests : list gostr) (m : stm) (p : list citem).
  Context (Hu : declared_upto v tests m 4 p) (He : env_ok v p) (Hmac : forall x, x ∈ map fst (macros h) -> macro_like x) (Ht : tests_ok h tests).
  Notation Vc := (Some (lit "Verdict")).
  Notation good vars := (fun s => binds u h p Vc vars s = Some [] /\ ty_stmt u h p Vc TVoid vars s = true).
  Lemma xv_class : find_class p (lit "Verdict") = Some (None, a_verdict_members tests).
  Proof. apply (du_verdict _ _ _ _ _ Hu). lia. Qed.
  Lemma upto_1 : declared_upto v tests m 1 p.
  Proof. destruct Hu as [H1 H2 H3 H4 H5]. split; try lia; [done|]. intros _. apply H2. lia. Qed.
  Lemma xv_field vars t : plain_vars vars -> t ∈ tests -> name_ty h p Vc vars [fld t] = Some (true, outcome_ty).
  Proof.
    intros Hv Hi. unfold name_ty. rewrite plain_look by done. unfold field_ty. cbn [mbind option_bind]. rewrite xv_class. cbn [mbind option_bind snd]. rewrite (find_field_in _ outcome_t _ (Some (outcome_q (lit "UNSET")))); [done| |].
    - rewrite verdict_fields'. pose proof (tk_distinct _ _ Ht) as N. apply NoDup_cons in N as [_ N]. by apply NoDup_app in N as (_ & _ & N).
    - unfold a_verdict_members. rewrite !elem_of_app. right; right; right. apply elem_of_list_fmap. by exists t.
  Qed.
  Lemma xv_log level s ps vars : level = info \/ level = err -> Forall (fun e => exists t, ty_expr u h p Vc vars e = Some t /\ printed u t = true) ps -> good vars (a_log v level (EStr s) ps).
  Proof. intros Hl Hp. apply log_both; [done|apply He|by apply (verdict_no_log h Hmac v tests m Ht p level upto_1)|done]. Qed.
  Lemma xv_item f ps b vars : ty_params u h p ps = Some vars -> ty_block u h p Vc TVoid vars b = true -> ty_item u h p (CFun (Some void_t) [lit "Verdict"; f] ps b) = true.
  Proof. intros H2 H3. unfold ty_item. rewrite xv_class. rewrite bool_decide_eq_true_2 by done. change (return_ty u h p (Some void_t)) with (Some TVoid). by rewrite H2. Qed.
  Lemma xv_dump : ty_item u h p (a_dump v tests) = true.
  Proof.
    eapply xv_item; [reflexivity|]. apply ty_block_all. apply Forall_app. split.
    - constructor; [|constructor]. apply xv_log; [by left|constructor].
    - apply Forall_forall. intros s Hs. apply elem_of_list_fmap in Hs as (t & -> & Hi). apply xv_log; [by left|]. constructor; [|constructor]. exists outcome_ty. split; [eapply ty_nm; by apply xv_field; [apply plain_nil|]|done].
  Qed.
  Lemma xv_setter t : t ∈ tests -> ty_item u h p (a_setter v t) = true.
  Proof.
    intros Hi. eapply (xv_item _ _ _ [(lit "new_val", (true, outcome_ty))]); [reflexivity|]. set (vars := [_]). assert (Hv : plain_vars vars) by (constructor; [done|constructor]).
    assert (Hn : name_ty h p Vc vars [lit "new_val"] = Some (true, outcome_ty)) by (by apply ty_var). pose proof (xv_field vars t Hv Hi) as Hf.
    apply ty_block_all. constructor; [|constructor; [|constructor; [|constructor]]].
    - split; [done|]. apply ty_if; [|done|done]. eapply ty_eq; [by eapply ty_nm|by eapply ty_nm|]. unfold compared, enum_ty. rewrite !cty_eqb_refl, orb_true_r. cbn [orb andb]. done.
    - apply xv_log; [by left|]. repeat constructor.
      + exists outcome_ty. split; [by eapply ty_nm|done].
      + by exists TCStr.
      + exists outcome_ty. split; [by eapply ty_nm|done].
      + by exists TCStr.
    - split; [done|]. eapply ty_assign_ok; [done|by eapply ty_nm|by apply same_converts].
  Qed.
  Lemma xv_members : ty_item u h p (CClass (lit "Verdict") None (a_verdict_members tests)) = true.
  Proof.
    cbn [ty_item]. apply forallb_forall. intros i Hi. apply elem_of_list_In in Hi. unfold a_verdict_members in Hi. rewrite !elem_of_app in Hi. destruct Hi as [Hi|[Hi|[Hi|Hi]]].
    - rewrite !elem_of_cons, elem_of_nil in Hi. by destruct Hi as [->|[->|[]]].
    - by apply elem_of_list_fmap in Hi as (t & -> & Hi).
    - by apply elem_of_list_singleton in Hi as ->.
    - by apply elem_of_list_fmap in Hi as (t & -> & Hi).
  Qed.
  Lemma xv_enum_label s : s ∈ m_states m -> own_enumerator p [lit "State"; enum_field (st_id s)] = true.
  Proof. intros Hs. apply (du_state _ _ _ _ _ Hu); [lia|done]. Qed.
  Lemma xv_state_t : decl_ty h p (plain_t [lit "State"]) = Some (TClass [lit "State"]).
  Proof. unfold decl_ty, plain_t. cbn [ct_base ct_suffix base_ty]. rewrite (eo_own _ _ He). rewrite bool_decide_eq_true_2; [done|]. right; left. Qed.
  Lemma xv_name : find_class p (lit "state") = None -> ty_item u h p (in_ns [lit "state"] (a_name (m_states m))) = true.
  Proof.
    intros Hc. unfold a_name, in_ns. cbn [app ty_item]. rewrite Hc. rewrite bool_decide_eq_false_2 by (by intros [? [=]]). change (return_ty u h p (Some cstr_t)) with (Some TCStr). cbn iota.
    assert (E : ty_params u h p [(plain_t [lit "State"], lit "s")] = Some [(lit "s", (true, TClass [lit "State"]))]).
    { unfold ty_params. cbn [mapM fst snd mbind option_bind mret option_ret]. unfold var_ty. rewrite xv_state_t. done. }
    rewrite E. set (vars := [_]). apply ty_block_all. constructor; [|constructor; [|constructor]]; [|done]. split; [done|]. eapply ty_switch; [by eapply ty_nm, ty_var|apply He|].
    apply Forall_forall. intros c Hx. apply elem_of_list_fmap in Hx as (s & -> & Hs). cbn [fst snd]. split; [|done]. unfold label_ok, state_q, nm2. rewrite xv_enum_label by done. by vm_compute.
  Qed.
End Verdict.

(** ** main *)
Lemma no_getStatus v m : lit "getStatus" ∉ method_names (members_of v m).
Proof.
  rewrite (machine_methods v m). unfold sm_names, fixed_names, opt_names. cbv zeta. rewrite !elem_of_app. intros [Hx|[[Hx|Hx]|[Hx|Hx]]].
  - rewrite !elem_of_cons, elem_of_nil in Hx. destruct Hx as [Hx|[Hx|[Hx|[Hx|[]]]]]; discriminate Hx.
  - destruct (tc_first_state_has_in _); [|by apply elem_of_nil in Hx]. apply elem_of_list_singleton in Hx. discriminate Hx.
  - destruct (tc_has_in _); [|by apply elem_of_nil in Hx]. apply elem_of_list_singleton in Hx. discriminate Hx.
  - apply elem_of_list_fmap in Hx as (a & E & _). not_callback E.
  - apply elem_of_list_fmap in Hx as (s & Hx & _). discriminate Hx.
Qed.
Section Main.
  Context (u : user_types) (h : list item) (v : variant) (tests : list gostr) (m : stm) (types : type_map) (p : list citem) (name : gostr) (ctx : cctx).
  Context (Hm : machine_static v m) (Hu : declared_upto v tests m 4 p) (He : env_ok v p).
  Notation tc := (make_transitions m).
  Context (Hch : forall a, a ∈ tc_in tc \/ a ∈ tc_out tc -> exists t vt, types !! agg_name a = Some t /\ chan_ok u h v (agg_name a) t vt /\ (a ∈ tc_in tc -> v <> VRos -> printed u vt = true)).
  Context (Hctx : forall a t, a ∈ tc_out tc -> types !! agg_name a = Some t -> exists o, cx_types ctx !! agg_name a = Some (t, o)).
  Notation ex := (ty_expr u h p None).
  Notation st := (ty_stmt u h p None TInt).
  Notation good vars := (fun s => binds u h p None vars s = Some [] /\ ty_stmt u h p None TInt vars s = true).
  Notation SMt := (TClass [lit "StateMachine"]).
  Notation nS := (lit "stm", Some (true, SMt)).

  Lemma xn_class : find_class p (lit "StateMachine") = Some (Some [lit "rtcg"; lit "TestCase"], members_of v m).
  Proof. apply (du_machine _ _ _ _ _ Hu). lia. Qed.
  Lemma xn_log level s ps vars : level = info \/ level = err -> Forall (fun e => exists t, ex vars e = Some t /\ printed u t = true) ps -> good vars (a_log v level (EStr s) ps).
  Proof. intros Hl Hp. apply log_both; [done|apply He|done|done]. Qed.
  Lemma xn_var need vars x b t : has need vars -> (x, Some (b, t)) ∈ need -> ex vars (nm x) = Some t.
  Proof. intros H1 H2. eapply ty_nm, ty_var. by apply H1. Qed.
  Lemma xn_stm vars f t ps args ts r rs : has [nS] vars -> MMethod (Some t) f ps ∈ pub_members v m -> decl_ty h p t = Some r -> mapM (decl_ty h p) (map fst ps) = Some rs ->
    mapM (ex vars) args = Some ts -> all_convert u ts rs = true -> ex vars (mcall (lit "stm") f args) = Some r.
  Proof.
    intros Hv H1 H2 H3 H4 H5. eapply ty_mcall; [apply ty_var, Hv; left|exact H4|]. unfold method_call. change (lib_method u h p SMt f None ts) with (@None cty). cbn iota. rewrite xn_class. cbn [mbind option_bind fst snd].
    rewrite (find_public v m f t ps Hm H1). unfold sig_ty. cbn [fst snd]. rewrite H2, H3. cbn [mbind option_bind]. unfold apply_sig. cbn [fst snd]. by rewrite H5.
  Qed.
  Lemma xn_get_status vars : has [nS] vars -> ex vars get_status = Some status_ty.
  Proof.
    intros Hv. unfold get_status. eapply (ty_mcall _ _ _ _ _ _ _ _ true SMt []); [apply ty_var, Hv; left|done|]. unfold method_call. change (lib_method u h p SMt (lit "getStatus") None []) with (@None cty). cbn iota.
    rewrite xn_class. cbn [mbind option_bind fst snd]. rewrite find_method_none by apply no_getStatus. rewrite bool_decide_eq_true_2 by done. done.
  Qed.
  Lemma xn_final vars : has [nS] vars -> ty_block u h p None TInt vars (a_final v name) = true.
  Proof.
    intros Hv. unfold a_final. cbn [ty_block]. apply andb_true_iff. split; [done|].
    assert (Hb : binds u h p None vars (SDecl auto_t (lit "status") (Some get_status)) = Some [(lit "status", (true, status_ty))]).
    { cbn [binds]. rewrite bool_decide_eq_true_2 by done. rewrite xn_get_status by done. done. }
    rewrite Hb. cbn [app]. set (w := (lit "status", (true, status_ty)) :: vars).
    assert (Hw : has [nS] w). { apply (has_app _ [_]); [done|]. intros x ->%elem_of_list_singleton. cbn. by intros ?%elem_of_list_singleton. }
    assert (Hst : ex w (nm (lit "status")) = Some status_ty) by (by eapply ty_nm, ty_var).
    change (ty_block u h p None TInt w ([a_log v info (EStr (lit "Test " ++ name ++ lit " finished: ")) [nm (lit "status"); EStr (lit ".")];
      SExpr (EPost (nm (lit "stm")) [XDot (lit "getVerdict"); XCall []; XDot (lit "dump"); XCall []])] ++ [SReturn (Some (MainAst.call [lit "rtcg"; lit "status"; lit "exitCode"] [nm (lit "status")]))]) = true).
    apply ty_block_app; [constructor; [|constructor; [|constructor]]|].
    - apply xn_log; [by left|]. constructor; [|constructor; [|constructor]]; [by exists status_ty|by exists TCStr].
    - split; [done|]. eapply (ty_expr_stmt _ _ _ _ _ _ _ TVoid).
      assert (E1 : method_call u h p SMt (lit "getVerdict") None [] = Some (TClass [lit "Verdict"])).
      { unfold method_call. change (lib_method u h p SMt (lit "getVerdict") None []) with (@None cty). cbn iota. rewrite xn_class. cbn [mbind option_bind fst snd].
        rewrite (find_public v m (lit "getVerdict") verdict_ref [] Hm) by (unfold pub_members; right; left). unfold sig_ty. cbn [fst snd].
        assert (E : decl_ty h p verdict_ref = Some (TClass [lit "Verdict"])). { unfold decl_ty, verdict_ref. cbn [ct_base ct_suffix base_ty]. rewrite (eo_own _ _ He). rewrite bool_decide_eq_true_2; [done|]. left. }
        rewrite E. reflexivity. }
      assert (E2 : method_call u h p (TClass [lit "Verdict"]) (lit "dump") None [] = Some TVoid).
      { unfold method_call. change (lib_method u h p (TClass [lit "Verdict"]) (lit "dump") None []) with (@None cty). cbn iota. rewrite (du_verdict _ _ _ _ _ Hu) by lia. reflexivity. }
      assert (E3 : snd <$> name_ty h p None w [lit "stm"] = Some SMt). { erewrite ty_var; [reflexivity|]. apply Hw. left. }
      unfold nm. cbn [ty_expr]. rewrite E3. cbn [mbind option_bind]. rewrite E1. cbn [mbind option_bind]. by rewrite E2.
    - cbn [ty_block binds app]. rewrite andb_true_r. cbn [ty_stmt]. unfold gives. rewrite (ty_call _ _ _ _ _ _ _ [status_ty] TInt); [by apply same_converts|done| |reflexivity].
      cbn [mapM mbind option_bind mret option_ret]. by rewrite Hst.
  Qed.
  (** *** The loop of the animation *)
  Lemma xn_cout vars s : good vars (cout s).
  Proof.
    split; [done|]. unfold cout. eapply (ty_expr_stmt _ _ _ _ _ _ _ TOut). rewrite ty_ops_eq. unfold nm2. rewrite ty_name. unfold name_ty. rewrite (eo_std _ _ He). reflexivity.
  Qed.
  Lemma xn_is vars s need : has need vars -> (lit "s", Some (true, status_ty)) ∈ need -> ex vars (e_eq (nm (lit "s")) (status_q (status_text s))) = Some TBool.
  Proof. intros H1 H2. eapply ty_eq; [by eapply xn_var|apply xt_status|apply status_compared]. Qed.
  Lemma xn_prompt vars : has [(lit "s", Some (true, status_ty))] vars -> Forall (good vars) (a_prompt tc ctx).
  Proof.
    intros Hv. assert (Hi : forall s, ex vars (e_eq (nm (lit "s")) (status_q (status_text s))) = Some TBool) by (intros s; eapply xn_is; [exact Hv|left]).
    unfold a_prompt. repeat apply Forall_app_2.
    - constructor; [|constructor]. apply xn_cout.
    - destruct (tc_has_in tc); [|constructor]. constructor; [|constructor]. cbv zeta.
      assert (A : st vars (SIf (e_eq (nm (lit "s")) (status_q (lit "WAIT_IN"))) (cout (lit "  accept (accepts an input)\n")) None) = true).
      { apply ty_if; [apply (Hi WAIT_IN)|apply xn_cout|done]. }
      destruct (tc_first_state_has_in tc); [|by split]. split; [done|]. apply ty_if; [apply (Hi WAIT_START)|apply xn_cout|exact A].
    - constructor; [|constructor; [|constructor]]; apply xn_cout.
    - assert (Hl : forall l, Forall (good vars) (map (fun a => cout (lit "  " ++ agg_name a ++ lit " (type: " ++ type_name ctx (agg_name a) ++ lit ")\n")) l)).
      { intros l. apply Forall_forall. intros x Hx. apply elem_of_list_fmap in Hx as (a & -> & Ha). apply xn_cout. }
      destruct (tc_out tc) as [|a l]; [constructor; [|constructor]; apply xn_cout|]. apply Hl.
    - constructor; [|constructor]. apply xn_cout.
  Qed.
  Lemma xn_read vars x t : look vars x = Some (true, t) -> read_ty t = true -> good vars (read_into x).
  Proof.
    intros Hx Ht. split; [done|]. unfold read_into. eapply (ty_expr_stmt _ _ _ _ _ _ _ TIn). rewrite ty_ops_eq.
    assert (E : ex vars (nm2 (lit "std") (lit "cin")) = Some TIn). { unfold nm2. rewrite ty_name. unfold name_ty. rewrite (eo_std _ _ He). reflexivity. }
    rewrite E. cbn [mbind option_bind ty_ops]. rewrite (ty_nm _ _ _ _ _ _ true t) by (by apply ty_var). cbn [mbind option_bind op_type]. rewrite cty_eqb_refl, Ht. unfold is_target, nm. rewrite (ty_var _ _ _ _ _ _ _ Hx). reflexivity.
  Qed.
  Lemma xn_chain vars l last : Forall (fun ca => ex vars ca.1 = Some TBool /\ st vars ca.2 = true) l -> st vars last = true -> st vars (if_chain l last) = true.
  Proof. intros Hl Hlast. induction Hl as [|[c a] l [H1 H2] _ IH]; [done|]. unfold if_chain. cbn [foldr fst snd]. fold (if_chain l last). cbn [fst snd] in H1, H2. by apply ty_if. Qed.
  Lemma xn_std_t a t : a ∈ tc_out tc -> types !! agg_name a = Some t -> (std_type t = lit "std::string" \/ std_type t = lit "unsigned int" \/ std_type t = lit "int") ->
    decl_ty h p (a_type_std ctx (agg_name a)) = Some (text_type (std_type t)) /\ ct_const (a_type_std ctx (agg_name a)) = false.
  Proof.
    intros Ha Ht Hp. destruct (Hctx a t Ha Ht) as (o & Ho). unfold a_type_std. rewrite Ho. cbn [fst]. revert Hp. unfold std_type, std_t. destruct (is_enum_ty t); [done|]. destruct (is_nat_ty t); [done|]. destruct (is_int_ty t); [done|].
    destruct (is_real_ty t); intros [H|[H|H]]; discriminate H.
  Qed.
  Lemma xn_msg_t a t vt : v <> VRos -> chan_ok u h v (agg_name a) t vt -> decl_ty h p (CType true (BName [channel_msg_type (agg_name a)]) []) = Some vt.
  Proof.
    intros Hv Hc. unfold decl_ty. cbn [ct_base ct_suffix base_ty]. rewrite (eo_own _ _ He), bool_decide_eq_false_2.
    - f_equal. rewrite (co_msg _ _ _ _ _ _ Hc). by destruct v.
    - unfold channel_msg_type. intros Hx. rewrite !elem_of_cons, elem_of_nil in Hx. destruct Hx as [E|[E|[E|[]]]]; apply (f_equal reverse) in E; rewrite reverse_app in E; discriminate E.
  Qed.
  Lemma xn_choices vars : v <> VRos -> has [nS; (lit "s", Some (true, status_ty)); (lit "choice", Some (true, TString))] vars -> Forall (fun ca => ex vars ca.1 = Some TBool /\ st vars ca.2 = true) (a_choices tc ctx).
  Proof.
    intros Hv Hh. assert (Hs : has [nS] vars) by (eapply has_sub; [|exact Hh]; intros x ->%elem_of_list_singleton; left).
    assert (Ht : a_timer_params v = []) by (by destruct v). assert (Ha : a_accept_params v = []) by (by destruct v).
    assert (Hc : forall w, ex vars (e_eq (nm (lit "choice")) (EStr w)) = Some TBool).
    { intros w. eapply ty_eq; [eapply xn_var; [exact Hh|right; right; left]|reflexivity|reflexivity]. }
    assert (And : forall w s, ex vars (choice_and w (status_text s)) = Some TBool).
    { intros w s. unfold choice_and. rewrite ty_ops_eq, Hc. cbn [mbind option_bind ty_ops]. rewrite (xn_is vars s _ Hh) by (right; left). reflexivity. }
    assert (Call : forall f, MMethod (Some void_t) f [] ∈ pub_members v m -> st vars (SExpr (mcall (lit "stm") f [])) = true).
    { intros f Hf. eapply ty_expr_stmt. by eapply xn_stm. }
    unfold a_choices. repeat apply Forall_app_2.
    - constructor; [|constructor]. split; [apply Hc|]. apply Call. rewrite <- Ht. unfold pub_members. right; right; left.
    - destruct (tc_first_state_has_in tc) eqn:E; [|constructor]. constructor; [|constructor]. split; [by apply (And _ WAIT_START)|]. apply Call. rewrite <- Ht. unfold pub_members. rewrite E, !elem_of_app. right; left. left.
    - destruct (tc_has_in tc) eqn:E; [|constructor]. constructor; [|constructor]. split; [by apply (And _ WAIT_IN)|]. apply Call. rewrite <- Ha. unfold pub_members. rewrite E, !elem_of_app. right; right; left. left.
    - apply Forall_forall. intros x Hx. apply elem_of_list_fmap in Hx as (a & -> & Hin). split; cbn [a_choice fst snd]; [apply Hc|].
      destruct (Hch a (or_intror Hin)) as (t & vt & Hty & Hco & _). destruct (plain_printed _ _ _ _ _ _ Hco) as [_ Hst]. destruct (xn_std_t a t Hin Hty (co_plain _ _ _ _ _ _ Hco)) as [Hd Hcn].
      assert (Hrd : read_ty (text_type (std_type t)) = true) by (destruct (co_plain _ _ _ _ _ _ Hco) as [->|[->| ->]]; by rewrite ?str_type, ?unsigned_type, ?int_type).
      set (sty := text_type (std_type t)) in *. rewrite ty_block_eq. cbn [ty_block].
      assert (Hb : binds u h p None vars (SDecl (a_type_std ctx (agg_name a)) (lit "in") None) = Some [(lit "in", (true, sty))]).
      { cbn [binds]. rewrite Hcn, Hd. cbn [mbind option_bind]. by rewrite Hst. }
      rewrite Hb. apply andb_true_iff. split; [done|]. cbn [app]. set (w := (lit "in", (true, sty)) :: vars).
      assert (Hw : has [nS] w). { apply (has_app _ [_]); [done|]. intros x ->%elem_of_list_singleton. cbn. by intros ?%elem_of_list_singleton. }
      change (ty_block u h p None TInt w [read_into (lit "in"); SExpr (mcall (lit "stm") (callback_name (agg_name a)) [MainAst.call [convert_to (agg_name a)] [nm (lit "in")]])] = true).
      apply ty_block_all. constructor; [by eapply xn_read|]. constructor; [|constructor]. split; [done|]. eapply ty_expr_stmt. eapply (xn_stm w _ void_t _ _ [vt] TVoid [vt]); [done| |reflexivity| | |].
      + unfold pub_members. rewrite !elem_of_app. do 3 right. apply elem_of_list_fmap. by exists a.
      + cbn [a_out_params map fst mapM mbind option_bind mret option_ret]. by rewrite (xn_msg_t a t vt).
      + cbn [mapM mbind option_bind mret option_ret]. rewrite <- (co_val _ _ _ _ _ _ Hco). erewrite xm_conv; [reflexivity|done|done|apply (co_to _ _ _ _ _ _ Hco)|by eapply ty_nm, ty_var|]. rewrite (co_std _ _ _ _ _ _ Hco). by apply same_converts.
      + cbn [all_convert]. rewrite andb_true_r. apply same_converts. pose proof (co_fit _ _ _ _ _ _ Hco) as F. by destruct v.
  Qed.
  Lemma xn_round vars : v <> VRos -> has [nS; (lit "s", Some (true, status_ty))] vars -> ty_block u h p None TInt vars (a_round tc ctx) = true.
  Proof.
    intros Hv Hh. unfold a_round. apply ty_block_app.
    - apply xn_prompt. eapply has_sub; [|exact Hh]. intros x ->%elem_of_list_singleton. right; left.
    - cbn [ty_block]. change (binds u h p None vars (SDecl (plain_t [lit "std"; lit "string"]) (lit "choice") None)) with (Some [(lit "choice", (true, TString))]). apply andb_true_iff. split; [done|]. cbn [app].
      set (w := (lit "choice", (true, TString)) :: vars).
      assert (Hw : has [nS; (lit "s", Some (true, status_ty)); (lit "choice", Some (true, TString))] w).
      { intros x t. rewrite !elem_of_cons, elem_of_nil. intros [[= -> ->]|[[= -> ->]|[[= -> ->]|[]]]]; cbn [look w]; [apply Hh; left|apply Hh; right; left|reflexivity]. }
      change (ty_block u h p None TInt w [read_into (lit "choice"); if_chain (a_choices tc ctx) (cout (lit "Sorry, try again.\n"))] = true).
      apply ty_block_all. constructor; [by apply (xn_read _ _ TString)|]. constructor; [|constructor]. split; [reflexivity|]. apply xn_chain; [by apply xn_choices|apply xn_cout].
  Qed.
  Lemma xn_loop vars : v <> VRos -> has [nS] vars -> Forall (good vars) (a_loop tc ctx).
  Proof.
    intros Hv Hh. unfold a_loop. apply Forall_app_2.
    - destruct (tc_first_state_has_in tc); [|constructor]. constructor; [|constructor]. apply xn_cout.
    - constructor; [|constructor]. split; [done|]. assert (Hw : has [nS; (lit "s", Some (true, status_ty))] ((lit "s", (true, status_ty)) :: vars)).
      { intros x t. rewrite !elem_of_cons, elem_of_nil. intros [[= -> ->]|[[= -> ->]|[]]]; [apply Hh; left|reflexivity]. }
      assert (E : forall w l, ty_stmt u h p None TInt w (SBlock l) = ty_block u h p None TInt w l) by (intros w l; apply ty_block_eq).
      set (w := (lit "s", (true, status_ty)) :: vars) in *. assert (Hw' : has [nS] w) by (eapply has_sub; [|exact Hw]; intros x ->%elem_of_list_singleton; left).
      assert (F : st vars (SFor (lit "s") get_status (is_running_of (nm (lit "s"))) (nm (lit "s")) get_status (SBlock (a_round tc ctx))) =
        match ex vars get_status with Some t => storable u t && is_bool u h p None ((lit "s", (true, t)) :: vars) (is_running_of (nm (lit "s"))) && ty_assign u h p None ((lit "s", (true, t)) :: vars) (nm (lit "s")) get_status &&
          ty_stmt u h p None TInt ((lit "s", (true, t)) :: vars) (SBlock (a_round tc ctx)) | None => false end) by reflexivity.
      rewrite F, xn_get_status by done. fold w. rewrite E, xn_round by done. rewrite andb_true_r. unfold is_bool. rewrite xm_running by (eapply xn_var; [exact Hw|right; left]). rewrite bool_decide_eq_true_2 by done. cbn [andb].
      unfold ty_assign, nm. rewrite (ty_var _ _ _ w (lit "s") true status_ty) by reflexivity. unfold gives. rewrite xn_get_status by done. by apply same_converts.
  Qed.
  (** *** The start *)
  Lemma xn_pubs_t : mapM (decl_ty h p) (map fst (a_ctor_params v (tc_in tc))) = Some (map (fun _ => ros_ty (lit "Publisher")) (pubs_of v m)).
  Proof. unfold a_ctor_params, pubs_of. destruct v; try done. rewrite !map_map. by apply mapM_map_total. Qed.
  Lemma all_same {A} (t : cty) (l : list A) : storable u t = true -> all_convert u (map (fun _ => t) l) (map (fun _ => t) l) = true.
  Proof. intros Hs. induction l as [|x l IH]; [done|]. cbn [map all_convert]. by rewrite same_converts, IH. Qed.
  Lemma xn_init vars : (forall x, x ∈ pubs_of v m -> look vars x = Some (true, ros_ty (lit "Publisher"))) ->
    binds u h p None vars (SInit (plain_t [lit "StateMachine"]) (lit "stm") (a_ctor_args v (tc_in tc))) = Some [(lit "stm", (true, SMt))].
  Proof.
    intros Hv. cbn [binds plain_t ct_base]. rewrite xn_class. cbn [mbind option_bind fst snd]. assert (E : find_ctor false (members_of v m) = Some (true, map fst (a_ctor_params v (tc_in tc)))) by reflexivity.
    rewrite E. cbn [mbind option_bind fst snd]. rewrite xn_pubs_t. cbn [mbind option_bind].
    assert (E2 : mapM (ex vars) (a_ctor_args v (tc_in tc)) = Some (map (fun _ => ros_ty (lit "Publisher")) (pubs_of v m))).
    { unfold a_ctor_args. unfold pubs_of in Hv |- *. clear E Hch Hctx Hm Hu He. destruct v; try done. revert Hv. generalize (tc_in tc). induction l as [|a l IH]; intros Hv; [done|]. cbn [map mapM mbind option_bind].
      rewrite (ty_nm _ _ _ _ _ _ true (ros_ty (lit "Publisher"))) by (apply ty_var, Hv; left). cbn [mbind option_bind]. change (map (fun a => nm (publisher_name (agg_name a))) l) with (map (fun a => nm (publisher_name (agg_name a))) l) in *.
      rewrite IH by (intros x Hx; apply Hv; by right). reflexivity. }
    rewrite E2. cbn [mbind option_bind]. rewrite all_same by done. done.
  Qed.
  Lemma xn_main_animate : v <> VRos -> ty_item u h p (a_main v name tc ctx) = true.
  Proof.
    intros Hv. unfold a_main. assert (Ep : a_main_params v = []) by (by destruct v).
    assert (Ei : a_init v name tc = [SInit (plain_t [lit "StateMachine"]) (lit "stm") (a_ctor_args v (tc_in tc))] ++ [a_log v info (EStr (lit "Test " ++ name ++ lit " in main loop.")) []]) by (by destruct v).
    assert (El : match v with VRos => [ecall [lit "ros"; lit "spin"] []] | _ => a_loop tc ctx end = a_loop tc ctx) by (by destruct v). rewrite Ep, Ei, El. rewrite <- app_assoc.
    cbn [ty_item]. change (return_ty u h p (Some (CType false BInt []))) with (Some TInt). change (ty_params u h p []) with (Some ([] : cvars)). cbn iota. cbn [app].
    assert (E : forall s l, binds u h p None [] s = Some [(lit "stm", (true, SMt))] -> ty_stmt u h p None TInt [] s = true -> ty_block u h p None TInt [(lit "stm", (true, SMt))] l = true -> ty_block u h p None TInt [] (s :: l) = true).
    { intros s l H1 H2 H3. cbn [ty_block]. rewrite H1, H2. exact H3. }
    apply E; [|done|].
    - apply xn_init. intros x Hx. by apply pubs_elem in Hx as (a & -> & _).
    - assert (Hw : has [nS] [(lit "stm", (true, SMt))]) by (by intros x t [= -> ->]%elem_of_list_singleton).
      change (?a :: a_loop tc ctx ++ ?b) with ((a :: a_loop tc ctx) ++ b). apply ty_block_app; [|by apply xn_final]. constructor; [apply xn_log; [by left|constructor]|]. by apply xn_loop.
  Qed.
  (** *** The start of a ROS node *)
  Notation nN := (lit "nh", Some (true, ros_ty (lit "NodeHandle"))).
  Notation nC := [(lit "TIMEOUT_SEC", None); (lit "INPUT_DELAY_SEC", None)].
  Lemma xn_callback cb ps t : MMethod (Some void_t) cb ps ∈ pub_members v m -> mapM (decl_ty h p) (map fst ps) = Some [t] -> callback_param h p (lit "StateMachine") cb = Some t.
  Proof.
    intros H1 H2. unfold callback_param. rewrite xn_class. cbn [mbind option_bind snd]. rewrite (find_public v m cb _ _ Hm H1). cbn [mbind option_bind fst snd]. unfold sig_ty. cbn [fst snd]. rewrite H2. reflexivity.
  Qed.
  Definition keeps (need : needs) (s : stmt) : Prop :=
    forall vars, has need vars -> ty_stmt u h p None TInt vars s = true /\ exists l, binds u h p None vars s = Some l /\ forall x, x ∈ map fst l -> x ∉ map fst need.
  Lemma xn_decl need x e t : (forall vars, has need vars -> ex vars e = Some t) -> storable u t = true -> x ∉ map fst need -> keeps need (SDecl auto_t x (Some e)).
  Proof.
    intros H1 H2 H3 vars Hv. split; [done|]. exists [(x, (true, t))]. split; [|by intros y ->%elem_of_list_singleton]. cbn [binds]. rewrite bool_decide_eq_true_2 by done. rewrite H1 by done. cbn [mbind option_bind]. by rewrite H2.
  Qed.
  Lemma xn_refs vars f : has [nN; nS; (lit "TIMEOUT_SEC", None); (lit "INPUT_DELAY_SEC", None)] vars -> ex vars (method_ref f) = Some (TMember (lit "StateMachine") f) /\ ex vars stm_ref = Some (TPtr SMt).
  Proof. intros Hv. split; [done|]. unfold stm_ref, nm. cbn [ty_expr]. rewrite (Hv (lit "stm") (Some (true, SMt))) by (right; left). done. Qed.
  Lemma xn_sub x topic cb ps t : tail4 x = lit "bus_" -> MMethod (Some void_t) cb ps ∈ pub_members v m -> mapM (decl_ty h p) (map fst ps) = Some [TConstPtr t] -> message u t = true -> keeps (nN :: nS :: nC) (a_ros_sub x topic cb).
  Proof.
    intros Hx H1 H2 H3. eapply (xn_decl _ _ _ (ros_ty (lit "Subscriber"))); [|done|].
    - intros vars Hv. destruct (xn_refs vars cb Hv) as [R1 R2]. unfold nh_call. eapply (ty_mcall _ _ _ _ _ _ _ _ true _ [TCStr; TInt; TMember (lit "StateMachine") cb; TPtr SMt]); [apply ty_var, Hv; left| |].
      + cbn [mapM mbind option_bind mret option_ret]. rewrite R1, R2. reflexivity.
      + assert (E : method_call u h p (ros_ty (lit "NodeHandle")) (lit "subscribe") None [TCStr; TInt; TMember (lit "StateMachine") cb; TPtr SMt] =
          match (b ← callback_param h p (lit "StateMachine") cb; if all_convert u [TCStr; TInt] [TString; TUnsigned] && cty_eqb (TPtr SMt) (TPtr SMt) && is_message_ptr u b then Some (ros_ty (lit "Subscriber")) else None) with Some r => Some r | None => None end) by reflexivity.
        rewrite E, (xn_callback cb ps (TConstPtr t)) by done. cbn [mbind option_bind is_message_ptr]. rewrite H3, cty_eqb_refl. reflexivity.
    - cbn [map fst]. rewrite !elem_of_cons, elem_of_nil. intros [->|[->|[->|[->|[]]]]]; discriminate Hx.
  Qed.
  Lemma xn_timer x sec cb : v = VRos -> tail4 x = lit "remi" -> sec = lit "TIMEOUT_SEC" \/ sec = lit "INPUT_DELAY_SEC" -> MMethod (Some void_t) cb (a_timer_params v) ∈ pub_members v m -> keeps (nN :: nS :: nC) (a_timer x sec cb).
  Proof.
    intros Hr Hx Hsec H1. eapply (xn_decl _ _ _ (ros_ty (lit "Timer"))); [|done|].
    - intros vars Hv. destruct (xn_refs vars cb Hv) as [R1 R2]. unfold nh_call. eapply (ty_mcall _ _ _ _ _ _ _ _ true _ [ros_ty (lit "Duration"); TMember (lit "StateMachine") cb; TPtr SMt]); [apply ty_var, Hv; left| |].
      + assert (Hs : ex vars (nm sec) = Some TInt).
        { destruct (eo_const _ _ He Hr) as [C1 C2]. unfold nm. rewrite ty_name. unfold name_ty. destruct Hsec as [-> | ->].
          - rewrite (Hv (lit "TIMEOUT_SEC") None) by (right; right; left). cbn [field_ty mbind option_bind]. rewrite C1. reflexivity.
          - rewrite (Hv (lit "INPUT_DELAY_SEC") None) by (right; right; right; left). cbn [field_ty mbind option_bind]. rewrite C2. reflexivity. }
        assert (D : ex vars (MainAst.call [lit "ros"; lit "Duration"] [nm sec]) = Some (ros_ty (lit "Duration"))).
        { eapply (ty_call _ _ _ _ _ _ _ [TInt]); [done| |reflexivity]. cbn [mapM mbind option_bind mret option_ret]. by rewrite Hs. }
        cbn [mapM mbind option_bind mret option_ret]. rewrite D, R1, R2. reflexivity.
      + assert (E : method_call u h p (ros_ty (lit "NodeHandle")) (lit "createTimer") None [ros_ty (lit "Duration"); TMember (lit "StateMachine") cb; TPtr SMt] =
          match (b ← callback_param h p (lit "StateMachine") cb; if cty_eqb (ros_ty (lit "Duration")) (ros_ty (lit "Duration")) && cty_eqb (TPtr SMt) (TPtr SMt) && cty_eqb b (ros_ty (lit "TimerEvent")) then Some (ros_ty (lit "Timer")) else None) with Some r => Some r | None => None end) by reflexivity.
        rewrite E, (xn_callback cb (a_timer_params v) (ros_ty (lit "TimerEvent"))) by (try done; by rewrite Hr). cbn [mbind option_bind]. rewrite !cty_eqb_refl. reflexivity.
    - cbn [map fst]. rewrite !elem_of_cons, elem_of_nil. intros [->|[->|[->|[->|[]]]]]; discriminate Hx.
  Qed.
  Lemma xn_subs : v = VRos -> Forall (keeps (nN :: nS :: nC)) (a_ros_subs tc).
  Proof.
    intros Hr. unfold a_ros_subs. repeat apply Forall_app_2.
    - destruct (tc_has_in tc) eqn:E; [|constructor]. constructor; [|constructor]. eapply (xn_sub _ _ _ (a_accept_params v) bool_msg); [done| |by rewrite Hr|done]. unfold pub_members. rewrite E, !elem_of_app. right; right; left. left.
    - apply Forall_forall. intros s Hs. apply elem_of_list_fmap in Hs as (a & -> & Ha). destruct (Hch a (or_intror Ha)) as (t & vt & Hty & Hco & _). eapply (xn_sub _ _ _ (a_out_params a) vt); [apply tail_sub| | |].
      + unfold pub_members. rewrite !elem_of_app. do 3 right. apply elem_of_list_fmap. by exists a.
      + cbn [a_out_params map fst mapM mbind option_bind mret option_ret]. unfold decl_ty. cbn [ct_base ct_suffix base_ty]. rewrite (eo_own _ _ He), bool_decide_eq_false_2.
        * rewrite (co_msg _ _ _ _ _ _ Hco), Hr. reflexivity.
        * unfold channel_msg_type. intros Hx. rewrite !elem_of_cons, elem_of_nil in Hx. destruct Hx as [E|[E|[E|[]]]]; apply (f_equal reverse) in E; rewrite reverse_app in E; discriminate E.
      + pose proof (co_fit _ _ _ _ _ _ Hco) as F. by rewrite Hr in F.
    - constructor; [|constructor]. apply xn_timer; [done|done|by left|]. unfold pub_members. right; right; left.
    - destruct (tc_first_state_has_in tc) eqn:E; [|constructor]. constructor; [|constructor]. apply xn_timer; [done|done|by right|]. unfold pub_members. rewrite E, !elem_of_app. right; left. left.
  Qed.
  Lemma xn_advertise vars a : v = VRos -> a ∈ tc_in tc -> has (nN :: nC) vars ->
    ex vars (EPost (nm (lit "nh")) [XDot (lit "advertise"); XInst [channel_value_type (agg_name a)]; XCall [EStr (topic_name (agg_name a)); ENum (lit "1000")]]) = Some (ros_ty (lit "Publisher")).
  Proof.
    intros Hr Ha Hv. destruct (Hch a (or_introl Ha)) as (t & vt & Hty & Hco & _). pose proof (co_fit _ _ _ _ _ _ Hco) as F. rewrite Hr in F.
    assert (E : ex vars (EPost (nm (lit "nh")) [XDot (lit "advertise"); XInst [channel_value_type (agg_name a)]; XCall [EStr (topic_name (agg_name a)); ENum (lit "1000")]]) =
      (t ← snd <$> name_ty h p None vars [lit "nh"]; t ← method_call u h p t (lit "advertise") (Some [channel_value_type (agg_name a)]) [TCStr; TInt]; Some t)) by reflexivity.
    rewrite E. rewrite (ty_var _ _ _ vars (lit "nh") true (ros_ty (lit "NodeHandle"))) by (apply Hv; left). cbn [fmap option_fmap option_map snd mbind option_bind].
    assert (E2 : method_call u h p (ros_ty (lit "NodeHandle")) (lit "advertise") (Some [channel_value_type (agg_name a)]) [TCStr; TInt] =
      match (if message u (if own_name p (channel_value_type (agg_name a)) then TClass [channel_value_type (agg_name a)] else header_type h (channel_value_type (agg_name a))) && all_convert u [TCStr; TInt] [TString; TUnsigned]
             then Some (ros_ty (lit "Publisher")) else None) with Some r => Some r | None => None end) by reflexivity.
    rewrite E2. rewrite (eo_own _ _ He), bool_decide_eq_false_2; [rewrite (co_val _ _ _ _ _ _ Hco), F; reflexivity|].
    unfold channel_value_type. intros Hx. rewrite !elem_of_cons, elem_of_nil in Hx. destruct Hx as [X|[X|[X|[]]]]; apply (f_equal reverse) in X; rewrite reverse_app in X; discriminate X.
  Qed.
  Lemma xn_main_ros : v = VRos -> ty_item u h p (a_main v name tc ctx) = true.
  Proof.
    intros Hr. unfold a_main. assert (Ep : a_main_params v = [(CType false BInt [], lit "argc"); (CType false BChar [PStar; PStar], lit "argv")]) by (by rewrite Hr).
    assert (Ei : a_init v name tc = [ecall [lit "ros"; lit "init"] [nm (lit "argc"); nm (lit "argv"); EStr name]; SDecl (plain_t [lit "ros"; lit "NodeHandle"]) (lit "nh") None] ++
      map (fun a => SDecl auto_t (publisher_name (agg_name a))
         (Some (EPost (nm (lit "nh")) [XDot (lit "advertise"); XInst [channel_value_type (agg_name a)]; XCall [EStr (topic_name (agg_name a)); ENum (lit "1000")]]))) (tc_in tc) ++
      [SInit (plain_t [lit "StateMachine"]) (lit "stm") (a_ctor_args v (tc_in tc))] ++ a_ros_subs tc ++ [a_log v info (EStr (lit "Test " ++ name ++ lit " in main loop.")) []]).
    { rewrite Hr. unfold a_init, a_ros_init. by rewrite <- !app_assoc. }
    assert (El : match v with VRos => [ecall [lit "ros"; lit "spin"] []] | _ => a_loop tc ctx end = [ecall [lit "ros"; lit "spin"] []]) by (by rewrite Hr). rewrite Ei, El, Ep. rewrite <- !app_assoc.
    cbn [ty_item]. change (return_ty u h p (Some (CType false BInt []))) with (Some TInt).
    change (ty_params u h p [(CType false BInt [], lit "argc"); (CType false BChar [PStar; PStar], lit "argv")]) with (Some [(lit "argc", (true, TInt)); (lit "argv", (true, TArgv))]). cbn iota. cbn [app].
    set (w0 := [(lit "argc", (true, TInt)); (lit "argv", (true, TArgv))]).
    assert (E : forall s l w b, binds u h p None w s = Some b -> ty_stmt u h p None TInt w s = true -> ty_block u h p None TInt (b ++ w) l = true -> ty_block u h p None TInt w (s :: l) = true).
    { intros s l w b H1 H2 H3. cbn [ty_block]. rewrite H1, H2. exact H3. }
    eapply E; [reflexivity| |].
    { unfold ecall. eapply (ty_expr_stmt _ _ _ _ _ _ _ TVoid). eapply (ty_call _ _ _ _ _ _ _ [TInt; TArgv; TCStr]); [done|reflexivity|reflexivity]. }
    apply (E _ _ _ [(lit "nh", (true, ros_ty (lit "NodeHandle")))]); [reflexivity|reflexivity|]. cbn [app].
    set (w1 := (lit "nh", (true, ros_ty (lit "NodeHandle"))) :: w0). change (TClass [lit "ros"; lit "NodeHandle"]) with (ros_ty (lit "NodeHandle")).
    assert (H1 : has (nN :: nC) w1). { intros x t. rewrite !elem_of_cons, elem_of_nil. by intros [[= -> ->]|[[= -> ->]|[[= -> ->]|[]]]]. }
    assert (Hp : forall x, x ∈ pubs_of v m -> x ∉ map fst (nN :: nC)). { intros x Hx. apply pubs_tail in Hx. cbn [map fst]. rewrite !elem_of_cons, elem_of_nil. intros [->|[->|[->|[]]]]; discriminate Hx. }
    eapply (block_decls _ _ _ _ _ (nN :: nC) _ (fun a => publisher_name (agg_name a)) (true, ros_ty (lit "Publisher"))); [|exact H1|].
    { intros a w Ha Hw. split; [done|]. split.
      - cbn [binds]. rewrite bool_decide_eq_true_2 by done. rewrite xn_advertise by done. reflexivity.
      - apply Hp. rewrite Hr. apply elem_of_list_fmap. by exists a. }
    assert (Epb : map (fun a => publisher_name (agg_name a)) (tc_in tc) = pubs_of v m) by (by rewrite Hr). rewrite Epb. set (w2 := map _ (rev (pubs_of v m)) ++ w1).
    assert (Hin : forall x, x ∈ rev (pubs_of v m) <-> x ∈ pubs_of v m) by (intros x; by rewrite !elem_of_list_In, <- in_rev).
    assert (H2 : has (nN :: nC) w2). { apply has_app; [done|]. intros x Hx. rewrite map_map in Hx. cbn [fst] in Hx. rewrite map_id in Hx. by apply Hp, Hin. }
    eapply E; [|reflexivity|].
    { apply xn_init. intros x Hx. unfold w2. apply look_app_const. by apply Hin. }
    cbn [app]. set (w3 := (lit "stm", (true, SMt)) :: w2).
    assert (H3 : has (nN :: nS :: nC) w3).
    { intros x t. rewrite !elem_of_cons, elem_of_nil. intros [[= -> ->]|[[= -> ->]|[[= -> ->]|[[= -> ->]|[]]]]]; cbn [look w3]; [apply H2; left|done|apply H2; right; left|apply H2; right; right; left]. }
    eapply (block_keep _ _ _ _ _ (nN :: nS :: nC)); [by apply xn_subs|exact H3|].
    intros w4 H4. assert (H5 : has [nS] w4) by (eapply has_sub; [|exact H4]; intros x ->%elem_of_list_singleton; right; left).
    change (?a :: ?b :: a_final v name) with ([a; b] ++ a_final v name). apply ty_block_app; [|by apply xn_final]. constructor; [apply xn_log; [by left|constructor]|]. constructor; [|constructor]. split; [done|].
    unfold ecall. eapply (ty_expr_stmt _ _ _ _ _ _ _ TVoid). eapply (ty_call _ _ _ _ _ _ _ []); [done|reflexivity|reflexivity].
  Qed.
End Main.
