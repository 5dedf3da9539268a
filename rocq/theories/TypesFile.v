(** * Every expression of main.cpp has a type: the whole file *)
From Verif Require Export TypesMain.
From Verif Require Export StmProofs.

Definition no_types (i : citem) : bool := match i with CClass _ _ _ | CEnum _ _ => false | _ => true end.
Definition no_fun (i : citem) : bool := match i with CFun _ _ _ _ => false | _ => true end.
Lemma find_fun_skip l r q : Forall (fun i => match i with CFun _ q' _ _ => path_eqb q' q = false | _ => True end) l -> find_fun (l ++ r) q = find_fun r q.
Proof. induction 1 as [|i l H _ IH]; [done|]. cbn [app find_fun]. destruct i as [| | | |[t|] q' ps b]; try done. by rewrite H. Qed.
Lemma existsb_none {A} (f : A -> bool) l : Forall (fun x => f x = false) l -> existsb f l = false.
Proof. induction 1 as [|x l H _ IH]; [done|]. cbn. by rewrite H, IH. Qed.

Section File.
  Context (u : user_types) (h : list item) (v : variant) (tests : list gostr) (m : stm) (types : type_map) (P : program) (name : gostr) (ctx : cctx).
  Context (Hm : machine_static v m) (HM : machine_ok v m types tests P) (Ht : tests_ok h tests) (Hmac : forall x, x ∈ map fst (macros h) -> macro_like x).
  Notation tc := (make_transitions m).
  Context (Hch : forall a, a ∈ tc_in tc \/ a ∈ tc_out tc -> exists t vt, types !! agg_name a = Some t /\ chan_ok u h v (agg_name a) t vt /\ (a ∈ tc_in tc -> v <> VRos -> printed u vt = true)).
  Context (Hctx : forall a t, a ∈ tc_out tc -> types !! agg_name a = Some t -> exists o, cx_types ctx !! agg_name a = Some (t, o)).
  Context (Hsubs : v = VRos -> NoDup (map (fun a => subscriber_name (agg_name a)) (tc_out tc)) /\ lit "input_accepted_sub" ∉ map (fun a => subscriber_name (agg_name a)) (tc_out tc)).
  Context (Hfuns : NoDup (fun_names (main_items v name m ctx tests))).
  Notation p := (main_items v name m ctx tests).
  Definition stm_funs : list citem :=
    [a_ctor v tc (s0_of m); a_getVerdict; a_stateName; a_end_fun v; a_timeout v] ++ (if tc_first_state_has_in tc then [a_delay v (s0_of m)] else []) ++
    (if tc_has_in tc then [a_accept v tc] else []) ++ map (a_out v) (tc_out tc) ++ map (a_entry v) (m_states m) ++ [a_main v name tc ctx].
  Lemma file_eq : p = pre0 v ctx ++ CClass (lit "Verdict") None (a_verdict_members tests) :: (a_dump v tests :: map (a_setter v) tests) ++
    a_enum (m_states m) :: in_ns [lit "state"] (a_name (m_states m)) :: a_class v tc (s0_of m) (m_states m) :: stm_funs.
  Proof. rewrite main_items_eq. unfold pre0, a_verdict, a_stm, stm_funs. rewrite <- !app_assoc. reflexivity. Qed.
  Lemma stm_funs_only : Forall (fun i => match i with CFun _ _ _ _ => True | _ => False end) stm_funs.
  Proof.
    unfold stm_funs. repeat apply Forall_app_2; [repeat constructor|destruct (tc_first_state_has_in tc); repeat constructor|destruct (tc_has_in tc); repeat constructor| | |repeat constructor];
      apply Forall_forall; intros i Hi; by apply elem_of_list_fmap in Hi as (x & -> & _).
  Qed.
  Lemma pre0_plain : Forall (fun i => match i with CPre _ | CVar _ _ _ => True | _ => False end) (pre0 v ctx).
  Proof.
    clear - v ctx. unfold pre0. apply Forall_app_2; [|destruct v; repeat constructor]. unfold a_includes. apply Forall_forall. intros i Hi. by apply elem_of_list_fmap in Hi as (x & -> & _).
  Qed.
  Lemma file_upto : declared_upto v tests m 4 p.
  Proof.
    assert (E : p = pre5 v tests m ctx ++ stm_funs) by (rewrite file_eq; unfold pre5, pre4, pre3, pre2, pre1; by rewrite <- !app_assoc). rewrite E. by eapply declared_app, upto4.
  Qed.
  Lemma file_types (f : citem -> bool) : (forall i, no_types i = true -> f i = false) ->
    existsb f p = f (CClass (lit "Verdict") None (a_verdict_members tests)) || (f (a_enum (m_states m)) || f (a_class v tc (s0_of m) (m_states m))).
  Proof.
    intros H. rewrite file_eq. rewrite existsb_app. rewrite existsb_none. 2: { apply (Forall_impl _ _ _ pre0_plain). intros i Hi. apply H. by destruct i. }
    cbn [existsb orb]. f_equal. rewrite existsb_app. rewrite existsb_none. 2: { constructor; [by apply H|]. apply Forall_forall. intros i Hi. apply elem_of_list_fmap in Hi as (x & -> & _). by apply H. }
    cbn [existsb orb]. f_equal. rewrite (H (in_ns _ _)) by done. cbn [orb]. rewrite existsb_none. 2: { apply (Forall_impl _ _ _ stm_funs_only). intros i Hi. apply H. by destruct i. } by rewrite orb_false_r.
  Qed.
  Lemma file_env : env_ok v p.
  Proof.
    clear Hsubs. split.
    - rewrite file_eq. rewrite find_fun_skip. 2: { apply (Forall_impl _ _ _ pre0_plain). intros i Hi. by destruct i. }
      cbn [find_fun]. rewrite find_fun_skip; [reflexivity|]. constructor; [done|]. apply Forall_forall. intros i Hi. apply elem_of_list_fmap in Hi as (x & -> & _). apply path_eqb_ne. intros X. discriminate X.
    - unfold enum_ty. apply orb_true_iff. right. rewrite file_types by (by intros []). reflexivity.
    - intros x. unfold own_name. rewrite file_types by (by intros []). cbn [a_enum a_class]. apply eq_true_iff_eq. rewrite !orb_true_iff, bool_decide_eq_true, !elem_of_cons, elem_of_nil. unfold str_eqb. rewrite !bool_decide_eq_true. naive_solver.
    - intros x. unfold own_enumerator. rewrite file_types by (by intros []). cbn [a_enum a_class orb]. rewrite orb_false_r. apply existsb_none. apply Forall_forall. intros f _. apply path_eqb_ne. intros X. discriminate X.
    - intros Hv. rewrite file_eq. unfold pre0. rewrite Hv. assert (G : forall x l r, find_global (map CPre l ++ r) x = find_global r x) by (intros x l r; induction l as [|i l IH]; [done|exact IH]).
      rewrite <- !app_assoc. unfold a_includes. rewrite !G. split; reflexivity.
  Qed.
  Lemma file_no_state : find_class p (lit "state") = None.
  Proof.
    rewrite file_eq. rewrite find_class_skip by (apply forallb_forall; intros i Hi%elem_of_list_In; pose proof (proj1 (Forall_forall _ _) pre0_plain i Hi) as X; by destruct i). cbn [find_class]. change (str_eqb (lit "Verdict") (lit "state")) with false. cbn iota.
    rewrite find_class_skip by (cbn [forallb a_dump is_class negb andb]; by apply forallb_map_true). cbn [find_class a_enum in_ns a_name a_class]. change (str_eqb (lit "StateMachine") (lit "state")) with false. cbn iota.
    pose proof stm_funs_only as F. induction F as [|i l Hi _ IH]; [done|]. destruct i; try done.
  Qed.
  Lemma ty_class : ty_item u h p (a_class v tc (s0_of m) (m_states m)) = true.
  Proof.
    pose proof file_env as He. pose proof file_upto as Hu. unfold a_class. cbn [ty_item]. change (a_members v tc (s0_of m) (m_states m)) with (members_of v m). rewrite members_split. cbn [forallb ty_member andb].
    rewrite forallb_app. cbn [forallb ty_member andb]. apply andb_true_iff. split; apply forallb_forall; intros i Hi; apply elem_of_list_In in Hi.
    - unfold pub_members in Hi. cbv zeta in Hi. rewrite !elem_of_app in Hi. destruct Hi as [Hi|[Hi|[Hi|Hi]]].
      + rewrite !elem_of_cons, elem_of_nil in Hi. destruct Hi as [->|[->|[->|[]]]]; cbn [ty_member].
        * rewrite (xm_ctor_params u h v tests m types P p) by done. done.
        * unfold return_ty, verdict_ref, decl_ty. cbn [ct_base ct_suffix base_ty]. rewrite (eo_own _ _ He), (bool_decide_eq_true_2 (_ ∈ _)) by (apply elem_of_list_here). done.
        * destruct (xm_timer_params u h v tests m types P p Hm HM Hu He Hch) as (w & E & _). rewrite E. done.
      + destruct (tc_first_state_has_in tc); [|by apply elem_of_nil in Hi]. apply elem_of_list_singleton in Hi as ->. cbn [ty_member]. destruct (xm_timer_params u h v tests m types P p Hm HM Hu He Hch) as (w & E & _). rewrite E. done.
      + destruct (tc_has_in tc); [|by apply elem_of_nil in Hi]. apply elem_of_list_singleton in Hi as ->. cbn [ty_member]. destruct (xm_accept_params u h v tests m types P p Hm HM Hu He Hch) as (w & E & _). rewrite E. done.
      + apply elem_of_list_fmap in Hi as (a & -> & Ha). cbn [ty_member]. destruct (Hch a (or_intror Ha)) as (t & vt & _ & Hc & _). set (mt := header_type h (channel_msg_type (agg_name a))).
        assert (Hd : decl_ty h p (CType true (BName [channel_msg_type (agg_name a)]) []) = Some mt).
        { unfold decl_ty. cbn [ct_base ct_suffix base_ty]. rewrite (eo_own _ _ He), bool_decide_eq_false_2; [done|]. unfold channel_msg_type. intros Hx. rewrite !elem_of_cons, elem_of_nil in Hx.
          destruct Hx as [E|[E|[E|[]]]]; apply (f_equal reverse) in E; rewrite reverse_app in E; discriminate E. }
        unfold ty_params, a_out_params. cbn [mapM fst snd mbind option_bind]. unfold var_ty. rewrite Hd. cbn [fmap option_fmap option_map mbind option_bind snd ct_const negb].
        unfold mt. rewrite (msg_storable _ _ _ _ _ _ Hc). reflexivity.
    - unfold priv_members in Hi. cbv zeta in Hi. rewrite !elem_of_app in Hi. destruct Hi as [Hi|[Hi|[Hi|Hi]]].
      + rewrite !elem_of_cons, elem_of_nil in Hi. destruct Hi as [->|[->|[]]]; cbn [ty_member].
        * unfold decl_ty, plain_t. cbn [ct_base ct_suffix base_ty]. rewrite (eo_own _ _ He), (bool_decide_eq_true_2 (_ ∈ _)) by (apply elem_of_list_here). done.
        * unfold decl_ty, plain_t. cbn [ct_base ct_suffix base_ty]. rewrite (eo_own _ _ He), (bool_decide_eq_true_2 (_ ∈ _)) by (apply elem_of_list_further, elem_of_list_here). destruct (ms_first _ _ Hm) as (s & Hs & Es). unfold gives, state_q. rewrite xt_enum.
          -- by apply same_converts.
          -- rewrite <- Es. apply (du_state _ _ _ _ _ Hu); [lia|done].
      + destruct v; [by apply elem_of_nil in Hi| |by apply elem_of_nil in Hi]. by apply elem_of_list_fmap in Hi as (a & -> & _).
      + by apply elem_of_list_fmap in Hi as (s & -> & _).
      + rewrite !elem_of_cons, elem_of_nil in Hi. by destruct Hi as [->|[->|[]]].
  Qed.
  Lemma ty_main : ty_item u h p (a_main v name tc ctx) = true.
  Proof.
    pose proof file_env as He. pose proof file_upto as Hu. destruct (decide (v = VRos)) as [E|N]; [by eapply xn_main_ros|by eapply xn_main_animate].
  Qed.
  Lemma file_ok : types_ok u h p = true.
  Proof.
    pose proof file_env as He. pose proof file_upto as Hu. pose proof ty_main as Mn. pose proof ty_class as Cl. pose proof file_no_state as Ns. unfold types_ok. rewrite file_eq at 2. rewrite forallb_app. apply andb_true_iff. split.
    { unfold pre0. rewrite forallb_app. apply andb_true_iff. split; [by apply forallb_map_true|]. destruct v; reflexivity. }
    cbn [forallb]. rewrite (xv_members u h tests p). cbn [andb]. rewrite forallb_app. apply andb_true_iff. split.
    { cbn [forallb]. rewrite (xv_dump u h v tests m p) by done. cbn [andb]. apply forallb_forall. intros i Hi. apply in_map_iff in Hi as (t & <- & Hi%elem_of_list_In). by eapply xv_setter. }
    cbn [forallb]. change (ty_item u h p (a_enum (m_states m))) with true. cbn [andb]. rewrite (xv_name u h v tests m p) by done. rewrite Cl. cbn [andb].
    unfold stm_funs. rewrite !forallb_app. apply andb_true_iff; split; [|apply andb_true_iff; split; [|apply andb_true_iff; split; [|apply andb_true_iff; split; [|apply andb_true_iff; split]]]].
    - cbn [forallb]. apply andb_true_iff; split; [by eapply xm_ctor|]. apply andb_true_iff; split; [by eapply xm_getVerdict|]. apply andb_true_iff; split; [by eapply xm_stateName|].
      apply andb_true_iff; split; [by eapply xm_end_fun|]. apply andb_true_iff; split; [by eapply xm_timeout|done].
    - destruct (tc_first_state_has_in tc); [|done]. cbn [forallb]. rewrite andb_true_r. by eapply xm_delay.
    - destruct (tc_has_in tc) eqn:E; [|done]. cbn [forallb]. rewrite andb_true_r. by eapply xm_accept.
    - apply forallb_forall. intros i Hi. apply in_map_iff in Hi as (a & <- & Ha%elem_of_list_In). by eapply xm_out.
    - apply forallb_forall. intros i Hi. apply in_map_iff in Hi as (s & <- & Hs%elem_of_list_In). by eapply xm_entry.
    - cbn [forallb]. by rewrite Mn.
  Qed.
End File.
