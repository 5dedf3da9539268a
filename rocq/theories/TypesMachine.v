(** * The expressions of the class StateMachine have types *)
From Verif Require Export StaticTypes.
From Verif Require Export StmProofs.

Record env_ok (v : variant) (p : list citem) : Prop := {
  eo_name : find_fun p [lit "state"; lit "name"] = Some (cstr_t, [plain_t [lit "State"]]);
  eo_state : enum_ty p (TClass [lit "State"]) = true;
  eo_own : forall x, own_name p x = bool_decide (x ∈ [lit "Verdict"; lit "State"; lit "StateMachine"]);
  eo_std : forall x, own_enumerator p [lit "std"; x] = false;
  eo_const : v = VRos -> find_global p (lit "TIMEOUT_SEC") = Some (CType true BInt []) /\ find_global p (lit "INPUT_DELAY_SEC") = Some (CType true BInt []);
}.
(** What convert.h says about a channel. *)
Record chan_ok (u : user_types) (h : list item) (v : variant) (c : gostr) (t : rstype) (vt : cty) : Prop := {
  co_val : header_type h (channel_value_type c) = vt;
  co_msg : header_type h (channel_msg_type c) = match v with VRos => TConstPtr vt | _ => vt end;
  co_from : find_hfun h (convert_from c) = Some (std_type t, channel_msg_type c);
  co_to : find_hfun h (convert_to c) = Some (channel_value_type c, std_type t);
  co_std : header_type h (std_type t) = text_type (std_type t);
  co_plain : std_type t = lit "std::string" \/ std_type t = lit "unsigned int" \/ std_type t = lit "int";
  co_fit : match v with VRos => message u vt | _ => storable u vt end = true;
}.
Lemma str_type : text_type (lit "std::string") = TString. Proof. by vm_compute. Qed.
Lemma unsigned_type : text_type (lit "unsigned int") = TUnsigned. Proof. by vm_compute. Qed.
Lemma int_type : text_type (lit "int") = TInt. Proof. by vm_compute. Qed.
Lemma plain_printed u h v c t vt : chan_ok u h v c t vt -> printed u (text_type (std_type t)) = true /\ storable u (text_type (std_type t)) = true.
Proof. intros H. destruct (co_plain _ _ _ _ _ _ H) as [->|[->| ->]]; by rewrite ?str_type, ?unsigned_type, ?int_type. Qed.
Lemma msg_storable u h v c t vt : chan_ok u h v c t vt -> storable u (header_type h (channel_msg_type c)) = true.
Proof. intros H. rewrite (co_msg _ _ _ _ _ _ H). pose proof (co_fit _ _ _ _ _ _ H) as F. by destruct v. Qed.
Lemma same_converts u a : storable u a = true -> converts u a a = true.
Proof. intros H. unfold converts. by rewrite cty_eqb_refl, H. Qed.

Lemma mapM_map_total {A B C} (f : B -> option C) (k : A -> B) (g : A -> C) l : (forall x, f (k x) = Some (g x)) -> mapM f (map k l) = Some (map g l).
Proof. intros H. induction l as [|x l IH]; [done|]. cbn. rewrite H. cbn. change (mapM f (map k l) = Some (map g l)) in IH. by rewrite IH. Qed.

Lemma pass_kind t x : is_Some (pass_value t x) -> match x with EnumV _ => std_type t = lit "std::string" | IntV _ => std_type t <> lit "std::string" end.
Proof.
  destruct x as [z|s]; unfold pass_value, std_type.
  - assert (X : is_enum_ty t = true -> is_nat_ty t = false /\ is_int_ty t = false /\ is_real_ty t = false) by (unfold is_enum_ty, is_nat_ty, is_int_ty, is_real_ty, is_arithmos; intros ->%bool_decide_eq_true; done).
    destruct (is_enum_ty t); [destruct X as (-> & -> & ->); [done|]; by intros []|]. by destruct (is_nat_ty t), (is_int_ty t), (is_real_ty t).
  - destruct (is_enum_ty t); [done|]. by intros [].
Qed.

(** ** Variables *)
Definition plain_vars (vars : cvars) : Prop := Forall (fun x : gostr * (bool * cty) => last x.1 <> Some "_"%char) vars.
Lemma look_none {A} (l : list (gostr * A)) x : x ∉ map fst l -> look l x = None.
Proof. induction l as [|[y a] l IH]; [done|]. cbn. rewrite elem_of_cons. intros H. rewrite str_eqb_ne; [|intros ->; apply H; by left]. apply IH. intros H'. apply H. by right. Qed.
Lemma plain_look vars x : plain_vars vars -> look vars (fld x) = None.
Proof.
  intros H. apply look_none. intros Hx. apply elem_of_list_fmap in Hx as (y & E & Hy). pose proof (proj1 (Forall_forall _ _) H y Hy) as L. apply L. rewrite <- E. unfold fld. by rewrite last_snoc.
Qed.
Lemma look_const {A} (l : list gostr) (t : A) x : x ∈ l -> look (map (fun y => (y, t)) l) x = Some t.
Proof. induction l as [|y l IH]; [by intros ?%elem_of_nil|]. rewrite elem_of_cons. intros H. cbn. destruct (str_eqb y x) eqn:E; [done|]. apply IH. destruct H as [->|H]; [by rewrite str_eqb_refl in E|done]. Qed.

(** ** The members *)
Definition pub_members (v : variant) (m : stm) : list member :=
  let tc := make_transitions m in
  [MMethod None (lit "StateMachine") (a_ctor_params v (tc_in tc)); MMethod (Some verdict_ref) (lit "getVerdict") []; MMethod (Some void_t) (lit "timeoutCallback") (a_timer_params v)] ++
  (if tc_first_state_has_in tc then [MMethod (Some void_t) (lit "initialDelayCallback") (a_timer_params v)] else []) ++
  (if tc_has_in tc then [MMethod (Some void_t) (lit "inputAcceptedCallback") (a_accept_params v)] else []) ++
  map (fun a => MMethod (Some void_t) (callback_name (agg_name a)) (a_out_params a)) (tc_out tc).
Definition priv_members (v : variant) (m : stm) : list member :=
  let tc := make_transitions m in
  [MField (plain_t [lit "Verdict"]) (lit "verdict_") None; MField (plain_t [lit "State"]) (lit "state_") (Some (state_q (s0_of m)))] ++
  match v with VRos => map (fun a => MField pub_t (fld (publisher_name (agg_name a))) None) (tc_in tc) | _ => [] end ++
  map (fun s => MMethod (Some void_t) (state_entry (st_id s)) []) (m_states m) ++
  [MMethod (Some cstr_t) (lit "stateName") []; MMethod (Some void_t) (lit "end") [(status_t, lit "status")]].
Lemma members_split v m : members_of v m = MLabel true :: pub_members v m ++ MLabel false :: priv_members v m.
Proof. unfold members_of, a_members, pub_members, priv_members. cbv zeta. cbn [app]. do 4 f_equal. by rewrite <- !app_assoc. Qed.
Lemma no_labels_map {A} (f : A -> member) l : (forall x, match f x with MLabel _ => False | _ => True end) -> no_labels (map f l).
Proof. intros H. apply Forall_forall. intros i Hi. apply elem_of_list_fmap in Hi as (x & -> & _). apply H. Qed.
Lemma pub_no_labels v m : no_labels (pub_members v m).
Proof. unfold pub_members. cbv zeta. repeat apply Forall_app_2; [repeat constructor|destruct (tc_first_state_has_in _); repeat constructor|destruct (tc_has_in _); repeat constructor|by apply no_labels_map]. Qed.
Lemma priv_no_labels v m : no_labels (priv_members v m).
Proof. unfold priv_members. cbv zeta. repeat apply Forall_app_2; [repeat constructor|destruct v; [constructor|by apply no_labels_map|constructor]|by apply no_labels_map|repeat constructor]. Qed.
Lemma names_split v m : method_names (members_of v m) = method_names (pub_members v m) ++ method_names (priv_members v m).
Proof. rewrite members_split. change (MLabel true :: ?l) with ([MLabel true] ++ l). unfold method_names. rewrite !omap_app. done. Qed.
Lemma methods_nodup v m : machine_static v m -> NoDup (method_names (members_of v m)) /\ NoDup (field_names (members_of v m)).
Proof. intros H. pose proof (members_distinct v m H) as N. apply NoDup_cons in N as [_ N]. apply NoDup_app in N as (A & _ & B). done. Qed.
Lemma find_public v m f t ps : machine_static v m -> MMethod (Some t) f ps ∈ pub_members v m -> find_method false (members_of v m) f = Some (true, (t, map fst ps)).
Proof.
  intros H Hf. destruct (methods_nodup v m H) as [N _]. rewrite names_split in N. apply NoDup_app in N as (A & _ & _). rewrite members_split. cbn [find_method]. apply find_method_in; [apply pub_no_labels|done|done].
Qed.
Lemma find_private v m f t ps : machine_static v m -> MMethod (Some t) f ps ∈ priv_members v m -> find_method false (members_of v m) f = Some (false, (t, map fst ps)).
Proof.
  intros H Hf. destruct (methods_nodup v m H) as [N _]. rewrite names_split in N. apply NoDup_app in N as (A & D & B). rewrite members_split. cbn [find_method].
  assert (Hn : f ∈ method_names (priv_members v m)) by (apply elem_of_list_omap; eexists; split; [exact Hf|done]).
  rewrite find_method_skip; [|apply pub_no_labels|intros Hp; by apply (D f)]. cbn [find_method]. rewrite <- (app_nil_r (priv_members v m)). apply find_method_in; [apply priv_no_labels|done|done].
Qed.

Section Methods.
  Context (u : user_types) (h : list item) (v : variant) (tests : list gostr) (m : stm) (types : type_map) (P : program) (p : list citem).
  Context (Hm : machine_static v m) (HM : machine_ok v m types tests P) (Hu : declared_upto v tests m 4 p) (He : env_ok v p) (Ht : tests_ok h tests).
  Notation tc := (make_transitions m).
  Context (Hch : forall a, a ∈ tc_in tc \/ a ∈ tc_out tc -> exists t vt, types !! agg_name a = Some t /\ chan_ok u h v (agg_name a) t vt /\ (a ∈ tc_in tc -> v <> VRos -> printed u vt = true)).
  Notation SMc := (Some (lit "StateMachine")).
  Notation ex := (ty_expr u h p SMc).
  Notation st := (ty_stmt u h p SMc TVoid).
  Notation nt := (name_ty h p SMc).
  Notation good vars := (fun s => binds u h p SMc vars s = Some [] /\ ty_stmt u h p SMc TVoid vars s = true).

  Lemma xm_class : find_class p (lit "StateMachine") = Some (Some [lit "rtcg"; lit "TestCase"], members_of v m).
  Proof. apply (du_machine _ _ _ _ _ Hu). lia. Qed.
  Lemma xm_methods : methods_of p SMc = members_of v m.
  Proof. unfold methods_of. by rewrite xm_class. Qed.
  Lemma xm_no_log level : level = info \/ level = err -> has_method (methods_of p SMc) (lit "ROS_" ++ to_upper level ++ lit "_STREAM") = false.
  Proof. by apply (not_log_member v tests m p Hu). Qed.
  Lemma xm_own x : x ∈ [lit "Verdict"; lit "State"; lit "StateMachine"] -> base_ty h p (BName [x]) = Some (TClass [x]).
  Proof. intros H. cbn. rewrite (eo_own _ _ He). by rewrite bool_decide_eq_true_2. Qed.
  Lemma xm_state_t : decl_ty h p (plain_t [lit "State"]) = Some (TClass [lit "State"]).
  Proof. unfold decl_ty, plain_t. cbn [ct_base ct_suffix]. apply xm_own. right; left. Qed.
  Lemma xm_verdict_t : decl_ty h p (plain_t [lit "Verdict"]) = Some (TClass [lit "Verdict"]).
  Proof. unfold decl_ty, plain_t. cbn [ct_base ct_suffix]. apply xm_own. left. Qed.
  Lemma xm_log level s ps vars : level = info \/ level = err -> Forall (fun e => exists t, ex vars e = Some t /\ printed u t = true) ps -> good vars (a_log v level (EStr s) ps).
  Proof. intros Hl Hp. apply log_both; [done|apply He|by apply xm_no_log|done]. Qed.
  Lemma xm_str vars s : exists t, ex vars (EStr s) = Some t /\ printed u t = true.
  Proof. by exists TCStr. Qed.

  (** *** Fields *)
  Lemma xm_field vars x t i bt : plain_vars vars -> MField t (fld x) i ∈ members_of v m -> var_ty h p t = Some bt -> nt vars [fld x] = Some bt.
  Proof.
    intros Hv Hf Hb. unfold name_ty. rewrite plain_look by done. unfold field_ty. cbn [mbind option_bind]. rewrite xm_class. cbn [mbind option_bind snd]. rewrite (find_field_in _ t _ i); [by rewrite Hb|apply (methods_nodup v m Hm)|done].
  Qed.
  Lemma in_priv i : i ∈ priv_members v m -> i ∈ members_of v m.
  Proof. intros H. rewrite members_split. right. apply elem_of_app. right. by right. Qed.
  Lemma in_pub i : i ∈ pub_members v m -> i ∈ members_of v m.
  Proof. intros H. rewrite members_split. right. apply elem_of_app. by left. Qed.
  Lemma xm_state vars : plain_vars vars -> nt vars [lit "state_"] = Some (true, TClass [lit "State"]).
  Proof.
    intros Hv. change (lit "state_") with (fld (lit "state")). eapply xm_field; [done|apply in_priv; unfold priv_members; right; left|]. unfold var_ty. by rewrite xm_state_t.
  Qed.
  Lemma xm_verdict vars : plain_vars vars -> nt vars [lit "verdict_"] = Some (true, TClass [lit "Verdict"]).
  Proof.
    intros Hv. change (lit "verdict_") with (fld (lit "verdict")). eapply xm_field; [done|apply in_priv; unfold priv_members; left|]. unfold var_ty. by rewrite xm_verdict_t.
  Qed.
  Lemma xm_pub vars a : plain_vars vars -> v = VRos -> a ∈ tc_in tc -> nt vars [fld (publisher_name (agg_name a))] = Some (true, ros_ty (lit "Publisher")).
  Proof.
    intros Hv Er Ha. eapply (xm_field _ _ pub_t); [done| |reflexivity]. apply in_priv. unfold priv_members. rewrite Er, !elem_of_app. right; left. apply elem_of_list_fmap. by exists a.
  Qed.
  Lemma xm_status vars : plain_vars vars -> nt vars [lit "status_"] = Some (true, status_ty).
  Proof.
    intros Hv. unfold name_ty. change (lit "status_") with (fld (lit "status")). rewrite plain_look by done. unfold field_ty. cbn [mbind option_bind]. rewrite xm_class. cbn [mbind option_bind fst snd].
    rewrite find_field_none; [by vm_compute|]. rewrite machine_fields, elem_of_app. intros [H|H].
    - rewrite !elem_of_cons, elem_of_nil in H. destruct H as [H|[H|[]]]; discriminate H.
    - apply elem_of_list_fmap in H as (y & E & Hy). apply pubs_elem in Hy as (a & _ & _ & ->). symmetry in E. by apply (pub_fld_ne (agg_name a)) in E.
  Qed.
  (** *** Calls *)
  Lemma xm_call vars f args ts b t ps r rs : find_method false (members_of v m) f = Some (b, (t, ps)) -> decl_ty h p t = Some r -> mapM (decl_ty h p) ps = Some rs ->
    mapM (ex vars) args = Some ts -> all_convert u ts rs = true -> ex vars (MainAst.call [f] args) = Some r.
  Proof.
    intros H1 H2 H3 H4 H5. eapply ty_call; [|exact H4|].
    - cbn [default head]. rewrite xm_methods. apply andb_false_iff. right. apply negb_false_iff, has_method_iff. destruct (decide (f ∈ method_names (members_of v m))) as [Hi|Hi]; [done|].
      by rewrite find_method_none in H1.
    - unfold fun_call. rewrite xm_methods, H1. unfold sig_ty. cbn [fst snd]. rewrite H2, H3. cbn [mbind option_bind]. unfold apply_sig. cbn [fst snd]. by rewrite H5.
  Qed.
  Lemma xm_end vars s : good vars (a_end (status_text s)).
  Proof.
    split; [done|]. unfold a_end, ecall. eapply ty_expr_stmt. eapply xm_call; [eapply find_private; [done|]; unfold priv_members; rewrite !elem_of_app; do 3 right; right; left|done|reflexivity| |].
    - cbn [mapM mbind option_bind mret option_ret]. by rewrite xt_status.
    - by vm_compute.
  Qed.
  Lemma xm_enter vars f : (exists s, s ∈ m_states m /\ f = state_entry (st_id s)) -> good vars (ecall [f] []).
  Proof.
    intros (s & Hs & ->). split; [done|]. unfold ecall. eapply ty_expr_stmt. eapply xm_call; [eapply find_private; [done|]; unfold priv_members; rewrite !elem_of_app; do 2 right; left; apply elem_of_list_fmap; by exists s|done|done|done|done].
  Qed.
  Lemma xm_name vars : ex vars (MainAst.call [lit "stateName"] []) = Some TCStr.
  Proof. eapply xm_call; [eapply find_private; [done|]; unfold priv_members; rewrite !elem_of_app; do 3 right; left|done|done|done|done]. Qed.
  Lemma xm_running cls vars e : ty_expr u h p cls vars e = Some status_ty -> ty_expr u h p cls vars (is_running_of e) = Some TBool.
  Proof. intros H. unfold is_running_of. apply ty_call with (ts := [status_ty]); [done| |reflexivity]. cbn [mapM mbind option_bind mret option_ret]. by rewrite H. Qed.
  Lemma xm_not cls vars e : ty_expr u h p cls vars e = Some TBool -> ty_expr u h p cls vars (EUn UNot e) = Some TBool.
  Proof. intros H. cbn [ty_expr]. rewrite H. done. Qed.
  Lemma xm_conv cls vars f e t r a : has_method (methods_of p cls) f = false -> (forall g, f <> "R"%char :: g) -> find_hfun h f = Some (r, a) -> ty_expr u h p cls vars e = Some t -> converts u t (header_type h a) = true ->
    ty_expr u h p cls vars (MainAst.call [f] [e]) = Some (header_type h r).
  Proof.
    intros H1 H2 H3 H4 H5. eapply ty_call.
    - apply andb_false_iff. left. unfold log_macro, log_macros. cbn [existsb]. rewrite !str_eqb_ne; [done|apply H2|apply H2].
    - cbn [mapM mbind option_bind mret option_ret]. by rewrite H4.
    - unfold fun_call. rewrite find_method_none. 2: { intros H. apply has_method_iff in H. by rewrite H in H1. }
      rewrite H3. cbn [mbind option_bind]. unfold apply_sig. cbn [all_convert fst snd]. by rewrite H5.
  Qed.
  Lemma xm_no_method a f : a ∈ tc_in tc \/ a ∈ tc_out tc -> f = convert_to (agg_name a) \/ f = convert_from (agg_name a) -> has_method (methods_of p SMc) f = false.
  Proof.
    intros Ha Hf. rewrite xm_methods. apply not_true_iff_false. rewrite has_method_iff, (machine_methods v m). destruct (mo_convs _ _ _ _ _ HM a Ha) as [H1 H2]. by destruct Hf as [-> | ->].
  Qed.
  Lemma xm_set_status vars s : plain_vars vars -> good vars (set_status (status_text s)).
  Proof. intros Hv. split; [done|]. eapply ty_assign_ok; [by apply xm_status|apply xt_status|]. by apply same_converts. Qed.
  Lemma xm_nm vars x b t : nt vars [x] = Some (b, t) -> printed u t = true -> exists t, ex vars (nm x) = Some t /\ printed u t = true.
  Proof. intros H1 H2. exists t. split; [by eapply ty_nm|done]. Qed.

  Lemma xm_item r f ps b t vars : return_ty u h p r = Some t -> ty_params u h p ps = Some vars -> ty_block u h p SMc t vars b = true -> ty_item u h p (CFun r (SMq f) ps b) = true.
  Proof. intros H1 H2 H3. unfold ty_item, SMq. rewrite xm_class. rewrite bool_decide_eq_true_2 by done. by rewrite H1, H2. Qed.
  Lemma xm_void : return_ty u h p (Some void_t) = Some TVoid. Proof. done. Qed.
  Lemma plain_nil : plain_vars []. Proof. constructor. Qed.
  Lemma xm_timer_params : exists vars, ty_params u h p (a_timer_params v) = Some vars /\ plain_vars vars.
  Proof. destruct v; (eexists; split; [reflexivity|]); repeat constructor; done. Qed.
  Lemma xm_accept_params : exists vars, ty_params u h p (a_accept_params v) = Some vars /\ plain_vars vars.
  Proof. destruct v; (eexists; split; [reflexivity|]); repeat constructor; done. Qed.
  Lemma xm_ctor_params : ty_params u h p (a_ctor_params v (tc_in tc)) = Some (map (fun x => (x, (true, ros_ty (lit "Publisher")))) (pubs_of v m)).
  Proof.
    unfold a_ctor_params, pubs_of. destruct v; try done. rewrite map_map. apply mapM_map_total. reflexivity.
  Qed.
  Lemma pub_vars_plain : plain_vars (map (fun x => (x, (true, ros_ty (lit "Publisher")))) (pubs_of v m)).
  Proof.
    apply Forall_forall. intros x Hx. apply elem_of_list_fmap in Hx as (y & -> & Hy). apply pubs_elem in Hy as (a & _ & _ & ->). cbn [fst]. unfold publisher_name. change (lit "_pub") with (lit "_pu" ++ ["b"%char]).
    rewrite app_assoc, last_snoc. done.
  Qed.
  Lemma xm_ctor : ty_item u h p (a_ctor v tc (s0_of m)) = true.
  Proof.
    eapply xm_item; [done|apply xm_ctor_params|]. pose proof pub_vars_plain as Hpl. set (vars := map _ _) in *. apply ty_block_all. apply Forall_app. split.
    - destruct (tc_first_state_has_in tc); (constructor; [|constructor]).
      + by apply (xm_set_status _ WAIT_START).
      + apply xm_enter. destruct (ms_first _ _ Hm) as (s & Hs & <-). by exists s.
    - assert (G : forall a, v = VRos -> a ∈ tc_in tc -> st vars (SAssign (nm (fld (publisher_name (agg_name a)))) (nm (publisher_name (agg_name a)))) = true).
      { intros a Hv Ha. eapply ty_assign_ok; [by apply xm_pub|eapply ty_nm, ty_var; apply look_const|by apply same_converts]. rewrite Hv. apply elem_of_list_fmap. by exists a. }
      clearbody vars. destruct v; [constructor| |constructor]. apply Forall_forall. intros s Hs. apply elem_of_list_fmap in Hs as (a & -> & Ha). split; [done|]. by apply G.
  Qed.
  Lemma xm_getVerdict : ty_item u h p a_getVerdict = true.
  Proof.
    assert (E : decl_ty h p verdict_ref = Some (TClass [lit "Verdict"])) by (unfold decl_ty, verdict_ref; cbn [ct_base ct_suffix]; apply xm_own; left).
    eapply xm_item; [|reflexivity|].
    - unfold return_ty. rewrite E. done.
    - cbn [ty_block binds app]. rewrite andb_true_r. cbn [ty_stmt]. unfold gives. erewrite ty_nm by apply xm_verdict, plain_nil. by apply same_converts.
  Qed.
  Lemma xm_stateName : ty_item u h p a_stateName = true.
  Proof.
    eapply xm_item; [done|reflexivity|]. cbn [ty_block binds app]. rewrite andb_true_r. cbn [ty_stmt]. unfold gives. rewrite (ty_call _ _ _ _ _ _ _ [TClass [lit "State"]] TCStr); [by apply same_converts|done| |].
    - cbn [mapM mbind option_bind mret option_ret]. by erewrite ty_nm by apply xm_state, plain_nil.
    - unfold fun_call. change (lib_fun [lit "state"; lit "name"]) with (@None (cty * list cty)). cbn iota. rewrite (eo_name _ _ He). cbn [mbind option_bind]. unfold sig_ty. cbn [fst snd].
      change (decl_ty h p cstr_t) with (Some TCStr). cbn [mapM mbind option_bind mret option_ret]. rewrite xm_state_t. reflexivity.
  Qed.
  Lemma xm_end_fun : ty_item u h p (a_end_fun v) = true.
  Proof.
    eapply xm_item; [done|reflexivity|]. set (vars := [(lit "s", (true, status_ty))]). assert (Hv : plain_vars vars) by (constructor; [done|constructor]).
    assert (Hs : nt vars [lit "s"] = Some (true, status_ty)) by (by apply ty_var). pose proof (xm_nm vars (lit "s") true status_ty Hs eq_refl) as Ps. pose proof (xm_nm vars (lit "status_") true status_ty (xm_status vars Hv) eq_refl) as Pt.
    assert (St : ex vars (nm (lit "status_")) = Some status_ty) by (by eapply ty_nm, xm_status). assert (Ss : ex vars (nm (lit "s")) = Some status_ty) by (by eapply ty_nm).
    apply ty_block_all. apply Forall_app. split; [constructor; [|constructor; [|constructor; [|constructor]]]|].
    - split; [done|]. apply ty_if; [by apply xm_not, xm_running| |done]. rewrite ty_block_eq. apply ty_block_all. constructor; [|by constructor]. apply xm_log; [by right|]. repeat constructor; try done; apply xm_str.
    - split; [done|]. apply ty_if; [by apply xm_running| |done]. rewrite ty_block_eq. apply ty_block_all. constructor; [|constructor; [|constructor]].
      + apply xm_log; [by right|]. repeat constructor; try done; apply xm_str.
      + split; [done|]. eapply ty_assign_ok; [done|apply (xt_status _ _ _ _ _ BUG)|by apply same_converts].
    - split; [done|]. eapply ty_assign_ok; [by apply xm_status|done|by apply same_converts].
    - clear. destruct v; [constructor| |constructor]. constructor; [|constructor]. split; [done|]. unfold ecall. eapply ty_expr_stmt. eapply ty_call; [done|reflexivity|reflexivity].
  Qed.
  Lemma xm_timeout : ty_item u h p (a_timeout v) = true.
  Proof.
    destruct xm_timer_params as (vars & Hp & Hv). eapply xm_item; [done|exact Hp|]. apply ty_block_all. constructor; [|constructor; [|constructor; [|constructor]]].
    - split; [done|]. apply ty_if; [|done|done]. apply xm_not, xm_running. by eapply ty_nm, xm_status.
    - apply xm_log; [by left|constructor].
    - apply (xm_end _ TIMEOUT).
  Qed.
  Lemma status_compared : compared p status_ty status_ty = true.
  Proof. unfold compared, enum_ty. rewrite !cty_eqb_refl. cbn [orb andb]. by rewrite orb_true_r. Qed.
  Lemma xm_delay : ty_item u h p (a_delay v (s0_of m)) = true.
  Proof.
    destruct xm_timer_params as (vars & Hp & Hv). eapply xm_item; [done|exact Hp|]. apply ty_block_all. constructor; [|constructor; [|constructor; [|constructor]]].
    - split; [done|]. apply ty_if; [|done|done]. eapply ty_ne; [by eapply ty_nm, xm_status|apply (xt_status _ _ _ _ _ WAIT_START)|apply status_compared].
    - apply xm_log; [by left|constructor].
    - apply xm_enter. destruct (ms_first _ _ Hm) as (s & Hs & <-). by exists s.
  Qed.
  Lemma xm_switch vars {A} (f : A -> gostr) (g : A -> list stmt) (dflt : list stmt) l : plain_vars vars -> (forall x, x ∈ l -> f x ∈ used_states P) ->
    (forall x, x ∈ l -> Forall (good vars) (g x)) -> Forall (good vars) dflt ->
    good vars (SSwitch (nm (lit "state_")) (map (fun x => (Some (nm2 (lit "State") (f x)), g x)) l ++ [(None, dflt)])).
  Proof.
    intros Hv Hs Hg Hd. split; [done|]. eapply ty_switch; [by eapply ty_nm, xm_state|apply He|]. apply Forall_app. split.
    - apply Forall_forall. intros c Hc. apply elem_of_list_fmap in Hc as (x & -> & Hx). cbn [fst snd]. split; [|by apply ty_block_all, Hg].
      unfold label_ok, nm2. rewrite (label_of v tests m types P p HM Hu) by (by apply Hs). by vm_compute.
    - constructor; [|constructor]. cbn [fst snd]. split; [done|by apply ty_block_all].
  Qed.
  Lemma xm_accept : tc_has_in tc = true -> ty_item u h p (a_accept v tc) = true.
  Proof.
    intros Hin. destruct xm_accept_params as (vars & Hp & Hv). destruct (prog_eq v m tests types P HM) as (acc & Hacc & EP). destruct (gen_accept_map _ _ Hacc) as [Ecs Hne].
    assert (Epa : p_accept P = Some acc) by (rewrite EP; cbn [p_accept]; by rewrite Hin).
    eapply xm_item; [done|exact Hp|]. apply ty_block_all. constructor; [|constructor]. rewrite accept_cases_map by done. set (l := range_map (tc_in_merged tc)) in *.
    apply (xm_switch vars (fun sts => enum_field sts.1) (fun sts => [a_log v info (EStr (lit "Accepted input on state " ++ sts.1 ++ lit " as expected.")) []; ecall [state_entry (hd_next sts.2)] []; SBreak])); [done|..].
    - intros sts Hs. unfold used_states. rewrite Epa. right. rewrite !elem_of_app. right. left. cbn. rewrite Ecs. apply elem_of_list_fmap. exists (enum_field sts.1, state_entry (hd_next sts.2)). split; [done|]. apply elem_of_list_fmap. by exists sts.
    - intros sts Hs. constructor; [|constructor; [|constructor; [|constructor]]]; [| |done].
      + apply xm_log; [by left|constructor].
      + apply xm_enter, (entry_of v tests m types P HM). unfold used_entries. rewrite Epa. right. rewrite !elem_of_app. left. cbn. rewrite Ecs. apply elem_of_list_fmap. exists (enum_field sts.1, state_entry (hd_next sts.2)). split; [done|]. apply elem_of_list_fmap. by exists sts.
    - constructor; [|constructor; [|constructor]].
      + apply xm_log; [by right|]. constructor; [|constructor]. exists TCStr. split; [apply xm_name|done].
      + apply (xm_end _ BUG).
  Qed.
  (** *** Values *)
  Lemma xm_lit cls vars x y : cpp_lit (cpp_value x) = Some y -> exists t, ty_expr u h p cls vars (a_lit x) = Some t /\ match y with EnumV _ => t = TCStr | IntV _ => number_ty t = true end.
  Proof.
    assert (N : forall s, exists t, ty_expr u h p cls vars (ENum s) = Some t /\ number_ty t = true) by (intros s; cbn [ty_expr]; destruct (small_number s); by eexists).
    destruct x as [[z|s]|].
    - unfold cpp_value. assert (is_enum_ty (value_type (Some (IntV z))) = false) as -> by (cbn; by destruct (0 <=? z)%Z). cbn [a_lit].
      change (value_string_value (Some (IntV z))) with (format_int z). unfold format_int. destruct (z <? 0)%Z eqn:E.
      + cbn [cpp_lit]. change (Ascii.eqb "-" (byte 34)) with false. change (Ascii.eqb "-" "-") with true. cbn iota.
        destruct (nat_lit (format_N (Z.abs_N z))) as [k|] eqn:Ek; [|done]. intros [= <-]. destruct (N (format_N (Z.abs_N z))) as (t & H1 & H2). exists t. split; [|done]. cbn [ty_expr] in H1 |- *. injection H1 as ->. cbn [mbind option_bind]. by rewrite H2.
      + destruct (format_N_spec (Z.to_N z)) as (H1 & _). destruct (format_N (Z.to_N z)) as [|c r] eqn:Ef; [done|].
        destruct (digit_not_special _ _ _ Ef) as [E1 E2]. unfold cpp_lit. rewrite E1, E2. destruct (nat_lit (c :: r)) as [k|] eqn:Ek; [|done]. intros [= <-]. apply N.
    - intros H. change (cpp_lit (cpp_value (Some (EnumV s)))) with (EnumV <$> str_body (s ++ lit """")) in H. exists TCStr. split; [done|]. destruct (str_body (s ++ lit """")); [|done]. by injection H as <-.
    - intros H. exists TCStr. split; [done|]. revert H. vm_compute. by intros [= <-].
  Qed.
  Lemma xm_guard cls vars y t x : cpp_lit (cpp_value y) = Some x -> name_ty h p cls vars [lit "value"] = Some t ->
    (if is_enum_ty (value_type y) then t.2 = TString /\ (exists s, x = EnumV s) else number_ty t.2 = true /\ exists z, x = IntV z) -> ty_expr u h p cls vars (a_guard y) = Some TBool.
  Proof.
    intros Hx Hn H. destruct t as [bb t]. cbn [snd] in H. destruct (xm_lit cls vars y x Hx) as (a & Ha & Hk). unfold a_guard. destruct (is_enum_ty (value_type y)).
    - destruct H as [-> [s ->]]. subst a. eapply (ty_eq _ _ _ _ _ _ _ TInt TInt); [eapply (ty_mcall _ _ _ _ _ _ _ _ bb TString [TCStr] TInt); [done| |reflexivity]|reflexivity|done]. cbn [mapM mbind option_bind mret option_ret]. by rewrite Ha.
    - destruct H as [H [z ->]]. eapply ty_eq; [by eapply ty_nm|exact Ha|]. unfold compared. by rewrite H, Hk.
  Qed.
  Lemma xm_out a : a ∈ tc_out tc -> ty_item u h p (a_out v a) = true.
  Proof.
    intros Ha. destruct (Hch a (or_intror Ha)) as (t & vt & Hty & Hc & _).
    assert (Hgo : gen_out a ∈ p_outs P) by (destruct (prog_eq v m tests types P HM) as (acc & _ & ->); apply elem_of_list_fmap; by exists a).
    assert (Hpt : p_types P = types) by (by destruct (prog_eq v m tests types P HM) as (acc & _ & ->)).
    set (mt := header_type h (channel_msg_type (agg_name a))).
    assert (Hd : decl_ty h p (CType true (BName [channel_msg_type (agg_name a)]) []) = Some mt).
    { unfold decl_ty. cbn [ct_base ct_suffix base_ty]. rewrite (eo_own _ _ He), bool_decide_eq_false_2; [done|]. unfold channel_msg_type. intros Hx. rewrite !elem_of_cons, elem_of_nil in Hx.
      destruct Hx as [E|[E|[E|[]]]]; apply (f_equal reverse) in E; rewrite reverse_app in E; discriminate E. }
    eapply (xm_item _ _ _ _ _ [(lit "msg", (false, mt))]); [done| |].
    { unfold ty_params, a_out_params. cbn [mapM fst snd mbind option_bind]. unfold var_ty. rewrite Hd. cbn [fmap option_fmap option_map mbind option_bind snd ct_const negb].
      unfold mt. rewrite (msg_storable _ _ _ _ _ _ Hc). reflexivity. }
    destruct (plain_printed _ _ _ _ _ _ Hc) as [Hpr Hst]. set (sty := text_type (std_type t)) in *.
    assert (Hcv : ex [(lit "msg", (false, mt))] (MainAst.call [convert_from (agg_name a)] [nm (lit "msg")]) = Some sty).
    { unfold sty. rewrite <- (co_std _ _ _ _ _ _ Hc). eapply xm_conv; [eapply xm_no_method; [by right|by right]|done|apply (co_from _ _ _ _ _ _ Hc)|by eapply ty_nm, ty_var|]. apply same_converts. by eapply msg_storable. }
    cbn [ty_block]. apply andb_true_iff. split; [done|].
    assert (Hb : binds u h p SMc [(lit "msg", (false, mt))] (SDecl auto_t (lit "value") (Some (MainAst.call [convert_from (agg_name a)] [nm (lit "msg")]))) = Some [(lit "value", (true, sty))]).
    { cbn [binds]. rewrite bool_decide_eq_true_2 by done. rewrite Hcv. cbn [mbind option_bind]. by rewrite Hst. }
    rewrite Hb. clear Hb Hcv. cbn [app]. set (vars := [(lit "value", (true, sty)); (lit "msg", (false, mt))]). change (ty_block u h p SMc TVoid vars [SSwitch (nm (lit "state_")) (map (fun sts => a_out_case v (ag_chan a) sts.1 sts.2) (range_map (ag_states a)) ++
       [(None, [a_log v info (EStr (lit "Output ")) [nm (lit "value"); EStr (lit " on " ++ channel_string (ag_chan a) ++ lit " in unexpected state "); MainAst.call [lit "stateName"] []; EStr (lit ".")];
                a_end (lit "OFF_SCRIPT")])])] = true).
    assert (Hv : plain_vars vars) by (repeat constructor; done). assert (Hval : nt vars [lit "value"] = Some (true, sty)) by (by apply ty_var).
    pose proof (xm_nm vars _ _ _ Hval Hpr) as Pv.
    apply ty_block_all. constructor; [|constructor].
    apply (xm_switch vars (fun sts => enum_field sts.1) (fun sts => [a_chain sts.2 (SBlock [a_log v info (EStr (lit "Unexpected value ")) [nm (lit "value"); EStr (lit " for " ++ channel_string (ag_chan a) ++ lit " in state " ++ sts.1 ++ lit ".")];
                        a_end (lit "OFF_SCRIPT")]); SBreak])); [done|..].
    - intros sts Hs. unfold used_states. right. rewrite !elem_of_app. right. right. apply elem_of_list_In, in_concat. exists ((oc_cases (gen_out a)).*1).
      split; [apply in_map_iff; exists (gen_out a); split; [done|by apply elem_of_list_In]|]. apply elem_of_list_In. unfold gen_out. cbn [oc_cases]. rewrite <- list_fmap_compose. apply elem_of_list_fmap. by exists sts.
    - intros sts Hs.
      assert (Hcs : (enum_field sts.1, map (fun t => (gen_guard (tr_value t), state_entry (tr_next t))) sts.2) ∈ oc_cases (gen_out a)).
      { unfold gen_out. cbn [oc_cases]. apply elem_of_list_fmap. by exists sts. }
      constructor; [|by constructor]. split; [by destruct sts.2|].
      assert (Hlast : st vars (SBlock [a_log v info (EStr (lit "Unexpected value ")) [nm (lit "value"); EStr (lit " for " ++ channel_string (ag_chan a) ++ lit " in state " ++ sts.1 ++ lit ".")]; a_end (lit "OFF_SCRIPT")]) = true).
      { rewrite ty_block_eq. apply ty_block_all. constructor; [|constructor; [|constructor]]; [|apply (xm_end _ OFF_SCRIPT)]. apply xm_log; [by left|]. repeat constructor; [done|apply xm_str]. }
      revert Hlast. generalize (SBlock [a_log v info (EStr (lit "Unexpected value ")) [nm (lit "value"); EStr (lit " for " ++ channel_string (ag_chan a) ++ lit " in state " ++ sts.1 ++ lit ".")]; a_end (lit "OFF_SCRIPT")]). intros lst Hlast.
      assert (G : forall t', t' ∈ sts.2 -> ex vars (a_guard (tr_value t')) = Some TBool /\ state_entry (tr_next t') ∈ used_entries P).
      { intros t' Ht'. assert (Hg : (gen_guard (tr_value t'), state_entry (tr_next t')) ∈ map (fun t => (gen_guard (tr_value t), state_entry (tr_next t))) sts.2) by (apply elem_of_list_fmap; by exists t'). split.
        - destruct (proj1 (mo_lits _ _ _ _ _ HM) _ _ _ _ Hgo Hcs Hg) as (ty & Hty' & Hl). rewrite Hpt in Hty'. change (oc_chan (gen_out a)) with (agg_name a) in Hty'.
          assert (ty = t) as -> by (pose proof (eq_trans (eq_sym Hty') Hty) as E; by injection E).
          destruct (is_enum_ty (value_type (tr_value t'))) eqn:Ee; unfold gen_guard in Hl; rewrite Ee in Hl.
          + destruct Hl as (Hs1 & x & Hl). eapply (xm_guard _ _ _ (true, sty) (EnumV x)); [|done|rewrite Ee; split; [|by eexists]; unfold sty; cbn [snd]; rewrite Hs1; apply str_type].
            unfold cpp_value. rewrite Ee. exact Hl.
          + destruct Hl as (Hs1 & x & Hl). eapply (xm_guard _ _ _ (true, sty) (IntV x)); [|done|rewrite Ee; split; [|by eexists]; unfold sty; cbn [snd]; destruct Hs1 as [-> | ->]; by rewrite ?unsigned_type, ?int_type].
            unfold cpp_value. rewrite Ee. exact Hl.
        - unfold used_entries. right. rewrite elem_of_app. right. apply elem_of_list_In, in_concat. eexists. split; [apply in_map_iff; exists (gen_out a); split; [reflexivity|by apply elem_of_list_In]|].
          apply in_concat. eexists. split; [apply in_map_iff; eexists; split; [reflexivity|apply elem_of_list_In, Hcs]|]. apply in_map_iff. eexists. split; [|apply elem_of_list_In, Hg]. done. }
      clear Hcs Hs. revert G. generalize sts.2. intros ts G. induction ts as [|t' ts IH]; [done|]. unfold a_chain. cbn [foldr]. fold (a_chain ts lst). destruct (G t' ltac:(left)) as [G1 G2].
      apply ty_if; [done|apply xm_enter, (entry_of v tests m types P HM); done|]. apply IH. intros t'' H''. apply G. by right.
    - constructor; [|constructor; [|constructor]]; [|apply (xm_end _ OFF_SCRIPT)]. apply xm_log; [by left|]. repeat constructor; [done|apply xm_str| |apply xm_str]. exists TCStr. split; [apply xm_name|done].
  Qed.
  (** *** Entry functions *)
  Lemma xm_two vars id a b : good vars (a_two v id a b).
  Proof. unfold a_two. apply xm_log; [by left|]. constructor; [apply xm_str|constructor]. Qed.
  Lemma xm_sent vars c t a ty vt x : a ∈ tc_in tc -> agg_name a = ch_name c -> chan_ok u h v (agg_name a) ty vt -> cpp_lit (cpp_value (tr_value t)) = Some x -> is_Some (pass_value ty x) ->
    ex vars (MainAst.call [convert_to (ch_name c)] [a_lit (tr_value t)]) = Some vt.
  Proof.
    intros Ha Ea Hc Hx Hp. destruct (xm_lit SMc vars _ _ Hx) as (lt & Hl & Hk). rewrite <- Ea. rewrite <- (co_val _ _ _ _ _ _ Hc). eapply xm_conv; [eapply xm_no_method; [by left|by left]|done|apply (co_to _ _ _ _ _ _ Hc)|exact Hl|].
    rewrite (co_std _ _ _ _ _ _ Hc). apply pass_kind in Hp. destruct (co_plain _ _ _ _ _ _ Hc) as [E|[E|E]]; rewrite E in *.
    - rewrite str_type. destruct x as [z|s]; [by destruct Hp|]. subst lt. done.
    - rewrite unsigned_type. destruct x as [z|s]; [|discriminate Hp]. unfold converts. rewrite Hk. cbn [number_ty andb]. by rewrite orb_true_r.
    - rewrite int_type. destruct x as [z|s]; [|discriminate Hp]. unfold converts. rewrite Hk. cbn [number_ty andb]. by rewrite orb_true_r.
  Qed.
  Lemma xm_input vars c t a ty vt x : plain_vars vars -> a ∈ tc_in tc -> agg_name a = ch_name c -> chan_ok u h v (agg_name a) ty vt -> (v <> VRos -> printed u vt = true) -> cpp_lit (cpp_value (tr_value t)) = Some x -> is_Some (pass_value ty x) ->
    good vars (a_input v c t).
  Proof.
    intros Hv Ha Ea Hc Hpr Hx Hp. pose proof (xm_sent vars c t a ty vt x Ha Ea Hc Hx Hp) as S.
    assert (L : v <> VRos -> good vars (a_log v info (EStr (lit "(Actual value received by SUT on " ++ ch_name c ++ lit " after conversion: ")) [MainAst.call [convert_to (ch_name c)] [a_lit (tr_value t)]; EStr (lit ")")])).
    { intros Hn. apply xm_log; [by left|]. repeat constructor; [|apply xm_str]. exists vt. split; [done|by apply Hpr]. }
    assert (R : v = VRos -> st vars (SExpr (mcall (fld (publisher_name (ch_name c))) (lit "publish") [MainAst.call [convert_to (ch_name c)] [a_lit (tr_value t)]])) = true).
    { intros Er. eapply ty_expr_stmt. rewrite <- Ea. eapply (ty_mcall _ _ _ _ _ _ _ _ _ _ [vt]); [by apply xm_pub|rewrite Ea; cbn [mapM mbind option_bind mret option_ret]; by rewrite S|].
      pose proof (co_fit _ _ _ _ _ _ Hc) as F. rewrite Er in F. assert (E : method_call u h p (ros_ty (lit "Publisher")) (lit "publish") None [vt] = match (if message u vt then Some TVoid else None) with Some r => Some r | None => None end) by reflexivity.
      rewrite E, F. reflexivity. }
    unfold a_input. destruct v; [by apply L|split; [done|by apply R]|by apply L].
  Qed.
  Lemma xm_verdict_class : find_class p (lit "Verdict") = Some (None, a_verdict_members tests).
  Proof. apply (du_verdict _ _ _ _ _ Hu). lia. Qed.
  Lemma verdict_method t : t ∈ tests -> find_method false (a_verdict_members tests) t = Some (true, (void_t, [outcome_t])).
  Proof.
    intros Hi. unfold a_verdict_members. cbn [app]. cbn [find_method]. pose proof (tk_distinct _ _ Ht) as N. apply NoDup_cons in N as [_ N]. apply NoDup_app in N as (N & _ & _). apply NoDup_cons in N as [N1 N2].
    rewrite str_eqb_ne by (intros E; apply N1; by rewrite E). change [outcome_t] with (map fst [(outcome_t, lit "new_val")]). apply find_method_in; [by apply no_labels_map| |].
    - unfold method_names. rewrite (omap_map' _ _ (fun t => t)) by done. by rewrite map_id.
    - apply elem_of_list_fmap. by exists t.
  Qed.
  Lemma xm_setter vars t o : plain_vars vars -> t ∈ tests -> o ∈ [lit "UNSET"; lit "INC"; lit "PASS"; lit "FAIL"] -> good vars (SExpr (mcall (lit "verdict_") t [outcome_q o])).
  Proof.
    intros Hv Hi Ho. split; [done|]. eapply ty_expr_stmt. eapply ty_mcall; [by apply xm_verdict|cbn [mapM mbind option_bind mret option_ret]; by rewrite ty_outcome|].
    unfold method_call. change (lib_method u h p (TClass [lit "Verdict"]) t None [outcome_ty]) with (@None cty). cbn iota. rewrite xm_verdict_class. cbn [mbind option_bind fst snd]. rewrite verdict_method by done. reflexivity.
  Qed.
  Lemma xm_act s : s ∈ m_states m -> Forall (good []) (a_act v s).
  Proof.
    intros Hs. assert (Hen : gen_entry s ∈ p_entries P) by (destruct (prog_eq v m tests types P HM) as (acc & _ & ->); cbn [p_entries]; apply elem_of_list_fmap; by exists s).
    assert (Hpt : p_types P = types) by (by destruct (prog_eq v m tests types P HM) as (acc & _ & ->)).
    unfold a_act. destruct (verdict_is OFail (st_verdict s)) eqn:Ef.
    { constructor; [|constructor]. apply (xm_end _ FAIL). }
    destruct (state_has_in s) eqn:Eh.
    - constructor; [apply (xm_set_status _ WAIT_IN), plain_nil|]. destruct (state_in s) as [[c t]|] eqn:Ei; [|constructor].
      constructor; [apply xm_two|]. constructor; [|constructor].
      destruct (proj2 (mo_lits _ _ _ _ _ HM) (gen_entry s) (ch_name c) (cpp_value (tr_value t)) Hen) as (ty & x & H1 & H2 & H3).
      { unfold gen_entry. cbn [en_act]. by rewrite Ef, Eh, Ei. }
      destruct (mo_pubs _ _ _ _ _ HM s c t Hs Ei) as (a & Ha & Ea). destruct (Hch a (or_introl Ha)) as (ty' & vt & Hty & Hc & Hpr).
      rewrite Hpt, <- Ea in H1. assert (ty' = ty) as -> by (pose proof (eq_trans (eq_sym Hty) H1) as E; by injection E).
      eapply xm_input; [apply plain_nil|exact Ha|done|exact Hc|by apply Hpr|exact H2|done].
    - constructor; [apply (xm_set_status _ WAIT_OUT), plain_nil|]. apply Forall_forall. intros x Hx. apply elem_of_list_In, in_concat in Hx as (l & Hl & Hx). apply in_map_iff in Hl as (ts & <- & Hts).
      apply in_map_iff in Hx as (t & <- & _). apply xm_two.
  Qed.
  Lemma xm_entry s : s ∈ m_states m -> ty_item u h p (a_entry v s) = true.
  Proof.
    intros Hs. assert (Hen : gen_entry s ∈ p_entries P) by (destruct (prog_eq v m tests types P HM) as (acc & _ & ->); cbn [p_entries]; apply elem_of_list_fmap; by exists s).
    eapply xm_item; [done|reflexivity|]. apply ty_block_all. repeat apply Forall_app_2.
    - constructor; [|constructor; [|constructor]].
      + split; [done|]. eapply ty_assign_ok; [apply xm_state, plain_nil|apply xt_enum, (du_state _ _ _ _ _ Hu); [lia|done]|by apply same_converts].
      + apply xm_log; [by left|constructor].
    - apply Forall_forall. intros x Hx. apply elem_of_list_fmap in Hx as ([t o] & -> & Hx).
      destruct (wd_setters _ (mo_decl _ _ _ _ _ HM) (gen_entry s) t (outcome_enum o) Hen) as [H1 H2].
      { unfold gen_entry. cbn [en_verdict]. apply elem_of_list_fmap. by exists (t, o). }
      apply xm_setter; [apply plain_nil| |done]. destruct (prog_eq v m tests types P HM) as (acc & _ & EP). rewrite EP in H1. exact H1.
    - by apply xm_act.
  Qed.
End Methods.
