(** * The types of main.cpp: what they need (property C92) *)
From Verif Require Export PropMainTypes.
From Verif Require Import PropConfig PropHeader PropCppRun.
From Verif Require Export StmProofs.

Lemma last_override_of cfg c o : override_of cfg c o -> last_override cfg c = Some o.
Proof.
  intros (l1 & l2 & E & Hl & _). unfold last_override. rewrite E, filter_app, filter_cons_True by done.
  assert (F : filter (fun co : gostr * gostr => co.1 = c) l2 = []).
  { clear E. induction l2 as [|[x y] l IH]; [done|]. rewrite filter_cons_False.
    - apply IH. intros o' Ho'. apply (Hl o'). by right.
    - cbn. intros ->. apply (Hl y). left. }
  rewrite F, last_snoc. done.
Qed.

Section Needs.
  Context (u : user_types) (h : list item) (v : variant) (name : gostr) (m : stm) (ctx : cctx) (tests : list gostr).
  Notation p := (main_items v name m ctx tests).
  Notation tc := (make_transitions m).
  Lemma block_binds cls ret l1 : forall vars s l2, ty_block u h p cls ret vars (l1 ++ s :: l2) = true -> exists w, is_Some (binds u h p cls w s).
  Proof.
    induction l1 as [|x l1 IH]; intros vars s l2; cbn [app ty_block]; intros [_ H]%andb_true_iff.
    - exists vars. destruct (binds u h p cls vars s); [by eexists|discriminate H].
    - destruct (binds u h p cls vars x); [|discriminate H]. by apply IH in H.
  Qed.
  Lemma own_none c : own_name p (channel_value_type c) = false /\ own_name p (channel_msg_type c) = false.
  Proof.
    rewrite !(eo_own _ _ (file_env v tests m name ctx)). unfold channel_value_type, channel_msg_type. split; apply bool_decide_eq_false_2; rewrite !elem_of_cons, elem_of_nil;
      intros [X|[X|[X|[]]]]; apply (f_equal reverse) in X; rewrite reverse_app in X; discriminate X.
  Qed.
  Lemma needs_out a : types_ok u h p = true -> a ∈ tc_out tc -> storable u (header_type h (channel_msg_type (agg_name a))) = true.
  Proof.
    intros H Ha. unfold types_ok in H. rewrite forallb_forall in H. assert (Hin : a_out v a ∈ p).
    { rewrite file_eq. apply elem_of_app. right. apply elem_of_list_further, elem_of_app. right. do 3 apply elem_of_list_further. unfold stm_funs. rewrite !elem_of_app. do 3 right. left. apply elem_of_list_fmap. by exists a. }
    apply elem_of_list_In, H in Hin. unfold a_out in Hin. cbn [ty_item] in Hin.
    destruct (return_ty u h p (Some void_t)); [|discriminate Hin]. destruct (ty_params u h p (a_out_params a)) as [w|] eqn:E; [|discriminate Hin]. clear Hin.
    unfold ty_params, a_out_params in E. cbn [mapM fst snd mbind option_bind] in E. unfold var_ty, decl_ty in E. cbn [ct_base ct_suffix base_ty] in E. rewrite (proj2 (own_none (agg_name a))) in E.
    cbn [fmap option_fmap option_map mbind option_bind snd] in E. destruct (storable u (header_type h (channel_msg_type (agg_name a)))); [done|discriminate E].
  Qed.
  Lemma needs_in a : v = VRos -> types_ok u h p = true -> a ∈ tc_in tc -> message u (header_type h (channel_value_type (agg_name a))) = true.
  Proof.
    intros Hr H Ha. unfold types_ok in H. rewrite forallb_forall in H. assert (Hin : a_main v name tc ctx ∈ p).
    { rewrite file_eq. apply elem_of_app. right. apply elem_of_list_further, elem_of_app. right. do 3 apply elem_of_list_further. unfold stm_funs. rewrite !elem_of_app. do 5 right. apply elem_of_list_here. }
    apply elem_of_list_In, H in Hin. unfold a_main in Hin. cbn [ty_item] in Hin.
    destruct (return_ty u h p (Some (CType false BInt []))) as [rt|]; [|discriminate Hin]. destruct (ty_params u h p (a_main_params v)) as [w|]; [|discriminate Hin].
    set (s := SDecl auto_t (publisher_name (agg_name a)) (Some (EPost (nm (lit "nh")) [XDot (lit "advertise"); XInst [channel_value_type (agg_name a)]; XCall [EStr (topic_name (agg_name a)); ENum (lit "1000")]]))).
    assert (Hs : exists l1 l2, a_init v name tc = l1 ++ s :: l2).
    { apply elem_of_list_split. unfold a_init. rewrite Hr. rewrite elem_of_app. left. unfold a_ros_init. rewrite elem_of_app. right. apply elem_of_list_fmap. by exists a. }
    destruct Hs as (l1 & l2 & Es). rewrite Es, <- app_assoc in Hin. cbn [app] in Hin. apply block_binds in Hin as (vars & [bs Hb]). unfold s in Hb. cbn [binds] in Hb. rewrite bool_decide_eq_true_2 in Hb by done.
    set (e := EPost (nm (lit "nh")) [XDot (lit "advertise"); XInst [channel_value_type (agg_name a)]; XCall [EStr (topic_name (agg_name a)); ENum (lit "1000")]]) in *.
    assert (E : ty_expr u h p None vars e = (t ← snd <$> name_ty h p None vars [lit "nh"]; t ← method_call u h p t (lit "advertise") (Some [channel_value_type (agg_name a)]) [TCStr; TInt]; Some t)) by reflexivity.
    rewrite E in Hb. clear E. destruct (name_ty h p None vars [lit "nh"]) as [[x t]|]; [|discriminate Hb]. cbn [fmap option_fmap option_map snd mbind option_bind] in Hb.
    assert (E2 : method_call u h p t (lit "advertise") (Some [channel_value_type (agg_name a)]) [TCStr; TInt] =
      match (if cty_eqb t (ros_ty (lit "NodeHandle")) && true then
             (if message u (if own_name p (channel_value_type (agg_name a)) then TClass [channel_value_type (agg_name a)] else header_type h (channel_value_type (agg_name a))) && all_convert u [TCStr; TInt] [TString; TUnsigned]
             then Some (ros_ty (lit "Publisher")) else None) else None) with Some r => Some r | None => match t with TClass [_] => None | _ => None end end) by reflexivity.
    rewrite E2 in Hb. clear E2. rewrite (proj1 (own_none (agg_name a))) in Hb. destruct (message u (header_type h (channel_value_type (agg_name a)))); [done|]. exfalso. cbn [andb] in Hb.
    destruct (cty_eqb t (ros_ty (lit "NodeHandle")) && true); destruct t as [| | | | | | | | | | | |[|? [|? ?]]| | | |]; discriminate Hb.
  Qed.
End Needs.

Section Exact.
  Context (b : builder) (root : node) (b' : builder) (types : type_map) (cfg : cpp_config) (name : gostr) (tests : list gostr) (v : variant) (u : user_types).
  Context (Hg : good_tree root) (Hb : build b root = Ok b') (Hs : supported types root).
  Context (Hr : readable (process cfg types)) (Hap : names_apart types) (Hon : overrides_named cfg types root).
  Notation m := (b_stm b').
  Notation ctx := (process cfg types).
  Notation h := (header_items v ctx).
  Notation items := (main_items v name m ctx tests).
  Lemma over_text e o : tree_event root e -> override_of cfg (ch_name (e_chan e)) o -> exists a, a ∈ transition_sets m /\ ag_chan a = e_chan e /\
    forall t, chan_text cfg v (agg_name a) t = o.
  Proof.
    intros Hk Ho. destruct (supported_gen_ok b root b' types Hg Hb Hs) as [Hok He]. destruct (event_agg _ _ _ e Hok (erase_tree_event _ _ _ (eq_sym He) Hk)) as (a & Ha & Hc). exists a. split; [done|]. split; [done|].
    intros t. unfold chan_text, agg_name. rewrite Hc, (last_override_of _ _ _ Ho). cbn [default]. rewrite decide_False; [done|]. by destruct Ho as (? & ? & _ & _ & ?).
  Qed.
  Lemma over_out e o : types_ok u h items = true -> tree_event root e -> ch_kind (e_chan e) <> KIn -> override_of cfg (ch_name (e_chan e)) o ->
    match v with VRos => message u (text_type o) = true | _ => storable u (text_type o) = true end.
  Proof.
    intros H Hk Hout Ho. destruct (over_text e o Hk Ho) as (a & Ha & Hc & Ht). assert (Ha' : a ∈ tc_out (make_transitions m)) by (apply agg_split; split; [done|by rewrite Hc]).
    destruct (chan_names b root b' types cfg v Hg Hb Hs Hr Hap Hon a (or_intror Ha')) as (t & _ & _ & Nm). pose proof (needs_out _ _ _ _ _ _ _ _ H Ha') as S. rewrite Nm, Ht in S. by destruct v.
  Qed.
  Lemma over_in e o : v = VRos -> types_ok u h items = true -> tree_event root e -> ch_kind (e_chan e) = KIn -> override_of cfg (ch_name (e_chan e)) o -> message u (text_type o) = true.
  Proof.
    intros Ev H Hk Hin Ho. destruct (over_text e o Hk Ho) as (a & Ha & Hc & Ht). assert (Ha' : a ∈ tc_in (make_transitions m)) by (apply agg_split; split; [done|by rewrite Hc]).
    destruct (chan_names b root b' types cfg v Hg Hb Hs Hr Hap Hon a (or_introl Ha')) as (t & _ & Nv & _). pose proof (needs_in _ _ _ _ _ _ _ _ Ev H Ha') as S. by rewrite Nv, Ht in S.
  Qed.
End Exact.

(** ** C92, exactly: over ROS main.cpp has types if and only if the overrides of the channels that the tests use are message types *)
Theorem C92_ros_exact : forall b root b' types cfg name date tests u,
  good_tree root -> build b root = Ok b' -> supported types root -> lists_tests (b_stm b') tests ->
  spellable root -> unambiguous root tests -> header_texts name date (cc_includes cfg) -> readable (process cfg types) -> no_macros types root tests ->
  topics_distinct root -> publishers_distinct root -> names_apart types -> overrides_named cfg types root ->
  exists h p, read_header (convert_text VRos (process cfg types)) = Some h /\
    read_cpp (main_text VRos name date (b_stm b') (process cfg types) tests) = Some p /\
    (types_ok u h p = true <-> forall e o, tree_event root e -> override_of cfg (ch_name (e_chan e)) o -> message u (text_type o) = true).
Proof.
  intros b root b' types cfg name date tests u Hg Hb Hs Hl Hsp Hu Hh Hr Hnm Htd Hpd Hap Hon. exists (header_items VRos (process cfg types)), (main_items VRos name (b_stm b') (process cfg types) tests).
  split; [by apply header_read, readable_good|]. split; [by apply (text_reads b root)|]. split.
  - intros H e o Hk Ho. destruct (decide (ch_kind (e_chan e) = KIn)) as [Hi|Hi].
    + by apply (over_in b root b' types cfg name tests VRos u Hg Hb Hs Hr Hap Hon e).
    + by apply (over_out b root b' types cfg name tests VRos u Hg Hb Hs Hr Hap Hon e).
  - intros Hof. by eapply (typed_ok b root b' types cfg name).
Qed.
Print Assumptions C92_ros_exact.
(** In the animate variant, the overrides of the outputs have to be of values that can be passed. *)
Theorem C92_animate_needs : forall b root b' types cfg name date tests u,
  good_tree root -> build b root = Ok b' -> supported types root ->
  spellable root -> unambiguous root tests -> lists_tests (b_stm b') tests -> header_texts name date (cc_includes cfg) -> readable (process cfg types) ->
  names_apart types -> overrides_named cfg types root ->
  exists h p, read_header (convert_text VAnimate (process cfg types)) = Some h /\
    read_cpp (main_text VAnimate name date (b_stm b') (process cfg types) tests) = Some p /\
    (types_ok u h p = true -> forall e o, tree_event root e -> ch_kind (e_chan e) <> KIn -> override_of cfg (ch_name (e_chan e)) o -> storable u (text_type o) = true).
Proof.
  intros b root b' types cfg name date tests u Hg Hb Hs Hsp Hu Hl Hh Hr Hap Hon. exists (header_items VAnimate (process cfg types)), (main_items VAnimate name (b_stm b') (process cfg types) tests).
  split; [by apply header_read, readable_good|]. split; [by apply (text_reads b root)|]. intros H e o Hk Hi Ho.
  by apply (over_out b root b' types cfg name tests VAnimate u Hg Hb Hs Hr Hap Hon e).
Qed.
Print Assumptions C92_animate_needs.
(** A case for both sides: the branching tests with an override for the channel of an input, which is a message type or not. *)
Example C92_exact_witness : overrides_named (over VRos (lit "Foo")) branching_types branching /\
  (exists e, tree_event branching e /\ ch_name (e_chan e) = lit "c") /\ override_of (over VRos (lit "Foo")) (lit "c") (lit "Foo") /\
  (forall e o, tree_event branching e -> override_of (over VRos (lit "Foo")) (ch_name (e_chan e)) o -> message (foo_type true true true) (text_type o) = true) /\
  message (foo_type true true false) (text_type (lit "Foo")) = false.
Proof.
  split; [apply (branching_fits VRos (foo_type true true true) (lit "Foo")); done|]. split.
  { destruct (node_at branching [0]) as [n|] eqn:E; [|discriminate E]. vm_compute in E. injection E as <-. eexists. split; [exists [0]; eexists; split; [vm_compute; reflexivity|reflexivity]|reflexivity]. }
  split; [exists [], []; split; [done|]; split; [by intros o ?%elem_of_nil|done]|]. split; [|by vm_compute].
  intros e o _ H. apply over_of in H as [_ ->]. by vm_compute.
Qed.
