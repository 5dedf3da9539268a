(** * main.cpp: property C75 *)
From Verif Require Export PropMain StaticMain.
From Verif Require Import PropConfig PropHeader PropCppRun.
From Verif Require Export StmProofs.

Section Static.
  Context (b : builder) (root : node) (b' : builder) (types : type_map) (cfg : cpp_config) (name date : gostr) (tests : list gostr) (v : variant).
  Context (Hg : good_tree root) (Hb : build b root = Ok b') (Hs : supported types root) (Hl : lists_tests (b_stm b') tests).
  Context (Hsp : spellable root) (Hu : unambiguous root tests) (Hh : header_texts name date (cc_includes cfg)).
  Context (Hr : readable (process cfg types)) (Hnm : no_macros types root tests).
  Notation T := (apply_writes (b_writes b') root).
  Notation m := (b_stm b').
  Notation ctx := (process cfg types).
  Notation h := (header_items v ctx).
  Notation items := (main_items v name m ctx tests).

  Lemma ctx_types c : is_Some (types !! c) <-> is_Some (cx_types ctx !! c).
  Proof.
    destruct (C55_process cfg types (map_to_list types) ltac:(done)) as (_ & _ & Ed & _ & _). rewrite <- !elem_of_dom. by rewrite Ed.
  Qed.
  Lemma macro_names x : x ∈ map fst (macros h) <-> x = lit "CONVERT_H_DEFINED" \/ exists c, is_Some (types !! c) /\ (x = channel_value_type c \/ x = channel_msg_type c).
  Proof.
    rewrite header_macros. cbn [map]. rewrite map_app, !map_map, elem_of_cons, elem_of_app. cbn [fst].
    assert (E : forall (f : gostr -> gostr), x ∈ map (fun c : chan => f c.1) (range_map (cx_types ctx)) <-> exists c, is_Some (types !! c) /\ x = f c).
    { intros f. rewrite elem_of_list_In, in_map_iff. split.
      - intros ([c t] & <- & Hc). apply elem_of_list_In, (CodecProofs.range_map_elem (cx_types ctx)) in Hc. exists c. split; [|done]. apply ctx_types. by eexists.
      - intros (c & Hc & ->). apply ctx_types in Hc as [t Hc]. exists (c, t). split; [done|]. apply elem_of_list_In. by apply (CodecProofs.range_map_elem (cx_types ctx)). }
    pose proof (E channel_value_type) as E1. pose proof (E channel_msg_type) as E2. clear E. split.
    - intros [->|[H|H]]; [by left| |]; right.
      + apply E1 in H as (c & H & ->). exists c. auto.
      + apply E2 in H as (c & H & ->). exists c. auto.
    - intros [->|(c & Hc & [->| ->])]; [by left| |]; right; [left; apply E1|right; apply E2]; by exists c.
  Qed.
  Lemma type_ident c : is_Some (types !! c) -> identifier c.
  Proof. intros Hc. apply ctx_types in Hc as [[t o] Hc]. by apply (proj1 Hr c t o). Qed.
  Lemma macro_shape x : x ∈ map fst (macros h) -> macro_like x.
  Proof.
    rewrite macro_names. intros [->|(c & Hc & Hx)]; [by left|]. right. apply type_ident in Hc as [_ (y & r & -> & _)]. split.
    - destruct Hx as [->| ->]; [left|right]; unfold channel_value_type, channel_msg_type; by rewrite reverse_app.
    - intros z s. destruct Hx as [->| ->]; cbn; intros E; injection E as <- _; apply upper_no_lower.
  Qed.
  Lemma agg_typed a : a ∈ tc_in (make_transitions m) \/ a ∈ tc_out (make_transitions m) -> exists e, tree_event root e /\ e_chan e = ag_chan a /\ is_Some (types !! agg_name a).
  Proof.
    intros Ha. destruct (supported_gen_ok b root b' types Hg Hb Hs) as [Hok He]. destruct (agg_event _ _ _ Hok a Ha) as (e & H1 & H2).
    exists e. split; [by apply (erase_tree_event _ _ _ He)|]. split; [done|]. destruct (go_typed _ _ _ Hok e H1) as (t & Ht & _). unfold agg_name. rewrite <- H2. by exists t.
  Qed.
  Lemma static_header : header_has h m.
  Proof.
    split; [apply macro_shape|]. intros a Ha. destruct (agg_typed a Ha) as (e & _ & _ & Ht). rewrite !macro_names, header_functions.
    assert (E : forall (f : gostr -> gostr), f (agg_name a) ∈ map (fun c : chan => f c.1) (range_map (cx_types ctx))).
    { intros f. apply elem_of_list_In, in_map_iff. pose proof (proj1 (ctx_types _) Ht) as [t Hc]. exists (agg_name a, t). split; [done|]. apply elem_of_list_In. by apply (CodecProofs.range_map_elem (cx_types ctx)). }
    split_and!; [right; exists (agg_name a); auto..| |]; apply elem_of_app; [right; apply (E convert_to)|left; apply (E convert_from)].
  Qed.
  Lemma static_tests P : machine_ok v m types tests P -> tests_ok h tests.
  Proof.
    intros HM. destruct Hl as [Hnd _]. destruct Hu as [[U1 U2] U3 _ _ _]. destruct Hnm as [N1 _]. split.
    - apply NoDup_cons. split.
      + rewrite elem_of_app, elem_of_cons. intros [[E|E]|E]; [discriminate E|done|]. apply elem_of_list_fmap in E as (t & E & _).
        apply (f_equal reverse) in E. unfold fld in E. rewrite reverse_app in E. discriminate E.
      + apply NoDup_app2.
        * by apply NoDup_cons.
        * apply NoDup_map_2; [done|]. intros x y _ _ E. by apply app_inv_tail in E.
        * intros x Hx Hf. apply elem_of_list_fmap in Hf as (t & -> & Ht). apply elem_of_cons in Hx as [E|Hx]; [|by apply (U3 t)].
          apply (f_equal reverse) in E. unfold fld in E. rewrite reverse_app in E. discriminate E.
    - intros t Ht. destruct (N1 t Ht) as (A1 & A2 & A3 & A4). split.
      + rewrite macro_names. intros [E|(c & Hc & [E|E])]; [done|destruct (A4 c Hc); done..].
      + unfold log_macros. rewrite !elem_of_cons, elem_of_nil. by intros [E|[E|[]]].
    - apply (mo_tests _ _ _ _ _ HM).
  Qed.
  Lemma state_root s : s ∈ m_states m -> id_of root (st_id s).
  Proof.
    intros Hin. destruct (supported_gen_ok b root b' types Hg Hb Hs) as [Hok He]. destruct (m_state_elem T m (go_tree _ _ _ Hok) (go_states _ _ _ Hok) s) as [H _]. destruct (H Hin) as (p & n & [Hn _] & ->).
    rewrite state_of_id. by apply (labelled_id_of b root b' Hg Hb p).
  Qed.
  Lemma step_enum k : enum_field (lit "step" ++ format_N k) <> lit "CONVERT_H_DEFINED".
  Proof. unfold enum_field, to_upper. rewrite map_app. cbn. discriminate. Qed.
  Lemma static_states P : machine_ok v m types tests P -> states_ok m.
  Proof.
    intros HM. destruct Hnm as [_ N2]. split.
    - destruct (prog_eq v m tests types P HM) as (acc & _ & E). pose proof (wd_enum _ (mo_decl _ _ _ _ _ HM)) as H. by rewrite E in H.
    - intros s Hin. destruct (state_root s Hin) as [->|[[k ->]|(p & n & Hp & Hn & <- & _)]]; [done|apply step_enum|by apply (N2 p n)].
    - apply (mo_ids _ _ _ _ _ HM).
  Qed.
  Lemma pub_entry_upper c x (r : gostr) : is_upper x = true -> fld (publisher_name c) <> lit "enter" ++ x :: r.
  Proof.
    intros Hx E. assert (Hin : x ∈ (fld (publisher_name c) : list ascii)) by (rewrite E, elem_of_app; right; left).
    unfold fld, publisher_name in Hin. rewrite !elem_of_app in Hin. destruct Hin as [[Hin|Hin]|Hin].
    - pose proof (proj1 (Forall_forall _ _) (proj1 (C59_lower_properties c))) as H. unfold topic_name in Hin. apply H in Hin. by rewrite Hin in Hx.
    - change (lit "_pub") with ["_"%char; "p"%char; "u"%char; "b"%char] in Hin. rewrite !elem_of_cons, elem_of_nil in Hin. destruct Hin as [->|[->|[->|[->|[]]]]]; discriminate Hx.
    - apply elem_of_list_singleton in Hin as ->. discriminate Hx.
  Qed.
  Lemma static_machine P : machine_ok v m types tests P -> (v = VRos -> publishers_distinct root) -> machine_static v m.
  Proof.
    intros HM Hpd. destruct (supported_gen_ok b root b' types Hg Hb Hs) as [Hok He]. destruct (gen_prog T m types tests Hok) as (P' & HP' & Hprog). destruct Hl as [Hnd Hin].
    split.
    - apply (sm_names_nodup T m types tests P'); try done.
      + intros s t H1 H2. apply Hin. by apply (proj2 (C28_recorded_tests b root b' Hg Hb) s t).
      + by apply (unambiguous_distinct b root b').
    - unfold pubs_of. destruct (decide (v = VRos)) as [Hv|Hv]; [|destruct v; [constructor|done|constructor]]. rewrite Hv. apply NoDup_map_2.
      + destruct (C35_context_split m) as (_ & _ & E & _). cbn zeta in E. rewrite E. apply NoDup_filter. eapply (NoDup_fmap_1 ag_chan).
        change (ag_chan <$> ?l) with (map ag_chan l). rewrite transition_sets_chans. apply firsts_NoDup.
      + assert (K : forall a, a ∈ tc_in (make_transitions m) -> a ∈ transition_sets m /\ ch_kind (ag_chan a) = KIn).
        { intros a Ha. destruct (C35_context_split m) as (_ & _ & E & _). cbn zeta in E. rewrite E in Ha. by apply elem_of_list_filter in Ha as [? ?]. }
        intros x y Hx Hy E. destruct (agg_typed x ltac:(by left)) as (e & E1 & E2 & _). destruct (agg_typed y ltac:(by left)) as (f & F1 & F2 & _).
        destruct (K x Hx) as [Kx1 Kx2], (K y Hy) as [Ky1 Ky2].
        assert (En : agg_name x = agg_name y).
        { unfold agg_name. rewrite <- E2, <- F2. apply (pd_inj _ (Hpd Hv)); [done|done|by rewrite E2|by rewrite F2|]. rewrite E2, F2. by apply pub_same in E. }
        assert (Ec : ag_chan x = ag_chan y). { unfold agg_name in En. destruct (ag_chan x), (ag_chan y). cbn in *. by subst. }
        assert (Nd : NoDup (map ag_chan (transition_sets m))) by (rewrite transition_sets_chans; apply firsts_NoDup).
        apply elem_of_list_lookup in Kx1 as (i & Ki), Ky1 as (j & Kj). assert (i = j) as ->; [|congruence].
        apply (NoDup_lookup (map ag_chan (transition_sets m)) i j (ag_chan x) Nd); [change (map ag_chan (transition_sets m)) with (ag_chan <$> transition_sets m); by rewrite list_lookup_fmap, Ki|].
        change (map ag_chan (transition_sets m)) with (ag_chan <$> transition_sets m). by rewrite list_lookup_fmap, Kj, Ec.
    - intros x s Hx Hin'. apply pubs_elem in Hx as (a & Hv & Ha & ->). destruct (agg_typed a ltac:(by left)) as (e & E1 & E2 & _).
      assert (Ek : ch_kind (ag_chan a) = KIn). { destruct (C35_context_split m) as (_ & _ & E & _). cbn zeta in E. rewrite E in Ha. by apply elem_of_list_filter in Ha as [? ?]. }
      destruct (state_root s Hin') as [->|[[k ->]|(p & n & Hp & Hn & <- & _)]]; [by apply pub_entry_upper|by apply pub_entry_upper|].
      intros E. apply (pd_entries _ (Hpd Hv) e p n); [done|by rewrite E2|done|done|]. rewrite E2. unfold fld, publisher_name in E. rewrite <- app_assoc in E. exact E.
    - pose proof (state0_in v m tests types P HM) as H. destruct (prog_eq v m tests types P HM) as (acc & _ & E). rewrite E in H. cbn [p_state0 p_enum] in H.
      unfold s0_of. destruct (m_states m) as [|s l]; [by apply elem_of_nil in H|]. exists s. split; [left|done].
  Qed.
  Lemma static_ok : (v = VRos -> publishers_distinct root /\ topics_distinct root) -> declarations_ok h items = true.
  Proof.
    intros Hros. destruct (supported_gen_ok b root b' types Hg Hb Hs) as [Hok He]. destruct (gen_prog T m types tests Hok) as (P & HP & _).
    pose proof (text_machine b root b' types tests v Hg Hb Hs Hl Hsp Hu P HP) as HM.
    assert (Hout : forall a, a ∈ tc_out (make_transitions m) -> agg_name a ∈ out_names root).
    { intros a Ha'. apply (out_names_agg b root b' types Hg Hb Hs), elem_of_list_fmap. by exists a. }
    apply (main_declarations h v tests m types P); [..|by apply (text_nodup b root)].
    - apply (static_machine P HM). intros E. apply (Hros E).
    - apply static_header.
    - done.
    - by apply (static_tests P).
    - by apply (static_states P).
    - apply Hh.
    - intros E. destruct (Hros E) as [_ Htd]. split.
      + apply NoDup_map_2.
        * destruct (C35_context_split m) as (_ & _ & _ & E' & _). cbn zeta in E'. rewrite E'. apply NoDup_filter. eapply (NoDup_fmap_1 ag_chan).
          change (ag_chan <$> ?l) with (map ag_chan l). rewrite transition_sets_chans. apply firsts_NoDup.
        * intros x y Hx Hy E'. apply (out_agg_unique _ _ _ Hok); [done|done|]. apply (td_inj _ Htd); [by apply Hout..|]. by apply app_inv_tail in E'.
      + intros Hin. apply elem_of_list_fmap in Hin as (a & E' & Ha'). apply (td_ack _ Htd (agg_name a) (Hout a Ha')).
        change (lit "input_accepted_sub") with (lit "input_accepted" ++ lit "_sub") in E'. unfold subscriber_name in E'. by apply app_inv_tail in E'.
    - intros a Ha. destruct (agg_typed a Ha) as (e & E1 & E2 & _). unfold agg_name. rewrite <- E2. apply topic_safe. by apply (sl_chans _ Hsp).
  Qed.
End Static.

(** ** C75: main.cpp and convert.h fit together *)
Theorem C75_animate_declarations : forall b root b' types cfg name date tests,
  good_tree root -> build b root = Ok b' -> supported types root -> lists_tests (b_stm b') tests ->
  spellable root -> unambiguous root tests -> header_texts name date (cc_includes cfg) -> readable (process cfg types) -> no_macros types root tests ->
  exists h p, read_header (convert_text VAnimate (process cfg types)) = Some h /\
    read_cpp (main_text VAnimate name date (b_stm b') (process cfg types) tests) = Some p /\ declarations_ok h p = true.
Proof.
  intros b root b' types cfg name date tests Hg Hb Hs Hl Hsp Hu Hh Hr Hnm. exists (header_items VAnimate (process cfg types)), (main_items VAnimate name (b_stm b') (process cfg types) tests).
  split; [by apply header_read, readable_good|]. split; [by apply (text_reads b root)|]. by apply (static_ok b root b' types cfg name date).
Qed.
Print Assumptions C75_animate_declarations.
Theorem C75_ros_declarations : forall b root b' types cfg name date tests,
  good_tree root -> build b root = Ok b' -> supported types root -> lists_tests (b_stm b') tests ->
  spellable root -> unambiguous root tests -> header_texts name date (cc_includes cfg) -> readable (process cfg types) -> no_macros types root tests ->
  topics_distinct root -> publishers_distinct root ->
  exists h p, read_header (convert_text VRos (process cfg types)) = Some h /\
    read_cpp (main_text VRos name date (b_stm b') (process cfg types) tests) = Some p /\ declarations_ok h p = true.
Proof.
  intros b root b' types cfg name date tests Hg Hb Hs Hl Hsp Hu Hh Hr Hnm Htd Hpd. exists (header_items VRos (process cfg types)), (main_items VRos name (b_stm b') (process cfg types) tests).
  split; [by apply header_read, readable_good|]. split; [by apply (text_reads b root)|]. by apply (static_ok b root b' types cfg name date).
Qed.
Print Assumptions C75_ros_declarations.

(** *** Concrete cases *)
(** The check of the texts for a tree. *)
Definition demo_declared (v : variant) (types : type_map) (root : node) (tests : list gostr) : option bool :=
  match build new_builder root with
  | Ok b =>
    let ctx := process demo_config types in
    match read_header (convert_text v ctx), read_cpp (main_text v (lit "test") (lit "today") (b_stm b) ctx tests) with
    | Some h, Some p => Some (declarations_ok h p)
    | _, _ => None
    end
  | _ => None
  end.
(** A tree with one path, through some inputs and then some outputs, for the given tests. *)
Fixpoint one_path (ts : list gostr) (es : list channel) : list node :=
  match es with
  | [] => [Node [] ts OFail None []]
  | c :: r => [Node [] ts (match r with [] => OPass | _ => OInc end) (Some (Event c (Some (EnumV (lit "on"))))) (one_path ts r)]
  end.
Definition clash (v : variant) (ts ins outs : list gostr) : option bool :=
  demo_declared v (list_to_map (map (fun c => (c, ty_enum)) (ins ++ outs))) (Node [] ts OUnset None (one_path ts (map (fun c => Channel c KIn) ins ++ map (fun c => Channel c KOut) outs))) ts.
Lemma branching_no_macros : no_macros branching_types branching [lit "t"; lit "u"].
Proof.
  split.
  - assert (A : forall c, is_Some (branching_types !! c) -> c = lit "c" \/ c = lit "d").
    { intros c [t Ht]. revert Ht. unfold branching_types. rewrite lookup_insert_Some, lookup_singleton_Some. intros [[<- _]|[_ [<- _]]]; auto. }
    intros t. rewrite !elem_of_cons, elem_of_nil. intros [->|[->|[]]]; (do 3 (split; [done|])); intros c Hc; apply A in Hc as [->| ->]; done.
  - intros p n _ Hn. apply all_nodes_at in Hn. revert n Hn. apply (proj1 (Forall_forall (fun n : node => to_upper (n_id n) <> lit "CONVERT_H_DEFINED") _)). repeat constructor; done.
Qed.
Lemma branching_publishers : publishers_distinct branching.
Proof.
  assert (A : forall e, tree_event branching e -> ch_kind (e_chan e) = KIn -> ch_name (e_chan e) = lit "c").
  { intros e He. apply all_events_of in He. revert e He. apply (proj1 (Forall_forall (fun e => ch_kind (e_chan e) = KIn -> ch_name (e_chan e) = lit "c") _)). repeat constructor; done. }
  split.
  - intros e f He Hf Ke Kf _. by rewrite (A e He Ke), (A f Hf Kf).
  - intros e p n He Ke _ Hn. rewrite (A e He Ke). done.
Qed.
Lemma branching_readable : readable (process demo_config branching_types).
Proof.
  destruct (C55_process demo_config branching_types (map_to_list branching_types) ltac:(done)) as (_ & Ei & Ed & Ec & _). split.
  - intros c t o Hc. assert (Hd : c ∈ dom branching_types) by (rewrite <- Ed; apply elem_of_dom; by eexists). apply elem_of_dom in Hd as [t' Ht']. pose proof (Ec c t' Ht') as Hc'.
    assert (o = default [] (last_override demo_config c)) as -> by (pose proof (eq_trans (eq_sym Hc) Hc') as E; by injection E). split.
    + revert Ht'. unfold branching_types. rewrite lookup_insert_Some, lookup_singleton_Some. intros [[<- _]|[_ [<- _]]]; by apply plain_identb_ok.
    + cbn. split_and!; try (by intros ?%elem_of_nil); done.
  - rewrite Ei. intros i ->%elem_of_list_singleton. cbn [in_src]. split_and!; apply (bool_decide_eq_true_1 (_ ∉ _)); by vm_compute.
Qed.
Example C75_witness :
  good_tree branching /\ (exists b', build new_builder branching = Ok b' /\ lists_tests (b_stm b') [lit "t"; lit "u"]) /\ supported branching_types branching /\
  spellable branching /\ unambiguous branching [lit "t"; lit "u"] /\ header_texts (lit "test") (lit "today") (cc_includes demo_config) /\
  readable (process demo_config branching_types) /\ no_macros branching_types branching [lit "t"; lit "u"] /\ topics_distinct branching /\ publishers_distinct branching /\
  demo_declared VAnimate branching_types branching [lit "t"; lit "u"] = Some true /\ demo_declared VRos branching_types branching [lit "t"; lit "u"] = Some true /\
  clash VAnimate [lit "t"] [lit "go"] [lit "done"] = Some true /\ clash VRos [lit "t"] [lit "go"; lit "fooBar"] [lit "done"] = Some true.
Proof.
  split; [apply full_iff; vm_compute; done|]. split; [apply branching_lists|]. split; [apply supportedb_ok; vm_compute; done|].
  split; [apply branching_spellable|]. split; [apply branching_unambiguous|]. split.
  { split; [by apply safeb_ok| |intros i ->%elem_of_list_singleton]; apply (bool_decide_eq_true_1 (_ ∉ _)); by vm_compute. }
  split; [apply branching_readable|]. split; [apply branching_no_macros|]. split; [apply branching_topics|]. split; [apply branching_publishers|].
  split; [vm_compute; reflexivity|]. split; [vm_compute; reflexivity|]. split; vm_compute; reflexivity.
Qed.
(** Each of the names that the hypotheses exclude does make the texts wrong. *)
Theorem C75_clashes_refuted :
  clash VAnimate [lit "a"; lit "a_"] [lit "go"] [lit "done"] = Some false /\
  clash VAnimate [lit "dump"] [lit "go"] [lit "done"] = Some false /\
  clash VAnimate [lit "Verdict"] [lit "go"] [lit "done"] = Some false /\
  clash VAnimate [lit "GoVal"] [lit "go"] [lit "done"] = Some false /\
  clash VAnimate [lit "DoneMsg"] [lit "go"] [lit "done"] = Some false /\
  clash VRos [lit "ROS_INFO_STREAM"] [lit "go"] [lit "done"] = Some false /\
  clash VAnimate [lit "t"] [lit "go"] [lit "timeout"] = Some false /\
  clash VAnimate [lit "t"] [lit "go"] [lit "inputAccepted"] = Some false /\
  clash VAnimate [lit "t"] [lit "go"] [lit "initialDelay"] = Some false /\
  clash VRos [lit "t"] [lit "fooBar"; lit "foo_bar"] [lit "done"] = Some false /\
  clash VRos [lit "t"] [lit "go"] [lit "fooBar"; lit "foo_bar"] = Some false /\
  clash VRos [lit "t"] [lit "go"] [lit "input_accepted"] = Some false.
Proof. split_and!; vm_compute; reflexivity. Qed.
Print Assumptions C75_clashes_refuted.
