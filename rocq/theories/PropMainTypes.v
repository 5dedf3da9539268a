(** * The types of main.cpp: property C92 *)
From Verif Require Export PropStatic TypesFile.
From Verif Require Import PropConfig PropHeader PropCppRun.
From Verif Require Export StmProofs.

(** ** Finding the parts of convert.h *)
Lemma look_in {A} (l : list (gostr * A)) x a : NoDup (map fst l) -> (x, a) ∈ l -> look l x = Some a.
Proof.
  induction l as [|[y z] l IH]; [by intros _ ?%elem_of_nil|]. cbn [map fst look]. intros [Hy N]%NoDup_cons. rewrite elem_of_cons. intros [[= -> ->]|Hin]; [by rewrite str_eqb_refl|].
  rewrite str_eqb_ne; [by apply IH|]. intros ->. apply Hy. apply elem_of_list_In, in_map_iff. exists (x, a). split; [done|by apply elem_of_list_In].
Qed.
Lemma find_hfun_in (h : list item) r f a pn bd : NoDup (functions h) -> IFun r f a pn bd ∈ h -> find_hfun h f = Some (r, a).
Proof.
  induction h as [|i h IH]; [by intros _ ?%elem_of_nil|]. intros N. rewrite elem_of_cons. intros [<-|Hin]; [cbn; by rewrite str_eqb_refl|].
  destruct i as [| |r' n' pt' pn' bd']; try (apply IH; [exact N|exact Hin]). change (functions (IFun r' n' pt' pn' bd' :: h)) with (n' :: functions h) in N. apply NoDup_cons in N as [Hn N]. cbn [find_hfun].
  rewrite str_eqb_ne; [by apply IH|]. intros ->. apply Hn. unfold functions. apply elem_of_list_omap. by eexists.
Qed.
Lemma last_filter {A} (Q : A -> Prop) `{!forall x, Decision (Q x)} (l : list A) a : last (filter Q l) = Some a -> exists l1 l2, l = l1 ++ a :: l2 /\ Q a /\ forall b, b ∈ l2 -> ~ Q b.
Proof.
  induction l as [|x l IH] using rev_ind; [done|]. rewrite filter_app. destruct (decide (Q x)) as [q|q].
  - rewrite filter_cons_True by done. rewrite filter_nil, last_snoc. intros [= ->]. exists l, []. split_and!; [done|done|]. by intros b ?%elem_of_nil.
  - rewrite filter_cons_False by done. rewrite filter_nil, app_nil_r. intros Hx. apply IH in Hx as (l1 & l2 & -> & Ha & Hl). exists l1, (l2 ++ [x]). split_and!; [by rewrite <- app_assoc|done|].
    intros b [Hb|Hb%elem_of_list_singleton]%elem_of_app; [by apply Hl|by subst b].
Qed.
Lemma override_last cfg c o : last_override cfg c = Some o -> o <> [] -> override_of cfg c o.
Proof.
  unfold last_override. intros H Ho. apply fmap_Some in H as ([c' o'] & H & ->). apply last_filter in H as (l1 & l2 & E & Hc & Hl). cbn in Hc. subst c'. exists l1, l2. split_and!; [done| |done].
  intros x Hx. by apply (Hl (c, x) Hx).
Qed.

(** ** The types of a channel *)
Lemma look_out {A} (l : list (gostr * A)) x : x ∉ map fst l -> look l x = None.
Proof. apply look_none. Qed.
Lemma std_not_ptr s : s = lit "std::string" \/ s = lit "unsigned int" \/ s = lit "int" \/ s = lit "std_msgs::String" -> const_ptr_of s = None /\ ~ macro_like s.
Proof. intros [->|[->|[->| ->]]]; (split; [by vm_compute|by apply low_not_macro]). Qed.

(** ** The channels of the events of a tree *)
Lemma event_live T e : good_tree T -> tree_event T e <-> exists p n k, live_at T p n /\ (e, k) ∈ live_succs n.
Proof.
  intros Hg. split.
  - intros (p & k & Hn & He). assert (Ho : n_outcome k <> OFail).
    { destruct Hg as [(R1 & R2 & _) G]. destruct p as [|i p]; [injection Hn as <-; congruence|]. destruct (G (i :: p) k ltac:(done) Hn) as (_ & [(_ & E & _)|[(E & _)|(E & _)]]); congruence. }
    destruct p as [|i p _] using rev_ind.
    { injection Hn as <-. destruct Hg as [(R & _) _]. congruence. }
    rewrite node_at_app in Hn. destruct (node_at T p) as [n|] eqn:En; [|done]. cbn in Hn. destruct (n_next n !! i) as [k'|] eqn:Ei; [|done]. injection Hn as ->. exists p, n, k. split.
    + split; [done|]. intros Hof. rewrite (good_tree_fail_leaf T Hg p n En Hof) in Ei. done.
    + apply live_succs_elem. split; [by eapply elem_of_list_lookup_2|done].
  - intros (p & n & k & [Hn _] & Hek). apply live_succs_elem in Hek as (Hk & Ho & He). apply elem_of_list_lookup in Hk as [i Hi]. exists (p ++ [i]), k. split; [|done]. rewrite node_at_app, Hn. cbn. by rewrite Hi.
Qed.
Lemma event_agg T m types e : gen_ok T m types -> tree_event T e -> exists a, a ∈ transition_sets m /\ ag_chan a = e_chan e.
Proof.
  intros [Hg Hs Hd Hv Hk _] He. apply event_live in He as (p & n & k & Hn & Hek); [|done].
  assert (Hc : e_chan e ∈ map ag_chan (transition_sets m)).
  { rewrite transition_sets_chans, firsts_elem. apply elem_of_list_In, in_concat. exists (map ts_chan (st_tsets (state_of n))). split.
    - apply in_map_iff. exists (state_of n). split; [done|]. apply elem_of_list_In. apply (m_state_elem T); [done|done|]. by exists p, n.
    - apply elem_of_list_In, state_chan_elem. by exists e, k. }
  apply elem_of_list_fmap in Hc as (a & Hc & Ha). by exists a.
Qed.
Lemma agg_of_event T m types a : gen_ok T m types -> a ∈ transition_sets m -> exists e, tree_event T e /\ ag_chan a = e_chan e.
Proof.
  intros [Hg Hs Hd Hv Hk _] Ha. assert (Hc : ag_chan a ∈ map ag_chan (transition_sets m)) by (apply elem_of_list_fmap; by exists a).
  rewrite transition_sets_chans, firsts_elem in Hc. apply elem_of_list_In, in_concat in Hc as (l & Hl & Hc).
  apply in_map_iff in Hl as (s & <- & Hin). apply elem_of_list_In in Hin, Hc. apply (m_state_elem T) in Hin as (p & n & Hpn & ->); [|done|done].
  apply state_chan_elem in Hc as (e & k & Hek & Hc). exists e. split; [|done]. apply event_live; [done|]. by exists p, n, k.
Qed.
Lemma agg_split m a : (a ∈ tc_in (make_transitions m) <-> a ∈ transition_sets m /\ ch_kind (ag_chan a) = KIn) /\ (a ∈ tc_out (make_transitions m) <-> a ∈ transition_sets m /\ ch_kind (ag_chan a) <> KIn).
Proof. destruct (C35_context_split m) as (_ & _ & E1 & E2 & _). cbn zeta in E1, E2. rewrite E1, E2, !elem_of_list_filter. tauto. Qed.

Section Types.
  Context (b : builder) (root : node) (b' : builder) (types : type_map) (cfg : cpp_config) (name date : gostr) (tests : list gostr) (v : variant) (u : user_types).
  Context (Hg : good_tree root) (Hb : build b root = Ok b') (Hs : supported types root) (Hl : lists_tests (b_stm b') tests).
  Context (Hsp : spellable root) (Hu : unambiguous root tests) (Hh : header_texts name date (cc_includes cfg)).
  Context (Hr : readable (process cfg types)) (Hnm : no_macros types root tests).
  Context (Hap : names_apart types) (Hon : overrides_named cfg types root).
  Notation m := (b_stm b').
  Notation ctx := (process cfg types).
  Notation h := (header_items v ctx).
  Notation items := (main_items v name m ctx tests).
  Lemma ctx_apart : forall x y, x ∈ dom (cx_types ctx) -> y ∈ dom (cx_types ctx) -> upcase_first x = upcase_first y -> x = y.
  Proof. intros x y Hx%elem_of_dom Hy%elem_of_dom. apply Hap; by apply (ctx_types types cfg). Qed.
  Lemma header_nodup : NoDup (functions h) /\ NoDup (map fst (macros h)).
  Proof.
    destruct (C74_distinct v ctx h Hr (header_read v ctx (readable_good ctx Hr))) as [[_ A] [_ B]]. split; [apply A|apply B]; exact ctx_apart.
  Qed.
  Lemma expand_in n x : (n, x) ∈ macros h -> expand1 h n = x.
  Proof. intros H. unfold expand1. by rewrite (look_in _ _ x (proj2 header_nodup) H). Qed.
  Lemma expand_out n : n ∉ map fst (macros h) -> expand1 h n = n.
  Proof. intros H. unfold expand1. by rewrite look_none. Qed.
  Lemma like_out n : ~ macro_like n -> n ∉ map fst (macros h).
  Proof. intros H Hn. by eapply H, macro_shape. Qed.

  (** The text of the type of a channel in convert.h. *)
  Definition chan_text (c : gostr) (t : rstype) : gostr :=
    let o := default [] (last_override cfg c) in if decide (o = []) then match v with VRos => lit "std_msgs::String" | _ => std_type t end else o.
  Lemma event_chan a : a ∈ tc_in (make_transitions m) \/ a ∈ tc_out (make_transitions m) ->
    exists e t, tree_event root e /\ ag_chan a = e_chan e /\ types !! agg_name a = Some t /\ (std_type t = lit "std::string" \/ std_type t = lit "unsigned int" \/ std_type t = lit "int").
  Proof.
    intros Ha. destruct (supported_gen_ok b root b' types Hg Hb Hs) as [Hok He].
    assert (Ha' : a ∈ transition_sets m) by (destruct Ha as [Ha|Ha]; [apply (proj1 (agg_split m a)) in Ha|apply (proj2 (agg_split m a)) in Ha]; apply Ha). destruct (agg_of_event _ _ _ a Hok Ha') as (e & H1 & H2). destruct (go_typed _ _ _ Hok e H1) as (t & Ht & Hfit).
    exists e, t. split; [by apply (erase_tree_event _ _ _ He)|]. split; [done|]. split; [unfold agg_name; by rewrite H2|].
    destruct (e_value e) as [[z|s]|]; cbn [expressible] in Hfit; [destruct Hfit as [[[-> _]| ->] _]; auto|destruct Hfit as [-> _]; auto|done].
  Qed.
  Lemma chan_names a : a ∈ tc_in (make_transitions m) \/ a ∈ tc_out (make_transitions m) ->
    exists t, types !! agg_name a = Some t /\ header_type h (channel_value_type (agg_name a)) = text_type (chan_text (agg_name a) t) /\
      header_type h (channel_msg_type (agg_name a)) = match v with VRos => TConstPtr (text_type (chan_text (agg_name a) t)) | _ => text_type (chan_text (agg_name a) t) end.
  Proof.
    intros Ha. destruct (event_chan a Ha) as (e & t & Hk & H2 & Ht & Hplain). set (c := agg_name a) in *. assert (Ec : ch_name (e_chan e) = c) by (unfold c, agg_name; by rewrite H2).
    destruct (C55_process cfg types (map_to_list types) ltac:(done)) as (_ & _ & _ & Ecx & _). pose proof (Ecx c t Ht) as Hc. set (o := default [] (last_override cfg c)) in *.
    assert (Hovr : o <> [] -> override_of cfg c o). { intros N. unfold o in *. destruct (last_override cfg c) as [o'|] eqn:Eo; [|done]. by apply override_last. }
    destruct (C74_header v ctx Hr) as (h' & Eh & _ & Hmacs & Hfuns). rewrite (header_read v ctx (readable_good ctx Hr)) in Eh. injection Eh as <-.
    exists t. split; [done|]. change (chan_text c t) with (if decide (o = []) then match v with VRos => lit "std_msgs::String" | _ => std_type t end else o).
    set (w := if decide (o = []) then match v with VRos => lit "std_msgs::String" | _ => std_type t end else o).
    assert (Mv : (channel_value_type c, w) ∈ macros h).
    { apply Hmacs. right. exists c, t, o. split; [done|]. left. split; [done|]. unfold w. destruct (decide (o = [])); [right|left]; done. }
    assert (Mm : (channel_msg_type c, match v with VRos => channel_value_type c ++ lit "::ConstPtr&" | _ => channel_value_type c end) ∈ macros h).
    { apply Hmacs. right. exists c, t, o. split; [done|]. right. split; [done|]. unfold channel_value_type. destruct v; [done|by rewrite <- app_assoc|done]. }
    assert (W : w ∉ map fst (macros h) /\ const_ptr_of w = None).
    { unfold w. destruct (decide (o = [])) as [Eo|No].
      - destruct (std_not_ptr (match v with VRos => lit "std_msgs::String" | _ => std_type t end)) as [W1 W2]; [destruct v; [tauto|by right; right; right|tauto]|]. split; [by apply like_out|done].
      - destruct (Hon e o Hk) as (O1 & O2 & O3); [rewrite Ec; by apply Hovr|]. split; [|done]. intros X%(macro_names types cfg v). destruct X as [X|(d & Hd & [X|X])]; [done|exact (proj1 (O2 d Hd) X)|exact (proj2 (O2 d Hd) X)]. }
    destruct W as [W1 W2].
    assert (Vx : expand1 h (expand1 h (channel_value_type c)) = w) by (by rewrite (expand_in _ _ Mv), expand_out).
    split; [unfold header_type; by rewrite Vx, W2|]. unfold header_type. rewrite (expand_in _ _ Mm). destruct (decide (v = VRos)) as [Ev|Nv].
    + assert (Er : match v with VRos => channel_value_type c ++ lit "::ConstPtr&" | _ => channel_value_type c end = channel_value_type c ++ lit "::ConstPtr&") by (by rewrite Ev). rewrite Er. clear Er.
      rewrite expand_out. 2: { apply like_out, end_not_macro. 1,2: rewrite reverse_app; done. intros X. apply (f_equal reverse) in X. rewrite reverse_app in X. discriminate X. }
      assert (Ep : const_ptr_of (channel_value_type c ++ lit "::ConstPtr&") = Some (channel_value_type c)).
      { unfold const_ptr_of. rewrite reverse_app. unfold after. rewrite take_app, decide_True, drop_app by done. cbn. by rewrite reverse_involutive. }
      rewrite Ep, Vx. by rewrite Ev.
    + assert (Er : match v with VRos => channel_value_type c ++ lit "::ConstPtr&" | _ => channel_value_type c end = channel_value_type c) by (by destruct v). rewrite Er. clear Er.
      rewrite (expand_in _ _ Mv), W2. by destruct v.
  Qed.
  Lemma chan_types : overrides_able u v cfg root -> forall a, a ∈ tc_in (make_transitions m) \/ a ∈ tc_out (make_transitions m) ->
    exists t vt, types !! agg_name a = Some t /\ chan_ok u h v (agg_name a) t vt /\ (a ∈ tc_in (make_transitions m) -> v <> VRos -> printed u vt = true).
  Proof.
    intros Hof a Ha. destruct (event_chan a Ha) as (e & t & Hk & H2 & Ht & Hplain). destruct (chan_names a Ha) as (t' & Ht' & Nv & Nm). pose proof (eq_trans (eq_sym Ht) Ht') as Et. injection Et as <-. clear Ht'.
    set (c := agg_name a) in *. assert (Ec : ch_name (e_chan e) = c) by (unfold c, agg_name; by rewrite H2).
    assert (Hkin : a ∈ tc_in (make_transitions m) -> ch_kind (e_chan e) = KIn). { intros Hi. rewrite <- H2. apply (proj1 (agg_split m a)) in Hi. apply Hi. }
    destruct (C55_process cfg types (map_to_list types) ltac:(done)) as (_ & _ & _ & Ecx & _). pose proof (Ecx c t Ht) as Hc. set (o := default [] (last_override cfg c)) in *.
    assert (Hovr : o <> [] -> override_of cfg c o). { intros N. unfold o in *. destruct (last_override cfg c) as [o'|] eqn:Eo; [|done]. by apply override_last. }
    destruct (C74_header v ctx Hr) as (h' & Eh & _ & Hmacs & Hfuns). rewrite (header_read v ctx (readable_good ctx Hr)) in Eh. injection Eh as <-.
    change (chan_text c t) with (if decide (o = []) then match v with VRos => lit "std_msgs::String" | _ => std_type t end else o) in Nv, Nm.
    set (w := if decide (o = []) then match v with VRos => lit "std_msgs::String" | _ => std_type t end else o) in *.
    exists t, (text_type w). split; [done|]. assert (CO : chan_ok u h v c t (text_type w)).
    { split; [exact Nv|exact Nm|..].
      - eapply find_hfun_in; [apply header_nodup|]. apply (Hfuns _ _ _ (lit "msg") (if decide (o = []) then Some (cv_from v t) else None)). exists c, t, o. split; [done|]. left. split_and!; try done. destruct (decide (o = [])); [right|left]; [|done]. split; [done|by eexists].
      - eapply find_hfun_in; [apply header_nodup|]. apply (Hfuns _ _ _ (lit "value") (if decide (o = []) then Some (cv_to v t) else None)). exists c, t, o. split; [done|]. right. split_and!; try done. destruct (decide (o = [])); [right|left]; [|done]. split; [done|by eexists].
      - destruct (std_not_ptr (std_type t)) as [S1 S2]; [tauto|]. unfold header_type. rewrite !(expand_out (std_type t)) by (by apply like_out). by rewrite S1.
      - done.
      - unfold w. destruct (decide (o = [])) as [Eo|No].
        + destruct v; [|by vm_compute|]; destruct Hplain as [->|[->| ->]]; by rewrite ?str_type, ?unsigned_type, ?int_type.
        + pose proof (Hof e o Hk) as O4. rewrite Ec in O4. specialize (O4 (Hovr No)). by destruct v; try apply O4. }
    split; [done|]. intros Hi Nv'. unfold w. destruct (decide (o = [])) as [Eo|No].
    - assert (Er : match v with VRos => lit "std_msgs::String" | _ => std_type t end = std_type t) by (by destruct v). rewrite Er. apply (plain_printed _ _ _ _ _ _ CO).
    - pose proof (Hof e o Hk) as O4. rewrite Ec in O4. specialize (O4 (Hovr No)). destruct v; [|done|]; by apply O4, Hkin.
  Qed.
  Lemma typed_ok : overrides_able u v cfg root -> (v = VRos -> publishers_distinct root /\ topics_distinct root) -> types_ok u h items = true.
  Proof.
    intros Hof Hros. destruct (supported_gen_ok b root b' types Hg Hb Hs) as [Hok He]. destruct (gen_prog (apply_writes (b_writes b') root) m types tests Hok) as (P & HP & _).
    pose proof (text_machine b root b' types tests v Hg Hb Hs Hl Hsp Hu P HP) as HM.
    assert (Hout : forall a, a ∈ tc_out (make_transitions m) -> agg_name a ∈ out_names root).
    { intros a Ha'. apply (out_names_agg b root b' types Hg Hb Hs), elem_of_list_fmap. by exists a. }
    apply (file_ok u h v tests m types P); [..|by apply (text_nodup b root)].
    - eapply static_machine; try done. intros E. apply (Hros E).
    - done.
    - by eapply static_tests.
    - by apply macro_shape.
    - by apply chan_types.
    - intros a t _ Ht. destruct (C55_process cfg types (map_to_list types) ltac:(done)) as (_ & _ & _ & Ecx & _). eexists. by apply Ecx.
    - intros E. destruct (Hros E) as [_ Htd]. split.
      + apply NoDup_map_2.
        * destruct (C35_context_split m) as (_ & _ & _ & E' & _). cbn zeta in E'. rewrite E'. apply NoDup_filter. eapply (NoDup_fmap_1 ag_chan).
          change (ag_chan <$> ?l) with (map ag_chan l). rewrite transition_sets_chans. apply firsts_NoDup.
        * intros x y Hx Hy E'. apply (out_agg_unique _ _ _ Hok); [done|done|]. apply (td_inj _ Htd); [by apply Hout..|]. by apply app_inv_tail in E'.
      + intros Hin. apply elem_of_list_fmap in Hin as (a & E' & Ha'). apply (td_ack _ Htd (agg_name a) (Hout a Ha')).
        change (lit "input_accepted_sub") with (lit "input_accepted" ++ lit "_sub") in E'. unfold subscriber_name in E'. by apply app_inv_tail in E'.
  Qed.
End Types.

(** ** C92: every expression of main.cpp has a type *)
Theorem C92_animate_types : forall b root b' types cfg name date tests u,
  good_tree root -> build b root = Ok b' -> supported types root -> lists_tests (b_stm b') tests ->
  spellable root -> unambiguous root tests -> header_texts name date (cc_includes cfg) -> readable (process cfg types) -> no_macros types root tests ->
  names_apart types -> overrides_fit u VAnimate cfg types root ->
  exists h p, read_header (convert_text VAnimate (process cfg types)) = Some h /\
    read_cpp (main_text VAnimate name date (b_stm b') (process cfg types) tests) = Some p /\ types_ok u h p = true.
Proof.
  intros b root b' types cfg name date tests u Hg Hb Hs Hl Hsp Hu Hh Hr Hnm Hap [Hon Hof]. exists (header_items VAnimate (process cfg types)), (main_items VAnimate name (b_stm b') (process cfg types) tests).
  split; [by apply header_read, readable_good|]. split; [by apply (text_reads b root)|]. by eapply (typed_ok b root b' types cfg name).
Qed.
Print Assumptions C92_animate_types.
Theorem C92_ros_types : forall b root b' types cfg name date tests u,
  good_tree root -> build b root = Ok b' -> supported types root -> lists_tests (b_stm b') tests ->
  spellable root -> unambiguous root tests -> header_texts name date (cc_includes cfg) -> readable (process cfg types) -> no_macros types root tests ->
  topics_distinct root -> publishers_distinct root -> names_apart types -> overrides_fit u VRos cfg types root ->
  exists h p, read_header (convert_text VRos (process cfg types)) = Some h /\
    read_cpp (main_text VRos name date (b_stm b') (process cfg types) tests) = Some p /\ types_ok u h p = true.
Proof.
  intros b root b' types cfg name date tests u Hg Hb Hs Hl Hsp Hu Hh Hr Hnm Htd Hpd Hap [Hon Hof]. exists (header_items VRos (process cfg types)), (main_items VRos name (b_stm b') (process cfg types) tests).
  split; [by apply header_read, readable_good|]. split; [by apply (text_reads b root)|]. by eapply (typed_ok b root b' types cfg name).
Qed.
Print Assumptions C92_ros_types.

(** *** Concrete cases *)
Definition demo_typed (u : user_types) (v : variant) (cfg : cpp_config) (types : type_map) (root : node) (tests : list gostr) : option bool :=
  match build new_builder root with
  | Ok b =>
    let ctx := process cfg types in
    match read_header (convert_text v ctx), read_cpp (main_text v (lit "test") (lit "today") (b_stm b) ctx tests) with
    | Some h, Some p => Some (types_ok u h p)
    | _, _ => None
    end
  | _ => None
  end.
(** A type Foo that can be passed and copied, and whatever else is said. *)
Definition foo_type (values printed message : bool) : user_types := UserTypes (fun s => values && str_eqb s (lit "Foo")) (fun s => printed && str_eqb s (lit "Foo")) (fun s => message && str_eqb s (lit "Foo")).
Definition over (v : variant) (o : gostr) : cpp_config := CppConfig v (cc_includes demo_config) [(lit "c", o)] false None.
Lemma over_of v o c o' : override_of (over v o) c o' -> c = lit "c" /\ o' = o.
Proof.
  intros (l1 & l2 & E & _). assert (Hin : (c, o') ∈ cc_channels (over v o)) by (rewrite E, elem_of_app; right; left). cbn [over cc_channels] in Hin. apply elem_of_list_singleton in Hin. by injection Hin as -> ->.
Qed.
Lemma demo_of c o : ~ override_of demo_config c o.
Proof. intros (l1 & l2 & E & _). by destruct l1. Qed.
Lemma branching_apart : names_apart branching_types.
Proof.
  assert (A : forall c, is_Some (branching_types !! c) -> c = lit "c" \/ c = lit "d").
  { intros c [t Ht]. revert Ht. unfold branching_types. rewrite lookup_insert_Some, lookup_singleton_Some. intros [[<- _]|[_ [<- _]]]; auto. }
  intros x y Hx Hy. apply A in Hx as [->| ->], Hy as [->| ->]; done.
Qed.
Lemma branching_fits v u o : o = lit "Foo" -> match v with VRos => ut_messages u o = true | _ => ut_values u o = true /\ ut_printed u o = true end -> overrides_fit u v (over v o) branching_types branching.
Proof.
  intros Eo Hv. split.
  - intros e o' _ H. apply over_of in H as [_ ->]. rewrite Eo in *. split; [done|]. split; [|by vm_compute].
    intros c [t Ht]. revert Ht. unfold branching_types. rewrite lookup_insert_Some, lookup_singleton_Some. intros [[<- _]|[_ [<- _]]]; done.
  - intros e o' _ H. apply over_of in H as [_ ->]. rewrite Eo in *. change (text_type (lit "Foo")) with (TUser (lit "Foo")). destruct v; cbn [storable printed message]; naive_solver.
Qed.
Lemma branching_demo_fits u v : overrides_fit u v demo_config branching_types branching.
Proof. split; intros e o _ H; by apply demo_of in H. Qed.
Lemma over_readable v : readable (process (over v (lit "Foo")) branching_types).
Proof.
  destruct (C55_process (over v (lit "Foo")) branching_types (map_to_list branching_types) ltac:(done)) as (_ & Ei & Ed & Ec & _). split.
  - intros c t o Hc. assert (Hd : c ∈ dom branching_types) by (rewrite <- Ed; apply elem_of_dom; by eexists). apply elem_of_dom in Hd as [t' Ht']. pose proof (Ec c t' Ht') as Hc'.
    assert (o = default [] (last_override (over v (lit "Foo")) c)) as -> by (pose proof (eq_trans (eq_sym Hc) Hc') as E; by injection E).
    assert (Hcd : c = lit "c" \/ c = lit "d"). { revert Ht'. unfold branching_types. rewrite lookup_insert_Some, lookup_singleton_Some. intros [[<- _]|[_ [<- _]]]; auto. }
    destruct Hcd as [->| ->]; (split; [by apply plain_identb_ok|]); cbn; split_and!; try (by intros ?%elem_of_nil); try done; apply (bool_decide_eq_true_1 (_ ∉ _)); by vm_compute.
  - rewrite Ei. intros i ->%elem_of_list_singleton. cbn [in_src]. split_and!; apply (bool_decide_eq_true_1 (_ ∉ _)); by vm_compute.
Qed.
Example C92_witness :
  good_tree branching /\ (exists b', build new_builder branching = Ok b' /\ lists_tests (b_stm b') [lit "t"; lit "u"]) /\ supported branching_types branching /\
  spellable branching /\ unambiguous branching [lit "t"; lit "u"] /\ header_texts (lit "test") (lit "today") (cc_includes demo_config) /\
  no_macros branching_types branching [lit "t"; lit "u"] /\ topics_distinct branching /\ publishers_distinct branching /\ names_apart branching_types /\
  (readable (process demo_config branching_types) /\ forall u v, overrides_fit u v demo_config branching_types branching) /\
  (readable (process (over VAnimate (lit "Foo")) branching_types) /\ overrides_fit (foo_type true true false) VAnimate (over VAnimate (lit "Foo")) branching_types branching) /\
  (readable (process (over VRos (lit "Foo")) branching_types) /\ overrides_fit (foo_type false false true) VRos (over VRos (lit "Foo")) branching_types branching) /\
  demo_typed (foo_type true true false) VAnimate (over VAnimate (lit "Foo")) branching_types branching [lit "t"; lit "u"] = Some true /\
  demo_typed (foo_type false false true) VRos (over VRos (lit "Foo")) branching_types branching [lit "t"; lit "u"] = Some true.
Proof.
  split; [apply full_iff; vm_compute; done|]. split; [apply branching_lists|]. split; [apply supportedb_ok; vm_compute; done|].
  split; [apply branching_spellable|]. split; [apply branching_unambiguous|]. split.
  { split; [by apply safeb_ok| |intros i ->%elem_of_list_singleton]; apply (bool_decide_eq_true_1 (_ ∉ _)); by vm_compute. }
  split; [apply branching_no_macros|]. split; [apply branching_topics|]. split; [apply branching_publishers|]. split; [apply branching_apart|].
  split; [split; [apply branching_readable|intros u v; apply branching_demo_fits]|].
  split; [split; [apply over_readable|by apply branching_fits]|]. split; [split; [apply over_readable|by apply branching_fits]|].
  split; vm_compute; reflexivity.
Qed.
(** What the hypotheses on overrides are for: an input of the animate variant whose type cannot be printed, an output of it
    whose values cannot be passed on; a channel over ROS whose type is no message type, be it a type of the user's or the type that it
    would have anyway. None of these has a type, and the generator writes all of them. *)
Theorem C92_overrides_refuted :
  demo_typed (foo_type true false true) VAnimate (over VAnimate (lit "Foo")) branching_types branching [lit "t"; lit "u"] = Some false /\
  demo_typed (foo_type false true true) VAnimate (CppConfig VAnimate (cc_includes demo_config) [(lit "d", lit "Foo")] false None) branching_types branching [lit "t"; lit "u"] = Some false /\
  demo_typed (foo_type true true false) VRos (over VRos (lit "Foo")) branching_types branching [lit "t"; lit "u"] = Some false /\
  demo_typed (foo_type true true true) VRos (over VRos (lit "unsigned int")) branching_types branching [lit "t"; lit "u"] = Some false.
Proof. split_and!; vm_compute; reflexivity. Qed.
Print Assumptions C92_overrides_refuted.
