(** * Property C46: generated programs refer only to what they declare *)
From Verif Require Export PropCppRun.
From Verif Require Export StmProofs.

(** The cases of an output callback. *)
Lemma out_cases_elem T m types a c : gen_ok T m types -> a ∈ tc_out (make_transitions m) -> c ∈ oc_cases (gen_out a) ->
  exists p n, live_at T p n /\ c = (enum_field (n_id n), chain_of (out_succs (ag_chan a) n)) /\ out_succs (ag_chan a) n <> [].
Proof.
  intros [Hg Hs Hd Hv Hk _] Ha Hc. destruct (out_agg_elem T m Hg Hs a Ha) as (Ha' & Hka & _).
  cbn [gen_out oc_cases] in Hc. apply elem_of_list_fmap in Hc as ([id ts] & -> & Hr). apply range_map_elem in Hr.
  destruct (proj1 (transition_sets_keys m a id Ha') ltac:(by eexists)) as (s & Hs1 & Hid & Hch).
  pose proof Hs1 as Hs2. apply (m_state_elem T) in Hs2 as (p & n & Hn & ->); [|done|done]. rewrite state_of_id in Hid. subst id.
  exists p, n. split; [done|].
  pose proof (C34_aggregation_per_state m a (state_of n) (case_distinct_ids m Hd) Ha' Hs1) as Hget. rewrite state_of_id in Hget.
  rewrite (sf_trans _ _ (state_of_for n)) in Hget. fold (out_succs (ag_chan a) n) in Hget. unfold sm_get in Hget. rewrite Hr in Hget. cbn in Hget. subst ts.
  split.
  - cbn. f_equal. unfold chain_of. by rewrite map_map.
  - apply state_chan_elem in Hch as (e & k & Hek & Hc'). intros E.
    assert ((e, k) ∈ out_succs (ag_chan a) n) as Hx by (by apply elem_of_list_filter). rewrite E in Hx. by apply elem_of_nil in Hx.
Qed.
Lemma out_cases_NoDup T m types a : gen_ok T m types -> a ∈ tc_out (make_transitions m) -> NoDup (oc_cases (gen_out a)).*1.
Proof.
  intros Hok Ha. pose proof Hok as [Hg Hs Hd Hv Hk _]. destruct (out_agg_elem T m Hg Hs a Ha) as (Ha' & _).
  cbn [gen_out oc_cases]. rewrite <- list_fmap_compose. apply NoDup_map_2; [apply (NoDup_fmap_1 fst), range_map_NoDup|].
  intros [k1 x1] [k2 x2] H1 H2 E. cbn in E. apply range_map_elem in H1, H2.
  assert (forall k, is_Some (ag_states a !! k) -> exists p n, live_at T p n /\ n_id n = k) as Hex.
  { intros k Hsome. destruct (proj1 (transition_sets_keys m a k Ha') Hsome) as (s & Hs1 & <- & _).
    apply (m_state_elem T) in Hs1 as (p1 & n1 & Hn1 & ->); [|done|done]. exists p1, n1. by rewrite state_of_id. }
  destruct (Hex k1 ltac:(by eexists)) as (p1 & n1 & Hn1 & <-). destruct (Hex k2 ltac:(by eexists)) as (p2 & n2 & Hn2 & <-).
  destruct (live_unique T m Hg Hs Hd _ _ _ _ Hn1 Hn2 E) as [_ ->]. congruence.
Qed.

Lemma gen_well_declared T m types tests P : gen_ok T m types -> is_prog T m types tests P -> NoDup tests ->
  (forall s t, s ∈ m_states m -> is_Some (st_verdict s !! t) -> t ∈ tests) ->
  well_declared P /\ literals_ok P.
Proof.
  intros Hok HP Hnd Hver. pose proof Hok as [Hg Hs Hd Hv Hk Hty].
  assert (Hstate : forall p n, live_at T p n -> enum_field (n_id n) ∈ p_enum P).
  { intros p n Hn. rewrite (pg_enum _ _ _ _ _ HP). apply elem_of_list_fmap. exists (state_of n). rewrite state_of_id. split; [done|].
    apply (m_state_elem T); [done|done|]. by exists p, n. }
  assert (Hentry : forall p n, live_at T p n -> state_entry (n_id n) ∈ map en_name (p_entries P)).
  { intros p n Hn. rewrite (pg_entries _ _ _ _ _ HP). apply elem_of_list_fmap. exists (gen_entry (state_of n)). cbn. rewrite state_of_id. split; [done|].
    apply elem_of_list_fmap. exists (state_of n). split; [done|]. apply (m_state_elem T); [done|done|]. by exists p, n. }
  assert (Hent : forall e, e ∈ p_entries P -> exists p n, live_at T p n /\ e = gen_entry (state_of n)).
  { intros e He. rewrite (pg_entries _ _ _ _ _ HP) in He. apply elem_of_list_fmap in He as (s & -> & Hin).
    apply (m_state_elem T) in Hin as (p & n & Hn & ->); [|done|done]. by exists p, n. }
  assert (Hout : forall o, o ∈ p_outs P -> exists a, a ∈ tc_out (make_transitions m) /\ o = gen_out a).
  { intros o Ho. rewrite (pg_outs _ _ _ _ _ HP) in Ho. apply elem_of_list_fmap in Ho as (a & -> & Ha). by exists a. }
  pose proof (good_live T Hg) as Hroot.
  assert (Hkid : forall p n c e k, live_at T p n -> (e, k) ∈ out_succs c n -> exists q, live_at T q k).
  { intros p n c e k Hn Hek. unfold out_succs in Hek. apply elem_of_list_filter in Hek as [_ Hek]. apply live_succs_elem in Hek as (Hin & Ho & _).
    apply elem_of_list_lookup in Hin as [i Hi]. exists (p ++ [i]). by apply (live_kid T p n). }
  split; [split|].
  - by rewrite (pg_tests _ _ _ _ _ HP).
  - rewrite (pg_enum _ _ _ _ _ HP). exact Hd.
  - rewrite (pg_entries _ _ _ _ _ HP), map_map. cbn. unfold case_distinct in Hd.
    apply NoDup_map_2; [by apply (NoDup_fmap_1 (fun s => to_upper (st_id s)))|].
    intros s1 s2 H1 H2 E. apply state_entry_upper in E. by apply (NoDup_map_inj (fun s => to_upper (st_id s)) (m_states m)).
  - rewrite (pg_outs _ _ _ _ _ HP), map_map. apply (NoDup_map_2 (fun x => oc_name (gen_out x))).
    + destruct (C35_context_split m) as (_ & _ & _ & E & _). cbn zeta in E. rewrite E. apply NoDup_filter.
      apply (NoDup_fmap_1 ag_chan). apply C34_aggregation_complete.
    + intros a a' Ha Ha' E. cbn [gen_out oc_name] in E. unfold callback_name in E. apply app_inv_tail in E. by apply (out_agg_unique T m types Hok).
  - intros f Hf. unfold used_entries in Hf. apply elem_of_cons in Hf as [->|Hf].
    { rewrite (pg_initial _ _ _ _ _ HP). by apply (Hentry []). }
    apply elem_of_app in Hf as [Hf|Hf].
    + pose proof (pg_accept _ _ _ _ _ HP) as Hacc. destruct (p_accept P) as [cs|]; cbn in Hf; [|by apply elem_of_nil in Hf].
      apply elem_of_list_fmap in Hf as ([s f'] & -> & Hin). apply Hacc in Hin as (p & n & i & k & Hn & Hi & Hk' & _ & ->).
      pose proof (next_input_spec n (Hv p n (proj1 Hn) (proj2 Hn))) as Hsp. rewrite Hi in Hsp. destruct Hsp as (e & k' & Hk2 & Ho & _).
      assert (k' = k) as -> by congruence. apply (Hentry (p ++ [i])). by apply (live_kid T p n).
    + apply elem_of_list_In, in_concat in Hf as (l & Hl & Hf). apply in_map_iff in Hl as (o & <- & Ho). apply elem_of_list_In in Ho.
      destruct (Hout o Ho) as (a & Ha & ->). apply in_concat in Hf as (l & Hl & Hf). apply in_map_iff in Hl as (c & <- & Hc). apply elem_of_list_In in Hc.
      destruct (out_cases_elem T m types a c Hok Ha Hc) as (p & n & Hn & -> & _). cbn in Hf. apply in_map_iff in Hf as ([g f'] & <- & Hgf).
      apply in_map_iff in Hgf as ([e k] & [= <- <-] & Hek). apply elem_of_list_In in Hek. cbn.
      destruct (Hkid p n _ e k Hn Hek) as [q Hq]. by apply (Hentry q).
  - intros s Hst. unfold used_states in Hst. apply elem_of_cons in Hst as [->|Hst].
    { rewrite (pg_state0 _ _ _ _ _ HP). by apply (Hstate []). }
    apply elem_of_app in Hst as [Hst|Hst]; [|apply elem_of_app in Hst as [Hst|Hst]].
    + apply elem_of_list_fmap in Hst as (e & -> & He). destruct (Hent e He) as (p & n & Hn & ->). cbn. rewrite state_of_id. by apply (Hstate p).
    + pose proof (pg_accept _ _ _ _ _ HP) as Hacc. destruct (p_accept P) as [cs|]; cbn in Hst; [|by apply elem_of_nil in Hst].
      apply elem_of_list_fmap in Hst as ([s' f'] & -> & Hin). apply Hacc in Hin as (p & n & i & k & Hn & _ & _ & -> & _). by apply (Hstate p).
    + apply elem_of_list_In, in_concat in Hst as (l & Hl & Hf). apply in_map_iff in Hl as (o & <- & Ho). apply elem_of_list_In in Ho.
      destruct (Hout o Ho) as (a & Ha & ->). apply in_map_iff in Hf as (c & <- & Hc). apply elem_of_list_In in Hc.
      destruct (out_cases_elem T m types a c Hok Ha Hc) as (p & n & Hn & -> & _). by apply (Hstate p).
  - intros e t o He Ht. destruct (Hent e He) as (p & n & Hn & ->). cbn in Ht. apply elem_of_list_fmap in Ht as ([t' o'] & [= -> ->] & Hr).
    apply range_map_elem in Hr. split.
    + rewrite (pg_tests _ _ _ _ _ HP). apply (Hver (state_of n)); [apply (m_state_elem T); [done|done|by exists p, n]|by eexists].
    + rewrite (sf_verdict _ _ (state_of_for n)) in Hr. destruct (last _) as [k|] eqn:El; [|done]. cbn in Hr. injection Hr as <-.
      apply PropCpp.last_filter_Some in El as (i & Hi & _). destruct Hg as [_ Hg].
      assert (Hgk : good_node k) by (apply (Hg (p ++ [i])); [by destruct p|]; by rewrite node_at_app, (proj1 Hn); cbn; rewrite Hi).
      destruct Hgk as [_ [(-> & _)|[(-> & _)|(-> & _)]]]; cbn; [do 3 right; left|right; left|do 2 right; left].
  - intros l Hl. pose proof (pg_accept _ _ _ _ _ HP) as Hacc. rewrite Hl in Hacc. by destruct Hacc.
  - intros o Ho. destruct (Hout o Ho) as (a & Ha & ->). by apply (out_cases_NoDup T m types).
  - intros o c Ho Hc. destruct (Hout o Ho) as (a & Ha & ->). destruct (out_cases_elem T m types a c Hok Ha Hc) as (p & n & Hn & -> & Hne).
    cbn. unfold chain_of. by destruct (out_succs (ag_chan a) n).
  - split.
    + intros o c g f Ho Hc Hgf. destruct (Hout o Ho) as (a & Ha & ->). destruct (out_cases_elem T m types a c Hok Ha Hc) as (p & n & Hn & -> & _).
      cbn in Hgf. unfold chain_of in Hgf. apply elem_of_list_fmap in Hgf as ([e k] & [= -> ->] & Hek).
      pose proof Hek as Hek'. unfold out_succs in Hek'. apply elem_of_list_filter in Hek' as [Hce Hek']. cbn in Hce.
      destruct (Hty e (live_succs_event T p n e k Hn Hek')) as (t & Ht & Hex). rewrite Hce in Ht. exists t. rewrite (pg_types _ _ _ _ _ HP). split; [done|].
      cbn [fst]. destruct (e_value e) as [x|]; [|done]. pose proof (cpp_lit_value t x Hex) as Hl.
      unfold gen_guard, cpp_value in *. destruct x as [z|s'].
      * assert (is_enum_ty (value_type (Some (IntV z))) = false) as E by (cbn; by destruct (0 <=? z)%Z). rewrite E in *.
        split; [|by eexists]. destruct Hex as [[[-> _]| ->] _]; [by left|by right].
      * change (is_enum_ty (value_type (Some (EnumV s')))) with true in *. cbn iota in *. destruct Hex as [-> _]. split; [done|by eexists].
    + intros e ch l He Hact. destruct (Hent e He) as (p & n & Hn & ->). cbn in Hact.
      destruct (verdict_is OFail (st_verdict (state_of n))); [done|]. pose proof (Hv p n (proj1 Hn) (proj2 Hn)) as Hvs.
      rewrite (state_has_in_spec n Hvs), (state_in_spec n Hvs) in Hact. pose proof (next_input_spec n Hvs) as Hsp.
      destruct (next_input n) as [i|]; [|by rewrite bool_decide_eq_false_2 in Hact by (by intros [? ?])].
      destruct Hsp as (e & k & Hi & Ho & Hev & Hki & Hl). rewrite bool_decide_eq_true_2 in Hact by (by eexists). cbn [mbind option_bind] in Hact.
      rewrite Hi, Hev in Hact. cbn in Hact. injection Hact as <- <-.
      destruct (Hty e) as (t & Ht & Hex); [apply (live_succs_event T p n e k Hn); rewrite Hl; by left|].
      destruct (e_value e) as [x|]; [|done]. exists t, x. rewrite (pg_types _ _ _ _ _ HP). split; [done|]. split; [by apply (cpp_lit_value t)|].
      destruct (pass_expressible types _ t x Ht Hex) as (w & Hw & _). by exists w.
Qed.

(** C46: in the program generated for a validated, supported tree every function, state and
    setter used is declared exactly once, no switch has two equal cases, and every literal has
    the type it is compared with or sent as. *)
Theorem C46_well_declared : forall b root b' types tests,
  good_tree root -> build b root = Ok b' -> supported types root -> lists_tests (b_stm b') tests ->
  exists P, gen_program (b_stm b') types tests = Some P /\ well_declared P /\ literals_ok P.
Proof.
  intros b root b' types tests Hg Hb Hs [Hnd Hin]. destruct (supported_gen_ok b root b' types Hg Hb Hs) as [Hok He].
  set (T := apply_writes (b_writes b') root) in *.
  destruct (gen_prog T (b_stm b') types tests Hok) as (P & HP & Hprog). exists P. split; [done|].
  apply (gen_well_declared T (b_stm b') types tests); [done|done|done|].
  intros s t H1 H2. apply Hin. by apply (proj2 (C28_recorded_tests b root b' Hg Hb) s t).
Qed.
Print Assumptions C46_well_declared.

Example C46_witness : good_tree branching /\ supported branching_types branching /\
  exists b' P, build new_builder branching = Ok b' /\ gen_program (b_stm b') branching_types [lit "t"; lit "u"] = Some P /\
    length (p_entries P) = 5 /\ map oc_name (p_outs P) = [lit "dCallback"] /\
    map en_name (p_entries P) = [lit "enterInitial"; lit "enterStep0"; lit "enterStep2"; lit "enterStep3"; lit "enterStep1"].
Proof.
  split; [apply full_iff; vm_compute; done|]. split; [apply supportedb_ok; vm_compute; done|].
  eexists _, _. split; [vm_compute; reflexivity|]. split; [vm_compute; reflexivity|]. split; [vm_compute; reflexivity|]. split; vm_compute; reflexivity.
Qed.

(** Without the hypotheses it fails: an output and a call on the same channel give two
    callbacks of the same name, ... *)
Definition out_and_call : forbidden :=
  Forbidden [] [Event (Channel (lit "c") KOut) (Some (IntV 1))] (Event (Channel (lit "c") KCall) (Some (IntV 1))).
Theorem C46_out_and_call_refuted : exists b' P,
  build new_builder (expand out_and_call (lit "t")) = Ok b' /\ gen_program (b_stm b') int_types [lit "t"] = Some P /\ ~ well_declared P.
Proof.
  eexists _, _. split; [vm_compute; reflexivity|]. split; [vm_compute; reflexivity|].
  intros H. pose proof (wd_callbacks _ H) as Hn. cbn in Hn. apply NoDup_cons in Hn as [Hn _]. apply Hn. left.
Qed.
(** ... identifiers that differ only in letter case give the same state constant, ... *)
Definition case_clash : node :=
  Node [] [lit "t"] OUnset None
    [Node (lit "a") [lit "t"] OInc (Some (Event (Channel (lit "c") KOut) (Some (IntV 1))))
       [Node (lit "A") [lit "t"] OPass (Some (Event (Channel (lit "c") KOut) (Some (IntV 2)))) [Node [] [lit "t"] OFail None []]]].
Theorem C46_case_clash_refuted : exists b' P, good_tree case_clash /\
  build new_builder case_clash = Ok b' /\ gen_program (b_stm b') int_types [lit "t"] = Some P /\ ~ well_declared P.
Proof.
  eexists _, _. split; [apply full_iff; vm_compute; done|]. split; [vm_compute; reflexivity|]. split; [vm_compute; reflexivity|].
  intros H. pose proof (wd_enum _ H) as Hn. cbn in Hn. apply NoDup_cons in Hn as [_ Hn]. apply NoDup_cons in Hn as [Hn _]. apply Hn. left.
Qed.
(** ... and an output without a value is compared with nothing. *)
Definition valueless : forbidden := Forbidden [] [] (Event (Channel (lit "c") KOut) None).
Definition empty_types : type_map := {[ lit "c" := ty_empty ]}.
Theorem C46_valueless_refuted : exists b' P,
  build new_builder (expand valueless (lit "t")) = Ok b' /\ gen_program (b_stm b') empty_types [lit "t"] = Some P /\ ~ literals_ok P.
Proof.
  eexists _, _. split; [vm_compute; reflexivity|]. split; [vm_compute; reflexivity|].
  intros [H _]. edestruct H as (t & _ & Ht); [cbn; left|cbn; left|cbn; left|]. cbn in Ht. destruct Ht as [_ [z Hz]]. vm_compute in Hz. discriminate.
Qed.

(** The members of the Verdict class (verdict.cpp.tmpl:9-18): a setter and a field for each
    test.  They are distinct exactly if no test is called like another one with an underscore
    appended. *)
Definition verdict_members (tests : list gostr) : list gostr := tests ++ map (fun t => t ++ lit "_") tests.
Theorem C46_verdict_members : forall tests, NoDup tests ->
  (NoDup (verdict_members tests) <-> forall t, t ∈ tests -> t ++ lit "_" ∉ tests).
Proof.
  intros tests Hnd. unfold verdict_members. rewrite NoDup_app. split.
  - intros (_ & H & _) t Ht Hin. apply (H _ Hin). apply elem_of_list_fmap. by exists t.
  - intros H. split; [done|]. split.
    + intros t Ht Hin. apply elem_of_list_fmap in Hin as (t' & -> & Ht'). by apply (H t').
    + apply NoDup_map_2; [done|]. intros x y _ _ E. by apply app_inv_tail in E.
Qed.
Print Assumptions C46_verdict_members.
Example C46_verdict_members_witness : ~ NoDup (verdict_members [lit "a"; lit "a_"]) /\ NoDup (verdict_members [lit "a"; lit "b"]).
Proof.
  split; [|apply (bool_decide_unpack _); vm_compute; exact I].
  intros H. assert (Hd : bool_decide (NoDup (verdict_members [lit "a"; lit "a_"])) = true) by (by apply bool_decide_eq_true). vm_compute in Hd. discriminate.
Qed.
