(** * The text of main.cpp for built machines can be read *)
From Verif Require Export MainLex3 SpecMain CppCheck BuiltProofs.
From Verif Require Export StmProofs.

(** What the templates need of names, after labelling. *)
Record spelled (T : node) : Prop := {
  sd_id : forall p n, node_at T p = Some n -> identifier (n_id n);
  sd_test : forall p n t, node_at T p = Some n -> t ∈ n_tests n -> plain_ident t;
  sd_chan : forall e, tree_event T e -> identifier (ch_name (e_chan e));
}.
Lemma step_id_ident k : identifier (step_id k).
Proof.
  unfold step_id. split.
  - apply Forall_app. split; [by repeat constructor|]. destruct (format_N_spec k) as (_ & Hf & _). unfold all_digits in Hf.
    apply Forall_forall. intros c Hc. rewrite Forall_forall in Hf. specialize (Hf c Hc). unfold ident_char. rewrite Hf. by rewrite !orb_true_r || by rewrite orb_true_r.
  - by eexists _, _.
Qed.
Lemma labelled_ids b root b' : good_tree root -> build b root = Ok b' ->
  (forall p n, p <> [] -> node_at root p = Some n -> n_id n <> [] -> identifier (n_id n)) ->
  forall p n, node_at (apply_writes (b_writes b') root) p = Some n -> identifier (n_id n).
Proof.
  intros Hg Hb Hs p n Hn. destruct (build_full b root Hg) as (num & T & ws & Hl & Hw & HgT & He & Hi & Hlab & Hb').
  rewrite Hb' in Hb. destruct (unify_inner (tree_types T) ∅) as [types|x|]; try discriminate. injection Hb as <-.
  cbn [b_writes] in Hn. rewrite Hw in Hn. destruct p as [|i p].
  { injection Hn as <-. rewrite Hi. split; [by repeat constructor|by eexists _, _]. }
  destruct (lab_ids _ _ _ _ Hl) as (_ & ks & Hp & _).
  assert (below_ids (set_id (lit "initial") root) = below_ids root) as E by (by destruct root). rewrite E in Hp.
  assert (Hin : n_id n ∈ below_ids T) by (apply below_ids_elem; by exists (i :: p), n).
  rewrite Hp in Hin. apply elem_of_app in Hin as [Hin|Hin].
  - apply elem_of_list_filter in Hin as [Hne Hin]. apply below_ids_elem in Hin as (q & m & Hq & Hm & E2). rewrite <- E2 in *. by apply (Hs q m).
  - apply elem_of_list_fmap in Hin as (k & -> & _). apply step_id_ident.
Qed.
Lemma spellable_spelled b root b' : good_tree root -> build b root = Ok b' -> spellable root -> spelled (apply_writes (b_writes b') root).
Proof.
  intros Hg Hb [H1 H2 H3]. destruct (build_states _ _ _ Hg Hb) as (_ & _ & _ & He & _). split.
  - by apply (labelled_ids b root b').
  - intros p n t Hn Ht. destruct (erase_node_at _ _ _ _ He Hn) as (m & Hm & Hmn). apply (H2 p m t Hm).
    destruct (erase_fields m) as (A & _), (erase_fields n) as (A' & _). rewrite Hmn in *. congruence.
  - intros e Hte. apply H3. by apply (erase_tree_event _ _ _ He).
Qed.
Lemma expressible_text t v : expressible t v -> text_value v.
Proof. destruct v as [[z|s]|]; [done| |done]. intros (_ & H1 & H2 & H3 & _). by split_and!. Qed.
Lemma plain_outcome o : (forall n, o <> OBad n) -> plain_ident (outcome_enum o).
Proof.
  intros H. destruct o as [| | | |n]; [| | | |by destruct (H n)];
    (split; [split; [by repeat constructor|by eexists _, _]|by vm_compute]).
Qed.
Lemma good_outcome T p n : good_tree T -> node_at T p = Some n -> forall k, n_outcome n <> OBad k.
Proof.
  intros [(_ & E & _) Hg] Hn k. destruct p as [|i p]; [injection Hn as <-; congruence|].
  destruct (Hg (i :: p) n ltac:(done) Hn) as [_ [(H & _)|[(H & _)|(H & _)]]]; congruence.
Qed.
Lemma kid_at T p n k : node_at T p = Some n -> k ∈ n_next n -> exists q, node_at T q = Some k.
Proof. intros Hp Hk. apply elem_of_list_lookup in Hk as [j Hj]. exists (p ++ [j]). by rewrite (node_at_snoc _ _ _ _ Hp). Qed.
Lemma built_main_ok T m types (ctx : cctx) name date tests : gen_ok T m types -> spelled T ->
  (forall c t, types !! c = Some t -> is_Some (cx_types ctx !! c)) ->
  body_ok name -> byte 10 ∉ (date : list ascii) -> (forall i, i ∈ cx_includes ctx -> byte 10 ∉ (in_src i : list ascii)) -> Forall plain_ident tests ->
  main_ok name date m ctx tests.
Proof.
  intros Hok [S1 S2 S3] Hctx Hn Hd Hi Ht. pose proof Hok as [Hg Hs Hcd Hv Hk Hty].
  assert (Hev : forall p n e k, live_at T p n -> (e, k) ∈ live_succs n -> identifier (ch_name (e_chan e)) /\ text_value (e_value e) /\ identifier (n_id k) /\ is_Some (cx_types ctx !! ch_name (e_chan e))).
  { intros p n e k Hpn Hek. pose proof (live_succs_event _ _ _ _ _ Hpn Hek) as He. destruct (Hty e He) as (t & Ht1 & Ht2). split; [by apply S3|]. split; [by eapply expressible_text|].
    split; [|by eapply Hctx]. apply CppProofs.live_succs_elem in Hek as (Hin & _). destruct (kid_at _ _ _ _ (proj1 Hpn) Hin) as [q Hq]. by apply (S1 q). }
  assert (Hout : forall a s ts, a ∈ tc_out (make_transitions m) -> (s, ts) ∈ range_map (ag_states a) ->
    exists p n, live_at T p n /\ n_id n = s /\ ts <> [] /\ forall t, t ∈ ts -> exists e k, (e, k) ∈ live_succs n /\ t = Transition (e_value e) (n_id k)).
  { intros a s ts Ha Hin. apply CppProofs.range_map_elem in Hin. destruct (out_agg_elem T m Hg Hs a Ha) as (Ha' & _).
    destruct (proj1 (transition_sets_keys m a s Ha') ltac:(by eexists)) as (st & Hst & Hid & Hc). pose proof Hst as Hst'.
    apply (m_state_elem T) in Hst as (p & n & Hpn & ->); [|done|done]. rewrite state_of_id in Hid. exists p, n. split; [done|]. split; [done|].
    pose proof (C34_aggregation_per_state m a (state_of n) (case_distinct_ids m Hcd) Ha' Hst') as Hget. rewrite state_of_id, Hid in Hget.
    rewrite (sf_trans _ _ (state_of_for n)) in Hget. unfold sm_get in Hget. rewrite Hin in Hget. cbn in Hget. split.
    - apply state_chan_elem in Hc as (e & k & Hek & Hc). intros ->. symmetry in Hget. apply map_eq_nil in Hget.
      assert (Hx : (e, k) ∈ filter (fun ek => e_chan ek.1 = ag_chan a) (live_succs n)) by (by apply elem_of_list_filter). rewrite Hget in Hx. by apply elem_of_nil in Hx.
    - intros t Hin'. rewrite Hget in Hin'. apply elem_of_list_fmap in Hin' as ([e k] & -> & Hek). apply elem_of_list_filter in Hek as [_ Hek]. by exists e, k. }
  split; try done.
  - intros s Hin. apply (m_state_elem T) in Hin as (p & n & Hpn & ->); [|done|done]. split_and!.
    + rewrite state_of_id. by apply (S1 p), Hpn.
    + intros t o Hto. apply CppProofs.range_map_elem in Hto. rewrite state_says in Hto. pose proof (says_named _ _ _ Hto) as Hnm. unfold says in Hto.
      destruct (last _) as [k|] eqn:El; [|done]. injection Hto as <-. apply last_Some_elem_of, elem_of_list_filter in El as [Htk Hk'].
      destruct (kid_at _ _ _ _ (proj1 Hpn) Hk') as [q Hq]. split; [by apply (S2 q k)|]. apply plain_outcome. by apply (good_outcome T q).
    + intros ts t Hts Htr. destruct (state_for_transitions _ _ _ _ (state_of_for n) Hts Htr) as ([e k] & Hek & Hc & ->). cbn in Hc. rewrite <- Hc. cbn.
      destruct (Hev _ _ _ _ Hpn Hek) as (H1 & H2 & H3 & _). done.
  - rewrite Hs, rlist_eq, decide_False by (by destruct (good_live T Hg)). done.
  - split.
    + intros a Ha. destruct (C35_context_split m) as (_ & _ & E & _). cbn zeta in E. rewrite E in Ha. apply elem_of_list_filter in Ha as [_ Ha].
      assert (Hc : ag_chan a ∈ map ag_chan (transition_sets m)) by (apply elem_of_list_fmap; by exists a).
      rewrite transition_sets_chans, firsts_elem in Hc. apply elem_of_list_In, in_concat in Hc as (l & Hl & Hc).
      apply in_map_iff in Hl as (s & <- & Hin). apply elem_of_list_In in Hin, Hc. apply (m_state_elem T) in Hin as (p & n & Hpn & ->); [|done|done].
      apply state_chan_elem in Hc as (e & k & Hek & Hc). unfold agg_name. rewrite <- Hc. by apply (Hev p n e k).
    + intros a Ha. destruct (out_agg_elem T m Hg Hs a Ha) as (_ & _ & p & n & e & k & Hpn & Hek & Hc). unfold agg_name. rewrite <- Hc. by apply (Hev p n e k).
    + intros s ts Hin. apply CppProofs.range_map_elem in Hin. apply (merged_spec T m types Hok) in Hin as (p & n & i & k & e & Hpn & <- & _ & Hk' & _ & ->).
      split; [by apply (S1 p), Hpn|]. intros t ->%elem_of_list_singleton. cbn. apply elem_of_list_lookup_2 in Hk'. destruct (kid_at _ _ _ _ (proj1 Hpn) Hk') as [q Hq]. by apply (S1 q).
    + intros a s ts Ha Hin. destruct (Hout a s ts Ha Hin) as (p & n & Hpn & <- & _ & Htr). split; [by apply (S1 p), Hpn|]. intros t Hin'. destruct (Htr t Hin') as (e & k & Hek & ->). cbn.
      destruct (Hev _ _ _ _ Hpn Hek) as (H1 & H2 & H3 & _). done.
  - intros a s ts Ha Hin. by destruct (Hout a s ts Ha Hin) as (p & n & _ & _ & H & _).
  - intros a Ha. destruct (out_agg_elem T m Hg Hs a Ha) as (_ & _ & p & n & e & k & Hpn & Hek & Hc). unfold agg_name. rewrite <- Hc. by apply (Hev p n e k).
Qed.
