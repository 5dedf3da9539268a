(** * Built machines are keepable by JSON *)
From Verif Require Export CodecProofs BuildProofs MachineProofs.
From Verif Require Export StmProofs.

Lemma safe_node_fields n : safe_node n ->
  valid_utf8 (n_id n) /\ Forall valid_utf8 (n_tests n) /\ valid_outcome (n_outcome n) /\
  (forall e, n_event n = Some e -> safe_event e) /\ forall c, c ∈ n_next n -> safe_node c.
Proof.
  destruct n as [i ts o e next]. cbn. intros (H1 & H2 & H3 & H4 & H5). split_and!; try done.
  - intros e' ->. done.
  - intros c Hc. apply foldr_and_Forall in H5. rewrite Forall_forall in H5. by apply H5.
Qed.
Lemma safe_node_at p : forall n m, safe_node n -> node_at n p = Some m -> safe_node m.
Proof.
  induction p as [|i p IH]; intros n m Hn Hm; [by injection Hm as <-|].
  cbn in Hm. destruct n as [j ts o e next]. cbn in Hm.
  destruct (next !! i) as [c|] eqn:E; [|done]. cbn in Hm. apply (IH c); [|done].
  apply safe_node_fields in Hn as (_ & _ & _ & _ & H). apply H. by eapply elem_of_list_lookup_2.
Qed.
Lemma step_id_valid k : valid_utf8 (step_id k).
Proof.
  unfold step_id. apply valid_utf8_app; [by apply lit_valid|]. apply lit_valid, forallb_forall. intros c Hc.
  assert (Hd : is_digit c = true).
  { destruct (format_N_spec k) as (_ & Hf & _). unfold all_digits in Hf. rewrite Forall_forall in Hf. apply Hf. by apply elem_of_list_In. }
  unfold is_digit, is_ascii in *. apply andb_prop in Hd as [_ Hd]. apply N.leb_le in Hd. apply N.ltb_lt. lia.
Qed.

(** The identifiers after building are valid. *)
Lemma built_ids b root b' : good_tree root -> build b root = Ok b' -> safe_node root ->
  forall p n, node_at (apply_writes (b_writes b') root) p = Some n -> valid_utf8 (n_id n).
Proof.
  intros Hg Hb Hs p n Hn. destruct (build_full b root Hg) as (num & T & ws & Hl & Hw & HgT & He & Hi & Hlab & Hb').
  rewrite Hb' in Hb. destruct (unify_inner (tree_types T) ∅) as [types|x|]; try discriminate. injection Hb as <-.
  cbn [b_writes] in Hn. rewrite Hw in Hn.
  destruct p as [|i p].
  { injection Hn as <-. rewrite Hi. by apply lit_valid. }
  destruct (lab_ids _ _ _ _ Hl) as (_ & ks & Hp & _).
  assert (below_ids (set_id (lit "initial") root) = below_ids root) as E by (by destruct root). rewrite E in Hp.
  assert (Hin : n_id n ∈ below_ids T) by (apply below_ids_elem; by exists (i :: p), n).
  rewrite Hp in Hin. apply elem_of_app in Hin as [Hin|Hin].
  - apply elem_of_list_filter in Hin as [_ Hin]. apply below_ids_elem in Hin as (q & m & _ & Hm & <-).
    by apply (safe_node_at _ _ _ Hs), safe_node_fields in Hm as [? _].
  - apply elem_of_list_fmap in Hin as (k & -> & _). apply step_id_valid.
Qed.

Lemma built_node b root b' : good_tree root -> build b root = Ok b' -> safe_node root ->
  forall p n, node_at (apply_writes (b_writes b') root) p = Some n ->
    valid_utf8 (n_id n) /\ Forall valid_utf8 (n_tests n) /\ valid_outcome (n_outcome n) /\
    forall e, n_event n = Some e -> safe_event e.
Proof.
  intros Hg Hb Hs p n Hn. split; [by eapply built_ids|].
  destruct (build_states _ _ _ Hg Hb) as (_ & _ & _ & He & _).
  destruct (erase_node_at _ _ _ _ He Hn) as (m & Hm & Hmn).
  apply (safe_node_at _ _ _ Hs), safe_node_fields in Hm as (_ & H1 & H2 & H3 & _).
  destruct (erase_fields m) as (A & B & C & _), (erase_fields n) as (A' & B' & C' & _).
  rewrite Hmn in *. split_and!.
  - congruence.
  - congruence.
  - intros e E. apply H3. congruence.
Qed.

(** The transitions of a state, without its channel sets. *)
Lemma state_for_transitions n s ts t : state_for n s -> ts ∈ st_tsets s -> t ∈ ts_trans ts ->
  exists ek, ek ∈ live_succs n /\ e_chan ek.1 = ts_chan ts /\ t = Transition (e_value ek.1) (n_id ek.2).
Proof.
  intros [_ Ht _ _] Hts Htr. specialize (Ht (ts_chan ts)).
  assert (Hin : t ∈ trans_on s (ts_chan ts)).
  { unfold trans_on. apply elem_of_list_In, in_concat. exists (ts_trans ts). split; [|by apply elem_of_list_In].
    apply in_map, elem_of_list_In, elem_of_list_filter. done. }
  rewrite Ht in Hin. apply elem_of_list_fmap in Hin as (ek & -> & Hek).
  apply elem_of_list_filter in Hek as [H1 H2]. by exists ek.
Qed.
Lemma state_for_channels n s ts : state_for n s -> ts ∈ st_tsets s ->
  exists ek, ek ∈ live_succs n /\ e_chan ek.1 = ts_chan ts.
Proof.
  intros [_ _ Hc _] Hts.
  assert (Hin : ts_chan ts ∈ map ts_chan (st_tsets s)) by (apply elem_of_list_fmap; by exists ts).
  rewrite Hc in Hin. unfold firsts in Hin.
  rewrite elem_of_reverse, elem_of_remove_dups, elem_of_reverse in Hin.
  apply elem_of_list_fmap in Hin as (ek & -> & Hek). by exists ek.
Qed.
Lemma live_succs_elem n ek : ek ∈ live_succs n <->
  ek.2 ∈ n_next n /\ n_outcome ek.2 <> OFail /\ n_event ek.2 = Some ek.1.
Proof.
  unfold live_succs. rewrite elem_of_list_omap. split.
  - intros (k & Hk & H). destruct (decide _); [done|]. destruct (n_event k) as [e|] eqn:E; [|done].
    injection H as <-. done.
  - intros (H1 & H2 & H3). exists ek.2. split; [done|]. rewrite decide_False by done. rewrite H3. by destruct ek.
Qed.
Lemma state_for_has n s ek : state_for n s -> ek ∈ live_succs n ->
  exists ts, ts ∈ st_tsets s /\ Transition (e_value ek.1) (n_id ek.2) ∈ ts_trans ts.
Proof.
  intros [_ Ht _ _] Hek. specialize (Ht (e_chan ek.1)).
  assert (Hin : Transition (e_value ek.1) (n_id ek.2) ∈ trans_on s (e_chan ek.1)).
  { rewrite Ht. apply elem_of_list_fmap. exists ek. split; [done|]. by apply elem_of_list_filter. }
  unfold trans_on in Hin. apply elem_of_list_In, in_concat in Hin as (l & Hl & Hin).
  apply in_map_iff in Hl as (ts & <- & Hts). apply elem_of_list_In, elem_of_list_filter in Hts as [_ Hts].
  exists ts. split; [done|]. by apply elem_of_list_In.
Qed.

(** Built machines are keepable. *)
Lemma wf_basic_built T c t : channel_type T c t -> t ∈ basic_types /\ is_Some (ty_string t).
Proof.
  intros (e & _ & _ & H). unfold basic_types.
  destruct (e_value e) as [[z|x]|]; [destruct H as [[_ ->]|[_ ->]]|subst t..]; split; try (by eexists); set_solver.
Qed.
Lemma built_safe b root b' : good_tree root -> build b root = Ok b' -> safe_node root -> safe_stm (b_stm b').
Proof.
  intros Hg Hb Hs. pose proof (built_node _ _ _ Hg Hb Hs) as Hn.
  destruct (build_listing _ _ _ Hg Hb) as (l & (_ & _ & Hl) & HF).
  destruct (build_states _ _ _ Hg Hb) as (_ & _ & _ & He & _).
  split_and!.
  - intros s Hin. apply elem_of_list_lookup in Hin as [i Hi].
    destruct (Forall2_lookup_r _ _ _ _ _ HF Hi) as ([p n] & Hpn & Hsf). cbn [snd] in Hsf.
    apply elem_of_list_lookup_2, Hl in Hpn as [Hp _].
    assert (Hkid : forall k, k ∈ n_next n -> exists q, node_at (apply_writes (b_writes b') root) q = Some k).
    { intros k Hk. apply elem_of_list_lookup in Hk as [j Hj]. exists (p ++ [j]). by rewrite (node_at_snoc _ _ _ _ Hp). }
    split_and!.
    + rewrite (sf_id _ _ Hsf). by apply (Hn p n).
    + intros ts Hts. split.
      * destruct (state_for_channels _ _ _ Hsf Hts) as (ek & Hek & <-).
        apply live_succs_elem in Hek as (H1 & _ & H3). destruct (Hkid _ H1) as [q Hq].
        destruct (Hn _ _ Hq) as (_ & _ & _ & H). by destruct (H _ H3).
      * intros t Ht. destruct (state_for_transitions _ _ _ _ Hsf Hts Ht) as (ek & Hek & _ & ->).
        apply live_succs_elem in Hek as (H1 & _ & H3). destruct (Hkid _ H1) as [q Hq].
        destruct (Hn _ _ Hq) as (Hid & _ & _ & H). cbn. split; [|done]. by destruct (H _ H3).
    + intros t o Ho. rewrite (sf_verdict _ _ Hsf) in Ho.
      destruct (last _) as [k|] eqn:E; [|done]. injection Ho as <-.
      assert (Hk : k ∈ filter (fun k => t ∈ n_tests k) (n_next n)).
      { apply last_Some in E as [l' ->]. apply elem_of_app. right. left. }
      apply elem_of_list_filter in Hk as [Ht Hk]. destruct (Hkid _ Hk) as [q Hq].
      destruct (Hn _ _ Hq) as (_ & H2 & H3 & _). rewrite Forall_forall in H2. auto.
  - intros c t Ht. apply (build_types b root b' Hg Hb) in Ht. split; [|by eapply wf_basic_built].
    destruct Ht as (e & (p & n & Hp & Hev) & <- & _).
    apply (safe_node_at _ _ _ Hs), safe_node_fields in Hp as (_ & _ & _ & H & _).
    destruct (H _ Hev) as [(_ & _ & H') _]. done.
  - intros t Ht. destruct (build_states _ _ _ Hg Hb) as (_ & _ & Ht' & _). rewrite Ht' in Ht.
    apply elem_tests_below in Ht as (p & n & _ & Hp & Hin).
    destruct (Hn _ _ Hp) as (_ & H2 & _). rewrite Forall_forall in H2. auto.
Qed.

(** A built machine has a value on every transition exactly if every event of the test has. *)
Lemma built_valued b root b' : good_tree root -> build b root = Ok b' ->
  valued_stm (b_stm b') <-> forall e, tree_event root e -> e_value e <> None.
Proof.
  intros Hg Hb.
  destruct (build_listing _ _ _ Hg Hb) as (l & (_ & _ & Hl) & HF).
  destruct (build_states _ _ _ Hg Hb) as (HgT & _ & _ & He & _). split.
  - intros Hv e Hte. symmetry in He.
    apply (erase_tree_event _ _ _ He) in Hte as (p & n & Hp & Hev).
    destruct (decide (p = [])) as [->|Hne].
    { injection Hp as <-. destruct HgT as [[Hr _] _]. congruence. }
    destruct (proj2 HgT p n Hne Hp) as [_ [(_ & H & _)|H]]; [congruence|].
    destruct (exists_last Hne) as (q & i & ->).
    rewrite node_at_app in Hp. destruct (node_at _ q) as [m|] eqn:Eq; [|done]. cbn in Hp.
    assert (Hi : n_next m !! i = Some n).
    { destruct m as [? ? ? ? next]. cbn in *. destruct (next !! i) as [c|]; [|done]. cbn in Hp. by injection Hp as ->. }
    assert (Ho : n_outcome n <> OFail) by (destruct H as [(-> & _)|(-> & _)]; done).
    assert (Hm : (q, m) ∈ l).
    { apply Hl. split; [done|]. destruct (decide (q = [])) as [->|Hq].
      - injection Eq as <-. destruct HgT as [(_ & -> & _) _]. done.
      - destruct (proj2 HgT q m Hq Eq) as [_ [(_ & _ & H')|[(-> & _)|(-> & _)]]]; try done. by rewrite H' in Hi. }
    apply elem_of_list_lookup in Hm as [j Hj]. destruct (Forall2_lookup_l _ _ _ _ _ HF Hj) as (s & Hs & Hsf).
    destruct (state_for_has _ _ (e, n) Hsf) as (ts & Hts & Htr).
    { apply live_succs_elem. cbn. split; [by eapply elem_of_list_lookup_2|]. done. }
    apply elem_of_list_lookup_2 in Hs. apply (Hv _ _ _ Hs Hts Htr).
  - intros Hv s ts t Hs Hts Htr. apply elem_of_list_lookup in Hs as [i Hi].
    destruct (Forall2_lookup_r _ _ _ _ _ HF Hi) as ([p n] & Hpn & Hsf).
    apply elem_of_list_lookup_2, Hl in Hpn as [Hp _].
    destruct (state_for_transitions _ _ _ _ Hsf Hts Htr) as (ek & Hek & _ & ->).
    apply live_succs_elem in Hek as (H1 & _ & H3). apply elem_of_list_lookup in H1 as [j Hj]. cbn.
    apply Hv. apply (erase_tree_event _ _ _ He). exists (p ++ [j]), ek.2. split; [|done].
    by rewrite (node_at_snoc _ _ _ _ Hp).
Qed.
