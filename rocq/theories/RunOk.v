(** * Built machines give programs whose text runs *)
From Verif Require Export RunStm MainOk PropCppDecl PropRos.
From Verif Require Export StmProofs.

(** ** Names *)
Lemma int_safe z : cpp_safe (format_int z).
Proof. unfold format_int. destruct (z <? 0)%Z; [|apply safe_digits]. apply (cpp_safe_app ["-"%char]); [by apply safeb_ok|apply safe_digits]. Qed.
Lemma expressible_safe t v : expressible t v -> cpp_safe (value_string_value v).
Proof. destruct v as [[z|s]|]; [intros _; apply int_safe| |done]. cbn. tauto. Qed.

Definition id_of (root : node) (id : gostr) : Prop :=
  id = lit "initial" \/ (exists k, id = lit "step" ++ format_N k) \/ (exists p n, p <> [] /\ node_at root p = Some n /\ n_id n = id /\ id <> []).
Lemma labelled_id_of b root b' : good_tree root -> build b root = Ok b' ->
  forall p n, node_at (apply_writes (b_writes b') root) p = Some n -> id_of root (n_id n).
Proof.
  intros Hg Hb p n Hn. destruct (build_full b root Hg) as (num & T & ws & Hl & Hw & HgT & He & Hi & Hlab & Hb').
  rewrite Hb' in Hb. destruct (unify_inner (tree_types T) ∅) as [types|x|]; try discriminate. injection Hb as <-.
  cbn [b_writes] in Hn. rewrite Hw in Hn. destruct p as [|i p].
  { injection Hn as <-. by left. }
  destruct (lab_ids _ _ _ _ Hl) as (_ & ks & Hp & _).
  assert (below_ids (set_id (lit "initial") root) = below_ids root) as E by (by destruct root). rewrite E in Hp.
  assert (Hin : n_id n ∈ below_ids T) by (apply below_ids_elem; by exists (i :: p), n).
  rewrite Hp in Hin. apply elem_of_app in Hin as [Hin|Hin].
  - apply elem_of_list_filter in Hin as [Hne Hin]. apply below_ids_elem in Hin as (q & k & Hq & Hm & E2). right; right. by exists q, k.
  - apply elem_of_list_fmap in Hin as (k & E2 & _). right; left. by exists k.
Qed.

(** What the labelled tree has of it. *)
Record distinct_in (T : node) (tests : list gostr) : Prop := {
  di_dump : lit "dump" ∉ tests;
  di_callbacks : lit "timeout" ∉ out_names T /\ lit "initialDelay" ∉ out_names T /\ lit "inputAccepted" ∉ out_names T;
  di_entries : forall c p n, c ∈ out_names T -> node_at T p = Some n -> callback_name c <> state_entry (n_id n);
  di_convs : forall c e, c ∈ out_names T -> tree_event T e -> callback_name c <> convert_to (ch_name (e_chan e)) /\ callback_name c <> convert_from (ch_name (e_chan e));
}.
Lemma same_out_names a b : erase_ids a = erase_ids b -> out_names a = out_names b.
Proof. intros E. by rewrite <- (out_names_erase a), <- (out_names_erase b), E. Qed.
Lemma unambiguous_distinct b root b' tests : good_tree root -> build b root = Ok b' -> unambiguous root tests -> distinct_in (apply_writes (b_writes b') root) tests.
Proof.
  intros Hg Hb [H1 H2 H3 H4 H5]. destruct (build_states _ _ _ Hg Hb) as (_ & _ & _ & He & _). pose proof (same_out_names _ _ He) as E. split.
  - apply H1.
  - by rewrite E.
  - intros c p n Hc Hn. rewrite E in Hc. apply H4; [done|]. by apply (labelled_id_of b root b' Hg Hb p).
  - intros c e Hc Ht. rewrite E in Hc. apply H5; [done|]. by apply (erase_tree_event _ _ _ He).
Qed.

Lemma NoDup_app2 {A} (l k : list A) : NoDup l -> NoDup k -> (forall x, x ∈ l -> x ∉ k) -> NoDup (l ++ k).
Proof. intros. by apply NoDup_app. Qed.
Lemma callback_suffix x c d : x = callback_name c -> drop (length x - 8) x = d -> d = lit "Callback".
Proof. intros -> <-. unfold callback_name. rewrite app_length. cbn [length lit]. change (length (lit "Callback")) with 8. replace (length c + 8 - 8) with (length c) by lia. by rewrite drop_app. Qed.
Ltac not_callback H := exfalso; pose proof (callback_suffix _ _ _ H eq_refl) as Hx; vm_compute in Hx; discriminate Hx.
Lemma callback_inj c d : callback_name c = callback_name d -> c = d.
Proof. apply app_inv_tail. Qed.

Lemma state_in_kind s c t : state_in s = Some (c, t) -> ch_kind c = KIn /\ c ∈ map ts_chan (st_tsets s).
Proof.
  unfold state_in. induction (st_tsets s) as [|ts l IH]; [done|]. cbn [first_in map]. destruct (is_in (ts_chan ts) && _) eqn:E.
  - apply andb_prop in E as [E _]. unfold is_in in E. apply bool_decide_eq_true in E. destruct (ts_trans ts); [done|]. intros [= <- <-]. split; [done|left].
  - intros H. destruct (IH H). split; [done|by right].
Qed.
Section Built.
  Context (T : node) (m : stm) (types : type_map) (tests : list gostr) (P : program).
  Context (Hok : gen_ok T m types) (HP : gen_program m types tests = Some P) (Hprog : is_prog T m types tests P).
  Context (Hnd : NoDup tests) (Hver : forall s t, s ∈ m_states m -> is_Some (st_verdict s !! t) -> t ∈ tests).
  Context (HS : spelled T) (Ht : Forall plain_ident tests) (HU : distinct_in T tests).
  Notation tc := (make_transitions m).

  Lemma p_shape : p_entries P = map gen_entry (m_states m) /\ p_outs P = map gen_out (tc_out tc).
  Proof. split; [apply (pg_entries _ _ _ _ _ Hprog)|]. unfold gen_program in HP. destruct (m_states m) as [|s0 r] eqn:Es; [done|]. destruct (forallb _ _); [|done].
    destruct (gen_accept _); [|done]. injection HP as <-. done. Qed.
  Lemma decl : well_declared P /\ literals_ok P.
  Proof. exact (gen_well_declared T m types tests P Hok Hprog Hnd Hver). Qed.
  Lemma state_node s : s ∈ m_states m -> exists p n, live_at T p n /\ st_id s = n_id n.
  Proof. intros Hs. apply (m_state_elem T) in Hs as (p & n & H & ->); [|apply Hok..]. exists p, n. by rewrite state_of_id. Qed.

  Lemma sm_names_nodup : NoDup (lit "StateMachine" :: sm_names m).
  Proof.
    destruct decl as [W _]. destruct p_shape as [E1 E2]. destruct HU as [_ (U1 & U2 & U3) U4 _].
    assert (Hcb : forall x, x ∈ map (fun a => callback_name (agg_name a)) (tc_out tc) -> exists c, c ∈ out_names T /\ x = callback_name c).
    { intros x Hx. apply elem_of_list_fmap in Hx as (a & -> & Ha). exists (agg_name a). split; [by apply (out_agg_name T m types)|done]. }
    assert (Hen : forall x, x ∈ map (fun s => state_entry (st_id s)) (m_states m) -> exists p n, node_at T p = Some n /\ x = state_entry (n_id n)).
    { intros x Hx. apply elem_of_list_fmap in Hx as (s & -> & Hs). destruct (state_node s Hs) as (p & n & [H _] & ->). by exists p, n. }
    assert (NDc : NoDup (map (fun a => callback_name (agg_name a)) (tc_out tc))).
    { pose proof (wd_callbacks _ W) as H. rewrite E2, map_map in H. exact H. }
    assert (NDe : NoDup (map (fun s => state_entry (st_id s)) (m_states m))).
    { pose proof (wd_entries _ W) as H. rewrite E1, map_map in H. exact H. }
    set (F := lit "StateMachine" :: fixed_names ++ [lit "initialDelayCallback"; lit "inputAcceptedCallback"]).
    assert (HF : forall x, x ∈ lit "StateMachine" :: fixed_names ++ opt_names tc -> x ∈ F).
    { intros x. unfold F, opt_names. rewrite !elem_of_cons, !elem_of_app. destruct (tc_first_state_has_in tc), (tc_has_in tc); cbn [app]; rewrite ?elem_of_cons, ?elem_of_nil; tauto. }
    unfold sm_names. cbv zeta. change (lit "StateMachine" :: fixed_names ++ ?r) with ((lit "StateMachine" :: fixed_names) ++ r). rewrite app_assoc.
    apply NoDup_app2.
    - unfold opt_names. destruct (tc_first_state_has_in tc), (tc_has_in tc); apply (bool_decide_eq_true_1 _); by vm_compute.
    - apply NoDup_app2; [done|done|]. intros x Hc He. destruct (Hcb x Hc) as (c & Hc' & ->), (Hen _ He) as (p & n & Hn & E). by apply (U4 c p n Hc' Hn).
    - intros x Hx. apply (HF x) in Hx. clear HF. rewrite elem_of_app. intros [Hc|He].
      + destruct (Hcb x Hc) as (c & Hc' & E). unfold F, fixed_names in Hx. cbn [app] in Hx. rewrite !elem_of_cons, elem_of_nil in Hx.
        destruct Hx as [->|[->|[->|[->|[->|[->|[->|[]]]]]]]]; try not_callback E.
        * change (lit "timeoutCallback") with (callback_name (lit "timeout")) in E. apply callback_inj in E. congruence.
        * change (lit "initialDelayCallback") with (callback_name (lit "initialDelay")) in E. apply callback_inj in E. congruence.
        * change (lit "inputAcceptedCallback") with (callback_name (lit "inputAccepted")) in E. apply callback_inj in E. congruence.
      + destruct (Hen x He) as (p & n & _ & E). unfold F, fixed_names in Hx. cbn [app] in Hx. rewrite !elem_of_cons, elem_of_nil in Hx. unfold state_entry in E. apply (f_equal (take 5)) in E. cbn in E.
        destruct Hx as [->|[->|[->|[->|[->|[->|[->|[]]]]]]]]; discriminate E.
  Qed.
  Lemma built_fun_names v name ctx : NoDup (fun_names (main_items v name m ctx tests)).
  Proof.
    rewrite main_fun_names. assert (Hm : forall x, [lit "Verdict"; x] ∉ map SMq (lit "StateMachine" :: sm_names m)).
    { intros x Hx. apply elem_of_list_fmap in Hx as (y & E & _). unfold SMq in E. injection E as E _. discriminate E. }
    change ([lit "Verdict"; lit "dump"] :: map (fun t => [lit "Verdict"; t]) tests ++ ?r) with (map (fun t => [lit "Verdict"; t]) (lit "dump" :: tests) ++ r).
    apply NoDup_app2.
    - apply NoDup_map_2; [|by intros x y _ _ [= E]]. apply NoDup_cons. split; [apply HU|done].
    - apply NoDup_cons. split.
      + rewrite elem_of_app, elem_of_list_singleton. intros [Hx|Hx]; [|discriminate Hx]. apply elem_of_list_fmap in Hx as (y & E & _). unfold SMq in E. injection E as E _. discriminate E.
      + apply NoDup_app2; [|by apply NoDup_singleton|].
        * apply NoDup_map_2; [exact sm_names_nodup|]. intros x y _ _. unfold SMq. by intros [= E].
        * intros x Hx ->%elem_of_list_singleton. apply elem_of_list_fmap in Hx as (y & E & _). unfold SMq in E. discriminate E.
    - intros x Hx. apply elem_of_list_fmap in Hx as (y & -> & _). rewrite elem_of_cons, elem_of_app, elem_of_list_singleton. intros [E|[E|E]]; [injection E as E _; discriminate E|by apply (Hm y)|discriminate E].
  Qed.
  Lemma agg_event a : a ∈ tc_in tc \/ a ∈ tc_out tc -> exists e, tree_event T e /\ e_chan e = ag_chan a.
  Proof.
    intros Ha. pose proof Hok as [Hg Hs Hcd Hv Hk Hty].
    assert (Ha' : a ∈ transition_sets m).
    { destruct (C35_context_split m) as (_ & _ & E1 & E2 & _). cbn zeta in E1, E2. rewrite E1, E2 in Ha. destruct Ha as [Ha|Ha]; by apply elem_of_list_filter in Ha as [_ ?]. }
    assert (Hc : ag_chan a ∈ map ag_chan (transition_sets m)) by (apply elem_of_list_fmap; by exists a).
    rewrite transition_sets_chans, firsts_elem in Hc. apply elem_of_list_In, in_concat in Hc as (l & Hl & Hc).
    apply in_map_iff in Hl as (s & <- & Hin). apply elem_of_list_In in Hin, Hc. apply (m_state_elem T) in Hin as (p & n & Hpn & ->); [|done|done].
    apply state_chan_elem in Hc as (e & k & Hek & Hc). exists e. split; [|done]. by apply (live_succs_event T p n e k).
  Qed.
  Lemma built_machine_ok v : machine_ok v m types tests P.
  Proof.
    pose proof Hok as [Hg Hs Hcd Hv Hk Hty]. pose proof HS as [S1 S2 S3]. destruct decl as [W L].
    assert (Hid : forall p n, node_at T p = Some n -> cpp_safe (n_id n)) by (intros p n Hn; by apply ident_safe, (S1 p)).
    split.
    - done.
    - done.
    - done.
    - intros s Hin. destruct (state_node s Hin) as (p & n & [Hn _] & ->). by apply (Hid p).
    - intros t Hin. apply ident_safe. by apply (proj1 (Forall_forall _ _) Ht t Hin).
    - intros s ts t Hin Hts Htr. apply (m_state_elem T) in Hin as (p & n & Hpn & ->); [|done|done].
      destruct (state_for_transitions _ _ _ _ (state_of_for n) Hts Htr) as ([e k] & Hek & Hc & ->). cbn in Hc. rewrite <- Hc. cbn [tr_value tr_next].
      pose proof (live_succs_event _ _ _ _ _ Hpn Hek) as He. split; [by apply ident_safe, S3|]. split.
      + destruct (Hty e He) as (t & _ & Ht2). by eapply expressible_safe.
      + apply CppProofs.live_succs_elem in Hek as (Hin & _). destruct (kid_at _ _ _ _ (proj1 Hpn) Hin) as [q Hq]. by apply (Hid q).
    - intros s Hin. apply elem_of_list_fmap in Hin as ([s' ts] & -> & Hin). apply CppProofs.range_map_elem in Hin.
      apply (merged_spec T m types Hok) in Hin as (p & n & i & k & e & [Hn _] & <- & _). by apply (Hid p).
    - intros a Ha. split.
      + destruct (agg_event a (or_intror Ha)) as (e & He & Hc). unfold agg_name. rewrite <- Hc. by apply ident_safe, S3.
      + intros s Hin. apply elem_of_list_fmap in Hin as ([s' ts] & -> & Hin). apply CppProofs.range_map_elem in Hin. destruct (out_agg_elem T m Hg Hs a Ha) as (Ha' & _).
        destruct (proj1 (transition_sets_keys m a s' Ha') ltac:(by eexists)) as (st & Hst & Hid' & _). cbn. rewrite <- Hid'. destruct (state_node st Hst) as (p & n & [Hn _] & ->). by apply (Hid p).
    - intros a Ha. destruct (agg_event a Ha) as (e & He & Hc).
      assert (A : forall x, (take 2 x = lit "to" \/ take 4 x = lit "from") -> (forall c, c ∈ out_names T -> callback_name c <> x) -> x ∉ sm_names m).
      { intros x Hx Hcb. unfold sm_names, fixed_names, opt_names. cbv zeta. rewrite !elem_of_app. intros [Hin|[[Hin|Hin]|[Hin|Hin]]].
        - rewrite !elem_of_cons, elem_of_nil in Hin. destruct Hin as [->|[->|[->|[->|[]]]]]; destruct Hx as [Hx|Hx]; discriminate Hx.
        - destruct (tc_first_state_has_in tc); [|by apply elem_of_nil in Hin]. apply elem_of_list_singleton in Hin as ->. destruct Hx as [Hx|Hx]; discriminate Hx.
        - destruct (tc_has_in tc); [|by apply elem_of_nil in Hin]. apply elem_of_list_singleton in Hin as ->. destruct Hx as [Hx|Hx]; discriminate Hx.
        - apply elem_of_list_fmap in Hin as (b & -> & Hb). apply (Hcb (agg_name b)); [|done]. by apply (out_agg_name T m types).
        - apply elem_of_list_fmap in Hin as (s & -> & Hb). destruct Hx as [Hx|Hx]; discriminate Hx. }
      unfold agg_name. rewrite <- Hc. split.
      + apply A; [by left|]. intros c Hcc E. destruct (di_convs _ _ HU c e Hcc He) as [H _]. by apply H.
      + apply A; [by right|]. intros c Hcc E. destruct (di_convs _ _ HU c e Hcc He) as [_ H]. by apply H.
    - intros s c t Hin Hst. apply (m_state_elem T) in Hin as (p & n & Hpn & ->); [|done|done]. destruct Hpn as [Hn Ho].
      destruct (state_in_kind _ _ _ Hst) as (Hkc & Hcs).
      assert (Hc : c ∈ map ag_chan (transition_sets m)).
      { rewrite transition_sets_chans, firsts_elem. apply elem_of_list_In, in_concat. exists (map ts_chan (st_tsets (state_of n))). split.
        - apply in_map_iff. exists (state_of n). split; [done|]. apply elem_of_list_In. apply (m_state_elem T); [done|done|]. by exists p, n.
        - by apply elem_of_list_In. }
      apply elem_of_list_fmap in Hc as (a & Hc & Ha). exists a. split; [|by unfold agg_name; rewrite <- Hc].
      destruct (C35_context_split m) as (_ & _ & E & _). cbn zeta in E. rewrite E. apply elem_of_list_filter. split; [by rewrite <- Hc|done].
  Qed.
End Built.
