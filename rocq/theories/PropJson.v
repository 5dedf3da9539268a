(** * C36, C37, C39: the JSON files passed between the tools *)
From Verif Require Export BuiltProofs NamingProofs PropStm.
From Verif Require Export StmProofs.

(** ** C36: test suites *)

(** Every suite of keepable trees, nil tests included, comes back exactly as it was. *)
Theorem C36_suite_roundtrip : forall s text,
  safe_suite s -> write_suite s = Some text -> read_suite text = Ok s.
Proof. exact suite_roundtrip. Qed.
Print Assumptions C36_suite_roundtrip.

(** Writing fails only for trees so deep that the JSON nesting limit is exceeded; for trees
    whose nodes are all tagged (as all valid ones are) this is a path of 5000 nodes. *)
Theorem C36_write_succeeds_iff : forall s,
  (forall k n p m, s !! k = Some (Some n) -> node_at n p = Some m -> n_tests m <> []) ->
  is_Some (write_suite s) <-> forall k n, s !! k = Some (Some n) -> height n < 5000.
Proof.
  intros s Ht. rewrite write_suite_ok.
  assert (Hm : forall h, 2 * h < max_depth <-> h < 5000) by (intros; unfold max_depth; lia).
  split; intros H k n Hk; specialize (H k n Hk);
    rewrite (depth_tagged n) in * by (intros p m; by apply (Ht k)); by apply Hm.
Qed.
Print Assumptions C36_write_succeeds_iff.

(** The text does not depend on the order in which the traces were expanded. *)
Theorem C36_text_deterministic : forall (m : gmap gostr forbidden) o1 o2,
  order_of m o1 -> order_of m o2 -> write_suite (expand_all o1) = write_suite (expand_all o2).
Proof.
  intros m o1 o2 H1 H2. f_equal. apply map_eq. intros k.
  by rewrite (expand_all_spec m o1 k H1), (expand_all_spec m o2 k H2).
Qed.

Lemma safe_spine name pre f :
  valid_utf8 name -> Forall safe_event pre -> safe_event f -> safe_node (spine name pre f).
Proof.
  intros Hn Hp Hf. induction Hp as [|e pre He Hp IH]; cbn.
  - assert (Ht : Forall valid_utf8 [name]) by by repeat constructor.
    split_and!; try done; try apply valid_utf8_nil; unfold valid_outcome; auto.
  - assert (Ht : Forall valid_utf8 [name]) by by repeat constructor.
    split_and!; try done; try apply valid_utf8_nil; unfold valid_outcome; auto.
Qed.
Lemma safe_expand t name :
  valid_utf8 name -> Forall safe_event (f_prefix t) -> safe_event (f_forbid t) -> safe_node (expand t name).
Proof.
  intros Hn Hp Hf. rewrite expand_spine. cbn.
  assert (Ht : Forall valid_utf8 [name]) by by repeat constructor.
  split_and!; try done; try apply valid_utf8_nil; unfold valid_outcome; auto. by apply safe_spine.
Qed.
Lemma height_spine name pre f : height (spine name pre f) = length pre + 2.
Proof.
  induction pre as [|e pre IH]; [done|].
  change (spine name (e :: pre) f) with (Node [] [name] OInc (Some e) [spine name pre f]).
  cbn [height map]. rewrite IH. cbn. lia.
Qed.
Lemma height_expand t name : height (expand t name) = length (f_prefix t) + 3.
Proof. rewrite expand_spine. cbn [height map]. rewrite height_spine. cbn. lia. Qed.

Lemma format_N_valid n : valid_utf8 (format_N n).
Proof.
  apply lit_valid, forallb_forall. intros c Hc.
  assert (Hd : is_digit c = true).
  { destruct (format_N_spec n) as (_ & Hf & _). unfold all_digits in Hf. rewrite Forall_forall in Hf. apply Hf. by apply elem_of_list_In. }
  unfold is_digit, is_ascii in *. apply andb_prop in Hd as [_ Hd]. apply N.leb_le in Hd. apply N.ltb_lt. lia.
Qed.
Lemma candidate_valid t k : valid_utf8 (f_name t) -> valid_utf8 (candidate t k).
Proof.
  intros H. unfold candidate. destruct (decide _).
  - apply valid_utf8_app; [by apply lit_valid|apply format_N_valid].
  - destruct k; [done|]. apply valid_utf8_app; [done|apply format_N_valid].
Qed.

Lemma named_lookup traces m k t : name_all traces = Some m -> m !! k = Some t ->
  t ∈ traces /\ exists j, k = candidate t j.
Proof.
  intros H Hk. apply name_all_policy in H as (names & [Hl Hn] & _ & Hm).
  apply Hm in Hk as (i & Hi & Ht). split; [by eapply elem_of_list_lookup_2|].
  destruct (Hn _ _ Ht) as (j & Hj & _). exists j. naive_solver.
Qed.

Lemma expanded_lookup (m : gmap gostr forbidden) order k n : order_of m order ->
  expand_all order !! k = Some (Some n) -> exists t, m !! k = Some t /\ n = expand t k.
Proof.
  intros Ho. rewrite (expand_all_spec m order k Ho). destruct (m !! k) as [t|]; [|done].
  cbn. intros [= <-]. by exists t.
Qed.
Lemma traces_write_iff traces m order : name_all traces = Some m -> order_of m order ->
  Forall (fun t => length (f_prefix t) <= 4996) traces <-> is_Some (write_suite (expand_all order)).
Proof.
  intros Hm Ho.
  rewrite C36_write_succeeds_iff.
  2: { intros k n p x Hk Hx. destruct (expanded_lookup m order k n Ho Hk) as (t & _ & ->). by rewrite (expand_tags _ _ _ _ Hx). }
  rewrite Forall_forall. split.
  - intros H k n Hk. destruct (expanded_lookup m order k n Ho Hk) as (t & Ht & ->). rewrite height_expand.
    destruct (named_lookup _ _ _ _ Hm Ht) as [Hin _]. specialize (H t Hin). lia.
  - intros H t Hin. apply elem_of_list_lookup in Hin as [i Hi].
    apply name_all_policy in Hm as (names & [Hlen Hn] & _ & Hmm).
    destruct (Hn i t Hi) as (j & Hj & _).
    assert (Hk : expand_all order !! candidate t j = Some (Some (expand t (candidate t j)))).
    { rewrite (expand_all_spec m order _ Ho). rewrite (proj2 (Hmm _ _)) by eauto. done. }
    specialize (H _ _ Hk). rewrite height_expand in H. lia.
Qed.
Lemma expanded_safe traces m order : name_all traces = Some m -> order_of m order -> Forall safe_trace traces ->
  safe_suite (expand_all order).
Proof.
  intros Hm Ho Hs k [n|] Hk.
  - destruct (expanded_lookup m order k n Ho Hk) as (t & Ht & ->). destruct (named_lookup _ _ _ _ Hm Ht) as [Hin [j Hj]].
    rewrite Forall_forall in Hs. destruct (Hs t Hin) as (Hn & Hp & Hf).
    assert (valid_utf8 k) by (subst k; by apply candidate_valid). split; [done|]. by apply safe_expand.
  - rewrite (expand_all_spec m order k Ho) in Hk. by destruct (m !! k).
Qed.

(** The test suites that rtcg-read-traces writes: for every list of keepable traces, named
    and expanded in any order, writing succeeds exactly when no trace has more than 4996
    events before the forbidden one, and reading gives the suite back. *)
Theorem C36_traces_roundtrip : forall traces m order,
  name_all traces = Some m -> order_of m order -> Forall safe_trace traces ->
  (Forall (fun t => length (f_prefix t) <= 4996) traces <-> is_Some (write_suite (expand_all order))) /\
  forall text, write_suite (expand_all order) = Some text -> read_suite text = Ok (expand_all order).
Proof.
  intros traces m order Hm Ho Hs. split; [by apply traces_write_iff with m|].
  intros text. apply suite_roundtrip. by eapply expanded_safe.
Qed.
Print Assumptions C36_traces_roundtrip.

(** Events read from text are keepable if their channel has a name and they are valid UTF-8. *)
Theorem C36_read_events_safe : forall text e,
  event_unmarshal zero_event text = Ok e -> ch_name (e_chan e) <> [] ->
  valid_utf8 (ch_name (e_chan e)) -> valid_utf8 (value_string_value (e_value e)) -> safe_event e.
Proof.
  intros text e He Hne Hu Hv.
  destruct (proj1 (event_roundtrip e)) as (Hk & Hn & Hp); [by eapply event_parsed_stable|].
  split; [done|]. unfold safe_value. destruct (e_value e); [done|done].
Qed.

(** A keepable suite with a nil test, and with quotes, control characters and non-ASCII text
    in its names. *)
Definition w_ev (c : gostr) (k : kind) (v : value) : event := Event (Channel c k) v.
Definition w_name : gostr := lit "a<b" ++ [byte 34; byte 10; byte 195; byte 169].
Definition w_json_suite : suite :=
  <[w_name := Some (expand (Forbidden w_name [w_ev (lit "foo") KIn (Some (IntV (-3)))]
                                      (w_ev (lit "bar") KOut None)) w_name)]> {[ lit "nil" := None ]}.
Example C36_witness :
  match write_suite w_json_suite with
  | Some text => match read_suite text with
                 | Ok s => s !! w_name = w_json_suite !! w_name /\ s !! lit "nil" = Some None /\ base.size s = 2
                 | _ => False end
  | None => False end.
Proof. vm_compute. done. Qed.

(** Names that are not UTF-8 are not kept, and distinct tests can become one. *)
Theorem C36_invalid_utf8_refuted :
  ~ forall (traces : list forbidden) m order text,
      name_all traces = Some m -> order_of m order -> write_suite (expand_all order) = Some text ->
      exists s, read_suite text = Ok s /\ base.size s = base.size (expand_all order).
Proof.
  intros H.
  set (e := w_ev (lit "foo") KIn (Some (IntV 1))).
  set (traces := [Forbidden [byte 255] [] e; Forbidden [byte 254] [] e]).
  destruct (name_all traces) as [m|] eqn:Em; [|by vm_compute in Em].
  set (order := map_to_list m).
  assert (Ho : order_of m order) by (unfold order_of, order; reflexivity).
  assert (Hm : order = [([byte 255], Forbidden [byte 255] [] e); ([byte 254], Forbidden [byte 254] [] e)] \/
               order = [([byte 254], Forbidden [byte 254] [] e); ([byte 255], Forbidden [byte 255] [] e)]).
  { unfold order. vm_compute in Em. injection Em as <-. vm_compute. auto. }
  destruct (write_suite (expand_all order)) as [text|] eqn:Et.
  2: { destruct Hm as [E|E]; rewrite E in Et; by vm_compute in Et. }
  destruct (H traces m order text Em Ho Et) as (s & Hs & Hz).
  destruct Hm as [E|E]; rewrite E in Et, Hz; vm_compute in Et; injection Et as <-;
    vm_compute in Hs; injection Hs as <-; vm_compute in Hz; done.
Qed.

(** A file may hold a null test; reading accepts it, and validation then crashes. *)
Theorem C36_null_test_crashes : exists text s, read_suite text = Ok s /\
  forall order, order_of s order -> full_suite order = Panic.
Proof.
  exists (lit "{""a"": null}"), {[ lit "a" := None ]}. split.
  - assert (H : read_suite (lit "{""a"": null}") = m_suite (JObj [(lit "a", JNull)])) by (by vm_compute).
    rewrite H. cbn. done.
  - intros order Ho. unfold order_of in Ho. rewrite map_to_list_singleton in Ho.
    apply Permutation_singleton_r in Ho as ->. vm_compute. done.
Qed.

(** ** C37: state machine suites *)

(** Writing succeeds exactly when every transition carries a value (and every type has a
    name, as all types built have: see below), whatever the order of the test sets. *)
Theorem C37_write_iff : forall orders s,
  is_ok (write_stm_suite orders s) <->
  valued_stm_suite s /\
  (forall c t, su_types s !! c = Some t -> is_Some (ty_string t)) /\
  (forall k m c t, su_tests s !! k = Some m -> m_types m !! c = Some t -> is_Some (ty_string t)).
Proof. intros orders s. apply write_stm_suite_ok. Qed.
Print Assumptions C37_write_iff.

(** What is written is read back as it was, with every pointer present. *)
Theorem C37_roundtrip : forall orders s text,
  safe_stm_suite s -> set_orders s orders -> write_stm_suite orders s = Ok text ->
  read_stm_suite text = Ok (raw_suite s).
Proof. exact stm_suite_roundtrip. Qed.
Print Assumptions C37_roundtrip.

Lemma suite_lub_basic tests c u :
  (forall c t, suite_type tests c t -> t ∈ basic_types) -> suite_lub tests c u -> u ∈ basic_types.
Proof.
  intros Hb (Hwf & (t & Ht) & Hle & _). specialize (Hle t Ht). apply Hb in Ht.
  destruct Hle as [Hk Hd], u as [uk ud]. unfold wf_type in Hwf. cbn in *.
  assert (H : t ∈ [ty_empty; ty_enum; ty_arithmos DNat; ty_arithmos DInt; ty_arithmos DReal]) by exact Ht.
  rewrite !elem_of_cons, elem_of_nil in H. unfold basic_types.
  destruct H as [->|[->|[->|[->|[->|[]]]]]]; cbn in Hk, Hd; subst uk;
    destruct ud; cbn in Hd; try lia; try (destruct Hwf; done); set_solver.
Qed.
Lemma basic_named t : t ∈ basic_types -> is_Some (ty_string t).
Proof.
  unfold basic_types. rewrite !elem_of_cons, elem_of_nil. intros [->|[->|[->|[->|[->|[]]]]]]; vm_compute; by eexists.
Qed.

(** Suites built from valid tests: whatever the iteration orders, writing succeeds exactly
    when every event of every test carries a value; reading then gives the suite back. *)
Theorem C37_built : forall (tests : gmap gostr node) b o f s orders,
  (forall k t, tests !! k = Some t -> good_tree t) -> order_of tests o ->
  (forall ms, orders_of ms (f ms)) -> build_suite b o f = Ok s ->
  (is_ok (write_stm_suite orders s) <->
     forall k t e, tests !! k = Some t -> tree_event t e -> e_value e <> None) /\
  ((forall k t, tests !! k = Some t -> valid_utf8 k /\ safe_node t) -> set_orders s orders ->
   forall text, write_stm_suite orders s = Ok text -> read_stm_suite text = Ok (raw_suite s)).
Proof.
  intros tests b o f s orders Hg Ho Hf Hs.
  destruct (C30_build_suite_order_free tests b b o o f f Hg Ho Ho Hf Hf) as (_ & _ & H).
  destruct (H s Hs) as (Hm & Hu). clear H.
  assert (Hmach : forall k m, su_tests s !! k = Some m -> exists t b', tests !! k = Some t /\ build b t = Ok b' /\ b_stm b' = m).
  { intros k m Hk. specialize (Hm k). rewrite Hk in Hm. destruct (tests !! k) as [t|]; [|done].
    destruct Hm as (b' & H1 & H2). eauto. }
  assert (Htest : forall k t, tests !! k = Some t -> exists m b', su_tests s !! k = Some m /\ build b t = Ok b' /\ b_stm b' = m).
  { intros k t Hk. specialize (Hm k). rewrite Hk in Hm. destruct (su_tests s !! k) as [m|]; [|done].
    destruct Hm as (b' & H1 & H2). eauto. }
  assert (Hbasic : forall c t, suite_type (su_tests s) c t -> t ∈ basic_types).
  { intros c t (k & m & Hk & Ht). destruct (Hmach k m Hk) as (r & b' & Hr & Hb & <-).
    apply (build_types b r b' (Hg _ _ Hr) Hb) in Ht. by eapply wf_basic_built. }
  split.
  - rewrite C37_write_iff. split.
    + intros (Hv & _) k t e Hk. destruct (Htest k t Hk) as (m & b' & Hsm & Hb & <-).
      apply (built_valued b t b' (Hg _ _ Hk) Hb). by eapply Hv.
    + intros Hv. split_and!.
      * intros k m Hk. destruct (Hmach k m Hk) as (r & b' & Hr & Hb & <-).
        apply (built_valued b r b' (Hg _ _ Hr) Hb). intros e He. by apply (Hv k r e).
      * intros c t Ht. apply basic_named. apply (suite_lub_basic (su_tests s) c); [done|]. by apply Hu.
      * intros k m c t Hk Ht. apply basic_named. apply (Hbasic c). by exists k, m.
  - intros Hsafe Hord text. apply C37_roundtrip; [|done]. split.
    + intros c t Ht. apply Hu in Ht. split; [|by eapply suite_lub_basic].
      destruct Ht as (_ & (t' & k & m & Hk & Ht') & _). destruct (Hmach k m Hk) as (r & b' & Hr & Hb & <-).
      destruct (built_safe b r b' (Hg _ _ Hr) Hb) as (_ & Hty & _); [by apply (Hsafe k)|]. by apply (Hty c t').
    + intros k m Hk. destruct (Hmach k m Hk) as (r & b' & Hr & Hb & <-).
      destruct (Hsafe k r Hr) as [? ?]. split; [done|]. by apply (built_safe b r b' (Hg _ _ Hr) Hb).
Qed.
Print Assumptions C37_built.

(** A test with a valueless event is accepted by the validator and the builder, but its
    machines can never be written. *)
Definition w_valueless : node :=
  expand (Forbidden (lit "t") [w_ev (lit "foo") KIn None] (w_ev (lit "bar") KOut (Some (IntV 1)))) (lit "t").
Example C37_valueless : 
  full (Some w_valueless) = Ok w_valueless /\
  match build new_builder w_valueless with
  | Ok b' => write_stm_suite (fun _ => [lit "t"]) (StmSuite ∅ {[ lit "t" := b_stm b' ]}) = Err WAbsent
  | _ => False end.
Proof. vm_compute. done. Qed.

Definition w_stm_text : gostr := Eval vm_compute in
  match write_stm_suite (fun _ => [lit "u"; lit "t"])
          (StmSuite (m_types (b_stm w_built)) {[ w_name := b_stm w_built ]}) with
  | Ok text => text | _ => [] end.
Example C37_witness :
  match read_stm_suite w_stm_text with
  | Ok r => match ru_tests r !! w_name with
            | Some (Some m) =>
              (map (option_map (fun x => (rs_id x, rs_tsets x))) (rm_states m),
               rm_types m !! lit "baz", bool_decide (lit "u" ∈ rm_tests m))
            | _ => ([], None, false) end
  | _ => ([], None, false) end =
  (map (fun x => Some (st_id x, st_tsets x)) (m_states (b_stm w_built)),
   Some (Some (ty_arithmos DInt)), true).
Proof. vm_compute. reflexivity. Qed.

(** The file is not a function of the suite, though: test sets are written in map order. *)
Theorem C37_text_depends_on_order_refuted :
  ~ forall s o1 o2, set_orders s o1 -> set_orders s o2 -> write_stm_suite o1 s = write_stm_suite o2 s.
Proof.
  intros H. set (m := Stm [] ∅ (list_to_set [lit "t"; lit "u"] : gset gostr)).
  assert (Hp : forall a b : gostr, a <> b -> [a; b] ≡ₚ elements (list_to_set [a; b] : gset gostr)).
  { intros a b Hab. apply NoDup_Permutation.
    - apply NoDup_cons. split; [set_solver|]. apply NoDup_singleton.
    - apply NoDup_elements.
    - intros x. rewrite elem_of_elements, elem_of_list_to_set. done. }
  assert (Ho : forall o, (o = [lit "t"; lit "u"] \/ o = [lit "u"; lit "t"]) ->
    set_orders (StmSuite ∅ {[ lit "x" := m ]}) (fun _ => o)).
  { intros o Ho k m' Hk. cbn in Hk. apply lookup_singleton_Some in Hk as [_ <-].
    transitivity [lit "t"; lit "u"]; [|by apply Hp].
    destruct Ho as [->| ->]; [done|]. apply perm_swap. }
  specialize (H _ _ _ (Ho [lit "t"; lit "u"] (or_introl eq_refl)) (Ho [lit "u"; lit "t"] (or_intror eq_refl))).
  vm_compute in H. discriminate H.
Qed.

(** ** C39: sets and verdicts on their own *)

Lemma small_doc_roundtrip j : no_num j -> jvalid j -> jdepth j <= 1 ->
  exists text, write_doc j = Some text /\ read_doc text = Some j.
Proof.
  intros Hn Hv Hd. assert (Hw : write_doc j = Some (print 0 j ++ [byte 10])).
  { unfold write_doc. destruct (jdepth j <=? max_depth) eqn:E; [done|]. apply Nat.leb_gt in E.
    unfold max_depth in E. lia. }
  eexists. split; [exact Hw|]. rewrite (read_write_doc _ _ Hn Hw). by rewrite jcoerce_valid.
Qed.

(** A set written in any order, to text, and read back is the same set. *)
Theorem C39_sets : forall (X : gset gostr) order,
  order ≡ₚ elements X -> (forall t, t ∈ X -> valid_utf8 t) ->
  exists text j, write_doc (enc_set order) = Some text /\ read_doc text = Some j /\ dec_set j = Ok X.
Proof.
  intros X order Ho Hv.
  destruct (small_doc_roundtrip (enc_set order)) as (text & H1 & H2).
  - apply strs_no_num.
  - apply strs_valid. apply Forall_forall. intros t Ht. apply Hv. rewrite Ho in Ht. by apply elem_of_elements.
  - apply (strs_shape 0 order).
  - exists text, (enc_set order). split_and!; [done..|]. rewrite dec_enc_set. f_equal.
    apply set_eq. intros t. rewrite elem_of_list_to_set, Ho. apply elem_of_elements.
Qed.
Print Assumptions C39_sets.

(** Reading drops duplicates and nothing else: any array of strings is its set of strings. *)
Theorem C39_reads_any_array : forall l : list gostr, dec_set (JArr (map JStr l)) = Ok (list_to_set l).
Proof. exact dec_enc_set. Qed.

(** A verdict written and read back is the same map. *)
Theorem C39_verdicts : forall v : verdict,
  (forall t o, v !! t = Some o -> valid_utf8 t /\ valid_outcome o) ->
  exists text j, write_doc (enc_verdict v) = Some text /\ read_doc text = Some j /\ dec_verdict j = Ok v.
Proof.
  intros v Hv. destruct (small_doc_roundtrip (enc_verdict v)) as (text & H1 & H2).
  - apply enc_verdict_shape.
  - apply enc_map_valid. intros t o Ho. destruct (Hv t o Ho). split; [done|]. by apply outcome_valid.
  - apply enc_verdict_shape.
  - exists text, (enc_verdict v). split_and!; [done..|]. apply dec_enc_verdict. intros t o Ho. by apply (Hv t o).
Qed.
Print Assumptions C39_verdicts.

(** Reading a verdict from arbitrary members: of repeated test names the last counts; it is
    refused as soon as one of these is no outcome, and otherwise every test is kept. *)
Definition last_text (kvs : list (gostr * gostr)) (t : gostr) : option gostr :=
  last (map snd (filter (fun kv => kv.1 = t) kvs)).
Lemma dec_members_strings kvs : forall m, exists m',
  dec_members dec_string (map (fun kv : gostr * gostr => (kv.1, JStr kv.2)) kvs) m = Ok m' /\
  forall t, m' !! t = match last_text kvs t with Some s => Some s | None => m !! t end.
Proof.
  induction kvs as [|[k s] kvs IH]; intros m; [by exists m|]. cbn [map dec_members fst snd dec_string res_bind].
  destruct (IH (<[k:=s]> m)) as (m' & H1 & H2). exists m'. split; [done|]. intros t. rewrite H2.
  unfold last_text. rewrite filter_cons. cbn [fst]. destruct (decide (k = t)) as [->|Hne].
  - cbn [map snd]. destruct (map snd (filter (fun kv => kv.1 = t) kvs)) as [|x l] eqn:E; [by rewrite lookup_insert|].
    cbn [last]. by destruct (last (x :: l)) eqn:E2; [|apply last_None in E2].
  - by rewrite lookup_insert_ne.
Qed.
Theorem C39_verdict_reading : forall kvs : list (gostr * gostr),
  let j := JObj (map (fun kv => (kv.1, JStr kv.2)) kvs) in
  (is_ok (dec_verdict j) <-> forall t s, last_text kvs t = Some s -> is_Some (parse_outcome s)) /\
  forall v, dec_verdict j = Ok v -> forall t, v !! t = last_text kvs t ≫= parse_outcome.
Proof.
  intros kvs j. unfold j, dec_verdict, dec_map. destruct (dec_members_strings kvs ∅) as (m' & H1 & H2).
  rewrite H1. cbn [res_bind].
  assert (Hm : forall t, m' !! t = last_text kvs t).
  { intros t. rewrite H2, lookup_empty. by destruct (last_text kvs t). }
  assert (Hf : forallb (fun kv => bool_decide (is_Some (parse_outcome kv.2))) (map_to_list m') = true <->
    forall t s, last_text kvs t = Some s -> is_Some (parse_outcome s)).
  { rewrite forallb_forall. split.
    - intros H t s Hs. rewrite <- Hm in Hs. specialize (H (t, s)). rewrite bool_decide_eq_true in H. apply H.
      by apply elem_of_list_In, elem_of_map_to_list.
    - intros H [t s] Hin%elem_of_list_In%elem_of_map_to_list. apply bool_decide_eq_true. apply (H t). by rewrite <- Hm. }
  split.
  - rewrite <- Hf. destruct (forallb _ _); split; try done; [intros _; by eexists|intros [? H]; done].
  - intros v. destruct (forallb _ _); [|done]. intros ->%Ok_inj t. rewrite lookup_omap. by rewrite Hm.
Qed.
Print Assumptions C39_verdict_reading.

Example C39_witness :
  bool_decide (lit "b" ∈ (match read_doc (lit "[""b"", ""a"", ""b""]") with
    | Some j => match dec_set j with Ok X => X | _ => ∅ end | None => ∅ end)) = true /\
  match read_doc (lit "{""t"": ""pass"", ""u"": ""inc""}") with
  | Some j => match dec_verdict j with
              | Ok v => (v !! lit "t", v !! lit "u") = (Some OPass, Some OInc) | _ => False end
  | None => False end /\
  match read_doc (lit "{""t"": ""maybe""}") with
  | Some j => match dec_verdict j with Err _ => True | _ => False end | None => False end.
Proof. vm_compute. done. Qed.
