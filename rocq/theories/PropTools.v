(** * C61, C68, C69: the tools, and all of them together *)
From Verif Require Export SpecTools PropJson PropTree PropTrace PropCppTrace PropRos PropGen DecProofs.
From Verif Require Export StmProofs.

(** Iteration orders exist. *)
Definition some_orders : ms_orders :=
  MsOrders map_to_list map_to_list (fun ms => map (fun m => map_to_list (m_types m)) (map_to_list ms).*2)
           (fun s k => match su_tests s !! k with Some m => elements (m_tests m) | None => [] end).
Lemma some_orders_any : any_orders some_orders.
Proof.
  split.
  - intros s. unfold order_of. done.
  - intros s. unfold order_of. done.
  - intros ms. exists (map_to_list ms).*2. split; [done|]. cbn.
    induction (map_to_list ms).*2; constructor; done.
  - intros s k m Hk. cbn. by rewrite Hk.
Qed.

(** ** Suites without nil pointers *)
Lemma use_raw_state s : use_state (Some (raw_state s)) = Some s.
Proof. by destruct s. Qed.
Lemma use_some_types (m : type_map) : use_types (Some <$> m) = Some m.
Proof.
  unfold use_types. rewrite decide_True.
  - f_equal. apply map_eq. intros k. rewrite lookup_omap, lookup_fmap. by destruct (m !! k).
  - intros k t Hk. rewrite lookup_fmap in Hk. destruct (m !! k); [|done]. injection Hk as <-. by eexists.
Qed.
Lemma use_raw_stm m : use_stm (Some (raw_stm m)) = Some m.
Proof.
  destruct m as [ss ty ts]. cbn. rewrite use_some_types.
  assert (mapM use_state (map (fun s => Some (raw_state s)) ss) = Some ss) as ->; [|done].
  apply mapM_Some. induction ss as [|s ss IH]; constructor; [apply use_raw_state|done].
Qed.
Lemma use_raw_suite s : use_suite (raw_suite s) = Some s.
Proof.
  destruct s as [ty ts]. unfold use_suite, raw_suite. cbn [ru_tests ru_types su_types su_tests].
  rewrite decide_True.
  - rewrite use_some_types. do 2 f_equal. apply map_eq. intros k. rewrite lookup_omap, lookup_fmap.
    destruct (ts !! k) as [m|]; [|done]. cbn [fmap option_fmap option_map mbind option_bind]. apply use_raw_stm.
  - intros k m Hk. rewrite lookup_fmap in Hk. destruct (ts !! k) as [m'|]; [|done]. injection Hk as <-.
    rewrite use_raw_stm. by eexists.
Qed.

(** ** Building a suite *)
Lemma channel_kind T c t e : no_type_conflict T -> channel_type T c t -> tree_event T e -> ch_name (e_chan e) = c ->
  t_kind t = t_kind (value_type (e_value e)).
Proof.
  intros Hn (e' & He' & Hc' & Ht) He Hc.
  assert (Hcl : class_of (e_value e) = class_of (e_value e')) by (apply Hn; congruence).
  apply value_type_class in Hcl. rewrite Hcl. clear -Ht.
  destruct (e_value e') as [[z|x]|]; [|by subst t..].
  rewrite value_type_int. destruct Ht as [[_ ->]|[_ ->]]; done.
Qed.
Lemma channel_type_exists b root b' e : good_tree root -> build b root = Ok b' -> tree_event root e ->
  exists t, m_types (b_stm b') !! ch_name (e_chan e) = Some t.
Proof.
  intros Hg Hb He.
  destruct (e_value e) as [[z|x]|] eqn:Ev.
  - assert (Hd : (exists e' z, tree_event root e' /\ ch_name (e_chan e') = ch_name (e_chan e) /\ e_value e' = Some (IntV z) /\ (z < 0)%Z) \/
      ~ (exists e' z, tree_event root e' /\ ch_name (e_chan e') = ch_name (e_chan e) /\ e_value e' = Some (IntV z) /\ (z < 0)%Z)).
    { destruct (m_types (b_stm b') !! ch_name (e_chan e)) as [t|] eqn:Et.
      - apply (build_types b root b' Hg Hb) in Et as (e0 & He0 & Hc0 & Ht).
        assert (Hn : no_type_conflict root) by (apply (build_ok_iff b root Hg); by eexists).
        assert (Hcl : class_of (e_value e0) = class_of (e_value e)) by by apply Hn.
        rewrite Ev in Hcl. destruct (e_value e0) as [[z0|]|] eqn:Ev0; try done.
        destruct Ht as [[H _]|[H _]]; [by left|right]. intros (e1 & z1 & A & B & C & D). specialize (H e1 z1 A B C). lia.
      - right. intros (e1 & z1 & A & B & C & D).
        assert (Hct : channel_type root (ch_name (e_chan e)) (ty_arithmos DInt)).
        { exists e1. split; [done|]. split; [done|]. rewrite C. left. split; [by exists e1, z1|done]. }
        apply (build_types b root b' Hg Hb) in Hct. congruence. }
    destruct Hd as [Hd|Hd].
    + exists (ty_arithmos DInt). apply (build_types b root b' Hg Hb). exists e. split; [done|]. split; [done|]. rewrite Ev. by left.
    + exists (ty_arithmos DNat). apply (build_types b root b' Hg Hb). exists e. split; [done|]. split; [done|]. rewrite Ev. right.
      split; [|done]. intros e1 z1 A B C. destruct (decide (z1 < 0)%Z) as [Hz|Hz]; [|lia]. exfalso. apply Hd. by exists e1, z1.
  - exists ty_enum. apply (build_types b root b' Hg Hb). exists e. split; [done|]. split; [done|]. by rewrite Ev.
  - exists ty_empty. apply (build_types b root b' Hg Hb). exists e. split; [done|]. split; [done|]. by rewrite Ev.
Qed.
Lemma tree_in_suite tests k t e : tests !! k = Some t -> tree_event t e -> suite_event tests e.
Proof. intros. by exists k, t. Qed.
Lemma build_suite_ok_iff (tests : gmap gostr node) b o f :
  (forall k t, tests !! k = Some t -> good_tree t) -> order_of tests o -> (forall ms, orders_of ms (f ms)) ->
  is_ok (build_suite b o f) <-> one_class (suite_event tests).
Proof.
  intros Hg Ho Hf. split.
  - intros [s Hs]. pose proof Hs as Hs'. unfold build_suite in Hs'.
    destruct (build_many b o ∅) as [r| |] eqn:Er; [|done|done].
    destruct (unify_types (f r) ∅) as [tm| |] eqn:Eu; [|done|done]. apply Ok_inj in Hs'.
    destruct (C30_build_suite_order_free tests b b o o f f Hg Ho Ho Hf Hf) as (_ & _ & H).
    destruct (H s Hs) as (Hm & _). subst s. cbn in Hm.
    assert (Hin : forall e, suite_event tests e -> exists ty, suite_type r (ch_name (e_chan e)) ty /\ t_kind ty = t_kind (value_type (e_value e))).
    { intros e (k & t & Hk & He). specialize (Hm k). rewrite Hk in Hm. destruct (r !! k) as [m|] eqn:Em; [|done].
      destruct Hm as (b' & Hb & <-). destruct (channel_type_exists b t b' e (Hg _ _ Hk) Hb He) as [ty Hty].
      exists ty. split; [by exists k, (b_stm b')|]. apply (build_types b t b' (Hg _ _ Hk) Hb) in Hty.
      eapply channel_kind; [|exact Hty|done|done]. apply (build_ok_iff b t (Hg _ _ Hk)). by eexists. }
    intros e1 e2 H1 H2 Hc. apply value_type_class.
    destruct (Hin e1 H1) as (t1 & A1 & <-). destruct (Hin e2 H2) as (t2 & A2 & <-). rewrite <- Hc in A2.
    assert (Hwf : forall c t, suite_type r c t -> wf_type t).
    { intros c t (k & m & Hk & Ht). specialize (Hm k). rewrite Hk in Hm. destruct (tests !! k) as [v|] eqn:Ev; [|done].
      destruct Hm as (b' & Hb & <-). apply (build_types b v b' (Hg _ _ Ev) Hb) in Ht.
      destruct Ht as (e & _ & _ & Ht). unfold wf_type. destruct (e_value e) as [[z|x]|]; [destruct Ht as [[_ ->]|[_ ->]]|subst t..]; auto. }
    destruct (C30_success_iff r (f r) (Hf r) Hwf) as [Hk _]. apply (Hk ltac:(by eexists) _ _ _ A1 A2).
  - intros Hcl. unfold build_suite.
    assert (Hb : forall k t, tests !! k = Some t -> exists b', build new_builder t = Ok b').
    { intros k t Hk. apply (build_ok_iff new_builder t (Hg k t Hk)). intros e1 e2 H1 H2. apply Hcl; by eapply tree_in_suite. }
    destruct (build_many b o ∅) as [r|e|] eqn:Er.
    2: { exfalso. rewrite build_many_spec in Er. apply try_over_map_fail in Er as (k & v & Hin & He).
         apply (order_of_elem tests o) in Hin; [|done]. destruct (Hb k v Hin) as [b' Hb']. unfold build_one in He. by rewrite Hb' in He. }
    2: { exfalso. rewrite build_many_spec in Er. apply try_over_map_panic in Er as (k & v & Hin & He).
         apply (order_of_elem tests o) in Hin; [|done]. destruct (Hb k v Hin) as [b' Hb']. unfold build_one in He. by rewrite Hb' in He. }
    assert (Hm : forall k, match tests !! k with None => r !! k = None | Some v => exists u, build_one v = Ok u /\ r !! k = Some u end).
    { rewrite build_many_spec in Er. by apply (try_over_map_order _ _ _ _ Ho). }
    assert (Hr : forall c ty, suite_type r c ty -> exists t, channel_type t c ty /\ good_tree t /\ no_type_conflict t /\
       forall e, tree_event t e -> suite_event tests e).
    { intros c ty (k & m & Hk & Hty). specialize (Hm k). destruct (tests !! k) as [t|] eqn:Et; [|congruence].
      destruct Hm as (u & Hu & Hr). replace m with u in * by congruence. exists t.
      destruct (Hb k t Et) as [b' Hb']. unfold build_one in Hu. rewrite Hb' in Hu. apply Ok_inj in Hu. subst u.
      split; [by apply (build_types new_builder t b' (Hg _ _ Et) Hb')|]. split; [by eapply Hg|].
      split; [apply (build_ok_iff new_builder t (Hg _ _ Et)); by eexists|]. intros e He. by eapply tree_in_suite. }
    assert (Hok : is_ok (unify_types (f r) ∅)).
    { apply (C30_success_iff r (f r) (Hf r)).
      - intros c t Ht. apply Hr in Ht as (T & (e & _ & _ & Ht) & _). unfold wf_type.
        destruct (e_value e) as [[z|x]|]; [destruct Ht as [[_ ->]|[_ ->]]|subst t..]; auto.
      - intros c t1 t2 H1 H2. apply Hr in H1 as (T1 & C1 & G1 & N1 & E1). apply Hr in H2 as (T2 & C2 & G2 & N2 & E2).
        pose proof C1 as (e1 & A1 & B1 & _). pose proof C2 as (e2 & A2 & B2 & _).
        rewrite (channel_kind T1 c t1 e1 N1 C1 A1 B1), (channel_kind T2 c t2 e2 N2 C2 A2 B2).
        apply value_type_class, Hcl; [by apply E1|by apply E2|congruence]. }
    destruct Hok as [tm ->]. by eexists.
Qed.

(** ** C68: rtcg-make-stms *)

(** It succeeds exactly on the suites of valid tests (none of them null) in which each channel
    has values of one class and every event has a value; whatever the iteration orders. *)
Theorem C68_accepts : forall o text s, any_orders o -> read_suite text = Ok s ->
  is_ok (run_make_stms o text) <->
  exists tests, s = Some <$> tests /\ (forall k t, tests !! k = Some t -> good_tree t) /\
    one_class (suite_event tests) /\ all_valued (suite_event tests).
Proof.
  intros o text s [Hv Hb Hu Hs] Hr. unfold run_make_stms. rewrite Hr. split.
  - intros [out Hout]. destruct (full_suite _) as [tests| |] eqn:Ef; [|done|done].
    pose proof (proj1 (C21_suite_validation_order_free s _ tests (Hv s)) Ef) as Ht.
    assert (Hg : forall k t, tests !! k = Some t -> good_tree t).
    { intros k t Hk. specialize (Ht k). destruct (s !! k) as [[n|]|]; [|done|congruence]. destruct Ht as [? Ht].
      replace t with n by congruence. done. }
    exists tests. split; [|split; [done|]].
    + apply map_eq. intros k. rewrite lookup_fmap. specialize (Ht k).
      destruct (s !! k) as [[n|]|]; [|done|by rewrite Ht]. destruct Ht as [_ ->]. done.
    + destruct (build_suite _ _ _) as [stms| |] eqn:Eb; [|done|done]. split.
      * apply (build_suite_ok_iff tests new_builder (ms_build o tests) (ms_unify o)); try done. by eexists.
      * destruct (C37_built tests new_builder (ms_build o tests) (ms_unify o) stms (ms_sets o stms) Hg (Hb tests) Hu Eb) as [Hw _].
        intros e (k & t & Hk & He). apply (proj1 Hw) with k t; try done.
        destruct (write_stm_suite _ _) as [x| |]; [by eexists|done|done].
  - intros (tests & -> & Hg & Hc & Hval).
    assert (Ef : full_suite (ms_valid o (Some <$> tests)) = Ok tests).
    { apply (C21_suite_validation_order_free (Some <$> tests)); [apply Hv|]. intros k. rewrite lookup_fmap.
      destruct (tests !! k) as [t|] eqn:Et; [|done]. cbn. split; [by eapply Hg|done]. }
    rewrite Ef. apply (build_suite_ok_iff tests new_builder (ms_build o tests) (ms_unify o)) in Hc as [stms Eb]; try done.
    rewrite Eb.
    destruct (C37_built tests new_builder (ms_build o tests) (ms_unify o) stms (ms_sets o stms) Hg (Hb tests) Hu Eb) as [Hw _].
    destruct (proj2 Hw) as [out ->]; [|by eexists]. intros k t e Hk He. apply Hval. by exists k, t.
Qed.
Print Assumptions C68_accepts.

(** What it prints, rtcg-gen reads as the machines of the tests. *)
Theorem C68_output : forall o text tests out, any_orders o -> read_suite text = Ok (Some <$> tests) ->
  safe_suite (Some <$> tests) -> run_make_stms o text = Ok out ->
  exists s, gen_input out = Some s /\ machines_of tests s.
Proof.
  intros o text tests out [Hv Hb Hu Hs] Hr Hsafe. unfold run_make_stms. rewrite Hr.
  destruct (full_suite _) as [tests'| |] eqn:Ef; [|done|done].
  pose proof (proj1 (C21_suite_validation_order_free _ _ tests' (Hv _)) Ef) as Ht.
  assert (tests' = tests) as ->.
  { apply map_eq. intros k. specialize (Ht k). rewrite lookup_fmap in Ht. destruct (tests !! k) as [t|]; cbn in Ht; [by destruct Ht|done]. }
  assert (Hg : forall k t, tests !! k = Some t -> good_tree t).
  { intros k t Hk. specialize (Ht k). rewrite lookup_fmap, Hk in Ht. by destruct Ht. }
  destruct (build_suite _ _ _) as [stms| |] eqn:Eb; [|done|done].
  destruct (C37_built tests new_builder (ms_build o tests) (ms_unify o) stms (ms_sets o stms) Hg (Hb tests) Hu Eb) as [_ Hw].
  destruct (write_stm_suite _ _) as [x| |] eqn:Ew; [|done|done]. intros ->%Ok_inj. exists stms. split.
  - unfold gen_input. rewrite (Hw) with (text := x); [apply use_raw_suite| |apply Hs|done].
    intros k t Hk. destruct (Hsafe k (Some t)) as [? ?]; [by rewrite lookup_fmap, Hk|]. done.
  - destruct (C30_build_suite_order_free tests new_builder new_builder (ms_build o tests) (ms_build o tests) (ms_unify o) (ms_unify o) Hg (Hb tests) (Hb tests) Hu Hu) as (_ & _ & H).
    apply (H stms Eb).
Qed.
Print Assumptions C68_output.

(** It crashes only on suites with a null test, and does crash on those whose other tests are
    all valid. *)
Theorem C68_crashes_only_on_null : forall o text, any_orders o ->
  (run_make_stms o text = Panic -> exists s k, read_suite text = Ok s /\ s !! k = Some None) /\
  (forall s k, read_suite text = Ok s -> s !! k = Some None ->
     (forall k' t, s !! k' = Some (Some t) -> good_tree t) -> run_make_stms o text = Panic).
Proof.
  intros o text [Hv Hb Hu Hs]. unfold run_make_stms. split.
  - destruct (read_suite text) as [s| |] eqn:Er; [|done|by apply read_suite_np in Er].
    destruct (full_suite _) as [tests| |] eqn:Ef; [|done|].
    + pose proof (proj1 (C21_suite_validation_order_free s _ tests (Hv s)) Ef) as Ht.
      assert (Hg : forall k t, tests !! k = Some t -> good_tree t).
      { intros k t Hk. specialize (Ht k). destruct (s !! k) as [[n|]|]; [|done|congruence]. destruct Ht as [? Ht].
        replace t with n by congruence. done. }
      destruct (build_suite _ _ _) as [stms| |] eqn:Eb; [|done|].
      * destruct (write_stm_suite _ _) as [?| |] eqn:Ew; [done|done|]. intros _. exfalso.
        unfold write_stm_suite in Ew. destruct (enc_stm_suite (ms_sets o stms) stms) as [j| |] eqn:Ej; cbn in Ew; [by destruct (write_doc j)|done|].
        by apply enc_stm_suite_np in Ej.
      * intros _. exfalso. unfold build_suite in Eb. destruct (build_many _ _ _) as [r| |] eqn:Em; [|done|].
        -- destruct (unify_types _ _) as [?| |] eqn:Eu; [done|done|].
           revert Eu. eapply unify_types_spec; [apply Hu|]. intros c t (k & m & Hk & Ht').
           rewrite build_many_spec in Em. apply (try_over_map_order _ tests _ _ (Hb tests)) with (k := k) in Em.
           destruct (tests !! k) as [v|] eqn:Ev; [|congruence]. destruct Em as (u & Hu' & Hr). replace m with u in * by congruence.
           by eapply build_one_types; [eapply Hg, Ev|exact Hu'|exact Ht'].
        -- rewrite build_many_spec in Em. apply try_over_map_panic in Em as (k & v & Hin & He).
           apply (order_of_elem tests) in Hin; [|apply Hb]. unfold build_one in He.
           pose proof (build_no_panic new_builder v (Hg k v Hin)). by destruct (build new_builder v).
    + intros _. unfold full_suite in Ef. apply try_over_map_panic in Ef as (k & v & Hin & He).
      apply (order_of_elem s) in Hin; [|apply Hv]. exists s, k. split; [done|]. destruct v as [n|]; [|done].
      exfalso. pose proof (full_no_panic n). by destruct (full (Some n)).
  - intros s k Hr Hk Hok. rewrite Hr. destruct (full_suite _) as [tests| |] eqn:Ef; [| |done].
    + pose proof (proj1 (C21_suite_validation_order_free s _ tests (Hv s)) Ef k) as Ht. by rewrite Hk in Ht.
    + exfalso. unfold full_suite in Ef. apply try_over_map_fail in Ef as (k' & v & Hin & He).
      apply (order_of_elem s) in Hin; [|apply Hv]. destruct v as [n|]; [|done].
      pose proof (proj2 (full_iff n) (Hok _ _ Hin)) as Hx. congruence.
Qed.
Print Assumptions C68_crashes_only_on_null.

(** ** C69: rtcg-read-traces *)

Lemma expanded_some (m : gmap gostr forbidden) order : order_of m order ->
  expand_all order = Some <$> map_imap (fun k t => Some (expand t k)) m.
Proof.
  intros Ho. apply map_eq. intros k. rewrite (expand_all_spec m order k Ho), lookup_fmap, map_lookup_imap. by destruct (m !! k).
Qed.

(** It succeeds exactly on the files that can be read and have no trace of more than 4996
    events before the forbidden one (the nesting limit of the JSON library). *)
Theorem C69_accepts : forall ord text, any_order ord ->
  is_ok (run_read_traces ord text) <->
  exists ts, read_traces text = Ok ts /\ Forall (fun t => length (f_prefix t) <= 4996) ts.
Proof.
  intros ord text Ho. unfold run_read_traces. destruct (read_traces text) as [ts| |] eqn:Et.
  - destruct (C12_naming_loses_nothing ts) as (m & Hm & _). rewrite Hm.
    pose proof (traces_write_iff ts m (ord m) Hm (Ho m)) as H.
    split.
    + intros [out Hout]. exists ts. split; [done|]. apply H. destruct (write_suite _) as [x|]; [by eexists|done].
    + intros (ts' & ->%Ok_inj & Hl). apply H in Hl as [out ->]. by eexists.
  - split; [by intros [? ?]|by intros (? & ? & _)].
  - split; [by intros [? ?]|by intros (? & ? & _)].
Qed.
Print Assumptions C69_accepts.

(** It never crashes. *)
Theorem C69_never_crashes : forall ord text, run_read_traces ord text <> Panic.
Proof.
  intros ord text. pose proof (read_traces_no_panic text) as Hp. unfold run_read_traces. destruct (read_traces text) as [ts| |]; [|done|done].
  destruct (C12_naming_loses_nothing ts) as (m & -> & _). by destruct (write_suite _).
Qed.

(** What it prints does not depend on the iteration order. *)
Theorem C69_deterministic : forall o1 o2 text, any_order o1 -> any_order o2 ->
  run_read_traces o1 text = run_read_traces o2 text.
Proof.
  intros o1 o2 text H1 H2. unfold run_read_traces. destruct (read_traces text) as [ts| |]; [|done|done].
  destruct (name_all ts) as [m|]; [|done]. by rewrite (C36_text_deterministic m (o1 m) (o2 m) (H1 m) (H2 m)).
Qed.

(** What it prints, rtcg-make-stms reads as the trees of the traces under their names. *)
Theorem C69_output : forall ord text ts out, any_order ord -> read_traces text = Ok ts -> Forall safe_trace ts ->
  run_read_traces ord text = Ok out ->
  exists names tests, named ts names /\ NoDup names /\ trees_of ts names tests /\
    read_suite out = Ok (Some <$> tests) /\ safe_suite (Some <$> tests).
Proof.
  intros ord text ts out Ho Et Hs. unfold run_read_traces. rewrite Et.
  destruct (name_all ts) as [m|] eqn:Hm; [|done].
  destruct (write_suite _) as [x|] eqn:Ew; [|done]. intros ->%Ok_inj.
  pose proof Hm as Hp. apply C13_naming_policy in Hp as (names & Hn & Hnd & Hl).
  exists names, (map_imap (fun k t => Some (expand t k)) m). split; [done|]. split; [done|]. split; [|split].
  - intros k n. rewrite map_lookup_imap. split.
    + destruct (m !! k) as [t|] eqn:Ek; [|done]. cbn. intros [= <-]. apply Hl in Ek as (i & Hi & Ht). by exists i, t.
    + intros (i & t & Hi & Ht & ->). rewrite (proj2 (Hl k t)); [done|]. by exists i.
  - rewrite <- (expanded_some m (ord m) (Ho m)). by apply (C36_traces_roundtrip ts m (ord m) Hm (Ho m) Hs).
  - rewrite <- (expanded_some m (ord m) (Ho m)). by eapply expanded_safe.
Qed.
Print Assumptions C69_output.

(** ** C61: from a trace file to running tests *)

(** *** The types inferred for a suite express its values *)
Lemma machine_type tests s k t m : machines_of tests s -> (forall k t, tests !! k = Some t -> good_tree t) ->
  tests !! k = Some t -> su_tests s !! k = Some m ->
  no_type_conflict t /\ (forall c ty, m_types m !! c = Some ty <-> channel_type t c ty) /\
  (forall e, tree_event t e -> exists ty, m_types m !! ch_name (e_chan e) = Some ty).
Proof.
  intros [Hm _] Hg Hk Hs. specialize (Hm k). rewrite Hk, Hs in Hm. destruct Hm as (b' & Hb & <-).
  split; [apply (build_ok_iff new_builder t (Hg _ _ Hk)); by eexists|]. split.
  - intros c ty. apply (build_types new_builder t b' (Hg _ _ Hk) Hb).
  - intros e He. exact (channel_type_exists new_builder t b' e (Hg _ _ Hk) Hb He).
Qed.
Lemma suite_types tests s c ty : machines_of tests s -> (forall k t, tests !! k = Some t -> good_tree t) ->
  suite_type (su_tests s) c ty -> exists k t, tests !! k = Some t /\ channel_type t c ty.
Proof.
  intros Hm Hg (k & m & Hk & Ht). pose proof Hm as [Hm' _]. specialize (Hm' k). rewrite Hk in Hm'.
  destruct (tests !! k) as [t|] eqn:Et; [|done]. exists k, t. split; [done|].
  by apply (machine_type tests s k t m Hm Hg Et Hk).
Qed.
Lemma types_expressible tests s e : machines_of tests s -> (forall k t, tests !! k = Some t -> good_tree t) ->
  one_class (suite_event tests) -> suite_event tests e -> literal_value (e_value e) ->
  exists ty, su_types s !! ch_name (e_chan e) = Some ty /\ expressible ty (e_value e).
Proof.
  intros Hm Hg Hc (k & t & Hk & He) Hl. pose proof Hm as [Hma Hty].
  assert (exists m, su_tests s !! k = Some m) as [m Hs].
  { specialize (Hma k). rewrite Hk in Hma. destruct (su_tests s !! k) as [m|]; [by eexists|done]. }
  destruct (machine_type tests s k t m Hm Hg Hk Hs) as (Hn & Hmt & Hex). destruct (Hex e He) as [ty Ht].
  assert (Hst : suite_type (su_tests s) (ch_name (e_chan e)) ty) by by exists k, m.
  assert (Hcl : forall k' t' e', tests !! k' = Some t' -> tree_event t' e' -> ch_name (e_chan e') = ch_name (e_chan e) ->
     class_of (e_value e') = class_of (e_value e)).
  { intros k' t' e' Hk' He' Hn'. apply Hc; [by exists k', t'|by exists k, t|done]. }
  destruct (e_value e) as [[z|x]|] eqn:Ev; [| |done].
  - assert (Hall : forall ty', suite_type (su_tests s) (ch_name (e_chan e)) ty' -> ty' = ty_arithmos DNat \/ ty' = ty_arithmos DInt).
    { intros ty' Ht'. apply (suite_types tests) in Ht' as (k' & t' & Hk' & e' & He' & Hn' & Hv'); [|done..].
      specialize (Hcl k' t' e' Hk' He' Hn'). destruct (e_value e') as [[z'|]|]; [|done..]. tauto. }
    destruct (decide (map_Exists (fun _ m => m_types m !! ch_name (e_chan e) = Some (ty_arithmos DInt)) (su_tests s))) as [Hi|Hi].
    + exists (ty_arithmos DInt). split; [|split; [by right|done]]. apply Hty. destruct Hi as (k' & m' & Hk' & Hi).
      split; [by left|]. split; [by exists ty|]. split.
      * intros ty' [->| ->]%Hall; (split; [done|]); cbn; lia.
      * intros d Hd. apply Hd. by exists k', m'.
    + assert (Hnat : forall ty', suite_type (su_tests s) (ch_name (e_chan e)) ty' -> ty' = ty_arithmos DNat).
      { intros ty' Ht'. destruct (Hall ty' Ht') as [->| ->]; [done|]. destruct Hi. destruct Ht' as (k' & m' & ? & ?). by exists k', m'. }
      exists (ty_arithmos DNat). split.
      * apply Hty. split; [by left|]. split; [by exists ty|]. split; [by intros ty' ->%Hnat|]. intros d Hd. apply Hd. by rewrite <- (Hnat ty Hst).
      * split; [|done]. left. split; [done|]. assert (ty = ty_arithmos DNat) as -> by by apply Hnat.
        apply Hmt in Ht as (e' & He' & Hn' & Hv'). specialize (Hcl k t e' Hk He' Hn').
        destruct (e_value e') as [[z'|]|] eqn:Ev'; [|done..]. destruct Hv' as [[_ Hv']|[Hv' _]]; [done|]. by apply (Hv' e).
  - exists ty_enum. split; [|done]. apply Hty.
    assert (Hall : forall ty', suite_type (su_tests s) (ch_name (e_chan e)) ty' -> ty' = ty_enum).
    { intros ty' Ht'. apply (suite_types tests) in Ht' as (k' & t' & Hk' & e' & He' & Hn' & Hv'); [|done..].
      specialize (Hcl k' t' e' Hk' He' Hn'). by destruct (e_value e') as [[z'|]|]. }
    split; [by right|]. split; [by exists ty|]. split; [by intros ty' ->%Hall|]. intros d Hd. apply Hd. by rewrite <- (Hall ty Hst).
Qed.

(** *** The events of the trees are those of the traces *)
Lemma trees_event ts names tests e : length names = length ts -> trees_of ts names tests ->
  suite_event tests e <-> traces_event ts e.
Proof.
  intros Hl Ht. split.
  - intros (k & n & Hk & He). apply Ht in Hk as (i & t & Hi & Hti & ->). apply expand_event in He. exists t. split; [|done].
    by eapply elem_of_list_lookup_2.
  - intros (t & Hin & He). apply elem_of_list_lookup in Hin as [i Hi].
    destruct (lookup_lt_is_Some_2 names i) as [k Hk]; [rewrite Hl; by eapply lookup_lt_Some|].
    exists k, (expand t k). split; [apply Ht; by exists i, t|]. by apply expand_event.
Qed.
Lemma trees_good ts names tests : trees_of ts names tests -> forall k t, tests !! k = Some t -> good_tree t.
Proof. intros H k n Hk. apply H in Hk as (i & t & _ & _ & ->). apply expand_good. Qed.

(** Once rtcg-read-traces has succeeded, rtcg-make-stms succeeds on its output exactly if each
    channel carries values of one class throughout the file, and every event has a value. *)
Theorem C61_up_to_type_conflicts : forall ord o text ts out, any_order ord -> any_orders o ->
  read_traces text = Ok ts -> Forall safe_trace ts -> run_read_traces ord text = Ok out ->
  is_ok (run_make_stms o out) <-> one_class (traces_event ts) /\ all_valued (traces_event ts).
Proof.
  intros ord o text ts out Ho Hos Hr Hs Hout.
  destruct (C69_output ord text ts out Ho Hr Hs Hout) as (names & tests & [Hl Hn] & Hnd & Ht & Hread & _).
  rewrite (C68_accepts o out _ Hos Hread).
  assert (Hev : forall e, suite_event tests e <-> traces_event ts e) by (intros e; by apply trees_event with names). split.
  - intros (tests' & He & _ & H1 & H2).
    assert (tests' = tests) as ->.
    { apply map_eq. intros k. apply (f_equal (lookup k)) in He. rewrite !lookup_fmap in He.
      destruct (tests !! k), (tests' !! k); cbn in He; congruence. }
    split; [intros e1 e2 A B; apply H1; by apply Hev|intros e A; apply H2; by apply Hev].
  - intros [H1 H2]. exists tests. split; [done|]. split; [by eapply trees_good|].
    split; [intros e1 e2 A B; apply H1; by apply Hev|intros e A; apply H2; by apply Hev].
Qed.
Print Assumptions C61_up_to_type_conflicts.

(** For every file of testable traces, the tools succeed and each trace has, under its own
    name, a machine whose program tests the trace. *)
Lemma trace_machine ts names tests s i t name : testable ts -> named ts names -> trees_of ts names tests -> machines_of tests s ->
  ts !! i = Some t -> names !! i = Some name ->
  trace_ok (su_types s) t /\ exists m b', su_tests s !! name = Some m /\ build new_builder (expand t name) = Ok b' /\ b_stm b' = m.
Proof.
  intros [Hsafe _ Hcl Hval Hrun] [Hl _] Ht Hm Hi Hn.
  assert (Hev : forall e, suite_event tests e <-> traces_event ts e) by (intros e; by apply trees_event with names).
  assert (Hin : t ∈ ts) by by eapply elem_of_list_lookup_2. split.
  - rewrite Forall_forall in Hrun. destruct (Hrun t Hin) as [Hk Hw]. split; [|split; [done|]].
    + intros e He. assert (traces_event ts e) as Hte by by exists t.
      apply (types_expressible tests); [done|by eapply trees_good| |by apply Hev|by apply Hval].
      intros e1 e2 A B. apply Hcl; by apply Hev.
    + split_and!; apply Hw; set_solver.
  - assert (Hk : tests !! name = Some (expand t name)) by (apply Ht; by exists i, t).
    destruct Hm as [Hm _]. specialize (Hm name). rewrite Hk in Hm. destruct (su_tests s !! name) as [m|]; [|done].
    destruct Hm as (b' & Hb & <-). by exists (b_stm b'), b'.
Qed.
Theorem C61_pipeline : forall ord o text ts, any_order ord -> any_orders o -> read_traces text = Ok ts -> testable ts ->
  exists tests_text stms_text s names,
    run_read_traces ord text = Ok tests_text /\ run_make_stms o tests_text = Ok stms_text /\ gen_input stms_text = Some s /\
    named ts names /\ NoDup names /\ (forall k, is_Some (su_tests s !! k) <-> k ∈ names) /\
    forall i t name, ts !! i = Some t -> names !! i = Some name ->
      exists m P, su_tests s !! name = Some m /\ elements (m_tests m) = [name] /\
        gen_program m (su_types s) [name] = Some P /\ tests_trace t P /\ tests_trace_ros t name P.
Proof.
  intros ord o text ts Ho Hos Hr Htt. pose proof Htt as [Hsafe Hdep Hcl Hval _].
  destruct (proj2 (C69_accepts ord text Ho)) as [out Hout]; [by exists ts|].
  destruct (proj2 (C61_up_to_type_conflicts ord o text ts out Ho Hos Hr Hsafe Hout)) as [out2 Hout2].
  { split; [done|]. intros e He Hv. specialize (Hval e He). by rewrite Hv in Hval. }
  destruct (C69_output ord text ts out Ho Hr Hsafe Hout) as (names & tests & Hnam & Hnd & Ht & Hread & Hss).
  destruct (C68_output o out tests out2 Hos Hread Hss Hout2) as (s & Hs & Hm).
  exists out, out2, s, names. do 5 (split; [done|]). split.
  - intros k. pose proof Hm as [Hm' _]. specialize (Hm' k). destruct Hnam as [Hl _]. split.
    + intros [m Hk]. rewrite Hk in Hm'. destruct (tests !! k) as [n|] eqn:Ek; [|done].
      apply Ht in Ek as (i & t & Hi & _). by eapply elem_of_list_lookup_2.
    + intros Hk. apply elem_of_list_lookup in Hk as [i Hi].
      destruct (lookup_lt_is_Some_2 ts i) as [t Hti]; [rewrite <- Hl; by eapply lookup_lt_Some|].
      rewrite (proj2 (Ht k (expand t k))) in Hm' by by exists i, t. destruct (su_tests s !! k); [by eexists|done].
  - intros i t name Hi Hn. destruct (trace_machine ts names tests s i t name) as (Hok & m & b' & Hsm & Hb & <-); try done.
    assert (Hel : elements (m_tests (b_stm b')) = [name]).
    { apply (trace_tests new_builder t name b'); [done|]. split; [apply NoDup_elements|]. intros x. apply elem_of_elements. }
    destruct (C40_fails_iff_observed new_builder t name b' (su_types s) [name] Hb Hok) as (P & HP & H).
    destruct (C63_ros_fails_iff_observed new_builder t name b' (su_types s) [name] Hb Hok) as (P' & HP' & H').
    replace P' with P in * by congruence.
    exists (b_stm b'), P. do 3 (split; [done|]). split; [|exact H'].
    intros script. destruct (H script) as (c & Hc & Hf & _). by exists c.
Qed.
Print Assumptions C61_pipeline.

(** The generator puts that program into the test's main.cpp, in every configured variant. *)
Lemma process_types cc types : fst <$> cx_types (process cc types) = types.
Proof.
  apply map_eq. intros k. rewrite lookup_fmap.
  destruct (C55_process cc types (map_to_list types)) as (_ & _ & Hd & Hl & _); [done|].
  destruct (types !! k) as [t|] eqn:Et; [exact (f_equal (fmap fst) (Hl k t Et))|].
  assert (cx_types (process cc types) !! k = None) as ->; [|done]. apply not_elem_of_dom. rewrite Hd. by apply not_elem_of_dom.
Qed.
Lemma program_renders v m cc types tests P : gen_program m types tests = Some P -> renders v m (process cc types) = true.
Proof.
  unfold gen_program, renders. destruct (m_states m) as [|s0 r]; [done|].
  destruct (forallb _ _) eqn:Ef; [|done]. destruct (gen_accept _) as [acc|]; [|done]. intros _.
  rewrite (bool_decide_eq_false_2 (s0 :: r = [])) by done. rewrite (bool_decide_eq_true_2 (is_Some (Some acc))) by by eexists. cbn [negb andb]. destruct v; try done.
  rewrite forallb_forall in Ef |- *. intros a Ha. specialize (Ef a Ha). apply bool_decide_eq_true in Ef. apply bool_decide_eq_true.
  pose proof (process_types cc types) as Hp. apply (f_equal (lookup (ch_name (ag_chan a)))) in Hp. rewrite lookup_fmap in Hp.
  rewrite <- Hp in Ef. destruct (_ !! _) as [x|]; [by eexists|]. by destruct Ef.
Qed.
Theorem C61_generated : forall ord o text ts stms_text s tests_text cwd c out gord f f' e,
  any_order ord -> any_orders o -> read_traces text = Ok ts -> testable ts ->
  run_read_traces ord text = Ok tests_text -> run_make_stms o tests_text = Ok stms_text -> gen_input stms_text = Some s ->
  sane c s -> separate cwd c out -> orders s gord -> unused f (resolve cwd out) -> generate cwd c out s gord f = (f', e) ->
  (e = None <-> forall cc, cc ∈ cf_cpps c ->
     (overridden cc s \/ lit "convert" ∈ dom (su_tests s)) /\ (overridden cc s -> has_file f (conv_source cwd c cc))) /\
  (e = None -> exists names, named ts names /\ NoDup names /\
     forall cc i t name, cc ∈ cf_cpps c -> ts !! i = Some t -> names !! i = Some name ->
       exists x P, fs_files f' !! (resolve cwd out ++ [variant_string (cc_variant cc); lit "src"; name; lit "src"; lit "main.cpp"]) = Some x /\
         main_program x = Some P /\ tests_trace t P /\ tests_trace_ros t name P).
Proof.
  intros ord o text ts stms_text s tests_text cwd c out gord f f' e Ho Hos Hr Htt H1 H2 H3 Hsane Hsep Hord Hun Hgen.
  destruct (C61_pipeline ord o text ts Ho Hos Hr Htt) as (x1 & x2 & s' & names & A1 & A2 & A3 & Hnam & Hnd & Hdom & Hall).
  rewrite H1 in A1. apply Ok_inj in A1. subst x1. rewrite H2 in A2. apply Ok_inj in A2. subst x2. rewrite H3 in A3. injection A3 as <-.
  assert (Hp : forall name m, su_tests s !! name = Some m -> exists i t, ts !! i = Some t /\ names !! i = Some name).
  { intros name m Hm. assert (name ∈ names) as Hin by (apply Hdom; by eexists). apply elem_of_list_lookup in Hin as [i Hi].
    destruct (lookup_lt_is_Some_2 ts i) as [t Hti]; [destruct Hnam as [<- _]; by eapply lookup_lt_Some|]. by exists i, t. }
  split.
  - rewrite (C49_succeeds_iff cwd c out s gord f f' e Hsane Hsep Hord Hun Hgen). unfold complete.
    split; intros H cc Hcc; destruct (H cc Hcc) as [Ha Hb]; [tauto|]. split; [done|]. split; [done|].
    intros name m Hm. destruct (Hp name m Hm) as (i & t & Hi & Hn). destruct (Hall i t name Hi Hn) as (m' & P & Hm' & _ & HP & _).
    replace m' with m in * by congruence. by eapply program_renders.
  - intros ->. exists names. split; [done|]. split; [done|]. intros cc i t name Hcc Hi Hn.
    destruct (Hall i t name Hi Hn) as (m & P & Hm & Hel & HP & HT & HR).
    destruct (C51_contents cwd c out s gord f f' cc Hsane Hsep Hord Hgen Hcc) as [_ Hc].
    exists (CMain (cc_variant cc) name m (process cc (su_types s))), P. split; [|split; [|done]].
    + specialize (Hc name m [lit "src"; name; lit "src"; lit "main.cpp"] (CMain (cc_variant cc) name m (process cc (su_types s))) Hm).
      rewrite <- app_assoc in Hc. apply Hc. left.
    + cbn [main_program]. by rewrite process_types, Hel.
Qed.
Print Assumptions C61_generated.

(** In particular every list of testable traces that can be written as a file at all (C08) has
    such a file. *)
Theorem C61_written : forall ts ord o, Forall writable ts -> testable ts -> any_order ord -> any_orders o ->
  exists tests_text stms_text s names, run_read_traces ord (trace_text ts) = Ok tests_text /\
    run_make_stms o tests_text = Ok stms_text /\ gen_input stms_text = Some s /\ named ts names /\
    forall i t name, ts !! i = Some t -> names !! i = Some name ->
      exists m P, su_tests s !! name = Some m /\ gen_program m (su_types s) [name] = Some P /\ tests_trace t P.
Proof.
  intros ts ord o Hw Htt Ho Hos. pose proof (C08_written_traces_read_back ts Hw) as Hr.
  destruct (C61_pipeline ord o _ ts Ho Hos Hr Htt) as (x & y & s & names & H1 & H2 & H3 & H4 & _ & _ & H).
  exists x, y, s, names. do 4 (split; [done|]). intros i t name Hi Hn.
  destruct (H i t name Hi Hn) as (m & P & ? & _ & ? & ? & _). by exists m, P.
Qed.

(** *** Witness: a file with a comment, a named and an unnamed trace, run through all tools *)
Definition w_file : gostr :=
  lit "# two traces" ++ nl :: lit "a: c.in.3,d.out.on" ++ nl :: lit "d.out.off, c.in.-4,d.out.on" ++ [nl].
Definition w_traces : list forbidden :=
  [Forbidden (lit "a") [w_ev (lit "c") KIn (Some (IntV 3))] (w_ev (lit "d") KOut (Some (EnumV (lit "on"))));
   Forbidden [] [w_ev (lit "d") KOut (Some (EnumV (lit "off"))); w_ev (lit "c") KIn (Some (IntV (-4)))]
     (w_ev (lit "d") KOut (Some (EnumV (lit "on"))))].
Lemma w_file_read : read_traces w_file = Ok w_traces.
Proof. vm_compute. reflexivity. Qed.
Lemma w_events e : traces_event w_traces e <-> e ∈ concat (map trace_events w_traces).
Proof.
  unfold traces_event. induction w_traces as [|t ts IH]; cbn [map concat].
  - split; [intros (t & Ht & _)|intros H]; by apply elem_of_nil in H || apply elem_of_nil in Ht.
  - rewrite elem_of_app, <- IH. split.
    + intros (t' & [->|Ht]%elem_of_cons & He); [by left|right]. by exists t'.
    + intros [He|(t' & Ht & He)]; [exists t|exists t']; (split; [|done]); [left|by right].
Qed.
Definition runnableb (t : forbidden) : bool :=
  forallb (fun e1 => forallb (fun e2 => negb (bool_decide (ch_name (e_chan e1) = ch_name (e_chan e2))) ||
      bool_decide (ch_kind (e_chan e1) = KIn) || bool_decide (ch_kind (e_chan e2) = KIn) ||
      bool_decide (ch_kind (e_chan e1) = ch_kind (e_chan e2))) (trace_events t)) (trace_events t) &&
  forallb (fun w => negb (bool_decide (w ∈ output_names (trace_events t)))) [lit "timeout"; lit "ready"; lit "accept"].
Lemma runnableb_ok t : runnableb t = true -> runnable t.
Proof.
  unfold runnableb. rewrite andb_true_iff, !forallb_forall. intros [H1 H2]. split.
  - intros e1 e2 He1 He2 Hn Hk1 Hk2. specialize (H1 e1 ltac:(by apply elem_of_list_In)). rewrite forallb_forall in H1.
    specialize (H1 e2 ltac:(by apply elem_of_list_In)). rewrite !orb_true_iff, negb_true_iff, bool_decide_eq_false, !bool_decide_eq_true in H1. tauto.
  - intros w Hw. specialize (H2 w ltac:(by apply elem_of_list_In)). by apply negb_true_iff, bool_decide_eq_false in H2.
Qed.
Lemma w_testable : testable w_traces.
Proof.
  split.
  - assert (He : forall text e, event_unmarshal zero_event text = Ok e -> negb (bool_decide (ch_name (e_chan e) = [])) = true ->
      forallb is_ascii (ch_name (e_chan e)) = true -> forallb is_ascii (value_string_value (e_value e)) = true -> safe_event e).
    { intros text e H1 H2 H3 H4. apply (C36_read_events_safe text e H1); [|by apply lit_valid..].
      by apply negb_true_iff, bool_decide_eq_false in H2. }
    assert (Hin : forall e, e ∈ concat (map trace_events w_traces) -> safe_event e).
    { intros e H. apply elem_of_list_In in H. cbn in H.
      destruct H as [<-|[<-|[<-|[<-|[<-|[]]]]]].
      + apply (He (lit "c.in.3")); vm_compute; reflexivity.
      + apply (He (lit "d.out.on")); vm_compute; reflexivity.
      + apply (He (lit "d.out.off")); vm_compute; reflexivity.
      + apply (He (lit "c.in.-4")); vm_compute; reflexivity.
      + apply (He (lit "d.out.on")); vm_compute; reflexivity. }
    apply Forall_forall. intros t Ht. assert (Ht' : forall e, e ∈ trace_events t -> safe_event e).
    { intros e H. apply Hin, w_events. by exists t. }
    split; [|split].
    + apply elem_of_list_In in Ht. destruct Ht as [<-|[<-|[]]]; by apply lit_valid.
    + apply Forall_forall. intros e H. apply Ht'. unfold trace_events. apply elem_of_app. by left.
    + apply Ht'. unfold trace_events. apply elem_of_app. right. left.
  - repeat constructor; apply Nat.leb_le; vm_compute; reflexivity.
  - intros e1 e2 H1 H2. rewrite w_events in H1, H2. apply elem_of_list_In in H1, H2. cbn in H1, H2.
    destruct H1 as [<-|[<-|[<-|[<-|[<-|[]]]]]], H2 as [<-|[<-|[<-|[<-|[<-|[]]]]]]; cbn; intros H; done || discriminate H.
  - intros e H. rewrite w_events in H. apply elem_of_list_In in H. cbn in H.
    destruct H as [<-|[<-|[<-|[<-|[<-|[]]]]]]; cbn; unfold cpp_safe; try lia; split_and!; refine (bool_decide_eq_false_1 _ _); vm_compute; reflexivity.
  - repeat constructor; apply runnableb_ok; vm_compute; reflexivity.
Qed.
Lemma w_names names : named w_traces names -> names = [lit "a"; lit "test0"].
Proof.
  intros [Hl Hn]. cbn in Hl.
  destruct (Hn 0 _ eq_refl) as (k0 & H0 & Hk0 & _). assert (k0 = 0) as -> by lia.
  destruct (Hn 1 _ eq_refl) as (k1 & H1 & Hk1 & _ & Hj).
  destruct names as [|n0 [|n1 [|? ?]]]; cbn in Hl; try lia. injection H0 as ->. injection H1 as ->.
  destruct k1 as [|k1]; [done|]. exfalso. specialize (Hj 0 ltac:(lia)). revert Hj. refine (bool_decide_eq_false_1 _ _). vm_compute. reflexivity.
Qed.
Example C61_witness : exists tests_text stms_text s f',
  run_read_traces map_to_list w_file = Ok tests_text /\ run_make_stms some_orders tests_text = Ok stms_text /\ gen_input stms_text = Some s /\
  generate ex_home ex_config (lit "out") s (fun _ => map_to_list (su_tests s)) ex_fs = (f', None) /\
  exists x P, fs_files f' !! [lit "home"; lit "out"; lit "ros"; lit "src"; lit "test0"; lit "src"; lit "main.cpp"] = Some x /\ main_program x = Some P.
Proof.
  assert (Ho : any_order map_to_list) by (intros m; unfold order_of; done).
  destruct (C61_pipeline map_to_list some_orders w_file w_traces Ho some_orders_any w_file_read w_testable)
    as (x & y & s & names & H1 & H2 & H3 & Hn & Hnd & Hdom & Hall).
  pose proof (w_names names Hn) as ->.
  destruct C49_witness as (_ & Hsep & _ & Hu & _).
  assert (Hs : sane ex_config s).
  { split; [apply ex_sane|apply ex_sane|]. intros name Hin. apply elem_of_dom, Hdom in Hin. apply elem_of_list_In in Hin.
    destruct Hin as [<-|[<-|[]]]; plain. }
  assert (Hord : orders s (fun _ => map_to_list (su_tests s))) by by intros ?.
  destruct (generate ex_home ex_config (lit "out") s (fun _ => map_to_list (su_tests s)) ex_fs) as [f' e] eqn:E.
  destruct (C61_generated map_to_list some_orders w_file w_traces y s x ex_home ex_config (lit "out") _ ex_fs f' e
              Ho some_orders_any w_file_read w_testable H1 H2 H3 Hs Hsep Hord Hu E) as [Hok Hfiles].
  assert (He : e = None).
  { apply Hok. intros cc Hcc. split.
    - left. exists (lit "c"). split.
      + destruct (Hall 0 _ _ eq_refl eq_refl) as (m & P & Hm & _ & HP & _).
        destruct (C69_output map_to_list w_file w_traces x Ho w_file_read (tt_safe _ w_testable) H1) as (names & tests & Hn' & _ & Ht & Hr & Hss).
        destruct (C68_output some_orders x tests y some_orders_any Hr Hss H2) as (s' & Hs' & Hms). rewrite H3 in Hs'. injection Hs' as <-.
        pose proof (w_names names Hn') as ->.
        destruct (trace_machine w_traces _ tests s 0 _ (lit "a") w_testable Hn' Ht Hms eq_refl eq_refl) as [[Hty _] _].
        destruct (Hty (w_ev (lit "c") KIn (Some (IntV 3)))) as (ty & Hty' & _); [left|]. apply elem_of_dom. by exists ty.
      + apply elem_of_list_In in Hcc. destruct Hcc as [<-|[<-|[]]]; left.
    - intros _. apply elem_of_list_In in Hcc. destruct Hcc as [<-|[<-|[]]]; eexists; vm_compute; reflexivity. }
  exists x, y, s, f'. do 3 (split; [done|]). split; [by rewrite E, He|].
  destruct (Hfiles He) as (names & Hn' & _ & Hf). pose proof (w_names names Hn') as ->.
  destruct (Hf (ex_cpp VRos) 1 _ (lit "test0") ltac:(right; left) eq_refl eq_refl) as (c & P & Hc & HP & _). exists c, P. split; [exact Hc|done].
Qed.
