(** * Properties C22-C30, C32-C35: building state machines *)
From Verif Require Import BuildProofs.

(** Witness: a branching tree.  foo.in.3, then either bar.out.On (a test point) or
    baz.out.-1 followed by a test point on bar.out.Off. *)
Definition w_foo : event := Event (Channel (lit "foo") KIn) (Some (IntV 3)).
Definition w_on : event := Event (Channel (lit "bar") KOut) (Some (EnumV (lit "On"))).
Definition w_off : event := Event (Channel (lit "bar") KOut) (Some (EnumV (lit "Off"))).
Definition w_baz : event := Event (Channel (lit "baz") KOut) (Some (IntV (-1))).
Definition w_baz2 : event := Event (Channel (lit "baz") KOut) (Some (IntV 7)).
Definition w_tree : node :=
  mark [lit "t"; lit "u"] (root_node
    [mark [lit "t"; lit "u"] (inc_node w_foo
      [test_point w_on [lit "t"];
       mark [lit "u"] (inc_node w_baz [test_point w_off [lit "u"]]);
       mark [lit "u"] (inc_node w_baz2 [mark [lit "u"] fail_node])])]).
Definition w_clash : node :=
  mark [lit "t"] (root_node [mark [lit "t"] (inc_node w_foo
    [test_point (Event (Channel (lit "foo") KOut) (Some (EnumV (lit "x")))) [lit "t"]])]).
Lemma w_tree_good : good_tree w_tree.
Proof. apply full_iff. vm_compute. done. Qed.
Lemma w_clash_good : good_tree w_clash.
Proof. apply full_iff. vm_compute. done. Qed.
Definition w_built : builder := Eval vm_compute in
  match build new_builder w_tree with Ok b => b | _ => new_builder end.
Lemma w_tree_builds : build new_builder w_tree = Ok w_built.
Proof. vm_compute. done. Qed.

(** C22: building a valid tree never crashes, and fails only on a real type conflict. *)
Theorem C22_build_never_crashes : forall b root, good_tree root ->
  build b root <> Panic /\
  forall c, build b root = Err (BTypeConflict c) ->
    exists e1 e2, tree_event root e1 /\ tree_event root e2 /\
      ch_name (e_chan e1) = c /\ ch_name (e_chan e2) = c /\ class_of (e_value e1) <> class_of (e_value e2).
Proof. intros b root H. split; [exact (build_no_panic b root H)|]. intros c. exact (build_err b root c H). Qed.
Print Assumptions C22_build_never_crashes.

(** Without validation it does crash: a non-failing node without an event. *)
Theorem C22_unvalidated_refuted : exists root, build new_builder root = Panic.
Proof. exists (root_node [new_node OInc None []]). vm_compute. done. Qed.

Example C22_witness : good_tree w_tree /\ good_tree w_clash /\
  build new_builder w_clash = Err (BTypeConflict (lit "foo")).
Proof. split; [exact w_tree_good|]. split; [exact w_clash_good|]. vm_compute. done. Qed.

(** C23: one state per non-failing node, under that node's identifier, the first being
    called initial and standing for the root. *)
Theorem C23_states_are_live_nodes : forall b root b', good_tree root -> build b root = Ok b' ->
  let T := apply_writes (b_writes b') root in
  identified root T /\
  initial_state (b_stm b') = Some (lit "initial") /\
  exists l, live_listing T l /\ map st_id (m_states (b_stm b')) = map (fun pn => n_id pn.2) l.
Proof.
  intros b root b' Hg Hb T. split; [exact (build_identified _ _ _ Hg Hb)|].
  destruct (build_listing _ _ _ Hg Hb) as (l & Hl & HF).
  assert (Hids : map st_id (m_states (b_stm b')) = map (fun pn => n_id pn.2) l).
  { clear Hl. induction HF as [|pn s l ss [Hid _ _ _] HF IH]; [done|]. cbn. by rewrite Hid, IH. }
  split; [|by exists l]. destruct Hl as [Hh _]. unfold initial_state.
  destruct l as [|pn l]; [done|]. injection Hh as ->. destruct (m_states (b_stm b')); [done|].
  cbn in Hids |- *. injection Hids as -> _. f_equal. by destruct (build_identified _ _ _ Hg Hb) as (_ & -> & _).
Qed.
Print Assumptions C23_states_are_live_nodes.

Example C23_witness : map st_id (m_states (b_stm w_built)) =
  [lit "initial"; lit "step0"; lit "step3"; lit "step2"; lit "step5"; lit "step1"].
Proof. vm_compute. done. Qed.

(** C24: with no (or harmless) pre-assigned identifiers, all identifiers are distinct. *)
Theorem C24_ids_unique : forall b root b', good_tree root -> build b root = Ok b' ->
  (forall p n, p <> [] -> node_at root p = Some n -> n_id n = []) ->
  NoDup (map st_id (m_states (b_stm b'))).
Proof.
  intros b root b' Hg Hb H. apply (build_ids_unique b root); [done|done|]. split.
  - intros p q n m Hp _ Hn _ _ Hne. by apply H in Hn.
  - intros p n Hp Hn. by rewrite (H p n).
Qed.
Print Assumptions C24_ids_unique.
Theorem C24_ids_unique_given : forall b root b', good_tree root -> build b root = Ok b' -> fresh_ids root ->
  NoDup (map st_id (m_states (b_stm b'))).
Proof. exact build_ids_unique. Qed.
Print Assumptions C24_ids_unique_given.

(** In general they need not be: an identifier given in the input can be one of the
    builder's own. *)
Theorem C24_colliding_ids_refuted : ~ forall b root b', good_tree root -> build b root = Ok b' ->
  NoDup (map st_id (m_states (b_stm b'))).
Proof.
  intros H.
  set (r := mark [lit "t"] (root_node [mark [lit "t"] (inc_node w_foo [set_id (lit "step0") (test_point w_on [lit "t"])])])).
  destruct (build new_builder r) as [b'|e|] eqn:E; [|by vm_compute in E|by vm_compute in E].
  assert (Hg : good_tree r) by (apply full_iff; vm_compute; done).
  specialize (H new_builder r b' Hg E). vm_compute in E. injection E as <-.
  cbn in H. apply NoDup_cons in H as [_ H]. apply NoDup_cons in H as [H _]. apply H. left.
Qed.

Example C24_witness : (forall p n, p <> [] -> node_at w_tree p = Some n -> n_id n = []) /\
  fresh_ids (mark [lit "t"] (root_node [set_id (lit "mine") (test_point w_on [lit "t"])])).
Proof.
  split.
  - intros p n Hp Hn. repeat (destruct p as [|[|[|[|?]]] p]; cbn in Hn; try done; try (by injection Hn as <-)).
  - split.
    + intros p q n m Hp Hq Hn Hm.
      destruct p as [|[|i] p]; [done| |by destruct p]. destruct q as [|[|j] q]; [done| |by destruct q].
      destruct p as [|[|i] p]; cbn in Hn; [| |by destruct p].
      * destruct q as [|[|j] q]; cbn in Hm; [done| |by destruct q]. destruct q as [|? ?]; [|done].
        injection Hn as <-. injection Hm as <-. done.
      * destruct p as [|? ?]; [|done]. injection Hn as <-. done.
    + intros p n Hp Hn. destruct p as [|[|i] p]; [done| |by destruct p].
      destruct p as [|[|i] p]; cbn in Hn; [injection Hn as <-; cbn; split; [done|]; intros k; done| |by destruct p].
      destruct p as [|? ?]; [|done]. injection Hn as <-. cbn. split; [done|]. intros k; done.
Qed.

(** C25: the targets of all transitions are, counted with multiplicity, exactly the states
    other than the first; every state is reachable. *)
Theorem C25_closed_and_connected : forall b root b', good_tree root -> build b root = Ok b' ->
  machine_targets (b_stm b') ≡ₚ tail (map st_id (m_states (b_stm b'))) /\
  forall s, s ∈ m_states (b_stm b') -> reachable (b_stm b') (st_id s).
Proof.
  intros b root b' Hg Hb. destruct (build_states _ _ _ Hg Hb) as (HgT & Hs & _). split.
  - destruct (b_stm b') as [ss types tests]. cbn in Hs. subst ss. by apply machine_targets_rlist.
  - intros s Hin. rewrite Hs in Hin. unfold out_states in Hin. apply elem_of_list_fmap in Hin as ([p n] & -> & Hin).
    apply (proj2 (proj2 (rlist_listing _ HgT))) in Hin as [H1 H2]. rewrite state_of_id. by eapply reach_nodes.
Qed.
Print Assumptions C25_closed_and_connected.

(** With distinct identifiers this is the statement about single states: each state but the
    first has exactly one transition leading to it, the first has none. *)
Theorem C25_exactly_one_way_in : forall b root b', good_tree root -> build b root = Ok b' -> fresh_ids root ->
  forall i s, m_states (b_stm b') !! i = Some s ->
    length (filter (fun x => x = st_id s) (machine_targets (b_stm b'))) = if decide (i = 0) then 0 else 1.
Proof.
  intros b root b' Hg Hb Hf i s Hi. destruct (C25_closed_and_connected _ _ _ Hg Hb) as [Hp _].
  pose proof (build_ids_unique _ _ _ Hg Hb Hf) as Hnd. rewrite Hp.
  destruct (m_states (b_stm b')) as [|s0 ss]; [done|]. cbn [map tail] in *. apply NoDup_cons in Hnd as [Hni Hnd].
  assert (Hcount : forall x (l : list gostr), NoDup l -> length (filter (fun y => y = x) l) = if decide (x ∈ l) then 1 else 0).
  { clear. intros x l Hl. induction Hl as [|y l Hy Hl IH]; [done|]. rewrite filter_cons. destruct (decide (y = x)) as [->|E].
    - cbn [length]. rewrite IH. rewrite !decide_False by done. rewrite decide_True by left. done.
    - rewrite IH. destruct (decide (x ∈ l)); [by rewrite decide_True by (by right)|].
      rewrite decide_False; [done|]. rewrite elem_of_cons. naive_solver. }
  rewrite Hcount by done. destruct i as [|i].
  - injection Hi as ->. cbn. by rewrite decide_False.
  - cbn in Hi |- *. rewrite decide_True; [done|]. apply elem_of_list_fmap. exists s. split; [done|]. by eapply elem_of_list_lookup_2.
Qed.
Print Assumptions C25_exactly_one_way_in.

Example C25_witness : machine_targets (b_stm w_built) = [lit "step0"; lit "step1"; lit "step2"; lit "step3"; lit "step5"].
Proof. vm_compute. done. Qed.

(** C26: the transitions of each state are exactly its node's non-failing successors. *)
Theorem C26_transitions_are_successors : forall b root b', good_tree root -> build b root = Ok b' ->
  let T := apply_writes (b_writes b') root in
  exists l, live_listing T l /\
    Forall2 (fun pn s =>
      (forall c, trans_on s c = map (fun ek => Transition (e_value ek.1) (n_id ek.2))
                                    (filter (fun ek => e_chan ek.1 = c) (live_succs pn.2))) /\
      map ts_chan (st_tsets s) = firsts (map (fun ek => e_chan ek.1) (live_succs pn.2)))
      l (m_states (b_stm b')).
Proof.
  intros b root b' Hg Hb T. destruct (build_listing _ _ _ Hg Hb) as (l & Hl & HF). exists l. split; [done|].
  eapply Forall2_impl; [exact HF|]. intros pn s [_ H1 H2 _]. done.
Qed.
Print Assumptions C26_transitions_are_successors.
(** [live_succs] leaves out only failing successors. *)
Theorem C26_no_successor_lost : forall root p n k, good_tree root -> node_at root p = Some n -> k ∈ n_next n ->
  n_outcome k = OFail \/ exists e, n_event k = Some e /\ (e, k) ∈ live_succs n.
Proof.
  intros root p n k Hg Hn Hk. destruct (decide (n_outcome k = OFail)) as [Ho|Ho]; [by left|right].
  pose proof Hk as Hk'. apply elem_of_list_lookup in Hk' as [i Hi].
  destruct (good_tree_live_event root (p ++ [i]) k Hg) as [e He].
  - by rewrite (node_at_snoc _ _ _ _ Hn).
  - by destruct p.
  - done.
  - exists e. split; [done|]. unfold live_succs. apply elem_of_list_omap. exists k. split; [done|].
    rewrite decide_False by done. by rewrite He.
Qed.
Print Assumptions C26_no_successor_lost.

Example C26_witness : st_tsets <$> (m_states (b_stm w_built) !! 1) =
  Some [TSet (Channel (lit "bar") KOut) [Transition (Some (EnumV (lit "On"))) (lit "step1")];
        TSet (Channel (lit "baz") KOut) [Transition (Some (IntV (-1))) (lit "step2"); Transition (Some (IntV 7)) (lit "step3")]].
Proof. vm_compute. done. Qed.

(** C27: verdicts. *)
Theorem C27_verdicts_from_successors : forall b root b', good_tree root -> build b root = Ok b' ->
  let T := apply_writes (b_writes b') root in
  exists l, live_listing T l /\
    Forall2 (fun pn s => st_id s = n_id pn.2 /\ forall t, st_verdict s !! t =
      n_outcome <$> last (filter (fun k => t ∈ n_tests k) (n_next pn.2))) l (m_states (b_stm b')).
Proof.
  intros b root b' Hg Hb T. destruct (build_listing _ _ _ Hg Hb) as (l & Hl & HF). exists l. split; [done|].
  eapply Forall2_impl; [exact HF|]. intros pn s [H _ _ H1]. done.
Qed.
Print Assumptions C27_verdicts_from_successors.

Example C27_witness :
  (fun s => (st_verdict s !! lit "t", st_verdict s !! lit "u")) <$> (m_states (b_stm w_built) !! 1) =
  Some (Some OPass, Some OInc).
Proof. vm_compute. done. Qed.

(** C28: recorded test names. *)
Theorem C28_recorded_tests : forall b root b', good_tree root -> build b root = Ok b' ->
  (forall t, t ∈ m_tests (b_stm b') <-> exists p n, p <> [] /\ node_at root p = Some n /\ t ∈ n_tests n) /\
  (forall s t, s ∈ m_states (b_stm b') -> is_Some (st_verdict s !! t) -> t ∈ m_tests (b_stm b')).
Proof.
  intros b root b' Hg Hb. destruct (build_states _ _ _ Hg Hb) as (HgT & Hs & Ht & He & _).
  assert (H1 : forall t, t ∈ m_tests (b_stm b') <-> exists p n, p <> [] /\ node_at root p = Some n /\ t ∈ n_tests n).
  { intros t. rewrite Ht, elem_tests_below. split; intros (p & n & Hp & Hn & Hin).
    - destruct (erase_node_at _ _ _ _ He Hn) as (m & Hm & Hmn). exists p, m. split; [done|]. split; [done|].
      by rewrite <- (proj1 (erase_fields m)), Hmn, (proj1 (erase_fields n)).
    - symmetry in He. destruct (erase_node_at _ _ _ _ He Hn) as (m & Hm & Hmn). exists p, m. split; [done|]. split; [done|].
      by rewrite <- (proj1 (erase_fields m)), Hmn, (proj1 (erase_fields n)). }
  split; [done|]. intros s t Hin Hv. rewrite Ht. apply elem_tests_below. rewrite Hs in Hin.
  unfold out_states in Hin. apply elem_of_list_fmap in Hin as ([p n] & -> & Hin).
  apply (proj2 (proj2 (rlist_listing _ HgT))) in Hin as [Hn _]. cbn [snd] in Hv.
  rewrite (sf_verdict _ _ (state_of_for n)) in Hv.
  destruct (last (filter (fun k => t ∈ n_tests k) (n_next n))) as [k|] eqn:E; [|by destruct Hv].
  apply last_Some in E as [l' E]. assert (Hk : k ∈ filter (fun k => t ∈ n_tests k) (n_next n)).
  { rewrite E. apply elem_of_app. right. left. }
  apply elem_of_list_filter in Hk as [Hk1 Hk2]. apply elem_of_list_lookup in Hk2 as [i Hi].
  exists (p ++ [i]), k. split; [by destruct p|]. split; [|done]. by rewrite (node_at_snoc _ _ _ _ Hn).
Qed.
Print Assumptions C28_recorded_tests.

Example C28_witness : map (fun t => bool_decide (t ∈ m_tests (b_stm w_built))) [lit "t"; lit "u"; lit "v"] = [true; true; false].
Proof. vm_compute. done. Qed.

(** C29: exact type inference. *)
Theorem C29_inference_exact : forall b root, good_tree root ->
  (is_ok (build b root) <-> no_type_conflict root) /\
  forall b', build b root = Ok b' ->
    forall c t, m_types (b_stm b') !! c = Some t <-> channel_type root c t.
Proof. intros b root H. split; [exact (build_ok_iff b root H)|]. intros b'. exact (build_types b root b' H). Qed.
Print Assumptions C29_inference_exact.

Example C29_witness :
  m_types (b_stm w_built) !! lit "foo" = Some (ty_arithmos DNat) /\
  m_types (b_stm w_built) !! lit "bar" = Some ty_enum /\
  m_types (b_stm w_built) !! lit "baz" = Some (ty_arithmos DInt) /\
  ~ no_type_conflict w_clash.
Proof.
  split; [by vm_compute|]. split; [by vm_compute|]. split; [by vm_compute|].
  intros H. apply (build_ok_iff new_builder) in H; [|exact w_clash_good].
  destruct C22_witness as (_ & _ & E). rewrite E in H. destruct H as [? H]. discriminate H.
Qed.

(** C30: unifying the types of a suite, in any iteration order. *)
Theorem C30_suite_types_order_free : forall (tests : gmap gostr stm) orders, orders_of tests orders ->
  (forall c t, suite_type tests c t -> wf_type t) ->
  (forall tm, unify_types orders ∅ = Ok tm <->
     (forall c t1 t2, suite_type tests c t1 -> suite_type tests c t2 -> t_kind t1 = t_kind t2) /\
     (forall c u, tm !! c = Some u <-> suite_lub tests c u)) /\
  (forall c, unify_types orders ∅ = Err (BTypeConflict c) ->
     exists t1 t2, suite_type tests c t1 /\ suite_type tests c t2 /\ t_kind t1 <> t_kind t2) /\
  unify_types orders ∅ <> Panic.
Proof. exact unify_types_spec. Qed.
Print Assumptions C30_suite_types_order_free.

(** Success is characterised without any order. *)
Theorem C30_success_iff : forall (tests : gmap gostr stm) orders, orders_of tests orders ->
  (forall c t, suite_type tests c t -> wf_type t) ->
  is_ok (unify_types orders ∅) <->
  (forall c t1 t2, suite_type tests c t1 -> suite_type tests c t2 -> t_kind t1 = t_kind t2).
Proof.
  intros tests orders Ho Hwf. destruct (unify_types_spec tests orders Ho Hwf) as (H1 & H2 & H3). split.
  - intros [tm Htm]. by apply H1 in Htm as [? _].
  - intros Hk. destruct (unify_types orders ∅) as [tm|[c]|]; [by eexists| |done].
    destruct (H2 c eq_refl) as (t1 & t2 & A & B & C). exfalso. by eapply C, Hk.
Qed.
Print Assumptions C30_success_iff.

(** C30 for the whole of BuildSuite on valid tests: same result for all iteration orders and
    any builder, never a crash; the machines are those of the individual tests. *)
Theorem C30_build_suite_order_free : forall (tests : gmap gostr node) b1 b2 o1 o2 f1 f2,
  (forall k t, tests !! k = Some t -> good_tree t) ->
  order_of tests o1 -> order_of tests o2 ->
  (forall ms, orders_of ms (f1 ms)) -> (forall ms, orders_of ms (f2 ms)) ->
  (forall s, build_suite b1 o1 f1 = Ok s <-> build_suite b2 o2 f2 = Ok s) /\
  build_suite b1 o1 f1 <> Panic /\
  forall s, build_suite b1 o1 f1 = Ok s ->
    (forall k, match tests !! k, su_tests s !! k with
               | Some t, Some m => exists b', build b1 t = Ok b' /\ b_stm b' = m
               | None, None => True
               | _, _ => False
               end) /\
    (forall c u, su_types s !! c = Some u <-> suite_lub (su_tests s) c u).
Proof.
  intros tests b1 b2 o1 o2 f1 f2 Hg H1 H2 Hf1 Hf2.
  assert (Hmany : forall b o, order_of tests o -> forall r, build_many b o ∅ = Ok r <->
     forall k, match tests !! k with None => r !! k = None | Some v => exists u, build_one v = Ok u /\ r !! k = Some u end).
  { intros b o Ho r. rewrite build_many_spec. apply (try_over_map_order _ _ _ _ Ho). }
  assert (Hwf : forall b o r, order_of tests o -> build_many b o ∅ = Ok r -> forall c t, suite_type r c t -> wf_type t).
  { intros b o r Ho Hr c t (k & m & Hk & Ht). rewrite (Hmany b o Ho) in Hr. specialize (Hr k).
    destruct (tests !! k) as [v|] eqn:E; [|congruence]. destruct Hr as (u & Hu & Hr). replace m with u in * by congruence.
    eapply build_one_types; [|done|done]. by eapply Hg. }
  assert (Hsuite : forall b o f, order_of tests o -> (forall ms, orders_of ms (f ms)) -> forall s,
     build_suite b o f = Ok s <->
     (forall k, match tests !! k with None => su_tests s !! k = None | Some v => exists u, build_one v = Ok u /\ su_tests s !! k = Some u end) /\
     (forall c t1 t2, suite_type (su_tests s) c t1 -> suite_type (su_tests s) c t2 -> t_kind t1 = t_kind t2) /\
     (forall c u, su_types s !! c = Some u <-> suite_lub (su_tests s) c u)).
  { intros b o f Ho Hf s. unfold build_suite. split.
    - destruct (build_many b o ∅) as [r|e|] eqn:Er; [|done|done].
      destruct (unify_types_spec r (f r) (Hf r) (Hwf _ _ _ Ho Er)) as (U1 & _).
      destruct (unify_types (f r) ∅) as [tm|e|] eqn:Et; [|done|done]. intros [= <-]. cbn.
      split; [by apply (Hmany b o Ho)|]. by apply U1.
    - intros (A & B & C). destruct s as [tm r]. cbn in *.
      assert (Er : build_many b o ∅ = Ok r) by (by apply (Hmany b o Ho)). rewrite Er.
      destruct (unify_types_spec r (f r) (Hf r) (Hwf _ _ _ Ho Er)) as (U1 & _).
      assert (unify_types (f r) ∅ = Ok tm) as -> by (by apply U1). done. }
  split; [intros s; by rewrite !Hsuite|]. split.
  - unfold build_suite. destruct (build_many b1 o1 ∅) as [r|e|] eqn:Er; [|done|].
    + destruct (unify_types_spec r (f1 r) (Hf1 r) (Hwf _ _ _ H1 Er)) as (_ & _ & U3).
      by destruct (unify_types (f1 r) ∅).
    + exfalso. rewrite build_many_spec in Er. apply try_over_map_panic in Er as (k & v & Hin & He).
      unfold build_one in He. assert (Hv : good_tree v) by (apply (Hg k); by apply (order_of_elem tests o1)).
      pose proof (build_no_panic new_builder v Hv). by destruct (build new_builder v).
  - intros s Hs. apply Hsuite in Hs as (A & _ & C); [|done|done]. split; [|done].
    intros k. specialize (A k). destruct (tests !! k) as [t|]; [|by rewrite A].
    destruct A as (u & Hu & ->). unfold build_one in Hu. rewrite (build_any new_builder b1) in Hu.
    destruct (build b1 t) as [b'|e|]; try done. exists b'. split; [done|]. by injection Hu.
Qed.
Print Assumptions C30_build_suite_order_free.

Example C30_witness :
  let m1 := Stm [] {[ lit "a" := ty_arithmos DNat ]} ∅ in
  let m2 := Stm [] {[ lit "a" := ty_arithmos DInt ]} ∅ in
  orders_of (<[lit "x" := m1]> {[ lit "y" := m2 ]}) [[(lit "a", ty_arithmos DInt)]; [(lit "a", ty_arithmos DNat)]] /\
  match unify_types [[(lit "a", ty_arithmos DInt)]; [(lit "a", ty_arithmos DNat)]] ∅ with
  | Ok tm => tm !! lit "a" = Some (ty_arithmos DInt) | _ => False end /\
  unify_types [[(lit "a", ty_arithmos DInt)]; [(lit "a", ty_enum)]] ∅ = Err (BTypeConflict (lit "a")).
Proof.
  cbn zeta. split; [|split; vm_compute; reflexivity].
  exists [Stm [] {[ lit "a" := ty_arithmos DInt ]} ∅; Stm [] {[ lit "a" := ty_arithmos DNat ]} ∅]. split.
  - rewrite map_to_list_insert by (by vm_compute). rewrite map_to_list_singleton. cbn. apply Permutation_swap.
  - repeat constructor; cbn; by rewrite map_to_list_singleton.
Qed.

(** C32: building again changes nothing. *)
Theorem C32_rebuild_same : forall b1 b2 root b', good_tree root -> build b1 root = Ok b' ->
  let T := apply_writes (b_writes b') root in
  exists b'', build b2 T = Ok b'' /\ b_stm b'' = b_stm b' /\ apply_writes (b_writes b'') T = T.
Proof. exact rebuild. Qed.
Print Assumptions C32_rebuild_same.
(** The builder's previous state never matters. *)
Theorem C32_builder_state_irrelevant : forall b1 b2 root, build b1 root = build b2 root.
Proof. exact build_any. Qed.

Example C32_witness : n_id (apply_writes (b_writes w_built) w_tree) = lit "initial" /\
  apply_writes (b_writes w_built) w_tree <> w_tree.
Proof. split; [by vm_compute|]. intros H. apply (f_equal n_id) in H. vm_compute in H. done. Qed.

(** C33: adding a transition, for every list of sets. *)
Theorem C33_add_to_sets : forall sets c t,
  NoDup (map ts_chan sets) -> Forall (fun ts => ts_trans ts <> []) sets ->
  NoDup (map ts_chan (add_to_sets sets c t)) /\
  Forall (fun ts => ts_trans ts <> []) (add_to_sets sets c t) /\
  map ts_chan (add_to_sets sets c t) =
    (if decide (c ∈ map ts_chan sets) then map ts_chan sets else map ts_chan sets ++ [c]) /\
  (forall i ts, sets !! i = Some ts ->
     add_to_sets sets c t !! i = Some (if decide (ts_chan ts = c) then TSet c (ts_trans ts ++ [t]) else ts)) /\
  (c ∉ map ts_chan sets -> add_to_sets sets c t = sets ++ [TSet c [t]]).
Proof.
  intros sets c t Hnd Hne. pose proof (add_to_sets_chans sets c t) as Hch.
  assert (Hl : forall i ts, sets !! i = Some ts ->
     add_to_sets sets c t !! i = Some (if decide (ts_chan ts = c) then TSet c (ts_trans ts ++ [t]) else ts)).
  { clear Hne Hch. induction sets as [|x l IH]; intros i ts Hi; [done|]. cbn [map] in Hnd. apply NoDup_cons in Hnd as [Hni Hnd].
    cbn [add_to_sets]. rewrite channel_equals_dec. case_bool_decide as E.
    - destruct i as [|i]; cbn in Hi |- *.
      + injection Hi as <-. rewrite decide_True by done. by rewrite E.
      + rewrite Hi. rewrite decide_False; [done|]. intros Hc. apply Hni. rewrite E, <- Hc. apply elem_of_list_fmap.
        exists ts. split; [done|]. by eapply elem_of_list_lookup_2.
    - destruct i as [|i]; cbn in Hi |- *; [injection Hi as <-; by rewrite decide_False|]. by apply IH. }
  split; [|split; [by apply add_to_sets_nonempty|split; [done|split; [done|]]]].
  - rewrite Hch. destruct (decide (c ∈ map ts_chan sets)); [done|]. apply NoDup_app. split; [done|]. split.
    + intros x Hx Hx'. apply elem_of_list_singleton in Hx' as ->. done.
    + apply NoDup_singleton.
  - clear. induction sets as [|x l IH]; [done|]. cbn [map]. rewrite not_elem_of_cons. intros [H1 H2]. cbn.
    rewrite channel_equals_dec, bool_decide_false by congruence. cbn. by rewrite IH.
Qed.
Print Assumptions C33_add_to_sets.
(** Hence every state of a built machine has one non-empty set per channel. *)
Theorem C33_built_states : forall b root b', good_tree root -> build b root = Ok b' ->
  forall s, s ∈ m_states (b_stm b') ->
    NoDup (map ts_chan (st_tsets s)) /\ Forall (fun ts => ts_trans ts <> []) (st_tsets s).
Proof.
  intros b root b' Hg Hb s Hin. destruct (build_states _ _ _ Hg Hb) as (_ & Hs & _). rewrite Hs in Hin.
  unfold out_states in Hin. apply elem_of_list_fmap in Hin as ([p n] & -> & _). cbn.
  destruct (state_of_props n) as [H1 H2]. split; [|done]. rewrite (sf_chans _ _ H1). apply firsts_NoDup.
Qed.
Print Assumptions C33_built_states.

Example C33_witness :
  add_to_sets [TSet (Channel (lit "a") KIn) [Transition None (lit "p")]] (Channel (lit "a") KOut) (Transition None (lit "q")) =
  [TSet (Channel (lit "a") KIn) [Transition None (lit "p")]; TSet (Channel (lit "a") KOut) [Transition None (lit "q")]].
Proof. vm_compute. done. Qed.

(** C34: grouping by channel, for every machine. *)
Theorem C34_aggregation_complete : forall m,
  map ag_chan (transition_sets m) = firsts (concat (map (fun s => map ts_chan (st_tsets s)) (m_states m))) /\
  NoDup (map ag_chan (transition_sets m)) /\
  forall a, a ∈ transition_sets m -> forall id,
    sm_get (ag_states a) id = trans_at (m_states m) id (ag_chan a) /\
    (is_Some (ag_states a !! id) <->
     exists s, s ∈ m_states m /\ st_id s = id /\ ag_chan a ∈ map ts_chan (st_tsets s)).
Proof.
  intros m. split; [exact (transition_sets_chans m)|]. split; [rewrite transition_sets_chans; apply firsts_NoDup|].
  intros a Ha id. split; [exact (transition_sets_get m a id Ha)|exact (transition_sets_keys m a id Ha)].
Qed.
Print Assumptions C34_aggregation_complete.
(** For distinct identifiers: exactly the transitions of that state on that channel. *)
Theorem C34_aggregation_per_state : forall m a s, NoDup (map st_id (m_states m)) ->
  a ∈ transition_sets m -> s ∈ m_states m -> sm_get (ag_states a) (st_id s) = trans_on s (ag_chan a).
Proof.
  intros m a s Hnd Ha Hs. rewrite (transition_sets_get m a _ Ha). unfold trans_at.
  assert (filter (fun s' => st_id s' = st_id s) (m_states m) = [s]) as ->; [|cbn; by rewrite app_nil_r].
  clear Ha. induction (m_states m) as [|x l IH]; [by apply elem_of_nil in Hs|]. cbn in Hnd. apply NoDup_cons in Hnd as [Hni Hnd].
  rewrite filter_cons. apply elem_of_cons in Hs as [<-|Hs].
  - rewrite decide_True by done. f_equal. clear IH Hnd. induction l as [|y l IHl]; [done|]. cbn in Hni. apply not_elem_of_cons in Hni as [H1 H2].
    rewrite filter_cons, decide_False by congruence. by apply IHl.
  - case_decide as E; [|by apply IH]. exfalso. apply Hni. rewrite E. apply elem_of_list_fmap. by exists s.
Qed.
Print Assumptions C34_aggregation_per_state.

Example C34_witness :
  map ag_chan (transition_sets (b_stm w_built)) = [Channel (lit "foo") KIn; Channel (lit "bar") KOut; Channel (lit "baz") KOut] /\
  NoDup (map st_id (m_states (b_stm w_built))).
Proof.
  split; [by vm_compute|]. apply (C24_ids_unique new_builder w_tree); [exact w_tree_good|exact w_tree_builds|apply C24_witness].
Qed.

(** C35: the context splits the channels into inputs and others. *)
Theorem C35_context_split : forall m, let c := make_transitions m in
  tc_all c = transition_sets m /\
  tc_channels c = map ag_chan (transition_sets m) /\
  tc_in c = filter (fun a => ch_kind (ag_chan a) = KIn) (transition_sets m) /\
  tc_out c = filter (fun a => ch_kind (ag_chan a) <> KIn) (transition_sets m) /\
  (tc_has_in c = true <-> exists s ts, s ∈ m_states m /\ ts ∈ st_tsets s /\ ch_kind (ts_chan ts) = KIn) /\
  (tc_first_state_has_in c = true <-> exists s ts, head (m_states m) = Some s /\ ts ∈ st_tsets s /\ ch_kind (ts_chan ts) = KIn).
Proof.
  intros m. destruct (make_transitions_spec m) as (H1 & H2 & H3 & H4 & H5 & H6 & _). cbn zeta.
  split; [done|]. split; [done|]. split; [done|]. split; [done|]. split.
  - rewrite H6, bool_decide_eq_true. split.
    + intros Hne. destruct (ins (transition_sets m)) as [|a l] eqn:E; [done|].
      assert (Ha : a ∈ ins (transition_sets m)) by (rewrite E; left). apply elem_of_list_filter in Ha as [Hk Ha].
      assert (Hc : ag_chan a ∈ map ag_chan (transition_sets m)) by (apply elem_of_list_fmap; by exists a).
      rewrite transition_sets_chans, firsts_elem in Hc. rewrite <- flat_chans in Hc. apply flat_chan in Hc as (s & Hs & Hc).
      apply elem_of_list_fmap in Hc as (ts & Hc & Hts). exists s, ts. by rewrite <- Hc.
    + intros (s & ts & Hs & Hts & Hk) Hnil.
      assert (Hc : ts_chan ts ∈ map ag_chan (transition_sets m)).
      { rewrite transition_sets_chans, firsts_elem, <- flat_chans. apply flat_chan. exists s. split; [done|].
        apply elem_of_list_fmap. by exists ts. }
      apply elem_of_list_fmap in Hc as (a & Hc & Ha). rewrite Hc in Hk.
      assert (a ∈ ins (transition_sets m)) as Hin by (by apply elem_of_list_filter). rewrite Hnil in Hin. by apply elem_of_nil in Hin.
  - rewrite H5. unfold first_state_has_in. destruct (m_states m) as [|s l]; cbn.
    + split; [done|]. by intros (s & ts & ? & _).
    + rewrite existsb_exists. split.
      * intros (ts & Hin & Hk). exists s, ts. split; [done|]. split; [by apply elem_of_list_In|]. by apply bool_decide_eq_true in Hk.
      * intros (s' & ts & [= <-] & Hin & Hk). exists ts. split; [by apply elem_of_list_In|]. by apply bool_decide_eq_true.
Qed.
Print Assumptions C35_context_split.

(** C35: the merged input table. *)
Theorem C35_merged_inputs : forall m, NoDup (map st_id (m_states m)) ->
  (forall s, s ∈ m_states m -> NoDup (map ts_chan (st_tsets s)) ->
     sm_get (tc_in_merged (make_transitions m)) (st_id s) ≡ₚ
     concat (map ts_trans (filter (fun ts => ch_kind (ts_chan ts) = KIn) (st_tsets s)))) /\
  (forall id, is_Some (tc_in_merged (make_transitions m) !! id) <->
     exists s ts, s ∈ m_states m /\ st_id s = id /\ ts ∈ st_tsets s /\ ch_kind (ts_chan ts) = KIn).
Proof.
  intros m Hnd. destruct (make_transitions_spec m) as (_ & _ & _ & _ & _ & _ & H7 & H8). split.
  - intros s Hs Hc. rewrite H7.
    assert (Heq : map (fun a => sm_get (ag_states a) (st_id s)) (ins (transition_sets m)) =
                  map (trans_on s) (map ag_chan (ins (transition_sets m)))).
    { rewrite map_map. apply map_ext_in. intros a Ha. apply elem_of_list_In, elem_of_list_filter in Ha as [_ Ha].
      by apply (C34_aggregation_per_state m). }
    rewrite Heq. clear Heq.
    assert (Hin : forall ts, ts ∈ st_tsets s -> ch_kind (ts_chan ts) = KIn -> ts_chan ts ∈ map ag_chan (ins (transition_sets m))).
    { intros ts Hts Hk. assert (Hcc : ts_chan ts ∈ map ag_chan (transition_sets m)).
      { rewrite transition_sets_chans, firsts_elem, <- flat_chans. apply flat_chan. exists s. split; [done|].
        apply elem_of_list_fmap. by exists ts. }
      apply elem_of_list_fmap in Hcc as (a & Ha & Hin). apply elem_of_list_fmap. exists a. split; [done|].
      apply elem_of_list_filter. split; [by rewrite <- Ha|done]. }
    assert (HCk : Forall (fun c => ch_kind c = KIn) (map ag_chan (ins (transition_sets m)))).
    { apply Forall_forall. intros c Hcin. apply elem_of_list_fmap in Hcin as (a & -> & Ha). by apply elem_of_list_filter in Ha as [? _]. }
    assert (HCnd : NoDup (map ag_chan (ins (transition_sets m)))).
    { assert (HN : NoDup (map ag_chan (transition_sets m))) by (rewrite transition_sets_chans; apply firsts_NoDup).
      revert HN. unfold ins. generalize (transition_sets m) as l. induction l as [|a l IH]; [done|]. cbn [map]. rewrite NoDup_cons.
      intros [A B]. rewrite filter_cons. case_decide; [|by apply IH]. cbn [map]. apply NoDup_cons. split; [|by apply IH].
      intros Hi. apply A. apply elem_of_list_fmap in Hi as (b & -> & Hb). apply elem_of_list_filter in Hb as [_ Hb].
      apply elem_of_list_fmap. by exists b. }
    revert Hin HCk HCnd. generalize (map ag_chan (ins (transition_sets m))) as C. intros C Hin HCk HCnd.
    unfold trans_on. revert Hin. clear Hc Hs. induction (st_tsets s) as [|ts l IH]; intros Hin.
    { cbn. clear. induction C as [|c C IH]; [done|]. done. }
    rewrite filter_cons.
    assert (IH' := IH ltac:(intros t Ht; apply Hin; by right)). clear IH.
    assert (Hfun : forall c, concat (map ts_trans (filter (fun t => ts_chan t = c) (ts :: l))) =
       (if decide (ts_chan ts = c) then ts_trans ts else []) ++ concat (map ts_trans (filter (fun t => ts_chan t = c) l))).
    { intros c. rewrite filter_cons. by destruct (decide (ts_chan ts = c)). }
    assert (Hsplit : concat (map (fun c => concat (map ts_trans (filter (fun t => ts_chan t = c) (ts :: l)))) C) ≡ₚ
       concat (map (fun c => if decide (ts_chan ts = c) then ts_trans ts else []) C) ++
       concat (map (fun c => concat (map ts_trans (filter (fun t => ts_chan t = c) l))) C)).
    { clear -Hfun. induction C as [|c C IH]; [done|]. cbn [map concat]. rewrite IH, Hfun.
      rewrite <- !(assoc_L (++)). f_equiv. rewrite !(assoc_L (++)). f_equiv. apply Permutation_app_comm. }
    rewrite Hsplit, IH'. clear Hsplit IH' Hfun.
    assert (Hone : concat (map (fun c => if decide (ts_chan ts = c) then ts_trans ts else []) C) =
                   if decide (ch_kind (ts_chan ts) = KIn) then ts_trans ts else []).
    { destruct (decide (ch_kind (ts_chan ts) = KIn)) as [Hk|Hk].
      - assert (Hc : ts_chan ts ∈ C) by (apply Hin; [left|done]). clear -Hc HCnd.
        induction HCnd as [|c C Hni HC IH]; [by apply elem_of_nil in Hc|]. cbn. apply elem_of_cons in Hc as [<-|Hc].
        + rewrite decide_True by done.
          assert (concat (map (fun c => if decide (ts_chan ts = c) then ts_trans ts else []) C) = []) as ->; [|apply app_nil_r].
          clear -Hni. induction C as [|c C IH]; [done|]. apply not_elem_of_cons in Hni as [A B]. cbn. rewrite decide_False by done. by apply IH.
        + rewrite decide_False; [by apply IH|]. intros <-. done.
      - clear -HCk Hk. induction HCk as [|c C Hc HC IH]; [done|]. cbn. rewrite decide_False by (intros <-; done). done. }
    rewrite Hone. destruct (decide (ch_kind (ts_chan ts) = KIn)); done.
  - intros id. rewrite H8. split.
    + intros (a & Ha & Hi). apply elem_of_list_filter in Ha as [Hk Ha]. apply (transition_sets_keys m a id Ha) in Hi as (s & Hs & Hid & Hc).
      apply elem_of_list_fmap in Hc as (ts & Hc & Hts). exists s, ts. by rewrite <- Hc.
    + intros (s & ts & Hs & Hid & Hts & Hk).
      assert (Hc : ts_chan ts ∈ map ag_chan (transition_sets m)).
      { rewrite transition_sets_chans, firsts_elem, <- flat_chans. apply flat_chan. exists s. split; [done|].
        apply elem_of_list_fmap. by exists ts. }
      apply elem_of_list_fmap in Hc as (a & Hc & Ha). exists a. split; [apply elem_of_list_filter; by rewrite <- Hc|].
      apply (transition_sets_keys m a id Ha). exists s. split; [done|]. split; [done|]. rewrite <- Hc. apply elem_of_list_fmap. by exists ts.
Qed.
Print Assumptions C35_merged_inputs.

Example C35_witness :
  tc_has_in (make_transitions (b_stm w_built)) = true /\
  tc_in_merged (make_transitions (b_stm w_built)) !! lit "initial" = Some [Transition (Some (IntV 3)) (lit "step0")] /\
  tc_in_merged (make_transitions (b_stm w_built)) !! lit "step0" = None.
Proof. vm_compute. done. Qed.
