(** * Collected facts about Build, BuildSuite and the context *)
From Verif Require Export AggProofs.

Definition tree_types (T : node) : list (gostr * rstype) := ev_types (out_events (rlist [] T)).
Lemma tree_types_wf T c t : (c, t) ∈ tree_types T -> wf_type t.
Proof. unfold tree_types. rewrite ev_types_elem. intros (e & _ & _ & <-). apply value_type_wf. Qed.

Lemma build_any b b' root : build b root = build b' root.
Proof. done. Qed.
Lemma build_full b root : good_tree root -> exists num T ws,
  lab 0 (set_id (lit "initial") root) num T /\ apply_writes ws root = T /\
  good_tree T /\ erase_ids T = erase_ids root /\ n_id T = lit "initial" /\ labelled T /\
  build b root = match unify_inner (tree_types T) ∅ with
                 | Ok types => Ok (Builder num [] (Stm (out_states (rlist [] T)) types (tests_below T)) ws)
                 | Err x => Err x
                 | Panic => Panic
                 end.
Proof.
  intros Hg. destruct (lab_exists (set_id (lit "initial") root) 0) as (num & T & Hl).
  { apply kids_good_set_id. by destruct Hg. } { destruct Hg as [(_ & Ho & _) _]. destruct root; cbn in *. congruence. }
  destruct (build_lab b root num T Hg Hl) as (ws & Hw & Hb). exists num, T, ws.
  pose proof (proj1 lab_erase _ _ _ _ Hl) as He.
  assert (He' : erase_ids T = erase_ids root) by (rewrite He; by destruct root).
  split; [done|]. split; [done|]. split; [by eapply erase_good_tree; [symmetry; exact He'|]|]. split; [done|].
  split; [|split].
  - destruct (lab_shallow _ _ _ _ Hl) as [<- _]. by destruct root.
  - intros p m Hp Hm. destruct (erase_node_at _ _ _ _ He Hm) as (k & Hk & _).
    destruct (lab_positions _ _ _ _ Hl p k Hp Hk) as (m' & Hm' & [Hid _]). congruence.
  - rewrite Hb. rewrite infer_all_unify; [done|]. intros c t. by rewrite lookup_empty.
Qed.
Lemma build_identified b root b' : good_tree root -> build b root = Ok b' ->
  identified root (apply_writes (b_writes b') root).
Proof.
  intros Hg Hb. destruct (build_full b root Hg) as (num & T & ws & Hl & Hw & HgT & He & Hi & Hlab & Hb').
  rewrite Hb' in Hb. destruct (unify_inner (tree_types T) ∅) as [types|x|]; try discriminate. injection Hb as <-. cbn [b_writes b_stm m_states m_tests]. rewrite Hw.
  split; [done|]. split; [done|]. intros p n Hp Hn.
  destruct (lab_positions _ _ _ _ Hl p n Hp) as (m' & Hm' & Hok).
  { destruct p as [|i p]; [done|]. destruct root. exact Hn. }
  exists m'. split; [done|]. destruct Hok. done.
Qed.
Lemma build_states b root b' : good_tree root -> build b root = Ok b' ->
  let T := apply_writes (b_writes b') root in
  good_tree T /\ m_states (b_stm b') = out_states (rlist [] T) /\ m_tests (b_stm b') = tests_below T /\
  erase_ids T = erase_ids root /\ labelled T /\ n_id T = lit "initial".
Proof.
  intros Hg Hb. destruct (build_full b root Hg) as (num & T & ws & Hl & Hw & HgT & He & Hi & Hlab & Hb').
  rewrite Hb' in Hb. destruct (unify_inner (tree_types T) ∅) as [types|x|]; try discriminate. injection Hb as <-. cbn [b_writes b_stm m_states m_tests]. cbn zeta. by rewrite Hw.
Qed.
Lemma build_listing b root b' : good_tree root -> build b root = Ok b' ->
  let T := apply_writes (b_writes b') root in
  exists l, live_listing T l /\ Forall2 (fun pn s => state_for pn.2 s) l (m_states (b_stm b')).
Proof.
  intros Hg Hb. destruct (build_states _ _ _ Hg Hb) as (HgT & Hs & _). cbn zeta. rewrite Hs.
  exists (rlist [] (apply_writes (b_writes b') root)). split; [by apply rlist_listing|].
  unfold out_states. apply Forall2_fmap_r. apply Forall2_same_length_lookup_2; [done|].
  intros i x y Hx Hy. replace y with x by congruence. apply state_of_for.
Qed.

Lemma build_types_tree root T : good_tree root -> good_tree T -> erase_ids T = erase_ids root ->
  (no_type_conflict T <-> no_type_conflict root) /\ (forall c t, channel_type T c t <-> channel_type root c t).
Proof.
  intros Hr HT He.
  assert (Hev : forall e, tree_event T e <-> tree_event root e).
  { intros e. split; by apply erase_tree_event. }
  split.
  - unfold no_type_conflict. split; intros H e1 e2; [rewrite <- !Hev|rewrite !Hev]; apply H.
  - intros c t. unfold channel_type. split; intros (e & H1 & H2 & H3); exists e; (split; [by apply Hev|]); (split; [done|]);
      (destruct (e_value e) as [[z|s]|]; [|done|done]);
      (destruct H3 as [((e' & z' & A & B) & C)|(A & B)]; [left|right]; split; try done);
      [exists e', z'; split; [by apply Hev|done]| |exists e', z'; split; [by apply Hev|done]|];
      intros e' z' He'; apply A; by apply Hev.
Qed.
Lemma build_ok_iff b root : good_tree root -> is_ok (build b root) <-> no_type_conflict root.
Proof.
  intros Hg. destruct (build_full b root Hg) as (num & T & ws & Hl & Hw & HgT & He & Hi & Hlab & Hb).
  destruct (build_types_tree root T Hg HgT He) as [Hnc _]. rewrite <- Hnc, <- (tree_consistent T HgT).
  destruct (unify_flat_spec (tree_types T)) as (H1 & H2 & H3); [intros c t; apply tree_types_wf|].
  rewrite Hb. fold (tree_types T). destruct (unify_inner (tree_types T) ∅) as [types|[c]|]; [| |done].
  - split; [|by eexists]. intros _. by destruct (proj1 (H1 types) eq_refl).
  - split; [intros [? ?]; discriminate|]. intros Hc. destruct (H2 c eq_refl) as (t1 & t2 & A & B & C). exfalso. by eapply C, Hc.
Qed.
Lemma build_types b root b' : good_tree root -> build b root = Ok b' ->
  forall c t, m_types (b_stm b') !! c = Some t <-> channel_type root c t.
Proof.
  intros Hg Hb. assert (Hnc : no_type_conflict root) by (apply (build_ok_iff b); [done|]; by eexists).
  destruct (build_full b root Hg) as (num & T & ws & Hl & Hw & HgT & He & Hi & Hlab & Hb').
  destruct (build_types_tree root T Hg HgT He) as [Hnc' Hct].
  destruct (unify_flat_spec (tree_types T)) as (H1 & H2 & H3); [intros c t; apply tree_types_wf|].
  rewrite Hb' in Hb. destruct (unify_inner (tree_types T) ∅) as [types|x|]; try discriminate. injection Hb as <-.
  destruct (proj1 (H1 types) eq_refl) as [_ Ht]. intros c t. cbn. rewrite (Ht c t), <- Hct.
  apply tree_channel_type; [done|]. by apply Hnc'.
Qed.
Lemma build_no_panic b root : good_tree root -> build b root <> Panic.
Proof.
  intros Hg. destruct (build_full b root Hg) as (num & T & ws & Hl & Hw & HgT & He & Hi & Hlab & Hb).
  destruct (unify_flat_spec (tree_types T)) as (H1 & H2 & H3); [intros c t; apply tree_types_wf|].
  rewrite Hb. by destruct (unify_inner (tree_types T) ∅).
Qed.
Lemma build_err b root c : good_tree root -> build b root = Err (BTypeConflict c) ->
  exists e1 e2, tree_event root e1 /\ tree_event root e2 /\
    ch_name (e_chan e1) = c /\ ch_name (e_chan e2) = c /\ class_of (e_value e1) <> class_of (e_value e2).
Proof.
  intros Hg Herr. destruct (build_full b root Hg) as (num & T & ws & Hl & Hw & HgT & He & Hi & Hlab & Hb).
  destruct (unify_flat_spec (tree_types T)) as (H1 & H2 & H3); [intros d t; apply tree_types_wf|].
  rewrite Hb in Herr. destruct (unify_inner (tree_types T) ∅) as [types|x|]; try discriminate. injection Herr as ->.
  destruct (H2 c eq_refl) as (t1 & t2 & A & B & C).
  apply ev_types_elem in A as (e1 & He1 & Hc1 & <-). apply ev_types_elem in B as (e2 & He2 & Hc2 & <-).
  rewrite out_events_spec in He1, He2 by done.
  exists e1, e2. split; [by eapply erase_tree_event|]. split; [by eapply erase_tree_event|].
  split; [done|]. split; [done|]. by rewrite <- value_type_class.
Qed.

(** Uniqueness of identifiers. *)
Lemma below_ids_elem n i : i ∈ below_ids n <-> exists p m, p <> [] /\ node_at n p = Some m /\ n_id m = i.
Proof.
  assert (H : i ∈ below_ids n <-> exists p m, (p, m) ∈ preorders 0 [] (n_next n) /\ n_id m = i).
  { pose proof (preorder_ids [] n) as H. rewrite preorder_eq in H. cbn in H. injection H as H. rewrite <- H.
    rewrite elem_of_list_fmap. split.
    - intros (m & -> & Hm). apply elem_of_list_fmap in Hm as ([p m'] & -> & Hm). by exists p, m'.
    - intros (p & m & Hm & <-). exists m. split; [done|]. apply elem_of_list_fmap. by exists (p, m). }
  rewrite H. clear H. split; intros (p & m & Hm & Hi).
  - assert (Hin : (p, m) ∈ preorder [] n) by (rewrite preorder_eq; by right).
    pose proof (StronglySorted_NoDup _ (preorder_sorted [] n)) as Hnd. rewrite preorder_eq in Hnd. cbn in Hnd.
    apply NoDup_cons in Hnd as [Hnd _].
    exists p, m. split; [|split; [|done]].
    + intros ->. apply Hnd. apply elem_of_list_fmap. by exists ([], m).
    + apply elem_preorder in Hin as (r & -> & ?). done.
  - destruct Hi as [Hn Hi]. exists p, m. split; [|done].
    assert (Hin : (p, m) ∈ preorder [] n) by (apply elem_preorder; by exists p).
    rewrite preorder_eq in Hin. apply elem_of_cons in Hin as [[= -> ->]|Hin]; done.
Qed.
Lemma NoDup_given_below n :
  (forall p q k m, p <> [] -> q <> [] -> node_at n p = Some k -> node_at n q = Some m ->
     n_id k = n_id m -> n_id k <> [] -> p = q) -> NoDup (given (below_ids n)).
Proof.
  intros H. pose proof (preorder_ids [] n) as Hp. rewrite preorder_eq in Hp. cbn in Hp. injection Hp as <-.
  pose proof (StronglySorted_NoDup _ (preorder_sorted [] n)) as Hnd. rewrite preorder_eq in Hnd. cbn in Hnd.
  apply NoDup_cons in Hnd as [Hnil Hnd].
  assert (Hin : forall x, x ∈ preorders 0 [] (n_next n) -> x.1 <> [] /\ node_at n x.1 = Some x.2).
  { intros [q m] Hx. split.
    - cbn. intros ->. apply Hnil. apply elem_of_list_fmap. by exists ([], m).
    - assert (Hin : (q, m) ∈ preorder [] n) by (rewrite preorder_eq; by right).
      apply elem_preorder in Hin as (r & -> & ?). done. }
  revert Hnd Hin. generalize (preorders 0 [] (n_next n)) as l. induction l as [|x l IH]; [intros; constructor|].
  cbn [fmap list_fmap map]. rewrite NoDup_cons. intros [Hx Hnd] Hin. unfold given. rewrite filter_cons.
  assert (Hl : NoDup (given (map n_id l.*2))) by (apply IH; [done|]; intros y Hy; apply Hin; by right).
  case_decide as Hne; [|done]. apply NoDup_cons. split; [|done].
  intros Hi. apply elem_of_list_filter in Hi as [_ Hi]. apply elem_of_list_fmap in Hi as (m & Hm & Hi).
  apply elem_of_list_fmap in Hi as (y & -> & Hy). apply Hx.
  assert (x.1 = y.1) as ->.
  { destruct (Hin x) as [A B]; [left|]. destruct (Hin y) as [C D]; [by right|]. by eapply H. }
  apply elem_of_list_fmap. by exists y.
Qed.
Lemma build_ids_unique b root b' : good_tree root -> build b root = Ok b' -> fresh_ids root ->
  NoDup (map st_id (m_states (b_stm b'))).
Proof.
  intros Hg Hb [Hd Hf]. destruct (build_full b root Hg) as (num & T & ws & Hl & Hw & HgT & He & Hi & Hlab & Hb').
  rewrite Hb' in Hb. destruct (unify_inner (tree_types T) ∅) as [types|x|]; try discriminate. injection Hb as <-. cbn.
  assert (Hid : map st_id (out_states (rlist [] T)) = map n_id (rlist [] T).*2).
  { unfold out_states. rewrite map_map. clear. induction (rlist [] T) as [|[q n] l IHl]; [done|]. cbn [map fmap list_fmap snd]. rewrite state_of_id. f_equal. exact IHl. }
  rewrite Hid. clear Hid.
  assert (Hall : NoDup (map n_id (preorder [] T).*2)).
  { rewrite preorder_ids, Hi. destruct (lab_ids _ _ _ _ Hl) as (_ & ks & Hp & Hnd & _).
    assert (below_ids (set_id (lit "initial") root) = below_ids root) as E by (by destruct root). rewrite E in Hp.
    apply NoDup_cons. rewrite Hp. split.
    - rewrite elem_of_app. intros [H|H].
      + apply elem_of_list_filter in H as [_ H]. apply below_ids_elem in H as (p & m & H1 & H2 & H3).
        by destruct (Hf p m H1 H2) as [? _].
      + apply elem_of_list_fmap in H as (k & H & _). by apply (step_id_initial k).
    - apply NoDup_app. split; [by apply NoDup_given_below|]. split.
      + intros i H1 H2. apply elem_of_list_filter in H1 as [_ H1]. apply below_ids_elem in H1 as (p & m & A & B & C).
        apply elem_of_list_fmap in H2 as (k & -> & _). destruct (Hf p m A B) as [_ H]. by apply (H k).
      + apply NoDup_fmap_2_strong; [|done]. intros x y _ _. apply step_id_inj. }
  rewrite (rlist_preorder [] T (good_tree_fail_leaf _ HgT)).
  revert Hall. generalize (preorder [] T) as l. induction l as [|a l IH]; [done|]. cbn [fmap list_fmap map]. rewrite NoDup_cons.
  intros [H1 H2]. rewrite filter_cons. destruct (decide (is_live a)); [|by apply IH].
  cbn [fmap list_fmap map]. apply NoDup_cons. split; [|by apply IH]. intros Hin. apply H1.
  apply elem_of_list_fmap in Hin as (m & -> & Hm). apply elem_of_list_fmap in Hm as (y & -> & Hy).
  apply elem_of_list_filter in Hy as [_ Hy]. apply elem_of_list_fmap. exists y.2. split; [done|]. apply elem_of_list_fmap. by exists y.
Qed.

Lemma rebuild b1 b2 root b' : good_tree root -> build b1 root = Ok b' ->
  let T := apply_writes (b_writes b') root in
  exists b'', build b2 T = Ok b'' /\ b_stm b'' = b_stm b' /\ apply_writes (b_writes b'') T = T.
Proof.
  intros Hg Hb. destruct (build_full b1 root Hg) as (num & T & ws & Hl & Hw & HgT & He & Hi & Hlab & Hb').
  rewrite Hb' in Hb. destruct (unify_inner (tree_types T) ∅) as [types|x|] eqn:E; try discriminate. injection Hb as <-. cbn [b_writes b_stm m_states m_tests]. rewrite Hw.
  destruct (build_full b2 T HgT) as (num2 & T2 & ws2 & Hl2 & Hw2 & _ & _ & _ & _ & Hb2).
  assert (set_id (lit "initial") T = T) as E2 by (destruct T; cbn in *; by subst). rewrite E2 in Hl2.
  destruct (lab_labelled _ _ _ _ Hl2 Hlab) as [-> ->]. rewrite E in Hb2. eexists. split; [exact Hb2|]. done.
Qed.

(** ** Suites *)
Definition build_one (t : node) : res berr stm :=
  match build new_builder t with Ok b => Ok (b_stm b) | Err e => Err e | Panic => Panic end.
Lemma build_many_spec order : forall b acc, build_many b order acc = try_over_map_values build_one order acc.
Proof.
  induction order as [|[k t] order IH]; intros b acc; [done|]. cbn [build_many try_over_map_values]. unfold build_one at 1.
  rewrite (build_any new_builder b t). destruct (build b t); [apply IH|done|done].
Qed.
Lemma build_one_types t m c u : good_tree t -> build_one t = Ok m -> m_types m !! c = Some u -> wf_type u.
Proof.
  intros Hg Hm. unfold build_one in Hm. destruct (build new_builder t) as [b'|e|] eqn:E; try discriminate. injection Hm as <-.
  rewrite (build_types _ _ _ Hg E). intros (e & _ & _ & H).
  destruct (e_value e) as [[z|s]|]; [|subst; by right|subst; by right]. destruct H as [[_ ->]|[_ ->]]; by left.
Qed.
Lemma orders_elem tests orders c t : orders_of tests orders -> (c, t) ∈ concat orders <-> suite_type tests c t.
Proof.
  intros (ms & Hms & HF). unfold suite_type.
  assert (H : (c, t) ∈ concat orders <-> exists m, m ∈ ms /\ m_types m !! c = Some t).
  { clear Hms. induction HF as [|m o ms os Ho HF IH]; cbn.
    - split; [intros H; by apply elem_of_nil in H|]. intros (m & H & _). by apply elem_of_nil in H.
    - rewrite elem_of_app, IH, Ho, elem_of_map_to_list. split.
      + intros [H|(m' & H1 & H2)]; [exists m; split; [left|done]|exists m'; split; [by right|done]].
      + intros (m' & H1 & H2). apply elem_of_cons in H1 as [->|H1]; [by left|]. right. by exists m'. }
  rewrite H. split.
  - intros (m & Hm & Ht). rewrite Hms in Hm. apply elem_of_list_fmap in Hm as ([k m'] & -> & Hm).
    apply elem_of_map_to_list in Hm. by exists k, m'.
  - intros (k & m & Hk & Ht). exists m. split; [|done]. rewrite Hms. apply elem_of_list_fmap. exists (k, m).
    split; [done|]. by apply elem_of_map_to_list.
Qed.
Lemma unify_types_spec tests orders : orders_of tests orders ->
  (forall c t, suite_type tests c t -> wf_type t) ->
  (forall tm, unify_types orders ∅ = Ok tm <->
     (forall c t1 t2, suite_type tests c t1 -> suite_type tests c t2 -> t_kind t1 = t_kind t2) /\
     (forall c u, tm !! c = Some u <-> suite_lub tests c u)) /\
  (forall c, unify_types orders ∅ = Err (BTypeConflict c) ->
     exists t1 t2, suite_type tests c t1 /\ suite_type tests c t2 /\ t_kind t1 <> t_kind t2) /\
  unify_types orders ∅ <> Panic.
Proof.
  intros Ho Hwf. rewrite unify_types_concat.
  destruct (unify_flat_spec (concat orders)) as (H1 & H2 & H3).
  { intros c t Ht. apply (Hwf c). by rewrite <- (orders_elem tests orders). }
  split; [|split; [|done]].
  - intros tm. rewrite H1.
    assert (Hl : forall c u, lub_type (concat orders) c u <-> suite_lub tests c u).
    { intros c u. change (lub (fun t => (c, t) ∈ concat orders) u <-> lub (suite_type tests c) u).
      split; apply lub_ext; intros t; by rewrite (orders_elem tests orders). }
    split; intros [Ha Hb]; split.
    + intros c t1 t2. rewrite <- !(orders_elem tests orders) by done. apply Ha.
    + intros c u. by rewrite (Hb c u).
    + intros c t1 t2. rewrite !(orders_elem tests orders) by done. apply Ha.
    + intros c u. by rewrite (Hb c u).
  - intros c Hc. destruct (H2 c Hc) as (t1 & t2 & A & B & C). rewrite (orders_elem tests orders) in A, B by done. by exists t1, t2.
Qed.
