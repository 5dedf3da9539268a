(** * Lemmas about naming, expanding, collapsing and factorising traces *)
From Verif Require Export SpecTrace TraceProofs ValidateProofs.

(** ** Naming *)
Lemma synthesise_candidate t k : synthesise_name (base_name t) k = candidate t k.
Proof.
  unfold synthesise_name, base_name, candidate.
  destruct (decide (f_name t = [])) as [H|H].
  - rewrite decide_True by done. rewrite decide_True by tauto. done.
  - destruct (decide (f_name t = lit "test")) as [H'|H'].
    + rewrite decide_True by tauto. by rewrite H'.
    + rewrite decide_False by tauto. destruct k as [|k]; [done|]. cbn. by rewrite Nat.sub_0_r.
Qed.
Lemma format_N_nonempty n : format_N n <> [].
Proof. by destruct (format_N_spec n). Qed.
Lemma candidate_inj t j k : candidate t j = candidate t k -> j = k.
Proof.
  unfold candidate. destruct (decide _).
  - intros H. apply app_inv_head in H. apply format_N_inj in H. lia.
  - destruct j as [|j], k as [|k]; [done| | |].
    + intros H. symmetry in H. rewrite <- (app_nil_r (f_name t)) in H at 2. apply app_inv_head in H.
      by apply format_N_nonempty in H.
    + intros H. rewrite <- (app_nil_r (f_name t)) in H at 2. apply app_inv_head in H.
      by apply format_N_nonempty in H.
    + intros H. apply app_inv_head in H. apply format_N_inj in H. lia.
Qed.
Lemma candidate_nonempty t k : candidate t k <> [].
Proof.
  unfold candidate. destruct (decide _) as [H|H]; [done|]. destruct k; [tauto|].
  intros E. apply app_eq_nil in E as [E _]. tauto.
Qed.

Lemma insert_loop_spec fuel i result t r :
  insert_loop fuel i result (base_name t) t = Some r ->
  exists k, i <= k < i + fuel /\ result !! candidate t k = None /\ r = <[candidate t k := t]> result /\
    forall j, i <= j < k -> is_Some (result !! candidate t j).
Proof.
  revert i. induction fuel as [|fuel IH]; intros i; cbn; [done|].
  rewrite synthesise_candidate. destruct (result !! candidate t i) as [x|] eqn:E.
  - intros H. apply IH in H as (k & Hk & H1 & H2 & H3). exists k. split; [lia|]. split; [done|].
    split; [done|]. intros j Hj. destruct (decide (j = i)) as [->|]; [by eexists|]. apply H3. lia.
  - intros [= <-]. exists i. split; [lia|]. split; [done|]. split; [done|]. intros j Hj. lia.
Qed.
Lemma insert_loop_none fuel i result t :
  insert_loop fuel i result (base_name t) t = None ->
  forall j, i <= j < i + fuel -> is_Some (result !! candidate t j).
Proof.
  revert i. induction fuel as [|fuel IH]; intros i; cbn; [intros _ j Hj; lia|].
  rewrite synthesise_candidate. destruct (result !! candidate t i) as [x|] eqn:E; [|done].
  intros H j Hj. destruct (decide (j = i)) as [->|]; [by eexists|]. eapply IH; [done|]. lia.
Qed.
Lemma insert_name_total result t : insert_name result (base_name t) t <> None.
Proof.
  unfold insert_name. intros H.
  assert (Hall : forall j, j < S (base.size result) -> is_Some (result !! candidate t j)).
  { intros j Hj. eapply insert_loop_none; [exact H|]. lia. }
  set (names := candidate t <$> seq 0 (S (base.size result))).
  assert (NoDup names) as Hnd.
  { apply NoDup_fmap_2; [|apply NoDup_seq]. intros a b. apply candidate_inj. }
  assert (list_to_set names ⊆ dom result) as Hsub.
  { intros x Hx. apply elem_of_list_to_set in Hx. apply elem_of_list_fmap in Hx as (j & -> & Hj).
    apply elem_of_dom. apply Hall. apply elem_of_seq in Hj. lia. }
  apply subseteq_size in Hsub. rewrite size_list_to_set in Hsub by done.
  rewrite size_dom in Hsub. unfold names in Hsub. rewrite fmap_length, seq_length in Hsub. lia.
Qed.
Lemma insert_name_spec result t : exists k r,
  insert_name result (base_name t) t = Some r /\
  k <= base.size result /\ result !! candidate t k = None /\ r = <[candidate t k := t]> result /\
  forall j, j < k -> is_Some (result !! candidate t j).
Proof.
  destruct (insert_name result (base_name t) t) as [r|] eqn:E; [|by apply insert_name_total in E].
  apply insert_loop_spec in E as (k & Hk & H1 & H2 & H3). exists k, r. split; [done|]. split; [lia|].
  split; [done|]. split; [done|]. intros j Hj. apply H3. lia.
Qed.

(** Invariant: the map built so far is the pairing of the names given so far with the traces. *)
Lemma named_snoc ts names t k :
  named ts names -> k <= length ts -> candidate t k ∉ names ->
  (forall j, j < k -> candidate t j ∈ names) ->
  named (ts ++ [t]) (names ++ [candidate t k]).
Proof.
  intros [Hl Hn] Hk Hc Hj. split; [rewrite !app_length; cbn; lia|]. intros i x Hx.
  destruct (decide (i < length ts)) as [Hi|Hi].
  - rewrite lookup_app_l in Hx by done. destruct (Hn _ _ Hx) as (k' & H1 & H2 & H3 & H4).
    exists k'. rewrite lookup_app_l by lia. rewrite take_app_le by lia. done.
  - rewrite lookup_app_r in Hx by lia. destruct (i - length ts) as [|d] eqn:Ed; [|done].
    injection Hx as <-. assert (i = length names) as -> by lia.
    exists k. rewrite lookup_app_r, Nat.sub_diag by done. rewrite take_app. split; [done|].
    split; [lia|]. done.
Qed.
Lemma name_loop_spec traces : forall done names,
  named done names -> NoDup names ->
  exists names', name_loop traces (list_to_map (zip names done)) =
      Some (list_to_map (zip (names ++ names') (done ++ traces))) /\
    named (done ++ traces) (names ++ names') /\ NoDup (names ++ names').
Proof.
  induction traces as [|t rest IH]; intros d names Hn Hnd.
  - exists []. rewrite !app_nil_r. done.
  - cbn [name_loop]. set (m := list_to_map (zip names d) : gmap gostr forbidden).
    assert (Hlen : length names = length d) by (by destruct Hn).
    assert (Hlook : forall x, is_Some (m !! x) <-> x ∈ names).
    { intros x. unfold m. rewrite <- elem_of_dom, dom_list_to_map_L, fst_zip by lia.
      by rewrite elem_of_list_to_set. }
    assert (Hsize : base.size m <= length d).
    { unfold m. rewrite <- size_dom, dom_list_to_map_L, fst_zip by lia.
      rewrite size_list_to_set by done. lia. }
    destruct (insert_name_spec m t) as (k & r & -> & Hk & H1 & -> & H3).
    assert (Hc : candidate t k ∉ names).
    { intros Hin. apply Hlook in Hin as [x Hx]. congruence. }
    assert (Heq : <[candidate t k:=t]> m = list_to_map (zip (names ++ [candidate t k]) (d ++ [t]))).
    { rewrite zip_with_app by done. rewrite list_to_map_app. cbn.
      fold m. rewrite <- insert_union_r by done.
      by rewrite (right_id_L ∅ _). }
    rewrite Heq.
    destruct (IH (d ++ [t]) (names ++ [candidate t k])) as (names' & E1 & E2 & E3).
    + apply named_snoc; [done|lia|done|]. intros j Hj. by apply Hlook, H3.
    + apply NoDup_app. split; [done|]. split; [|apply NoDup_singleton].
      intros x Hx Hx'. apply elem_of_list_singleton in Hx' as ->. done.
    + exists (candidate t k :: names'). rewrite <- (assoc_L (++) d), <- (assoc_L (++) names) in E1, E2; rewrite <- (assoc_L (++)) in E3. cbn in *. done.
Qed.
Lemma name_all_spec traces : exists names,
  name_all traces = Some (list_to_map (zip names traces)) /\ named traces names /\ NoDup names.
Proof.
  destruct (name_loop_spec traces [] []) as (names & H1 & H2 & H3); [|constructor|].
  - split; [done|]. intros i t Ht. by rewrite lookup_nil in Ht.
  - exists names. done.
Qed.
Lemma named_unique traces names names' : named traces names -> named traces names' -> names = names'.
Proof.
  intros [L1 H1] [L2 H2].
  assert (forall n, take n names = take n names') as H.
  { induction n as [|n IH]; [done|].
    destruct (traces !! n) as [t|] eqn:Et.
    - destruct (H1 _ _ Et) as (k & Hk & _ & Hnin & Hall).
      destruct (H2 _ _ Et) as (k' & Hk' & _ & Hnin' & Hall').
      assert (k = k') as <-.
      { destruct (Nat.lt_trichotomy k k') as [Hlt|[?|Hlt]]; [|done|].
        - exfalso. apply Hnin. rewrite IH. by apply Hall'.
        - exfalso. apply Hnin'. rewrite <- IH. by apply Hall. }
      rewrite (take_S_r _ _ _ Hk), (take_S_r _ _ _ Hk'). by rewrite IH.
    - apply lookup_ge_None in Et. rewrite !take_ge in * by lia. done. }
  specialize (H (length traces)). rewrite !take_ge in H by lia. done.
Qed.
Lemma name_all_contents traces m :
  name_all traces = Some m -> (map_to_list m).*2 ≡ₚ traces /\ base.size m = length traces.
Proof.
  destruct (name_all_spec traces) as (names & -> & [Hl _] & Hnd). intros [= <-].
  assert (NoDup (zip names traces).*1) by (by rewrite fst_zip by lia).
  assert (map_to_list (list_to_map (zip names traces) : gmap gostr forbidden) ≡ₚ zip names traces) as Hp.
  { by apply map_to_list_to_map. }
  split.
  - rewrite Hp. rewrite snd_zip by lia. done.
  - unfold base.size, map_size. rewrite Hp. rewrite zip_with_length. lia.
Qed.
Lemma name_all_policy traces m : name_all traces = Some m <->
  exists names, named traces names /\ NoDup names /\
    forall n t, m !! n = Some t <-> exists i, names !! i = Some n /\ traces !! i = Some t.
Proof.
  assert (Hl : forall names, named traces names -> NoDup names -> forall n t,
     (list_to_map (zip names traces) : gmap gostr forbidden) !! n = Some t <->
      exists i, names !! i = Some n /\ traces !! i = Some t).
  { intros names [Hl _] Hnd n t.
    rewrite <- elem_of_list_to_map by (by rewrite fst_zip by lia).
    rewrite elem_of_list_lookup. split.
    - intros [i Hi]. apply lookup_zip_with_Some in Hi as (x & y & [= <- <-] & Hx & Hy). by exists i.
    - intros (i & Hx & Hy). exists i. apply lookup_zip_with_Some. eauto. }
  destruct (name_all_spec traces) as (names & -> & Hn & Hnd). split.
  - intros [= <-]. exists names. split; [done|]. split; [done|]. by apply Hl.
  - intros (names' & Hn' & _ & H). assert (names' = names) as -> by (by eapply named_unique).
    f_equal. apply map_eq. intros n. apply option_eq. intros t. rewrite H. by apply Hl.
Qed.

(** ** Expanding *)
Lemma fold_left_rev_fold_right {A B} (f : A -> B -> A) l a :
  fold_left f (rev l) a = fold_right (fun b a => f a b) a l.
Proof.
  revert a. induction l as [|x l IH]; intros a; [done|]. cbn. rewrite fold_left_app, IH. done.
Qed.
Definition spine (name : gostr) (prefix : trace) (f : event) : node :=
  fold_right (fun e n => mark [name] (inc_node e [n])) (test_point f [name]) prefix.
Lemma expand_spine t name :
  expand t name = Node [] [name] OUnset None [spine name (f_prefix t) (f_forbid t)].
Proof. unfold expand. rewrite fold_left_rev_fold_right. done. Qed.

Lemma spine_good name prefix f p m : node_at (spine name prefix f) p = Some m -> good_node m /\ n_tests m = [name].
Proof.
  revert p. induction prefix as [|e prefix IH]; intros p.
  - destruct p as [|[|i] p]; cbn; [|destruct p as [|i p]; cbn|].
    + intros [= <-]. split; [|done]. split; [done|]. right. right. cbn. eauto.
    + intros [= <-]. split; [|done]. split; [done|]. left. done.
    + done.
    + done.
  - destruct p as [|[|i] p]; cbn.
    + intros [= <-]. split; [|done]. split; [done|]. right. left. done.
    + apply IH.
    + done.
Qed.
Lemma expand_good t name : good_tree (expand t name).
Proof.
  rewrite expand_spine. split; [done|]. intros p m Hp. destruct p as [|[|i] p]; [done| |]; cbn.
  - intros H. by apply spine_good in H as [? ?].
  - done.
Qed.
Lemma expand_tags t name p m : node_at (expand t name) p = Some m -> n_tests m = [name].
Proof.
  rewrite expand_spine. destruct p as [|[|i] p]; cbn.
  - by intros [= <-].
  - intros H. by apply spine_good in H as [? ?].
  - done.
Qed.
Lemma expand_chain t name : exists l, chain (expand t name) l /\
  inc_events l = f_prefix t /\ pass_events l = [f_forbid t] /\ Forall good_node l /\ length l = length (f_prefix t) + 2.
Proof.
  rewrite expand_spine. destruct t as [nm prefix f]. cbn [f_prefix f_forbid].
  assert (H : forall n, n_next n = [spine name prefix f] -> exists l, chain n l /\
     inc_events l = prefix /\ pass_events l = [f] /\ Forall good_node l /\ length l = length prefix + 2).
  { induction prefix as [|e prefix IH]; intros n Hn.
    - exists [spine name [] f; mark [name] fail_node]. split.
      + cbn. split; [done|]. right. split; [done|]. split; [done|]. by left.
      + split; [done|]. split; [done|]. split; [|done].
        apply Forall_cons. split; [|apply Forall_cons; split; [|done]].
        * split; [done|]. right. right. cbn. eauto.
        * split; [done|]. left. done.
    - destruct (IH (spine name (e :: prefix) f)) as (l & H1 & H2 & H3 & H4 & H5); [done|].
      exists (spine name (e :: prefix) f :: l). split.
      + cbn. split; [done|]. right. split; [done|]. exact H1.
      + split; [|split; [|split; [|cbn; lia]]].
        * unfold inc_events in *. cbn. by rewrite H2.
        * unfold pass_events in *. cbn. done.
        * constructor; [|done]. split; [done|]. right. left. done. }
  apply H. done.
Qed.

(** ** Collapsing *)
Lemma one_next_spec n c : one_next n = Ok c <-> n_next n = [c].
Proof.
  unfold one_next. destruct (n_next n) as [|x [|y l]]; cbn; naive_solver.
Qed.
Lemma one_next_no_panic n : one_next n <> Panic.
Proof. unfold one_next. destruct (n_next n) as [|x [|y l]]; done. Qed.

Lemma child_smaller n c : c ∈ n_next n -> nsize c < nsize n.
Proof.
  destruct n as [x t o e next]. cbn. induction next as [|d l IH]; intros H; [by apply elem_of_nil in H|].
  apply elem_of_cons in H as [->|H]; cbn; [lia|]. specialize (IH H). unfold list_sum in *. cbn in *. lia.
Qed.
Lemma collapse_loop_no_panic fuel c n : nsize n <= fuel -> collapse_loop fuel c n <> Panic.
Proof.
  revert c n. induction fuel as [|fuel IH]; intros c n Hf; cbn; [destruct n; cbn in Hf; lia|].
  destruct (one_next n) as [n'|e|] eqn:E; [|done|by apply one_next_no_panic in E].
  apply one_next_spec in E.
  destruct (v_node n') as [e|] eqn:Ev; [done|]. apply v_node_iff in Ev.
  assert (nsize n' < nsize n) by (apply child_smaller; rewrite E; left).
  destruct Ev as [_ [(Ho & _)|[(Ho & He & _)|(Ho & He & _)]]]; unfold collapse_node; rewrite Ho.
  - done.
  - destruct (n_event n'); [|done]. apply IH. lia.
  - destruct (n_event n'); [|done]. apply IH. lia.
Qed.
Lemma collapse_loop_spec fuel c n r : nsize n <= fuel ->
  collapse_loop fuel c n = Ok r <->
  exists l, chain n l /\ Forall good_node l /\
    r = Forbidden (f_name c) (f_prefix c ++ inc_events l) (default (f_forbid c) (last (pass_events l))).
Proof.
  revert c n. induction fuel as [|fuel IH]; intros c n Hf; cbn; [destruct n; cbn in Hf; lia|].
  destruct (one_next n) as [n'|e|] eqn:E.
  2:{ split; [done|]. intros ([|c' l] & Hc & _); [done|]. cbn in Hc. destruct Hc as [Hc _].
      apply one_next_spec in Hc. congruence. }
  2:{ by apply one_next_no_panic in E. }
  apply one_next_spec in E.
  destruct (v_node n') as [e|] eqn:Ev.
  { split; [done|]. intros ([|c' l] & Hc & Hg & _); [done|]. cbn in Hc. destruct Hc as [Hc _].
    apply Forall_cons in Hg as [Hg _]. apply v_node_iff in Hg. congruence. }
  apply v_node_iff in Ev.
  assert (nsize n' < nsize n) by (apply child_smaller; rewrite E; left).
  pose proof Ev as Ev0.
  destruct Ev as [Ht [(Ho & He & Hx)|[(Ho & He & Hx)|(Ho & He & Hx)]]]; unfold collapse_node; rewrite Ho.
  - split.
    + intros [= <-]. exists [n']. split; [cbn; tauto|]. split; [by constructor|].
      unfold inc_events, pass_events. cbn. rewrite Ho. cbn. rewrite app_nil_r. by destruct c.
    + intros ([|c' l] & Hc & Hg & ->); [done|]. cbn in Hc. destruct Hc as [Hc Hr].
      assert (c' = n') as -> by congruence. destruct Hr as [[_ ->]|[? _]]; [|congruence].
      unfold inc_events, pass_events. cbn. rewrite Ho. cbn. rewrite app_nil_r. by destruct c.
  - destruct (n_event n') as [ev|] eqn:Een; [|done]. rewrite IH by lia. split.
    + intros (l & Hc & Hg & ->). exists (n' :: l). split; [cbn; rewrite Ho; split; [done|by right]|].
      split; [by constructor|]. unfold inc_events, pass_events. cbn. rewrite Ho, Een. cbn.
      by rewrite <- (assoc_L (++)).
    + intros ([|c' l] & Hc & Hg & ->); [done|]. cbn in Hc. destruct Hc as [Hc Hr].
      assert (c' = n') as -> by congruence. destruct Hr as [[? _]|[_ Hr]]; [congruence|].
      exists l. split; [done|]. apply Forall_cons in Hg as [_ Hg]. split; [done|].
      unfold inc_events, pass_events. cbn. rewrite Ho, Een. cbn.
      by rewrite <- (assoc_L (++)).
  - destruct (n_event n') as [ev|] eqn:Een; [|done]. rewrite IH by lia.
    assert (Hlast : forall l, default ev (last (pass_events l)) =
                    default (f_forbid c) (last (ev :: pass_events l))).
    { intros l. rewrite last_cons. by destruct (last (pass_events l)). }
    split.
    + intros (l & Hc & Hg & ->). exists (n' :: l). split; [cbn; rewrite Ho; split; [done|by right]|].
      split; [by constructor|]. cbn [f_name f_prefix f_forbid]. rewrite Hlast.
      unfold inc_events, pass_events. cbn. by rewrite Ho, Een.
    + intros ([|c' l] & Hc & Hg & ->); [done|]. cbn in Hc. destruct Hc as [Hc Hr].
      assert (c' = n') as -> by congruence. destruct Hr as [[? _]|[_ Hr]]; [congruence|].
      exists l. split; [done|]. apply Forall_cons in Hg as [_ Hg]. split; [done|].
      cbn [f_name f_prefix f_forbid]. rewrite Hlast.
      unfold inc_events, pass_events. cbn. by rewrite Ho, Een.
Qed.
Lemma collapse_spec n r :
  collapse (Some n) = Ok r <->
  good_root n /\ exists l, chain n l /\ Forall good_node l /\
    r = Forbidden [] (inc_events l) (default zero_event (last (pass_events l))).
Proof.
  unfold collapse. destruct (v_root n) as [e|] eqn:E.
  - split; [done|]. intros [H _]. apply v_root_iff in H. congruence.
  - apply v_root_iff in E. rewrite collapse_loop_spec by lia. cbn. tauto.
Qed.
Lemma collapse_no_panic n : collapse (Some n) <> Panic.
Proof.
  unfold collapse. destruct (v_root n); [done|]. by apply collapse_loop_no_panic.
Qed.
Lemma chain_unique n l l' : chain n l -> chain n l' -> l = l'.
Proof.
  revert n l'. induction l as [|c l IH]; intros n l'; [done|]. destruct l' as [|c' l']; [done|].
  cbn. intros [H1 H2] [H1' H2']. assert (c = c') as <- by congruence. f_equal.
  destruct H2 as [[? ->]|[? H2]], H2' as [[? ->]|[? H2']]; try done; try congruence. by eapply IH.
Qed.
Lemma collapse_expand t name : collapse (Some (expand t name)) = Ok (unnamed t).
Proof.
  apply collapse_spec. split; [by destruct (expand_good t name)|].
  destruct (expand_chain t name) as (l & H1 & H2 & H3 & H4 & _). exists l. rewrite H2, H3. done.
Qed.

Lemma expand_all_spec (m : gmap gostr forbidden) order k : order_of m order ->
  expand_all order !! k = (fun t => Some (expand t k)) <$> m !! k.
Proof.
  intros Ho. unfold expand_all. rewrite (over_map_spec (fun k t => Some (expand t k)) m) by done.
  rewrite map_lookup_imap. by destruct (m !! k).
Qed.
Lemma collapse_expand_all (m : gmap gostr forbidden) order order' :
  order_of m order -> order_of (expand_all order) order' ->
  collapse_all order' = Ok (unnamed <$> m).
Proof.
  intros Ho Ho'. unfold collapse_all. apply (try_over_map_order _ _ _ _ Ho'). intros k.
  rewrite (expand_all_spec m) by done. rewrite lookup_fmap. destruct (m !! k) as [t|]; cbn; [|done].
  eexists. split; [apply collapse_expand|done].
Qed.

(** ** Factorisation *)
Lemma failures_loop order after acc :
  fold_left (fun acc (kt : gostr * forbidden) =>
    match trace_equals (f_prefix kt.2) after with
    | Ok true => acc ++ [Failure kt.1 (f_forbid kt.2)]
    | _ => acc
    end) order acc
  = acc ++ map (fun kt => Failure kt.1 (f_forbid kt.2)) (filter (fun kt => f_prefix kt.2 = after) order).
Proof.
  revert acc. induction order as [|kt order IH]; intros acc; [by rewrite app_nil_r|].
  cbn [fold_left]. rewrite IH. rewrite filter_cons.
  destruct (trace_equals_iff (f_prefix kt.2) after) as [H1 H2].
  destruct (decide (f_prefix kt.2 = after)) as [H|H].
  - rewrite (proj2 H1 H). cbn. by rewrite <- (assoc_L (++)).
  - by rewrite (proj2 H2 H).
Qed.
Lemma failures_eq order after :
  failures order after =
  map (fun kt => Failure kt.1 (f_forbid kt.2)) (filter (fun kt => f_prefix kt.2 = after) order).
Proof. unfold failures. apply (failures_loop order after []). Qed.
Lemma failures_spec (m : gmap gostr forbidden) order after : order_of m order ->
  NoDup (map fl_test (failures order after)) /\
  forall k e, Failure k e ∈ failures order after <->
    exists t, m !! k = Some t /\ f_prefix t = after /\ f_forbid t = e.
Proof.
  intros Ho. rewrite failures_eq. split.
  - rewrite map_map. cbn. pose proof (order_of_NoDup _ _ Ho) as Hnd.
    clear Ho. induction order as [|kt order IH]; [constructor|]. cbn in Hnd.
    apply NoDup_cons in Hnd as [Hk Hnd]. rewrite filter_cons. destruct (decide _); [|by apply IH].
    cbn. constructor; [|by apply IH]. intros Hin. apply Hk.
    apply elem_of_list_fmap in Hin as (x & Hx & Hin). apply elem_of_list_filter in Hin as [_ Hin].
    apply elem_of_list_fmap. exists x. done.
  - intros k e. rewrite elem_of_list_fmap. split.
    + intros ([k' t] & [= -> ->] & Hin). apply elem_of_list_filter in Hin as [Hp Hin].
      exists t. split; [by apply (order_of_elem m order)|done].
    + intros (t & Hm & Hp & <-). exists (k, t). split; [done|]. apply elem_of_list_filter.
      split; [done|]. by apply (order_of_elem m order).
Qed.
Lemma spine_nodes_eq order after :
  spine_nodes order after =
  map (fun f => inc_node (last_event after) [failure_node f])
      (filter (fun f => ch_kind (e_chan (fl_event f)) = KIn) (failures order after))
  ++ [inc_node (last_event after)
        (map failure_node (filter (fun f => ch_kind (e_chan (fl_event f)) <> KIn) (failures order after)))].
Proof.
  unfold spine_nodes. set (lst := last_event after). generalize (failures order after) as fs.
  assert (H : forall fs acc,
    fold_left (fun (acc : list node * list node) f =>
      if is_in (e_chan (fl_event f)) then (acc.1 ++ [inc_node lst [failure_node f]], acc.2)
      else (acc.1, acc.2 ++ [failure_node f])) fs acc =
    (acc.1 ++ map (fun f => inc_node lst [failure_node f]) (filter (fun f => ch_kind (e_chan (fl_event f)) = KIn) fs),
     acc.2 ++ map failure_node (filter (fun f => ch_kind (e_chan (fl_event f)) <> KIn) fs))).
  { induction fs as [|f fs IH]; intros [a b]; cbn [fold_left].
    - cbn. by rewrite !app_nil_r.
    - rewrite IH. rewrite !filter_cons. unfold is_in. case_bool_decide as Hk.
      + rewrite decide_True by done. rewrite decide_False by tauto. cbn. by rewrite <- (assoc_L (++)).
      + rewrite decide_False by done. rewrite decide_True by done. cbn. by rewrite <- (assoc_L (++)). }
  intros fs. rewrite H. cbn. done.
Qed.
