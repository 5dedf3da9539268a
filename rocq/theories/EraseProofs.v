(** * Identifiers play no role in the specification; distinct constants *)
From Verif Require Export CppProofs.
From Verif Require Export StmProofs.

(** ** Erasure *)
Lemma filter_map' {A B} (f : A -> B) (P : B -> Prop) `{forall x, Decision (P x)} l :
  filter P (map f l) = map f (filter (fun x => P (f x)) l).
Proof.
  induction l as [|x l IH]; [done|]. cbn [map]. rewrite !filter_cons, IH. by destruct (decide (P (f x))).
Qed.
Lemma last_map' {A B} (f : A -> B) l : last (map f l) = f <$> last l.
Proof. change (map f l) with (f <$> l). apply fmap_last. Qed.
Lemma says_erase n t : says (erase_ids n) t = says n t.
Proof.
  unfold says. destruct n as [x ts o e next]. cbn [erase_ids n_next]. 
  rewrite filter_map'.
  rewrite (filter_ext_elem _ (fun k => t ∈ n_tests k)) by (intros k _; cbn; by rewrite (proj1 (erase_fields k))).
  rewrite last_map'. destruct (last _) as [k|]; [|done]. cbn. by destruct k.
Qed.
Lemma failing_erase n : failing (erase_ids n) <-> failing n.
Proof. rewrite !failing_iff. split; intros [t H]; exists t; [by rewrite <- says_erase|by rewrite says_erase]. Qed.
Lemma find_erase (P : node -> Prop) `{forall x, Decision (P x)} l : (forall k, P (erase_ids k) <-> P k) ->
  fst <$> list_find P (map erase_ids l) = fst <$> list_find P l.
Proof.
  intros HP. induction l as [|k l IH]; [done|]. cbn [map list_find]. destruct (decide (P (erase_ids k))) as [H1|H1], (decide (P k)) as [H2|H2].
  - done.
  - by destruct H2; apply HP.
  - by destruct H1; apply HP.
  - destruct (list_find P (map erase_ids l)) as [[i a]|], (list_find P l) as [[j b]|]; cbn in *; congruence.
Qed.
Lemma next_input_erase n : next_input (erase_ids n) = next_input n.
Proof.
  unfold next_input. rewrite (proj2 (proj2 (proj2 (erase_fields n)))). apply find_erase.
  intros k. unfold input_kid. destruct (erase_fields k) as (_ & -> & -> & _). done.
Qed.
Lemma next_output_erase n w v : next_output (erase_ids n) w v = next_output n w v.
Proof.
  unfold next_output. rewrite (proj2 (proj2 (proj2 (erase_fields n)))). apply find_erase.
  intros k. unfold output_kid. destruct (erase_fields k) as (_ & -> & -> & _). done.
Qed.
Lemma out_names_erase n : out_names (erase_ids n) = out_names n.
Proof.
  induction n as [x t o e next IH] using node_ind'. cbn [erase_ids out_names]. rewrite map_map. f_equal.
  induction IH as [|k l Hk Hl IHl]; [done|]. cbn [map]. rewrite Hk, IHl. destruct (erase_fields k) as (_ & -> & -> & _). done.
Qed.
Lemma input_of_erase n : input_of (erase_ids n) = input_of n.
Proof.
  unfold input_of. rewrite next_input_erase. destruct (erase_fields n) as (_ & _ & _ & ->).
  pose proof (failing_erase n) as Hf. destruct (decide (failing (erase_ids n))), (decide (failing n)); try tauto.
  destruct (next_input n) as [i|]; [|done]. rewrite list_lookup_fmap. destruct (n_next n !! i) as [k|]; [|done]. cbn. by destruct k.
Qed.
Lemma recorded_erase p t : forall n o, recorded (erase_ids n) p t o = recorded n p t o.
Proof.
  induction p as [|i p IH]; intros n o; cbn [recorded]; rewrite says_erase; [done|].
  destruct (erase_fields n) as (_ & _ & _ & ->). rewrite list_lookup_fmap. destruct (n_next n !! i) as [k|]; [|done]. cbn. apply IH.
Qed.
Lemma sends_erase p : forall n, sends (erase_ids n) p = sends n p.
Proof.
  induction p as [|i p IH]; intros n; cbn [sends]; rewrite input_of_erase; [done|].
  destruct (erase_fields n) as (_ & _ & _ & ->). rewrite list_lookup_fmap. destruct (n_next n !! i) as [k|]; [|done]. cbn. by rewrite IH.
Qed.
Lemma arrive_erase T p : arrive (erase_ids T) p = arrive T p.
Proof.
  unfold arrive. rewrite node_at_erase. destruct (node_at T p) as [n|]; [|done]. cbn. pose proof (failing_erase n) as Hf.
  destruct (decide (failing (erase_ids n))), (decide (failing n)); tauto.
Qed.
Lemma obs_start_erase T : obs_start (erase_ids T) = obs_start T.
Proof. unfold obs_start. by rewrite next_input_erase, arrive_erase. Qed.
Lemma obs_step_erase T o w v : obs_step (erase_ids T) o w v = obs_step T o w v.
Proof.
  unfold obs_step. rewrite !out_names_erase. destruct (o_end o); [done|]. destruct (decide (w = lit "timeout")) as [Ht|Ht]; [done|].
  destruct (o_at o) as [p|]; [|by rewrite arrive_erase]. rewrite node_at_erase. destruct (node_at T p) as [n|]; [|done].
  cbn [fmap option_fmap option_map]. rewrite next_input_erase, next_output_erase.
  destruct (next_input n), (next_output n w v); rewrite ?arrive_erase; done.
Qed.
Lemma obs_run_erase T script : obs_run (erase_ids T) script = obs_run T script.
Proof.
  unfold obs_run. rewrite obs_start_erase. generalize (obs_start T) as o.
  induction script as [|[w v] script IH]; intros o; [done|]. cbn [fold_left fst snd]. by rewrite obs_step_erase, IH.
Qed.
Lemma obs_status_erase T o : obs_status (erase_ids T) o = obs_status T o.
Proof.
  unfold obs_status. destruct (o_end o); [done|]. destruct (o_at o) as [p|]; [|done]. rewrite node_at_erase.
  destruct (node_at T p) as [n|]; [|done]. cbn. by rewrite next_input_erase.
Qed.
Lemma obs_outcome_erase T o t : obs_outcome (erase_ids T) o t = obs_outcome T o t.
Proof. unfold obs_outcome. destruct (o_at o); [|done]. apply recorded_erase. Qed.
Lemma obs_sent_erase T o : obs_sent (erase_ids T) o = obs_sent T o.
Proof. unfold obs_sent. destruct (o_at o); [|done]. apply sends_erase. Qed.
Lemma live_succs_erase n : live_succs (erase_ids n) = map (fun ek => (ek.1, erase_ids ek.2)) (live_succs n).
Proof.
  unfold live_succs. destruct (erase_fields n) as (_ & _ & _ & ->). induction (n_next n) as [|k l IH]; [done|].
  cbn [map omap list_omap]. destruct (erase_fields k) as (_ & -> & -> & _). destruct (decide (n_outcome k = OFail)); [done|].
  destruct (n_event k) as [e|]; [|done]. cbn. f_equal. exact IH.
Qed.
Lemma valid_state_erase n : valid_state (erase_ids n) <-> valid_state n.
Proof.
  unfold valid_state. rewrite live_succs_erase. split.
  - intros [H|(e & k & H & Hk)].
    + left. rewrite Forall_forall in H |- *. intros ek Hek. apply (H (ek.1, erase_ids ek.2)). apply elem_of_list_fmap. by exists ek.
    + right. destruct (live_succs n) as [|[e' k'] [|? ?]]; try discriminate. injection H as -> _. by exists e, k'.
  - intros [H|(e & k & H & Hk)].
    + left. rewrite Forall_forall in H |- *. intros ek Hek. apply elem_of_list_fmap in Hek as (y & -> & Hy). by apply (H y).
    + right. rewrite H. by exists e, (erase_ids k).
Qed.
Lemma valid_tree_eq a b : erase_ids a = erase_ids b -> valid_tree a -> valid_tree b.
Proof.
  intros E H p n Hn Ho. symmetry in E. destruct (erase_node_at _ _ _ _ E Hn) as (k & Hk & He).
  apply valid_state_erase. rewrite <- He. apply valid_state_erase. apply (H p k Hk).
  by rewrite <- (proj1 (proj2 (erase_fields k))), He, (proj1 (proj2 (erase_fields n))).
Qed.
Lemma one_kind_eq a b : erase_ids a = erase_ids b -> one_kind a -> one_kind b.
Proof. intros E H e1 e2 H1 H2. apply H; by eapply erase_tree_event. Qed.
Lemma typed_eq types a b : erase_ids a = erase_ids b -> typed types a -> typed types b.
Proof. intros E H e H1. apply H. by eapply erase_tree_event. Qed.
Lemma no_reserved_eq a b : erase_ids a = erase_ids b -> no_reserved a -> no_reserved b.
Proof. unfold no_reserved. intros E. rewrite <- (out_names_erase a), <- (out_names_erase b), E. done. Qed.

(** ** Distinct constants *)
Lemma digit_upper c : is_digit c = true -> upper_c c = c.
Proof.
  unfold is_digit, upper_c, is_lower. intros H. apply andb_prop in H as [_ H]. apply N.leb_le in H.
  assert (97 <=? code c = false)%N as ->; [apply N.leb_gt; lia|done].
Qed.
Lemma format_N_upper n : to_upper (format_N n) = format_N n.
Proof.
  destruct (format_N_spec n) as (_ & H & _). unfold to_upper. induction H as [|c l Hc Hl IH]; [done|]. cbn. by rewrite digit_upper, IH.
Qed.
Lemma step_upper k : to_upper (step_id k) = lit "STEP" ++ format_N k.
Proof. unfold step_id, to_upper. rewrite map_app. fold (to_upper (format_N k)). rewrite format_N_upper. done. Qed.
Lemma build_case_distinct b root b' : good_tree root -> build b root = Ok b' -> fresh_cased root -> case_distinct (b_stm b').
Proof.
  intros Hg Hb [Hc1 Hc2].
  assert (Hfresh : fresh_ids root).
  { split.
    - intros p q n k Hp Hq Hn Hk E Hne. apply (Hc1 p q n k); try done. by rewrite E.
    - intros p n Hp Hn. destruct (Hc2 p n Hp Hn) as [H1 H2]. split; [intros E; apply H1; by rewrite E|].
      intros k E. apply (H2 k). by rewrite E. }
  pose proof (build_ids_unique b root b' Hg Hb Hfresh) as Hnd.
  assert (Hids : forall s, s ∈ m_states (b_stm b') ->
    st_id s = lit "initial" \/ (exists k, st_id s = step_id k) \/
    (exists p n, p <> [] /\ node_at root p = Some n /\ n_id n = st_id s /\ n_id n <> [])).
  { intros s Hs. destruct (build_full b root Hg) as (num & T & ws & Hl & Hw & HgT & He & Hi & Hlab & Hb').
    rewrite Hb' in Hb. destruct (unify_inner (tree_types T) ∅) as [types|x|]; try discriminate. injection Hb as <-. cbn in Hs.
    unfold out_states in Hs. apply elem_of_list_fmap in Hs as ([p n] & -> & Hin). cbn. rewrite state_of_id.
    apply (proj2 (proj2 (rlist_listing T HgT))) in Hin as [Hn _]. destruct p as [|i p]; [left; cbn in Hn; injection Hn as <-; exact Hi|right].
    assert (Hbel : n_id n ∈ below_ids T) by (apply below_ids_elem; by exists (i :: p), n).
    destruct (lab_ids _ _ _ _ Hl) as (_ & ks & Hp & _). rewrite Hp in Hbel. apply elem_of_app in Hbel as [Hbel|Hbel].
    - right. apply elem_of_list_filter in Hbel as [Hne Hbel].
      assert (below_ids (set_id (lit "initial") root) = below_ids root) as E by (by destruct root). rewrite E in Hbel.
      apply below_ids_elem in Hbel as (q & k & Hq & Hk & Hkid). exists q, k. rewrite Hkid. done.
    - left. apply elem_of_list_fmap in Hbel as (k & -> & _). by exists k. }
  unfold case_distinct. apply NoDup_map_2; [by apply (NoDup_fmap_1 st_id)|].
  intros s1 s2 H1 H2 E. apply (NoDup_map_inj st_id _ _ _ Hnd H1 H2).
  destruct (Hids s1 H1) as [E1|[[k1 E1]|(p1 & n1 & A1 & B1 & C1 & D1)]], (Hids s2 H2) as [E2|[[k2 E2]|(p2 & n2 & A2 & B2 & C2 & D2)]].
  - congruence.
  - exfalso. rewrite E1, E2, step_upper in E. cbv in E. discriminate.
  - exfalso. destruct (Hc2 p2 n2 A2 B2) as [H _]. apply H. rewrite C2, <- E, E1. done.
  - exfalso. rewrite E1, E2, step_upper in E. cbv in E. discriminate.
  - rewrite E1, E2 in E |- *. rewrite !step_upper in E. apply app_inv_head in E. by apply format_N_inj in E as ->.
  - exfalso. destruct (Hc2 p2 n2 A2 B2) as [_ H]. apply (H k1). rewrite C2, <- E, E1. done.
  - exfalso. destruct (Hc2 p1 n1 A1 B1) as [H _]. apply H. rewrite C1, E, E2. done.
  - exfalso. destruct (Hc2 p1 n1 A1 B1) as [_ H]. apply (H k2). rewrite C1, E, E2. done.
  - assert (p1 = p2) as ->; [|congruence]. apply (Hc1 p1 p2 n1 n2); try done. by rewrite C1, C2.
Qed.
