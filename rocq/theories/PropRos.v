(** * Properties C63, C64: the ROS variant of generated tests *)
From Verif Require Export PropCppDecl SpecRos.
From Verif Require Export StmProofs.

Lemma all_nodes_iff T n : n ∈ all_nodes T <-> exists p, node_at T p = Some n.
Proof.
  split; [|by intros [p Hp]; apply (all_nodes_at T p)].
  induction T as [x t o e next IH] using node_ind'. cbn [all_nodes]. intros H. apply elem_of_cons in H as [->|H]; [by exists []|].
  apply elem_of_list_In, in_concat in H as (l & Hl & Hn). apply in_map_iff in Hl as (k & <- & Hk). apply elem_of_list_In in Hn, Hk.
  rewrite Forall_forall in IH. destruct (IH k Hk Hn) as [p Hp]. apply elem_of_list_lookup in Hk as [i Hi]. exists (i :: p). cbn. by rewrite Hi.
Qed.
Lemma all_events_iff T e : e ∈ all_events T <-> tree_event T e.
Proof.
  unfold all_events. rewrite elem_of_list_omap. split.
  - intros (n & Hn & He). apply all_nodes_iff in Hn as [p Hp]. by exists p, n.
  - intros (p & n & Hn & He). exists n. split; [|done]. apply all_nodes_iff. by exists p.
Qed.
Lemma has_input_iff T : has_input T = true <-> exists e, tree_event T e /\ ch_kind (e_chan e) = KIn.
Proof.
  unfold has_input. rewrite existsb_exists. split.
  - intros (e & He & Hk). apply bool_decide_eq_true in Hk. exists e. split; [|done]. apply all_events_iff. by apply elem_of_list_In.
  - intros (e & He & Hk). exists e. split; [|by apply bool_decide_eq_true]. apply elem_of_list_In. by apply all_events_iff.
Qed.
Lemma has_input_live T m types : gen_ok T m types -> has_input T = true <-> exists p n, live_at T p n /\ is_Some (next_input n).
Proof.
  intros [Hg Hs Hd Hv _ _]. rewrite has_input_iff. split.
  - intros (e & (p & k & Hk & He) & Hin). destruct p as [|i p _] using rev_ind.
    { cbn in Hk. injection Hk as <-. destruct Hg as [(Hne & _) _]. congruence. }
    rewrite node_at_app in Hk. destruct (node_at T p) as [n|] eqn:En; [|done]. cbn in Hk. destruct (n_next n !! i) as [k'|] eqn:Ei; [|done]. injection Hk as ->.
    assert (Hko : n_outcome k <> OFail).
    { destruct Hg as [_ Hg]. assert (Hgk : good_node k) by (apply (Hg (p ++ [i])); [by destruct p|rewrite node_at_app, En; cbn; by rewrite Ei]).
      destruct Hgk as [_ [(_ & Hx & _)|[(Hx & _)|(Hx & _)]]]; congruence. }
    assert (Hno : n_outcome n <> OFail).
    { destruct p as [|j p' _] using rev_ind; [cbn in En; injection En as <-; destruct Hg as [(_ & Ho & _) _]; congruence|].
      destruct Hg as [_ Hg]. assert (Hgn : good_node n) by (apply (Hg (p' ++ [j])); [by destruct p'|done]). destruct Hgn as [_ [(_ & _ & Hx)|[(Hx & _)|(Hx & _)]]]; [|congruence|congruence].
      rewrite Hx in Ei. done. }
    exists p, n. split; [done|]. pose proof (next_input_spec n (Hv p n En Hno)) as Hsp. destruct (next_input n) as [j|]; [by eexists|].
    exfalso. rewrite Forall_forall in Hsp. apply (Hsp (e, k)); [|done]. apply live_succs_elem. split; [by eapply elem_of_list_lookup_2|done].
  - intros (p & n & Hn & Hi). pose proof (next_input_spec n (Hv p n (proj1 Hn) (proj2 Hn))) as Hsp. destruct Hi as [i Hi]. rewrite Hi in Hsp.
    destruct Hsp as (e & k & Hik & Ho & He & Hk & _). exists e. split; [|done]. exists (p ++ [i]), k. split; [|done]. rewrite node_at_app, (proj1 Hn). cbn. by rewrite Hik.
Qed.
Lemma gen_accept_iff m types tests P : gen_program m types tests = Some P -> is_Some (p_accept P) <-> tc_has_in (make_transitions m) = true.
Proof.
  unfold gen_program. destruct (m_states m) as [|s0 r]; [done|]. destruct (forallb _ _); [|done]. destruct (gen_accept _) as [acc|]; [|done].
  intros [= <-]. cbn [p_accept]. destruct (tc_has_in (make_transitions m)); split; intros H; try done; try (by eexists); by destruct H.
Qed.
Lemma accept_has_input T m types tests P : gen_ok T m types -> gen_program m types tests = Some P ->
  has_input T = bool_decide (is_Some (p_accept P)).
Proof.
  intros Hok HP. apply eq_true_iff_eq. rewrite bool_decide_eq_true, (gen_accept_iff m types tests P HP), (has_in_spec T m types Hok).
  apply (has_input_live T m types Hok).
Qed.

(** One message. *)
Lemma ros_step_sim T m types tests P o c ev : gen_ok T m types -> gen_program m types tests = Some P -> is_prog T m types tests P ->
  sim T types tests o c -> (ev = RAccept -> o_at o = None -> o_end o = None -> False) ->
  exists c', ros_step P ev c = Some c' /\ sim T types tests (ros_obs_step T o ev) c'.
Proof.
  intros Hok HPg HP Hsim Hack. pose proof Hsim as [H1 H2 H3 H4 H5]. unfold ros_step, ros_obs_step.
  rewrite H1, (obs_running T o H5). destruct (o_end o) as [s|] eqn:Ee; [by eexists|]. destruct ev as [| | |w v]; cbn [ros_callback].
  - eexists. split; [done|]. unfold timeout_callback. rewrite H1, (obs_running T o), Ee by (by rewrite Ee). by apply end_sim.
  - rewrite (pg_delay _ _ _ _ _ HP). destruct (o_at o) as [p|] eqn:Ea.
    + exists c. split; [|done]. destruct (bool_decide (is_Some (next_input T))); [|done]. unfold initial_delay_callback.
      rewrite H1. unfold obs_status. rewrite Ee, Ea. rewrite bool_decide_eq_false_2; [done|]. by destruct (node_at T p ≫= next_input).
    + destruct H2 as [Hc Hi]. rewrite bool_decide_eq_true_2 by done. unfold initial_delay_callback. rewrite H1. unfold obs_status. rewrite Ee, Ea.
      rewrite bool_decide_eq_true_2 by done. rewrite (pg_initial _ _ _ _ _ HP). by apply (enter_root T m types tests P o c).
  - rewrite (accept_has_input T m types tests P Hok HPg). destruct (p_accept P) as [cs|] eqn:Eacc.
    + rewrite bool_decide_eq_true_2 by (by eexists). destruct (o_at o) as [p|] eqn:Ea; [|exfalso; by apply Hack].
      destruct H2 as (n & Hn & Hc). rewrite (proj1 Hn). cbn [mbind option_bind]. destruct (next_input n) as [i|] eqn:Ei.
      * destruct (accept_sim T m types tests P p n i c Hok HP Hn Hc Ei) as (k & Hk & Hko & _ & ->). by apply (enter_kid T m types tests P o c p n i k).
      * rewrite (accept_none T m types tests P p n c Hok HP Hn Hc Ei) by (rewrite Eacc; by eexists). eexists. split; [done|]. rewrite <- Ea. by apply end_sim.
    + rewrite bool_decide_eq_false_2 by (by intros [? ?]). by exists c.
  - pose proof (find_out T m types tests P w Hok HP) as Hf. destruct (head _) as [oc|] eqn:Eh.
    + destruct Hf as [Hw _]. rewrite decide_True by done. by apply (output_step T m types tests P o c w v).
    + rewrite decide_False by done. by exists c.
Qed.
Lemma ros_sim T m types tests P evs : gen_ok T m types -> gen_program m types tests = Some P -> is_prog T m types tests P ->
  no_early_ack T evs -> exists c, ros P evs = Some c /\ sim T types tests (ros_obs_run T evs) c.
Proof.
  intros Hok HPg HP. induction evs as [|ev evs IH] using rev_ind; intros Hack.
  - destruct (start_sim T m types tests P Hok HP) as (c & Hc & Hsim). exists c. unfold ros. rewrite Hc. done.
  - destruct IH as (c & Hc & Hsim). { intros l1 l2 ->. apply (Hack l1 (l2 ++ [ev])). by rewrite <- app_assoc. }
    rewrite ros_app, Hc. cbn [mbind option_bind ros_loop].
    destruct (ros_step_sim T m types tests P (ros_obs_run T evs) c ev Hok HPg HP Hsim) as (c' & Hc' & Hsim').
    { intros -> Ha He. apply (Hack evs [] eq_refl). unfold obs_status. by rewrite He, Ha. }
    rewrite Hc'. exists c'. split; [done|]. unfold ros_obs_run. by rewrite fold_left_app.
Qed.

Lemma all_events_erase T : all_events (erase_ids T) = all_events T.
Proof.
  unfold all_events. induction T as [x t o e next IH] using node_ind'. cbn [erase_ids all_nodes omap list_omap n_event].
  assert (Hr : omap n_event (concat (map all_nodes (map erase_ids next))) = omap n_event (concat (map all_nodes next))).
  { induction IH as [|k l Hk Hl IHl]; [done|]. cbn [map concat]. by rewrite !omap_app, Hk, IHl. }
  change (match e with Some y => y :: omap n_event (concat (map all_nodes (map erase_ids next))) | None => omap n_event (concat (map all_nodes (map erase_ids next))) end =
          match e with Some y => y :: omap n_event (concat (map all_nodes next)) | None => omap n_event (concat (map all_nodes next)) end).
  by rewrite Hr.
Qed.
Lemma ros_obs_step_erase T o ev : ros_obs_step (erase_ids T) o ev = ros_obs_step T o ev.
Proof.
  unfold ros_obs_step, has_input. rewrite all_events_erase, !out_names_erase, !arrive_erase. destruct (o_end o); [done|]. destruct ev as [| | |w v]; try done.
  - destruct (existsb _ _); [|done]. destruct (o_at o) as [p|]; [|done]. rewrite node_at_erase.
    destruct (node_at T p) as [n|]; [|done]. cbn [fmap option_fmap option_map mbind option_bind]. rewrite next_input_erase.
    destruct (next_input n); rewrite ?arrive_erase; done.
  - destruct (decide _); [|done]. destruct (o_at o) as [p|]; [|done]. rewrite node_at_erase. destruct (node_at T p) as [n|]; [|done].
    cbn [fmap option_fmap option_map]. rewrite next_output_erase. destruct (next_output n w v); rewrite ?arrive_erase; done.
Qed.
Lemma ros_obs_run_eq a b evs : erase_ids a = erase_ids b -> ros_obs_run a evs = ros_obs_run b evs.
Proof.
  intros He. assert (H : forall T, ros_obs_run (erase_ids T) evs = ros_obs_run T evs).
  { intros T. unfold ros_obs_run. rewrite obs_start_erase. generalize (obs_start T). induction evs as [|ev evs IH]; intros o; [done|].
    cbn. rewrite ros_obs_step_erase. apply IH. }
  by rewrite <- H, He, H.
Qed.

(** C63: the ROS variant follows the tree, too, as long as no acknowledgement arrives before
    the initial delay; stray acknowledgements later are internal errors (exit code 2), never
    failures. *)
Theorem C63_ros_follows_tree : forall b root b' types tests,
  good_tree root -> build b root = Ok b' -> supported types root ->
  exists P, gen_program (b_stm b') types tests = Some P /\
    forall evs, no_early_ack root evs -> exists c, ros P evs = Some c /\ shows root types tests (ros_obs_run root evs) c.
Proof.
  intros b root b' types tests Hg Hb Hs. destruct (supported_gen_ok b root b' types Hg Hb Hs) as [Hok He].
  set (T := apply_writes (b_writes b') root) in *.
  destruct (gen_prog T (b_stm b') types tests Hok) as (P & HP & Hprog). exists P. split; [done|]. intros evs Hack.
  destruct (ros_sim T (b_stm b') types tests P evs Hok HP Hprog) as (c & Hc & Hsim).
  { intros l1 l2 Hl. rewrite (ros_obs_run_eq T root l1 He), <- (obs_status_erase T), He, obs_status_erase. by apply (Hack l1 l2). }
  exists c. split; [done|]. rewrite (ros_obs_run_eq T root evs He) in Hsim. by eapply sim_shows.
Qed.
Print Assumptions C63_ros_follows_tree.

(** When acknowledgements arrive only as expected, the ROS session is worth the interactive
    one with the same events, ... *)
Lemma obs_run_snoc T l wv : obs_run T (l ++ [wv]) = obs_step T (obs_run T l) wv.1 wv.2.
Proof. unfold obs_run. by rewrite fold_left_app. Qed.
Lemma obs_at_node T script p : o_at (obs_run T script) = Some p -> is_Some (node_at T p).
Proof.
  revert p. induction script as [|[w v] script IH] using rev_ind; intros p.
  - unfold obs_run, obs_start. cbn. destruct (next_input T); [done|]. intros [= <-]. by eexists.
  - rewrite obs_run_snoc. cbn [fst snd]. unfold obs_step. destruct (o_end _) as [s|]; [apply IH|].
    destruct (decide (w = lit "timeout")) as [E1|E1]; [apply IH|]. destruct (o_at (obs_run T script)) as [q|] eqn:Ea.
    + destruct (IH q eq_refl) as [n Hn]. rewrite Hn. 
      assert (Hk : forall (Q : node -> Prop) `{forall x, Decision (Q x)} i, fst <$> list_find Q (n_next n) = Some i -> is_Some (node_at T (q ++ [i]))).
      { intros Q HQ i Hi. destruct (list_find Q (n_next n)) as [[j k]|] eqn:Ef; [|done]. cbn in Hi. injection Hi as <-.
        apply list_find_Some in Ef as (Hk & _). exists k. rewrite node_at_app, Hn. cbn. by rewrite Hk. }
      destruct (decide (w = lit "accept")) as [E2|E2].
      * destruct (next_input n) as [i|] eqn:Ei; [|rewrite Ea; intros [= <-]; by eexists]. intros [= <-]. by apply (Hk input_kid _ i).
      * destruct (decide (w ∈ out_names T)) as [E3|E3]; [|rewrite Ea; intros [= <-]; by eexists].
        destruct (next_output n w v) as [i|] eqn:Ei; intros [= <-]; [by apply (Hk (output_kid w v) _ i)|by eexists].
    + destruct (decide (w = lit "ready")) as [E2|E2]; [intros [= <-]; by eexists|]. destruct (decide (w ∈ out_names T)) as [E3|E3]; [done|]. by rewrite Ea.
Qed.
Lemma ros_as_session T evs : no_reserved T -> acks_expected T evs -> subscribed T evs ->
  (forall p n, node_at T p = Some n -> is_Some (next_input n) -> has_input T = true) ->
  ros_obs_run T evs = obs_run T (map ros_word evs).
Proof.
  intros (R1 & R2 & R3) Hack Hsub Hin. induction evs as [|ev evs IH] using rev_ind; [done|].
  assert (IH' : ros_obs_run T evs = obs_run T (map ros_word evs)).
  { apply IH; [intros l1 l2 ->; apply (Hack l1 (l2 ++ [ev])); by rewrite <- app_assoc|].
    intros w v Hw. apply (Hsub w v). apply elem_of_app. by left. }
  assert (Hev : forall w v, ev = ROut w v -> w ∈ out_names T).
  { intros w v ->. apply (Hsub w v). apply elem_of_app. right. left. }
  unfold ros_obs_run. rewrite fold_left_app, map_app. cbn [fold_left map]. rewrite obs_run_snoc.
  change (fold_left (ros_obs_step T) evs (obs_start T)) with (ros_obs_run T evs). rewrite IH'.
  pose proof (obs_at_node T (map ros_word evs)) as Hnode.
  assert (Hexp : ev = RAccept -> obs_status T (obs_run T (map ros_word evs)) = WAIT_IN \/ is_running (obs_status T (obs_run T (map ros_word evs))) = false)
    by (intros ->; by apply (Hack evs [])).
  set (o := obs_run T (map ros_word evs)) in *. clearbody o. clear IH IH' Hack.
  unfold ros_obs_step, obs_step. destruct (o_end o) as [s|] eqn:Ee; [done|].
  destruct ev as [| | |w v]; cbn [ros_word fst snd].
  - by rewrite decide_True.
  - rewrite decide_False by done. destruct (o_at o) as [p|]; [|by rewrite decide_True]. destruct (node_at T p); [|done].
    rewrite decide_False by done. by rewrite decide_False.
  - rewrite decide_False by done. specialize (Hexp eq_refl). unfold obs_status in Hexp. rewrite Ee in Hexp. destruct (o_at o) as [p|]; [|by destruct Hexp].
    destruct (Hnode p eq_refl) as [n Hn]. rewrite Hn in *. cbn [mbind option_bind] in *. destruct (next_input n) as [i|] eqn:Ei; [|by destruct Hexp].
    rewrite (Hin p n Hn) by (by eexists). by rewrite decide_True.
  - assert (Hw : w ∈ out_names T) by (by apply (Hev w v)). rewrite (decide_True (P := w ∈ _)) by done.
    rewrite (decide_False (P := w = lit "timeout")) by congruence. destruct (o_at o) as [p|].
    + destruct (node_at T p) as [n|]; [|done]. rewrite (decide_False (P := w = lit "accept")) by congruence. by rewrite decide_True.
    + rewrite (decide_False (P := w = lit "ready")) by congruence. by rewrite decide_True.
Qed.
Lemma acks_expected_prefix T l ev : acks_expected T (l ++ [ev]) -> acks_expected T l.
Proof. intros H l1 l2 ->. apply (H l1 (l2 ++ [ev])). by rewrite <- app_assoc. Qed.
Lemma expected_not_early T evs : no_reserved T -> acks_expected T evs -> subscribed T evs ->
  (forall p n, node_at T p = Some n -> is_Some (next_input n) -> has_input T = true) -> no_early_ack T evs.
Proof.
  intros Hr H Hs Hin l1 l2 ->. rewrite (ros_as_session T l1 Hr).
  - destruct (H l1 l2 eq_refl) as [E|E]; [by rewrite E|]. intros E'. rewrite E' in E. done.
  - intros m1 m2 ->. apply (H m1 (m2 ++ RAccept :: l2)). by rewrite <- app_assoc.
  - intros w v Hw. apply (Hs w v). apply elem_of_app. by left.
  - done.
Qed.
(** (A node that offers an input is non-failing, in a good tree.) *)
Lemma next_input_event T p n : node_at T p = Some n -> is_Some (next_input n) -> has_input T = true.
Proof.
  intros Hn [i Hi]. unfold next_input in Hi. destruct (list_find _ _) as [[j k]|] eqn:Ef; [|done]. cbn in Hi. injection Hi as ->.
  apply list_find_Some in Ef as (Hk & [_ Hx] & _). destruct (n_event k) as [e|] eqn:Ee; [|done].
  apply has_input_iff. exists e. split; [|done]. exists (p ++ [i]), k. split; [|done]. rewrite node_at_app, Hn. cbn. by rewrite Hk.
Qed.
Theorem C63_ros_as_session : forall b root b' types tests,
  good_tree root -> build b root = Ok b' -> supported types root -> no_reserved root ->
  exists P, gen_program (b_stm b') types tests = Some P /\
    forall evs, acks_expected root evs -> subscribed root evs ->
      exists c, ros P evs = Some c /\ shows root types tests (obs_run root (map ros_word evs)) c.
Proof.
  intros b root b' types tests Hg Hb Hs Hr. destruct (C63_ros_follows_tree b root b' types tests Hg Hb Hs) as (P & HP & H).
  exists P. split; [done|]. intros evs Hack Hsub. destruct (H evs) as (c & Hc & Hsh).
  { apply expected_not_early; try done. apply next_input_event. }
  exists c. split; [done|]. rewrite <- (ros_as_session root evs Hr Hack Hsub); [done|]. apply next_input_event.
Qed.
Print Assumptions C63_ros_as_session.
(** ... so the ROS test of a forbidden trace fails exactly if the trace has been observed. *)
Theorem C63_ros_fails_iff_observed : forall b t name b' types tests,
  build b (expand t name) = Ok b' -> trace_ok types t ->
  exists P, gen_program (b_stm b') types tests = Some P /\
    forall evs, acks_expected (expand t name) evs -> (forall w v, ROut w v ∈ evs -> w ∈ output_names (trace_events t)) ->
      exists c, ros P evs = Some c /\ (c_status c = FAIL <-> reached t (trace_events t) (map ros_word evs)).
Proof.
  intros b t name b' types tests Hb Hok. destruct (expand_supported types t name Hok) as [Hs Hr].
  destruct (C63_ros_as_session b _ b' types tests (expand_good t name) Hb Hs Hr) as (P & HP & H).
  exists P. split; [done|]. intros evs Hack Hsub. destruct (H evs Hack) as (c & Hc & [Hst _ _]).
  { intros w v Hw. apply expand_out_names. by apply (Hsub w v). }
  exists c. split; [done|]. rewrite Hst, obs_status_fail.
  destruct (trace_run t name (proj2 (proj2 Hok)) (map ros_word evs)) as [(j & Hj & [_ He] & Hre)|(Ha & He & Hre)].
  - rewrite He. specialize (Hre (length (trace_events t)) ltac:(lia)). rewrite trace_take in Hre. rewrite Hre. lia.
  - specialize (Hre (length (trace_events t))). rewrite trace_take in Hre. tauto.
Qed.
Print Assumptions C63_ros_fails_iff_observed.

(** An acknowledgement during the initial delay does harm: the test skips the input without
    sending it, and can even fail without having done anything. *)
Definition input_trace : forbidden := Forbidden [] [] (Event (Channel (lit "c") KIn) (Some (IntV 3))).
Theorem C63_early_ack_refuted : exists b' P c,
  build new_builder (expand input_trace (lit "t")) = Ok b' /\ trace_ok int_types input_trace /\
  gen_program (b_stm b') int_types [lit "t"] = Some P /\
  ros P [RAccept] = Some c /\ c_status c = FAIL /\ c_sent c = [].
Proof.
  eexists _, _, _. split; [vm_compute; reflexivity|]. split; [apply trace_okb_ok; vm_compute; done|].
  split; [vm_compute; reflexivity|]. split; [vm_compute; reflexivity|]. done.
Qed.
(** A stray acknowledgement later is an internal error. *)
Definition acks_expectedb (T : node) (evs : list ros_event) : bool :=
  forallb (fun i => match evs !! i with
                    | Some RAccept => let s := obs_status T (obs_run T (map ros_word (take i evs))) in
                                      bool_decide (s = WAIT_IN) || negb (is_running s)
                    | _ => true
                    end) (seq 0 (length evs)).
Lemma acks_expectedb_ok T evs : acks_expectedb T evs = true -> acks_expected T evs.
Proof.
  intros H l1 l2 ->. unfold acks_expectedb in H. rewrite forallb_forall in H. specialize (H (length l1)).
  rewrite list_lookup_middle, take_app in H by done. 
  assert (Hi : In (length l1) (seq 0 (length (l1 ++ RAccept :: l2)))) by (apply in_seq; rewrite app_length; cbn; lia).
  specialize (H Hi). apply orb_true_iff in H as [H|H]; [left; by apply bool_decide_eq_true in H|right; by apply negb_true_iff].
Qed.
Example C63_witness :
  acks_expected (expand demo_trace (lit "t")) [RDelay; RDelay; RAccept; ROut (lit "d") (EnumV (lit "on")); RTimeout; RAccept] /\
  c_status <$> ros demo_program [RDelay; RDelay; RAccept; ROut (lit "d") (EnumV (lit "on"))] = Some WAIT_OUT /\
  c_status <$> ros demo_program [RDelay; RDelay; RAccept; ROut (lit "d") (EnumV (lit "on")); RAccept] = Some BUG.
Proof.
  split; [|split; vm_compute; reflexivity]. apply acks_expectedb_ok. vm_compute. reflexivity.
Qed.

Lemma tc_first m : tc_first_state_has_in (make_transitions m) = first_state_has_in m.
Proof. exact (proj1 (proj2 (proj2 (proj2 (proj2 (make_transitions_spec m)))))). Qed.
(** ** C64: nothing is sent, and the test cannot need a publisher, while the object that holds
    the publishers is being constructed *)
Theorem C64_construction_sends_nothing : forall m types tests P c,
  gen_program m types tests = Some P -> start P = Some c -> c_sent c = [] /\
  (c_status c = WAIT_START <-> p_delay P = true).
Proof.
  intros m types tests P c HP. unfold gen_program in HP. destruct (m_states m) as [|s0 r] eqn:Es; [done|].
  destruct (forallb _ _); [|done]. destruct (gen_accept _) as [acc|]; [|done]. injection HP as <-.
  unfold start. cbn [p_delay p_initial]. destruct (tc_first_state_has_in (make_transitions m)) eqn:Ef; [by intros [= <-]|].
  unfold enter, find_entry. cbn [p_entries map]. rewrite filter_cons_True by done. cbn [head].
  assert (Hin : state_has_in s0 = false).
  { rewrite tc_first in Ef. unfold first_state_has_in in Ef. by rewrite Es in Ef. }
  unfold run_entry, gen_entry. cbn [en_act]. rewrite Hin. destruct (verdict_is OFail (st_verdict s0)); intros [= <-]; done.
Qed.
Print Assumptions C64_construction_sends_nothing.

Example C64_witness : c_status <$> start demo_program = Some WAIT_START /\ p_delay demo_program = true.
Proof. split; vm_compute; reflexivity. Qed.
