(** * Properties C40, C41, C42, C47: the generated test of one forbidden trace *)
From Verif Require Export PropCpp PropStm.
From Verif Require Export StmProofs.

(** ** C40, C41, C47: the test of one forbidden trace *)

(** The tests recorded by a machine, listed in any order. *)
Definition lists_tests (m : stm) (tests : list gostr) : Prop := NoDup tests /\ forall t, t ∈ tests <-> t ∈ m_tests m.
Lemma trace_tests_in b t name b' : build b (expand t name) = Ok b' -> forall x, x ∈ m_tests (b_stm b') <-> x = name.
Proof.
  intros Hb x. destruct (C28_recorded_tests b _ b' (expand_good t name) Hb) as [H _]. rewrite H. split.
  - intros (p & n & _ & Hn & Hx). rewrite (expand_tags t name p n Hn) in Hx. by apply elem_of_list_singleton in Hx.
  - intros ->. destruct (expand_node t name 1) as [nd Hd].
    { unfold trace_events. rewrite app_length. cbn. lia. }
    pose proof (proj1 (nn_at _ _ _ _ Hd)) as Hn. exists (zeros 1), nd. split; [done|]. split; [done|].
    rewrite (expand_tags t name _ _ Hn). by left.
Qed.
Lemma trace_lists b t name b' : build b (expand t name) = Ok b' -> lists_tests (b_stm b') [name].
Proof.
  intros Hb. split; [apply NoDup_singleton|]. intros x. by rewrite elem_of_list_singleton, (trace_tests_in b t name b' Hb).
Qed.
Lemma trace_tests b t name b' tests : build b (expand t name) = Ok b' -> lists_tests (b_stm b') tests -> tests = [name].
Proof.
  intros Hb [Hnd Hin].
  assert (forall x, x ∈ tests <-> x = name) as Hx by (intros x; by rewrite Hin, (trace_tests_in b t name b' Hb)).
  destruct tests as [|x [|y l]].
  - assert (name ∈ (@nil gostr)) as Hn by (by apply Hx). by apply elem_of_nil in Hn.
  - f_equal. apply Hx. left.
  - exfalso. assert (x = name) as -> by (apply Hx; left). assert (y = name) as -> by (apply Hx; right; left).
    apply NoDup_cons in Hnd as [Hnd' _]. apply Hnd'. left.
Qed.
Lemma trace_program b t name b' types tests : build b (expand t name) = Ok b' -> trace_ok types t ->
  exists P, gen_program (b_stm b') types tests = Some P /\ forall script, exists c, animate P script = Some c /\
    shows (expand t name) types tests (obs_run (expand t name) script) c.
Proof.
  intros Hb Hok. destruct (expand_supported types t name Hok) as [Hs Hr].
  destruct (C48_follows_tree b _ b' types tests (expand_good t name) Hb Hs Hr) as (P & HP & H).
  exists P. split; [done|]. intros script. destruct (H script) as (c & Hc & Hsh & _). by exists c.
Qed.
Lemma trace_take t : take (length (trace_events t)) (trace_events t) = trace_events t.
Proof. by rewrite firstn_all. Qed.
Lemma trace_take_prefix t : take (length (f_prefix t)) (trace_events t) = f_prefix t.
Proof. unfold trace_events. apply take_app. Qed.
Lemma trace_len t : length (trace_events t) = S (length (f_prefix t)).
Proof. unfold trace_events. rewrite app_length. cbn. lia. Qed.

(** C40: the program generated for a forbidden trace has failed exactly if the events of the
    trace have all been observed, in order and without deviation; its exit code is then 1. *)
Theorem C40_fails_iff_observed : forall b t name b' types tests,
  build b (expand t name) = Ok b' -> trace_ok types t ->
  exists P, gen_program (b_stm b') types tests = Some P /\
    forall script, exists c, animate P script = Some c /\
      (c_status c = FAIL <-> reached t (trace_events t) script) /\
      (exit_code (c_status c) = 1%Z <-> reached t (trace_events t) script).
Proof.
  intros b t name b' types tests Hb Hok. destruct (trace_program b t name b' types tests Hb Hok) as (P & HP & H).
  exists P. split; [done|]. intros script. destruct (H script) as (c & Hc & [Hst _ _]). exists c. split; [done|].
  assert (Hf : c_status c = FAIL <-> reached t (trace_events t) script).
  { rewrite Hst, obs_status_fail. destruct (trace_run t name (proj2 (proj2 Hok)) script) as [(j & Hj & [_ He] & Hr)|(Ha & He & Hr)].
    - rewrite He. specialize (Hr (length (trace_events t)) ltac:(lia)). rewrite trace_take in Hr. rewrite Hr. lia.
    - specialize (Hr (length (trace_events t))). rewrite trace_take in Hr. tauto. }
  split; [done|]. rewrite <- Hf. destruct (c_status c); cbn; split; done.
Qed.
Print Assumptions C40_fails_iff_observed.

(** C41: the recorded outcome follows the trace. *)
Theorem C41_outcome_tracks_trace : forall b t name b' types tests,
  build b (expand t name) = Ok b' -> trace_ok types t -> lists_tests (b_stm b') tests ->
  exists P, gen_program (b_stm b') types tests = Some P /\
    forall script, exists c, animate P script = Some c /\
      (c_verdict c !! name = Some (lit "FAIL") <-> reached t (trace_events t) script) /\
      (c_verdict c !! name = Some (lit "PASS") <-> reached t (f_prefix t) script /\ ~ reached t (trace_events t) script) /\
      (c_verdict c !! name = Some (lit "INC") <-> reached t [] script /\ ~ reached t (f_prefix t) script) /\
      (c_verdict c !! name = Some (lit "UNSET") <-> ~ reached t [] script).
Proof.
  intros b t name b' types tests Hb Hok Ht. destruct (trace_program b t name b' types tests Hb Hok) as (P & HP & H).
  rewrite (trace_tests b t name b' tests Hb Ht) in *.
  exists P. split; [done|]. intros script. destruct (H script) as (c & Hc & [_ Hv _]). exists c. split; [done|].
  specialize (Hv name ltac:(by left)).
  pose proof (trace_len t) as Hlen.
  destruct (trace_run t name (proj2 (proj2 Hok)) script) as [(j & Hj & [Ha _] & Hr)|(Ha & He & Hr)].
  - unfold obs_outcome in Hv. rewrite Ha, (recorded_nth t name j Hj) in Hv. rewrite Hv. unfold after_outcome.
    pose proof (Hr (length (trace_events t)) ltac:(lia)) as H1. rewrite trace_take in H1. rewrite H1.
    pose proof (Hr (length (f_prefix t)) ltac:(lia)) as H2. rewrite trace_take_prefix in H2. rewrite H2.
    pose proof (Hr 0 ltac:(lia)) as H3. rewrite take_0 in H3. rewrite H3.
    destruct (decide (j = length (trace_events t))) as [E1|E1]; [|destruct (decide (S j = length (trace_events t))) as [E2|E2]];
      (split; [|split; [|split]]); split; intros Hx; try (exfalso; vm_compute in Hx; discriminate); try done; lia.
  - unfold obs_outcome in Hv. rewrite Ha in Hv. rewrite Hv.
    pose proof (Hr (length (trace_events t))) as H1. rewrite trace_take in H1.
    pose proof (Hr (length (f_prefix t))) as H2. rewrite trace_take_prefix in H2.
    pose proof (Hr 0) as H3. rewrite take_0 in H3. 
    (split; [|split; [|split]]); split; intros Hx; try (exfalso; vm_compute in Hx; discriminate); try done; tauto.
Qed.
Print Assumptions C41_outcome_tracks_trace.

(** C42: an output that is not the expected next event ends the test off-script and changes
    nothing else. *)
Definition next_expected (t : forbidden) (script : list (gostr * valuable)) (w : gostr) (v : valuable) : Prop :=
  exists j e, trace_events t !! j = Some e /\ reached t (take j (trace_events t)) script /\
    ~ reached t (take (S j) (trace_events t)) script /\
    ch_kind (e_chan e) <> KIn /\ ch_name (e_chan e) = w /\ e_value e = Some v.
Lemma animate_snoc P script w v c : animate P script = Some c ->
  animate P (script ++ [(w, v)]) = animate_step P w v c.
Proof.
  unfold animate. destruct (start P) as [c0|]; [|done]. revert c0. induction script as [|[w' v'] script IH]; intros c0; cbn [animate_loop app].
  - intros [= ->]. by destruct (animate_step P w v c).
  - destruct (animate_step P w' v' c0) as [c1|]; [|done]. apply IH.
Qed.
Lemma single_output (nd : node) w v i : next_output nd w v = Some i ->
  exists k e, n_next nd !! i = Some k /\ n_outcome k <> OFail /\ n_event k = Some e /\
    ch_kind (e_chan e) <> KIn /\ ch_name (e_chan e) = w /\ e_value e = Some v.
Proof.
  unfold next_output. destruct (list_find _ _) as [[j k]|] eqn:Ef; [|done]. cbn. intros [= ->].
  apply list_find_Some in Ef as (Hk & [Ho Hx] & _). destruct (n_event k) as [e|] eqn:Ek; [|done]. by exists k, e.
Qed.
Theorem C42_deviation_off_script : forall b t name b' types tests,
  build b (expand t name) = Ok b' -> trace_ok types t ->
  exists P, gen_program (b_stm b') types tests = Some P /\
    forall script c w v, animate P script = Some c -> is_running (c_status c) = true ->
      w ∈ output_names (trace_events t) -> ~ next_expected t script w v ->
      animate P (script ++ [(w, v)]) = Some (Cpp OFF_SCRIPT (c_state c) (c_verdict c) (c_sent c)).
Proof.
  intros b t name b' types tests Hb Hok. destruct (expand_supported types t name Hok) as [Hs Hr].
  destruct (supported_gen_ok b _ b' types (expand_good t name) Hb Hs) as [Hgen He].
  set (T := apply_writes (b_writes b') (expand t name)) in *.
  destruct (gen_prog T (b_stm b') types tests Hgen) as (P & HP & Hprog). exists P. split; [done|].
  intros script c w v Hc Hrun Hw Hne. rewrite (animate_snoc P script w v c Hc).
  destruct (animate_sim T (b_stm b') types tests P script Hgen Hprog) as (c1 & Hc1 & Hsim); [by eapply no_reserved_eq|].
  assert (c1 = c) as -> by congruence. clear Hc1.
  rewrite (obs_run_eq T (expand t name) script He) in Hsim.
  set (o := obs_run (expand t name) script) in *.
  assert (Hend : o_end o = None).
  { pose proof (obs_running T o (sm_end _ _ _ _ _ Hsim)) as Hx. rewrite <- (sm_status _ _ _ _ _ Hsim), Hrun in Hx. by destruct (o_end o). }
  assert (HwT : w ∈ out_names T).
  { rewrite <- (out_names_erase T), He, out_names_erase. by apply expand_out_names. }
  destruct Hok as (Hty & Hk & R1 & R2 & R3).
  assert (N1 : w <> lit "timeout") by congruence. assert (N2 : w <> lit "ready") by congruence. assert (N3 : w <> lit "accept") by congruence.
  unfold animate_step. rewrite Hrun. cbn [negb]. rewrite !(bool_decide_eq_false_2 (w = _)) by done. rewrite !andb_false_r. cbn [andb].
  pose proof (find_out T (b_stm b') types tests P w Hgen Hprog) as Hf. destruct (head _) as [oc|]; [|done].
  destruct Hf as (_ & a & Ha & Haw & ->).
  assert (Hoff : output_callback P (gen_out a) v c = Some (end_test OFF_SCRIPT c)).
  { pose proof (sm_at _ _ _ _ _ Hsim) as Hat. destruct (o_at o) as [p|] eqn:Ea.
    - destruct Hat as (n & Hn & Hcs). pose proof (output_sim T (b_stm b') types tests P a p n v c Hgen Hprog Ha Hn Hcs) as Ho.
      rewrite Haw in Ho. destruct (next_output n w v) as [i|] eqn:En; [|done]. exfalso. apply Hne.
      destruct (trace_run t name (conj R1 (conj R2 R3)) script) as [(j & Hj & [Hz Hjf] & Hre)|(Hz & _)]; fold o in Hz; [|congruence].
      rewrite Ea in Hz. injection Hz as ->. fold o in Hjf.
      assert (Hlt : j < length (trace_events t)) by (rewrite Hend in Hjf; destruct (decide (j = length (trace_events t))) as [Ej|Ej]; [by apply Hjf in Ej|lia]).
      destruct (expand_node t name j Hj) as [nd Hnd].
      assert (En' : next_output nd w v = Some i).
      { rewrite <- En. rewrite <- (next_output_erase n), <- (next_output_erase nd). f_equal.
        pose proof (proj1 (nn_at _ _ _ _ Hnd)) as H1. pose proof (proj1 Hn) as H2.
        apply (f_equal (fmap erase_ids)) in H1, H2. rewrite <- node_at_erase in H1, H2. rewrite He in H2. rewrite H1 in H2. by injection H2. }
      pose proof (nn_output _ _ _ _ Hnd w v) as Hout. rewrite En' in Hout.
      destruct (lookup_lt_is_Some_2 _ _ Hlt) as [e Hje]. rewrite Hje in Hout.
      destruct (decide _) as [Hd|Hd]; [|done]. exists j, e. split; [done|].
      split; [apply Hre; [done|lia]|]. split; [|done]. rewrite Hre by lia. lia.
    - destruct Hat as [Hcs Hi]. pose proof (output_sim T (b_stm b') types tests P a [] T v c Hgen Hprog Ha (good_live T (go_tree _ _ _ Hgen)) Hcs) as Ho.
      by rewrite (out_root_none T (b_stm b') types _ v Hgen Hi) in Ho. }
  rewrite Hoff. unfold end_test. by rewrite Hrun.
Qed.
Print Assumptions C42_deviation_off_script.

(** C47: when exactly the first [j] events have been observed, the inputs among the first
    [j + 1] events have been sent, each once and in order; before the test begins nothing has
    been sent.  Values that fit the channel's C++ type are sent unchanged. *)
Definition position (t : forbidden) (script : list (gostr * valuable)) (j : nat) : Prop :=
  j <= length (trace_events t) /\ reached t (take j (trace_events t)) script /\
  (j < length (trace_events t) -> ~ reached t (take (S j) (trace_events t)) script).
Definition trace_fits (types : type_map) (t : forbidden) : Prop :=
  forall e ty, e ∈ trace_events t -> types !! ch_name (e_chan e) = Some ty -> fits32 ty (e_value e).
Lemma passed_exact types (l : list event) sent :
  (forall e, e ∈ l -> exists ty, types !! ch_name (e_chan e) = Some ty /\ expressible ty (e_value e) /\ fits32 ty (e_value e)) ->
  Forall2 (passed types) (inputs_of l) sent -> map (fun cw : gostr * valuable => (cw.1, Some cw.2)) sent = inputs_of l.
Proof.
  unfold inputs_of. revert sent. induction l as [|e l IH]; intros sent Hl HF.
  - by inversion HF.
  - rewrite filter_cons in HF |- *. destruct (decide (ch_kind (e_chan e) = KIn)) as [Hk|Hk].
    + cbn [map] in HF |- *. inversion HF as [|x [ch w] l1 l2 Hp HF']; subst. cbn [map fst snd]. rewrite (IH l2); [|by intros e' He'; apply Hl; right|done].
      destruct (Hl e ltac:(left)) as (ty & Hty & Hex & Hfit). destruct (e_value e) as [x|] eqn:Ev; [|done].
      destruct Hp as [Hch Hp]. cbn in Hch. subst ch. rewrite (passed_fits types _ ty x w Hty Hex Hfit); [done|]. by split.
    + apply IH; [|done]. intros e' He'. apply Hl. by right.
Qed.
Theorem C47_inputs_sent : forall b t name b' types tests,
  build b (expand t name) = Ok b' -> trace_ok types t ->
  exists P, gen_program (b_stm b') types tests = Some P /\
    forall script, exists c, animate P script = Some c /\
      (~ reached t [] script -> c_sent c = []) /\
      forall j, position t script j ->
        Forall2 (passed types) (inputs_of (take (S j) (trace_events t))) (c_sent c) /\
        (trace_fits types t ->
         map (fun cw : gostr * valuable => (cw.1, Some cw.2)) (c_sent c) = inputs_of (take (S j) (trace_events t))).
Proof.
  intros b t name b' types tests Hb Hok. destruct (trace_program b t name b' types tests Hb Hok) as (P & HP & H).
  exists P. split; [done|]. intros script. destruct (H script) as (c & Hc & [_ _ Hse]). exists c. split; [done|].
  unfold obs_sent in Hse. destruct (trace_run t name (proj2 (proj2 Hok)) script) as [(j & Hj & [Ha _] & Hr)|(Ha & _ & Hr)]; rewrite Ha in Hse.
  - split.
    + intros Hn. exfalso. apply Hn. pose proof (Hr 0 ltac:(lia)) as H3. rewrite take_0 in H3. rewrite H3. lia.
    + intros j' (Hj' & Hr1 & Hr2). assert (j' = j) as ->.
      { apply Hr in Hr1; [|done]. destruct (decide (j' < length (trace_events t))) as [Hlt|Hlt]; [|lia].
        specialize (Hr2 Hlt). rewrite Hr in Hr2 by lia. lia. }
      rewrite (sends_nth t name (proj2 (proj2 Hok)) j Hj) in Hse. split; [done|]. intros Hfit. apply (passed_exact types); [|done].
      intros e He. assert (e ∈ trace_events t) as Hin by (rewrite <- (take_drop (S j) (trace_events t)); apply elem_of_app; by left).
      destruct (proj1 Hok e Hin) as (ty & Hty & Hex). exists ty. split; [done|]. split; [done|]. by apply (Hfit e ty).
  - split; [intros _; by inversion Hse|]. intros j (_ & Hx & _). by apply Hr in Hx.
Qed.
Print Assumptions C47_inputs_sent.
(** Every session is at exactly one position, unless the test has not begun. *)
Theorem C47_positions : forall types t script, trace_ok types t ->
  (reached t [] script <-> exists j, position t script j) /\
  forall j j', position t script j -> position t script j' -> j = j'.
Proof.
  intros types t script Hok. destruct (trace_run t [] (proj2 (proj2 Hok)) script) as [(j & Hj & _ & Hr)|(Ha & _ & Hr)].
  - assert (Hpos : forall j', position t script j' <-> j' = j).
    { intros j'. split.
      - intros (Hj' & Hr1 & Hr2). apply Hr in Hr1; [|done]. destruct (decide (j' < length (trace_events t))) as [Hlt|Hlt]; [|lia].
        specialize (Hr2 Hlt). rewrite Hr in Hr2 by lia. lia.
      - intros ->. split; [done|]. split; [by apply Hr|]. intros Hlt. rewrite Hr by lia. lia. }
    split; [split|].
    + intros _. exists j. by apply Hpos.
    + intros _. pose proof (Hr 0 ltac:(lia)) as H3. rewrite take_0 in H3. apply H3. lia.
    + intros j1 j2 H1 H2. apply Hpos in H1, H2. congruence.
  - pose proof (Hr 0) as H3. rewrite take_0 in H3. split; [split; [done|]|].
    + intros (j & _ & Hx & _). by apply Hr in Hx.
    + intros j j' (_ & Hx & _). by apply Hr in Hx.
Qed.
Print Assumptions C47_positions.

(** The position can be read off the tree. *)
Lemma position_obs types t name script j : trace_ok types t ->
  o_at (obs_run (expand t name) script) = Some (zeros j) -> position t script j.
Proof.
  intros Hok Ha. destruct (trace_run t name (proj2 (proj2 Hok)) script) as [(j' & Hj & [Ha' _] & Hr)|(Ha' & _)]; [|congruence].
  rewrite Ha in Ha'. injection Ha' as Ha'. apply zeros_inj in Ha' as <-. split; [done|]. split; [by apply Hr|].
  intros Hlt. rewrite Hr by lia. lia.
Qed.
(** Larger values are not: 4294967299 is sent as 3. *)
Definition big_trace : forbidden :=
  Forbidden [] [Event (Channel (lit "c") KIn) (Some (IntV 4294967299))] (Event (Channel (lit "d") KOut) (Some (IntV 1))).
Definition big_types : type_map := {[ lit "c" := ty_arithmos DNat; lit "d" := ty_arithmos DNat ]}.
Theorem C47_any_value_refuted : exists t b' P c,
  build new_builder (expand t (lit "t")) = Ok b' /\ trace_ok big_types t /\
  gen_program (b_stm b') big_types [lit "t"] = Some P /\
  animate P [(lit "ready", no_value)] = Some c /\ position t [(lit "ready", no_value)] 0 /\
  inputs_of (take 1 (trace_events t)) = [(lit "c", Some (IntV 4294967299))] /\ c_sent c = [(lit "c", IntV 3)].
Proof.
  exists big_trace. eexists _, _, _.
  split; [vm_compute; reflexivity|].
  assert (Hok : trace_ok big_types big_trace) by (apply trace_okb_ok; vm_compute; done).
  split; [done|]. split; [vm_compute; reflexivity|].
  split; [vm_compute; reflexivity|].
  split; [apply (position_obs big_types _ (lit "t")); [done|vm_compute; reflexivity]|].
  split; vm_compute; reflexivity.
Qed.

(** A trace with inputs and outputs meets the hypotheses; sessions at several positions. *)
Definition demo_trace : forbidden :=
  Forbidden [] [Event (Channel (lit "c") KIn) (Some (IntV 3)); Event (Channel (lit "d") KOut) (Some (EnumV (lit "on")))]
    (Event (Channel (lit "d") KOut) (Some (EnumV (lit "off")))).
Definition demo_script : list (gostr * valuable) :=
  [(lit "d2", no_value); (lit "ready", no_value); (lit "ready", no_value); (lit "accept", no_value); (lit "d", EnumV (lit "on"))].
Lemma demo_ok : trace_ok branching_types demo_trace.
Proof. apply trace_okb_ok. vm_compute. done. Qed.
Definition demo_built : builder := Eval vm_compute in
  match build new_builder (expand demo_trace (lit "t")) with Ok b => b | _ => new_builder end.
Lemma demo_builds : build new_builder (expand demo_trace (lit "t")) = Ok demo_built.
Proof. vm_compute. reflexivity. Qed.
Definition demo_prog : option program := gen_program (b_stm demo_built) branching_types [lit "t"].
Definition demo_run (script : list (gostr * valuable)) : option (status * option gostr) :=
  match demo_prog with
  | Some P => (fun c => (c_status c, c_verdict c !! lit "t")) <$> animate P script
  | None => None
  end.
Example C40_C41_C42_C47_witness :
  build new_builder (expand demo_trace (lit "t")) = Ok demo_built /\ trace_ok branching_types demo_trace /\
  lists_tests (b_stm demo_built) [lit "t"] /\ trace_fits branching_types demo_trace /\
  position demo_trace demo_script 2 /\
  reached demo_trace (trace_events demo_trace) (demo_script ++ [(lit "d", EnumV (lit "off"))]) /\
  demo_run demo_script = Some (WAIT_OUT, Some (lit "PASS")) /\
  demo_run (demo_script ++ [(lit "d", EnumV (lit "off"))]) = Some (FAIL, Some (lit "FAIL")) /\
  demo_run (demo_script ++ [(lit "d", EnumV (lit "on"))]) = Some (OFF_SCRIPT, Some (lit "PASS")) /\
  ~ next_expected demo_trace demo_script (lit "d") (EnumV (lit "on")).
Proof.
  assert (Hp : position demo_trace demo_script 2).
  { apply (position_obs _ _ (lit "t") _ _ demo_ok). vm_compute. reflexivity. }
  split; [exact demo_builds|]. split; [exact demo_ok|]. split; [exact (trace_lists _ _ _ _ demo_builds)|].
  split.
  { intros e ty He Hty. assert (e = Event (Channel (lit "c") KIn) (Some (IntV 3)) \/ exists s, e_value e = Some (EnumV s)) as [-> | [s ->]].
    { cbn in He. apply elem_of_cons in He as [->|He]; [by left|right]. apply elem_of_cons in He as [->|He]; [by eexists|].
      apply elem_of_list_singleton in He as ->. by eexists. }
    - cbn. split; intros _; lia.
    - exact I. }
  split; [exact Hp|]. split.
  { apply (position_obs _ _ (lit "t") (demo_script ++ [(lit "d", EnumV (lit "off"))]) 3 demo_ok). vm_compute. reflexivity. }
  split; [vm_compute; reflexivity|]. split; [vm_compute; reflexivity|]. split; [vm_compute; reflexivity|].
  intros (j & e & He & Hr1 & Hr2 & _ & _ & Hv).
  assert (j = 2) as ->.
  { destruct (C47_positions _ _ demo_script demo_ok) as [_ Hu]. apply Hu; [|exact Hp]. split; [apply lookup_lt_Some in He; lia|]. done. }
  cbn in He. injection He as <-. discriminate.
Qed.
