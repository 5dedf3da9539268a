(** * Property C48: generated C++ test programs of branching tests *)
From Verif Require Export ChainProofs CppCheck.
From Verif Require Export StmProofs.

(** ** C48: branching tests follow the tree *)
Lemma supported_gen_ok b root b' types : good_tree root -> build b root = Ok b' -> supported types root ->
  gen_ok (apply_writes (b_writes b') root) (b_stm b') types /\ erase_ids (apply_writes (b_writes b') root) = erase_ids root.
Proof.
  intros Hg Hb [H1 H2 H3 H4]. destruct (build_states _ _ _ Hg Hb) as (HgT & Hs & _ & He & _ & _). split; [|done].
  split; [done|done|exact (build_case_distinct b root b' Hg Hb H4)| | |].
  - eapply valid_tree_eq; [|exact H1]. done.
  - eapply one_kind_eq; [|exact H2]. done.
  - eapply typed_eq; [|exact H3]. done.
Qed.
Lemma sim_shows T root types tests o c : erase_ids T = erase_ids root -> sim T types tests o c -> shows root types tests o c.
Proof.
  intros He [H1 _ H3 H4 _]. split.
  - by rewrite H1, <- (obs_status_erase T), He, obs_status_erase.
  - intros t Ht. by rewrite (H3 t Ht), <- (obs_outcome_erase T), He, obs_outcome_erase.
  - by rewrite <- (obs_sent_erase root), <- He, obs_sent_erase.
Qed.
Lemma obs_run_eq T root script : erase_ids T = erase_ids root -> obs_run T script = obs_run root script.
Proof. intros He. by rewrite <- (obs_run_erase T), He, obs_run_erase. Qed.

(** The program generated for a validated tree follows the tree: after any session its status,
    recorded outcomes and inputs sent are those of the node reached, and it is in the state
    of that node. *)
Theorem C48_follows_tree : forall b root b' types tests,
  good_tree root -> build b root = Ok b' -> supported types root -> no_reserved root ->
  exists P, gen_program (b_stm b') types tests = Some P /\
    forall script, exists c, animate P script = Some c /\
      shows root types tests (obs_run root script) c /\
      forall p, o_at (obs_run root script) = Some p ->
        exists n, node_at (apply_writes (b_writes b') root) p = Some n /\ c_state c = to_upper (n_id n).
Proof.
  intros b root b' types tests Hg Hb Hs Hr. destruct (supported_gen_ok b root b' types Hg Hb Hs) as [Hok He].
  set (T := apply_writes (b_writes b') root) in *.
  destruct (gen_prog T (b_stm b') types tests Hok) as (P & HP & Hprog). exists P. split; [done|]. intros script.
  destruct (animate_sim T (b_stm b') types tests P script Hok Hprog) as (c & Hc & Hsim); [by eapply no_reserved_eq|].
  exists c. split; [done|]. rewrite (obs_run_eq T root script He) in Hsim. split; [by eapply sim_shows|].
  intros p Hp. pose proof (sm_at _ _ _ _ _ Hsim) as Hat. rewrite Hp in Hat. destruct Hat as (n & [Hn _] & Hc'). by exists n.
Qed.
Print Assumptions C48_follows_tree.

(** It has failed exactly if the node reached says so. *)
Definition at_failing (T : node) (o : obs) : Prop := exists p n, o_at o = Some p /\ node_at T p = Some n /\ failing n.
Definition fail_ok (T : node) (o : obs) : Prop := o_end o = Some FAIL <-> at_failing T o.
Lemma arrive_fail_ok T p : fail_ok T (arrive T p).
Proof.
  unfold fail_ok, at_failing, arrive. cbn. destruct (node_at T p) as [n|] eqn:En.
  - destruct (decide (failing n)) as [Hf|Hf]; (split; [|intros (q & k & [= <-] & Hk & Hfk)]); try done.
    + intros _. by exists p, n.
    + rewrite En in Hk. injection Hk as <-. done.
  - split; [done|]. intros (q & k & [= <-] & Hk & _). congruence.
Qed.
Lemma end_fail_ok T o s : fail_ok T o -> o_end o = None -> s <> FAIL -> fail_ok T (Obs (o_at o) (Some s)).
Proof.
  unfold fail_ok, at_failing. intros [_ H] He Hs. cbn. split; [congruence|]. intros Hx. rewrite He in H. by apply H in Hx.
Qed.
Lemma step_fail_ok T o w v : fail_ok T o -> fail_ok T (obs_step T o w v).
Proof.
  intros Ho. unfold obs_step. destruct (o_end o) as [s|] eqn:Ee; [done|].
  destruct (decide (w = lit "timeout")) as [E1|E1]; [by apply end_fail_ok|].
  destruct (o_at o) as [p|] eqn:Ea.
  - destruct (node_at T p) as [n|] eqn:En; [|done].
    destruct (decide (w = lit "accept")); [destruct (next_input n); [apply arrive_fail_ok|done]|].
    destruct (decide (w ∈ out_names T)); [|done]. destruct (next_output n w v); [apply arrive_fail_ok|].
    rewrite <- Ea. by apply end_fail_ok.
  - destruct (decide (w = lit "ready")); [apply arrive_fail_ok|]. destruct (decide (w ∈ out_names T)); [|done].
    rewrite <- Ea. by apply end_fail_ok.
Qed.
Lemma obs_end_fail T script : fail_ok T (obs_run T script).
Proof.
  unfold obs_run. assert (Hinv : forall o, fail_ok T o -> fail_ok T (fold_left (fun o wv => obs_step T o wv.1 wv.2) script o)).
  { induction script as [|[w v] script IH]; intros o Ho; [done|]. cbn [fold_left fst snd]. apply IH. by apply step_fail_ok. }
  apply Hinv. unfold obs_start. destruct (next_input T); [split; [done|by intros (p & k & [=] & _)]|]. apply arrive_fail_ok.
Qed.
Lemma obs_status_fail T o : obs_status T o = FAIL <-> o_end o = Some FAIL.
Proof.
  unfold obs_status. destruct (o_end o) as [s|]; [split; congruence|]. split; [|done].
  destruct (o_at o) as [p|]; [|done]. by destruct (node_at T p ≫= next_input).
Qed.
Theorem C48_failed_iff : forall b root b' types tests,
  good_tree root -> build b root = Ok b' -> supported types root -> no_reserved root ->
  exists P, gen_program (b_stm b') types tests = Some P /\
    forall script, exists c, animate P script = Some c /\
      (c_status c = FAIL <->
       exists p n, o_at (obs_run root script) = Some p /\ node_at root p = Some n /\ failing n).
Proof.
  intros b root b' types tests Hg Hb Hs Hr. destruct (C48_follows_tree b root b' types tests Hg Hb Hs Hr) as (P & HP & H).
  exists P. split; [done|]. intros script. destruct (H script) as (c & Hc & [H1 _ _] & _). exists c. split; [done|].
  rewrite H1, obs_status_fail. apply obs_end_fail.
Qed.
Print Assumptions C48_failed_iff.

(** A node fails exactly if it has a failing successor that names a test which no later
    successor names. *)
Lemma last_filter_Some {A} (Q : A -> Prop) `{forall x, Decision (Q x)} (l : list A) y :
  last (filter Q l) = Some y <-> exists i, l !! i = Some y /\ Q y /\ forall j z, i < j -> l !! j = Some z -> ~ Q z.
Proof.
  induction l as [|x l IH] using rev_ind.
  { split; [done|]. intros (i & Hi & _). by rewrite lookup_nil in Hi. }
  rewrite filter_app. destruct (decide (Q x)) as [Hx|Hx].
  - rewrite (filter_cons_True Q x []) by done. rewrite last_app. cbn. split.
    + intros [= <-]. exists (length l). split; [apply list_lookup_middle; done|]. split; [done|].
      intros j z Hj Hz. apply lookup_lt_Some in Hz. rewrite app_length in Hz. cbn in Hz. lia.
    + intros (i & Hi & Hy & Hl). destruct (decide (i = length l)) as [->|Hne].
      * rewrite list_lookup_middle in Hi by done. congruence.
      * exfalso. apply (Hl (length l) x); [|by rewrite list_lookup_middle|done].
        apply lookup_lt_Some in Hi. rewrite app_length in Hi. cbn in Hi. lia.
  - rewrite (filter_cons_False Q x []) by done. rewrite filter_nil, app_nil_r. rewrite IH. split.
    + intros (i & Hi & Hy & Hl). exists i. split; [by apply lookup_app_l_Some|]. split; [done|].
      intros j z Hj Hz. apply lookup_app_Some in Hz as [Hz|[Hjl Hz]]; [by apply (Hl j)|].
      destruct (j - length l) as [|m]; cbn in Hz; [congruence|done].
    + intros (i & Hi & Hy & Hl). apply lookup_app_Some in Hi as [Hi|[Hjl Hi]].
      * exists i. split; [done|]. split; [done|]. intros j z Hj Hz. apply (Hl j); [done|]. by apply lookup_app_l_Some.
      * destruct (i - length l) as [|m]; cbn in Hi; [congruence|done].
Qed.
Theorem C48_failing_successor : forall n, failing n <->
  exists i k t, n_next n !! i = Some k /\ n_outcome k = OFail /\ t ∈ n_tests k /\
    forall j k', i < j -> n_next n !! j = Some k' -> t ∉ n_tests k'.
Proof.
  intros n. unfold failing. rewrite Exists_exists. split.
  - intros (t & _ & Hs). unfold says in Hs. destruct (last _) as [k|] eqn:El; [|done]. cbn in Hs. injection Hs as Hs.
    apply last_filter_Some in El as (i & Hi & Ht & Hl). exists i, k, t. done.
  - intros (i & k & t & Hi & Ho & Ht & Hl). exists t. split.
    + apply elem_of_list_In, in_concat. exists (n_tests k). split; [|by apply elem_of_list_In].
      apply in_map_iff. exists k. split; [done|]. apply elem_of_list_In. by eapply elem_of_list_lookup_2.
    + unfold says. assert (last (filter (fun k => t ∈ n_tests k) (n_next n)) = Some k) as ->; [|cbn; by rewrite Ho].
      apply last_filter_Some. by exists i.
Qed.
Print Assumptions C48_failing_successor.

(** "Has a failing successor" is not enough: a later successor with the same tests hides it. *)
Definition hidden_fail : node :=
  Node [] [lit "t"] OUnset None
    [Node [] [lit "t"] OFail None [];
     Node [] [lit "t"] OPass (Some (Event (Channel (lit "c") KOut) (Some (IntV 1)))) [Node [] [lit "t"] OFail None []]].
Definition int_types : type_map := {[ lit "c" := ty_arithmos DNat ]}.
Theorem C48_any_failing_successor_refuted : exists root b' P c,
  good_tree root /\ build new_builder root = Ok b' /\ supported int_types root /\ no_reserved root /\
  (exists k, k ∈ n_next root /\ n_outcome k = OFail) /\
  gen_program (b_stm b') int_types [lit "t"] = Some P /\ animate P [] = Some c /\ c_status c = WAIT_OUT.
Proof.
  exists hidden_fail. eexists _, _, _.
  split; [apply full_iff; vm_compute; done|].
  split; [vm_compute; reflexivity|].
  split; [apply supportedb_ok; vm_compute; done|].
  split; [apply no_reservedb_ok; vm_compute; done|].
  split; [eexists; split; [left|done]|].
  split; [vm_compute; reflexivity|].
  split; [vm_compute; reflexivity|]. done.
Qed.

(** A branching test: an input, then two outputs, one of which continues. *)
Definition branching : node :=
  Node [] [lit "t"; lit "u"] OUnset None
    [Node [] [lit "t"; lit "u"] OInc (Some (Event (Channel (lit "c") KIn) (Some (IntV 3))))
       [Node [] [lit "t"] OPass (Some (Event (Channel (lit "d") KOut) (Some (EnumV (lit "on")))))
          [Node [] [lit "t"] OFail None []];
        Node [] [lit "u"] OInc (Some (Event (Channel (lit "d") KOut) (Some (EnumV (lit "off")))))
          [Node [] [lit "u"] OPass (Some (Event (Channel (lit "c") KIn) (Some (IntV 4)))) [Node [] [lit "u"] OFail None []]]]].
Definition branching_types : type_map := {[ lit "c" := ty_arithmos DNat; lit "d" := ty_enum ]}.
Definition no_value : valuable := EnumV [].
Example C48_witness :
  good_tree branching /\ supported branching_types branching /\ no_reserved branching /\
  exists b' P, build new_builder branching = Ok b' /\
    gen_program (b_stm b') branching_types [lit "t"; lit "u"] = Some P /\
    (fun c => (c_status c, c_sent c)) <$>
      animate P [(lit "ready", no_value); (lit "accept", no_value); (lit "d", EnumV (lit "off"))] =
      Some (WAIT_IN, [(lit "c", IntV 3); (lit "c", IntV 4)]) /\
    c_status <$> animate P [(lit "ready", no_value); (lit "accept", no_value); (lit "d", EnumV (lit "on"))] = Some FAIL /\
    o_at (obs_run branching [(lit "ready", no_value); (lit "accept", no_value); (lit "d", EnumV (lit "off"))]) = Some [0; 1].
Proof.
  split; [apply full_iff; vm_compute; done|].
  split; [apply supportedb_ok; vm_compute; done|].
  split; [apply no_reservedb_ok; vm_compute; done|].
  eexists _, _. split; [vm_compute; reflexivity|]. split; [vm_compute; reflexivity|].
  split; [vm_compute; reflexivity|]. split; vm_compute; reflexivity.
Qed.

