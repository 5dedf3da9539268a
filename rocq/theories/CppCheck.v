(** * Deciding, for concrete trees, the hypotheses of the theorems on generated programs
    (used only to show that they can be met) *)
From Verif Require Export ChainProofs SpecRos.
From Verif Require Export StmProofs.

Lemma all_nodes_at T p n : node_at T p = Some n -> n ∈ all_nodes T.
Proof.
  revert T. induction p as [|i p IH]; intros [x t o e next]; cbn.
  - intros [= <-]. left.
  - destruct (next !! i) as [k|] eqn:Ei; [|done]. intros H. right. apply elem_of_list_In, in_concat. exists (all_nodes k).
    split; [apply in_map, elem_of_list_In; by eapply elem_of_list_lookup_2|]. apply elem_of_list_In. by apply IH.
Qed.
Lemma all_events_of T e : tree_event T e -> e ∈ all_events T.
Proof. intros (p & n & Hn & He). apply elem_of_list_omap. exists n. split; [by apply (all_nodes_at T p)|done]. Qed.

Definition valid_stateb (n : node) : bool :=
  match live_succs n with
  | [(e, _)] => true
  | l => forallb (fun ek => bool_decide (ch_kind (e_chan ek.1) <> KIn)) l
  end.
Lemma valid_stateb_ok n : valid_stateb n = true -> valid_state n.
Proof.
  unfold valid_stateb, valid_state. destruct (live_succs n) as [|[e k] [|x l]] eqn:E; intros H.
  - left. constructor.
  - destruct (decide (ch_kind (e_chan e) = KIn)) as [Hk|Hk]; [right; by exists e, k|left]. constructor; [done|constructor].
  - left. apply Forall_forall. intros y Hy. eapply forallb_forall in H; [|by apply elem_of_list_In]. by apply bool_decide_eq_true in H.
Qed.
Global Instance cpp_safe_dec s : Decision (cpp_safe s).
Proof. unfold cpp_safe. apply _. Defined.
Global Instance expressible_dec t v : Decision (expressible t v).
Proof. unfold expressible. destruct v as [[z|s]|]; apply _. Defined.
Definition typedb (types : type_map) (e : event) : bool :=
  match types !! ch_name (e_chan e) with Some t => bool_decide (expressible t (e_value e)) | None => false end.
Definition supportedb (types : type_map) (T : node) : bool :=
  forallb (fun n => bool_decide (n_outcome n = OFail) || valid_stateb n) (all_nodes T) &&
  forallb (fun e1 => forallb (fun e2 => negb (bool_decide (ch_name (e_chan e1) = ch_name (e_chan e2)) &&
     bool_decide (ch_kind (e_chan e1) <> KIn) && bool_decide (ch_kind (e_chan e2) <> KIn)) ||
     bool_decide (ch_kind (e_chan e1) = ch_kind (e_chan e2))) (all_events T)) (all_events T) &&
  forallb (typedb types) (all_events T) &&
  forallb (fun n => bool_decide (n_id n = [])) (all_nodes T).
Lemma supportedb_ok types T : supportedb types T = true -> supported types T.
Proof.
  unfold supportedb. intros H. apply andb_true_iff in H as [H H4]. apply andb_true_iff in H as [H H3]. apply andb_true_iff in H as [H1 H2].
  rewrite forallb_forall in H1, H2, H3, H4. split.
  - intros p n Hn Ho. specialize (H1 n ltac:(apply elem_of_list_In; by apply (all_nodes_at T p))). apply orb_true_iff in H1 as [H1|H1].
    + apply bool_decide_eq_true in H1. done.
    + by apply valid_stateb_ok.
  - intros e1 e2 He1 He2 Hn Hk1 Hk2. specialize (H2 e1 ltac:(apply elem_of_list_In; by apply all_events_of)).
    rewrite forallb_forall in H2. specialize (H2 e2 ltac:(apply elem_of_list_In; by apply all_events_of)).
    apply orb_true_iff in H2 as [H2|H2]; [|by apply bool_decide_eq_true in H2].
    rewrite !bool_decide_eq_true_2 in H2 by done. done.
  - intros e He. specialize (H3 e ltac:(apply elem_of_list_In; by apply all_events_of)). unfold typedb in H3.
    destruct (types !! _) as [t|]; [|done]. exists t. split; [done|]. by apply bool_decide_eq_true in H3.
  - assert (Hid : forall p n, node_at T p = Some n -> n_id n = []).
    { intros p n Hn. specialize (H4 n ltac:(apply elem_of_list_In; by apply (all_nodes_at T p))). by apply bool_decide_eq_true in H4. }
    split.
    + intros p q n m _ _ Hn _ _ Hne. destruct Hne. by apply (Hid p).
    + intros p n _ Hn. rewrite (Hid p n Hn). split; [done|]. intros k. done.
Qed.
Lemma no_reservedb_ok T : bool_decide (no_reserved T) = true -> no_reserved T.
Proof. apply bool_decide_eq_true. Qed.
Definition trace_okb (types : type_map) (t : forbidden) : bool :=
  forallb (typedb types) (trace_events t) &&
  forallb (fun e1 => forallb (fun e2 => negb (bool_decide (ch_name (e_chan e1) = ch_name (e_chan e2)) &&
     bool_decide (ch_kind (e_chan e1) <> KIn) && bool_decide (ch_kind (e_chan e2) <> KIn)) ||
     bool_decide (ch_kind (e_chan e1) = ch_kind (e_chan e2))) (trace_events t)) (trace_events t) &&
  bool_decide (lit "timeout" ∉ output_names (trace_events t) /\ lit "ready" ∉ output_names (trace_events t) /\
   lit "accept" ∉ output_names (trace_events t)).
Lemma trace_okb_ok types t : trace_okb types t = true -> trace_ok types t.
Proof.
  unfold trace_okb. intros H. apply andb_true_iff in H as [H H3]. apply andb_true_iff in H as [H1 H2].
  rewrite forallb_forall in H1, H2. split; [|split; [|by apply bool_decide_eq_true in H3]].
  - intros e He. specialize (H1 e ltac:(by apply elem_of_list_In)). unfold typedb in H1.
    destruct (types !! _) as [ty|]; [|done]. exists ty. split; [done|]. by apply bool_decide_eq_true in H1.
  - intros e1 e2 He1 He2 Hn Hk1 Hk2. specialize (H2 e1 ltac:(by apply elem_of_list_In)).
    rewrite forallb_forall in H2. specialize (H2 e2 ltac:(by apply elem_of_list_In)).
    apply orb_true_iff in H2 as [H2|H2]; [|by apply bool_decide_eq_true in H2].
    rewrite !bool_decide_eq_true_2 in H2 by done. done.
Qed.
