(** * Properties C08-C18, C60: trace files, naming, expanding, collapsing, factorising *)
From Verif Require Import CsvProofs.

Definition ev_in : event := Event (Channel (lit "speed") KIn) (Some (IntV 3)).
Definition ev_out : event := Event (Channel (lit "alarm") KOut) (Some (EnumV (lit "On"))).
Definition ex_named : forbidden := Forbidden (lit "a") [ev_in] ev_out.
Definition ex_unnamed : forbidden := Forbidden [] [] ev_in.

Ltac no_elem := let H := fresh in intros H;
  repeat (apply elem_of_cons in H as [H|H]; [discriminate H|]); by apply elem_of_nil in H.
Lemma plain_no_outer s : Forall (fun c => plain_byte c = true) s -> no_outer_space s.
Proof. intros H. apply no_outer_space_iff. by apply trim_space_plain. Qed.
Ltac plain := apply plain_no_outer; repeat constructor.
Lemma ev_in_writable : writable_event ev_in.
Proof.
  split; [by left|]. split; [|split].
  - split; [done|]. split; [no_elem|plain].
  - unfold plain_value, int64. cbn. lia.
  - repeat split; no_elem.
Qed.
Lemma ev_out_writable : writable_event ev_out.
Proof.
  split; [right; by left|]. split; [|split].
  - split; [done|]. split; [no_elem|plain].
  - split; [plain|]. intros (z & H & _). apply int_syntax_plain in H as H'. inversion H; subst.
    match goal with H : all_digits _ |- _ => apply Forall_cons in H as [Hx _]; discriminate Hx end.
  - repeat split; no_elem.
Qed.
Lemma ex_writable : Forall writable [ex_named; ex_unnamed].
Proof.
  apply Forall_cons. split; [|apply Forall_cons; split; [|done]].
  - split; [apply Forall_cons; split; [apply ev_in_writable|apply Forall_cons; split; [apply ev_out_writable|done]]|].
    split; [repeat split; no_elem|]. split; [plain|]. split; [no_elem|]. split; [done|done].
  - split; [apply Forall_cons; split; [apply ev_in_writable|done]|].
    split; [repeat split; no_elem|]. split; [plain|]. split; [no_elem|]. split; [done|].
    intros _ e [= <-]. split; [no_elem|done].
Qed.

(** C08: a file listing writable traces, one per line, reads back as those traces. *)
Theorem C08_written_traces_read_back : forall ts, Forall writable ts -> read_traces (trace_text ts) = Ok ts.
Proof. exact read_written. Qed.
Print Assumptions C08_written_traces_read_back.

Example C08_witness :
  Forall writable [ex_named; ex_unnamed] /\
  trace_text [ex_named; ex_unnamed] = lit "a:speed.in.3,alarm.out.On" ++ [nl] ++ lit "speed.in.3" ++ [nl].
Proof. split; [exact ex_writable|reflexivity]. Qed.

(** The proviso on unnamed traces is needed: a colon in the first event is taken for a name. *)
Theorem C08_colon_in_unnamed_refuted :
  ~ forall t, Forall (fun e => valid_kind (ch_kind (e_chan e)) /\ plain_chan_name (ch_name (e_chan e)) /\
                 match e_value e with None => True | Some v => plain_value v end /\
                 cell_safe (event_marshal e) /\ not_comment (event_marshal e)) (trace_events t) ->
      f_name t = [] -> read_traces (trace_text [t]) = Ok [t].
Proof.
  intros H.
  assert (read_traces (trace_text [Forbidden [] [] (Event (Channel (lit "c") KIn) (Some (EnumV (lit "a:b"))))])
          = Ok [Forbidden [] [] (Event (Channel (lit "c") KIn) (Some (EnumV (lit "a:b"))))]) as E.
  { apply H; [|done]. constructor; [|done]. split; [by left|]. split; [|split; [|split]].
    - split; [done|]. split; [no_elem|plain].
    - split; [plain|]. intros (z & Hz & _). inversion Hz; subst.
      match goal with H : all_digits _ |- _ => apply Forall_cons in H as [Hx _]; discriminate Hx end.
    - repeat split; no_elem.
    - done. }
  vm_compute in E. discriminate.
Qed.

(** C09: in a file without quotes, an empty line (with LF or CRLF ending) or a line starting
    with # can be inserted or removed at any line boundary. *)
Theorem C09_comments_and_blank_lines : forall a l b,
  (a = [] \/ exists a', a = a' ++ [nl]) ->
  (l = [] \/ l = [cr] \/ exists x, l = hash :: x) -> nl ∉ l ->
  dquote ∉ a ++ l ++ b ->
  read_traces (a ++ l ++ nl :: b) = read_traces (a ++ b).
Proof.
  intros a l b Ha Hl Hnl Hq. rewrite !elem_of_app in Hq.
  rewrite !read_plain.
  - by rewrite ignorable_lines.
  - rewrite !elem_of_app. tauto.
  - rewrite !elem_of_app, elem_of_cons. intros [?|[?|[?|?]]]; [tauto|tauto|done|tauto].
Qed.
Print Assumptions C09_comments_and_blank_lines.

Theorem C09_last_line_without_newline : forall a l,
  (a = [] \/ exists a', a = a' ++ [nl]) ->
  (l = [] \/ l = [cr] \/ exists x, l = hash :: x) -> nl ∉ l -> dquote ∉ a ++ l ->
  read_traces (a ++ l) = read_traces a.
Proof.
  intros a l Ha Hl Hnl Hq. rewrite !elem_of_app in Hq. rewrite !read_plain.
  - by rewrite ignorable_last.
  - tauto.
  - rewrite !elem_of_app. tauto.
Qed.

(** A line of one or more spaces is not blank: it makes reading fail. *)
Theorem C09_space_line_fails : forall a n b, dquote ∉ a -> dquote ∉ b ->
  (a = [] \/ exists a', a = a' ++ [nl]) ->
  ~ is_ok (read_traces (a ++ replicate (S n) " "%char ++ nl :: b)).
Proof. exact spaces_line. Qed.
Print Assumptions C09_space_line_fails.

(** Nor is an indented # a comment. *)
Theorem C09_indented_comment_refuted :
  ~ forall s, read_traces (lit " #x" ++ nl :: s) = read_traces s.
Proof. intros H. specialize (H []). vm_compute in H. discriminate. Qed.

(** Inside quotes a # line is part of the cell, so the restriction to quote-free files is
    needed. *)
Theorem C09_quoted_refuted :
  ~ forall a b, (exists a', a = a' ++ [nl]) -> read_traces (a ++ lit "#" ++ nl :: b) = read_traces (a ++ b).
Proof.
  intros H. specialize (H (dquote :: lit "a.in.x" ++ [nl]) (lit "y" ++ [dquote])).
  specialize (H (ex_intro _ (dquote :: lit "a.in.x") eq_refl)). vm_compute in H. discriminate H.
Qed.

Example C09_witness :
  read_traces (lit "a.in.1" ++ nl :: hash :: lit "note" ++ nl :: cr :: nl :: lit "b.out.2") =
  Ok [Forbidden [] [] (Event (Channel (lit "a") KIn) (Some (IntV 1)));
      Forbidden [] [] (Event (Channel (lit "b") KOut) (Some (IntV 2)))].
Proof. vm_compute. done. Qed.

(** C10: every file has exactly one sequence of records (the last of which may be a csv syntax
    error); reading succeeds exactly if they all are traces and then gives one trace per
    record in order; otherwise it fails with the error of the first bad record; it never
    crashes or runs forever. *)
Theorem C10_all_or_nothing : forall s,
  exists l, csv_file s l /\ (forall l', csv_file s l' -> l' = l) /\
    (forall ts, read_traces s = Ok ts <-> Forall2 (fun r t => record_trace r = Ok t) l ts) /\
    (forall e, read_traces s = Err e <->
       exists l1 r l2, l = l1 ++ r :: l2 /\ Forall (fun r => is_ok (record_trace r)) l1 /\
                       record_trace r = Err e) /\
    read_traces s <> Panic.
Proof.
  intros s. destruct (csv_file_exists s) as [l H]. exists l. split; [exact H|].
  split; [intros l' H'; exact (csv_file_unique s l' l H' H)|].
  split; [intros ts; rewrite (read_traces_run s l H); exact (run_records_ok l ts)|].
  split; [intros e; rewrite (read_traces_run s l H); exact (run_records_err l e)|].
  exact (read_traces_no_panic s).
Qed.
Print Assumptions C10_all_or_nothing.

(** C10, for files without quotes: the records are the lines that are neither empty nor
    start with #, cut at commas, each cell without its leading white space. *)
Theorem C10_plain_files : forall s, dquote ∉ s ->
  csv_file s (map Ok (plain_rows s)) /\ read_traces s = parse_rows (plain_rows s).
Proof.
  intros s Hq. split; [|exact (read_plain s Hq)].
  destruct (csv_file_exists s) as [l H]. rewrite <- (plain_file s l Hq H). exact H.
Qed.
Print Assumptions C10_plain_files.

Example C10_witness :
  read_traces (lit "a.in.1" ++ nl :: lit "oops" ++ nl :: lit "b.out.2") = Err (RCell (BadFieldCountError 1)) /\
  read_traces (lit "n : a.in.1,  b.out") =
    Ok [Forbidden (lit "n") [Event (Channel (lit "a") KIn) (Some (IntV 1))] (Event (Channel (lit "b") KOut) None)].
Proof. vm_compute. done. Qed.

(** C11: shape of a row. *)
Theorem C11_row_shape : forall row t,
  parse_row row = Ok t <->
  exists cell cells body, row = cell :: cells /\ cell_name cell (f_name t) body /\
    Forall2 (fun c e => event_denoted zero_event c e) (body :: cells) (f_prefix t ++ [f_forbid t]).
Proof.
  intros row t. rewrite parse_row_spec.
  split; intros (cell & cells & body & H1 & H2 & H3); exists cell, cells, body;
    (split; [exact H1|]; split; [exact H2|]); eapply Forall2_impl; try exact H3;
    intros c e Hce; cbn in *; by apply event_denoted_iff.
Qed.
Print Assumptions C11_row_shape.

Theorem C11_row_lengths : forall row t, parse_row row = Ok t -> length (f_prefix t) + 1 = length row.
Proof.
  intros row t H. apply parse_row_spec in H as (cell & cells & body & -> & _ & H).
  apply Forall2_length in H. rewrite app_length in H. cbn in *. lia.
Qed.

Theorem C11_empty_row : parse_row [] = Err RNeedOneEvent.
Proof. reflexivity. Qed.

Example C11_witness :
  parse_row [lit "t1: a.in.1"; lit "b.out.X"] =
  Ok (Forbidden (lit "t1") [Event (Channel (lit "a") KIn) (Some (IntV 1))]
        (Event (Channel (lit "b") KOut) (Some (EnumV (lit "X"))))).
Proof. vm_compute. done. Qed.

(** C12: the named suite holds exactly the traces given (as a multiset). *)
Theorem C12_naming_loses_nothing : forall traces,
  exists m, name_all traces = Some m /\ (map_to_list m).*2 ≡ₚ traces /\ base.size m = length traces.
Proof.
  intros traces. destruct (name_all traces) as [m|] eqn:E.
  - exists m. split; [done|]. exact (name_all_contents traces m E).
  - destruct (name_all_spec traces) as (names & H & _). congruence.
Qed.
Print Assumptions C12_naming_loses_nothing.

(** C13: which trace gets which name. *)
Theorem C13_naming_policy : forall traces m, name_all traces = Some m <->
  exists names, named traces names /\ NoDup names /\
    forall n t, m !! n = Some t <-> exists i, names !! i = Some n /\ traces !! i = Some t.
Proof. exact name_all_policy. Qed.
Print Assumptions C13_naming_policy.

Theorem C13_names_nonempty : forall traces (names : list gostr) (n : gostr), named traces names -> n ∈ names -> n <> [].
Proof.
  intros traces names n [Hl H] Hn. apply elem_of_list_lookup in Hn as [i Hi].
  destruct (traces !! i) as [t|] eqn:Et.
  - destruct (H i t Et) as (k & Hk & _). rewrite Hi in Hk. injection Hk as ->. exact (candidate_nonempty t k).
  - apply lookup_ge_None in Et. apply lookup_lt_Some in Hi. lia.
Qed.

(** A trace with a name of its own that is not taken keeps it. *)
Theorem C13_free_name_kept : forall traces names i t, named traces names -> traces !! i = Some t ->
  f_name t <> [] -> f_name t <> lit "test" -> f_name t ∉ take i names -> names !! i = Some (f_name t).
Proof.
  intros traces names i t [_ H] Ht H1 H2 H3. destruct (H i t Ht) as (k & Hk & _ & _ & Hj).
  assert (candidate t 0 = f_name t) as E by (unfold candidate; rewrite decide_False by tauto; done).
  destruct k as [|k]; [by rewrite E in Hk|]. exfalso. apply H3. rewrite <- E. apply Hj. lia.
Qed.

Example C13_witness_names :
  let ts := [ex_named; ex_unnamed; ex_named; Forbidden (lit "a0") [] ev_in; ex_unnamed] in
  exists m, name_all ts = Some m /\ m !! lit "a" = Some ex_named /\ m !! lit "test0" = Some ex_unnamed /\
    m !! lit "a0" = Some ex_named /\ m !! lit "a00" = Some (Forbidden (lit "a0") [] ev_in) /\
    m !! lit "test1" = Some ex_unnamed.
Proof. eexists. split; [reflexivity|]. vm_compute. done. Qed.

(** C14: naming never searches for ever: the k-th attempt (from 0) for the i-th trace succeeds
    for some k <= i. *)
Theorem C14_naming_terminates : forall traces,
  name_all traces <> None /\
  exists names, named traces names.
Proof.
  intros traces. destruct (name_all_spec traces) as (names & H & Hn & _). split; [congruence|]. by exists names.
Qed.
Print Assumptions C14_naming_terminates.

Theorem C14_attempts_bounded : forall (taken : gmap gostr forbidden) t,
  exists k, k <= base.size taken /\ taken !! candidate t k = None /\
    (forall j, j < k -> is_Some (taken !! candidate t j)) /\
    insert_name taken (base_name t) t = Some (<[candidate t k := t]> taken).
Proof.
  intros taken t. destruct (insert_name_spec taken t) as (k & r & H1 & H2 & H3 & -> & H4).
  exists k. repeat split; done.
Qed.
Print Assumptions C14_attempts_bounded.

(** C15: expanded traces are valid and tagged throughout with their name. *)
Theorem C15_expanded_valid : forall t name,
  full (Some (expand t name)) = Ok (expand t name) /\
  good_tree (expand t name) /\
  forall p m, node_at (expand t name) p = Some m -> n_tests m = [name].
Proof.
  intros t name. split; [|split]; [|exact (expand_good t name)|exact (expand_tags t name)].
  apply full_iff. exact (expand_good t name).
Qed.
Print Assumptions C15_expanded_valid.

(** The shape of an expanded trace: a single chain with the prefix as inconclusive events, then
    the forbidden event as passing event, then a failure. *)
Theorem C15_expanded_shape : forall t name, exists l, chain (expand t name) l /\
  inc_events l = f_prefix t /\ pass_events l = [f_forbid t] /\ length l = length (f_prefix t) + 2.
Proof.
  intros t name. destruct (expand_chain t name) as (l & H1 & H2 & H3 & _ & H5). by exists l.
Qed.

(** C16: collapsing inverts expanding, up to the name. *)
Theorem C16_collapse_expand : forall t name,
  collapse (Some (expand t name)) = Ok (unnamed t).
Proof. exact collapse_expand. Qed.
Print Assumptions C16_collapse_expand.

Theorem C16_name_kept_refuted : ~ forall t name, collapse (Some (expand t name)) = Ok t.
Proof. intros H. specialize (H ex_named []). vm_compute in H. discriminate. Qed.

Example C16_witness : collapse (Some (expand ex_named (lit "n"))) = Ok (Forbidden [] [ev_in] ev_out).
Proof. vm_compute. done. Qed.

(** C17: exactly what collapsing accepts and returns. *)
Theorem C17_collapse_exact : forall n r,
  collapse (Some n) = Ok r <->
  good_root n /\ exists l, chain n l /\ Forall good_node l /\
    r = Forbidden [] (inc_events l) (default zero_event (last (pass_events l))).
Proof. exact collapse_spec. Qed.
Print Assumptions C17_collapse_exact.

Theorem C17_collapse_total : forall n, collapse (Some n) <> Panic.
Proof. exact collapse_no_panic. Qed.

(** A null test crashes it. *)
Theorem C17_null_test_refuted : collapse None = Panic.
Proof. reflexivity. Qed.

(** It is not injective on valid trees: a first passing event is lost. *)
Theorem C17_collapse_injective_refuted :
  ~ forall a b r, good_tree a -> good_tree b -> retag [] a <> retag [] b ->
      collapse (Some a) = Ok r -> collapse (Some b) <> Ok r.
Proof.
  intros H.
  set (m := mark [lit "t"]).
  set (a := expand ex_unnamed (lit "t")).
  set (b := m (root_node [m (pass_node ev_out [test_point ev_in [lit "t"]])])).
  apply (H a b ex_unnamed); [apply expand_good| |done|vm_compute; done|vm_compute; done].
  apply full_iff. vm_compute. done.
Qed.

Example C17_witness :
  collapse (Some (expand ex_named (lit "n"))) = Ok (unnamed ex_named) /\
  collapse (Some (root_node [])) = Err (CBadRoot ErrNoTests) /\
  collapse (Some (mark [lit "t"] (root_node []))) = Err (CNoNode ErrNeedOneNode).
Proof. vm_compute. done. Qed.

(** C18: whole suites, for every iteration order of both maps. *)
Theorem C18_suite_roundtrip : forall (m : gmap gostr forbidden) order order',
  order_of m order -> order_of (expand_all order) order' ->
  collapse_all order' = Ok (unnamed <$> m).
Proof. exact collapse_expand_all. Qed.
Print Assumptions C18_suite_roundtrip.

Theorem C18_expand_all_exact : forall (m : gmap gostr forbidden) order k, order_of m order ->
  expand_all order !! k = (fun t => Some (expand t k)) <$> m !! k.
Proof. exact expand_all_spec. Qed.

Example C18_witness :
  let m : gmap gostr forbidden := <[lit "x" := ex_named]> ∅ in
  order_of m [(lit "x", ex_named)] /\
  order_of (expand_all [(lit "x", ex_named)]) [(lit "x", Some (expand ex_named (lit "x")))].
Proof.
  split; unfold order_of.
  - rewrite map_to_list_insert by done. by rewrite map_to_list_empty.
  - unfold expand_all. cbn [over_map]. rewrite map_to_list_insert by done. by rewrite map_to_list_empty.
Qed.

(** C60: the failures after a trace, for every iteration order of the suite. *)
Theorem C60_failures_exact : forall (m : gmap gostr forbidden) order after, order_of m order ->
  NoDup (map fl_test (failures order after)) /\
  forall k e, Failure k e ∈ failures order after <->
    exists t, m !! k = Some t /\ f_prefix t = after /\ f_forbid t = e.
Proof. exact failures_spec. Qed.
Print Assumptions C60_failures_exact.

Theorem C60_spine_nodes : forall order after,
  spine_nodes order after =
  map (fun f => inc_node (last_event after) [failure_node f])
      (filter (fun f => ch_kind (e_chan (fl_event f)) = KIn) (failures order after))
  ++ [inc_node (last_event after)
        (map failure_node (filter (fun f => ch_kind (e_chan (fl_event f)) <> KIn) (failures order after)))].
Proof. exact spine_nodes_eq. Qed.
Print Assumptions C60_spine_nodes.

Example C60_witness :
  failures [(lit "a", ex_named); (lit "b", Forbidden [] [ev_in] ev_in); (lit "c", ex_unnamed)] [ev_in]
  = [Failure (lit "a") ev_out; Failure (lit "b") ev_in].
Proof. vm_compute. done. Qed.
