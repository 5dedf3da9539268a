(** * C96: a system call that fails is never hidden *)
From Verif Require Export SpecFaults PropCrash PropTruncate.
From Verif Require Export StmProofs.

(** ** One operation *)
Lemma put_put f p x y : put (put f p x) p y = put f p y.
Proof. unfold put. cbn [fs_dirs fs_files]. by rewrite insert_insert. Qed.
Lemma create_iff ff src f p body f' :
  create_io ff src f p body = (f', false) <->
  creatable f p = true /\ body (put f p (Bytes [])) = (f', false) /\
  ff_create ff = false /\ ff_body ff = None /\ ff_close ff = None /\ (src = true -> ff_close_src ff = false).
Proof.
  unfold create_io, joined. destruct (ff_create ff); cbn [orb]; [split; [discriminate|intros (_ & _ & H & _); discriminate H]|].
  destruct (creatable f p); cbn [negb]; [|split; [discriminate|intros (H & _); discriminate H]].
  destruct (ff_body ff) as [x|]; [|destruct (body _) as [f2 e1]]; destruct (ff_close ff) as [y|]; cbn [existsb id orb fst snd].
  - split; [discriminate|intros (_ & _ & _ & H & _); discriminate H].
  - split; [discriminate|intros (_ & _ & _ & H & _); discriminate H].
  - destruct e1; (split; [discriminate|intros (_ & _ & _ & _ & H & _); discriminate H]).
  - destruct e1; cbn [id orb]; [split; [discriminate|intros (_ & H & _); discriminate H]|]. destruct src; cbn [andb].
    + destruct (ff_close_src ff); cbn [id orb]; [split; [discriminate|intros (_ & _ & _ & _ & _ & H); discriminate (H eq_refl)]|].
      split; [intros [= ->]; split_and!; done|intros (_ & [= ->] & _); done].
    + cbn [id orb]. split; [intros [= ->]; split_and!; done|intros (_ & [= ->] & _); done].
Qed.
Lemma io_exec_iff cwd ff o f f' : io_exec cwd ff o f = (f', false) <-> exec cwd o f = (f', None) /\ no_call_fails o ff.
Proof.
  destruct o as [p|n p|s d|p c]; cbn [io_exec exec no_call_fails].
  - destruct (mkdir_all f (resolve cwd p)) as [g|]; [|split; [discriminate|intros [H _]; discriminate H]]. destruct (ff_mkdir ff).
    + split; [discriminate|intros [_ H]; discriminate H].
    + split; [intros [= ->]; done|intros [[= ->] _]; done].
  - rewrite create_iff. rewrite put_put. destruct (creatable _ _).
    + split; [intros (_ & [= ->] & H1 & H2 & H3 & H4); split_and!; auto|intros ([= ->] & H1 & H2 & H3 & H4); split_and!; auto].
    + split; [intros [H _]; discriminate H|intros [H _]; discriminate H].
  - destruct (bool_decide (is_Some _) || _); cbn [negb]; [|rewrite orb_true_r; split; [discriminate|intros [H _]; discriminate H]].
    rewrite orb_false_r. destruct (ff_open ff); [split; [discriminate|intros (_ & H & _); discriminate H]|].
    rewrite create_iff. destruct (creatable _ _); [|split; [intros [H _]; discriminate H|intros [H _]; discriminate H]].
    destruct (fs_files (put f _ _) !! _) as [x|].
    + split; [intros (_ & [= ->] & H1 & H2 & H3 & H4); split_and!; auto|intros ([= ->] & _ & H1 & H2 & H3 & H4); split_and!; auto].
    + split; [intros (_ & H & _); discriminate H|intros [H _]; discriminate H].
  - rewrite create_iff. destruct (creatable _ _); [|split; [intros [H _]; discriminate H|intros [H _]; discriminate H]].
    destruct c as [c|].
    + rewrite put_put. split; [intros (_ & [= ->] & H1 & H2 & H3 & _); split_and!; auto|intros ([= ->] & H1 & H2 & H3); split_and!; auto; discriminate].
    + split; [intros (_ & H & _); discriminate H|intros [H _]; discriminate H].
Qed.
(** Generating: no error exactly if no call fails and the run without failing calls has no error; the files are
    those it writes. *)
Theorem C96_generate : forall cwd faults ops f f',
  io_all cwd faults ops f = (f', false) <->
  exec_all cwd ops f = (f', None) /\ forall i o, ops !! i = Some o -> no_call_fails o (faults i).
Proof.
  intros cwd faults ops. revert faults. induction ops as [|o ops IH]; intros faults f f'; cbn [io_all exec_all].
  - split; [intros [= ->]; split; [done|]; intros i o Ho; rewrite lookup_nil in Ho; discriminate Ho|intros [[= ->] _]; done].
  - destruct (io_exec cwd (faults 0) o f) as [g [|]] eqn:E.
    + split; [discriminate|]. intros [H1 H2]. destruct (exec cwd o f) as [h [e|]] eqn:Ex; [discriminate H1|].
      assert (X : io_exec cwd (faults 0) o f = (h, false)) by (apply io_exec_iff; split; [exact Ex|exact (H2 0 o eq_refl)]). rewrite E in X. discriminate X.
    + apply io_exec_iff in E as [E1 E2]. rewrite E1. rewrite IH. split; intros [H1 H2]; (split; [exact H1|]).
      * intros [|i] o' Ho; [injection Ho as <-; exact E2|exact (H2 i o' Ho)].
      * intros i o' Ho. exact (H2 (S i) o' Ho).
Qed.
Print Assumptions C96_generate.

(** ** What is on the disk: never worse than after being killed *)
Lemma create_state ff src f p body : (forall x, exists y, (body (put f p x)).1 = put f p y) ->
  (create_io ff src f p body).1 = f \/ creatable f p = true /\ exists x, (create_io ff src f p body).1 = put f p x.
Proof.
  intros H. unfold create_io. destruct (ff_create ff); [by left|]. cbn [orb]. destruct (creatable f p); [|by left]. cbn [negb]. right. split; [done|].
  destruct (H (Bytes [])) as [y Hy]. destruct (ff_body ff) as [x|].
  - destruct (ff_close ff) as [z|]; cbn [fst]; rewrite !put_put; by eexists.
  - destruct (body _) as [f2 e1]. cbn [fst] in Hy. subst f2. destruct (ff_close ff) as [z|]; cbn [fst]; rewrite ?put_put; by eexists.
Qed.
Lemma io_exec_state cwd ff o f : (io_exec cwd ff o f).1 = f \/ during cwd f o (io_exec cwd ff o f).1.
Proof.
  destruct o as [p|n p|s d|p c]; cbn [io_exec].
  - unfold mkdir_all. destruct (decide _) as [H|H]; [by left|]. right.
    assert (HF : Forall (fun q => fs_files f !! q = None) (prefixes (resolve cwd p))).
    { apply Forall_forall. intros q Hq. destruct (fs_files f !! q) eqn:E; [|done]. destruct H. apply Exists_exists. exists q. split; [done|]. by rewrite E. }
    destruct (ff_mkdir ff) as [k|]; cbn [fst]; [by apply during_mkdir|].
    pose proof (during_mkdir cwd f p (length (prefixes (resolve cwd p))) HF) as D. rewrite firstn_all in D. exact D.
  - destruct (create_state ff true f (resolve cwd p) (fun f1 => (put f1 (resolve cwd p) (CPrelude n), false))) as [->|[Hc [x ->]]]; [|by left|right; by apply during_write].
    intros x. cbn [fst]. rewrite put_put. by eexists.
  - destruct (_ || _); [by left|].
    destruct (create_state ff true f (resolve cwd d) (fun f1 => match fs_files f1 !! resolve cwd s with Some c => (put f1 (resolve cwd d) c, false) | None => (f1, true) end)) as [->|[Hc [x ->]]]; [|by left|right; by apply during_write].
    intros x. destruct (fs_files _ !! _); cbn [fst]; rewrite ?put_put; by eexists.
  - match goal with |- (create_io ?a ?b ?c ?d ?e).1 = _ \/ _ => destruct (create_state a b c d e) as [->|[Hc [x ->]]] end; [|by left|right; by apply during_write].
    intros x. destruct c; cbn [fst]; rewrite ?put_put; by eexists.
Qed.
Lemma io_all_killed cwd faults ops f : killed cwd ops f (io_all cwd faults ops f).1.
Proof.
  revert faults f. induction ops as [|o ops IH]; intros faults f; cbn [io_all]; [apply killed_here|].
  destruct (io_exec cwd (faults 0) o f) as [g [|]] eqn:E.
  - cbn [fst]. destruct (io_exec_state cwd (faults 0) o f) as [H|H]; rewrite E in H; cbn [fst] in H; [subst g; apply killed_here|by apply killed_during].
  - apply io_exec_iff in E as [E _]. eapply killed_later; [exact E|apply IH].
Qed.

(** ** A run *)
Lemma cut_beginning k (l : gostr) : beginning (cut_off k l) l.
Proof. destruct k as [k|]; cbn [cut_off]; [exists (drop k l); by rewrite take_drop|by exists []; rewrite app_nil_r]. Qed.
Section Run.
Context (xml : gostr -> option config) (json : gostr -> option stm_suite) (cwd : fpath) (stdin : gostr) (a : gen_action) (rf : run_faults).
Lemma load_cut f p c : stops_early xml -> load_config (fun text => xml (cut_off (rf_config rf) text)) cwd f p = Some c -> load_config xml cwd f p = Some c.
Proof using Type.
  intros Hx. unfold load_config. destruct (file_bytes f (resolve cwd p)) as [t|]; cbn [mbind option_bind]; [|done].
  destruct (xml (cut_off (rf_config rf) t)) as [c'|] eqn:E; [|done]. by rewrite (Hx _ _ _ (cut_beginning _ _) E).
Qed.
Lemma read_cut f p s : stops_early json -> read_input cwd stdin f p ≫= (fun text => json (cut_off (rf_input rf) text)) = Some s -> read_input cwd stdin f p ≫= json = Some s.
Proof using Type.
  intros Hj. destruct (read_input cwd stdin f p) as [t|]; cbn [mbind option_bind]; [|done]. apply Hj, cut_beginning.
Qed.
(** No error: then nothing that was done failed, and the files are those of a run in which nothing fails. *)
Theorem C96_no_hidden : forall ord f f', stops_early xml -> stops_early json ->
  io_run xml json ord cwd stdin a rf f = (f', false) ->
  run_gen xml json ord cwd stdin a f = (f', None) /\ reads_well a rf.
Proof using Type.
  intros ord f f' Hx Hj. unfold io_run, run_gen, reads_well. destruct (rf_open rf); [discriminate|].
  destruct (read_input cwd stdin f _ ≫= (fun text => json (cut_off (rf_input rf) text))) as [s|] eqn:Es; [|discriminate]. rewrite (read_cut _ _ _ Hj Es). destruct (rf_close rf); [discriminate|].
  assert (G : forall g, (if rf_config_open rf then (g, true) else
      match load_config (fun text => xml (cut_off (rf_config rf) text)) cwd g (clean (ga_config a)) with
      | None => (g, true)
      | Some c => if rf_config_close rf then (g, true) else io_all cwd (rf_ops rf) (gen_ops s (ord s) (gen_new c (clean (ga_output a)))) g
      end) = (f', false) ->
      (match load_config xml cwd g (clean (ga_config a)) with
       | None => (g, Some ConfigErr)
       | Some c => match generate cwd c (clean (ga_output a)) s (ord s) g with (f', None) => (f', None) | (f', Some e) => (f', Some (GenErr e)) end
       end) = (f', None) /\ rf_config_open rf = false /\ rf_config_close rf = false).
  { intros g. destruct (rf_config_open rf); [discriminate|]. destruct (load_config (fun text => xml (cut_off (rf_config rf) text)) cwd g _) as [c|] eqn:Ec; [|discriminate]. rewrite (load_cut _ _ _ Hx Ec).
    destruct (rf_config_close rf); [discriminate|]. intros H. apply C96_generate in H as [H _]. unfold generate. rewrite H. done. }
  destruct (ga_clean a); [destruct (decide _); [discriminate|]; destruct (rf_clean rf) as [g|]; [discriminate|]; destruct (undeletable _); [discriminate|]|];
    intros H; apply G in H as (-> & -> & ->); split_and!; done.
Qed.
(** Exactly: if reading does not break off, a run ends without error if and only if it would without failing calls, and
    none of the calls it makes fails. *)
Theorem C96_exact : forall ord f f', rf_input rf = None -> rf_config rf = None ->
  io_run xml json ord cwd stdin a rf f = (f', false) <->
  run_gen xml json ord cwd stdin a f = (f', None) /\ reads_well a rf /\
  forall s f1 c i o, read_input cwd stdin f (clean (ga_input a)) ≫= json = Some s ->
    f1 = (if ga_clean a then remove_below (resolve cwd (clean (ga_output a))) f else f) ->
    load_config xml cwd f1 (clean (ga_config a)) = Some c ->
    gen_ops s (ord s) (gen_new c (clean (ga_output a))) !! i = Some o -> no_call_fails o (rf_ops rf i).
Proof using Type.
  intros ord f f' Hi Hc. 
  assert (E1 : (read_input cwd stdin f (clean (ga_input a)) ≫= (fun text => json (cut_off (rf_input rf) text))) = (read_input cwd stdin f (clean (ga_input a)) ≫= json)) by (rewrite Hi; reflexivity).
  assert (E2 : forall g, load_config (fun text => xml (cut_off (rf_config rf) text)) cwd g (clean (ga_config a)) = load_config xml cwd g (clean (ga_config a))) by (intros g; rewrite Hc; reflexivity).
  unfold io_run, run_gen, reads_well. rewrite E1, !E2. clear E1 E2 Hi Hc.
  destruct (rf_open rf); [split; [discriminate|intros (_ & (H & _) & _); discriminate H]|].
  destruct (read_input cwd stdin f (clean (ga_input a)) ≫= json) as [s|]; [|split; [discriminate|intros (H & _); discriminate H]].
  destruct (rf_close rf); [split; [discriminate|intros (_ & (_ & H & _) & _); discriminate H]|].
  assert (G : forall g, (if rf_config_open rf then (g, true) else
      match load_config xml cwd g (clean (ga_config a)) with
      | None => (g, true)
      | Some c => if rf_config_close rf then (g, true) else io_all cwd (rf_ops rf) (gen_ops s (ord s) (gen_new c (clean (ga_output a)))) g
      end) = (f', false) <->
      (match load_config xml cwd g (clean (ga_config a)) with
       | None => (g, Some ConfigErr)
       | Some c => match generate cwd c (clean (ga_output a)) s (ord s) g with (f', None) => (f', None) | (f', Some e) => (f', Some (GenErr e)) end
       end) = (f', None) /\ rf_config_open rf = false /\ rf_config_close rf = false /\
       forall c i o, load_config xml cwd g (clean (ga_config a)) = Some c -> gen_ops s (ord s) (gen_new c (clean (ga_output a))) !! i = Some o -> no_call_fails o (rf_ops rf i)).
  { intros g. destruct (rf_config_open rf); [split; [discriminate|intros (_ & H & _); discriminate H]|].
    destruct (load_config xml cwd g _) as [c|]; [|split; [discriminate|intros (H & _); discriminate H]].
    destruct (rf_config_close rf); [split; [discriminate|intros (_ & _ & H & _); discriminate H]|]. rewrite C96_generate. unfold generate. split.
    - intros [H1 H2]. rewrite H1. split_and!; [done..|]. intros c' i o [= <-]. apply H2.
    - intros (H1 & _ & _ & H2). destruct (exec_all _ _ _) as [g' [e|]]; [discriminate H1|]. injection H1 as ->. split; [done|]. intros i o. by apply H2. }
  assert (Fin : forall g : fs, (g = if ga_clean a then remove_below (resolve cwd (clean (ga_output a))) f else f) ->
    (forall c i o, load_config xml cwd g (clean (ga_config a)) = Some c -> gen_ops s (ord s) (gen_new c (clean (ga_output a))) !! i = Some o -> no_call_fails o (rf_ops rf i)) <->
    forall s0 f1 c i o, Some s = Some s0 -> f1 = (if ga_clean a then remove_below (resolve cwd (clean (ga_output a))) f else f) -> load_config xml cwd f1 (clean (ga_config a)) = Some c ->
      gen_ops s0 (ord s0) (gen_new c (clean (ga_output a))) !! i = Some o -> no_call_fails o (rf_ops rf i)).
  { intros g ->. split; [intros H s0 f1 c i o [= <-] ->; apply H|intros H c i o; by apply H]. }
  destruct (ga_clean a).
  - destruct (decide _); [split; [discriminate|intros (H & _); discriminate H]|]. destruct (rf_clean rf) as [g|].
    { split; [discriminate|]. intros (_ & (_ & _ & _ & _ & H) & _). discriminate (H eq_refl). }
    destruct (undeletable _); [split; [discriminate|intros (H & _); discriminate H]|].
    rewrite G, (Fin _ eq_refl). tauto.
  - rewrite G, (Fin _ eq_refl). split; [intros (H1 & H2 & H3 & H4); split_and!; done|intros (H1 & (_ & _ & H2 & H3 & _) & H4); split_and!; done].
Qed.
(** Whatever fails, what it leaves is what a run that was killed may leave. *)
Theorem C96_state : forall ord f, stops_early xml -> stops_early json -> possible cwd a f rf ->
  interrupted xml json ord cwd stdin a f (io_run xml json ord cwd stdin a rf f).1.
Proof using Type.
  intros ord f Hx Hj Hp. unfold io_run. destruct (rf_open rf); [apply int_start|].
  destruct (read_input cwd stdin f _ ≫= (fun text => json (cut_off (rf_input rf) text))) as [s|] eqn:Es; [|apply int_start]. apply (read_cut _ _ _ Hj) in Es. destruct (rf_close rf); [apply int_start|].
  assert (Hd : resolve cwd (clean (ga_output a)) = resolve cwd (ga_output a)) by apply resolve_clean.
  assert (G : forall g, ((if ga_clean a then clean (ga_output a) <> lit "." /\ undeletable (clean (ga_output a)) = false /\ g = remove_below (resolve cwd (clean (ga_output a))) f else g = f)) ->
      interrupted xml json ord cwd stdin a f g ->
      interrupted xml json ord cwd stdin a f (if rf_config_open rf then (g, true) else
      match load_config (fun text => xml (cut_off (rf_config rf) text)) cwd g (clean (ga_config a)) with
      | None => (g, true)
      | Some c => if rf_config_close rf then (g, true) else io_all cwd (rf_ops rf) (gen_ops s (ord s) (gen_new c (clean (ga_output a)))) g
      end).1).
  { intros g Hg I. destruct (rf_config_open rf); [exact I|]. destruct (load_config (fun text => xml (cut_off (rf_config rf) text)) cwd g _) as [c|] eqn:Ec; [|exact I]. apply (load_cut _ _ _ Hx) in Ec.
    destruct (rf_config_close rf); [exact I|]. eapply int_generating; [exact Es|exact Hg|exact Ec|apply io_all_killed]. }
  destruct (ga_clean a) eqn:Ha.
  - destruct (decide _) as [|Hdot]; [apply int_start|].
    assert (R : interrupted xml json ord cwd stdin a f (remove_below (resolve cwd (clean (ga_output a))) f)) by (eapply int_cleaning; [exact Es|exact Ha|exact Hdot|apply removed_part]).
    destruct (rf_clean rf) as [g|] eqn:Ecl.
    { cbn [fst]. eapply int_cleaning; [exact Es|exact Ha|exact Hdot|]. rewrite Hd. by apply Hp. }
    destruct (undeletable _) eqn:Eu; [exact R|]. apply G; [done|exact R].
  - apply G; [done|apply int_start].
Qed.
End Run.
Print Assumptions C96_no_hidden.
Print Assumptions C96_exact.
Print Assumptions C96_state.
(** Once the trouble is over, running again gives what the first run should have given. *)
Theorem C96_recover : forall xml json ord ord' cwd stdin a f s c fin f',
  stops_early xml -> stops_early json -> wf_fs f -> is_dir f cwd -> (forall s, orders s (ord s)) -> (forall s, orders s (ord' s)) ->
  reads_suite json cwd stdin f (ga_input a) s -> reads_config xml cwd f (ga_config a) c -> sane c s -> separate cwd c (ga_output a) ->
  outside cwd a (ga_input a) \/ names_stdin (ga_input a) -> outside cwd a (ga_config a) ->
  run_gen xml json ord cwd stdin a f = (fin, None) ->
  tries xml json cwd stdin a f f' -> run_gen xml json ord' cwd stdin a f' = (fin, None).
Proof.
  intros xml json ord ord' cwd stdin a f s c fin f' Hx Hj Hwf Hcwd Ho Ho' Hsu Hco Hs Hsep Hin Hcfg Er T.
  eapply C94_rerun; [exact Hwf|exact Hcwd|exact Ho|exact Ho'|exact Hsu|exact Hco|exact Hs|exact Hsep|exact Hin|exact Hcfg|exact Er|].
  clear -T Hx Hj. induction T as [f|ord rf f f1 f2 Ho Hp E T IH]; [apply no_attempt|]. apply (attempt _ _ _ _ _ ord f f1 f2 Ho); [|exact IH]. rewrite <- E. by apply C96_state.
Qed.
Print Assumptions C96_recover.

(** ** The readers of rtcg-gen do not look further than they have to *)
Lemma parse_more M p j r lost : parse_value M p = Some (j, r) -> ~ is_num j -> parse_value M (p ++ lost) = Some (j, r ++ lost).
Proof.
  intros H Hn. apply parse_sound in H as (w & t & -> & Hw & Ht & Hd). rewrite <- !app_assoc. rewrite (parse_value_ws _ _ (t ++ r ++ lost)) by (by apply skip_white).
  by apply (proj1 parse_complete t j Ht M (r ++ lost)).
Qed.
Lemma doc_more p lost j : read_doc p = Some j -> ~ is_num j -> read_doc (p ++ lost) = Some j.
Proof.
  unfold read_doc. destruct (parse_value max_depth p) as [[j' x]|] eqn:E; intros H Hn; [|discriminate H]. injection H as ->. rewrite (parse_more max_depth p j x lost E Hn). reflexivity.
Qed.
Lemma num_no_suite j r : is_num j -> m_stm_suite j = Ok r -> False.
Proof. unfold m_stm_suite, m_struct. destruct j; cbn [is_num]; intros Hn H; [exact Hn..| |exact Hn|exact Hn|exact Hn]. discriminate H. Qed.
Lemma suite_doc p r : read_stm_suite p = Ok r -> exists j, read_doc p = Some j /\ m_stm_suite j = Ok r.
Proof. unfold read_stm_suite. generalize (read_doc p). intros [j|] H; [by exists j|discriminate H]. Qed.
Lemma doc_suite p j : read_doc p = Some j -> read_stm_suite p = m_stm_suite j.
Proof. intros H. unfold read_stm_suite. by rewrite H. Qed.
Lemma read_suite_more p lost r : read_stm_suite p = Ok r -> read_stm_suite (p ++ lost) = Ok r.
Proof.
  intros H. destruct (suite_doc p r H) as (j & Hj & Hr). rewrite <- Hr. apply doc_suite, doc_more; [exact Hj|]. intros Hn. exact (num_no_suite j r Hn Hr).
Qed.
Lemma input_suite t s : gen_input t = Some s -> exists r, read_stm_suite t = Ok r /\ use_suite r = Some s.
Proof. unfold gen_input. generalize (read_stm_suite t). intros [r|e|] H; [by exists r|discriminate H..]. Qed.
Lemma suite_input t r : read_stm_suite t = Ok r -> gen_input t = use_suite r.
Proof. intros H. unfold gen_input. by rewrite H. Qed.
Theorem C96_machines_reader : stops_early gen_input.
Proof.
  intros p text s [lost Hl] H. rewrite Hl. destruct (input_suite p s H) as (r & Hr & Hs). rewrite <- Hs. apply suite_input, read_suite_more. exact Hr.
Qed.
Theorem C96_config_reader : forall first second, stops_early (read_config first second).
Proof.
  intros first second p text c [lost ->] H. apply C81_only in H as (e & (pre & l & t & r & -> & H1 & H2 & H3) & Hs).
  apply (C81_reads _ _ _ e); [|exact Hs]. exists pre, l, t, (r ++ lost). by rewrite <- !app_assoc.
Qed.
Print Assumptions C96_machines_reader.
Print Assumptions C96_config_reader.

(** ** rtcg.sh: the tools before rtcg-gen print only part of their output *)
Lemma make_stms_dash o cwd f t : proc_make_stms o cwd f t [lit "-"] = finish (run_make_stms o t).
Proof. reflexivity. Qed.
Lemma gen_bad xml ord cwd f t dir : not_flag dir -> (forall r, read_stm_suite t <> Ok r) -> proc_gen xml ord cwd f t [dir; lit "-"] = (f, 1%N).
Proof.
  intros Hd Ht. assert (Hn : no_nulls t) by (intros r Hr; by destruct (Ht r)). rewrite proc_gen_plain by done. unfold run_gen, sh_action. cbn [ga_input].
  change (read_input cwd t f (clean (lit "-"))) with (Some t). cbn [mbind option_bind].
  assert (E : gen_input t = None) by (unfold gen_input; destruct (read_stm_suite t) as [r| |]; [by destruct (Ht r)|done..]). by rewrite E.
Qed.
Lemma gen_same xml ord cwd f t t' dir : not_flag dir -> read_stm_suite t = read_stm_suite t' -> proc_gen xml ord cwd f t [dir; lit "-"] = proc_gen xml ord cwd f t' [dir; lit "-"].
Proof.
  intros Hd Ht. unfold proc_gen. rewrite parse_plain by done. change (parse_gen_args [dir; lit "-"]) with (GenArgs dir (lit "-")). cbv beta iota.
  assert (E : run_gen_nulls xml ord cwd t (GenAction (gf_clean default_flags) (gf_output default_flags) dir (lit "-")) f =
              run_gen_nulls xml ord cwd t' (GenAction (gf_clean default_flags) (gf_output default_flags) dir (lit "-")) f).
  { unfold run_gen_nulls. cbn [ga_input]. change (read_input cwd t f (clean (lit "-"))) with (Some t). change (read_input cwd t' f (clean (lit "-"))) with (Some t'). cbn [mbind option_bind]. by rewrite Ht. }
  by rewrite E.
Qed.
Lemma no_text_no_suite r : read_stm_suite [] <> Ok r.
Proof. assert (E : read_stm_suite [] = Err JSyntax) by (vm_compute; reflexivity). rewrite E. discriminate. Qed.
Lemma printed_text k code out : exists c, printed k (code, out) = (c, cut_off k out).
Proof.
  destruct k as [k|]; cbn [printed cut_off snd]; [|by eexists]. destruct (decide _) as [H|H]; [by eexists|]. exists code. rewrite take_ge by lia. done.
Qed.
Lemma cut_or p text : beginning p text -> cut_short p text \/ ~ cut_short p text.
Proof.
  intros [lost E]. destruct (decide (lost = [])) as [->|H1]; [|destruct (decide (lost = [byte 10])) as [->|H2]; [|left; by exists lost]]; right; intros (l & E' & H3 & H4); rewrite E in E';
    apply app_inv_head in E'; by subst l.
Qed.
Lemma gen_cut xml ord cwd f o t dir k : not_flag dir ->
  proc_gen xml ord cwd f (cut_off k (proc_make_stms o cwd f t [lit "-"]).2) [dir; lit "-"] = (f, 1%N) \/
  proc_gen xml ord cwd f (cut_off k (proc_make_stms o cwd f t [lit "-"]).2) [dir; lit "-"] = proc_gen xml ord cwd f (proc_make_stms o cwd f t [lit "-"]).2 [dir; lit "-"].
Proof.
  intros Hd. rewrite make_stms_dash. destruct (run_make_stms o t) as [out|e|] eqn:E; cbn [finish snd]; [|right; by destruct k as [[|k]|]..].
  destruct (run_stms_written _ _ _ E) as (orders & s & Hw). destruct (C95_machines _ _ _ _ Hw (cut_beginning k out)) as [H1 H2].
  destruct (cut_or _ _ (cut_beginning k out)) as [Hc|Hc].
  - left. apply gen_bad; [exact Hd|]. intros r. rewrite (H1 Hc). discriminate.
  - right. apply gen_same; [exact Hd|]. exact (H2 Hc).
Qed.
(** rtcg.sh fails and touches nothing, or does what it would have done: output that is lost on the way is never
    taken for a smaller suite. *)
Theorem C96_pipe : forall xml o cwd f stdin dir traces k1 k2, not_flag dir ->
  sh_pipe_io xml o cwd f stdin dir traces k1 k2 = (f, 1%N) \/
  sh_pipe_io xml o cwd f stdin dir traces k1 k2 = sh_pipe xml o cwd f stdin dir traces.
Proof.
  intros xml o cwd f stdin dir traces k1 k2 Hd. unfold sh_pipe_io, sh_pipe. destruct (proc_read_traces (sh_traces o) cwd f stdin [traces]) as [c1 tests] eqn:E1.
  destruct (printed_text k1 c1 tests) as [c1' ->].
  assert (Hm : (proc_make_stms (sh_stms o) cwd f (cut_off k1 tests) [lit "-"]).2 = [] \/
               (proc_make_stms (sh_stms o) cwd f (cut_off k1 tests) [lit "-"]).2 = (proc_make_stms (sh_stms o) cwd f tests [lit "-"]).2).
  { destruct (decide (c1 = 0%N)) as [->|Hc1].
    - destruct (tests_written _ _ _ _ _ _ E1) as [s Hw]. destruct (C95_tests s tests _ Hw (cut_beginning k1 tests)) as [H1 H2]. rewrite !make_stms_dash.
      destruct (cut_or _ _ (cut_beginning k1 tests)) as [Hc|Hc].
      + left. unfold run_make_stms. by rewrite (H1 Hc).
      + right. unfold run_make_stms. by rewrite (H2 Hc).
    - right. assert (tests = []) as ->; [|by destruct k1 as [[|k]|]].
      clear -E1 Hc1. unfold proc_read_traces in E1. destruct (parse_tool_args _) as [q| |]; [|by injection E1..]. destruct (open_input cwd stdin f q) as [text|]; [|by injection E1].
      destruct (run_read_traces (sh_traces o) text) as [x| |]; cbn [finish] in E1; [injection E1 as <- _; done|by injection E1..]. }
  pose proof (gen_cut xml (sh_gen o) cwd f (sh_stms o) (cut_off k1 tests) dir k2 Hd) as G. revert G Hm.
  destruct (proc_make_stms (sh_stms o) cwd f (cut_off k1 tests) [lit "-"]) as [c2 stms'], (proc_make_stms (sh_stms o) cwd f tests [lit "-"]) as [c2' stms]. cbn [snd].
  destruct (printed_text k2 c2 stms') as [c3 ->]. intros [G|G] [->| ->]; [by left..| |by right].
  left. rewrite G. apply gen_bad; [exact Hd|exact no_text_no_suite].
Qed.
Print Assumptions C96_pipe.

(** ** Witness: the disk is full while a program is written; then there is room again *)
Definition fl_json (s : gostr) : option stm_suite := run_json (take 5 s).
Definition fl_xml (s : gostr) : option config := run_xml (take 6 s).
Lemma take_early {A} n (g : gostr -> option A) w : (forall s x, g s = Some x -> s = w) -> length w = n -> stops_early (fun s => g (take n s)).
Proof.
  intros Hg Hn p text x [lost ->] H. assert (E : take n (p ++ lost) = take n p); [|by rewrite E]. apply Hg in H. apply take_app_le.
  assert (length (take n p) = n) by (by rewrite H). rewrite take_length in *. lia.
Qed.
Definition fl_op : file_faults := FileFaults false None false (Some (Bytes (lit "#include ""rtc"))) None false.
Definition fl_run : run_faults := RunFaults false (Some 5) false None false (Some 6) false (fun n => if decide (n = 17) then fl_op else no_faults).
Definition fl_fs : fs := (io_run fl_xml fl_json run_ord ex_home [] run_act fl_run run_fs).1.
Example C96_witness : stops_early fl_xml /\ stops_early fl_json /\
  (io_run fl_xml fl_json run_ord ex_home [] run_act fl_run run_fs).2 = true /\ tries fl_xml fl_json ex_home [] run_act run_fs fl_fs /\
  file_bytes fl_fs int_main = Some (lit "#include ""rtc") /\
  wf_fs run_fs /\ is_dir run_fs ex_home /\ (forall s, orders s (run_ord s)) /\
  reads_suite fl_json ex_home [] run_fs (ga_input run_act) ex_suite /\ reads_config fl_xml ex_home run_fs (ga_config run_act) int_config /\
  sane int_config ex_suite /\ separate ex_home int_config (ga_output run_act) /\
  outside ex_home run_act (ga_input run_act) /\ outside ex_home run_act (ga_config run_act) /\
  (run_gen fl_xml fl_json run_ord ex_home [] run_act run_fs).2 = None /\
  (io_run fl_xml fl_json run_ord ex_home [] run_act (RunFaults false None false None false None false (fun _ => no_faults)) run_fs).2 = false /\
  (io_run fl_xml fl_json run_ord ex_home [] run_act (RunFaults false (Some 4) false None false None false (fun _ => no_faults)) run_fs).2 = true /\
  (io_run fl_xml fl_json run_ord ex_home [] run_act (RunFaults false None false None false None false (fun n => FileFaults false None false None None (n =? 17))) run_fs).2 = false /\
  (io_run fl_xml fl_json run_ord ex_home [] run_act (RunFaults false None false None false None false (fun n => FileFaults false None false None None (n =? 14))) run_fs).2 = true.
Proof.
  destruct C94_witness as (W1 & W2 & W3 & _ & _ & W6 & W7 & W8 & W9 & _).
  split; [apply (take_early 6 run_xml (lit "config")); [intros s x; unfold run_xml; by destruct (decide _)|reflexivity]|].
  split; [apply (take_early 5 run_json (lit "suite")); [intros s x; unfold run_json; by destruct (decide _)|reflexivity]|].
  split; [vm_compute; reflexivity|]. split.
  { apply (try_once _ _ _ _ _ run_ord fl_run run_fs fl_fs fl_fs W3); [|reflexivity|apply no_try]. intros g Hg. discriminate Hg. }
  split; [vm_compute; reflexivity|]. split; [exact W1|]. split; [exact W2|]. split; [exact W3|]. split.
  { exists (lit "suite"). split; [done|]. right. split; [|vm_compute; reflexivity]. intros H. specialize (H []). discriminate H. }
  split. { exists (lit "config"), (Config (cf_cpps ex_config) []). split_and!; [vm_compute; reflexivity|done|done|done|]. intros _. vm_compute. reflexivity. }
  split; [exact W6|]. split; [exact W7|]. split; [exact W8|]. split; [exact W9|]. split_and!; vm_compute; reflexivity.
Qed.
