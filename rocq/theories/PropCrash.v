(** * Property C94: rtcg-gen killed while it runs *)
From Verif Require Export SpecCrash PropGenRun.
From Verif Require Export StmProofs.

(** ** What one operation can do to the disk *)
Record between (A : gset fpath) (T : fpath -> Prop) (f g : fs) : Prop := {
  bt_more : fs_dirs f ⊆ fs_dirs g;
  bt_only : fs_dirs g ⊆ A ∪ fs_dirs f;
  bt_files : forall p, ~ T p -> fs_files g !! p = fs_files f !! p;
}.
Lemma between_refl A T f : between A T f f.
Proof. split; [done|set_solver|done]. Qed.
Lemma between_trans A T f g h : between A T f g -> between A T g h -> between A T f h.
Proof. intros [A1 A2 A3] [B1 B2 B3]. split; [set_solver|set_solver|]. intros p Hp. by rewrite B3, A3. Qed.
(** An operation that makes directories in [A] and files in [T] only. *)
Definition fits (cwd : fpath) (A : gset fpath) (T : fpath -> Prop) (o : op) : Prop :=
  match o with OpMkdir p => list_to_set (prefixes (resolve cwd p)) ⊆ A | _ => T (op_target cwd o) end.
Lemma put_between A (T : fpath -> Prop) f p x : T p -> between A T f (put f p x).
Proof. intros H. split; cbn; [done|set_solver|]. intros q Hq. rewrite lookup_insert_ne; [done|]. by intros ->. Qed.
Lemma exec_between cwd A T o f : fits cwd A T o -> between A T f (exec cwd o f).1.
Proof.
  intros H. destruct o as [p|n p|src dst|p x]; cbn [exec fits op_target] in *.
  - unfold mkdir_all. destruct (decide _); [apply between_refl|]. cbn. split; cbn; [set_solver|set_solver|done].
  - destruct (creatable _ _); [by apply put_between|apply between_refl].
  - destruct (negb _); [apply between_refl|]. destruct (creatable _ _); [|apply between_refl].
    destruct (fs_files _ !! _); [|by apply put_between]. eapply between_trans; by apply put_between.
  - destruct (creatable _ _); [|apply between_refl]. destruct x; by apply put_between.
Qed.
Lemma take_subset {B} `{Countable B} (l : list B) k : (list_to_set (take k l) : gset B) ⊆ list_to_set l.
Proof. intros x. rewrite !elem_of_list_to_set. intros H1. rewrite <- (take_drop k l). apply elem_of_app. by left. Qed.
Lemma during_between cwd A T o f g : fits cwd A T o -> during cwd f o g -> between A T f g.
Proof.
  intros H D. destruct D as [p k Hn|o p x Hw Hc].
  - cbn [fits] in H. pose proof (take_subset (prefixes (resolve cwd p)) k). split; cbn; [set_solver|set_solver|done].
  - destruct o as [q|n q|src q|q y]; [discriminate Hw|..]; cbn in Hw; injection Hw as ->; by apply put_between.
Qed.
Lemma killed_between cwd A T ops f g : (forall o, o ∈ ops -> fits cwd A T o) -> killed cwd ops f g -> between A T f g.
Proof.
  intros H K. induction K as [ops f|o ops f f' D|o ops f f' e E|o ops f f1 f' E K IH].
  - apply between_refl.
  - eapply during_between; [|exact D]. apply H. left.
  - pose proof (exec_between cwd A T o f ltac:(apply H; left)) as B. rewrite E in B. exact B.
  - pose proof (exec_between cwd A T o f ltac:(apply H; left)) as B. rewrite E in B. eapply between_trans; [exact B|]. apply IH. intros x Hx. apply H. by right.
Qed.
(** Nothing is ever removed. *)
Lemma keeps_put f p x : nothing_deleted f (put f p x).
Proof. split; [|done]. intros q [y Hq]. unfold has_file. cbn. destruct (decide (p = q)) as [->|Hne]; [rewrite lookup_insert; by eexists|]. rewrite lookup_insert_ne by done. by exists y. Qed.
Lemma keeps_trans f g h : nothing_deleted f g -> nothing_deleted g h -> nothing_deleted f h.
Proof. intros [A1 A2] [B1 B2]. split; [intros p H; by apply B1, A1|intros p H; by apply B2, A2]. Qed.
Lemma killed_keeps cwd ops f g : killed cwd ops f g -> nothing_deleted f g.
Proof.
  intros K. induction K as [ops f|o ops f f' D|o ops f f' e E|o ops f f1 f' E K IH].
  - done.
  - destruct D as [p k Hn|o p x Hw Hc]; [|apply keeps_put]. split; [done|]. intros q [->|Hq]; [by left|right]. cbn. set_solver.
  - pose proof (exec_keeps cwd o f) as H. by rewrite E in H.
  - pose proof (exec_keeps cwd o f) as H. rewrite E in H. by eapply keeps_trans.
Qed.
Lemma killed_changes cwd d ops f g : (forall o, o ∈ ops -> d `prefix_of` op_target cwd o) -> killed cwd ops f g -> changes_only_below d f g.
Proof.
  intros H K. induction K as [ops f|o ops f f' D|o ops f f' e E|o ops f f1 f' E K IH].
  - apply changes_refl.
  - specialize (H o ltac:(left)). destruct D as [p k Hn|o p x Hw Hc].
    + cbn [op_target] in H. split_and!; [done| |].
      * intros q Hq [->|Hd]; [left; by left|]. cbn in Hd. rewrite elem_of_union in Hd. destruct Hd as [Hd|Hd]; [|left; by right]. apply take_subset in Hd. rewrite elem_of_list_to_set, prefixes_elem in Hd.
        right. destruct (prefix_weak_total q d (resolve cwd p)) as [?|?]; [apply Hd|done|done|done].
      * intros q [->|Hd]; [by left|right]. cbn. set_solver.
    + apply changes_put. destruct o; cbn in Hw; [discriminate Hw|..]; by injection Hw as ->.
  - pose proof (exec_changes cwd d o f (H o ltac:(left))) as B. by rewrite E in B.
  - pose proof (exec_changes cwd d o f (H o ltac:(left))) as B. rewrite E in B. eapply changes_trans; [exact B|]. apply IH. intros x Hx. apply H. by right.
Qed.

(** ** One run of the generator *)
Section Gen.
Context (cwd : fpath) (c : config) (out : gostr) (s : stm_suite).
Context (Hs : sane c s) (Hio : separate cwd c out).
Definition target (f : fs) (p : fpath) : Prop := exists y, written cwd c out s f (p, y).
Lemma written_same f g w : (forall p, ~ target f p -> fs_files g !! p = fs_files f !! p) -> written cwd c out s g w <-> written cwd c out s f w.
Proof using Hs Hio.
  intros H. unfold written. apply exist_proper. intros cc. split; intros [Hcc Hw]; (split; [done|]).
  all: assert (E : fs_files g !! conv_source cwd c cc = fs_files f !! conv_source cwd c cc) by (apply H; intros [y Hy]; by eapply (source_not_written cwd c out s) in Hy).
  all: destruct w as [p x]; apply elem_under in Hw as (r & -> & Hw); apply elem_under; exists r; (split; [done|]); apply rel_cases in Hw; apply rel_cases; cbn zeta in *.
  - by rewrite E in Hw.
  - by rewrite E.
Qed.
Lemma ops_fit ord f o : orders s ord -> o ∈ gen_ops s ord (gen_new c out) -> fits cwd (all_prefixes cwd (gen_dirs s ord (gen_new c out))) (target f) o.
Proof using Hs.
  intros Ho H. rewrite gen_ops_phases in H. apply elem_of_app in H as [H|H].
  - apply elem_map in H as (d & Hd & ->). cbn [fits]. intros q Hq. rewrite elem_of_list_to_set in Hq. unfold all_prefixes. rewrite elem_of_list_to_set. apply elem_concat_map. by exists d.
  - assert (Hw : written cwd c out s f (wsem cwd f o)).
    { destruct Hs as [Hv Hnd Hp]. eapply (gen_writes_elem cwd c out s ord Hv Hp Ho). apply elem_map. exists o. split; [exact H|reflexivity]. }
    assert (Ht : target f (op_target cwd o)) by (rewrite <- (wsem_target cwd f); destruct (wsem cwd f o) as [p y]; by exists y).
    destruct o; [|exact Ht..].
    (* no directory is made in the second phase *)
    exfalso. unfold gen_writes in H. apply elem_mapi_iff in H as (k & g & _ & H). destruct g; cbn [sub_ops] in H.
    + rewrite !elem_of_app in H. destruct H as [H|[H|[H|H]]].
      * by apply elem_map in H as (? & _ & ?).
      * destruct (cx_conv _); [|by apply elem_of_nil in H]. by apply elem1 in H.
      * by apply elem1 in H.
      * by apply elem_map in H as (? & _ & ?).
    + apply elem_concat_map in H as (t & _ & H). rewrite elem_of_cons, elem1 in H. by destruct H.
    + by apply elem1 in H.
Qed.
(** Generating from a state in between comes to the same. *)
Lemma same_prefixes ord ord' : orders s ord -> orders s ord' -> all_prefixes cwd (gen_dirs s ord (gen_new c out)) = all_prefixes cwd (gen_dirs s ord' (gen_new c out)).
Proof using Hs. intros Ho Ho'. apply set_eq. intros q. by rewrite !(all_prefixes_elem cwd c out s) by done. Qed.
Lemma regenerate ord ord' f f1 g : orders s ord -> orders s ord' -> generate cwd c out s ord f = (f1, None) ->
  between (all_prefixes cwd (gen_dirs s ord (gen_new c out))) (target f) f g -> generate cwd c out s ord' g = (f1, None).
Proof using Hs Hio.
  intros Ho Ho' E [B1 B2 B3]. pose proof (same_prefixes ord ord' Ho Ho') as Hap. pose proof Hs as [Hv Hnd Hp].
  destruct (generate_result cwd c out s Hv Hp Hnd Hio ord f Ho) as (f1' & x1 & F1 & He1 & _ & Hfin1). rewrite E in F1. injection F1 as <- <-.
  destruct (generate_result cwd c out s Hv Hp Hnd Hio ord' g Ho') as (g1 & x2 & F2 & He2 & _ & Hfin2).
  destruct (proj1 He1 eq_refl) as [Hno Hok]. destruct (Hfin1 eq_refl) as [D1 L1].
  assert (Hdirs : fs_dirs (made cwd c out s ord' g) = fs_dirs (made cwd c out s ord f)) by (unfold made; cbn [fs_dirs]; rewrite <- Hap; clear - B1 B2; generalize dependent (all_prefixes cwd (gen_dirs s ord (gen_new c out))); intros A B2; set_solver).
  assert (Hsame : forall w, written cwd c out s g w <-> written cwd c out s f w) by (intros w; by apply written_same).
  assert (Hx2 : x2 = None).
  { apply He2. split.
    - intros d Hd q Hq. assert (Hin : q ∈ all_prefixes cwd (gen_dirs s ord (gen_new c out))).
      { rewrite Hap. unfold all_prefixes. rewrite elem_of_list_to_set. apply elem_concat_map. by exists d. }
      rewrite B3.
      + unfold all_prefixes in Hin. rewrite elem_of_list_to_set in Hin. apply elem_concat_map in Hin as (d' & Hd' & Hq'). by apply (Hno d').
      + intros [y Hy]. destruct (Hok _ Hy) as [Hc _]. unfold creatable in Hc. cbn [fst] in Hc. apply andb_true_iff in Hc as [_ Hc]. apply negb_true_iff, bool_decide_eq_false in Hc.
        apply Hc. right. unfold made. cbn [fs_dirs]. apply elem_of_union. by left.
    - intros w Hw. apply Hsame in Hw. destruct (Hok w Hw) as [Hc Hsome]. split; [|done]. by rewrite (creatable_dirs _ _ _ Hdirs). }
  subst x2. destruct (Hfin2 eq_refl) as [D2 L2]. rewrite F2. f_equal. destruct f1 as [d1 m1], g1 as [d2 m2]. cbn [fs_dirs fs_files] in *. rewrite D1, D2, Hdirs. f_equal.
  apply map_eq. intros p. apply option_eq. intros x. rewrite L1, L2, Hsame. split; (intros [H|[H1 H2]]; [by left|right]).
  - assert (Hn : forall y, ~ written cwd c out s f (p, y)) by (intros y Hy; by apply (H1 y), Hsame). split; [done|]. rewrite <- H2. symmetry. apply B3. intros [y Hy]. by apply (Hn y).
  - split; [intros y Hy; by apply (H1 y), Hsame|]. rewrite <- H2. apply B3. intros [y Hy]. by apply (H1 y).
Qed.
End Gen.

(** ** At most one file is damaged *)
Definition quiet (cwd : fpath) (T : fpath -> Prop) (o : op) : Prop :=
  match o with OpMkdir _ => True | OpCopy src _ => ~ T (resolve cwd src) /\ T (op_target cwd o) | _ => T (op_target cwd o) end.
Lemma step_one cwd T f0 o f f1 : quiet cwd T o -> (forall p, ~ T p -> fs_files f !! p = fs_files f0 !! p) -> exec cwd o f = (f1, None) ->
  (forall p, ~ T p -> fs_files f1 !! p = fs_files f0 !! p) /\
  (forall p, fs_files f1 !! p = fs_files f !! p \/ exists x, fs_files f1 !! p = Some x /\ is_write o /\ wsem cwd f0 o = (p, Some x)).
Proof.
  intros Hq Hf E. destruct o as [q|n q|src dst|q y]; cbn [quiet op_target exec wsem is_write] in *.
  - unfold mkdir_all in E. destruct (decide _); [done|]. injection E as <-. cbn. split; [done|by left].
  - destruct (creatable _ _); [|done]. injection E as <-. cbn. split.
    + intros p Hp. rewrite lookup_insert_ne; [by apply Hf|]. intros Ex. subst p. by apply Hp.
    + intros p. destruct (decide (resolve cwd q = p)) as [Ep|Hne]; [subst p; right; rewrite lookup_insert; by eexists|left; by rewrite lookup_insert_ne].
  - destruct Hq as [Hs Ht]. destruct (negb _); [done|]. destruct (creatable _ _); [|done].
    assert (Hne0 : resolve cwd dst <> resolve cwd src) by (intros Hx; by rewrite Hx in Ht). cbn [put fs_files] in E. rewrite lookup_insert_ne, (Hf _ Hs) in E by done.
    destruct (fs_files f0 !! resolve cwd src) as [z|] eqn:Ez; [|done]. injection E as <-. cbn. rewrite insert_insert. split.
    + intros p Hp. rewrite lookup_insert_ne; [by apply Hf|]. intros Ex. subst p. by apply Hp.
    + intros p. destruct (decide (resolve cwd dst = p)) as [Ep|Hne]; [subst p; right; rewrite lookup_insert; by eexists|left; by rewrite lookup_insert_ne].
  - destruct (creatable _ _); [|done]. destruct y as [y|]; [|done]. injection E as <-. cbn. split.
    + intros p Hp. rewrite lookup_insert_ne; [by apply Hf|]. intros Ex. subst p. by apply Hp.
    + intros p. destruct (decide (resolve cwd q = p)) as [Ep|Hne]; [subst p; right; rewrite lookup_insert; by eexists|left; by rewrite lookup_insert_ne].
Qed.
Lemma exec_elsewhere cwd o f p : p <> op_target cwd o -> fs_files (exec cwd o f).1 !! p = fs_files f !! p.
Proof. intros H. apply exec_untouched. intros _ E. by apply H. Qed.
Lemma killed_one cwd T f0 ops f g : (forall o, o ∈ ops -> quiet cwd T o) -> (forall p, ~ T p -> fs_files f !! p = fs_files f0 !! p) -> killed cwd ops f g ->
  exists p0, forall p, p <> p0 -> fs_files g !! p = fs_files f !! p \/ exists o x, o ∈ ops /\ fs_files g !! p = Some x /\ is_write o /\ wsem cwd f0 o = (p, Some x).
Proof.
  intros Hq Hf K. induction K as [ops f|o ops f f' D|o ops f f' e E|o ops f f1 f' E K IH].
  - exists []. by left.
  - destruct D as [p k Hn|o p x Hw Hc]; [exists []; by left|]. exists (resolve cwd p). intros q Hne. left. cbn. by rewrite lookup_insert_ne.
  - exists (op_target cwd o). intros p Hp. left. pose proof (exec_elsewhere cwd o f p Hp) as H. by rewrite E in H.
  - destruct (step_one cwd T f0 o f f1 (Hq o ltac:(left)) Hf E) as [Hf1 Hst]. destruct IH as [p0 IH]; [intros x Hx; apply Hq; by right|exact Hf1|].
    exists p0. intros p Hp. destruct (IH p Hp) as [H|(o' & x & Ho & H)].
    + rewrite H. destruct (Hst p) as [H1|(x & H1)]; [by left|right]. exists o, x. split; [left|done].
    + right. exists o', x. split; [by right|done].
Qed.
Lemma written_ok cwd c out s f p x : written cwd c out s f (p, Some x) -> expected cwd c out s f p x.
Proof.
  intros (cc & Hcc & H). apply elem_under in H as (r & -> & H). exists cc, r. split; [done|]. split; [unfold vbase; by rewrite <- app_assoc|].
  apply rel_cases in H. cbn zeta in H. unfold shared_files, test_files. cbn zeta.
  destruct H as [(-> & E)|[(-> & E)|[(-> & H0 & E)|[(-> & E)|[(n & m & -> & H0 & E)|[(n & m & q & -> & H0 & HH & E)|[(n & m & q & -> & H0 & HH & E)|(-> & H0 & E)]]]]]]].
  - left. injection E as ->. left.
  - left. injection E as ->. right. left.
  - right. right. split; [by apply conv_iff|]. done.
  - left. injection E as ->. right. right. left.
  - right. left. exists n, m. split; [done|]. destruct (renders _ _ _); [|discriminate E]. injection E as ->. left.
  - right. left. exists n, m. split; [done|]. injection E as ->. rewrite HH. right. left.
  - right. left. exists n, m. split; [done|]. injection E as ->. rewrite HH. right. right. left.
  - left. injection E as ->. rewrite H0. right. right. right. left.
Qed.
Lemma ops_quiet cwd c out s ord f o : sane c s -> separate cwd c out -> orders s ord -> o ∈ gen_ops s ord (gen_new c out) -> quiet cwd (target cwd c out s f) o.
Proof.
  intros Hs Hio Ho H. pose proof (ops_fit cwd c out s Hs ord f o Ho H) as Hfit. destruct o as [q|n q|src dst|q y]; [done|exact Hfit| |exact Hfit]. split; [|exact Hfit].
  apply gen_ops_elem in H as (i & g & Hg & Hop). apply gen_new_elem in Hg as (cc & Hcc & Hg). pose proof (sane_variants _ _ Hs cc Hcc) as Hv.
  assert (E : resolve cwd src = conv_source cwd c cc).
  { destruct Hop as [(d & _ & E)|Hop]; [discriminate E|]. change (subdir (DirSet (cf_dir c) out) (variant_string (cc_variant cc))) with (vdir c out cc) in Hg.
    unfold init_variant in Hg. rewrite !elem_of_app, elem_of_list_singleton in Hg. destruct Hg as [->|[Hg|Hg]].
    - cbn [sub_ops] in Hop. rewrite !elem_of_app in Hop. destruct Hop as [Hop|[Hop|[Hop|Hop]]].
      + by apply elem_map in Hop as (? & _ & ?).
      + destruct (cx_conv _); [|by apply elem_of_nil in Hop]. apply elem1 in Hop. injection Hop as -> _. by apply (source_at cwd c out).
      + by apply elem1 in Hop.
      + by apply elem_map in Hop as (? & _ & ?).
    - destruct (cc_catkin cc); [|by apply elem_of_nil in Hg]. apply elem1 in Hg as ->. cbn [sub_ops] in Hop. apply elem_concat_map in Hop as (t & _ & Hop). rewrite elem_of_cons, elem1 in Hop. by destruct Hop.
    - destruct (cc_makefile cc); [|by apply elem_of_nil in Hg]. apply elem1 in Hg as ->. by apply elem1 in Hop. }
  rewrite E. intros [y Hy]. eapply (source_not_written cwd c out s) in Hy; [done|apply Hio|done].
Qed.
(** C94: whenever the generator is killed, all files but one are as before or as they are to be. *)
Theorem C94_one_damaged : forall cwd c out s ord f f', sane c s -> separate cwd c out -> orders s ord ->
  killed cwd (gen_ops s ord (gen_new c out)) f f' -> exists p0, intact_but p0 cwd c out s f f'.
Proof.
  intros cwd c out s ord f f' Hs Hio Ho K.
  destruct (killed_one cwd (target cwd c out s f) f (gen_ops s ord (gen_new c out)) f f') as [p0 H]; [intros o; by apply (ops_quiet cwd c out s ord f)|done|exact K|].
  exists p0. intros p Hp. destruct (H p Hp) as [E|(o & x & Hin & E & Hw & Ew)]; [by left|right]. exists x. split; [done|]. apply written_ok.
  pose proof Hs as [Hv Hnd Hpl]. rewrite <- Ew. apply (gen_writes_elem cwd c out s ord Hv Hpl Ho). apply elem_map. exists o. split; [|reflexivity].
  rewrite gen_ops_phases in Hin. apply elem_of_app in Hin as [Hin|Hin]; [|done]. by apply elem_map in Hin as (d & _ & ->).
Qed.
Print Assumptions C94_one_damaged.

(** ** Whole runs *)
Section Run.
Context (xml : gostr -> option config) (json : gostr -> option stm_suite) (cwd : fpath) (stdin : gostr) (a : gen_action).
(** C94: killed at any time, rtcg-gen has changed nothing outside its output directory. *)
Theorem C94_confined : forall ord f f', (forall s, orders s (ord s)) ->
  (forall text c cc, xml text = Some c -> cc ∈ cf_cpps c -> valid_variant (cc_variant cc)) ->
  (forall text s name, json text = Some s -> name ∈ dom (su_tests s) -> inside_name name) ->
  interrupted xml json ord cwd stdin a f f' -> outside_same (resolve cwd (ga_output a)) f f'.
Proof using Type.
  intros ord f f' Ho Hxml Hjson I. destruct I as [|s f' Es Ha Hd [P1 _]|s c f1 f' Es Hf1 Ec K].
  - split_and!; [done|done|]. intros p _ H. by left.
  - rewrite resolve_clean in P1. split_and!.
    + intros p Hp. apply (P1 p Hp).
    + intros p Hp [->|H]; [by left|right]. by apply (P1 p Hp).
    + intros p Hp [->|H]; [left; by left|left; right]. by apply (P1 p Hp).
  - assert (H1 : changes_only_below (resolve cwd (ga_output a)) f1 f').
    { eapply killed_changes; [|exact K]. intros o Hop. apply gen_ops_elem in Hop as (i & g & Hg & Hop). apply gen_new_elem in Hg as (cc & Hcc & Hg).
      rewrite <- (resolve_clean cwd (ga_output a)). eapply (sub_ops_below cwd c (clean (ga_output a)) s (ord s i) cc g o); [| |exact Hg|exact Hop].
      - unfold load_config in Ec. destruct (file_bytes _ _ ≫= xml) as [c0|] eqn:Ex; [|discriminate Ec]. injection Ec as <-. cbn [cf_cpps] in Hcc.
        apply bind_Some in Ex as (text & _ & Ex). exact (Hxml text c0 cc Ex Hcc).
      - intros t Ht. rewrite (Ho s i) in Ht. destruct t as [n m]. apply elem_of_map_to_list in Ht. apply bind_Some in Es as (text & _ & Es). apply (Hjson text s n Es), elem_of_dom. by exists m. }
    destruct H1 as (C1 & C2 & C3).
    assert (Hout : forall p, ~ resolve cwd (ga_output a) `prefix_of` p -> fs_files f1 !! p = fs_files f !! p /\ (is_dir f1 p <-> is_dir f p)).
    { intros p Hp. destruct (ga_clean a); [|by subst f1]. destruct Hf1 as (_ & _ & ->). rewrite resolve_clean. destruct (remove_cleared (resolve cwd (ga_output a)) f) as [_ R]. destruct (R p Hp) as [R1 R2].
      split; [done|]. unfold is_dir. by rewrite R2. }
    split_and!; intros p Hp; destruct (Hout p Hp) as [O1 O2].
    + by rewrite C1.
    + intros H. by apply C3, O2.
    + intros H. destruct (C2 p Hp H) as [H'|H']; [left; by apply O2|by right].
Qed.
(** C94: unless it was to clean, it has deleted nothing. *)
Theorem C94_nothing_deleted : forall ord f f', ga_clean a = false -> interrupted xml json ord cwd stdin a f f' -> nothing_deleted f f'.
Proof using Type.
  intros ord f f' Ha I. destruct I as [|s f' Es Ha' Hd P|s c f1 f' Es Hf1 Ec K]; [done|congruence|]. rewrite Ha in Hf1. subst f1. by eapply killed_keeps.
Qed.

(** ** Trying again *)
Definition ready (s : stm_suite) (c : config) (fin : fs) (f : fs) : Prop :=
  read_input cwd stdin f (clean (ga_input a)) ≫= json = Some s /\
  load_config xml cwd f (clean (ga_config a)) = Some c /\
  exists ord, (forall s, orders s (ord s)) /\ run_gen xml json ord cwd stdin a f = (fin, None).
Context (Hin : outside cwd a (ga_input a) \/ names_stdin (ga_input a)) (Hcfg : outside cwd a (ga_config a)).
Lemma read_outside f g : (forall p, ~ resolve cwd (ga_output a) `prefix_of` p -> fs_files g !! p = fs_files f !! p) ->
  read_input cwd stdin g (clean (ga_input a)) = read_input cwd stdin f (clean (ga_input a)) /\
  load_config xml cwd g (clean (ga_config a)) = load_config xml cwd f (clean (ga_config a)).
Proof using Hin Hcfg.
  intros H. split.
  - unfold read_input. destruct (decide (clean (ga_input a) = stdin_path)) as [E|E]; [done|]. rewrite resolve_clean. unfold file_bytes. destruct Hin as [Hi|Hi]; [by rewrite H|]. apply stdin_names in Hi. done.
  - unfold load_config, file_bytes. rewrite resolve_clean. by rewrite H.
Qed.
(** A run that succeeds, in three steps. *)
Definition cleaned (f f1 : fs) : Prop :=
  if ga_clean a then clean (ga_output a) <> lit "." /\ undeletable (clean (ga_output a)) = false /\ f1 = remove_below (resolve cwd (clean (ga_output a))) f else f1 = f.
Lemma run_steps ord f fin s c : read_input cwd stdin f (clean (ga_input a)) ≫= json = Some s -> load_config xml cwd f (clean (ga_config a)) = Some c ->
  run_gen xml json ord cwd stdin a f = (fin, None) <-> exists f1, cleaned f f1 /\ generate cwd c (clean (ga_output a)) s (ord s) f1 = (fin, None).
Proof using Hin Hcfg.
  intros Es Ec. unfold run_gen, cleaned. rewrite Es. destruct (ga_clean a).
  - assert (Ec1 : load_config xml cwd (remove_below (resolve cwd (clean (ga_output a))) f) (clean (ga_config a)) = Some c).
    { rewrite <- Ec. apply read_outside. intros p Hp. rewrite resolve_clean. apply (proj2 (remove_cleared (resolve cwd (ga_output a)) f) p Hp). }
    destruct (decide (clean (ga_output a) = lit ".")) as [E|E]; [split; [intros H; discriminate H|intros (f1 & [H _] & _); done]|].
    destruct (undeletable (clean (ga_output a))); [split; [intros H; discriminate H|intros (f1 & (_ & H & _) & _); discriminate H]|]. rewrite Ec1.
    destruct (generate _ _ _ _ _ _) as [g [e|]] eqn:Eg.
    + split; [intros H; discriminate H|]. intros (f1 & (_ & _ & ->) & H). rewrite Eg in H. discriminate H.
    + split; [intros H; injection H as <-; eexists; split; [split_and!; [exact E|reflexivity|reflexivity]|exact Eg]|]. intros (f1 & (_ & _ & ->) & H). rewrite Eg in H. injection H as ->. reflexivity.
  - rewrite Ec. destruct (generate _ _ _ _ _ _) as [g [e|]] eqn:Eg.
    + split; [intros H; discriminate H|]. intros (f1 & -> & H). rewrite Eg in H. discriminate H.
    + split; [intros H; injection H as <-; exists f; split; [reflexivity|exact Eg]|]. intros (f1 & -> & H). rewrite Eg in H. injection H as ->. reflexivity.
Qed.
Lemma target_below c s f p : target cwd c (clean (ga_output a)) s f p -> resolve cwd (ga_output a) `prefix_of` p.
Proof using Type. intros (y & cc & _ & H). apply elem_under in H as (r & -> & _). rewrite <- (resolve_clean cwd (ga_output a)). apply below_app, vbase_below. Qed.
Lemma ready_again s c fin f ord f' : sane c s -> separate cwd c (ga_output a) -> (forall s, orders s (ord s)) ->
  ready s c fin f -> interrupted xml json ord cwd stdin a f f' ->
  read_input cwd stdin f' (clean (ga_input a)) ≫= json = Some s /\ load_config xml cwd f' (clean (ga_config a)) = Some c /\
  forall ord', (forall s, orders s (ord' s)) -> run_gen xml json ord' cwd stdin a f' = (fin, None).
Proof using Hin Hcfg.
  intros Hs Hsep Ho (Es & Ec & ord0 & Ho0 & Er) I. assert (Hsep' : separate cwd c (clean (ga_output a))) by (unfold separate; by rewrite resolve_clean).
  apply (run_steps ord0 f fin s c Es Ec) in Er as (f1 & Hcl & Eg).
  assert (Hd : resolve cwd (clean (ga_output a)) = resolve cwd (ga_output a)) by apply resolve_clean.
  (* it is enough to start from a state in between, once cleaned *)
  enough (Hgoal : (forall p, ~ resolve cwd (ga_output a) `prefix_of` p -> fs_files f' !! p = fs_files f !! p) /\
    exists g, cleaned f' g /\ between (all_prefixes cwd (gen_dirs s (ord0 s) (gen_new c (clean (ga_output a))))) (target cwd c (clean (ga_output a)) s f1) f1 g).
  { destruct Hgoal as (Hsame & g & Hg & Hb). destruct (read_outside f f' Hsame) as [R1 R2]. rewrite R1, R2. split; [exact Es|]. split; [exact Ec|]. intros ord' Ho'.
    apply (run_steps ord' f' fin s c); [by rewrite R1|by rewrite R2|]. exists g. split; [exact Hg|]. eapply regenerate; [exact Hs|exact Hsep'|apply Ho0|apply Ho'|exact Eg|exact Hb]. }
  destruct I as [|s' f' Es' Ha Hdot P|s' c' f1' f' Es' Hf1 Ec' K].
  - split; [done|]. exists f1. split; [exact Hcl|apply between_refl].
  - destruct P as (P1 & P2 & P3). rewrite Hd in P1. split; [intros p Hp; apply (P1 p Hp)|]. exists f1. split; [|apply between_refl].
    unfold cleaned in *. rewrite Ha in *. destruct Hcl as (A & B & ->). split_and!; [exact A|exact B|]. rewrite Hd.
    apply (cleared_unique (resolve cwd (ga_output a)) f); [apply remove_cleared|]. destruct (remove_cleared (resolve cwd (ga_output a)) f') as [Q1 Q2]. split; [exact Q1|].
    intros p Hp. destruct (Q2 p Hp) as [-> ->]. apply (P1 p Hp).
  - assert (Hs' : s' = s) by (pose proof (eq_trans (eq_sym Es') Es) as X; by injection X). subst s'.
    assert (Hf1' : f1' = f1).
    { unfold cleaned in Hcl. destruct (ga_clean a); [destruct Hf1 as (_ & _ & ->), Hcl as (_ & _ & ->); reflexivity|congruence]. }
    subst f1'. assert (Hc' : c' = c).
    { assert (X : load_config xml cwd f1 (clean (ga_config a)) = load_config xml cwd f (clean (ga_config a))).
      { apply read_outside. intros p Hp. unfold cleaned in Hcl. destruct (ga_clean a); [|by subst f1]. destruct Hcl as (_ & _ & ->). rewrite Hd. apply (proj2 (remove_cleared (resolve cwd (ga_output a)) f) p Hp). }
      pose proof (eq_trans (eq_sym Ec') (eq_trans X Ec)) as Y. by injection Y. }
    subst c'.
    assert (Hb : between (all_prefixes cwd (gen_dirs s (ord s) (gen_new c (clean (ga_output a))))) (target cwd c (clean (ga_output a)) s f1) f1 f').
    { eapply killed_between; [|exact K]. intros o Hop. by apply (ops_fit cwd c (clean (ga_output a)) s Hs (ord s) f1 o (Ho s)). }
    rewrite (same_prefixes cwd c (clean (ga_output a)) s Hs (ord s) (ord0 s) (Ho s) (Ho0 s)) in Hb.
    assert (Hout : forall p, ~ resolve cwd (ga_output a) `prefix_of` p -> fs_files f' !! p = fs_files f1 !! p).
    { intros p Hp. apply (bt_files _ _ _ _ Hb). intros Ht. by apply Hp, (target_below c s f1). }
    destruct (ga_clean a) eqn:Ha.
    + unfold cleaned in *. rewrite Ha in *. destruct Hcl as (A & B & Ef1). rewrite Hd in Ef1.
      destruct (remove_cleared (resolve cwd (ga_output a)) f) as [R1 R2]. rewrite <- Ef1 in R1, R2. split.
      * intros p Hp. rewrite (Hout p Hp). apply (R2 p Hp).
      * exists (remove_below (resolve cwd (ga_output a)) f'). split; [split_and!; [exact A|exact B|by rewrite Hd]|].
        destruct (remove_cleared (resolve cwd (ga_output a)) f') as [Q1 Q2]. destruct Hb as [B1 B2 B3]. split.
        -- intros p Hp. assert (Hn : ~ resolve cwd (ga_output a) `prefix_of` p) by (intros H; by destruct (R1 p H)). apply (Q2 p Hn). by apply B1.
        -- intros p Hp. apply B2. destruct (decide (resolve cwd (ga_output a) `prefix_of` p)) as [H|H]; [by destruct (Q1 p H)|]. by apply (Q2 p H).
        -- intros p Hp. destruct (decide (resolve cwd (ga_output a) `prefix_of` p)) as [H|H].
           ++ destruct (Q1 p H) as [-> _], (R1 p H) as [-> _]. done.
           ++ destruct (Q2 p H) as [-> _]. by apply Hout.
    + unfold cleaned in *. rewrite Ha in *. subst f1. split; [exact Hout|]. exists f'. split; [done|exact Hb].
Qed.
End Run.
Print Assumptions C94_confined.
Print Assumptions C94_nothing_deleted.
(** C94: however often the command was cut off, running it once more gives what running it once
    would have given. *)
Theorem C94_rerun : forall xml json ord ord' cwd stdin a f s c fin f',
  wf_fs f -> is_dir f cwd -> (forall s, orders s (ord s)) -> (forall s, orders s (ord' s)) ->
  reads_suite json cwd stdin f (ga_input a) s -> reads_config xml cwd f (ga_config a) c -> sane c s -> separate cwd c (ga_output a) ->
  outside cwd a (ga_input a) \/ names_stdin (ga_input a) -> outside cwd a (ga_config a) ->
  run_gen xml json ord cwd stdin a f = (fin, None) ->
  attempts xml json cwd stdin a f f' -> run_gen xml json ord' cwd stdin a f' = (fin, None).
Proof.
  intros xml json ord ord' cwd stdin a f s c fin f' Hwf Hcwd Ho Ho' Hsu Hco Hs Hsep Hin Hcfg Er At.
  apply read_suite_iff in Hsu. destruct (load_config xml cwd f (clean (ga_config a))) as [c'|] eqn:El; [|destruct (load_none xml cwd f _ El c Hco)].
  destruct (reads_same xml f f cwd _ c c' Hwf Hcwd (fun q H => H) Hco El) as [Hcc Hdir].
  assert (Hs' : sane c' s) by (destruct Hs; constructor; by rewrite ?Hcc). assert (Hsep' : separate cwd c' (ga_output a)) by (unfold separate in *; by rewrite Hdir).
  assert (Hr : ready xml json cwd stdin a s c' fin f) by (split_and!; [exact Hsu|exact El|exists ord; split; [exact Ho|exact Er]]).
  clear Hwf Hcwd Hsu Hco El Er Ho. induction At as [f|ord1 f f1 f2 Ho1 I At IH].
  - destruct (ready_again xml json cwd stdin a Hin Hcfg s c' fin f ord' f Hs' Hsep' Ho' Hr ltac:(apply int_start)) as (_ & _ & H). by apply H.
  - apply IH. destruct (ready_again xml json cwd stdin a Hin Hcfg s c' fin f ord1 f1 Hs' Hsep' Ho1 Hr I) as (H1 & H2 & H3). split_and!; [exact H1|exact H2|]. exists ord'. split; [exact Ho'|by apply H3].
Qed.
Print Assumptions C94_rerun.

(** *** Witness: an old output half deleted, then a run that dies while it writes a program *)
Lemma killed_at cwd ops n f f1 o f' : ops !! n = Some o -> exec_all cwd (take n ops) f = (f1, None) -> during cwd f1 o f' -> killed cwd ops f f'.
Proof.
  revert f n. induction ops as [|o' ops IH]; intros f n Ho E D; [by rewrite lookup_nil in Ho|]. destruct n as [|n].
  - injection Ho as ->. injection E as <-. by apply killed_during.
  - cbn [take exec_all] in E. destruct (exec cwd o' f) as [f2 [e|]] eqn:E2; [discriminate E|]. eapply killed_later; [exact E2|]. eapply IH; [exact Ho|exact E|exact D].
Qed.
Definition int_config : config := Config (cf_cpps ex_config) (lit "in").
Definition int_out : fpath := [lit "home"; lit "out"].
Definition int_main : fpath := [lit "home"; lit "out"; lit "animate"; lit "src"; lit "u"; lit "src"; lit "main.cpp"].
Definition int_ops : list op := gen_ops ex_suite (run_ord ex_suite) (gen_new int_config (clean (ga_output run_act))).
Definition int_part : fs := Fs (fs_dirs run_fs) (delete [lit "home"; lit "out"; lit "old"] (fs_files run_fs)).
Definition int_pre : fs := (exec_all ex_home (take 17 int_ops) (remove_below (resolve ex_home (clean (ga_output run_act))) int_part)).1.
Definition int_dead : fs := put int_pre int_main (Bytes (lit "#include ""rtc")).
Example C94_witness : wf_fs run_fs /\ is_dir run_fs ex_home /\ (forall s, orders s (run_ord s)) /\
  reads_suite run_json ex_home [] run_fs (ga_input run_act) ex_suite /\ reads_config run_xml ex_home run_fs (ga_config run_act) int_config /\
  sane int_config ex_suite /\ separate ex_home int_config (ga_output run_act) /\
  outside ex_home run_act (ga_input run_act) /\ outside ex_home run_act (ga_config run_act) /\
  (run_gen run_xml run_json run_ord ex_home [] run_act run_fs).2 = None /\
  attempts run_xml run_json ex_home [] run_act run_fs int_dead /\
  file_bytes int_dead int_main = Some (lit "#include ""rtc") /\ is_Some (fs_files int_dead !! [lit "home"; lit "out"; lit "animate"; lit "src"; lit "t"; lit "src"; lit "main.cpp"]) /\
  fs_files int_dead !! [lit "home"; lit "out"; lit "animate"; lit "Makefile"] = None.
Proof.
  split; [apply run_wf|]. split; [right; refine (bool_decide_eq_true_1 _ _); vm_compute; reflexivity|]. split; [by intros s i|]. split_and!.
  - exists (lit "suite"). split; [done|]. right. split; [|vm_compute; reflexivity]. intros H. specialize (H []). discriminate H.
  - exists (lit "config"), (Config (cf_cpps ex_config) []). split_and!; [vm_compute; reflexivity|done|done|done|]. intros _. vm_compute. reflexivity.
  - destruct ex_sane as [H1 H2 H3]. constructor; [exact H1|exact H2|exact H3].
  - refine (bool_decide_eq_false_1 _ _). vm_compute. reflexivity.
  - refine (bool_decide_eq_false_1 _ _). vm_compute. reflexivity.
  - refine (bool_decide_eq_false_1 _ _). vm_compute. reflexivity.
  - vm_compute. reflexivity.
  - apply (attempt _ _ _ _ _ run_ord run_fs int_part int_dead); [by intros s i| |].
    { eapply int_cleaning with (s := ex_suite); [vm_compute; reflexivity|reflexivity|intros H; vm_compute in H; discriminate H|].
      change (resolve ex_home (clean (ga_output run_act))) with int_out. unfold int_part. split_and!; cbn [fs_files fs_dirs]; [|intros p|done].
      - intros p Hp. split; [|done]. rewrite lookup_delete_ne; [done|]. intros E. apply Hp. rewrite <- E. by exists [lit "old"].
      - destruct (decide ([lit "home"; lit "out"; lit "old"] = p)) as [E|E]; [right; rewrite E; apply lookup_delete|left; by rewrite lookup_delete_ne]. }
    apply (attempt _ _ _ _ _ run_ord int_part int_dead int_dead); [by intros s i| |apply no_attempt].
    apply (int_generating _ _ _ _ _ _ _ ex_suite int_config (remove_below (resolve ex_home (clean (ga_output run_act))) int_part)); [vm_compute; reflexivity| |vm_compute; reflexivity|].
    { cbn [ga_clean run_act]. split_and!; [intros H; vm_compute in H; discriminate H|vm_compute; reflexivity|reflexivity]. }
    change (gen_ops ex_suite (run_ord ex_suite) (gen_new int_config (clean (ga_output run_act)))) with int_ops.
    assert (E : exists p x, int_ops !! 17 = Some (OpWrite p x) /\ resolve ex_home p = int_main) by (eexists _, _; split; vm_compute; reflexivity).
    destruct E as (p & x & E & Ep). eapply (killed_at ex_home int_ops 17 _ int_pre); [exact E| |].
    { assert (H : (exec_all ex_home (take 17 int_ops) (remove_below (resolve ex_home (clean (ga_output run_act))) int_part)).2 = None) by (vm_compute; reflexivity).
      unfold int_pre. destruct (exec_all _ _ _) as [g e]. cbn [fst snd] in *. by rewrite H. }
    unfold int_dead. rewrite <- Ep. apply during_write; [reflexivity|]. rewrite Ep. vm_compute. reflexivity.
  - unfold file_bytes, int_dead. cbn [put fs_files]. rewrite lookup_insert. reflexivity.
  - apply (bool_decide_eq_true_1 _). vm_compute. reflexivity.
  - vm_compute. reflexivity.
Qed.
Lemma removed_part d f : part_removed d f (remove_below d f).
Proof.
  destruct (remove_cleared d f) as [R1 R2]. split; [exact R2|]. split.
  - intros p. destruct (decide (d `prefix_of` p)) as [H|H]; [right; by apply R1|left; by apply R2].
  - intros p Hp. destruct (decide (d `prefix_of` p)) as [H|H]; [destruct (R1 p H) as [_ Hn]; destruct (Hn Hp)|]. by apply (R2 p H).
Qed.
(** With the suite in the directory to be cleaned, a run cut off after cleaning cannot be repeated. *)
Theorem C94_suite_inside_refuted : exists xml json ord cwd stdin a f f' s c,
  wf_fs f /\ is_dir f cwd /\ (forall s, orders s (ord s)) /\ reads_suite json cwd stdin f (ga_input a) s /\ reads_config xml cwd f (ga_config a) c /\
  sane c s /\ separate cwd c (ga_output a) /\ outside cwd a (ga_config a) /\
  (run_gen xml json ord cwd stdin a f).2 = None /\ interrupted xml json ord cwd stdin a f f' /\ (run_gen xml json ord cwd stdin a f').2 = Some ReadSuiteErr.
Proof.
  set (f := list_fs run_dirs (([lit "home"; lit "out"; lit "suite.json"], Bytes (lit "suite")) :: run_files)).
  set (a := GenAction true (lit "out") (lit "in/rtcg.xml") (lit "out/suite.json")).
  exists run_xml, run_json, run_ord, ex_home, [], a, f, (remove_below int_out f), ex_suite, int_config.
  split; [apply wf_listb_ok; vm_compute; reflexivity|]. split; [right; refine (bool_decide_eq_true_1 _ _); vm_compute; reflexivity|]. split; [by intros s i|]. split_and!.
  - exists (lit "suite"). split; [done|]. right. split; [|vm_compute; reflexivity]. intros H. specialize (H []). discriminate H.
  - exists (lit "config"), (Config (cf_cpps ex_config) []). split_and!; [vm_compute; reflexivity|done|done|done|]. intros _. vm_compute. reflexivity.
  - destruct ex_sane as [H1 H2 H3]. constructor; [exact H1|exact H2|exact H3].
  - refine (bool_decide_eq_false_1 _ _). vm_compute. reflexivity.
  - refine (bool_decide_eq_false_1 _ _). vm_compute. reflexivity.
  - vm_compute. reflexivity.
  - eapply int_cleaning with (s := ex_suite); [vm_compute; reflexivity|reflexivity|intros H; vm_compute in H; discriminate H|].
    exact (removed_part int_out f).
  - vm_compute. reflexivity.
Qed.
Print Assumptions C94_suite_inside_refuted.
