(** * C97: two runs of rtcg-gen at the same time *)
From Verif Require Export SpecConc PropCrash.
From Verif Require Export StmProofs.

(** ** Two directories apart *)
Lemma comparable (a b p : fpath) : a `prefix_of` p -> b `prefix_of` p -> a `prefix_of` b \/ b `prefix_of` a.
Proof.
  revert b p. induction a as [|x a IH]; intros b p Ha Hb; [left; apply prefix_nil|]. destruct b as [|y b]; [right; apply prefix_nil|]. destruct p as [|z p]; [by apply prefix_nil_not in Ha|].
  apply prefix_cons_inv_1 in Ha as Ex. apply prefix_cons_inv_1 in Hb as Ey. subst z. subst y. apply prefix_cons_inv_2 in Ha, Hb. destruct (IH b p Ha Hb) as [H|H]; [left|right]; by apply prefix_cons.
Qed.
Lemma not_both d1 d2 p : apart d1 d2 -> d1 `prefix_of` p -> d2 `prefix_of` p -> False.
Proof. intros [A B] H1 H2. destruct (comparable d1 d2 p H1 H2); auto. Qed.
Lemma side_sym d1 d2 f g1 g2 m : side_by_side d1 d2 f g1 g2 m -> side_by_side d2 d1 f g2 g1 m.
Proof. intros [A B C D E F]. constructor; [exact B|exact A|intros p H1 H2; by apply C|exact E|exact D|]. intros p H1 H2. rewrite (F p H2 H1). tauto. Qed.
Lemma side_refl d1 d2 f : side_by_side d1 d2 f f f f.
Proof. constructor; try done. tauto. Qed.

(** ** One step of the first process *)
Section One.
Context (d1 d2 : fpath) (f g2 : fs) (Hap : apart d1 d2).
Definition op_fine (cwd : fpath) (o : op) : Prop :=
  d1 `prefix_of` op_target cwd o /\ match o with OpCopy src _ => ~ d2 `prefix_of` resolve cwd src | _ => True end.
Definition kept (g : fs) : Prop := forall p, ~ d1 `prefix_of` p -> fs_files g !! p = fs_files f !! p.
Lemma side_file g1 m p : kept g1 -> side_by_side d1 d2 f g1 g2 m -> ~ d2 `prefix_of` p -> fs_files m !! p = fs_files g1 !! p.
Proof using Type.
  intros K S H. destruct (decide (d1 `prefix_of` p)) as [H1|H1]; [by apply (sd_files1 _ _ _ _ _ _ S)|]. by rewrite (sd_files _ _ _ _ _ _ S), K.
Qed.
Lemma side_dir g1 m p : side_by_side d1 d2 f g1 g2 m -> ~ d2 `prefix_of` p -> is_dir g1 p -> is_dir m p.
Proof using Type.
  intros S H. destruct (decide (d1 `prefix_of` p)) as [H1|H1]; [by apply (sd_dirs1 _ _ _ _ _ _ S)|]. intros Hd. apply (sd_dirs _ _ _ _ _ _ S); [done..|by left].
Qed.
Lemma side_creatable g1 m p : side_by_side d1 d2 f g1 g2 m -> d1 `prefix_of` p -> creatable g1 p = true -> creatable m p = true.
Proof using Hap.
  intros S Hp. unfold creatable. rewrite !andb_true_iff, !negb_true_iff, !bool_decide_eq_true, !bool_decide_eq_false. intros [H1 H2]. split.
  - apply (side_dir g1); [done| |done]. intros H. apply (not_both d1 d2 p Hap Hp). etransitivity; [exact H|].
    destruct p as [|x p]; [done|]. exists [List.last (x :: p) x]. apply app_removelast_last. discriminate.
  - intros H. by apply H2, (sd_dirs1 _ _ _ _ _ _ S).
Qed.
Lemma kept_put g p x : kept g -> d1 `prefix_of` p -> kept (put g p x).
Proof using Type. intros K Hp q Hq. cbn. rewrite lookup_insert_ne; [by apply K|]. intros E. subst q. done. Qed.
Lemma side_put g1 m p x : side_by_side d1 d2 f g1 g2 m -> d1 `prefix_of` p -> side_by_side d1 d2 f (put g1 p x) g2 (put m p x).
Proof using Hap.
  intros [A B C D E F] Hp. constructor; [| | |exact D|exact E|exact F]; intros q; cbn.
  - intros Hq. destruct (decide (p = q)) as [Epq|Hne]; [subst q; by rewrite !lookup_insert|rewrite !lookup_insert_ne by done; by apply A].
  - intros Hq. rewrite lookup_insert_ne; [by apply B|]. intros Epq. subst q. exact (not_both d1 d2 p Hap Hp Hq).
  - intros Hq Hq2. rewrite lookup_insert_ne; [by apply C|]. intros Epq. subst q. done.
Qed.
Lemma side_exec cwd o g1 g1' m : op_fine cwd o -> kept g1 -> side_by_side d1 d2 f g1 g2 m -> exec cwd o g1 = (g1', None) ->
  exists m', exec cwd o m = (m', None) /\ kept g1' /\ side_by_side d1 d2 f g1' g2 m'.
Proof using Hap.
  intros [Ht Hsrc] K S. destruct o as [p|n p|src dst|p x]; cbn [op_target exec] in *.
  - unfold mkdir_all. destruct (decide (Exists _ (prefixes (resolve cwd p)))) as [|Hn]; [discriminate|]. intros [= <-].
    assert (Hq : forall q, q ∈ prefixes (resolve cwd p) -> ~ d2 `prefix_of` q).
    { intros q Hq H. apply prefixes_elem in Hq as [Hq _]. apply (not_both d1 d2 (resolve cwd p) Hap Ht). by etransitivity. }
    rewrite decide_False.
    + eexists. split; [reflexivity|]. split; [exact K|]. destruct S as [A B C D E F]. constructor; [exact A|exact B|exact C| | |]; intros q; unfold is_dir in *; cbn [fs_dirs]; rewrite ?elem_of_union, ?elem_of_list_to_set.
      * intros H. specialize (D q H). clear -D. tauto.
      * intros H. rewrite <- (E q H). pose proof (fun X => Hq q X H) as Hno. clear -Hno. tauto.
      * intros H H2. specialize (F q H H2). clear -F. tauto.
    + intros Hx. apply Hn. apply Exists_exists in Hx as (q & Hin & Hx). apply Exists_exists. exists q. split; [done|]. by rewrite <- (side_file g1 m q K S (Hq q Hin)).
  - destruct (creatable g1 _) eqn:Ec; [|discriminate]. intros [= <-]. rewrite (side_creatable g1 m _ S Ht Ec). eexists. split; [reflexivity|]. split; [by apply kept_put|by apply side_put].
  - assert (Hf : fs_files m !! resolve cwd src = fs_files g1 !! resolve cwd src) by (by apply side_file).
    destruct (bool_decide (is_Some (fs_files g1 !! resolve cwd src)) || bool_decide (is_dir g1 (resolve cwd src))) eqn:Eo; cbn [negb]; [|discriminate].
    assert (Eo' : bool_decide (is_Some (fs_files m !! resolve cwd src)) || bool_decide (is_dir m (resolve cwd src)) = true).
    { apply orb_true_iff in Eo as [Eo|Eo]; apply orb_true_iff; [left; by rewrite Hf|right]. apply bool_decide_eq_true in Eo. apply bool_decide_eq_true. by apply (side_dir g1). }
    rewrite Eo'. cbn [negb]. destruct (creatable g1 _) eqn:Ec; [|discriminate]. rewrite (side_creatable g1 m _ S Ht Ec).
    assert (Hp : fs_files (put m (resolve cwd dst) (Bytes [])) !! resolve cwd src = fs_files (put g1 (resolve cwd dst) (Bytes [])) !! resolve cwd src).
    { cbn. destruct (decide (resolve cwd dst = resolve cwd src)) as [E|E]; [by rewrite E, !lookup_insert|by rewrite !lookup_insert_ne]. }
    rewrite Hp. destruct (fs_files (put g1 _ _) !! _) as [x|]; [|discriminate]. intros [= <-]. eexists. split; [reflexivity|]. split; [by repeat apply kept_put|by repeat apply side_put].
  - destruct (creatable g1 _) eqn:Ec; [|discriminate]. destruct x as [x|]; [|discriminate]. intros [= <-]. rewrite (side_creatable g1 m _ S Ht Ec). eexists. split; [reflexivity|]. split; [by apply kept_put|by apply side_put].
Qed.
Lemma kept_remove g : kept g -> kept (remove_below d1 g).
Proof using Type. intros K p Hp. destruct (remove_cleared d1 g) as [_ R]. destruct (R p Hp) as [-> _]. by apply K. Qed.
Lemma side_remove g1 m : side_by_side d1 d2 f g1 g2 m -> side_by_side d1 d2 f (remove_below d1 g1) g2 (remove_below d1 m).
Proof using Hap.
  intros [A B C D E F]. destruct (remove_cleared d1 g1) as [R1 R2], (remove_cleared d1 m) as [Q1 Q2].
  assert (Hno : forall p, d2 `prefix_of` p -> ~ d1 `prefix_of` p) by (intros p H2 H1; exact (not_both d1 d2 p Hap H1 H2)).
  constructor; intros p; unfold is_dir in *.
  - intros H. destruct (R1 p H) as [-> _], (Q1 p H) as [-> _]. done.
  - intros H. destruct (Q2 p (Hno p H)) as [-> _]. by apply B.
  - intros H H2. destruct (Q2 p H) as [-> _]. by apply C.
  - intros H. destruct (R1 p H) as [_ X], (Q1 p H) as [_ Y]. tauto.
  - intros H. destruct (Q2 p (Hno p H)) as [_ Y]. rewrite Y. by apply E.
  - intros H H2. destruct (R2 p H) as [_ X], (Q2 p H) as [_ Y]. rewrite X, Y. by apply F.
Qed.
Context (xml : gostr -> option config) (json : gostr -> option stm_suite) (P : gen_process) (c : config) (s : stm_suite).
Context (Hd1 : d1 = output_of P) (Hin : ~ d2 `prefix_of` resolve (pr_cwd P) (ga_input (pr_action P)) \/ names_stdin (ga_input (pr_action P)))
        (Hcfg : ~ d2 `prefix_of` resolve (pr_cwd P) (ga_config (pr_action P))).
(** Once the configuration is read, the operations are harmless. *)
Context (Hops : forall g c', kept g -> load_config xml (pr_cwd P) g (clean (ga_config (pr_action P))) = Some c' ->
           Forall (op_fine (pr_cwd P)) (gen_ops s (pr_order P s) (gen_new c' (clean (ga_output (pr_action P)))))).
Context (Hsuite : forall g x, kept g -> read_input (pr_cwd P) (pr_stdin P) g (clean (ga_input (pr_action P))) ≫= json = Some x ->
           g = f -> x = s).
Definition sound_phase (ph : phase) (g : fs) : Prop :=
  kept g /\ match ph with
            | ToRead => g = f
            | ToClean x => x = s
            | ToLoad x => x = s
            | ToDo ops => Forall (op_fine (pr_cwd P)) ops
            | Over _ => True
            end.
Lemma side_step ph ph' g1 g1' m : sound_phase ph g1 -> side_by_side d1 d2 f g1 g2 m -> pstep xml json P ph g1 = (ph', g1') -> ph' <> Over false ->
  exists m', pstep xml json P ph m = (ph', m') /\ sound_phase ph' g1' /\ side_by_side d1 d2 f g1' g2 m'.
Proof using Hap Hd1 Hin Hcfg Hops Hsuite.
  intros [K Hph] S E Hok. destruct ph as [|x|x|[|o ops]|b]; cbn [pstep] in *.
  - assert (Hr : read_input (pr_cwd P) (pr_stdin P) m (clean (ga_input (pr_action P))) = read_input (pr_cwd P) (pr_stdin P) g1 (clean (ga_input (pr_action P)))).
    { unfold read_input. destruct (decide _) as [|Hne]; [done|]. unfold file_bytes. rewrite resolve_clean. destruct Hin as [Hi|Hi]; [by rewrite (side_file g1)|]. by apply stdin_names in Hi. }
    rewrite Hr. destruct (read_input (pr_cwd P) (pr_stdin P) g1 _ ≫= json) as [x|] eqn:Ex; [|injection E as <- _; done]. injection E as <- <-.
    exists m. split; [done|]. split; [|done]. split; [done|]. by eapply Hsuite.
  - destruct (ga_clean (pr_action P)).
    + destruct (decide _); [injection E as <- _; done|]. destruct (undeletable _); [injection E as <- _; done|]. injection E as <- <-. eexists. split; [reflexivity|].
      assert (Hd : resolve (pr_cwd P) (clean (ga_output (pr_action P))) = d1) by (rewrite resolve_clean; by rewrite Hd1). rewrite Hd.
      split; [|by apply side_remove]. split; [by apply kept_remove|done].
    + injection E as <- <-. exists m. done.
  - assert (Hl : load_config xml (pr_cwd P) m (clean (ga_config (pr_action P))) = load_config xml (pr_cwd P) g1 (clean (ga_config (pr_action P)))).
    { unfold load_config, file_bytes. rewrite resolve_clean. by rewrite (side_file g1). }
    rewrite Hl. destruct (load_config xml (pr_cwd P) g1 _) as [c'|] eqn:Ec; [|injection E as <- _; done]. injection E as <- <-. exists m. split; [done|]. split; [|done]. split; [done|].
    subst x. by apply (Hops g1).
  - injection E as <- <-. exists m. done.
  - inversion Hph as [|? ? Ho Hops']; subst. destruct (exec (pr_cwd P) o g1) as [h [e|]] eqn:Eo; [injection E as <- _; done|]. injection E as <- <-.
    destruct (side_exec (pr_cwd P) o g1 h m Ho K S Eo) as (m' & -> & K' & S'). exists m'. split; [done|]. split; [done|exact S'].
  - injection E as <- <-. exists m. done.
Qed.
End One.

(** ** The operations of a run *)
Lemma ops_source cwd c out s ord src dst : sane c s -> OpCopy src dst ∈ gen_ops s ord (gen_new c out) -> exists cc, cc ∈ cf_cpps c /\ resolve cwd src = conv_source cwd c cc.
Proof.
  intros Hs H. apply gen_ops_elem in H as (i & g & Hg & Hop). apply gen_new_elem in Hg as (cc & Hcc & Hg). pose proof (sane_variants _ _ Hs cc Hcc) as Hv. exists cc. split; [exact Hcc|].
  destruct Hop as [(d & _ & E)|Hop]; [discriminate E|]. change (subdir (DirSet (cf_dir c) out) (variant_string (cc_variant cc))) with (vdir c out cc) in Hg.
  unfold init_variant in Hg. rewrite !elem_of_app, elem_of_list_singleton in Hg. destruct Hg as [->|[Hg|Hg]].
  - cbn [sub_ops] in Hop. rewrite !elem_of_app in Hop. destruct Hop as [Hop|[Hop|[Hop|Hop]]].
    + by apply elem_map in Hop as (? & _ & ?).
    + destruct (cx_conv _); [|by apply elem_of_nil in Hop]. apply elem1 in Hop. injection Hop as -> _. by apply (source_at cwd c out).
    + by apply elem1 in Hop.
    + by apply elem_map in Hop as (? & _ & ?).
  - destruct (cc_catkin cc); [|by apply elem_of_nil in Hg]. apply elem1 in Hg as ->. cbn [sub_ops] in Hop. apply elem_concat_map in Hop as (t & _ & Hop). rewrite elem_of_cons, elem1 in Hop. by destruct Hop.
  - destruct (cc_makefile cc); [|by apply elem_of_nil in Hg]. apply elem1 in Hg as ->. by apply elem1 in Hop.
Qed.
Lemma plain_inside n : plain_name n -> inside_name n.
Proof. intros (_ & _ & H & Hs). unfold inside_name. rewrite split_all_plain by done. intros Hin%elem_of_list_singleton. by apply H. Qed.
Lemma ops_below cwd c out s ord o : sane c s -> orders s ord -> o ∈ gen_ops s ord (gen_new c out) -> resolve cwd out `prefix_of` op_target cwd o.
Proof.
  intros Hs Ho H.
  apply gen_ops_elem in H as (i & g & Hg & Hop). apply gen_new_elem in Hg as (cc & Hcc & Hg). eapply (sub_ops_below cwd c out s (ord i) cc g o); [by apply (sane_variants _ _ Hs)| |exact Hg|exact Hop].
  intros t Ht. rewrite (Ho i) in Ht. destruct t as [n m]. apply elem_of_map_to_list in Ht. apply plain_inside, (sane_names _ _ Hs), elem_of_dom. by exists m.
Qed.

(** ** Steps *)
Section Steps.
Context (xml : gostr -> option config) (json : gostr -> option stm_suite).
Lemma psteps_over n P b f : psteps xml json n P (Over b) f = (Over b, f).
Proof using Type. induction n as [|n IH]; [done|]. cbn [psteps pstep]. exact IH. Qed.
Lemma psteps_add a b P ph f : psteps xml json (a + b) P ph f = psteps xml json b P (psteps xml json a P ph f).1 (psteps xml json a P ph f).2.
Proof using Type. revert ph f. induction a as [|a IH]; intros ph f; [done|]. cbn [Nat.add psteps]. destruct (pstep xml json P ph f) as [ph' f']. apply IH. Qed.
Lemma psteps_ops P ops f fin : (exists n, psteps xml json n P (ToDo ops) f = (Over true, fin)) <-> exec_all (pr_cwd P) ops f = (fin, None).
Proof using Type.
  revert f. induction ops as [|o ops IH]; intros f; cbn [exec_all].
  - split; [intros [[|n] H]; [discriminate H|]; cbn [psteps pstep] in H; rewrite psteps_over in H; by injection H as ->|]. intros [= ->]. by exists 1.
  - destruct (exec (pr_cwd P) o f) as [h [e|]] eqn:E.
    + split; [|discriminate]. intros [[|n] H]; [discriminate H|]. cbn [psteps pstep] in H. rewrite E, psteps_over in H. discriminate H.
    + rewrite <- IH. split.
      * intros [[|n] H]; [discriminate H|]. cbn [psteps pstep] in H. rewrite E in H. by exists n.
      * intros [n H]. exists (S n). cbn [psteps pstep]. by rewrite E.
Qed.
(** The steps of a process on its own are a run of rtcg-gen. *)
Theorem C97_steps : forall P f fin,
  (exists n, psteps xml json n P ToRead f = (Over true, fin)) <->
  run_gen xml json (pr_order P) (pr_cwd P) (pr_stdin P) (pr_action P) f = (fin, None).
Proof using Type.
  intros P f fin.
  assert (S1 : forall ph g, (forall b, ph <> Over b) -> (exists n, psteps xml json n P ph g = (Over true, fin)) <->
    exists n, psteps xml json n P (pstep xml json P ph g).1 (pstep xml json P ph g).2 = (Over true, fin)).
  { intros ph g Hph. split; [intros [[|n] H]; [by injection H as E _; destruct (Hph _ E)|]|intros [n H]; exists (S n)]; cbn [psteps] in *; destruct (pstep xml json P ph g) as [a b]; [by exists n|exact H]. }
  assert (Sf : forall g x, (exists n, psteps xml json n P (Over false) g = (Over true, fin)) <-> (x, Some ConfigErr) = (fin, @None run_err)).
  { intros g x. split; [intros [n H]; rewrite psteps_over in H; discriminate H|discriminate]. }
  assert (L : forall s g, (exists n, psteps xml json n P (ToLoad s) g = (Over true, fin)) <->
    match load_config xml (pr_cwd P) g (clean (ga_config (pr_action P))) with
    | None => (g, Some ConfigErr)
    | Some c => match generate (pr_cwd P) c (clean (ga_output (pr_action P))) s (pr_order P s) g with (f', None) => (f', None) | (f', Some e) => (f', Some (GenErr e)) end
    end = (fin, None)).
  { intros s g. rewrite S1 by discriminate. cbn [pstep]. destruct (load_config _ _ _ _) as [c|]; cbn [fst snd]; [|apply Sf].
    rewrite psteps_ops. unfold generate. destruct (exec_all _ _ _) as [h [e|]]; [split; discriminate|split; by intros [= ->]]. }
  rewrite S1 by discriminate. unfold run_gen. cbn [pstep]. destruct (read_input _ _ _ _ ≫= json) as [s|]; cbn [fst snd]; [|split; [intros [n H]; rewrite psteps_over in H; discriminate H|discriminate]].
  rewrite S1 by discriminate. cbn [pstep]. destruct (ga_clean (pr_action P)); [|apply L].
  destruct (decide _) as [|Hne]; [split; [intros [n H]; cbn [fst snd] in H; rewrite psteps_over in H; discriminate H|discriminate]|].
  destruct (undeletable _); [split; [intros [n H]; cbn [fst snd] in H; rewrite psteps_over in H; discriminate H|discriminate]|]. apply L.
Qed.
End Steps.
Print Assumptions C97_steps.

(** ** Both *)
Section Both.
Context (xml : gostr -> option config) (json : gostr -> option stm_suite) (f : fs) (Hwf : wf_fs f).
(** What [side_step] needs to know of a process. *)
Lemma process_ops d2 P s c : works_on xml json f P s c -> reads_elsewhere d2 P c ->
  (forall g c', kept (output_of P) f g -> load_config xml (pr_cwd P) g (clean (ga_config (pr_action P))) = Some c' ->
     Forall (op_fine (output_of P) d2 (pr_cwd P)) (gen_ops s (pr_order P s) (gen_new c' (clean (ga_output (pr_action P)))))) /\
  (forall g x, kept (output_of P) f g -> read_input (pr_cwd P) (pr_stdin P) g (clean (ga_input (pr_action P))) ≫= json = Some x -> g = f -> x = s).
Proof using Hwf.
  intros (Hcwd & Hord & Hs & Hsu & Hout & Hco) (_ & _ & Hsrc). split.
  - intros g c' K El.
    assert (El' : load_config xml (pr_cwd P) f (clean (ga_config (pr_action P))) = Some c').
    { rewrite <- El. unfold load_config, file_bytes. rewrite resolve_clean. by rewrite K. }
    destruct (reads_same xml f f (pr_cwd P) _ c c' Hwf Hcwd (fun q H => H) Hco El') as [Hcc Hdir].
    assert (Hs' : sane c' s) by (destruct Hs; constructor; by rewrite ?Hcc).
    apply Forall_forall. intros o Ho. split.
    + unfold output_of. rewrite <- resolve_clean. by eapply ops_below.
    + destruct o as [| |src dst|]; try done. destruct (ops_source (pr_cwd P) c' _ s _ src dst Hs' Ho) as (cc & Hin & ->). rewrite Hcc in Hin. unfold conv_source. rewrite Hdir. by apply (Hsrc cc).
  - intros g x _ Hr Eg. rewrite Eg in Hr. apply read_suite_iff in Hsu. pose proof (eq_trans (eq_sym Hr) Hsu) as X. by injection X.
Qed.
Lemma alone_ok P fin n : psteps xml json n P ToRead f = (Over true, fin) -> forall k,
  (psteps xml json k P ToRead f).1 <> Over false /\ (forall g, psteps xml json k P ToRead f = (Over true, g) -> g = fin) /\ (n <= k -> psteps xml json k P ToRead f = (Over true, fin)).
Proof using Type.
  intros H k. pose proof (psteps_add xml json n k P ToRead f) as A. rewrite H in A. cbn [fst snd] in A. rewrite psteps_over in A.
  pose proof (psteps_add xml json k n P ToRead f) as B. rewrite Nat.add_comm, A in B. destruct (psteps xml json k P ToRead f) as [ph g] eqn:E. cbn [fst snd] in B. split_and!.
  - cbn [fst]. intros ->. rewrite psteps_over in B. discriminate B.
  - intros g' [= -> ->]. rewrite psteps_over in B. by injection B as ->.
  - intros Hn. rewrite <- E. replace k with (n + (k - n)) by lia. rewrite psteps_add, H. cbn [fst snd]. apply psteps_over.
Qed.
Context (P1 P2 : gen_process) (s1 s2 : stm_suite) (c1 c2 : config) (fin1 fin2 : fs).
Context (Hap : apart (output_of P1) (output_of P2)) (W1 : works_on xml json f P1 s1 c1) (W2 : works_on xml json f P2 s2 c2)
        (R1 : reads_elsewhere (output_of P2) P1 c1) (R2 : reads_elsewhere (output_of P1) P2 c2)
        (n1 n2 : nat) (A1 : psteps xml json n1 P1 ToRead f = (Over true, fin1)) (A2 : psteps xml json n2 P2 ToRead f = (Over true, fin2)).
Lemma both_inv turns : forall k1 k2 ph1 ph2 g1 g2 m,
  psteps xml json k1 P1 ToRead f = (ph1, g1) -> psteps xml json k2 P2 ToRead f = (ph2, g2) ->
  sound_phase (output_of P1) (output_of P2) f P1 s1 ph1 g1 -> sound_phase (output_of P2) (output_of P1) f P2 s2 ph2 g2 ->
  side_by_side (output_of P1) (output_of P2) f g1 g2 m ->
  exists ph1' ph2' g1' g2' m', together xml json P1 P2 turns ph1 ph2 m = (ph1', ph2', m') /\
    psteps xml json (k1 + turns_of true turns) P1 ToRead f = (ph1', g1') /\ psteps xml json (k2 + turns_of false turns) P2 ToRead f = (ph2', g2') /\
    side_by_side (output_of P1) (output_of P2) f g1' g2' m'.
Proof using Hwf Hap W1 W2 R1 R2 A1 A2.
  induction turns as [|[|] turns IH]; intros k1 k2 ph1 ph2 g1 g2 m E1 E2 S1 S2 Sd.
  - exists ph1, ph2, g1, g2, m. unfold turns_of. cbn. by rewrite !Nat.add_0_r.
  - destruct (pstep xml json P1 ph1 g1) as [ph1' g1'] eqn:Es.
    assert (E1' : psteps xml json (S k1) P1 ToRead f = (ph1', g1')).
    { rewrite <- Nat.add_1_r, psteps_add, E1. cbn [fst snd psteps]. by rewrite Es. }
    destruct (alone_ok P1 fin1 n1 A1 (S k1)) as [Hok _]. rewrite E1' in Hok. cbn [fst] in Hok.
    destruct (process_ops (output_of P2) P1 s1 c1 W1 R1) as [Q1 Q2]. destruct R1 as (Hi & Hc & _).
    destruct (side_step (output_of P1) (output_of P2) f g2 Hap xml json P1 s1 eq_refl Hi Hc Q1 Q2 ph1 ph1' g1 g1' m S1 Sd Es Hok) as (m' & Em & S1' & Sd').
    cbn [together]. rewrite Em. destruct (IH (S k1) k2 ph1' ph2 g1' g2 m' E1' E2 S1' S2 Sd') as (a & b & x & y & z & H1 & H2 & H3 & H4).
    exists a, b, x, y, z. split; [exact H1|]. unfold turns_of in *. rewrite filter_cons_True, filter_cons_False by done. cbn [length]. rewrite Nat.add_succ_r. done.
  - destruct (pstep xml json P2 ph2 g2) as [ph2' g2'] eqn:Es.
    assert (E2' : psteps xml json (S k2) P2 ToRead f = (ph2', g2')).
    { rewrite <- Nat.add_1_r, psteps_add, E2. cbn [fst snd psteps]. by rewrite Es. }
    destruct (alone_ok P2 fin2 n2 A2 (S k2)) as [Hok _]. rewrite E2' in Hok. cbn [fst] in Hok.
    destruct (process_ops (output_of P1) P2 s2 c2 W2 R2) as [Q1 Q2]. destruct R2 as (Hi & Hc & _).
    assert (Hap' : apart (output_of P2) (output_of P1)) by (destruct Hap; by split).
    destruct (side_step (output_of P2) (output_of P1) f g1 Hap' xml json P2 s2 eq_refl Hi Hc Q1 Q2 ph2 ph2' g2 g2' m S2 (side_sym _ _ _ _ _ _ Sd) Es Hok) as (m' & Em & S2' & Sd').
    cbn [together]. rewrite Em. destruct (IH k1 (S k2) ph1 ph2' g1 g2' m' E1 E2' S1 S2' (side_sym _ _ _ _ _ _ Sd')) as (a & b & x & y & z & H1 & H2 & H3 & H4).
    exists a, b, x, y, z. split; [exact H1|]. unfold turns_of in *. rewrite filter_cons_False, filter_cons_True by done. cbn [length]. rewrite Nat.add_succ_r. done.
Qed.
End Both.
(** Two runs whose output directories are apart, and neither of which reads in the output directory of the other: if
    each of them would succeed on its own, then under every schedule neither of them fails; both end if they get
    enough turns, and when both have ended, each output directory is as if the other run had not been there. *)
Theorem C97_together : forall xml json f P1 P2 s1 s2 c1 c2 fin1 fin2, wf_fs f ->
  works_on xml json f P1 s1 c1 -> works_on xml json f P2 s2 c2 ->
  apart (output_of P1) (output_of P2) -> reads_elsewhere (output_of P2) P1 c1 -> reads_elsewhere (output_of P1) P2 c2 ->
  run_gen xml json (pr_order P1) (pr_cwd P1) (pr_stdin P1) (pr_action P1) f = (fin1, None) ->
  run_gen xml json (pr_order P2) (pr_cwd P2) (pr_stdin P2) (pr_action P2) f = (fin2, None) ->
  exists n, forall turns ph1 ph2 m, together xml json P1 P2 turns ToRead ToRead f = (ph1, ph2, m) ->
    ph1 <> Over false /\ ph2 <> Over false /\
    (n <= turns_of true turns -> ph1 = Over true) /\ (n <= turns_of false turns -> ph2 = Over true) /\
    (ph1 = Over true -> ph2 = Over true -> side_by_side (output_of P1) (output_of P2) f fin1 fin2 m).
Proof.
  intros xml json f P1 P2 s1 s2 c1 c2 fin1 fin2 Hwf W1 W2 Hap R1 R2 A1 A2. apply C97_steps in A1 as [n1 A1]. apply C97_steps in A2 as [n2 A2].
  exists (n1 + n2). intros turns ph1 ph2 m E.
  destruct (both_inv xml json f Hwf P1 P2 s1 s2 c1 c2 fin1 fin2 Hap W1 W2 R1 R2 n1 n2 A1 A2 turns 0 0 ToRead ToRead f f f eq_refl eq_refl) as (a & b & g1 & g2 & z & H1 & H2 & H3 & H4);
    [by split|by split|apply side_refl|]. cbn [Nat.add] in H2, H3. rewrite E in H1. injection H1 as <- <- <-.
  destruct (alone_ok xml json f P1 fin1 n1 A1 (turns_of true turns)) as (O1 & F1 & T1). destruct (alone_ok xml json f P2 fin2 n2 A2 (turns_of false turns)) as (O2 & F2 & T2).
  rewrite H2 in O1, F1, T1. rewrite H3 in O2, F2, T2. split_and!; [exact O1|exact O2| | |].
  - intros Hn. assert (X : (ph1, g1) = (Over true, fin1)) by (apply T1; lia). by injection X.
  - intros Hn. assert (X : (ph2, g2) = (Over true, fin2)) by (apply T2; lia). by injection X.
  - intros -> ->. rewrite <- (F1 g1 eq_refl), <- (F2 g2 eq_refl). exact H4.
Qed.
Print Assumptions C97_together.
(** Which turns they had makes no difference: the files and directories are the same in the end. *)
Theorem C97_any_schedule : forall xml json f P1 P2 s1 s2 c1 c2 fin1 fin2 turns turns' m m', wf_fs f ->
  works_on xml json f P1 s1 c1 -> works_on xml json f P2 s2 c2 ->
  apart (output_of P1) (output_of P2) -> reads_elsewhere (output_of P2) P1 c1 -> reads_elsewhere (output_of P1) P2 c2 ->
  run_gen xml json (pr_order P1) (pr_cwd P1) (pr_stdin P1) (pr_action P1) f = (fin1, None) ->
  run_gen xml json (pr_order P2) (pr_cwd P2) (pr_stdin P2) (pr_action P2) f = (fin2, None) ->
  together xml json P1 P2 turns ToRead ToRead f = (Over true, Over true, m) ->
  together xml json P1 P2 turns' ToRead ToRead f = (Over true, Over true, m') ->
  forall p, fs_files m !! p = fs_files m' !! p /\ (is_dir m p <-> is_dir m' p).
Proof.
  intros xml json f P1 P2 s1 s2 c1 c2 fin1 fin2 turns turns' m m' Hwf W1 W2 Hap R1 R2 A1 A2 E E' p.
  destruct (C97_together xml json f P1 P2 s1 s2 c1 c2 fin1 fin2 Hwf W1 W2 Hap R1 R2 A1 A2) as [n H].
  destruct (H turns _ _ _ E) as (_ & _ & _ & _ & S). destruct (H turns' _ _ _ E') as (_ & _ & _ & _ & S').
  destruct (S eq_refl eq_refl) as [F1 F2 F3 D1 D2 D3], (S' eq_refl eq_refl) as [F1' F2' F3' D1' D2' D3'].
  destruct (decide (output_of P1 `prefix_of` p)) as [B1|B1]; [split; [by rewrite F1, F1'|by rewrite D1, D1']|].
  destruct (decide (output_of P2 `prefix_of` p)) as [B2|B2]; [split; [by rewrite F2, F2'|by rewrite D2, D2']|]. split; [by rewrite F3, F3'|by rewrite D3, D3'].
Qed.
Print Assumptions C97_any_schedule.
(** ** One of them may do anything, fail, or be killed *)
Section Undisturbed.
Context (d e : fpath) (f : fs) (Hap : apart d e).     (* the output of the process looked at, and of the other *)
Record calm (g m : fs) : Prop := {
  cm_files : forall p, d `prefix_of` p -> fs_files m !! p = fs_files g !! p;
  cm_rest : forall p, ~ d `prefix_of` p -> ~ e `prefix_of` p -> fs_files m !! p = fs_files f !! p;
  cm_dirs : forall p, d `prefix_of` p -> is_dir m p <-> is_dir g p;
  cm_more : forall p, ~ e `prefix_of` p -> is_dir g p -> is_dir m p;
}.
Lemma calm_file g m p : kept d f g -> calm g m -> ~ e `prefix_of` p -> fs_files m !! p = fs_files g !! p.
Proof using Type. intros K S H. destruct (decide (d `prefix_of` p)) as [H1|H1]; [by apply (cm_files _ _ S)|]. by rewrite (cm_rest _ _ S), K. Qed.
Lemma calm_creatable g m p : calm g m -> d `prefix_of` p -> creatable g p = true -> creatable m p = true.
Proof using Hap.
  intros S Hp. unfold creatable. rewrite !andb_true_iff, !negb_true_iff, !bool_decide_eq_true, !bool_decide_eq_false. intros [H1 H2]. split.
  - apply (cm_more g m S); [|done]. intros H. apply (not_both d e p Hap Hp). etransitivity; [exact H|].
    destruct p as [|x p]; [done|]. exists [List.last (x :: p) x]. apply app_removelast_last. discriminate.
  - intros H. by apply H2, (cm_dirs _ _ S).
Qed.
Lemma calm_put g m p x : calm g m -> d `prefix_of` p -> calm (put g p x) (put m p x).
Proof using Type.
  intros [A B C D] Hp. constructor; [| |exact C|exact D]; intros q; cbn.
  - intros Hq. destruct (decide (p = q)) as [Epq|Hne]; [subst q; by rewrite !lookup_insert|rewrite !lookup_insert_ne by done; by apply A].
  - intros Hq Hq2. rewrite lookup_insert_ne; [by apply B|]. intros Epq. subst q. done.
Qed.
Lemma calm_exec cwd o g g' m : op_fine d e cwd o -> kept d f g -> calm g m -> exec cwd o g = (g', None) ->
  exists m', exec cwd o m = (m', None) /\ kept d f g' /\ calm g' m'.
Proof using Hap.
  intros [Ht Hsrc] K S. destruct o as [p|n p|src dst|p x]; cbn [op_target exec] in *.
  - unfold mkdir_all. destruct (decide (Exists _ (prefixes (resolve cwd p)))) as [|Hn]; [discriminate|]. intros [= <-].
    assert (Hq : forall q, q ∈ prefixes (resolve cwd p) -> ~ e `prefix_of` q).
    { intros q Hq H. apply prefixes_elem in Hq as [Hq _]. apply (not_both d e (resolve cwd p) Hap Ht). by etransitivity. }
    rewrite decide_False.
    + eexists. split; [reflexivity|]. split; [exact K|]. destruct S as [A B C D]. constructor; [exact A|exact B| |]; intros q; unfold is_dir in *; cbn [fs_dirs]; rewrite ?elem_of_union, ?elem_of_list_to_set.
      * intros H. specialize (C q H). clear -C. tauto.
      * intros H. specialize (D q H). clear -D. tauto.
    + intros Hx. apply Hn. apply Exists_exists in Hx as (q & Hin & Hx). apply Exists_exists. exists q. split; [done|]. by rewrite <- (calm_file g m q K S (Hq q Hin)).
  - destruct (creatable g _) eqn:Ec; [|discriminate]. intros [= <-]. rewrite (calm_creatable g m _ S Ht Ec). eexists. split; [reflexivity|]. split; [by apply kept_put|by apply calm_put].
  - assert (Hf : fs_files m !! resolve cwd src = fs_files g !! resolve cwd src) by (by apply calm_file).
    destruct (bool_decide (is_Some (fs_files g !! resolve cwd src)) || bool_decide (is_dir g (resolve cwd src))) eqn:Eo; cbn [negb]; [|discriminate].
    assert (Eo' : bool_decide (is_Some (fs_files m !! resolve cwd src)) || bool_decide (is_dir m (resolve cwd src)) = true).
    { apply orb_true_iff in Eo as [Eo|Eo]; apply orb_true_iff; [left; by rewrite Hf|right]. apply bool_decide_eq_true in Eo. apply bool_decide_eq_true. by apply (cm_more g m S). }
    rewrite Eo'. cbn [negb]. destruct (creatable g _) eqn:Ec; [|discriminate]. rewrite (calm_creatable g m _ S Ht Ec).
    assert (Hp : fs_files (put m (resolve cwd dst) (Bytes [])) !! resolve cwd src = fs_files (put g (resolve cwd dst) (Bytes [])) !! resolve cwd src).
    { cbn. destruct (decide (resolve cwd dst = resolve cwd src)) as [E|E]; [by rewrite E, !lookup_insert|by rewrite !lookup_insert_ne]. }
    rewrite Hp. destruct (fs_files (put g _ _) !! _) as [x|]; [|discriminate]. intros [= <-]. eexists. split; [reflexivity|]. split; [by repeat apply kept_put|by repeat apply calm_put].
  - destruct (creatable g _) eqn:Ec; [|discriminate]. destruct x as [x|]; [|discriminate]. intros [= <-]. rewrite (calm_creatable g m _ S Ht Ec). eexists. split; [reflexivity|]. split; [by apply kept_put|by apply calm_put].
Qed.
Lemma calm_remove g m : calm g m -> calm (remove_below d g) (remove_below d m).
Proof using Type.
  intros [A B C D]. destruct (remove_cleared d g) as [R1 R2], (remove_cleared d m) as [Q1 Q2]. constructor; intros p; unfold is_dir in *.
  - intros H. destruct (R1 p H) as [-> _], (Q1 p H) as [-> _]. done.
  - intros H H2. destruct (Q2 p H) as [-> _]. by apply B.
  - intros H. destruct (R1 p H) as [_ X], (Q1 p H) as [_ Y]. tauto.
  - intros H [->|Hd]; [by left|]. destruct (decide (d `prefix_of` p)) as [Hp|Hp]; [destruct (R1 p Hp) as [_ X]; done|]. destruct (R2 p Hp) as [_ X], (Q2 p Hp) as [_ Y]. rewrite Y. apply D; [done|right]. by apply X.
Qed.
(** *** A step of the process looked at *)
Section Own.
Context (xml : gostr -> option config) (json : gostr -> option stm_suite) (P : gen_process) (s : stm_suite).
Context (Hd : d = output_of P) (Hin : ~ e `prefix_of` resolve (pr_cwd P) (ga_input (pr_action P)) \/ names_stdin (ga_input (pr_action P)))
        (Hcfg : ~ e `prefix_of` resolve (pr_cwd P) (ga_config (pr_action P))).
Context (Hops : forall g c', kept d f g -> load_config xml (pr_cwd P) g (clean (ga_config (pr_action P))) = Some c' ->
           Forall (op_fine d e (pr_cwd P)) (gen_ops s (pr_order P s) (gen_new c' (clean (ga_output (pr_action P)))))).
Context (Hsuite : forall g x, kept d f g -> read_input (pr_cwd P) (pr_stdin P) g (clean (ga_input (pr_action P))) ≫= json = Some x ->
           g = f -> x = s).
Lemma calm_step ph ph' g g' m : sound_phase d e f P s ph g -> calm g m -> pstep xml json P ph g = (ph', g') -> ph' <> Over false ->
  exists m', pstep xml json P ph m = (ph', m') /\ sound_phase d e f P s ph' g' /\ calm g' m'.
Proof using Hap Hd Hin Hcfg Hops Hsuite.
  intros [K Hph] S E Hok. destruct ph as [|x|x|[|o ops]|b]; cbn [pstep] in *.
  - assert (Hr : read_input (pr_cwd P) (pr_stdin P) m (clean (ga_input (pr_action P))) = read_input (pr_cwd P) (pr_stdin P) g (clean (ga_input (pr_action P)))).
    { unfold read_input. destruct (decide _) as [|Hne]; [done|]. unfold file_bytes. rewrite resolve_clean. destruct Hin as [Hi|Hi]; [by rewrite (calm_file g)|]. by apply stdin_names in Hi. }
    rewrite Hr. destruct (read_input (pr_cwd P) (pr_stdin P) g _ ≫= json) as [x|] eqn:Ex; [|injection E as <- _; done]. injection E as <- <-.
    exists m. split; [done|]. split; [|done]. split; [done|]. by eapply Hsuite.
  - destruct (ga_clean (pr_action P)).
    + destruct (decide _); [injection E as <- _; done|]. destruct (undeletable _); [injection E as <- _; done|]. injection E as <- <-. eexists. split; [reflexivity|].
      assert (Hd' : resolve (pr_cwd P) (clean (ga_output (pr_action P))) = d) by (rewrite resolve_clean; by rewrite Hd). rewrite Hd'.
      split; [|by apply calm_remove]. split; [by apply kept_remove|done].
    + injection E as <- <-. exists m. done.
  - assert (Hl : load_config xml (pr_cwd P) m (clean (ga_config (pr_action P))) = load_config xml (pr_cwd P) g (clean (ga_config (pr_action P)))).
    { unfold load_config, file_bytes. rewrite resolve_clean. by rewrite (calm_file g). }
    rewrite Hl. destruct (load_config xml (pr_cwd P) g _) as [c'|] eqn:Ec; [|injection E as <- _; done]. injection E as <- <-. exists m. split; [done|]. split; [|done]. split; [done|].
    subst x. by apply (Hops g).
  - injection E as <- <-. exists m. done.
  - inversion Hph as [|? ? Ho Hops']; subst. destruct (exec (pr_cwd P) o g) as [h [er|]] eqn:Eo; [injection E as <- _; done|]. injection E as <- <-.
    destruct (calm_exec (pr_cwd P) o g h m Ho K S Eo) as (m' & -> & K' & S'). exists m'. split; [done|]. split; [done|exact S'].
  - injection E as <- <-. exists m. done.
Qed.
End Own.
(** *** A step of the other *)
Lemma calm_changes g m m' : calm g m -> (forall p, ~ e `prefix_of` p -> fs_files m' !! p = fs_files m !! p) ->
  (forall p, ~ e `prefix_of` p -> is_dir m p -> is_dir m' p) -> (forall p, d `prefix_of` p -> is_dir m' p -> is_dir m p) -> calm g m'.
Proof using Hap.
  intros [A B C D] H1 H2 H3. assert (Hno : forall p, d `prefix_of` p -> ~ e `prefix_of` p) by (intros p X Y; exact (not_both d e p Hap X Y)). constructor; intros p.
  - intros H. rewrite H1 by auto. by apply A.
  - intros H H'. rewrite H1 by auto. by apply B.
  - intros H. rewrite <- C by done. split; [by apply H3|apply H2; auto].
  - intros H Hg. apply H2, D; done.
Qed.
Lemma calm_other xml json Q ph g m : calm g m -> e = output_of Q -> (forall s, orders s (pr_order Q s)) ->
  (forall text c cc, xml text = Some c -> cc ∈ cf_cpps c -> valid_variant (cc_variant cc)) ->
  (forall text s name, json text = Some s -> name ∈ dom (su_tests s) -> inside_name name) ->
  match ph with ToClean s | ToLoad s => forall name, name ∈ dom (su_tests s) -> inside_name name | ToDo ops => Forall (fun o => e `prefix_of` op_target (pr_cwd Q) o) ops | _ => True end ->
  calm g (pstep xml json Q ph m).2 /\
  match (pstep xml json Q ph m).1 with ToClean s | ToLoad s => forall name, name ∈ dom (su_tests s) -> inside_name name | ToDo ops => Forall (fun o => e `prefix_of` op_target (pr_cwd Q) o) ops | _ => True end.
Proof using Hap.
  intros S He Hord Hxml Hjson Hph. destruct ph as [|x|x|[|o ops]|b]; cbn [pstep].
  - destruct (read_input _ _ _ _ ≫= json) as [x|] eqn:Ex; cbn [fst snd]; split; try done. apply bind_Some in Ex as (text & _ & Ex). intros name. by apply (Hjson text).
  - assert (Hr : calm g (remove_below (resolve (pr_cwd Q) (clean (ga_output (pr_action Q)))) m)).
    { rewrite resolve_clean. change (resolve (pr_cwd Q) (ga_output (pr_action Q))) with (output_of Q). rewrite <- He. destruct (remove_cleared e m) as [R1 R2]. apply (calm_changes g m); [done|intros p Hp; by apply R2|..]; unfold is_dir.
      - intros p Hp. destruct (R2 p Hp) as [_ ->]. done.
      - intros p Hp. assert (Hn : ~ e `prefix_of` p) by (intros Y; exact (not_both d e p Hap Hp Y)). destruct (R2 p Hn) as [_ ->]. done. }
    destruct (ga_clean (pr_action Q)); [|by split]. destruct (decide _); [by split|]. destruct (undeletable _); cbn [fst snd]; by split.
  - destruct (load_config _ _ _ _) as [c|] eqn:Ec; cbn [fst snd]; (split; [done|]); [|done]. apply Forall_forall. intros o Hop. apply gen_ops_elem in Hop as (i & g0 & Hg & Hop). apply gen_new_elem in Hg as (cc & Hcc & Hg).
    rewrite He. unfold output_of. rewrite <- (resolve_clean (pr_cwd Q) (ga_output (pr_action Q))). eapply (sub_ops_below (pr_cwd Q) c (clean (ga_output (pr_action Q))) x (pr_order Q x i) cc g0 o); [| |exact Hg|exact Hop].
    + unfold load_config in Ec. destruct (file_bytes _ _ ≫= xml) as [c0|] eqn:Ex; [|discriminate Ec]. injection Ec as <-. cbn [cf_cpps] in Hcc. apply bind_Some in Ex as (text & _ & Ex). exact (Hxml text c0 cc Ex Hcc).
    + intros t Ht. rewrite (Hord x i) in Ht. destruct t as [n0 m0]. apply elem_of_map_to_list in Ht. apply Hph, elem_of_dom. by exists m0.
  - by split.
  - apply Forall_cons in Hph as [Ho Hops'].
    assert (Hc : calm g (exec (pr_cwd Q) o m).1).
    { pose proof (exec_changes (pr_cwd Q) e o m Ho) as (C1 & C2 & C3). apply (calm_changes g m); [done|intros p Hp; by apply C1|intros p Hp H; by apply C3|].
      intros p Hp H. assert (Hn : ~ e `prefix_of` p) by (intros Y; exact (not_both d e p Hap Hp Y)). destruct (C2 p Hn H) as [H'|H']; [done|]. destruct Hap as [H1 _]. exfalso. apply H1. by etransitivity. }
    destruct (exec (pr_cwd Q) o m) as [h [er|]]; cbn [fst snd] in *; by split.
  - by split.
Qed.
End Undisturbed.
(** Whatever another process does that writes to a directory apart, however far it gets (it may fail, or be killed at any
    time): a run that would succeed on its own succeeds, and its output is the same; outside the two directories no
    file changes. *)
Theorem C97_undisturbed : forall xml json f P Q s c fin, wf_fs f ->
  works_on xml json f P s c -> apart (output_of P) (output_of Q) -> reads_elsewhere (output_of Q) P c -> (forall s, orders s (pr_order Q s)) ->
  (forall text c cc, xml text = Some c -> cc ∈ cf_cpps c -> valid_variant (cc_variant cc)) ->
  (forall text s name, json text = Some s -> name ∈ dom (su_tests s) -> inside_name name) ->
  run_gen xml json (pr_order P) (pr_cwd P) (pr_stdin P) (pr_action P) f = (fin, None) ->
  exists n, forall turns ph ph' m, together xml json P Q turns ToRead ToRead f = (ph, ph', m) ->
    ph <> Over false /\ (n <= turns_of true turns -> ph = Over true) /\
    (ph = Over true -> forall p, output_of P `prefix_of` p -> fs_files m !! p = fs_files fin !! p /\ (is_dir m p <-> is_dir fin p)) /\
    (forall p, ~ output_of P `prefix_of` p -> ~ output_of Q `prefix_of` p -> fs_files m !! p = fs_files f !! p).
Proof.
  intros xml json f P Q s c fin Hwf W Hap R Hord Hxml Hjson A. apply C97_steps in A as [n A].
  assert (Inv : forall turns k ph1 ph2 g m,
    psteps xml json k P ToRead f = (ph1, g) -> sound_phase (output_of P) (output_of Q) f P s ph1 g -> calm (output_of P) (output_of Q) f g m ->
    match ph2 with ToClean s | ToLoad s => forall name, name ∈ dom (su_tests s) -> inside_name name | ToDo ops => Forall (fun o => output_of Q `prefix_of` op_target (pr_cwd Q) o) ops | _ => True end ->
    exists ph1' ph2' g' m', together xml json P Q turns ph1 ph2 m = (ph1', ph2', m') /\ psteps xml json (k + turns_of true turns) P ToRead f = (ph1', g') /\ calm (output_of P) (output_of Q) f g' m').
  { induction turns as [|[|] turns IH]; intros k ph1 ph2 g m E Sp Hc Hph.
    - exists ph1, ph2, g, m. unfold turns_of. cbn. by rewrite Nat.add_0_r.
    - destruct (pstep xml json P ph1 g) as [ph1' g'] eqn:Es.
      assert (E' : psteps xml json (S k) P ToRead f = (ph1', g')).
      { rewrite <- Nat.add_1_r, psteps_add, E. cbn [fst snd psteps]. by rewrite Es. }
      destruct (alone_ok xml json f P fin n A (S k)) as [Hok _]. rewrite E' in Hok. cbn [fst] in Hok.
      destruct (process_ops xml json f Hwf (output_of Q) P s c W R) as [Q1 Q2]. destruct R as (Hi & Hcf & HR).
      destruct (calm_step (output_of P) (output_of Q) f Hap xml json P s eq_refl Hi Hcf Q1 Q2 ph1 ph1' g g' m Sp Hc Es Hok) as (m' & Em & S' & Hc').
      cbn [together]. rewrite Em. destruct (IH (S k) ph1' ph2 g' m' E' S' Hc' Hph) as (a & b & x & z & H1 & H2 & H3).
      exists a, b, x, z. split; [exact H1|]. unfold turns_of in *. rewrite filter_cons_True by done. cbn [length]. rewrite Nat.add_succ_r. done.
    - destruct (calm_other (output_of P) (output_of Q) f Hap xml json Q ph2 g m Hc eq_refl Hord Hxml Hjson Hph) as [Hc' Hph']. cbn [together].
      destruct (pstep xml json Q ph2 m) as [ph2' m']. cbn [fst snd] in *. destruct (IH k ph1 ph2' g m' E Sp Hc' Hph') as (a & b & x & z & H1 & H2 & H3).
      exists a, b, x, z. split; [exact H1|]. unfold turns_of in *. rewrite filter_cons_False by done. done. }
  exists n. intros turns ph ph' m E. destruct (Inv turns 0 ToRead ToRead f f eq_refl) as (a & b & g & z & H1 & H2 & H3); [by split|by constructor|done|].
  rewrite E in H1. injection H1 as <- <- <-. cbn [Nat.add] in H2. destruct (alone_ok xml json f P fin n A (turns_of true turns)) as (O & F & T). rewrite H2 in O, F, T. split_and!.
  - exact O.
  - intros Hn. apply T in Hn. by injection Hn.
  - intros ->. rewrite <- (F g eq_refl). intros p Hp. split; [by apply (cm_files _ _ _ _ _ H3)|by apply (cm_dirs _ _ _ _ _ H3)].
  - intros p Hp Hq. by apply (cm_rest _ _ _ _ _ H3).
Qed.
Print Assumptions C97_undisturbed.
(** If both clean and write the same directory, one may make the other fail although each would succeed on its own. *)
Definition cc_one : gen_process := Process run_ord ex_home [] run_act.
Definition cc_turns : list bool := repeat true 16 ++ [false; false] ++ [true].
Theorem C97_same_output_refuted : exists xml json f P1 P2 turns,
  (run_gen xml json (pr_order P1) (pr_cwd P1) (pr_stdin P1) (pr_action P1) f).2 = None /\
  (run_gen xml json (pr_order P2) (pr_cwd P2) (pr_stdin P2) (pr_action P2) f).2 = None /\
  output_of P1 = output_of P2 /\ (together xml json P1 P2 turns ToRead ToRead f).1.1 = Over false.
Proof. exists run_xml, run_json, run_fs, cc_one, cc_one, cc_turns. split_and!; vm_compute; reflexivity. Qed.
Print Assumptions C97_same_output_refuted.

(** *** Witness: the old output cleaned and written, and the same suite written elsewhere, by turns *)
Definition cc_two : gen_process := Process run_ord ex_home [] (GenAction false (lit "new/dir") (lit "in/./rtcg.xml") (lit "suite.json")).
Definition cc_turn : list bool := concat (repeat [true; false; false; true] 30).
Lemma cc_works P : pr_cwd P = ex_home -> pr_order P = run_ord -> ga_config (pr_action P) = lit "in/./rtcg.xml" -> ga_input (pr_action P) = lit "suite.json" ->
  ~ output_of P `prefix_of` resolve (pr_cwd P) (ga_config (pr_action P)) -> works_on run_xml run_json run_fs P ex_suite int_config.
Proof.
  destruct C94_witness as (_ & W2 & W3 & W4 & W5 & W6 & _). intros E1 E2 E3 E4 Ho. unfold works_on. rewrite E1, E2, E4. split; [exact W2|]. split; [exact W3|]. split; [exact W6|].
  split; [|split; [rewrite <- E1; exact Ho|rewrite E3; exact W5]]. destruct W4 as (t & Ht & H). exists t. split; [exact Ht|]. destruct H as [[Hn _]|[Hn Hf]]; [specialize (Hn []); discriminate Hn|right; split; [exact Hn|exact Hf]].
Qed.
Example C97_witness : wf_fs run_fs /\
  works_on run_xml run_json run_fs cc_one ex_suite int_config /\ works_on run_xml run_json run_fs cc_two ex_suite int_config /\
  apart (output_of cc_one) (output_of cc_two) /\ reads_elsewhere (output_of cc_two) cc_one int_config /\ reads_elsewhere (output_of cc_one) cc_two int_config /\
  (run_gen run_xml run_json run_ord ex_home [] (pr_action cc_one) run_fs).2 = None /\
  (run_gen run_xml run_json run_ord ex_home [] (pr_action cc_two) run_fs).2 = None /\
  (together run_xml run_json cc_one cc_two cc_turn ToRead ToRead run_fs).1 = (Over true, Over true) /\
  file_bytes (together run_xml run_json cc_one cc_two cc_turn ToRead ToRead run_fs).2 [lit "home"; lit "new"; lit "dir"; lit "ros"; lit "src"; lit "convert"; lit "convert.cpp"] = Some (lit "R").
Proof.
  split; [apply run_wf|].
  split; [apply cc_works; [reflexivity..|]; refine (bool_decide_eq_false_1 _ _); vm_compute; reflexivity|].
  split; [apply cc_works; [reflexivity..|]; refine (bool_decide_eq_false_1 _ _); vm_compute; reflexivity|].
  split; [split; refine (bool_decide_eq_false_1 _ _); vm_compute; reflexivity|].
  assert (Hcc : forall d P, pr_cwd P = ex_home -> Forall (fun cc => ~ d `prefix_of` conv_source ex_home int_config cc) (cf_cpps int_config) -> forall cc, cc ∈ cf_cpps int_config -> ~ d `prefix_of` conv_source (pr_cwd P) int_config cc).
  { intros d P -> H cc Hin. rewrite Forall_forall in H. by apply H. }
  split; [split_and!; [left|..|apply Hcc; [reflexivity|refine (bool_decide_eq_true_1 _ _)]]; [refine (bool_decide_eq_false_1 _ _)..|]; vm_compute; reflexivity|].
  split; [split_and!; [left|..|apply Hcc; [reflexivity|refine (bool_decide_eq_true_1 _ _)]]; [refine (bool_decide_eq_false_1 _ _)..|]; vm_compute; reflexivity|].
  split_and!; vm_compute; reflexivity.
Qed.
(** *** Witness: the other process cannot find its configuration *)
Definition cc_bad : gen_process := Process run_ord ex_home [] (GenAction true (lit "new/dir") (lit "none.xml") (lit "suite.json")).
Example C97_witness_undisturbed :
  works_on run_xml run_json run_fs cc_one ex_suite int_config /\ apart (output_of cc_one) (output_of cc_bad) /\ reads_elsewhere (output_of cc_bad) cc_one int_config /\ (forall s, orders s (pr_order cc_bad s)) /\
  (forall text c cc, run_xml text = Some c -> cc ∈ cf_cpps c -> valid_variant (cc_variant cc)) /\
  (forall text s name, run_json text = Some s -> name ∈ dom (su_tests s) -> inside_name name) /\
  (run_gen run_xml run_json run_ord ex_home [] (pr_action cc_one) run_fs).2 = None /\
  (together run_xml run_json cc_one cc_bad cc_turn ToRead ToRead run_fs).1 = (Over true, Over false).
Proof.
  destruct C97_witness as (_ & W1 & _ & Ha & Hr & _). split; [exact W1|]. split; [exact Ha|]. split; [exact Hr|]. split; [by intros s i|].
  destruct ex_sane as [V _ N]. split; [|split].
  - intros text c cc H. unfold run_xml in H. destruct (decide (text = lit "config")); [|discriminate H]. injection H as <-. apply V.
  - intros text s name H. unfold run_json in H. destruct (decide (text = lit "suite")); [|discriminate H]. injection H as <-. intros Hn. apply plain_inside. exact (N name Hn).
  - split; vm_compute; reflexivity.
Qed.
