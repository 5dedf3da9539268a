(** * Linking: property C89 *)
From Verif Require Export SpecLink PropPrelude PropStatic.
From Verif Require Import PropConfig PropHeader.
From Verif Require Export Prelude.
From Verif Require Export StmProofs.

Lemma source_names ts p : map fst (source_symbols ts p) = fun_names p.
Proof. induction p as [|[] p IH]; cbn; [done|done|done|done|done|]. unfold fun_names in *. cbn. by f_equal. Qed.
Lemma source_in ts p s : s ∈ source_symbols ts p -> s.1 ∈ fun_names p.
Proof. intros H. rewrite <- (source_names ts). by apply elem_of_list_fmap_1. Qed.
Lemma nodup_fst {A B} (l : list (A * B)) : NoDup (map fst l) -> NoDup l.
Proof. apply (NoDup_fmap_1 fst). Qed.
Lemma main_heads v name m ctx tests q : q ∈ fun_names (main_items v name m ctx tests) -> q = [lit "main"] \/ exists r f, q = [r; f] /\ r <> lit "rtcg".
Proof.
  rewrite main_fun_names. rewrite elem_of_cons, elem_of_app, elem_of_cons, elem_of_app, elem_of_list_singleton, !elem_of_list_fmap.
  intros [->|[(t & -> & _)|[->|[(f & -> & _)| ->]]]]; [right; eexists _, _; split; [reflexivity|done]..|by left].
Qed.
Lemma prelude_heads ts s : s ∈ source_symbols ts the_source -> s.1 = [lit "operator<<"] \/ exists x r, s.1 = lit "rtcg" :: x :: r.
Proof.
  intros H. apply source_in in H. revert H. generalize (s.1). intros q. let x := eval vm_compute in (fun_names the_source) in change (fun_names the_source) with x.
  rewrite !elem_of_cons, elem_of_nil. intros H. repeat destruct H as [->|H]; try (by left); try (right; eexists _, _; reflexivity).
Qed.
Lemma defined_in h f : f ∈ defined h <-> exists ret pt pn body, IFun ret f pt pn (Some body) ∈ h.
Proof.
  unfold defined. rewrite elem_of_list_omap. split.
  - intros (i & Hi & E). destruct i as [| |r n pt pn [body|]]; try discriminate E. injection E as ->. by exists r, pt, pn, body.
  - intros (r & pt & pn & body & H). eexists. split; [exact H|done].
Qed.
Lemma functions_in h f : f ∈ functions h <-> exists ret pt pn body, IFun ret f pt pn body ∈ h.
Proof.
  unfold functions. rewrite elem_of_list_omap. split.
  - intros (i & Hi & E). destruct i as [| |r n pt pn body]; try discriminate E. injection E as ->. by exists r, pt, pn, body.
  - intros (r & pt & pn & body & H). eexists. split; [exact H|done].
Qed.
Lemma defined_sublist h : sublist (defined h) (functions h).
Proof. unfold defined, functions. induction h as [|[| |r n pt pn [body|]] h IH]; cbn; [constructor|done|done|by constructor|by constructor]. Qed.
Lemma sublist_in {A} (l k : list A) x : sublist l k -> x ∈ l -> x ∈ k.
Proof. intros H. induction H as [|y l k H IH|y l k H IH]; intros Hx; [done| |right; by apply IH]. apply elem_of_cons in Hx as [->|Hx]; [left|right; by apply IH]. Qed.
Lemma sublist_nodup {A} (l k : list A) : sublist l k -> NoDup k -> NoDup l.
Proof.
  intros H. induction H as [|x l k H IH|x l k H IH]; intros Hk; [done|..]; apply NoDup_cons in Hk as [H1 H2]; [|by apply IH].
  apply NoDup_cons. split; [|by apply IH]. intros Hin. apply H1. by apply (sublist_in _ _ _ H).
Qed.
Lemma source_sym_in ts p r q ps bd : CFun r q ps bd ∈ p -> fun_symbol ts q ps ∈ source_symbols ts p.
Proof. intros H. unfold source_symbols. apply elem_of_list_omap. eexists. by split. Qed.
Lemma fun_symbol_ext ts q ps ps' : map fst ps = map fst ps' -> fun_symbol ts q ps = fun_symbol ts q ps'.
Proof. intros H. unfold fun_symbol. f_equal. rewrite <- !(map_map fst (full_type ts (removelast q))). by rewrite H. Qed.
Lemma class_sym_in ts p s : s ∈ class_symbols ts p -> exists c f r ps fs ms, CClass c fs ms ∈ p /\ MMethod r f ps ∈ ms /\ s = fun_symbol ts [c; f] ps.
Proof.
  unfold class_symbols. intros H. apply elem_of_list_In, in_concat in H as (l & Hl & Hs). apply in_map_iff in Hl as (i & <- & Hi).
  destruct i as [| | |c fs ms|]; try (by destruct Hs). apply elem_of_list_In in Hs. unfold method_symbols in Hs. apply elem_of_list_omap in Hs as (m & Hm & E).
  destruct m as [|r f ps|]; try discriminate E. injection E as <-. exists c, f, r, ps, fs, ms. split; [by apply elem_of_list_In|done].
Qed.

(** ** C89: the sources of a test link *)
(** With main.cpp including convert.h, rtcg.cpp, and a convert.cpp that defines the functions [user]: the link works
    exactly if convert.cpp defines, once each, the conversion functions of the channels with a type of their own and
    none of the others. *)
Theorem C89_links : forall b root b' types cfg name date tests v,
  good_tree root -> build b root = Ok b' -> supported types root -> lists_tests (b_stm b') tests ->
  spellable root -> unambiguous root tests -> header_texts name date (cc_includes cfg) -> readable (process cfg types) -> no_macros types root tests ->
  (v = VRos -> publishers_distinct root /\ topics_distinct root) ->
  (forall a c, a ∈ dom types -> c ∈ dom types -> upcase_first a = upcase_first c -> a = c) ->
  exists h p d r, read_header (convert_text v (process cfg types)) = Some h /\ read_cpp (main_text v name date (b_stm b') (process cfg types) tests) = Some p /\
    read_decls prelude_h = Some d /\ read_source prelude_cpp = Some r /\
    let declared := declared_types d in
    let own := source_symbols declared p ++ source_symbols declared r in
    (forall s, s ∈ header_symbols declared d -> s ∈ own) /\ (forall s, s ∈ class_symbols declared p -> s ∈ own) /\
    (forall q n, (q, n) ∈ lib_functions -> head q = Some (lit "rtcg") -> exists ts, (q, ts) ∈ own /\ length ts = n) /\
    (exists ts, ([lit "main"], ts) ∈ own) /\
    forall user : list gostr, lit "operator<<" ∉ user ->
      (linkable own (defined h ++ user) /\ (forall f, f ∈ functions h -> f ∈ defined h ++ user) <->
       NoDup user /\ lit "main" ∉ user /\
       forall c, c ∈ dom types -> forall f, f = lit "from" ++ upcase_first c \/ f = lit "to" ++ upcase_first c -> (f ∈ user <-> default [] (last_override cfg c) <> [])).
Proof.
  intros b root b' types cfg name date tests v Hg Hb Hs Hl Hsp Hu Hh Hr Hnm Hros Hap.
  set (ctx := process cfg types) in *. destruct (C55_process cfg types (map_to_list types) ltac:(done)) as (_ & _ & Ed & Ec & _).
  destruct (C74_header v ctx Hr) as (h & Eh & _ & _ & Hf).
  pose proof (text_reads b root b' types cfg name date tests v Hg Hb Hs Hl Hsp Hh) as Ep.
  pose proof (text_nodup b root b' types cfg name tests v Hg Hb Hs Hl Hu) as Hnp.
  pose proof (static_ok b root b' types cfg name date tests v Hg Hb Hs Hl Hsp Hu Hh Hr Hnm Hros) as Hst.
  assert (Hh' : header_items v ctx = h). { pose proof (header_read v ctx (readable_good ctx Hr)) as E. pose proof (eq_trans (eq_sym Eh) E) as E'. by injection E'. }
  fold ctx in Ep, Hnp, Hst, Ed, Ec. rewrite Hh' in Hst. set (p := main_items v name (b_stm b') ctx tests) in *.
  exists h, p, the_decls, the_source. split; [done|]. split; [exact Ep|]. split; [exact decls_read|]. split; [exact source_read|]. intros declared own.
  assert (Hmain : [lit "main"] ∈ fun_names p).
  { unfold p. rewrite main_fun_names. rewrite elem_of_cons, elem_of_app, elem_of_cons, elem_of_app, elem_of_list_singleton. auto 10. }
  assert (Hmain' : exists ts, ([lit "main"], ts) ∈ own).
  { rewrite <- (source_names declared) in Hmain. apply elem_of_list_fmap in Hmain as ([q ts] & E & Hin). exists ts. apply elem_of_app. left. cbn [fst] in E. by rewrite E. }
  split; [|split; [|split; [|split]]]; [..|done|].
  - intros s Hin. apply elem_of_app. right. revert s Hin. apply (proj1 (Forall_forall (fun s => s ∈ source_symbols declared the_source) (header_symbols declared the_decls))). apply (bool_decide_eq_true_1 (Forall _ _)). vm_compute. reflexivity.
  - intros s Hin. apply elem_of_app. left. apply class_sym_in in Hin as (c & f & r & ps & fs & ms & Hc & Hm & ->).
    unfold declarations_ok in Hst. apply andb_true_iff in Hst as [_ Hst]. apply elem_of_list_In in Hc, Hm.
    pose proof (proj1 (forallb_forall _ _) Hst _ Hc) as H1. cbn beta iota in H1. pose proof (proj1 (forallb_forall _ _) H1 _ Hm) as H2. unfold method_defined in H2.
    apply existsb_exists in H2 as (j & Hj & H2). destruct j as [| | | |r' q ps' bd]; try discriminate H2. rewrite !andb_true_iff in H2. destruct H2 as [[_ H2] H3].
    apply bool_decide_eq_true in H3. apply bool_decide_eq_true in H2. subst q. rewrite <- (fun_symbol_ext _ _ ps' ps H3). apply (source_sym_in _ _ r' _ _ bd). by apply elem_of_list_In.
  - intros q n Hin. unfold lib_functions in Hin. rewrite !elem_of_cons, elem_of_nil in Hin. 
    destruct Hin as [E|[E|[E|[E|[E|[E|[]]]]]]]; injection E as -> ->; intros E; try discriminate E.
    all: exists [CType false (BName [lit "rtcg"; lit "Status"]) []]; split; [apply elem_of_app; right|reflexivity]; apply (bool_decide_eq_true_1 (_ ∈ _)); vm_compute; reflexivity.
  - assert (Hnown : NoDup own).
    { apply NoDup_app. split; [apply nodup_fst; by rewrite source_names|]. split.
      - intros s H1 H2. apply source_in in H1. apply main_heads in H1. apply prelude_heads in H2. destruct H2 as [E|(x & y & E)]; rewrite E in H1.
        + destruct H1 as [H1|(r & f & H1 & _)]; discriminate H1.
        + destruct H1 as [H1|(r & f & H1 & Hne)]; [discriminate H1|]. by injection H1 as <- _ _.
      - apply (bool_decide_eq_true_1 (NoDup _)). vm_compute. reflexivity. }
    assert (Hsingle : forall f ts, ([f], ts) ∈ own -> f = lit "main" \/ f = lit "operator<<").
    { intros f ts. unfold own. rewrite elem_of_app. intros [H|H].
      - apply source_in, main_heads in H as [H|(r & g & H & _)]; [|discriminate H]. cbn [fst] in H. left. exact (f_equal (hd []) H).
      - apply prelude_heads in H as [H|(x & y & H)]; [|discriminate H]. cbn [fst] in H. right. exact (f_equal (hd []) H). }
    set (ov := fun c => default [] (last_override cfg c)) in *.
    set (conv := fun c f => f = lit "from" ++ upcase_first c \/ f = lit "to" ++ upcase_first c).
    assert (Hfun : forall f, f ∈ functions h <-> exists c, c ∈ dom types /\ conv c f).
    { intros f. rewrite functions_in. split.
      - intros (ret & pt & pn & body & H). apply Hf in H as (c & t & o & Hc & H). exists c. rewrite <- Ed. split; [apply elem_of_dom; by eexists|].
        destruct H as [[-> _]|[-> _]]; [by left|by right].
      - intros (c & Hc & Hcf). apply elem_of_dom in Hc as [t Ht]. apply Ec in Ht. fold (ov c) in Ht.
        assert (Hb' : exists body, ov c <> [] /\ body = None \/ ov c = [] /\ exists b, body = Some b /\ b = if decide (f = lit "from" ++ upcase_first c) then cv_from v t else cv_to v t).
        { destruct (decide (ov c = [])) as [E|E]; [eexists; right; split; [done|]; by eexists|eexists; by left]. }
        destruct Hb' as [body Hb']. destruct (decide (f = lit "from" ++ upcase_first c)) as [Ef|Ef].
        + eexists _, _, _, body. apply Hf. exists c, t, (ov c). split; [done|]. left. split; [done|]. repeat (split; [reflexivity|]). done.
        + destruct Hcf as [Hcf|Hcf]; [done|]. eexists _, _, _, body. apply Hf. exists c, t, (ov c). split; [done|]. right. split; [done|]. repeat (split; [reflexivity|]). done. }
    assert (Hdef : forall f, f ∈ defined h <-> exists c, c ∈ dom types /\ conv c f /\ ov c = []).
    { intros f. rewrite defined_in. split.
      - intros (ret & pt & pn & body & H). apply Hf in H as (c & t & o & Hc & H). exists c. assert (Hd : c ∈ dom types) by (rewrite <- Ed; apply elem_of_dom; by eexists).
        split; [done|]. apply elem_of_dom in Hd as [t' Ht']. apply Ec in Ht'. fold (ov c) in Ht'. assert (o = ov c) as -> by (pose proof (eq_trans (eq_sym Hc) Ht') as E; by injection E).
        destruct H as [(-> & _ & _ & _ & H)|(-> & _ & _ & _ & H)]; destruct H as [[_ H]|[H _]]; try discriminate H; (split; [|done]); [by left|by right].
      - intros (c & Hc & Hcf & Eo). apply elem_of_dom in Hc as [t Ht]. apply Ec in Ht. fold (ov c) in Ht. rewrite Eo in Ht. destruct Hcf as [->| ->].
        + eexists _, _, _, _. apply Hf. exists c, t, []. split; [done|]. left. repeat (split; [reflexivity|]). right. split; [done|]. by eexists.
        + eexists _, _, _, _. apply Hf. exists c, t, []. split; [done|]. right. repeat (split; [reflexivity|]). right. split; [done|]. by eexists. }
    assert (Hnh : NoDup (defined h)).
    { apply (sublist_nodup _ _ (defined_sublist h)). apply (proj1 (C74_distinct v ctx h Hr Eh)). intros a c. rewrite Ed. apply Hap. }
    assert (Hinj : forall a c f, a ∈ dom types -> c ∈ dom types -> conv a f -> conv c f -> a = c).
    { intros a c f Ha Hc H1 H2. apply Hap; [done|done|]. destruct H1 as [->| ->], H2 as [H2|H2]; try discriminate H2; by apply app_inv_head in H2. }
    assert (Hcm : forall c f, conv c f -> f <> lit "main" /\ f <> lit "operator<<") by (intros c f [->| ->]; split; discriminate).
    intros user Huo. split.
    + intros [[_ Hn Hapart] Hall]. apply NoDup_app in Hn as (_ & Hdis & Hn). split; [done|]. split.
      { intros H. destruct Hmain' as [ts Hts]. apply (Hapart (lit "main") ts); [|done]. apply elem_of_app. by right. }
      intros c Hc f Hcf. split.
      * intros Hin Eo. apply (Hdis f); [|done]. apply Hdef. by exists c.
      * intros Eo. assert (Hin : f ∈ defined h ++ user) by (apply Hall, Hfun; by exists c). apply elem_of_app in Hin as [Hin|Hin]; [|done].
        apply Hdef in Hin as (c' & Hc' & Hcf' & Eo'). assert (c' = c) as -> by (by apply (Hinj _ _ f)). done.
    + intros (Hn & Hm & Hall). split; [split; [done| |]|].
      * apply NoDup_app. split; [done|]. split; [|done]. intros f Hf1 Hf2. apply Hdef in Hf1 as (c & Hc & Hcf & Eo). by apply (proj1 (Hall c Hc f Hcf) Hf2).
      * intros f ts Hin Hin'. apply Hsingle in Hin'. apply elem_of_app in Hin as [Hin|Hin].
        -- apply Hdef in Hin as (c & _ & Hcf & _). destruct (Hcm c f Hcf). by destruct Hin'.
        -- destruct Hin' as [->| ->]; done.
      * intros f Hin. apply Hfun in Hin as (c & Hc & Hcf). apply elem_of_app. destruct (decide (ov c = [])) as [Eo|Eo]; [left; apply Hdef; by exists c|right]. by apply (Hall c Hc f Hcf).
Qed.
Print Assumptions C89_links.

(** *** Concrete case: one channel with a type of its own *)
Definition link_config : cpp_config := CppConfig VRos [Include (lit "vector") true] [(lit "d", lit "my::D")] false None.
Lemma link_readable : readable (process link_config branching_types).
Proof.
  destruct (C55_process link_config branching_types (map_to_list branching_types) ltac:(done)) as (_ & Ei & Ed & Ec & _). split.
  - intros c t o Hc. assert (Hd : c ∈ dom branching_types) by (rewrite <- Ed; apply elem_of_dom; by eexists). apply elem_of_dom in Hd as [t' Ht']. pose proof (Ec c t' Ht') as Hc'.
    assert (o = default [] (last_override link_config c)) as -> by (pose proof (eq_trans (eq_sym Hc) Hc') as E; by injection E).
    revert Ht'. unfold branching_types. rewrite lookup_insert_Some, lookup_singleton_Some. intros [[<- _]|[_ [<- _]]]; (split; [by apply plain_identb_ok|]).
    all: match goal with |- macro_text ?x => let y := eval vm_compute in x in change x with y end; split_and!; apply (bool_decide_eq_true_1 (_ ∉ _)); by vm_compute.
  - rewrite Ei. intros i ->%elem_of_list_singleton. cbn [in_src]. split_and!; apply (bool_decide_eq_true_1 (_ ∉ _)); by vm_compute.
Qed.
(** convert.cpp has to define fromD and toD, and may not define the functions of the other channel. *)
Example C89_witness :
  good_tree branching /\ (exists b', build new_builder branching = Ok b' /\ lists_tests (b_stm b') [lit "t"; lit "u"]) /\ supported branching_types branching /\
  spellable branching /\ unambiguous branching [lit "t"; lit "u"] /\ header_texts (lit "test") (lit "today") (cc_includes link_config) /\
  readable (process link_config branching_types) /\ no_macros branching_types branching [lit "t"; lit "u"] /\ publishers_distinct branching /\ topics_distinct branching /\
  (forall a c, a ∈ dom branching_types -> c ∈ dom branching_types -> upcase_first a = upcase_first c -> a = c) /\
  (let links (user : list gostr) := NoDup user /\ lit "main" ∉ user /\
     forall c, c ∈ dom branching_types -> forall f, f = lit "from" ++ upcase_first c \/ f = lit "to" ++ upcase_first c -> (f ∈ user <-> default [] (last_override link_config c) <> []) in
   links [lit "toD"; lit "fromD"; lit "helper"] /\ ~ links [lit "fromD"; lit "helper"] /\ ~ links [lit "toD"; lit "fromD"; lit "toC"]).
Proof.
  destruct C75_witness as (H1 & H2 & H3 & H4 & H5 & H6 & _ & H8 & H9 & H10 & _).
  assert (A : forall c, c ∈ dom branching_types <-> c = lit "c" \/ c = lit "d").
  { intros c. unfold branching_types. rewrite elem_of_dom. split.
    - intros [t Ht]. revert Ht. rewrite lookup_insert_Some, lookup_singleton_Some. intros [[<- _]|[_ [<- _]]]; auto.
    - intros [->| ->]; eexists; vm_compute; reflexivity. }
  split; [exact H1|]. split; [exact H2|]. split; [exact H3|]. split; [exact H4|]. split; [exact H5|]. split; [exact H6|]. split; [exact link_readable|].
  split; [exact H8|]. split; [exact H10|]. split; [exact H9|]. split.
  - intros a c Ha Hc. apply A in Ha as [->| ->], Hc as [->| ->]; try done; discriminate.
  - intros links. split_and!.
    + split; [apply (bool_decide_eq_true_1 (NoDup _)); by vm_compute|]. split; [apply (bool_decide_eq_true_1 (_ ∉ _)); by vm_compute|].
      intros c Hc f Hf. apply A in Hc as [->| ->]; destruct Hf as [->| ->].
      all: split; intros H; revert H; try (change (default [] (last_override link_config (lit "c"))) with (@nil ascii)).
      all: try (intros H; exfalso; by apply H). all: try (intros H _; revert H; apply (bool_decide_eq_true_1 (_ ∉ _)); by vm_compute).
      all: intros _; first [apply (bool_decide_eq_true_1 (_ ∈ _)); by vm_compute|discriminate].
    + intros (_ & _ & H). assert (Hin : lit "toD" ∈ [lit "fromD"; lit "helper"]). { apply (H (lit "d") ltac:(apply A; by right) (lit "toD") ltac:(by right)). discriminate. }
      revert Hin. apply (bool_decide_eq_true_1 (_ ∉ _)). by vm_compute.
    + intros (_ & _ & H). assert (Hin : lit "toC" ∈ [lit "toD"; lit "fromD"; lit "toC"]) by (apply (bool_decide_eq_true_1 (_ ∈ _)); by vm_compute).
      by apply (H (lit "c") ltac:(apply A; by left) (lit "toC") ltac:(by right)) in Hin.
Qed.
