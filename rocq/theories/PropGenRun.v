(** * Property C78: whole runs of rtcg-gen *)
From Verif Require Export SpecGenRun PropGen AggProofs CppProofs.
From Verif Require Export StmProofs.

(** ** Paths *)
Lemma split_clean p : split_all "/" (clean p) = (if is_rooted p then [[]] else []) ++
  (if decide (clean_comps p = []) then if is_rooted p then [[]] else [lit "."] else clean_comps p).
Proof.
  destruct (clean_comps_of p) as (k & ns & E & Ec & Hn & Hk & _). rewrite Ec, E. clear E.
  pose proof (clean_comps_no_slash p) as Hsl. rewrite Ec in Hsl. pose proof (comps_nonempty k ns Hn) as Hne.
  generalize dependent (repeat (lit "..") k ++ ns). intros l _ Hsl Hne. unfold render_path. destruct (is_rooted p) eqn:Er.
  - change (split_all "/" ("/"%char :: join "/" l)) with ([] :: split_all "/" (join "/" l)). cbn [app]. f_equal.
    destruct (decide (l = [])) as [->|Hl]; [done|]. by apply split_join_plain.
  - destruct (decide (l = [])) as [->|Hl]; [done|]. destruct (join "/" l) as [|a r] eqn:Ej; [by apply PathProofs.join_nil in Ej|]. rewrite <- Ej. by apply split_join_plain.
Qed.
Lemma upto_slash_none s : no_slash s -> upto_slash s = [].
Proof.
  destruct s as [|c s]; [done|]. intros H. cbn [upto_slash]. destruct (existsb (Ascii.eqb "/") s || Ascii.eqb c "/") eqn:E; [|done]. exfalso. apply orb_true_iff in E as [E|E].
  - apply existsb_exists in E as (x & Hx & Ex). apply Ascii.eqb_eq in Ex. subst x. apply H. right. by apply elem_of_list_In.
  - apply Ascii.eqb_eq in E. subst c. apply H. left.
Qed.
Lemma upto_slash_app a b : no_slash b -> upto_slash (a ++ "/"%char :: b) = a ++ [ "/"%char ].
Proof.
  intros Hb. induction a as [|c a IH]; cbn [app upto_slash].
  - rewrite orb_true_r. by rewrite upto_slash_none.
  - assert (existsb (Ascii.eqb "/") (a ++ "/"%char :: b) = true) as ->; [|cbn; by rewrite IH].
    apply existsb_exists. exists "/"%char. split; [|done]. apply in_or_app. right. by left.
Qed.
Lemma last_slash s : no_slash s \/ exists a b, s = a ++ "/"%char :: b /\ no_slash b.
Proof.
  induction s as [|c s IH]; [left; intros H; by apply elem_of_nil in H|]. destruct IH as [IH|(a & b & -> & Hb)].
  - destruct (decide (c = "/"%char)) as [->|Hc]; [right; by exists [], s|]. left. intros H. apply elem_of_cons in H as [H|H]; [congruence|by apply IH].
  - right. by exists (c :: a), b.
Qed.
(** The directory of a path is one component up. *)
Lemma resolve_dir cwd q : exists b l, split_all "/" q = l ++ [b] /\ resolve cwd q = walk_comp (resolve cwd (path_dir q)) b.
Proof.
  unfold path_dir. rewrite resolve_clean. destruct (last_slash q) as [H|(a & b & -> & Hb)].
  - exists q, []. split; [by apply split_all_plain|]. rewrite upto_slash_none by done. change (resolve cwd []) with cwd.
    unfold resolve. rewrite split_all_plain by done. cbn [fold_left]. destruct (is_rooted q) eqn:E; [|done]. exfalso. destruct q as [|c q]; [done|]. cbn in E. apply Ascii.eqb_eq in E. subst c. apply H. left.
  - exists b, (split_all "/" a). rewrite split_all_app, (split_all_plain b) by done. split; [done|]. rewrite upto_slash_app by done. unfold resolve.
    assert (Hr : is_rooted (a ++ "/"%char :: b) = is_rooted (a ++ ["/"%char])) by by destruct a. rewrite Hr, !split_all_app, (split_all_plain b) by done.
    rewrite !fold_left_app. done.
Qed.
Lemma dir_of_file f cwd p : wf_fs f -> is_dir f cwd -> has_file f (resolve cwd p) -> resolve cwd (path_dir (clean p)) = removelast (resolve cwd p).
Proof.
  intros Hwf Hcwd [x Hx]. destruct (resolve_dir cwd (clean p)) as (b & l & Hs & Hr). rewrite resolve_clean in Hr. rewrite split_clean in Hs.
  destruct (clean_comps_of p) as (k & ns & _ & Ec & Hn & Hk & Hp). rewrite Ec in Hs.
  destruct (decide (ns = [])) as [->|Hne].
  - exfalso. apply (wf_disjoint _ Hwf _ _ Hx). rewrite Hp, app_nil_r. destruct (is_rooted p); [by left|]. eapply (wf_dirs _ Hwf); [|exact Hcwd]. exists (drop (length cwd - k) cwd). symmetry. apply take_drop.
  - rewrite decide_False in Hs by (intros [_ ?]%app_eq_nil; done). destruct (exists_last Hne) as (ns' & b' & ->). rewrite !app_assoc in Hs. apply app_inj_tail in Hs as [_ <-].
    apply Forall_app in Hn as [_ Hn]. apply Forall_inv in Hn. rewrite Hr, walk_normal by done. by rewrite removelast_last.
Qed.
Lemma stdin_names p : clean p = stdin_path <-> names_stdin p.
Proof. unfold names_stdin. rewrite <- (clean_canonical p (lit "-")). done. Qed.
Lemma here_names p : clean p = lit "." <-> names_here p.
Proof. apply clean_dot. Qed.
Lemma clean_root p : clean p = lit "/" <-> forall here, resolve here p = [].
Proof. change (lit "/") with (clean (lit "/")). rewrite clean_canonical. done. Qed.
Lemma last_dots k ns : Forall normal ns -> last (repeat (lit "..") k ++ ns) = Some (lit "..") <-> ns = [] /\ k <> 0.
Proof.
  intros Hn. destruct (decide (ns = [])) as [->|Hne].
  - rewrite app_nil_r. destruct k as [|k]; [cbn; split; [done|by intros [_ ?]]|]. split; [done|]. intros _.
    replace (repeat (lit "..") (S k)) with (repeat (lit "..") k ++ [lit ".."]); [apply last_snoc|]. induction k as [|k IH]; [done|]. cbn [repeat app] in *. by rewrite IH.
  - destruct (exists_last Hne) as (ns' & b' & ->). rewrite app_assoc, last_snoc. apply Forall_app in Hn as [_ Hn]. apply Forall_inv in Hn as (_ & _ & Hb). split; [congruence|]. intros [H _]. by destruct ns'.
Qed.
Lemma above_names p : undeletable (clean p) = true <-> names_above p.
Proof.
  unfold undeletable, names_above. rewrite orb_true_iff, !bool_decide_eq_true.
  assert (clean (clean p) = clean p) as -> by (apply clean_canonical; intros; apply resolve_clean). rewrite clean_root. apply or_iff_compat_l.
  destruct (clean_comps_of (clean p)) as (k & ns & _ & -> & Hn & Hk & Hp). rewrite last_dots by done.
  assert (Hq : forall here, resolve here p = (if is_rooted (clean p) then [] else take (length here - k) here) ++ ns) by (intros here; by rewrite <- resolve_clean).
  split.
  - intros [-> Hk0]. destruct k as [|k]; [done|]. exists k. intros here. rewrite Hq, app_nil_r. destruct (is_rooted (clean p)); [by specialize (Hk eq_refl)|done].
  - intros (j & Hj). assert (Hns : ns = []).
    { specialize (Hq []). rewrite Hj in Hq. cbn in Hq. destruct ns; [done|]. by destruct (is_rooted (clean p)). }
    split; [done|]. subst ns. intros ->. pose proof (Hq (repeat [] (S j))) as H1. pose proof (Hq (repeat [] (S (S j)))) as H2. rewrite Hj, app_nil_r, repeat_length in H1, H2.
    rewrite Nat.sub_diag in H1. replace (S (S j) - S j) with 1 in H2 by lia. destruct (is_rooted (clean p)); [done|]. done.
Qed.

(** ** Clearing *)
Lemma remove_cleared d f : cleared d f (remove_below d f).
Proof.
  unfold remove_below. split; intros p Hp; cbn [fs_files fs_dirs].
  - split; [|rewrite elem_of_filter; by intros [H _]]. apply map_filter_lookup_None. right. intros x Hx Hn. by apply Hn.
  - rewrite elem_of_filter. split; [|by split; [intros [_ ?]|]]. destruct (fs_files f !! p) as [x|] eqn:E.
    + apply map_filter_lookup_Some. done.
    + apply map_filter_lookup_None. by left.
Qed.
Lemma cleared_unique d f f1 f2 : cleared d f f1 -> cleared d f f2 -> f1 = f2.
Proof.
  intros [A1 A2] [B1 B2]. destruct f1 as [d1 m1], f2 as [d2 m2]. cbn in *. f_equal.
  - apply set_eq. intros p. destruct (decide (d `prefix_of` p)) as [H|H].
    + destruct (A1 p H), (B1 p H). tauto.
    + destruct (A2 p H) as [_ ->], (B2 p H) as [_ ->]. done.
  - apply map_eq. intros p. destruct (decide (d `prefix_of` p)) as [H|H].
    + destruct (A1 p H) as [-> _], (B1 p H) as [-> _]. done.
    + destruct (A2 p H) as [-> _], (B2 p H) as [-> _]. done.
Qed.

(** ** Runs *)
Section Run.
Context (xml : gostr -> option config) (json : gostr -> option stm_suite)
        (ord : stm_suite -> nat -> list (gostr * stm)) (cwd : fpath) (stdin : gostr).
Lemma read_suite_iff f p s : (read_input cwd stdin f (clean p) ≫= json) = Some s <-> reads_suite json cwd stdin f p s.
Proof using Type.
  unfold read_input, reads_suite. destruct (decide (clean p = stdin_path)) as [E|E].
  - apply stdin_names in E as Hn. cbn. split; [intros H; exists stdin; split; [done|by left]|]. intros (text & Ht & [[_ ->]|[? _]]); done.
  - rewrite stdin_names in E. rewrite resolve_clean. unfold file_bytes. split.
    + intros H. destruct (fs_files f !! resolve cwd p) as [[text| | | | | | |]|] eqn:Ef; try done. cbn in H. exists text. split; [done|by right].
    + intros (text & Ht & [[? _]|[_ Hf]]); [done|]. by rewrite Hf.
Qed.
Lemma load_reads f f1 p c : wf_fs f -> is_dir f cwd -> (forall q, has_file f1 q -> has_file f q) ->
  load_config xml cwd f1 (clean p) = Some c -> reads_config xml cwd f1 p c.
Proof using Type.
  intros Hwf Hcwd Hsub. unfold load_config. rewrite resolve_clean. unfold file_bytes. destruct (fs_files f1 !! resolve cwd p) as [x|] eqn:Ef; [|done].
  destruct x as [text| | | | | | |]; try done. cbn. destruct (xml text) as [c0|] eqn:Ex; [|done]. intros [= <-]. exists text, c0. cbn [cf_cpps cf_dir].
  destruct (decide (cf_dir c0 = [])) as [E|E]; split_and!; try done. intros _. apply (dir_of_file f); [done|done|]. apply Hsub. by eexists.
Qed.
Lemma load_none f p : load_config xml cwd f (clean p) = None -> forall c, ~ reads_config xml cwd f p c.
Proof using Type.
  unfold load_config. rewrite resolve_clean. unfold file_bytes. intros H c (text & c0 & Hf & Hx & _). rewrite Hf in H. cbn in H. by rewrite Hx in H.
Qed.
Lemma cleared_sub d f f1 : cleared d f f1 -> forall q, has_file f1 q -> has_file f q.
Proof using Type.
  intros [A B] q [x Hx]. destruct (decide (d `prefix_of` q)) as [H|H]; [destruct (A q H) as [E _]; congruence|]. destruct (B q H) as [E _]. exists x. congruence.
Qed.

(** C78: every run ends in one of five ways, by what was there to read. *)
Theorem C78_outcome : forall a f, wf_fs f -> is_dir f cwd ->
  gen_run xml json ord cwd stdin a f (run_gen xml json ord cwd stdin a f).1 (run_gen xml json ord cwd stdin a f).2.
Proof using Type.
  intros a f Hwf Hcwd. unfold run_gen. destruct (read_input cwd stdin f (clean (ga_input a)) ≫= json) as [s|] eqn:Es.
  2:{ cbn. apply run_no_suite. intros s Hs. apply read_suite_iff in Hs. rewrite Es in Hs. discriminate Hs. }
  apply read_suite_iff in Es.
  assert (Hgen : forall f1, prepared cwd a f f1 -> (forall q, has_file f1 q -> has_file f q) ->
    let r := match load_config xml cwd f1 (clean (ga_config a)) with
             | None => (f1, Some ConfigErr)
             | Some c => match generate cwd c (clean (ga_output a)) s (ord s) f1 with (f', None) => (f', None) | (f', Some e) => (f', Some (GenErr e)) end
             end in gen_run xml json ord cwd stdin a f r.1 r.2).
  { intros f1 Hp Hsub. cbn zeta. destruct (load_config xml cwd f1 (clean (ga_config a))) as [c|] eqn:Ec.
    - pose proof (load_reads f f1 _ c Hwf Hcwd Hsub Ec) as Hc. destruct (generate cwd c (clean (ga_output a)) s (ord s) f1) as [f2 e] eqn:Eg.
      assert (Hr : gen_run xml json ord cwd stdin a f f2 (GenErr <$> e)) by (by eapply run_generated). by destruct e.
    - cbn [fst snd]. eapply run_no_config; [done..|]. by apply load_none. }
  destruct (ga_clean a) eqn:Ea.
  - destruct (decide (clean (ga_output a) = lit ".")) as [E|E].
    + cbn. eapply run_refused; [done..|]. by apply here_names.
    + rewrite here_names in E. rewrite resolve_clean. pose proof (remove_cleared (resolve cwd (ga_output a)) f) as Hr. destruct (undeletable (clean (ga_output a))) eqn:Eu.
      * cbn. eapply run_not_deleted; [done..| |done]. by apply above_names.
      * apply Hgen; [|by eapply cleared_sub]. apply clear; [done..| |done]. rewrite <- above_names. by rewrite Eu.
  - apply Hgen; [by constructor|done].
Qed.

End Run.
Print Assumptions C78_outcome.

(** *** When a run succeeds, and what it leaves *)
Lemma renders_iff v m ctx types : dom (cx_types ctx) = types -> valid_variant v -> renders v m ctx = true <-> printable v types m.
Proof.
  intros Hdom Hv. unfold renders. destruct (make_transitions_spec m) as (_ & _ & _ & Hout & _ & _ & Hget & Hkey). rewrite Hout. set (tc := make_transitions m) in *.
  rewrite !andb_true_iff, negb_true_iff, bool_decide_eq_false.
  assert (Hacc : bool_decide (is_Some (gen_accept (range_map (tc_in_merged tc)))) = true <-> forall id, is_Some (tc_in_merged tc !! id) -> sm_get (tc_in_merged tc) id <> []).
  { rewrite bool_decide_eq_true.
    assert (Hl : forall l, is_Some (gen_accept l) <-> Forall (fun kv => kv.2 <> []) l).
    { induction l as [|[k [|t ts]] l IH]; cbn [gen_accept].
      - split; [by constructor|by eexists].
      - split; [by intros [? ?]|]. intros H. by apply Forall_inv in H.
      - rewrite Forall_cons, <- IH. destruct (gen_accept l); split; [by intros _; split|by eexists|by intros [? ?]|by intros [_ [? ?]]]. }
    rewrite Hl, Forall_forall. split.
    - intros H id [ts Hts]. unfold sm_get. rewrite Hts. apply (H (id, ts)). by apply CppProofs.range_map_elem.
    - intros H [id ts] Hin. apply CppProofs.range_map_elem in Hin. specialize (H id). unfold sm_get in H. rewrite Hin in H. apply H. by eexists. }
  rewrite Hacc.
  assert (Hin : (forall id, is_Some (tc_in_merged tc !! id) -> sm_get (tc_in_merged tc) id <> []) <->
    (forall s ts, s ∈ m_states m -> input_set s ts -> exists s' ts' t, s' ∈ m_states m /\ st_id s' = st_id s /\ input_set s' ts' /\ t ∈ ts_trans ts')).
  { assert (Hex : forall id, is_Some (tc_in_merged tc !! id) <-> exists s ts, s ∈ m_states m /\ st_id s = id /\ input_set s ts).
    { intros id. rewrite Hkey. split.
      - intros (a & Ha & Hid). apply elem_of_list_filter in Ha as [Hk Ha]. apply (transition_sets_keys m a id Ha) in Hid as (s & Hs & <- & Hc).
        apply elem_of_list_fmap in Hc as (ts & Hc & Hts). exists s, ts. split; [done|]. split; [done|]. split; [done|]. by rewrite <- Hc.
      - intros (s & ts & Hs & <- & Hts & Hk). assert (Hc : ts_chan ts ∈ map ag_chan (transition_sets m)).
        { rewrite transition_sets_chans, firsts_elem, <- flat_chans. apply flat_chan. exists s. split; [done|]. apply elem_of_list_fmap. by exists ts. }
        apply elem_of_list_fmap in Hc as (a & Ec & Ha). exists a. split; [apply elem_of_list_filter; split; [by rewrite <- Ec|done]|].
        apply (transition_sets_keys m a _ Ha). exists s. split; [done|]. split; [done|]. rewrite <- Ec. apply elem_of_list_fmap. by exists ts. }
    assert (Hne : forall id, sm_get (tc_in_merged tc) id <> [] <-> exists s ts t, s ∈ m_states m /\ st_id s = id /\ input_set s ts /\ t ∈ ts_trans ts).
    { intros id. rewrite Hget.
      assert (Hone : forall t, t ∈ concat (map (fun a => sm_get (ag_states a) id) (ins (transition_sets m))) <-> exists s ts, s ∈ m_states m /\ st_id s = id /\ input_set s ts /\ t ∈ ts_trans ts).
      { intros t. rewrite elem_of_list_In, in_concat. setoid_rewrite in_map_iff. split.
        - intros (l & (a & <- & Ha) & Ht). apply elem_of_list_In, elem_of_list_filter in Ha as [Hk Ha]. rewrite (transition_sets_get m a id Ha) in Ht. unfold trans_at in Ht.
          apply in_concat in Ht as (l & Hl & Ht). apply in_map_iff in Hl as (s & <- & Hs). apply elem_of_list_In, elem_of_list_filter in Hs as [Hi Hs]. unfold trans_on in Ht.
          apply in_concat in Ht as (l & Hl & Ht). apply in_map_iff in Hl as (ts & <- & Hts). apply elem_of_list_In, elem_of_list_filter in Hts as [Hc Hts].
          exists s, ts. split; [done|]. split; [done|]. split; [split; [done|by rewrite Hc]|by apply elem_of_list_In].
        - intros (s & ts & Hs & Hi & [Hts Hk] & Ht). assert (Hc : ts_chan ts ∈ map ag_chan (transition_sets m)).
          { rewrite transition_sets_chans, firsts_elem, <- flat_chans. apply flat_chan. exists s. split; [done|]. apply elem_of_list_fmap. by exists ts. }
          apply elem_of_list_fmap in Hc as (a & Ec & Ha). exists (sm_get (ag_states a) id). split.
          + exists a. split; [done|]. apply elem_of_list_In, elem_of_list_filter. split; [by rewrite <- Ec|done].
          + rewrite (transition_sets_get m a id Ha). unfold trans_at. apply in_concat. exists (trans_on s (ag_chan a)). split.
            * apply in_map_iff. exists s. split; [done|]. apply elem_of_list_In, elem_of_list_filter. done.
            * unfold trans_on. apply in_concat. exists (ts_trans ts). split; [|by apply elem_of_list_In]. apply in_map_iff. exists ts. split; [done|]. by apply elem_of_list_In, elem_of_list_filter. }
      split.
      - intros Hn. destruct (concat _) as [|t l] eqn:E; [done|]. destruct (proj1 (Hone t)) as (s & ts & H); [left|]. exists s, ts, t. tauto.
      - intros (s & ts & t & H) E. assert (Ht : t ∈ concat (map (fun a => sm_get (ag_states a) id) (ins (transition_sets m)))) by (apply Hone; exists s, ts; tauto).
        rewrite E in Ht. by apply elem_of_nil in Ht. }
    split.
    - intros H s ts Hs Hi. specialize (H (st_id s)). rewrite Hex, Hne in H. destruct H as (s' & ts' & t & H); [by exists s, ts|]. exists s', ts', t. tauto.
    - intros H id Hid. apply Hex in Hid as (s & ts & Hs & <- & Hi). apply Hne. destruct (H s ts Hs Hi) as (s' & ts' & t & H'). exists s', ts', t. tauto. }
  rewrite Hin.
  assert (Hty : match v with VAnimate => forallb (fun a => bool_decide (is_Some (cx_types ctx !! ch_name (ag_chan a)))) (outs (transition_sets m)) | _ => true end = true <->
    (v = VAnimate -> forall s ts, s ∈ m_states m -> ts ∈ st_tsets s -> ch_kind (ts_chan ts) <> KIn -> ch_name (ts_chan ts) ∈ types)).
  { destruct Hv as [->| ->]; [|split; [intros _ E; discriminate E|done]]. rewrite forallb_forall. split.
    - intros H _ s ts Hs Hts Hk. assert (Hc : ts_chan ts ∈ map ag_chan (transition_sets m)).
      { rewrite transition_sets_chans, firsts_elem, <- flat_chans. apply flat_chan. exists s. split; [done|]. apply elem_of_list_fmap. by exists ts. }
      apply elem_of_list_fmap in Hc as (a & Ec & Ha). specialize (H a). rewrite bool_decide_eq_true, <- Ec in H. rewrite <- Hdom. apply elem_of_dom. apply H.
      apply elem_of_list_In, elem_of_list_filter. split; [by rewrite <- Ec|done].
    - intros H a Ha. specialize (H eq_refl). apply elem_of_list_In, elem_of_list_filter in Ha as [Hk Ha]. apply bool_decide_eq_true.
      assert (Hc : ag_chan a ∈ map ag_chan (transition_sets m)) by (apply elem_of_list_fmap; by exists a). rewrite transition_sets_chans, firsts_elem, <- flat_chans in Hc.
      apply flat_chan in Hc as (s & Hs & Hc). apply elem_of_list_fmap in Hc as (ts & Ec & Hts). rewrite Ec in *. apply elem_of_dom. rewrite Hdom. by eapply H. }
  rewrite Hty. split; [intros [[? ?] ?]; by constructor|intros [? ? ?]; done].
Qed.
Lemma supplied_iff cwd c s f : (forall cc, cc ∈ cf_cpps c -> valid_variant (cc_variant cc)) -> complete cwd c s f <-> supplied cwd c s f.
Proof.
  intros Hv. unfold complete, supplied.
  assert (Hr : forall cc m, cc ∈ cf_cpps c -> renders (cc_variant cc) m (process cc (su_types s)) = true <-> printable (cc_variant cc) (dom (su_types s)) m).
  { intros cc m Hcc. apply renders_iff; [|by apply Hv]. exact (proj1 (proj2 (proj2 (C55_process cc (su_types s) _ (reflexivity _))))). }
  split; intros H cc Hcc; destruct (H cc Hcc) as (A & B & C); (split; [done|]); (split; [done|]); intros name m Hm; by apply (Hr cc m Hcc), (C name m Hm).
Qed.

Lemma reads_same xml f f1 cwd p c c' : wf_fs f -> is_dir f cwd -> (forall q, has_file f1 q -> has_file f q) -> reads_config xml cwd f1 p c -> load_config xml cwd f1 (clean p) = Some c' ->
  cf_cpps c' = cf_cpps c /\ resolve cwd (cf_dir c') = resolve cwd (cf_dir c).
Proof.
  intros Hwf Hcwd Hsub (text & c0 & Hf & Hx & Hc & H1 & H2) Hl. pose proof (load_reads xml cwd f f1 p c' Hwf Hcwd Hsub Hl) as (text' & c0' & Hf' & Hx' & Hc' & H1' & H2').
  rewrite Hf in Hf'. injection Hf' as <-. rewrite Hx in Hx'. injection Hx' as <-. split; [congruence|]. destruct (decide (cf_dir c0 = [])) as [E|E]; [by rewrite H2, H2'|by rewrite H1, H1'].
Qed.
Lemma prepared_files cwd a f f1 p : prepared cwd a f f1 -> (ga_clean a = false -> unused f (resolve cwd (ga_output a))) ->
  forall x, fs_files f1 !! p = Some x <-> ~ resolve cwd (ga_output a) `prefix_of` p /\ fs_files f !! p = Some x.
Proof.
  intros Hp Hu x. destruct Hp as [Ha|f1 Ha _ _ [H1 H2]].
  - destruct (Hu Ha) as [Hf _]. split; [|by intros [_ ?]]. intros H. split; [|done]. by apply (Hf p x).
  - destruct (decide (resolve cwd (ga_output a) `prefix_of` p)) as [H|H].
    + destruct (H1 p H) as [-> _]. split; [done|by intros [? _]].
    + destruct (H2 p H) as [-> _]. tauto.
Qed.
Lemma prepared_unused cwd a f f1 : prepared cwd a f f1 -> (ga_clean a = false -> unused f (resolve cwd (ga_output a))) ->
  (ga_clean a = true -> forall p, p `prefix_of` resolve cwd (ga_output a) -> p <> resolve cwd (ga_output a) -> ~ has_file f p) -> unused f1 (resolve cwd (ga_output a)).
Proof.
  intros Hp Hu Hpar. destruct Hp as [Ha|f1 Ha Hh Hab Hcl]; [by apply Hu|].
  pose proof (prepared_files cwd a f f1) as Hfiles. split.
  - intros p x Hx. apply (Hfiles p) in Hx as [H1 H2]; [|by apply clear|by rewrite Ha]. split; [done|]. intros Hpre. apply (Hpar Ha p Hpre); [by intros ->|by exists x].
  - intros p Hin Hpre. destruct Hcl as [H1 _]. by destruct (H1 p Hpre).
Qed.
(** C78: it succeeds exactly if everything needed is there, and leaves exactly the files that are
    to be generated and the user's files outside the output directory. *)
Theorem C78_succeeds : forall xml json ord cwd stdin a f s f1 c f' e,
  wf_fs f -> is_dir f cwd -> (forall s, orders s (ord s)) ->
  reads_suite json cwd stdin f (ga_input a) s -> prepared cwd a f f1 -> reads_config xml cwd f1 (ga_config a) c ->
  sane c s -> separate cwd c (ga_output a) ->
  (ga_clean a = false -> unused f (resolve cwd (ga_output a))) ->
  (ga_clean a = true -> forall p, p `prefix_of` resolve cwd (ga_output a) -> p <> resolve cwd (ga_output a) -> ~ has_file f p) ->
  run_gen xml json ord cwd stdin a f = (f', e) ->
  (e = None <-> supplied cwd c s f1) /\
  (e = None -> forall p x, fs_files f' !! p = Some x <->
     expected cwd c (ga_output a) s f1 p x \/ (~ resolve cwd (ga_output a) `prefix_of` p /\ fs_files f !! p = Some x)).
Proof.
  intros xml json ord cwd stdin a f s f1 c f' e Hwf Hcwd Ho Hs Hp Hc Hsane Hsep Hu Hpar E.
  assert (Hsub : forall q, has_file f1 q -> has_file f q).
  { intros q [x Hx]. apply (prepared_files cwd a f f1 q Hp Hu) in Hx as [_ Hx]. by exists x. }
  destruct (load_config xml cwd f1 (clean (ga_config a))) as [c'|] eqn:El.
  2:{ destruct (load_none xml cwd f1 _ El c Hc). }
  destruct (reads_same xml f f1 cwd _ c c' Hwf Hcwd Hsub Hc El) as [Hcc Hdir].
  assert (Er : run_gen xml json ord cwd stdin a f = match generate cwd c' (clean (ga_output a)) s (ord s) f1 with (f', None) => (f', None) | (f', Some e) => (f', Some (GenErr e)) end).
  { unfold run_gen. apply read_suite_iff in Hs. rewrite Hs. destruct Hp as [Ha|f1 Ha Hh Hab Hcl].
    - rewrite Ha, El. done.
    - rewrite Ha. rewrite decide_False by (rewrite here_names; done). destruct (undeletable (clean (ga_output a))) eqn:Eu; [by apply above_names in Eu|].
      rewrite resolve_clean, (cleared_unique _ _ _ _ (remove_cleared _ f) Hcl), El. done. }
  rewrite Er in E. clear Er. destruct (generate cwd c' (clean (ga_output a)) s (ord s) f1) as [f2 e2] eqn:Eg.
  assert (Hsane' : sane c' s) by (destruct Hsane; constructor; by rewrite ?Hcc).
  assert (Hsep' : separate cwd c' (clean (ga_output a))) by (unfold separate in *; by rewrite Hdir, resolve_clean).
  assert (Hun : unused f1 (resolve cwd (clean (ga_output a)))) by (rewrite resolve_clean; by eapply prepared_unused).
  assert (Hsrc : forall cc, conv_source cwd c' cc = conv_source cwd c cc) by (intros cc; unfold conv_source; by rewrite Hdir).
  pose proof (C49_succeeds_iff cwd c' _ s (ord s) f1 f2 e2 Hsane' Hsep' (Ho s) Hun Eg) as Hok.
  assert (Hee : (e = None <-> e2 = None) /\ f' = f2) by (destruct e2; injection E as <- <-; (split; [split; done|done])). destruct Hee as [Hee ->]. split.
  - rewrite Hee, Hok, supplied_iff by (apply (sane_variants _ _ Hsane')). unfold supplied. rewrite Hcc. by setoid_rewrite Hsrc.
  - intros He p x. apply Hee in He. subst e2. rewrite (C49_success_files cwd c' _ s (ord s) f1 f2 Hsane' Hsep' (Ho s) Eg p x).
    assert (Hex : forall y, expected cwd c' (clean (ga_output a)) s f1 p y <-> expected cwd c (ga_output a) s f1 p y).
    { intros y. unfold expected. rewrite Hcc, resolve_clean. by setoid_rewrite Hsrc. }
    rewrite Hex. rewrite (prepared_files cwd a f f1 p Hp Hu x). split.
    + intros [H|[_ H]]; [by left|by right].
    + intros [H|[H1 H2]]; [by left|]. right. split; [|done]. intros y Hy. apply Hex in Hy as (cc & r & _ & -> & _). apply H1. by exists (variant_string (cc_variant cc) :: r).
Qed.
Print Assumptions C78_succeeds.
(** In particular a machine without states makes the run fail, in every variant. *)
Theorem C78_empty_machine : forall cwd c out s ord f f' e cc name m,
  sane c s -> separate cwd c out -> orders s ord -> unused f (resolve cwd out) -> generate cwd c out s ord f = (f', e) ->
  cc ∈ cf_cpps c -> su_tests s !! name = Some m -> m_states m = [] -> e <> None.
Proof.
  intros cwd c out s ord f f' e cc name m Hs Hsep Ho Hu E Hcc Hm Hst He. apply (C49_succeeds_iff cwd c out s ord f f' e Hs Hsep Ho Hu E) in He.
  apply supplied_iff in He; [|apply (sane_variants _ _ Hs)]. destruct (He cc Hcc) as (_ & _ & H). by destruct (H name m Hm) as [Hne _ _].
Qed.

(** *** Witness: cleaning an old output and generating again, from a configuration that leaves its
    directory out *)
Definition list_fs (ds : list fpath) (fls : list (fpath * content)) : fs := Fs (list_to_set ds) (list_to_map fls).
Definition wf_listb (ds : list fpath) (fls : list (fpath * content)) : bool :=
  forallb (fun q => forallb (fun i => bool_decide (take i q = [] \/ take i q ∈ ds)) (seq 0 (S (length q)))) ds &&
  forallb (fun pc => bool_decide (removelast pc.1 = [] \/ removelast pc.1 ∈ ds) && negb (bool_decide (pc.1 = [] \/ pc.1 ∈ ds))) fls.
Lemma wf_listb_ok ds fls : wf_listb ds fls = true -> wf_fs (list_fs ds fls).
Proof.
  unfold wf_listb, list_fs. rewrite andb_true_iff, !forallb_forall. intros [H1 H2].
  assert (Hf : forall p c, (list_to_map fls : gmap fpath content) !! p = Some c -> (p, c) ∈ fls) by (intros p c; apply elem_of_list_to_map_2).
  split; unfold is_dir; cbn [fs_dirs fs_files].
  - intros p q [k ->]. rewrite !elem_of_list_to_set. intros [E|Hq]; [apply app_eq_nil in E as [-> _]; by left|].
    apply elem_of_list_In in Hq. specialize (H1 _ Hq). rewrite forallb_forall in H1. specialize (H1 (length p)). rewrite take_app in H1. apply bool_decide_eq_true in H1; [done|].
    apply in_seq. rewrite app_length. lia.
  - intros p c Hp%Hf%elem_of_list_In. specialize (H2 _ Hp). apply andb_true_iff in H2 as [H2 _]. apply bool_decide_eq_true in H2. rewrite elem_of_list_to_set. done.
  - intros p c Hp%Hf%elem_of_list_In. specialize (H2 _ Hp). apply andb_true_iff in H2 as [_ H2]. apply negb_true_iff, bool_decide_eq_false in H2. rewrite elem_of_list_to_set. done.
Qed.
Definition run_dirs : list fpath :=
  prefixes (removelast (ex_source (lit "animate"))) ++ prefixes (removelast (ex_source (lit "ros"))) ++ [[lit "home"; lit "out"]].
Definition run_files : list (fpath * content) :=
  [(ex_source (lit "animate"), Bytes (lit "A")); (ex_source (lit "ros"), Bytes (lit "R")); ([lit "home"; lit "in"; lit "rtcg.xml"], Bytes (lit "config"));
   ([lit "home"; lit "suite.json"], Bytes (lit "suite")); ([lit "home"; lit "out"; lit "old"], Bytes (lit "old"))].
Definition run_xml (s : gostr) : option config := if decide (s = lit "config") then Some (Config (cf_cpps ex_config) []) else None.
Definition run_json (s : gostr) : option stm_suite := if decide (s = lit "suite") then Some ex_suite else None.
Definition run_ord (s : stm_suite) (n : nat) : list (gostr * stm) := map_to_list (su_tests s).
Definition run_act : gen_action := GenAction true (lit "./out") (lit "in/./rtcg.xml") (lit "suite.json").
Definition run_fs : fs := list_fs run_dirs run_files.
Lemma run_wf : wf_fs run_fs.
Proof. apply wf_listb_ok. vm_compute. reflexivity. Qed.
Example C78_witness : wf_fs run_fs /\ is_dir run_fs ex_home /\ (forall s, orders s (run_ord s)) /\
  reads_suite run_json ex_home [] run_fs (ga_input run_act) ex_suite /\
  prepared ex_home run_act run_fs (remove_below (resolve ex_home (ga_output run_act)) run_fs) /\
  reads_config run_xml ex_home (remove_below (resolve ex_home (ga_output run_act)) run_fs) (ga_config run_act) (Config (cf_cpps ex_config) (lit "in")) /\
  sane (Config (cf_cpps ex_config) (lit "in")) ex_suite /\ separate ex_home (Config (cf_cpps ex_config) (lit "in")) (ga_output run_act) /\
  (forall p, p `prefix_of` resolve ex_home (ga_output run_act) -> p <> resolve ex_home (ga_output run_act) -> ~ has_file run_fs p) /\
  (run_gen run_xml run_json run_ord ex_home [] run_act run_fs).2 = None /\
  (* the old file is gone, the new ones are there *)
  file_bytes run_fs [lit "home"; lit "out"; lit "old"] = Some (lit "old") /\
  fs_files (run_gen run_xml run_json run_ord ex_home [] run_act run_fs).1 !! [lit "home"; lit "out"; lit "old"] = None /\
  file_bytes (run_gen run_xml run_json run_ord ex_home [] run_act run_fs).1 [lit "home"; lit "out"; lit "ros"; lit "src"; lit "convert"; lit "convert.cpp"] = Some (lit "R").
Proof.
  split; [apply run_wf|]. split; [right; refine (bool_decide_eq_true_1 _ _); vm_compute; reflexivity|]. split; [by intros s i|]. split_and!.
  - exists (lit "suite"). split; [done|]. right. split; [|vm_compute; reflexivity]. intros H. specialize (H []). discriminate H.
  - apply clear; [done| | |apply remove_cleared].
    + intros H. specialize (H []). discriminate H.
    + intros H. apply above_names in H. vm_compute in H. discriminate H.
  - exists (lit "config"), (Config (cf_cpps ex_config) []). split_and!; [vm_compute; reflexivity|done|done|done|]. intros _. vm_compute. reflexivity.
  - destruct ex_sane as [H1 H2 H3]. constructor; [exact H1|exact H2|exact H3].
  - refine (bool_decide_eq_false_1 _ _). vm_compute. reflexivity.
  - intros p Hp Hne. change (resolve ex_home (ga_output run_act)) with [lit "home"; lit "out"] in *. destruct Hp as [k Hk]. destruct p as [|a p]; [|injection Hk as <- Hk; destruct p as [|b p]].
    + intros [x Hx]. vm_compute in Hx. discriminate Hx.
    + intros [x Hx]. vm_compute in Hx. discriminate Hx.
    + injection Hk as <- Hk. symmetry in Hk. apply app_eq_nil in Hk as [-> _]. done.
  - vm_compute. reflexivity.
  - vm_compute. reflexivity.
  - vm_compute. reflexivity.
  - vm_compute. reflexivity.
Qed.
(** Each of the other endings happens. *)
Example C78_witness_endings :
  (run_gen run_xml run_json run_ord ex_home [] (GenAction true (lit "out") (lit "in/rtcg.xml") (lit "-")) run_fs).2 = Some ReadSuiteErr /\
  (run_gen run_xml run_json run_ord ex_home (lit "suite") (GenAction true (lit "out/..") (lit "in/rtcg.xml") (lit "-")) run_fs).2 = Some ErrCleanDot /\
  (run_gen run_xml run_json run_ord ex_home (lit "suite") (GenAction true (lit "..") (lit "in/rtcg.xml") (lit "-")) run_fs).2 = Some CleanErr /\
  (run_gen run_xml run_json run_ord ex_home (lit "suite") (GenAction true (lit "in") (lit "in/rtcg.xml") (lit "-")) run_fs).2 = Some ConfigErr /\
  (run_gen run_xml run_json run_ord ex_home (lit "suite") (GenAction false (lit "suite.json") (lit "in/rtcg.xml") (lit "-")) run_fs).2 = Some (GenErr (EMkdir (lit "suite.json/animate/src/rtcg"))).
Proof. split_and!; vm_compute; reflexivity. Qed.
