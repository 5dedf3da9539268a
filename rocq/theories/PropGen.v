(** * Properties C49-C52, C56: what the generator does to the file system *)
From Verif Require Export PropConfig PathProofs.
From Verif Require Export StmProofs.

(** ** Where the operations of the generator go *)
Definition op_target (cwd : fpath) (o : op) : fpath :=
  match o with OpMkdir p => resolve cwd p | OpPrelude _ p => resolve cwd p | OpCopy _ p => resolve cwd p | OpWrite p _ => resolve cwd p end.
Lemma elem_concat_map {A B} (f : A -> list B) l x : x ∈ concat (map f l) <-> exists a, a ∈ l /\ x ∈ f a.
Proof.
  rewrite elem_of_list_In, in_concat. split.
  - intros (k & Hk & Hx). apply in_map_iff in Hk as (a & <- & Ha). exists a. by rewrite !elem_of_list_In.
  - intros (a & Ha & Hx). exists (f a). split; [apply in_map_iff; exists a; split; [done|by apply elem_of_list_In]|by apply elem_of_list_In].
Qed.
Lemma elem_mapi {A B} (f : nat -> A -> list B) l i x : x ∈ concat (mapi_from f i l) -> exists j a, a ∈ l /\ x ∈ f j a.
Proof.
  revert i. induction l as [|a l IH]; intros i; cbn; intros H; [by apply elem_of_nil in H|].
  apply elem_of_app in H as [H|H]; [exists i, a; split; [left|done]|]. destruct (IH _ H) as (j & b & Hb & Hx). exists j, b. split; [by right|done].
Qed.
Lemma gen_ops_elem s ord gs o : o ∈ gen_ops s ord gs -> exists i g, g ∈ gs /\ ((exists d, d ∈ sub_dirs s (ord i) g /\ o = OpMkdir d) \/ o ∈ sub_ops s (ord i) g).
Proof.
  unfold gen_ops. intros H. apply elem_of_app in H as [H|H]; apply elem_mapi in H as (j & g & Hg & H).
  - exists j, g. split; [done|]. left. apply elem_of_list_In, in_map_iff in H as (d & <- & Hd). exists d. by rewrite elem_of_list_In.
  - exists (length gs + j), g. split; [done|by right].
Qed.
Lemma gen_new_elem c out g : g ∈ gen_new c out -> exists cc, cc ∈ cf_cpps c /\ g ∈ init_variant cc (subdir (DirSet (cf_dir c) out) (variant_string (cc_variant cc))).
Proof. unfold gen_new. apply elem_concat_map. Qed.

Lemma variant_plain v : valid_variant v -> plain_name (variant_string v).
Proof. intros [->| ->]; (split; [done|split; [done|split; [done|]]]); intros H; repeat (apply elem_of_cons in H as [H|H]; [discriminate|]); by apply elem_of_nil in H. Qed.
(** Deciding plainness of constants. *)
Lemma plain_lit s : forallb (fun c => negb (Ascii.eqb c "/")) s = true -> s <> [] -> s <> lit "." -> s <> lit ".." -> plain_name s.
Proof.
  intros H H1 H2 H3. split; [done|]. split; [done|]. split; [done|]. intros Hin. rewrite forallb_forall in H.
  apply elem_of_list_In in Hin. apply H in Hin. rewrite Ascii.eqb_refl in Hin. done.
Qed.
Ltac plain := apply plain_lit; [reflexivity|discriminate|discriminate|discriminate].
Ltac plains := repeat (apply Forall_cons; split; [first [done|plain]|]); apply Forall_nil; done.

Lemma out_subdir d x : ds_out (subdir d x) = path_join [ds_out d; x].
Proof. done. Qed.
Lemma in_subdir d x : ds_in (subdir d x) = path_join [ds_in d; x].
Proof. done. Qed.

Section Where.
Context (cwd : fpath) (c : config) (out : gostr).
Definition vdir (cc : cpp_config) : dirset := subdir (DirSet (cf_dir c) out) (variant_string (cc_variant cc)).
Definition vbase (cc : cpp_config) : fpath := resolve cwd out ++ [variant_string (cc_variant cc)].
Lemma vdir_out cc : valid_variant (cc_variant cc) -> resolve cwd (ds_out (vdir cc)) = vbase cc /\ ds_out (vdir cc) <> [].
Proof.
  intros Hv. pose proof (variant_plain _ Hv) as Hp. unfold vdir, subdir, vbase. cbn [ds_out]. split; [|apply path_join_ne'; by destruct Hp]. rewrite resolve_join_plain'; [done|]. by constructor.
Qed.
Lemma sdir_out cc : valid_variant (cc_variant cc) -> resolve cwd (ds_out (subdir (vdir cc) src_dir)) = vbase cc ++ [lit "src"] /\ ds_out (subdir (vdir cc) src_dir) <> [].
Proof.
  intros Hv. destruct (vdir_out cc Hv) as [H1 H2]. rewrite !(out_subdir _ src_dir). split; [|by apply path_join_ne].
  rewrite resolve_join_plain; [by rewrite H1|done|]. constructor; [plain|done].
Qed.
Lemma at_sdir cc l : valid_variant (cc_variant cc) -> Forall plain_name l ->
  resolve cwd (path_join (ds_out (subdir (vdir cc) src_dir) :: l)) = vbase cc ++ lit "src" :: l.
Proof. intros Hv Hl. destruct (sdir_out cc Hv) as [H1 H2]. rewrite resolve_join_plain by done. rewrite H1. by rewrite <- app_assoc. Qed.
Lemma at_prelude cc n : valid_variant (cc_variant cc) -> n ∈ [lit "rtcg.cpp"; lit "rtcg.h"] ->
  resolve cwd (output_path (subdir (vdir cc) src_dir) (path_join [prelude_dir; n])) = vbase cc ++ [lit "src"; lit "rtcg"; n].
Proof.
  intros Hv Hn. destruct (sdir_out cc Hv) as [H1 H2]. unfold output_path. rewrite resolve_join by done. cbn [fold_left]. rewrite H1.
  set (b := vbase cc ++ [lit "src"]). replace (vbase cc ++ [lit "src"; lit "rtcg"; n]) with (b ++ [lit "rtcg"; n]) by (unfold b; by rewrite <- app_assoc).
  clearbody b. apply elem_of_cons in Hn as [->|Hn]; [|apply elem_of_list_singleton in Hn as ->].
  all: vm_compute path_join; vm_compute split_all; cbn [fold_left]; rewrite !walk_normal by (split_and!; discriminate); by rewrite <- app_assoc.
Qed.
(** Inside a test's directory, whatever its name. *)
Definition tbase (cc : cpp_config) (name : gostr) : fpath := walk_to (split_all "/" name) (vbase cc ++ [lit "src"]).
Lemma tdir_out cc name : valid_variant (cc_variant cc) -> resolve cwd (ds_out (subdir (subdir (vdir cc) src_dir) name)) = tbase cc name /\ ds_out (subdir (subdir (vdir cc) src_dir) name) <> [].
Proof.
  intros Hv. destruct (sdir_out cc Hv) as [H1 H2]. rewrite !(out_subdir _ name). split; [|by apply path_join_ne].
  rewrite resolve_join by done. cbn [fold_left]. by rewrite H1.
Qed.
Lemma at_tdir cc name l : valid_variant (cc_variant cc) -> Forall plain_name l ->
  resolve cwd (path_join (ds_out (subdir (subdir (vdir cc) src_dir) name) :: l)) = tbase cc name ++ l.
Proof. intros Hv Hl. destruct (tdir_out cc name Hv) as [H1 H2]. rewrite resolve_join_plain by done. by rewrite H1. Qed.
Lemma at_tdir' cc name f : valid_variant (cc_variant cc) -> plain_name f ->
  resolve cwd (path_join [ds_out (subdir (subdir (vdir cc) src_dir) name); lit ""; f]) = tbase cc name ++ [f].
Proof.
  intros Hv Hf. destruct (tdir_out cc name Hv) as [H1 H2]. rewrite resolve_join by done. rewrite H1. cbn [fold_left split_all lit list_ascii_of_string].
  change (walk_comp (tbase cc name) []) with (tbase cc name). by apply walk_plain.
Qed.
Lemma tbase_plain cc name : plain_name name -> tbase cc name = vbase cc ++ [lit "src"; name].
Proof. intros H. unfold tbase. rewrite walk_plain by done. by rewrite <- app_assoc. Qed.

(** The targets, per configuration. *)
Definition cfg_dirs (s : stm_suite) (order : list (gostr * stm)) (cc : cpp_config) : list fpath :=
  [vbase cc ++ [lit "src"; lit "rtcg"]]
  ++ (if cx_conv (process cc (su_types s)) then [vbase cc ++ [lit "src"; lit "convert"]] else [])
  ++ concat (map (fun t => [tbase cc t.1 ++ [lit "include"]; tbase cc t.1 ++ [lit "src"]]) order).
Lemma sub_dirs_at s order cc : valid_variant (cc_variant cc) ->
  map (resolve cwd) (sub_dirs s order (SCpp cc (subdir (vdir cc) src_dir))) = cfg_dirs s order cc.
Proof.
  intros Hv. cbn [sub_dirs]. unfold cfg_dirs, output_path. rewrite !map_app. f_equal; [|f_equal].
  - cbn [map]. rewrite at_sdir by (done || plains). done.
  - destruct (cx_conv _); [|done]. cbn [map]. rewrite at_sdir by (done || plains). done.
  - rewrite concat_map, map_map. f_equal. apply map_ext. intros t. cbn [map]. rewrite !at_tdir by (done || plains). done.
Qed.
End Where.

(** ** C50: output stays under the output directory *)
Lemma below_refl_trans (o p q : fpath) : o `prefix_of` p -> p `prefix_of` q -> o `prefix_of` q.
Proof. intros. by etransitivity. Qed.
Lemma below_app (o p l : fpath) : o `prefix_of` p -> o `prefix_of` p ++ l.
Proof. intros. by apply prefix_app_r. Qed.
Lemma vbase_below cwd out cc : resolve cwd out `prefix_of` vbase cwd out cc.
Proof. by apply prefix_app_r. Qed.
Lemma tbase_below cwd out cc name : inside_name name -> resolve cwd out `prefix_of` tbase cwd out cc name.
Proof. intros H. etransitivity; [apply vbase_below|]. etransitivity; [|by apply walk_inside]. by apply prefix_app_r. Qed.
Lemma sub_ops_below cwd c out s order cc g o : valid_variant (cc_variant cc) -> (forall t, t ∈ order -> inside_name t.1) -> g ∈ init_variant cc (vdir c out cc) ->
  ((exists d, d ∈ sub_dirs s order g /\ o = OpMkdir d) \/ o ∈ sub_ops s order g) -> resolve cwd out `prefix_of` op_target cwd o.
Proof.
  intros Hv Hin Hg Ho. unfold init_variant in Hg. rewrite !elem_of_app, elem_of_list_singleton in Hg. destruct Hg as [->|[Hg|Hg]].
  - destruct Ho as [(d & Hd & ->)|Ho].
    + assert (Hr : resolve cwd d ∈ map (resolve cwd) (sub_dirs s order (SCpp cc (subdir (vdir c out cc) src_dir)))).
      { apply elem_of_list_In, in_map_iff. exists d. by rewrite <- elem_of_list_In. }
      rewrite sub_dirs_at in Hr by done. cbn [op_target]. unfold cfg_dirs in Hr. rewrite !elem_of_app in Hr. destruct Hr as [Hr|[Hr|Hr]].
      * apply elem_of_list_singleton in Hr as ->. apply below_app, vbase_below.
      * destruct (cx_conv _); [|by apply elem_of_nil in Hr]. apply elem_of_list_singleton in Hr as ->. apply below_app, vbase_below.
      * apply elem_concat_map in Hr as (t & Ht & Hr). rewrite !elem_of_cons in Hr.
        destruct Hr as [->|[->|Hr]]; [| |by apply elem_of_nil in Hr]; apply below_app, tbase_below; by apply Hin.
    + cbn [sub_ops] in Ho. rewrite !elem_of_app in Ho. destruct Ho as [Ho|[Ho|[Ho|Ho]]].
      * apply elem_of_list_In, in_map_iff in Ho as (n & <- & Hn). cbn [op_target]. rewrite at_prelude; [|done|by apply elem_of_list_In]. apply below_app, vbase_below.
      * destruct (cx_conv _); [|by apply elem_of_nil in Ho]. apply elem_of_list_singleton in Ho as ->. cbn [op_target].
        rewrite out_subdir. rewrite resolve_join_plain'; [|plains]. rewrite at_sdir; [|done|plains]. apply below_app, below_app, vbase_below.
      * apply elem_of_list_singleton in Ho as ->. cbn [op_target]. rewrite at_sdir by (done || plains). apply below_app, vbase_below.
      * apply elem_of_list_In, in_map_iff in Ho as (t & <- & Ht). cbn [op_target]. rewrite at_tdir by (done || plains). apply below_app, tbase_below, Hin. by apply elem_of_list_In.
  - destruct (cc_catkin cc) as [p|]; [|by apply elem_of_nil in Hg]. apply elem_of_list_singleton in Hg as ->. destruct Ho as [(d & Hd & ->)|Ho]; [by apply elem_of_nil in Hd|].
    cbn [sub_ops] in Ho. apply elem_concat_map in Ho as (t & Ht & Ho). rewrite !elem_of_cons in Ho. destruct Ho as [->|[->|Ho]]; [| |by apply elem_of_nil in Ho].
    all: cbn [op_target]; first [rewrite at_tdir by (done || plains)|rewrite at_tdir' by (done || plain)]; apply below_app, tbase_below; by apply Hin.
  - destruct (cc_makefile cc) eqn:Em; [|by apply elem_of_nil in Hg]. apply elem_of_list_singleton in Hg as ->. destruct Ho as [(d & Hd & ->)|Ho]; [by apply elem_of_nil in Hd|].
    cbn [sub_ops] in Ho. apply elem_of_list_singleton in Ho as ->. cbn [op_target]. destruct (vdir_out cwd c out cc Hv) as [H1 H2].
    rewrite resolve_join_plain' by plains. rewrite H1. apply below_app, vbase_below.
Qed.

Lemma prefixes_elem (p q : fpath) : q ∈ prefixes p <-> q `prefix_of` p /\ q <> [].
Proof.
  unfold prefixes. rewrite elem_of_list_In, in_map_iff. split.
  - intros (i & <- & Hi). apply in_seq in Hi. split; [exists (drop i p); by rewrite take_drop|]. destruct p; [cbn in Hi; lia|]. destruct i; [lia|done].
  - intros [[l ->] Hq]. exists (length q). rewrite take_app. split; [done|]. apply in_seq. rewrite app_length. destruct q; [done|]. cbn. lia.
Qed.
Lemma changes_refl d f : changes_only_below d f f.
Proof. split_and!; [done| |done]. intros p _ H. by left. Qed.
Lemma changes_trans d f g h : changes_only_below d f g -> changes_only_below d g h -> changes_only_below d f h.
Proof.
  intros (A1 & A2 & A3) (B1 & B2 & B3). split_and!.
  - intros p Hp. by rewrite B1, A1.
  - intros p Hp Hd. destruct (B2 p Hp Hd) as [H|H]; [by apply A2|by right].
  - intros p Hp. by apply B3, A3.
Qed.
Lemma changes_put d f p x : d `prefix_of` p -> changes_only_below d f (put f p x).
Proof. intros H. split_and!; [|by left|done]. intros q Hq. cbn. rewrite lookup_insert_ne; [done|]. by intros ->. Qed.
Lemma exec_changes cwd d o f : d `prefix_of` op_target cwd o -> changes_only_below d f (exec cwd o f).1.
Proof.
  intros H. destruct o as [p|n p|src dst|p x]; cbn [exec op_target] in *.
  - unfold mkdir_all. destruct (decide _); [apply changes_refl|]. cbn. split_and!; [done| |].
    + intros q Hq [->|Hd]; [left; by left|]. cbn in Hd. rewrite elem_of_union, elem_of_list_to_set, prefixes_elem in Hd.
      destruct Hd as [[Hd _]|Hd]; [|left; by right]. right. destruct (prefix_weak_total q d (resolve cwd p)) as [?|?]; done.
    + intros q [->|Hd]; [by left|right]. cbn. set_solver.
  - destruct (creatable _ _); [by apply changes_put|apply changes_refl].
  - destruct (negb _); [apply changes_refl|]. destruct (creatable _ _); [|apply changes_refl]. cbn [fs_files put].
    destruct (_ !! _); [|by apply changes_put]. eapply changes_trans; by apply changes_put.
  - destruct (creatable _ _); [|apply changes_refl]. destruct x; by apply changes_put.
Qed.
Lemma exec_all_changes cwd d ops f : (forall o, o ∈ ops -> d `prefix_of` op_target cwd o) -> changes_only_below d f (exec_all cwd ops f).1.
Proof.
  revert f. induction ops as [|o ops IH]; intros f H; [apply changes_refl|]. cbn [exec_all].
  pose proof (exec_changes cwd d o f (H o ltac:(left))) as Ho. destruct (exec cwd o f) as [f1 [e|]]; [done|]. eapply changes_trans; [done|]. apply IH. intros x Hx. apply H. by right.
Qed.
Theorem C50_confined : forall cwd c out s ord f f' e,
  (forall cc, cc ∈ cf_cpps c -> valid_variant (cc_variant cc)) -> (forall name, name ∈ dom (su_tests s) -> inside_name name) -> orders s ord ->
  generate cwd c out s ord f = (f', e) -> changes_only_below (resolve cwd out) f f'.
Proof.
  intros cwd c out s ord f f' e Hv Hn Ho E. replace f' with (generate cwd c out s ord f).1 by (by rewrite E). apply exec_all_changes.
  intros o H. apply gen_ops_elem in H as (i & g & Hg & Hop). apply gen_new_elem in Hg as (cc & Hcc & Hg). eapply (sub_ops_below cwd c out s (ord i) cc g o); [by apply Hv| |done|done].
  intros t Ht. apply Hn. rewrite (Ho i) in Ht. destruct t as [n m]. apply elem_of_map_to_list in Ht. apply elem_of_dom. by exists m.
Qed.
Print Assumptions C50_confined.
Definition one_test (name : gostr) : stm_suite := StmSuite ∅ {[ name := Stm [] ∅ ∅ ]}.
Definition one_cpp : config := Config [CppConfig VAnimate [] [] false None] (lit "in").
Example C50_witness : (forall cc, cc ∈ cf_cpps one_cpp -> valid_variant (cc_variant cc)) /\
  (forall name, name ∈ dom (su_tests (one_test (lit "a/b"))) -> inside_name name) /\
  orders (one_test (lit "a/b")) (fun _ => [(lit "a/b", Stm [] ∅ ∅)]) /\
  is_dir (generate [lit "home"] one_cpp (lit "out") (one_test (lit "a/b")) (fun _ => [(lit "a/b", Stm [] ∅ ∅)]) (Fs ∅ ∅)).1 [lit "home"; lit "out"; lit "animate"; lit "src"; lit "a"; lit "b"; lit "include"].
Proof.
  split_and!.
  - intros cc H. apply elem_of_list_singleton in H as ->. by left.
  - intros name H. apply elem_of_dom in H as [m H]. unfold one_test in H. cbn [su_tests] in H. apply lookup_singleton_Some in H as [<- _]. intros H. vm_compute in H. repeat (apply elem_of_cons in H as [H|H]; [discriminate|]). by apply elem_of_nil in H.
  - intros i. change (su_tests _) with ({[ lit "a/b" := Stm [] ∅ ∅ ]} : gmap gostr stm). by rewrite map_to_list_singleton.
  - right. vm_compute. reflexivity.
Qed.
(** A name with .. in it creates directories outside the output directory. *)
Theorem C50_dotdot_refuted : exists cwd c out s ord f f' e p,
  (forall cc, cc ∈ cf_cpps c -> valid_variant (cc_variant cc)) /\ orders s ord /\ generate cwd c out s ord f = (f', e) /\
  ~ resolve cwd out `prefix_of` p /\ ~ p `prefix_of` resolve cwd out /\ ~ is_dir f p /\ is_dir f' p.
Proof.
  exists [lit "home"], one_cpp, (lit "out"), (one_test (lit "../../../x")), (fun _ => [(lit "../../../x", Stm [] ∅ ∅)]), (Fs ∅ ∅).
  eexists _, _, [lit "home"; lit "x"]. split_and!.
  - intros cc H. apply elem_of_list_singleton in H as ->. by left.
  - intros i. change (su_tests _) with ({[ lit "../../../x" := Stm [] ∅ ∅ ]} : gmap gostr stm). by rewrite map_to_list_singleton.
  - apply surjective_pairing.
  - refine (bool_decide_eq_false_1 _ _). vm_compute. reflexivity.
  - refine (bool_decide_eq_false_1 _ _). vm_compute. reflexivity.
  - refine (bool_decide_eq_false_1 _ _). vm_compute. reflexivity.
  - right. vm_compute. reflexivity.
Qed.

(** ** Executing directory creations, then writes *)
Lemma exec_all_app cwd a b f : exec_all cwd (a ++ b) f = match exec_all cwd a f with (f', None) => exec_all cwd b f' | r => r end.
Proof. revert f. induction a as [|o a IH]; intros f; [done|]. cbn. destruct (exec cwd o f) as [f1 [e|]]; [done|]. apply IH. Qed.
Definition all_prefixes (cwd : fpath) (ds : list gostr) : gset fpath := list_to_set (concat (map (fun d => prefixes (resolve cwd d)) ds)).
Definition no_file_above (cwd : fpath) (f : fs) (d : gostr) : Prop := forall q, q ∈ prefixes (resolve cwd d) -> fs_files f !! q = None.
Lemma mkdirs cwd ds f : exists f' e, exec_all cwd (map OpMkdir ds) f = (f', e) /\ fs_files f' = fs_files f /\
  (e = None <-> (forall d, d ∈ ds -> no_file_above cwd f d)) /\
  (e = None -> fs_dirs f' = all_prefixes cwd ds ∪ fs_dirs f).
Proof.
  revert f. induction ds as [|d ds IH]; intros f.
  - exists f, None. split_and!; [done|done| |].
    + split; [|done]. intros _ d Hd. by apply elem_of_nil in Hd.
    + intros _. unfold all_prefixes. cbn. set_solver.
  - cbn [map exec_all exec]. unfold mkdir_all. destruct (decide _) as [Ex|Ex].
    + eexists _, _. split_and!; [done|done| |done]. split; [done|]. intros H. apply Exists_exists in Ex as (q & Hq & [x Hx]). rewrite (H d ltac:(left) q Hq) in Hx. done.
    + set (f1 := Fs _ _). destruct (IH f1) as (f' & e & E & Hf & He & Hd). exists f', e. split_and!; [done|done| |].
      * rewrite He. split.
        -- intros H d' Hd'. apply elem_of_cons in Hd' as [->|Hd']; [|by apply H]. intros q Hq. destruct (fs_files f !! q) as [x|] eqn:Eq; [|done]. exfalso. apply Ex. apply Exists_exists. by exists q.
        -- intros H d' Hd'. apply (H d'). by right.
      * intros H. rewrite (Hd H). unfold f1. cbn [fs_dirs]. unfold all_prefixes. cbn [map concat]. rewrite list_to_set_app_L. set_solver.
Qed.

Definition is_write (o : op) : Prop := match o with OpMkdir _ => False | _ => True end.
(** What a write leaves at its target; [None] if it fails even though the target can be created. *)
Definition wsem (cwd : fpath) (f : fs) (o : op) : fpath * option content :=
  match o with
  | OpMkdir p => (resolve cwd p, None)
  | OpPrelude n p => (resolve cwd p, Some (CPrelude n))
  | OpCopy s d => (resolve cwd d, fs_files f !! resolve cwd s)
  | OpWrite p c => (resolve cwd p, c)
  end.
Definition wok (cwd : fpath) (f : fs) (w : fpath * option content) : Prop := creatable f w.1 = true /\ is_Some w.2.
Definition reads_none_of (cwd : fpath) (o : op) (targets : list fpath) : Prop :=
  match o with OpCopy s _ => resolve cwd s ∉ targets | _ => True end.
Definition put_all (ws : list (fpath * option content)) (m : gmap fpath content) : gmap fpath content :=
  fold_left (fun m w => match w.2 with Some x => <[w.1 := x]> m | None => m end) ws m.
Lemma creatable_dirs f g p : fs_dirs f = fs_dirs g -> creatable f p = creatable g p.
Proof.
  intros H. unfold creatable. assert (forall q, is_dir f q <-> is_dir g q) as Hd by (intros q; unfold is_dir; by rewrite H).
  rewrite (bool_decide_ext _ _ (Hd (removelast p))), (bool_decide_ext _ _ (Hd p)). done.
Qed.
Lemma wsem_target cwd f o : (wsem cwd f o).1 = op_target cwd o.
Proof. by destruct o. Qed.
Lemma exec_write cwd o f : is_write o -> reads_none_of cwd o [op_target cwd o] ->
  exists f' e, exec cwd o f = (f', e) /\ fs_dirs f' = fs_dirs f /\
    (forall p, p <> op_target cwd o -> fs_files f' !! p = fs_files f !! p) /\
    (e = None <-> wok cwd f (wsem cwd f o)) /\
    (e = None -> fs_files f' = put_all [wsem cwd f o] (fs_files f)).
Proof.
  intros Hw Hr. destruct o as [p|n p|src dst|p x]; [done|..]; cbn [exec wsem wok op_target] in *; unfold wok; cbn [fst snd].
  - destruct (creatable f _) eqn:Ec; eexists _, _; (split; [done|]); cbn.
    + split_and!; [done|intros q Hq; by rewrite lookup_insert_ne|split; [by split|done]|done].
    + split_and!; [done|done|split; [done|by intros [? ?]]|done].
  - cbn in Hr. assert (Hne : resolve cwd dst <> resolve cwd src) by (intros E; apply Hr; rewrite E; left).
    destruct (fs_files f !! resolve cwd src) as [x|] eqn:Es.
    + rewrite bool_decide_true by (by eexists). cbn [orb negb]. destruct (creatable f _) eqn:Ec.
      * cbn [fs_files put]. rewrite lookup_insert_ne by done. rewrite Es. eexists _, _. split; [done|]. cbn. split_and!; [done| |split; [by split|done]|].
        -- intros q Hq. by rewrite !lookup_insert_ne.
        -- intros _. by rewrite insert_insert.
      * eexists _, _. split; [done|]. split_and!; [done|done|split; [done|by intros [? ?]]|done].
    + destruct (negb _); [eexists _, _; split; [done|]; split_and!; [done|done|split; [done|by intros [? [??]]]|done]|].
      destruct (creatable f _) eqn:Ec.
      * cbn [fs_files put]. rewrite lookup_insert_ne by done. rewrite Es. eexists _, _. split; [done|]. cbn. split_and!; [done| |split; [done|by intros [? [??]]]|done].
        intros q Hq. by rewrite lookup_insert_ne.
      * eexists _, _. split; [done|]. split_and!; [done|done|split; [done|by intros [? ?]]|done].
  - destruct (creatable f _) eqn:Ec; [destruct x as [x|]|]; eexists _, _; (split; [done|]); cbn.
    + split_and!; [done|intros q Hq; by rewrite lookup_insert_ne|split; [by split|done]|done].
    + split_and!; [done|intros q Hq; by rewrite lookup_insert_ne|split; [done|by intros [? [? ?]]]|done].
    + split_and!; [done|done|split; [done|by intros [? ?]]|done].
Qed.
Lemma writes cwd ops targets f0 : (forall o, o ∈ ops -> is_write o /\ reads_none_of cwd o targets /\ op_target cwd o ∈ targets) ->
  forall f, fs_dirs f = fs_dirs f0 -> (forall p, p ∉ targets -> fs_files f !! p = fs_files f0 !! p) ->
  exists f' e, exec_all cwd ops f = (f', e) /\ fs_dirs f' = fs_dirs f0 /\
    (forall p, p ∉ targets -> fs_files f' !! p = fs_files f0 !! p) /\
    (e = None <-> Forall (fun o => wok cwd f0 (wsem cwd f0 o)) ops) /\
    (e = None -> fs_files f' = put_all (map (wsem cwd f0) ops) (fs_files f)).
Proof.
  induction ops as [|o ops IH]; intros Hops f Hd Hf.
  - exists f, None. split_and!; try done.
  - destruct (Hops o ltac:(left)) as (Hw & Hr & Ht). destruct (exec_write cwd o f Hw) as (f1 & e & E & Hd1 & Hf1 & He & Hfin).
    { destruct o; try done. cbn in *. intros H%elem_of_list_singleton. by rewrite H in Hr. }
    assert (Hs : wsem cwd f o = wsem cwd f0 o). { destruct o; try done. cbn in *. by rewrite Hf. }
    assert (Hwk : wok cwd f (wsem cwd f o) <-> wok cwd f0 (wsem cwd f0 o)). { rewrite Hs. unfold wok. by rewrite (creatable_dirs f f0). }
    assert (Hf1' : forall p, p ∉ targets -> fs_files f1 !! p = fs_files f0 !! p). { intros p Hp. rewrite Hf1; [by apply Hf|]. by intros ->. }
    cbn [exec_all]. rewrite E. destruct e as [e|].
    + exists f1, (Some e). split_and!; [done|by rewrite Hd1|done| |done]. split; [done|]. intros H. apply Forall_cons in H as [H _]. apply Hwk, He in H. done.
    + destruct (IH ltac:(intros x Hx; apply Hops; by right) f1 ltac:(by rewrite Hd1) Hf1') as (f' & e & E' & Hd' & Hf' & He' & Hfin').
      exists f', e. split_and!; [done|done|done| |].
      * rewrite He', Forall_cons. rewrite <- Hwk, <- He. tauto.
      * intros Hn. rewrite (Hfin' Hn), (Hfin eq_refl), Hs. cbn [map put_all fold_left]. done.
Qed.
Lemma put_all_lookup ws m p x : (forall p x y, (p, x) ∈ ws -> (p, y) ∈ ws -> x = y) -> Forall (fun w => is_Some w.2) ws ->
  put_all ws m !! p = Some x <-> (p, Some x) ∈ ws \/ (p ∉ ws.*1 /\ m !! p = Some x).
Proof.
  revert m. induction ws as [|[q y] ws IH]; intros m Hfun Hs.
  - cbn. split; [intros H; right; split; [by apply not_elem_of_nil|done]|]. intros [H|[_ H]]; [by apply elem_of_nil in H|done].
  - apply Forall_cons in Hs as [[z Hz] Hs]. cbn in Hz. subst y. unfold put_all. cbn [fold_left fst snd]. rewrite IH; [|intros ? ? ? ? ?; eapply Hfun; by right|done].
    rewrite fmap_cons, !elem_of_cons. cbn [fst]. split.
    + intros [H|[H1 H2]]; [left; by right|]. destruct (decide (q = p)) as [->|Hne].
      * rewrite lookup_insert in H2. left. left. congruence.
      * rewrite lookup_insert_ne in H2 by done. right. split; [|done]. by intros [->|?].
    + intros [[H|H]|[H1 H2]].
      * injection H as <- <-. destruct (decide (p ∈ ws.*1)) as [Hin|Hin]; [left|right; split; [done|by rewrite lookup_insert]].
        apply elem_of_list_fmap in Hin as ([p' y] & -> & Hin). cbn in *. rewrite (Hfun p' (Some x) y); [done|left|by right].
      * by left.
      * assert (q <> p) by (intros ->; apply H1; by left). right. split; [intros ?; apply H1; by right|]. by rewrite lookup_insert_ne.
Qed.

(** ** The files of one configuration, relative to the variant's directory *)
Definition rel_cpp (src : option content) (s : stm_suite) (cc : cpp_config) (order : list (gostr * stm)) : list (fpath * option content) :=
  let ctx := process cc (su_types s) in
  [([lit "src"; lit "rtcg"; lit "rtcg.cpp"], Some (CPrelude (lit "rtcg.cpp"))); ([lit "src"; lit "rtcg"; lit "rtcg.h"], Some (CPrelude (lit "rtcg.h")))]
  ++ (if cx_conv ctx then [([lit "src"; lit "convert"; lit "convert.cpp"], src)] else [])
  ++ [([lit "src"; lit "convert"; lit "convert.h"], Some (CConvertH (cc_variant cc) ctx))]
  ++ map (fun t => ([lit "src"; t.1; lit "src"; lit "main.cpp"], if renders (cc_variant cc) t.2 ctx then Some (CMain (cc_variant cc) t.1 t.2 ctx) else None)) order.
Definition rel_catkin (p : package) (order : list (gostr * stm)) : list (fpath * option content) :=
  concat (map (fun t => [([lit "src"; t.1; lit "package.xml"], Some (CPackage (expand_package t.1 p)));
                         ([lit "src"; t.1; lit "CMakeLists.txt"], Some (CCMake (expand_package t.1 p)))]) order).
Definition rel_make (s : stm_suite) (cc : cpp_config) : list (fpath * option content) :=
  [([lit "Makefile"], Some (CMakefile (dom (su_tests s)) (cx_conv (process cc (su_types s)))))].
Definition under (b : fpath) (l : list (fpath * option content)) : list (fpath * option content) := map (fun w => (b ++ w.1, w.2)) l.
Lemma source_at cwd c out cc : valid_variant (cc_variant cc) ->
  resolve cwd (path_join [ds_in (subdir (subdir (vdir c out cc) src_dir) convert_dir); lit "convert.cpp"]) = conv_source cwd c cc.
Proof.
  intros Hv. pose proof (variant_plain _ Hv). rewrite !in_subdir. rewrite resolve_join_plain' by plains. unfold vdir. rewrite in_subdir. cbn [ds_in].
  rewrite !resolve_join_plain' by plains. unfold conv_source. by rewrite <- !app_assoc.
Qed.
Section Sem.
Context (cwd : fpath) (c : config) (out : gostr) (s : stm_suite) (f : fs).
Lemma sem_cpp cc order : valid_variant (cc_variant cc) -> (forall t, t ∈ order -> plain_name t.1) ->
  map (wsem cwd f) (sub_ops s order (SCpp cc (subdir (vdir c out cc) src_dir))) = under (vbase cwd out cc) (rel_cpp (fs_files f !! conv_source cwd c cc) s cc order).
Proof.
  intros Hv Hp. cbn [sub_ops]. unfold rel_cpp, under. rewrite !map_app. f_equal; [|f_equal; [|f_equal]].
  - cbn [map wsem fst snd]. rewrite !at_prelude by (first [done|left; done|right; left; done]). done.
  - destruct (cx_conv _); [|done]. cbn [map wsem fst snd]. rewrite source_at by done. rewrite out_subdir, resolve_join_plain' by plains. rewrite at_sdir by (done || plains). by rewrite <- app_assoc.
  - cbn [map wsem fst snd]. rewrite at_sdir by (done || plains). done.
  - rewrite !map_map. apply map_ext_in. intros t Ht%elem_of_list_In. cbn [wsem fst snd]. rewrite at_tdir by (done || plains). rewrite tbase_plain by (by apply Hp). by rewrite <- app_assoc.
Qed.
Lemma sem_catkin cc p order : valid_variant (cc_variant cc) -> (forall t, t ∈ order -> plain_name t.1) ->
  map (wsem cwd f) (sub_ops s order (SCatkin p (subdir (vdir c out cc) src_dir))) = under (vbase cwd out cc) (rel_catkin p order).
Proof.
  intros Hv Hp. cbn [sub_ops]. unfold rel_catkin, under. rewrite !concat_map, !map_map. f_equal. apply map_ext_in. intros t Ht%elem_of_list_In.
  cbn [map wsem fst snd]. rewrite at_tdir by (done || plains). rewrite at_tdir' by (done || plain). rewrite tbase_plain by (by apply Hp). by rewrite <- !app_assoc.
Qed.
Lemma sem_make cc order : valid_variant (cc_variant cc) ->
  map (wsem cwd f) (sub_ops s order (SMakefile cc (ds_out (vdir c out cc)))) = under (vbase cwd out cc) (rel_make s cc).
Proof. intros Hv. cbn [sub_ops map wsem]. unfold under, rel_make. cbn [map fst snd]. rewrite resolve_join_plain' by plains. destruct (vdir_out cwd c out cc Hv) as [-> _]. done. Qed.
(** All of it. *)
Definition rel_all (cc : cpp_config) (order : list (gostr * stm)) : list (fpath * option content) :=
  rel_cpp (fs_files f !! conv_source cwd c cc) s cc order
  ++ match cc_catkin cc with Some p => rel_catkin (autofill (default empty_package p)) order | None => [] end
  ++ if cc_makefile cc then rel_make s cc else [].
End Sem.
Lemma elem_mapi_iff {A B} (f : nat -> A -> list B) l i x : x ∈ concat (mapi_from f i l) <-> exists k a, l !! k = Some a /\ x ∈ f (i + k) a.
Proof.
  revert i. induction l as [|a l IH]; intros i; cbn.
  - split; [intros H; by apply elem_of_nil in H|]. intros (k & a & H & _). by rewrite lookup_nil in H.
  - rewrite elem_of_app, IH. split.
    + intros [H|(k & b & Hb & H)]; [exists 0, a; by rewrite Nat.add_0_r|]. exists (S k), b. by rewrite Nat.add_succ_r.
    + intros ([|k] & b & Hb & H); [left; injection Hb as ->; by rewrite Nat.add_0_r in H|]. right. exists k, b. by rewrite Nat.add_succ_r in H.
Qed.
Lemma elem_map {A B} (f : A -> B) l y : y ∈ map f l <-> exists x, x ∈ l /\ y = f x.
Proof. rewrite elem_of_list_In, in_map_iff. split; intros (x & H1 & H2); exists x; (split; [|done] || split); try done; by apply elem_of_list_In. Qed.
Lemma elem_under b l p x : (p, x) ∈ under b l <-> exists r, p = b ++ r /\ (r, x) ∈ l.
Proof.
  unfold under. rewrite elem_map. split.
  - intros ([r y] & H & E). injection E as -> ->. by exists r.
  - intros (r & -> & H). by exists (r, x).
Qed.
Lemma elem_perm {A B} (f : A -> B) (l k : list A) x : l ≡ₚ k -> x ∈ map f l <-> x ∈ map f k.
Proof. intros H. by rewrite !elem_map; setoid_rewrite H. Qed.
Lemma sub_ops_perm s l k g o : l ≡ₚ k -> o ∈ sub_ops s l g <-> o ∈ sub_ops s k g.
Proof.
  intros H. destruct g as [cc d|p d|cc o']; cbn [sub_ops]; [|rewrite !elem_concat_map; by setoid_rewrite H|done].
  rewrite !elem_of_app. by rewrite (elem_perm _ _ _ _ H).
Qed.
Lemma sub_dirs_perm s l k g o : l ≡ₚ k -> o ∈ sub_dirs s l g <-> o ∈ sub_dirs s k g.
Proof. intros H. destruct g as [cc d|p d|cc o']; cbn [sub_dirs]; [|done|done]. rewrite !elem_of_app, !elem_concat_map. by setoid_rewrite H. Qed.

(** ** The two phases of generation *)
Definition gen_dirs (s : stm_suite) (ord : nat -> list (gostr * stm)) (gs : list subgen) : list gostr :=
  concat (mapi_from (fun i g => sub_dirs s (ord i) g) 0 gs).
Definition gen_writes (s : stm_suite) (ord : nat -> list (gostr * stm)) (gs : list subgen) : list op :=
  concat (mapi_from (fun i g => sub_ops s (ord (length gs + i)) g) 0 gs).
Lemma gen_ops_phases s ord gs : gen_ops s ord gs = map OpMkdir (gen_dirs s ord gs) ++ gen_writes s ord gs.
Proof.
  unfold gen_ops, gen_dirs, gen_writes. f_equal. rewrite concat_map. f_equal. generalize 0. induction gs as [|g gs IH]; intros i; [done|]. cbn. by rewrite IH.
Qed.
Definition plain_tests (s : stm_suite) : Prop := forall name, name ∈ dom (su_tests s) -> plain_name name.
Definition valid_variants (c : config) : Prop := forall cc, cc ∈ cf_cpps c -> valid_variant (cc_variant cc).
Section Phases.
Context (cwd : fpath) (c : config) (out : gostr) (s : stm_suite) (ord : nat -> list (gostr * stm)).
Context (Hv : valid_variants c) (Hp : plain_tests s) (Ho : orders s ord).
Lemma canon_plain t : t ∈ map_to_list (su_tests s) -> plain_name t.1.
Proof. destruct t as [n m]. intros H%elem_of_map_to_list. cbn. apply Hp. apply elem_of_dom. by exists m. Qed.
Lemma gen_dirs_elem d : d ∈ gen_dirs s ord (gen_new c out) <-> exists cc, cc ∈ cf_cpps c /\ d ∈ sub_dirs s (map_to_list (su_tests s)) (SCpp cc (subdir (vdir c out cc) src_dir)).
Proof.
  unfold gen_dirs. rewrite elem_mapi_iff. split.
  - intros (k & g & Hg & Hd). rewrite (sub_dirs_perm _ _ _ _ _ (Ho _)) in Hd. apply elem_of_list_lookup_2, gen_new_elem in Hg as (cc & Hcc & Hg). exists cc. split; [done|].
    unfold init_variant in Hg. rewrite !elem_of_app, elem_of_list_singleton in Hg. destruct Hg as [->|[Hg|Hg]]; [done| |].
    + destruct (cc_catkin cc); [|by apply elem_of_nil in Hg]. apply elem_of_list_singleton in Hg as ->. by apply elem_of_nil in Hd.
    + destruct (cc_makefile cc); [|by apply elem_of_nil in Hg]. apply elem_of_list_singleton in Hg as ->. by apply elem_of_nil in Hd.
  - intros (cc & Hcc & Hd). assert (Hg : SCpp cc (subdir (vdir c out cc) src_dir) ∈ gen_new c out).
    { unfold gen_new. apply elem_concat_map. exists cc. split; [done|]. left. }
    apply elem_of_list_lookup_1 in Hg as [k Hk]. exists k, (SCpp cc (subdir (vdir c out cc) src_dir)). split; [done|]. by rewrite (sub_dirs_perm _ _ _ _ _ (Ho _)).
Qed.
Lemma gen_writes_elem f w : w ∈ map (wsem cwd f) (gen_writes s ord (gen_new c out)) <->
  exists cc, cc ∈ cf_cpps c /\ w ∈ under (vbase cwd out cc) (rel_all cwd c s f cc (map_to_list (su_tests s))).
Proof.
  assert (H1 : w ∈ map (wsem cwd f) (gen_writes s ord (gen_new c out)) <-> exists g, g ∈ gen_new c out /\ w ∈ map (wsem cwd f) (sub_ops s (map_to_list (su_tests s)) g)).
  { rewrite elem_map. unfold gen_writes. setoid_rewrite elem_mapi_iff. split.
    - intros (o & (k & g & Hg & Hop) & ->). rewrite (sub_ops_perm _ _ _ _ _ (Ho _)) in Hop. exists g. split; [by eapply elem_of_list_lookup_2|]. apply elem_map. by exists o.
    - intros (g & Hg & H). apply elem_map in H as (o & Hop & ->). apply elem_of_list_lookup_1 in Hg as [k Hk]. exists o. split; [|done]. exists k, g. split; [done|]. by rewrite (sub_ops_perm _ _ _ _ _ (Ho _)). }
  rewrite H1. unfold gen_new. setoid_rewrite elem_concat_map. split.
  - intros (g & (cc & Hcc & Hg) & H). exists cc. split; [done|]. unfold rel_all, under. rewrite !map_app, !elem_of_app.
    change (subdir (DirSet (cf_dir c) out) (variant_string (cc_variant cc))) with (vdir c out cc) in Hg.
    unfold init_variant in Hg. rewrite !elem_of_app, elem_of_list_singleton in Hg. destruct Hg as [->|[Hg|Hg]].
    + left. rewrite (sem_cpp cwd c out s f cc _ (Hv cc Hcc) canon_plain) in H. done.
    + destruct (cc_catkin cc) as [p|]; [|by apply elem_of_nil in Hg]. apply elem_of_list_singleton in Hg as ->. right. left.
      rewrite (sem_catkin cwd c out s f cc _ _ (Hv cc Hcc) canon_plain) in H. done.
    + destruct (cc_makefile cc); [|by apply elem_of_nil in Hg]. apply elem_of_list_singleton in Hg as ->. right. right.
      rewrite (sem_make cwd c out s f cc _ (Hv cc Hcc)) in H. done.
  - intros (cc & Hcc & H). unfold rel_all, under in H. rewrite !map_app, !elem_of_app in H. destruct H as [H|[H|H]].
    + exists (SCpp cc (subdir (vdir c out cc) src_dir)). split; [exists cc; split; [done|left]|]. by rewrite (sem_cpp cwd c out s f cc _ (Hv cc Hcc) canon_plain).
    + destruct (cc_catkin cc) as [p|] eqn:Ek; [|by apply elem_of_nil in H]. exists (SCatkin (autofill (default empty_package p)) (subdir (vdir c out cc) src_dir)). split.
      * exists cc. split; [done|]. unfold init_variant. rewrite Ek. right. left.
      * by rewrite (sem_catkin cwd c out s f cc _ _ (Hv cc Hcc) canon_plain).
    + destruct (cc_makefile cc) eqn:Ek; [|by apply elem_of_nil in H]. exists (SMakefile cc (ds_out (vdir c out cc))). split.
      * exists cc. split; [done|]. unfold init_variant. rewrite Ek, !elem_of_app. right. right. left.
      * by rewrite (sem_make cwd c out s f cc _ (Hv cc Hcc)).
Qed.
End Phases.

Lemma elem1 {A} (x y : A) : x ∈ [y] <-> x = y.
Proof. apply elem_of_list_singleton. Qed.
Lemma rel_cases cwd c s f cc r x : (r, x) ∈ rel_all cwd c s f cc (map_to_list (su_tests s)) <->
  let ctx := process cc (su_types s) in
  (r = [lit "src"; lit "rtcg"; lit "rtcg.cpp"] /\ x = Some (CPrelude (lit "rtcg.cpp"))) \/
  (r = [lit "src"; lit "rtcg"; lit "rtcg.h"] /\ x = Some (CPrelude (lit "rtcg.h"))) \/
  (r = [lit "src"; lit "convert"; lit "convert.cpp"] /\ cx_conv ctx = true /\ x = fs_files f !! conv_source cwd c cc) \/
  (r = [lit "src"; lit "convert"; lit "convert.h"] /\ x = Some (CConvertH (cc_variant cc) ctx)) \/
  (exists n m, r = [lit "src"; n; lit "src"; lit "main.cpp"] /\ su_tests s !! n = Some m /\ x = if renders (cc_variant cc) m ctx then Some (CMain (cc_variant cc) n m ctx) else None) \/
  (exists n m p, r = [lit "src"; n; lit "package.xml"] /\ su_tests s !! n = Some m /\ cc_catkin cc = Some p /\ x = Some (CPackage (expand_package n (autofill (default empty_package p))))) \/
  (exists n m p, r = [lit "src"; n; lit "CMakeLists.txt"] /\ su_tests s !! n = Some m /\ cc_catkin cc = Some p /\ x = Some (CCMake (expand_package n (autofill (default empty_package p))))) \/
  (r = [lit "Makefile"] /\ cc_makefile cc = true /\ x = Some (CMakefile (dom (su_tests s)) (cx_conv ctx))).
Proof.
  unfold rel_all, rel_cpp. cbn zeta. set (ctx := process cc (su_types s)). rewrite !elem_of_app. rewrite elem_of_cons, !elem1, !pair_equal_spec.
  assert (Hconv : (r, x) ∈ (if cx_conv ctx then [([lit "src"; lit "convert"; lit "convert.cpp"], fs_files f !! conv_source cwd c cc)] else []) <->
    (r = [lit "src"; lit "convert"; lit "convert.cpp"] /\ cx_conv ctx = true /\ x = fs_files f !! conv_source cwd c cc)).
  { destruct (cx_conv ctx); [rewrite elem1, pair_equal_spec; tauto|]. split; [intros H; by apply elem_of_nil in H|]. by intros (_ & ? & _). }
  rewrite Hconv. clear Hconv. rewrite elem_map.
  assert (Hmain : (exists x0, x0 ∈ map_to_list (su_tests s) /\ (r, x) = ([lit "src"; x0.1; lit "src"; lit "main.cpp"], if renders (cc_variant cc) x0.2 ctx then Some (CMain (cc_variant cc) x0.1 x0.2 ctx) else None)) <->
    exists n m, r = [lit "src"; n; lit "src"; lit "main.cpp"] /\ su_tests s !! n = Some m /\ x = if renders (cc_variant cc) m ctx then Some (CMain (cc_variant cc) n m ctx) else None).
  { split.
    - intros ([n m] & H & E). injection E as -> ->. exists n, m. by apply elem_of_map_to_list in H.
    - intros (n & m & -> & H & ->). exists (n, m). split; [by apply elem_of_map_to_list|done]. }
  rewrite Hmain. clear Hmain.
  assert (Hmk : (r, x) ∈ (if cc_makefile cc then rel_make s cc else []) <-> r = [lit "Makefile"] /\ cc_makefile cc = true /\ x = Some (CMakefile (dom (su_tests s)) (cx_conv ctx))).
  { destruct (cc_makefile cc); [unfold rel_make; rewrite elem1, pair_equal_spec; unfold ctx; tauto|]. split; [intros H; by apply elem_of_nil in H|]. by intros (_ & ? & _). }
  rewrite Hmk. clear Hmk.
  assert (Hck : (r, x) ∈ (match cc_catkin cc with Some p => rel_catkin (autofill (default empty_package p)) (map_to_list (su_tests s)) | None => [] end) <->
    (exists n m p, r = [lit "src"; n; lit "package.xml"] /\ su_tests s !! n = Some m /\ cc_catkin cc = Some p /\ x = Some (CPackage (expand_package n (autofill (default empty_package p))))) \/
    (exists n m p, r = [lit "src"; n; lit "CMakeLists.txt"] /\ su_tests s !! n = Some m /\ cc_catkin cc = Some p /\ x = Some (CCMake (expand_package n (autofill (default empty_package p)))))).
  { destruct (cc_catkin cc) as [p|].
    - unfold rel_catkin. rewrite elem_concat_map. setoid_rewrite elem_of_cons. setoid_rewrite elem1. setoid_rewrite pair_equal_spec. split.
      + intros ([n m] & H%elem_of_map_to_list & [[-> ->]|[-> ->]]); [left|right]; by exists n, m, p.
      + intros [(n & m & q & -> & H & [= <-] & ->)|(n & m & q & -> & H & [= <-] & ->)]; exists (n, m); (split; [by apply elem_of_map_to_list|]); [by left|by right].
    - split; [intros H; by apply elem_of_nil in H|]. by intros [(? & ? & ? & _ & _ & ? & _)|(? & ? & ? & _ & _ & ? & _)]. }
  rewrite Hck. clear Hck. tauto.
Qed.
Lemma rel_fun cwd c s f cc r x y : (r, x) ∈ rel_all cwd c s f cc (map_to_list (su_tests s)) -> (r, y) ∈ rel_all cwd c s f cc (map_to_list (su_tests s)) -> x = y.
Proof.
  rewrite !rel_cases. cbn zeta.
  intros [(H1 & H2)|[(H1 & H2)|[(H1 & H0 & H2)|[(H1 & H2)|[(n & m & H1 & H0 & H2)|[(n & m & p & H1 & H0 & HH & H2)|[(n & m & p & H1 & H0 & HH & H2)|(H1 & H0 & H2)]]]]]]];
  intros [(J1 & J2)|[(J1 & J2)|[(J1 & J0 & J2)|[(J1 & J2)|[(n' & m' & J1 & J0 & J2)|[(n' & m' & p' & J1 & J0 & JJ & J2)|[(n' & m' & p' & J1 & J0 & JJ & J2)|(J1 & J0 & J2)]]]]]]];
  rewrite H2, J2; clear H2 J2; try done.
  all: try (rewrite H1 in J1; discriminate J1).
  all: rewrite H1 in J1; injection J1 as ->.
  all: try (rewrite H0 in J0; injection J0 as ->); try (rewrite HH in JJ; injection JJ as ->); try done.
Qed.
Lemma rel_ne cwd c s f cc r x : (r, x) ∈ rel_all cwd c s f cc (map_to_list (su_tests s)) -> r <> [].
Proof.
  rewrite rel_cases. cbn zeta. intros [(-> & _)|[(-> & _)|[(-> & _)|[(-> & _)|[(n & m & -> & _)|[(n & m & p & -> & _)|[(n & m & p & -> & _)|(-> & _)]]]]]]]; done.
Qed.
Lemma vbase_inj cwd out cc cc' r r' : valid_variant (cc_variant cc) -> valid_variant (cc_variant cc') ->
  vbase cwd out cc ++ r = vbase cwd out cc' ++ r' -> cc_variant cc = cc_variant cc' /\ r = r'.
Proof.
  intros H1 H2. unfold vbase. rewrite <- !app_assoc. intros E. apply app_inv_head in E. cbn in E. injection E as E ->. split; [|done].
  destruct H1 as [H1|H1], H2 as [H2|H2]; rewrite H1, H2 in *; done.
Qed.
Lemma nodup_inj {A B} (f : A -> B) l x y : NoDup (map f l) -> x ∈ l -> y ∈ l -> f x = f y -> x = y.
Proof.
  induction l as [|a l IH]; intros Hn Hx Hy E; [by apply elem_of_nil in Hx|]. apply NoDup_cons in Hn as [Ha Hn].
  apply elem_of_cons in Hx as [->|Hx], Hy as [->|Hy]; [done| | |by apply IH].
  all: exfalso; apply Ha; apply elem_map; eexists; split; [|done || symmetry; done]; done.
Qed.

(** The result of generation, over any file system. *)
Section Result.
Context (cwd : fpath) (c : config) (out : gostr) (s : stm_suite).
Context (Hv : valid_variants c) (Hp : plain_tests s) (Hnd : NoDup (map cc_variant (cf_cpps c))) (Hio : resolve cwd (cf_dir c) <> resolve cwd out).
Definition written (f : fs) (w : fpath * option content) : Prop :=
  exists cc, cc ∈ cf_cpps c /\ w ∈ under (vbase cwd out cc) (rel_all cwd c s f cc (map_to_list (su_tests s))).
Lemma written_fun f p x y : written f (p, x) -> written f (p, y) -> x = y.
Proof.
  intros (cc & Hcc & H1) (cc' & Hcc' & H2). apply elem_under in H1 as (r & -> & H1). apply elem_under in H2 as (r' & E & H2).
  apply vbase_inj in E as [E ->]; [|by apply Hv|by apply Hv]. assert (cc = cc') as <- by (by eapply (nodup_inj cc_variant)). by eapply rel_fun.
Qed.
Lemma written_target f p x : written f (p, x) -> exists y, forall g, fs_files g = fs_files f -> written g (p, y).
Proof.
  intros (cc & Hcc & H). exists x. intros g Hg. exists cc. split; [done|]. unfold rel_all in *. by rewrite Hg.
Qed.
Lemma source_not_written f cc x : cc ∈ cf_cpps c -> ~ written f (conv_source cwd c cc, x).
Proof.
  intros Hcc (cc' & Hcc' & H). apply elem_under in H as (r & E & H). unfold conv_source, vbase in E. rewrite <- app_assoc in E. cbn [app] in E.
  assert (Hl : last r = Some (lit "convert.cpp")).
  { destruct r as [|a r]; [by apply rel_ne in H|]. assert (E2 : last (resolve cwd out ++ variant_string (cc_variant cc') :: a :: r) = Some (lit "convert.cpp")).
    { rewrite <- E. change [variant_string (cc_variant cc); lit "src"; lit "convert"; lit "convert.cpp"] with ([variant_string (cc_variant cc); lit "src"; lit "convert"] ++ [lit "convert.cpp"]). by rewrite app_assoc, last_snoc. }
    rewrite last_app_cons in E2. done. }
  apply rel_cases in H. cbn zeta in H.
  destruct H as [(-> & _)|[(-> & _)|[(-> & _)|[(-> & _)|[(n & m & -> & _)|[(n & m & p & -> & _)|[(n & m & p & -> & _)|(-> & _)]]]]]]]; try discriminate Hl.
  apply app_inj_2 in E as [E _]; [|done]. done.
Qed.
Definition made (ord : nat -> list (gostr * stm)) (f : fs) : fs := Fs (all_prefixes cwd (gen_dirs s ord (gen_new c out)) ∪ fs_dirs f) (fs_files f).
Lemma generate_result ord f : orders s ord -> exists f' e, generate cwd c out s ord f = (f', e) /\
  (e = None <-> (forall d, d ∈ gen_dirs s ord (gen_new c out) -> no_file_above cwd f d) /\ (forall w, written f w -> wok cwd (made ord f) w)) /\
  (forall p, (forall y, ~ written f (p, y)) -> fs_files f' !! p = fs_files f !! p) /\
  (e = None -> fs_dirs f' = fs_dirs (made ord f) /\
    forall p x, fs_files f' !! p = Some x <-> written f (p, Some x) \/ ((forall y, ~ written f (p, y)) /\ fs_files f !! p = Some x)).
Proof.
  intros Ho. unfold generate. rewrite gen_ops_phases, exec_all_app. destruct (mkdirs cwd (gen_dirs s ord (gen_new c out)) f) as (f1 & e & -> & Hf & He & Hd).
  destruct e as [e|]; [eexists f1, (Some e); split_and!; [done| |intros p _; by rewrite Hf|done]|].
  { split; [done|]. intros [H _]. by apply He in H. }
  specialize (Hd eq_refl). assert (E1 : f1 = made ord f) by (destruct f1; cbn in *; unfold made; congruence). clear Hf Hd. subst f1. set (f1 := made ord f) in *.
  set (ops := gen_writes s ord (gen_new c out)).
  assert (Hw : forall w, w ∈ map (wsem cwd f1) ops <-> written f w).
  { intros w. unfold ops. rewrite gen_writes_elem by done. unfold written. unfold rel_all. done. }
  destruct (writes cwd ops (map (op_target cwd) ops) f1) with (f := f1) as (f' & e & -> & Hd' & Hun & He' & Hfin); [|done|done|].
  { intros o Hop. split; [|split].
    - unfold ops, gen_writes in Hop. apply elem_mapi_iff in Hop as (k & g & _ & Hop). destruct g; cbn [sub_ops] in Hop.
      + rewrite !elem_of_app in Hop. destruct Hop as [Hop|[Hop|[Hop|Hop]]].
        * by apply elem_map in Hop as (? & _ & ->).
        * destruct (cx_conv _); [|by apply elem_of_nil in Hop]. by apply elem1 in Hop as ->.
        * by apply elem1 in Hop as ->.
        * by apply elem_map in Hop as (? & _ & ->).
      + apply elem_concat_map in Hop as (t & _ & Hop). rewrite elem_of_cons, elem1 in Hop. by destruct Hop as [->| ->].
      + by apply elem1 in Hop as ->.
    - destruct o as [| |src dst|]; try done. cbn. intros Hin. apply elem_map in Hin as (o & Hin & E).
      (* the source of this copy *)
      assert (Hsrc : exists cc, cc ∈ cf_cpps c /\ resolve cwd src = conv_source cwd c cc).
      { unfold ops, gen_writes in Hop. apply elem_mapi_iff in Hop as (k & g & Hg & Hop). apply elem_of_list_lookup_2, gen_new_elem in Hg as (cc & Hcc & Hg).
        change (subdir (DirSet (cf_dir c) out) (variant_string (cc_variant cc))) with (vdir c out cc) in Hg. exists cc. split; [done|].
        unfold init_variant in Hg. rewrite !elem_of_app, elem_of_list_singleton in Hg. destruct Hg as [->|[Hg|Hg]].
        - cbn [sub_ops] in Hop. rewrite !elem_of_app in Hop. destruct Hop as [Hop|[Hop|[Hop|Hop]]].
          + by apply elem_map in Hop as (? & _ & ?).
          + destruct (cx_conv _); [|by apply elem_of_nil in Hop]. apply elem1 in Hop. injection Hop as -> ->. apply (source_at cwd c out). by apply Hv.
          + by apply elem1 in Hop.
          + by apply elem_map in Hop as (? & _ & ?).
        - destruct (cc_catkin cc); [|by apply elem_of_nil in Hg]. apply elem1 in Hg as ->. cbn [sub_ops] in Hop. apply elem_concat_map in Hop as (t & _ & Hop). rewrite elem_of_cons, elem1 in Hop. by destruct Hop.
        - destruct (cc_makefile cc); [|by apply elem_of_nil in Hg]. apply elem1 in Hg as ->. by apply elem1 in Hop. }
      destruct Hsrc as (cc & Hcc & Es). rewrite Es in E. apply (source_not_written f cc (wsem cwd f1 o).2 Hcc). apply Hw. apply elem_map. exists o. split; [done|].
      rewrite E, <- (wsem_target cwd f1). symmetry. apply surjective_pairing.
    - apply elem_map. by exists o. }
  exists f', e. split_and!; [done| | |].
  - rewrite He'. split.
    + intros H. split; [by apply He|]. intros w Hww. apply Hw, elem_map in Hww as (o & Hop & ->). rewrite Forall_forall in H. by apply H.
    + intros [_ H]. apply Forall_forall. intros o Hop. apply H, Hw, elem_map. by exists o.
  - intros p Hpw. rewrite Hun; [done|]. intros (o & Hop & E)%elem_map. apply (Hpw (wsem cwd f1 o).2). apply Hw. rewrite E, <- (wsem_target cwd f1), <- surjective_pairing. apply elem_map. by exists o.
  - intros Hn. split; [done|]. intros p x. rewrite (Hfin Hn). rewrite put_all_lookup.
    + rewrite Hw. change (fs_files f1) with (fs_files f). enough ((p ∉ (map (wsem cwd f1) ops).*1) <-> (forall y, ~ written f (p, y))) as -> by done. split.
      * intros H y Hy. apply H. apply Hw in Hy. apply elem_of_list_fmap. by exists (p, y).
      * intros H Hin. apply elem_of_list_fmap in Hin as ([q y] & -> & Hin). apply Hw in Hin. by apply (H y).
    + intros q y z Hy Hz. apply Hw in Hy, Hz. by eapply written_fun.
    + apply He' in Hn. apply Forall_forall. intros w Hin. apply elem_map in Hin as (o & Hop & ->). rewrite Forall_forall in Hn. by destruct (Hn o Hop).
Qed.
End Result.

(** ** C49, C51, C52: what is generated *)
Lemma conv_iff cc s : cx_conv (process cc (su_types s)) = true <-> overridden cc s.
Proof.
  destruct (C55_process cc (su_types s) _ (reflexivity _)) as (_ & _ & _ & _ & ->). unfold overridden. apply exist_proper. intros n.
  enough (is_Some (last_override cc n) <-> n ∈ map fst (cc_channels cc)) as -> by done.
  unfold last_override. rewrite elem_map, fmap_is_Some. split.
  - intros [o Ho]. exists o. apply last_Some_elem_of, elem_of_list_filter in Ho as [H1 H2]. done.
  - intros (o & Ho & ->). destruct (last _) as [x|] eqn:E; [by eexists|]. apply last_None in E.
    assert (Hin : o ∈ filter (fun o0 : gostr * gostr => o0.1 = o.1) (cc_channels cc)) by (by apply elem_of_list_filter). rewrite E in Hin. by apply elem_of_nil in Hin.
Qed.
Lemma written_expected cwd c out s f p x : (forall cc n m, cc ∈ cf_cpps c -> su_tests s !! n = Some m -> renders (cc_variant cc) m (process cc (su_types s)) = true) ->
  written cwd c out s f (p, Some x) <-> expected cwd c out s f p x.
Proof.
  intros Hr. unfold written, expected. split.
  - intros (cc & Hcc & H). apply elem_under in H as (r & -> & H). exists cc, r. split; [done|]. split; [unfold vbase; by rewrite <- app_assoc|].
    apply rel_cases in H. cbn zeta in H. unfold shared_files, test_files. cbn zeta.
    destruct H as [(-> & E)|[(-> & E)|[(-> & H0 & E)|[(-> & E)|[(n & m & -> & H0 & E)|[(n & m & q & -> & H0 & HH & E)|[(n & m & q & -> & H0 & HH & E)|(-> & H0 & E)]]]]]]].
    + left. injection E as ->. left.
    + left. injection E as ->. right. left.
    + right. right. split; [by apply conv_iff|]. done.
    + left. injection E as ->. right. right. left.
    + right. left. exists n, m. split; [done|]. rewrite (Hr cc n m Hcc H0) in E. injection E as ->. left.
    + right. left. exists n, m. split; [done|]. injection E as ->. rewrite HH. right. left.
    + right. left. exists n, m. split; [done|]. injection E as ->. rewrite HH. right. right. left.
    + left. injection E as ->. rewrite H0. right. right. right. left.
  - intros (cc & r & Hcc & -> & H). exists cc. split; [done|]. apply elem_under. exists r. split; [unfold vbase; by rewrite <- app_assoc|]. apply rel_cases. cbn zeta.
    destruct H as [H|[(n & m & Hm & H)|(Hc & -> & H)]].
    + unfold shared_files in H. cbn zeta in H. rewrite elem_of_app, !elem_of_cons in H. rewrite !pair_equal_spec in H. destruct H as [[[-> ->]|[[-> ->]|[[-> ->]|H]]]|H].
      * by left.
      * right. by left.
      * do 3 right. by left.
      * by apply elem_of_nil in H.
      * destruct (cc_makefile cc) eqn:Em; [|by apply elem_of_nil in H]. apply elem1 in H. injection H as -> ->. do 7 right. done.
    + unfold test_files in H. rewrite elem_of_app, elem1 in H. destruct H as [H|H].
      * injection H as -> ->. do 4 right. left. exists n, m. rewrite (Hr cc n m Hcc Hm). done.
      * destruct (cc_catkin cc) as [q|] eqn:Ek; [|by apply elem_of_nil in H]. cbn zeta in H. rewrite elem_of_cons, elem1 in H. destruct H as [H|H]; injection H as -> ->.
        -- do 5 right. left. by exists n, m, q.
        -- do 6 right. left. by exists n, m, q.
    + do 2 right. left. split; [done|]. split; [by apply conv_iff|]. done.
Qed.
Theorem C49_success_files : forall cwd c out s ord f f',
  sane c s -> separate cwd c out -> orders s ord -> generate cwd c out s ord f = (f', None) ->
  forall p x, fs_files f' !! p = Some x <->
    expected cwd c out s f p x \/ ((forall y, ~ expected cwd c out s f p y) /\ fs_files f !! p = Some x).
Proof.
  intros cwd c out s ord f f' Hs Hio Ho E p x. destruct Hs as [Hv Hnd Hp].
  destruct (generate_result cwd c out s Hv Hp Hnd Hio ord f Ho) as (f1 & e & E1 & He & _ & Hfin). rewrite E in E1. injection E1 as <- <-.
  destruct (proj1 He eq_refl) as [_ Hok]. destruct (Hfin eq_refl) as [_ Hl]. rewrite Hl.
  assert (Hr : forall cc n m, cc ∈ cf_cpps c -> su_tests s !! n = Some m -> renders (cc_variant cc) m (process cc (su_types s)) = true).
  { intros cc n m Hcc Hm. assert (Hw : written cwd c out s f (vbase cwd out cc ++ [lit "src"; n; lit "src"; lit "main.cpp"], if renders (cc_variant cc) m (process cc (su_types s)) then Some (CMain (cc_variant cc) n m (process cc (su_types s))) else None)).
    { exists cc. split; [done|]. apply elem_under. eexists. split; [done|]. apply rel_cases. cbn zeta. do 4 right. left. by exists n, m. }
    destruct (Hok _ Hw) as [_ [z Hz]]. cbn in Hz. by destruct (renders _ _ _). }
  rewrite <- (written_expected cwd c out s f p x Hr). enough ((forall y, ~ written cwd c out s f (p, y)) <-> (forall y, ~ expected cwd c out s f p y)) as -> by done. split.
  - intros H y Hy. apply (written_expected cwd c out s f p y Hr) in Hy. by apply (H (Some y)).
  - intros H y Hy. destruct (Hok _ Hy) as [_ [z Hz]]. cbn in Hz. subst y. apply (written_expected cwd c out s f p z Hr) in Hy. by apply (H z).
Qed.
Print Assumptions C49_success_files.

Definition rel_dir (s : stm_suite) (cc : cpp_config) (rd : fpath) : Prop :=
  rd = [lit "src"; lit "rtcg"] \/ (overridden cc s /\ rd = [lit "src"; lit "convert"]) \/
  (exists n, n ∈ dom (su_tests s) /\ (rd = [lit "src"; n; lit "include"] \/ rd = [lit "src"; n; lit "src"])).
Section Dirs.
Context (cwd : fpath) (c : config) (out : gostr) (s : stm_suite) (ord : nat -> list (gostr * stm)).
Context (Hs : sane c s) (Ho : orders s ord).
Lemma made_dirs_elem (d : fpath) : (exists g, g ∈ gen_dirs s ord (gen_new c out) /\ d = resolve cwd g) <-> exists cc rd, cc ∈ cf_cpps c /\ d = vbase cwd out cc ++ rd /\ rel_dir s cc rd.
Proof.
  assert (H1 : (exists g, g ∈ gen_dirs s ord (gen_new c out) /\ d = resolve cwd g) <-> exists cc, cc ∈ cf_cpps c /\ d ∈ cfg_dirs cwd out s (map_to_list (su_tests s)) cc).
  { split.
    - intros (g & Hg & ->). apply gen_dirs_elem in Hg as (cc & Hcc & Hg); [|done]. exists cc. split; [done|]. rewrite <- (sub_dirs_at cwd c) by (by apply Hs). apply elem_map. by exists g.
    - intros (cc & Hcc & Hd). rewrite <- (sub_dirs_at cwd c) in Hd by (by apply Hs). apply elem_map in Hd as (g & Hg & ->). exists g. split; [|done]. apply gen_dirs_elem; [done|]. by exists cc. }
  rewrite H1. split.
  - intros (cc & Hcc & Hd). exists cc. unfold cfg_dirs in Hd. rewrite !elem_of_app, elem1 in Hd. destruct Hd as [->|[Hd|Hd]].
    + eexists. split; [done|]. split; [done|]. by left.
    + destruct (cx_conv _) eqn:Ec; [|by apply elem_of_nil in Hd]. apply elem1 in Hd as ->. eexists. split; [done|]. split; [done|]. right. left. split; [by apply conv_iff|done].
    + apply elem_concat_map in Hd as ([n m] & Hn & Hd). pose proof (canon_plain s (sane_names _ _ Hs) _ Hn) as Hpl. apply elem_of_map_to_list in Hn. cbn [fst] in *. rewrite tbase_plain in Hd by done. rewrite <- !app_assoc in Hd. cbn [app] in Hd.
      rewrite elem_of_cons, elem1 in Hd. assert (n ∈ dom (su_tests s)) by (apply elem_of_dom; by exists m).
      destruct Hd as [->| ->]; eexists; (split; [done|]); (split; [done|]); right; right; exists n; split; try done; [by left|by right].
  - intros (cc & rd & Hcc & -> & Hrd). exists cc. split; [done|]. unfold cfg_dirs. rewrite !elem_of_app, elem1. destruct Hrd as [->|[[Hc ->]|(n & Hn & Hrd)]].
    + by left.
    + right. left. apply conv_iff in Hc as ->. by left.
    + right. right. apply elem_concat_map. pose proof (sane_names _ _ Hs n Hn) as Hpl. apply elem_of_dom in Hn as [m Hm]. exists (n, m). split; [by apply elem_of_map_to_list|]. cbn [fst]. rewrite tbase_plain by done. rewrite <- !app_assoc. cbn [app]. rewrite elem_of_cons, elem1. destruct Hrd as [->| ->]; [by left|by right].
Qed.
Lemma all_prefixes_elem (p : fpath) : p ∈ all_prefixes cwd (gen_dirs s ord (gen_new c out)) <-> p <> [] /\ exists cc rd, cc ∈ cf_cpps c /\ rel_dir s cc rd /\ p `prefix_of` vbase cwd out cc ++ rd.
Proof.
  unfold all_prefixes. rewrite elem_of_list_to_set, elem_concat_map. split.
  - intros (g & Hg & Hp). apply prefixes_elem in Hp as [Hp Hne]. split; [done|]. destruct (proj1 (made_dirs_elem (resolve cwd g))) as (cc & rd & Hcc & E & Hrd); [by exists g|]. exists cc, rd. by rewrite <- E.
  - intros (Hne & cc & rd & Hcc & Hrd & Hp). destruct (proj2 (made_dirs_elem (vbase cwd out cc ++ rd))) as (g & Hg & E); [by exists cc, rd|]. exists g. split; [done|]. apply prefixes_elem. by rewrite <- E.
Qed.
Lemma made_is_dir f cc r : unused f (resolve cwd out) -> cc ∈ cf_cpps c ->
  is_dir (made cwd c out s ord f) (vbase cwd out cc ++ r) <-> exists rd, rel_dir s cc rd /\ r `prefix_of` rd.
Proof.
  intros [_ Hfr] Hcc. unfold is_dir, made. cbn [fs_dirs]. rewrite elem_of_union, all_prefixes_elem. split.
  - intros [E|[(Hne & cc' & rd & Hcc' & Hrd & Hp)|Hd]].
    + unfold vbase in E. rewrite <- app_assoc in E. by destruct (resolve cwd out).
    + destruct Hp as [k Hk]. rewrite <- app_assoc in Hk. symmetry in Hk. apply vbase_inj in Hk as [E Hk]; [|by apply Hs|by apply Hs].
      assert (cc = cc') as <- by (eapply (nodup_inj cc_variant); [apply Hs|done|done|done]). exists rd. split; [done|]. by exists k.
    + exfalso. assert (E : vbase cwd out cc ++ r = resolve cwd out) by (apply Hfr; [done|]; apply below_app, vbase_below).
      unfold vbase in E. rewrite <- app_assoc in E. rewrite <- (app_nil_r (resolve cwd out)) in E at 2. apply app_inv_head in E. done.
  - intros (rd & Hrd & Hp). right. left. split; [unfold vbase; rewrite <- app_assoc; by destruct (resolve cwd out)|]. exists cc, rd. split; [done|]. split; [done|]. by apply prefix_app.
Qed.
Lemma fresh_no_file f d : unused f (resolve cwd out) -> d ∈ gen_dirs s ord (gen_new c out) -> no_file_above cwd f d.
Proof.
  intros [Hfr _] Hd q Hq. apply prefixes_elem in Hq as [Hq _]. destruct (proj1 (made_dirs_elem (resolve cwd d))) as (cc & rd & Hcc & E & Hrd); [by exists d|].
  destruct (fs_files f !! q) as [x|] eqn:Ex; [|done]. exfalso. destruct (Hfr q x Ex) as [H1 H2].
  destruct (prefix_weak_total q (resolve cwd out) (resolve cwd d)) as [?|?]; [done| |done|done]. rewrite E. apply below_app, vbase_below.
Qed.
(** Every file but convert.h has a directory. *)
Lemma creatable_rel f cc r x : unused f (resolve cwd out) -> cc ∈ cf_cpps c -> (r, x) ∈ rel_all cwd c s f cc (map_to_list (su_tests s)) ->
  creatable (made cwd c out s ord f) (vbase cwd out cc ++ r) = true <->
  (r = [lit "src"; lit "convert"; lit "convert.h"] -> overridden cc s \/ lit "convert" ∈ dom (su_tests s)).
Proof.
  intros Hfr Hcc Hin. unfold creatable. rewrite andb_true_iff, negb_true_iff, bool_decide_eq_true, bool_decide_eq_false. pose proof (rel_ne _ _ _ _ _ _ _ Hin) as Hne.
  rewrite removelast_app by done. rewrite !made_is_dir by done.
  assert (Hnd : ~ exists rd, rel_dir s cc rd /\ r `prefix_of` rd).
  { intros (rd & Hrd & Hpre). apply rel_cases in Hin. cbn zeta in Hin.
    destruct Hin as [(-> & _)|[(-> & _)|[(-> & _)|[(-> & _)|[(n & m & -> & _)|[(n & m & p & -> & _)|[(n & m & p & -> & _)|(-> & _)]]]]]]];
    destruct Hrd as [->|[[_ ->]|(k & _ & [->| ->])]]; destruct Hpre as [l Hl]; discriminate Hl. }
  assert (Hpar : (exists rd, rel_dir s cc rd /\ removelast r `prefix_of` rd) <-> (r = [lit "src"; lit "convert"; lit "convert.h"] -> overridden cc s \/ lit "convert" ∈ dom (su_tests s))).
  { apply rel_cases in Hin. cbn zeta in Hin.
    destruct Hin as [(-> & _)|[(-> & _)|[(-> & Hc & _)|[(-> & _)|[(n & m & -> & Hm & _)|[(n & m & p & -> & Hm & _)|[(n & m & p & -> & Hm & _)|(-> & _)]]]]]]]; cbn [removelast].
    - split; [intros _ E; discriminate E|]. intros _. exists [lit "src"; lit "rtcg"]. split; [by left|done].
    - split; [intros _ E; discriminate E|]. intros _. exists [lit "src"; lit "rtcg"]. split; [by left|done].
    - apply conv_iff in Hc. split; [intros _ E; discriminate E|]. intros _. exists [lit "src"; lit "convert"]. split; [right; by left|done].
    - split.
      + intros (rd & Hrd & Hpre) _. destruct Hrd as [->|[[Hc ->]|(k & Hk & [->| ->])]]; destruct Hpre as [l Hl]; [discriminate Hl|by left| |]; injection Hl as Hk0 _; rewrite Hk0 in Hk; by right.
      + intros H. destruct (H eq_refl) as [Hc|Hc].
        * exists [lit "src"; lit "convert"]. split; [right; by left|done].
        * exists [lit "src"; lit "convert"; lit "src"]. split; [|by exists [lit "src"]]. right. right. exists (lit "convert"). split; [done|by right].
    - split; [intros _ E; discriminate E|]. intros _. exists [lit "src"; n; lit "src"]. split; [|done]. right. right. exists n. split; [apply elem_of_dom; by exists m|by right].
    - split; [intros _ E; discriminate E|]. intros _. exists [lit "src"; n; lit "src"]. split; [|by exists [lit "src"]]. right. right. exists n. split; [apply elem_of_dom; by exists m|by right].
    - split; [intros _ E; discriminate E|]. intros _. exists [lit "src"; n; lit "src"]. split; [|by exists [lit "src"]]. right. right. exists n. split; [apply elem_of_dom; by exists m|by right].
    - split; [intros _ E; discriminate E|]. intros _. exists [lit "src"; lit "rtcg"]. split; [by left|apply prefix_nil]. }
  rewrite Hpar. tauto.
Qed.
End Dirs.
Theorem C49_succeeds_iff : forall cwd c out s ord f f' e,
  sane c s -> separate cwd c out -> orders s ord -> unused f (resolve cwd out) -> generate cwd c out s ord f = (f', e) ->
  (e = None <-> complete cwd c s f).
Proof.
  intros cwd c out s ord f f' e Hs Hio Ho Hfr E. pose proof Hs as Hs'. destruct Hs' as [Hv Hnd Hp].
  destruct (generate_result cwd c out s Hv Hp Hnd Hio ord f Ho) as (f1 & e1 & E1 & He & _). rewrite E in E1. injection E1 as <- <-. rewrite He. clear He. split.
  - intros [_ Hok] cc Hcc. split_and!.
    + assert (Hin : ([lit "src"; lit "convert"; lit "convert.h"], Some (CConvertH (cc_variant cc) (process cc (su_types s)))) ∈ rel_all cwd c s f cc (map_to_list (su_tests s))).
      { apply rel_cases. cbn zeta. do 3 right. by left. }
      destruct (Hok (vbase cwd out cc ++ [lit "src"; lit "convert"; lit "convert.h"], Some (CConvertH (cc_variant cc) (process cc (su_types s))))) as [Hcr _].
      { exists cc. split; [done|]. apply elem_under. by eexists. }
      cbn [fst] in Hcr. eapply creatable_rel in Hcr; done.
    + intros Hc. destruct (Hok (vbase cwd out cc ++ [lit "src"; lit "convert"; lit "convert.cpp"], fs_files f !! conv_source cwd c cc)) as [_ H]; [|done].
      exists cc. split; [done|]. apply elem_under. eexists. split; [done|]. apply rel_cases. cbn zeta. do 2 right. left. split; [done|]. split; [by apply conv_iff|done].
    + intros n m Hm. destruct (Hok (vbase cwd out cc ++ [lit "src"; n; lit "src"; lit "main.cpp"], if renders (cc_variant cc) m (process cc (su_types s)) then Some (CMain (cc_variant cc) n m (process cc (su_types s))) else None)) as [_ [z Hz]].
      { exists cc. split; [done|]. apply elem_under. eexists. split; [done|]. apply rel_cases. cbn zeta. do 4 right. left. by exists n, m. }
      cbn in Hz. by destruct (renders _ _ _).
  - intros Hc. split; [intros d Hd; by eapply fresh_no_file|]. intros [p x] (cc & Hcc & Hin). apply elem_under in Hin as (r & -> & Hin). destruct (Hc cc Hcc) as (H1 & H2 & H3). split; cbn [fst snd].
    + eapply creatable_rel; [done|done|done|done|done|]. intros _. done.
    + apply rel_cases in Hin. cbn zeta in Hin.
      destruct Hin as [(_ & ->)|[(_ & ->)|[(_ & Hcv & ->)|[(_ & ->)|[(n & m & _ & Hm & ->)|[(n & m & p & _ & _ & _ & ->)|[(n & m & p & _ & _ & _ & ->)|(_ & _ & ->)]]]]]]]; try by eexists.
      * apply H2. by apply conv_iff.
      * rewrite (H3 n m Hm). by eexists.
Qed.
Print Assumptions C49_succeeds_iff.
(** Without overrides, it is convert.h that cannot be created: nothing makes its directory. *)
Theorem C49_no_override_fails : forall cwd c out s ord f cc rest,
  sane c s -> orders s ord -> unused f (resolve cwd out) ->
  cf_cpps c = cc :: rest -> ~ overridden cc s -> lit "convert" ∉ dom (su_tests s) ->
  exists f' p, generate cwd c out s ord f = (f', Some (ECreate p)) /\
    resolve cwd p = resolve cwd out ++ [variant_string (cc_variant cc); lit "src"; lit "convert"; lit "convert.h"].
Proof.
  intros cwd c out s ord f cc rest Hs Ho Hfr Hcs Hno Hcv. unfold generate. rewrite gen_ops_phases, exec_all_app.
  destruct (mkdirs cwd (gen_dirs s ord (gen_new c out)) f) as (f1 & e & -> & Hf & He & Hd).
  assert (e = None) as -> by (apply He; intros d Hin; by eapply fresh_no_file). specialize (Hd eq_refl).
  assert (E1 : f1 = made cwd c out s ord f) by (destruct f1; cbn in *; unfold made; congruence). clear Hf Hd. subst f1. set (f1 := made cwd c out s ord f).
  assert (Hcc : cc ∈ cf_cpps c) by (rewrite Hcs; left). pose proof (sane_variants _ _ Hs cc Hcc) as Hv.
  assert (Hc0 : cx_conv (process cc (su_types s)) = false) by (apply not_true_is_false; by rewrite conv_iff).
  assert (Hops : exists l, gen_writes s ord (gen_new c out) =
     [OpPrelude (lit "rtcg.cpp") (output_path (subdir (vdir c out cc) src_dir) (path_join [prelude_dir; lit "rtcg.cpp"]));
      OpPrelude (lit "rtcg.h") (output_path (subdir (vdir c out cc) src_dir) (path_join [prelude_dir; lit "rtcg.h"]));
      OpWrite (path_join [ds_out (subdir (vdir c out cc) src_dir); lit "convert"; lit "convert.h"]) (Some (CConvertH (cc_variant cc) (process cc (su_types s))))] ++ l).
  { unfold gen_writes. generalize (length (gen_new c out)). intros k. unfold gen_new. rewrite Hcs. cbn [map concat]. unfold init_variant at 1. cbn [app mapi_from concat]. cbn [sub_ops]. rewrite Hc0. cbn [map app]. eexists. done. }
  destruct Hops as [l ->]. set (o1 := OpPrelude _ _). set (o2 := OpPrelude _ _). set (o3 := OpWrite _ _). cbn [app exec_all].
  assert (Hcreate : forall r x, (r, x) ∈ rel_all cwd c s f cc (map_to_list (su_tests s)) ->
    creatable f1 (vbase cwd out cc ++ r) = true <-> (r = [lit "src"; lit "convert"; lit "convert.h"] -> overridden cc s \/ lit "convert" ∈ dom (su_tests s))).
  { intros r x Hin. by eapply creatable_rel. }
  assert (C1 : creatable f1 (resolve cwd (output_path (subdir (vdir c out cc) src_dir) (path_join [prelude_dir; lit "rtcg.cpp"]))) = true).
  { rewrite at_prelude; [|done|left]. eapply Hcreate; [apply rel_cases; cbn zeta; by left|]. intros E. discriminate E. }
  assert (C2 : forall g, fs_dirs g = fs_dirs f1 -> creatable g (resolve cwd (output_path (subdir (vdir c out cc) src_dir) (path_join [prelude_dir; lit "rtcg.h"]))) = true).
  { intros g Hg. rewrite (creatable_dirs g f1) by done. rewrite at_prelude; [|done|right; left]. eapply Hcreate; [apply rel_cases; cbn zeta; right; by left|]. intros E. discriminate E. }
  assert (C3 : forall g, fs_dirs g = fs_dirs f1 -> creatable g (resolve cwd (path_join [ds_out (subdir (vdir c out cc) src_dir); lit "convert"; lit "convert.h"])) = false).
  { intros g Hg. rewrite (creatable_dirs g f1) by done. rewrite at_sdir by (done || plains). apply not_true_is_false. intros H. eapply Hcreate in H; [|apply rel_cases; cbn zeta; do 3 right; by left|done].
    by destruct H. }
  unfold o1. cbn [exec]. rewrite C1. unfold o2. cbn [exec]. rewrite C2 by done. unfold o3. cbn [exec]. rewrite C3 by done.
  eexists _, _. split; [done|]. rewrite at_sdir by (done || plains). unfold vbase. by rewrite <- app_assoc.
Qed.
Print Assumptions C49_no_override_fails.

(** ** C51 *)
(** Whatever was there before, a successful run leaves each test's files with that test's content,
    and the shared files with theirs. *)
Theorem C51_contents : forall cwd c out s ord f f' cc,
  sane c s -> separate cwd c out -> orders s ord -> generate cwd c out s ord f = (f', None) -> cc ∈ cf_cpps c ->
  let base := resolve cwd out ++ [variant_string (cc_variant cc)] in
  (forall r x, (r, x) ∈ shared_files cc s -> fs_files f' !! (base ++ r) = Some x) /\
  (forall name m r x, su_tests s !! name = Some m -> (r, x) ∈ test_files cc s name m -> fs_files f' !! (base ++ r) = Some x).
Proof.
  intros cwd c out s ord f f' cc Hs Hio Ho E Hcc base. pose proof (C49_success_files cwd c out s ord f f' Hs Hio Ho E) as H. split.
  - intros r x Hin. apply H. left. exists cc, r. split; [done|]. split; [unfold base; by rewrite <- app_assoc|by left].
  - intros name m r x Hm Hin. apply H. left. exists cc, r. split; [done|]. split; [unfold base; by rewrite <- app_assoc|]. right. left. by exists name, m.
Qed.
Print Assumptions C51_contents.
Lemma NoDup_map_inj {A B} (f : A -> B) l : (forall x y, f x = f y -> x = y) -> NoDup l -> NoDup (map f l).
Proof. intros Hf. induction 1 as [|a l Ha Hl IH]; [constructor|]. cbn. constructor; [|done]. intros (x & Hx & E)%elem_map. apply Hf in E as ->. done. Qed.
Lemma NoDup_concat_map {A B} (f : A -> list B) l : NoDup l -> (forall a, a ∈ l -> NoDup (f a)) -> (forall a b x, a ∈ l -> b ∈ l -> x ∈ f a -> x ∈ f b -> a = b) -> NoDup (concat (map f l)).
Proof.
  induction 1 as [|a l Ha Hl IH]; intros Hn Hd; [constructor|]. cbn. apply NoDup_app. split_and!; [apply Hn; left| |].
  - intros x Hx (b & Hb & Hxb)%elem_concat_map. assert (a = b) as <- by (apply (Hd a b x); [left|by right|done|done]). done.
  - apply IH; [intros b Hb; apply Hn; by right|]. intros b b' x Hb Hb'. apply Hd; by right.
Qed.
Lemma block_nodup cwd c out s cc o1 o2 o3 : valid_variant (cc_variant cc) -> (forall t, t ∈ o1 -> plain_name t.1) -> (forall t, t ∈ o2 -> plain_name t.1) -> NoDup (map fst o1) -> NoDup (map fst o2) ->
  NoDup (map (op_target cwd) (sub_ops s o1 (SCpp cc (subdir (vdir c out cc) src_dir)) ++ (match cc_catkin cc with None => [] | Some p => sub_ops s o2 (SCatkin (autofill (default empty_package p)) (subdir (vdir c out cc) src_dir)) end)
    ++ (if cc_makefile cc then sub_ops s o3 (SMakefile cc (ds_out (vdir c out cc))) else []))).
Proof.
  intros Hv P1 P2 N1 N2. set (f := Fs ∅ ∅). set (ops := _ ++ _ ++ _). assert (E : map (op_target cwd) ops = map fst (map (wsem cwd f) ops)).
  { rewrite map_map. apply map_ext. intros o. by rewrite wsem_target. }
  rewrite E. clear E. unfold ops. rewrite !map_app, (sem_cpp cwd c out s f cc o1 Hv P1).
  assert (E2 : map (wsem cwd f) (match cc_catkin cc with None => [] | Some p => sub_ops s o2 (SCatkin (autofill (default empty_package p)) (subdir (vdir c out cc) src_dir)) end) =
    under (vbase cwd out cc) (match cc_catkin cc with None => [] | Some p => rel_catkin (autofill (default empty_package p)) o2 end)).
  { destruct (cc_catkin cc) as [p|]; [|done]. by apply sem_catkin. }
  assert (E3 : map (wsem cwd f) (if cc_makefile cc then sub_ops s o3 (SMakefile cc (ds_out (vdir c out cc))) else []) = under (vbase cwd out cc) (if cc_makefile cc then rel_make s cc else [])).
  { destruct (cc_makefile cc); [|done]. by apply sem_make. }
  rewrite E2, E3. clear E2 E3. unfold under. rewrite <- !map_app.
  assert (Em : forall l : list (fpath * option content), map fst (map (fun w => (vbase cwd out cc ++ w.1, w.2)) l) = map (fun r => vbase cwd out cc ++ r) (map fst l)) by (intros l; by rewrite !map_map).
  rewrite Em. clear Em. apply NoDup_map_inj; [intros x y; apply app_inv_head|].
  rewrite !map_app. set (src := fs_files f !! _). clearbody src.
  assert (Hm1 : forall r, r ∈ map fst (rel_cpp src s cc o1) -> r = [lit "src"; lit "rtcg"; lit "rtcg.cpp"] \/ r = [lit "src"; lit "rtcg"; lit "rtcg.h"] \/ r = [lit "src"; lit "convert"; lit "convert.cpp"] \/ r = [lit "src"; lit "convert"; lit "convert.h"] \/ exists n, r = [lit "src"; n; lit "src"; lit "main.cpp"]).
  { intros r ([r' x] & H & ->)%elem_map. unfold rel_cpp in H. cbn zeta in H. rewrite !elem_of_app, elem_of_cons, !elem1 in H. cbn [fst]. destruct H as [[H|H]|[H|[H|H]]].
    - injection H as -> _. by left.
    - injection H as -> _. right. by left.
    - destruct (cx_conv _); [|by apply elem_of_nil in H]. apply elem1 in H. injection H as -> _. do 2 right. by left.
    - injection H as -> _. do 3 right. by left.
    - apply elem_map in H as (t & _ & H). injection H as -> _. do 4 right. by eexists. }
  assert (Hm2 : forall r, r ∈ map fst (match cc_catkin cc with None => [] | Some p => rel_catkin (autofill (default empty_package p)) o2 end) -> exists n, r = [lit "src"; n; lit "package.xml"] \/ r = [lit "src"; n; lit "CMakeLists.txt"]).
  { intros r ([r' x] & H & ->)%elem_map. destruct (cc_catkin cc) as [p|]; [|by apply elem_of_nil in H]. unfold rel_catkin in H. apply elem_concat_map in H as (t & _ & H). rewrite elem_of_cons, elem1 in H.
    exists t.1. destruct H as [H|H]; injection H as -> _; [by left|by right]. }
  assert (Hm3 : forall r, r ∈ map fst (if cc_makefile cc then rel_make s cc else []) -> r = [lit "Makefile"]).
  { intros r ([r' x] & H & ->)%elem_map. destruct (cc_makefile cc); [|by apply elem_of_nil in H]. apply elem1 in H. by injection H as -> _. }
  apply NoDup_app. split_and!.
  - unfold rel_cpp. cbn zeta. rewrite !map_app. change (map fst [([lit "src"; lit "rtcg"; lit "rtcg.cpp"], Some (CPrelude (lit "rtcg.cpp"))); ([lit "src"; lit "rtcg"; lit "rtcg.h"], Some (CPrelude (lit "rtcg.h")))]) with [[lit "src"; lit "rtcg"; lit "rtcg.cpp"]; [lit "src"; lit "rtcg"; lit "rtcg.h"]].
    change (map fst [([lit "src"; lit "convert"; lit "convert.h"], Some (CConvertH (cc_variant cc) (process cc (su_types s))))]) with [[lit "src"; lit "convert"; lit "convert.h"]].
    assert (Hmain : NoDup (map fst (map (fun t : gostr * stm => ([lit "src"; t.1; lit "src"; lit "main.cpp"], if renders (cc_variant cc) t.2 (process cc (su_types s)) then Some (CMain (cc_variant cc) t.1 t.2 (process cc (su_types s))) else None)) o1))).
    { rewrite map_map. cbn [fst]. rewrite <- (map_map fst (fun n => [lit "src"; n; lit "src"; lit "main.cpp"])). apply NoDup_map_inj; [|done]. intros x y E. injection E as E. done. }
    assert (Hmm : forall r, r ∈ map fst (map (fun t : gostr * stm => ([lit "src"; t.1; lit "src"; lit "main.cpp"], if renders (cc_variant cc) t.2 (process cc (su_types s)) then Some (CMain (cc_variant cc) t.1 t.2 (process cc (su_types s))) else None)) o1) -> length r = 4).
    { intros r. rewrite map_map. intros (t & _ & ->)%elem_map. done. }
    apply NoDup_app. split_and!; [repeat constructor; rewrite ?elem_of_cons, ?elem_of_nil; intros H; repeat destruct H as [H|H]; try discriminate H; done| |].
    + intros r Hr. rewrite !elem_of_app. rewrite elem_of_cons, elem1 in Hr. intros [H|[H|H]].
      * destruct (cx_conv _); [|by apply elem_of_nil in H]. apply elem1 in H. rewrite H in Hr. by destruct Hr.
      * apply elem1 in H. rewrite H in Hr. by destruct Hr.
      * apply Hmm in H. by destruct Hr as [->| ->].
    + apply NoDup_app. split_and!; [destruct (cx_conv _); repeat constructor; by apply not_elem_of_nil| |].
      * intros r Hr. destruct (cx_conv _); [|by apply elem_of_nil in Hr]. apply elem1 in Hr. rewrite elem_of_app, elem1. intros [H|H]; [by rewrite H in Hr|]. apply Hmm in H. by rewrite Hr in H.
      * apply NoDup_app. split_and!; [repeat constructor; by apply not_elem_of_nil| |done]. intros r Hr%elem1 H. apply Hmm in H. by rewrite Hr in H.
  - intros r Hr. rewrite elem_of_app. intros [H|H].
    + apply Hm2 in H as (n & [->| ->]); apply Hm1 in Hr as [E|[E|[E|[E|[k E]]]]]; discriminate E.
    + apply Hm3 in H as ->. apply Hm1 in Hr as [E|[E|[E|[E|[k E]]]]]; discriminate E.
  - apply NoDup_app. split_and!.
    + destruct (cc_catkin cc) as [p|]; [|constructor]. unfold rel_catkin. rewrite concat_map, map_map. cbn [map fst].
      rewrite <- (map_map fst (fun n => [[lit "src"; n; lit "package.xml"]; [lit "src"; n; lit "CMakeLists.txt"]])). apply NoDup_concat_map; [done| |].
      * intros a _. repeat constructor; [|by apply not_elem_of_nil]. intros H%elem1. discriminate H.
      * intros a b x _ _. rewrite !elem_of_cons, !elem_of_nil. intros [->|[->|[]]] [H|[H|[]]]; by injection H.
    + intros r Hr H. apply Hm3 in H as ->. by apply Hm2 in Hr as (n & [E|E]).
    + destruct (cc_makefile cc); repeat constructor. by apply not_elem_of_nil.
Qed.
Lemma mapi_app {A B} (f : nat -> A -> B) i l k : mapi_from f i (l ++ k) = mapi_from f i l ++ mapi_from f (i + length l) k.
Proof. revert i. induction l as [|a l IH]; intros i; cbn; [by rewrite Nat.add_0_r|]. rewrite IH. by rewrite Nat.add_succ_r. Qed.
Lemma all_nodup cwd c out s (ordf : nat -> list (gostr * stm)) cpps i :
  (forall cc, cc ∈ cpps -> valid_variant (cc_variant cc)) -> (forall k t, t ∈ ordf k -> plain_name t.1) -> (forall k, NoDup (map fst (ordf k))) -> NoDup (map cc_variant cpps) ->
  let ts := map (op_target cwd) (concat (mapi_from (fun i g => sub_ops s (ordf i) g) i (concat (map (fun cc => init_variant cc (vdir c out cc)) cpps)))) in
  NoDup ts /\ forall p, p ∈ ts -> exists cc r, cc ∈ cpps /\ p = vbase cwd out cc ++ r.
Proof.
  intros Hv Hp Hn. revert i. induction cpps as [|cc cpps IH]; intros i Hnd; cbn zeta; [split; [constructor|]; intros p Hp'; by apply elem_of_nil in Hp'|].
  cbn [map] in Hnd. apply NoDup_cons in Hnd as [Hcc Hnd]. cbn [map concat]. rewrite mapi_app, concat_app, map_app.
  assert (Hb : exists o1 o2 o3, concat (mapi_from (fun i g => sub_ops s (ordf i) g) i (init_variant cc (vdir c out cc))) =
    sub_ops s (ordf o1) (SCpp cc (subdir (vdir c out cc) src_dir)) ++ (match cc_catkin cc with None => [] | Some p => sub_ops s (ordf o2) (SCatkin (autofill (default empty_package p)) (subdir (vdir c out cc) src_dir)) end)
    ++ (if cc_makefile cc then sub_ops s (ordf o3) (SMakefile cc (ds_out (vdir c out cc))) else [])).
  { unfold init_variant. destruct (cc_catkin cc), (cc_makefile cc); cbn [app mapi_from concat]; rewrite ?app_nil_r. all: first [exists i, (S i), (S (S i)); rewrite ?app_nil_r; reflexivity|exists i, (S i), (S i); rewrite ?app_nil_r; reflexivity]. }
  destruct Hb as (o1 & o2 & o3 & ->). pose proof (Hv cc ltac:(left)) as Hvc.
  destruct (IH ltac:(intros x Hx; apply Hv; by right) (i + length (init_variant cc (vdir c out cc))) Hnd) as [IH1 IH2].
  assert (Hel : forall p, p ∈ map (op_target cwd) (sub_ops s (ordf o1) (SCpp cc (subdir (vdir c out cc) src_dir)) ++ (match cc_catkin cc with None => [] | Some p => sub_ops s (ordf o2) (SCatkin (autofill (default empty_package p)) (subdir (vdir c out cc) src_dir)) end)
    ++ (if cc_makefile cc then sub_ops s (ordf o3) (SMakefile cc (ds_out (vdir c out cc))) else [])) -> exists r, p = vbase cwd out cc ++ r).
  { intros p (o & Hop & ->)%elem_map. rewrite !elem_of_app in Hop. rewrite <- (wsem_target cwd (Fs ∅ ∅)).
    assert (Hu : forall l k, wsem cwd (Fs ∅ ∅) o ∈ map (wsem cwd (Fs ∅ ∅)) l -> map (wsem cwd (Fs ∅ ∅)) l = under (vbase cwd out cc) k -> exists r, (wsem cwd (Fs ∅ ∅) o).1 = vbase cwd out cc ++ r).
    { intros l k H E. rewrite E in H. destruct (wsem cwd (Fs ∅ ∅) o) as [q x]. apply elem_under in H as (r & -> & _). by exists r. }
    destruct Hop as [Hop|[Hop|Hop]].
    - eapply Hu; [apply elem_map; by exists o|]. apply (sem_cpp cwd c out s (Fs ∅ ∅) cc (ordf o1) Hvc). intros t Ht. by apply (Hp o1).
    - destruct (cc_catkin cc) as [p|]; [|by apply elem_of_nil in Hop]. eapply Hu; [apply elem_map; by exists o|]. apply (sem_catkin cwd c out s (Fs ∅ ∅) cc _ (ordf o2) Hvc). intros t Ht. by apply (Hp o2).
    - destruct (cc_makefile cc); [|by apply elem_of_nil in Hop]. eapply Hu; [apply elem_map; by exists o|]. by apply (sem_make cwd c out s (Fs ∅ ∅) cc (ordf o3) Hvc). }
  split.
  - apply NoDup_app. split_and!; [apply block_nodup; [done|apply Hp|apply Hp|apply Hn|apply Hn]| |done].
    intros p H1 H2. apply Hel in H1 as [r ->]. apply IH2 in H2 as (cc' & r' & Hcc' & E). apply vbase_inj in E as [E _]; [|done|apply Hv; by right]. apply Hcc. apply elem_map. by exists cc'.
  - intros p Hin. apply elem_of_app in Hin as [Hin|Hin]; [apply Hel in Hin as [r ->]; exists cc, r; split; [left|done]|]. apply IH2 in Hin as (cc' & r & Hcc' & ->). exists cc', r. split; [by right|done].
Qed.
(** No two writes of one run go to the same file. *)
Theorem C51_written_once : forall cwd c out s ord i j o o',
  sane c s -> orders s ord ->
  gen_ops s ord (gen_new c out) !! i = Some o -> gen_ops s ord (gen_new c out) !! j = Some o' ->
  is_write o -> is_write o' -> op_target cwd o = op_target cwd o' -> i = j.
Proof.
  intros cwd c out s ord i j o o' Hs Ho Hi Hj Hw Hw' E. rewrite gen_ops_phases in Hi, Hj.
  set (ds := map OpMkdir (gen_dirs s ord (gen_new c out))) in *.
  assert (Hd : forall k x, ds !! k = Some x -> ~ is_write x) by (intros k x H Hx; apply elem_of_list_lookup_2, elem_map in H as (d & _ & ->); done).
  apply lookup_app_Some in Hi as [Hi|[Hi1 Hi]]; [by apply Hd in Hi|]. apply lookup_app_Some in Hj as [Hj|[Hj1 Hj]]; [by apply Hd in Hj|].
  assert (Hc : forall k t, t ∈ ord k -> plain_name t.1).
  { intros k t Ht. rewrite (Ho k) in Ht. by apply (canon_plain s (sane_names _ _ Hs)). }
  destruct (all_nodup cwd c out s (fun i => ord (length (gen_new c out) + i)) (cf_cpps c) 0 (sane_variants _ _ Hs)) as [Hn _]; [intros k t; apply Hc| |apply Hs|].
  { intros k. change (map fst (ord (length (gen_new c out) + k))) with (ord (length (gen_new c out) + k)).*1. rewrite (Ho _). apply NoDup_fst_map_to_list. }
  enough (i - length ds = j - length ds) by lia. change (NoDup (fmap (M := list) (op_target cwd) (gen_writes s ord (gen_new c out)))) in Hn.
  apply (NoDup_lookup _ (i - length ds) (j - length ds) (op_target cwd o) Hn).
  - rewrite list_lookup_fmap, Hi. done.
  - rewrite list_lookup_fmap, Hj. cbn. by rewrite E.
Qed.
Print Assumptions C51_written_once.

(** ** C52 *)
Theorem C52_package_per_test : forall cwd c out s ord f f' cc p,
  sane c s -> separate cwd c out -> orders s ord -> generate cwd c out s ord f = (f', None) ->
  cc ∈ cf_cpps c -> cc_catkin cc = Some p ->
  forall name, name ∈ dom (su_tests s) ->
    let pkg := expand_package name (autofill (default empty_package p)) in
    let dir := resolve cwd out ++ [variant_string (cc_variant cc); lit "src"; name] in
    fs_files f' !! (dir ++ [lit "package.xml"]) = Some (CPackage pkg) /\ fs_files f' !! (dir ++ [lit "CMakeLists.txt"]) = Some (CCMake pkg).
Proof.
  intros cwd c out s ord f f' cc p Hs Hio Ho E Hcc Hk name Hn pkg dir. apply elem_of_dom in Hn as [m Hm].
  destruct (C51_contents cwd c out s ord f f' cc Hs Hio Ho E Hcc) as [_ H]. unfold dir. rewrite <- !app_assoc. split.
  - specialize (H name m [lit "src"; name; lit "package.xml"] (CPackage pkg) Hm). rewrite <- app_assoc in H. apply H. unfold test_files. rewrite Hk. right. left.
  - specialize (H name m [lit "src"; name; lit "CMakeLists.txt"] (CCMake pkg) Hm). rewrite <- app_assoc in H. apply H. unfold test_files. rewrite Hk. right. right. left.
Qed.
Print Assumptions C52_package_per_test.

(** ** C65: generation does not depend on the order in which maps are ranged over *)
Theorem C65_deterministic : forall cwd c out s ord ord' f f1 e1 f2 e2,
  sane c s -> separate cwd c out -> orders s ord -> orders s ord' ->
  generate cwd c out s ord f = (f1, e1) -> generate cwd c out s ord' f = (f2, e2) ->
  (e1 = None <-> e2 = None) /\ (e1 = None -> f1 = f2).
Proof.
  intros cwd c out s ord ord' f f1 e1 f2 e2 Hs Hio Ho Ho' E1 E2. pose proof Hs as [Hv Hnd Hp].
  destruct (generate_result cwd c out s Hv Hp Hnd Hio ord f Ho) as (g1 & x1 & F1 & He1 & _ & Hfin1). rewrite E1 in F1. injection F1 as <- <-.
  destruct (generate_result cwd c out s Hv Hp Hnd Hio ord' f Ho') as (g2 & x2 & F2 & He2 & _ & Hfin2). rewrite E2 in F2. injection F2 as <- <-.
  assert (Hap : all_prefixes cwd (gen_dirs s ord (gen_new c out)) = all_prefixes cwd (gen_dirs s ord' (gen_new c out))) by (apply set_eq; intros q; by rewrite !all_prefixes_elem).
  assert (Hmd : made cwd c out s ord f = made cwd c out s ord' f) by (unfold made; by rewrite Hap).
  assert (Hdd : forall d, d ∈ gen_dirs s ord (gen_new c out) <-> d ∈ gen_dirs s ord' (gen_new c out)) by (intros d; by rewrite !gen_dirs_elem).
  assert (Hiff : e1 = None <-> e2 = None) by (rewrite He1, He2, Hmd; by setoid_rewrite Hdd). split; [done|].
  intros Hn. destruct (Hfin1 Hn) as [D1 L1]. destruct (Hfin2 (proj1 Hiff Hn)) as [D2 L2]. destruct f1 as [d1 m1], f2 as [d2 m2]. cbn in *. rewrite D1, D2, Hap. f_equal.
  apply map_eq. intros p. apply option_eq. intros x. by rewrite L1, L2.
Qed.
Print Assumptions C65_deterministic.

(** ** C66: the user's conversion code *)
Theorem C66_conversion_code_kept : forall cwd c out s ord f f' e cc,
  sane c s -> separate cwd c out -> orders s ord -> generate cwd c out s ord f = (f', e) -> cc ∈ cf_cpps c ->
  fs_files f' !! conv_source cwd c cc = fs_files f !! conv_source cwd c cc.
Proof.
  intros cwd c out s ord f f' e cc Hs Hio Ho E Hcc. pose proof Hs as [Hv Hnd Hp].
  destruct (generate_result cwd c out s Hv Hp Hnd Hio ord f Ho) as (f1 & e1 & E1 & _ & Hun & _). rewrite E in E1. injection E1 as <- <-.
  apply Hun. intros y. by apply source_not_written.
Qed.
Print Assumptions C66_conversion_code_kept.
Lemma exec_untouched cwd o f p : (is_write o -> op_target cwd o <> p) -> fs_files (exec cwd o f).1 !! p = fs_files f !! p.
Proof.
  intros H. destruct o as [q|n q|src dst|q x]; cbn [exec op_target is_write] in *.
  - unfold mkdir_all. by destruct (decide _).
  - destruct (creatable _ _); [|done]. cbn. rewrite lookup_insert_ne; [done|by apply H].
  - specialize (H I). destruct (negb _); [done|]. destruct (creatable _ _); [|done]. cbn [fs_files put]. destruct (_ !! resolve cwd src); cbn; rewrite ?lookup_insert_ne by done; done.
  - specialize (H I). destruct (creatable _ _); [|done]. destruct x; cbn; by rewrite lookup_insert_ne.
Qed.
Lemma exec_all_untouched cwd ops f p : (forall o, o ∈ ops -> is_write o -> op_target cwd o <> p) -> fs_files (exec_all cwd ops f).1 !! p = fs_files f !! p.
Proof.
  revert f. induction ops as [|o ops IH]; intros f H; [done|]. cbn [exec_all]. pose proof (exec_untouched cwd o f p (H o ltac:(left))) as E.
  destruct (exec cwd o f) as [f1 [e|]]; [done|]. cbn [fst] in E. rewrite <- E. apply IH. intros x Hx. apply H. by right.
Qed.
(** With one directory for both, generating empties it, and reports success. *)
Theorem C66_same_directory_empties : forall cwd c out s ord f f' cc,
  sane c s -> ~ separate cwd c out -> orders s ord -> generate cwd c out s ord f = (f', None) -> cc ∈ cf_cpps c -> overridden cc s ->
  fs_files f' !! conv_source cwd c cc = Some (Bytes []).
Proof.
  intros cwd c out s ord f f' cc Hs Hio Ho E Hcc Hov. pose proof (sane_variants _ _ Hs cc Hcc) as Hv.
  assert (Hd : resolve cwd (cf_dir c) = resolve cwd out) by (destruct (decide (resolve cwd (cf_dir c) = resolve cwd out)) as [?|Hn]; [done|by destruct Hio]).
  set (dd := subdir (subdir (vdir c out cc) src_dir) convert_dir). set (o := OpCopy (path_join [ds_in dd; lit "convert.cpp"]) (path_join [ds_out dd; lit "convert.cpp"])).
  assert (Hop : o ∈ gen_ops s ord (gen_new c out)).
  { rewrite gen_ops_phases. apply elem_of_app. right. unfold gen_writes. apply elem_mapi_iff.
    assert (Hg : SCpp cc (subdir (vdir c out cc) src_dir) ∈ gen_new c out) by (unfold gen_new; apply elem_concat_map; exists cc; split; [done|left]).
    apply elem_of_list_lookup_1 in Hg as [k Hk]. exists k, (SCpp cc (subdir (vdir c out cc) src_dir)). split; [done|]. cbn [sub_ops]. apply conv_iff in Hov as ->. rewrite !elem_of_app. right. left. left. }
  assert (Hsrc : resolve cwd (path_join [ds_in dd; lit "convert.cpp"]) = conv_source cwd c cc) by (by apply (source_at cwd c out)).
  assert (Hdst : resolve cwd (path_join [ds_out dd; lit "convert.cpp"]) = conv_source cwd c cc).
  { unfold dd. rewrite out_subdir, resolve_join_plain' by plains. rewrite at_sdir by (done || plains). unfold conv_source, vbase. rewrite Hd. by rewrite <- !app_assoc. }
  apply elem_of_list_lookup_1 in Hop as [i Hi]. pose proof (take_drop_middle _ _ _ Hi) as Hsplit.
  unfold generate in E. rewrite <- Hsplit, exec_all_app in E. destruct (exec_all cwd (take i (gen_ops s ord (gen_new c out))) f) as [f1 [e1|]]; [done|].
  cbn [exec_all] in E. unfold o in E. cbn [exec] in E. rewrite Hsrc, Hdst in E. destruct (negb _); [done|]. destruct (creatable _ _); [|done]. cbn [fs_files put] in E. rewrite lookup_insert in E.
  set (f2 := put _ _ _) in E. replace f' with (exec_all cwd (drop (S i) (gen_ops s ord (gen_new c out))) f2).1 by (by rewrite E).
  rewrite exec_all_untouched; [unfold f2; cbn; by rewrite lookup_insert|]. intros o' Ho' Hw' Et. apply elem_of_list_lookup_1 in Ho' as [j Hj]. rewrite lookup_drop in Hj.
  assert (i = S i + j); [|lia]. eapply (C51_written_once cwd c out s ord i (S i + j) o o' Hs Ho Hi Hj I Hw'). rewrite Et. done.
Qed.
Print Assumptions C66_same_directory_empties.

(** ** C56: cleaning *)
Lemma exec_keeps cwd o f : nothing_deleted f (exec cwd o f).1.
Proof.
  assert (Hput : forall f p x, nothing_deleted f (put f p x)).
  { intros g p x. split; [|done]. intros q [y Hq]. unfold has_file. cbn. destruct (decide (p = q)) as [->|Hne]; [rewrite lookup_insert; by eexists|]. rewrite lookup_insert_ne by done. by exists y. }
  assert (Hrefl : nothing_deleted f f) by done.
  destruct o as [q|n q|src dst|q x]; cbn [exec].
  - unfold mkdir_all. destruct (decide _); [done|]. cbn. split; [done|]. intros p [->|Hp]; [by left|right]. cbn. set_solver.
  - destruct (creatable _ _); [apply Hput|done].
  - destruct (negb _); [done|]. destruct (creatable _ _); [|done]. destruct (fs_files _ !! resolve cwd src); [|apply Hput].
    destruct (Hput f (resolve cwd dst) (Bytes [])) as [A1 A2], (Hput (put f (resolve cwd dst) (Bytes [])) (resolve cwd dst) c) as [B1 B2]. split; [intros p H; by apply B1, A1|intros p H; by apply B2, A2].
  - destruct (creatable _ _); [|done]. destruct x; apply Hput.
Qed.
Lemma exec_all_keeps cwd ops f : nothing_deleted f (exec_all cwd ops f).1.
Proof.
  revert f. induction ops as [|o ops IH]; intros f; [done|]. cbn [exec_all]. destruct (exec_keeps cwd o f) as [A1 A2]. destruct (exec cwd o f) as [f1 [e|]]; [done|].
  cbn [fst] in *. destruct (IH f1) as [B1 B2]. split; [intros p H; by apply B1, A1|intros p H; by apply B2, A2].
Qed.
Section Run.
Context (xml : gostr -> option config) (json : gostr -> option stm_suite) (ord : stm_suite -> nat -> list (gostr * stm)) (cwd : fpath) (stdin : gostr).
Theorem C56_no_clean_no_deletion : forall a f, ga_clean a = false -> nothing_deleted f (run_gen xml json ord cwd stdin a f).1.
Proof using Type.
  intros a f Ha. unfold run_gen. destruct (_ ≫= json) as [s|]; [|done]. rewrite Ha. destruct (load_config _ _ _ _) as [c|]; [|done].
  pose proof (exec_all_keeps cwd (gen_ops s (ord s) (gen_new c (clean (ga_output a)))) f) as H. unfold generate. by destruct (exec_all _ _ _) as [f1 [e|]].
Qed.
(** An output path that denotes the current directory, wherever that is. *)
Theorem C56_current_directory_refused : forall a f, ga_clean a = true -> (forall here, resolve here (ga_output a) = here) ->
  exists e, run_gen xml json ord cwd stdin a f = (f, Some e) /\ (e = ErrCleanDot \/ e = ReadSuiteErr).
Proof using Type.
  intros a f Ha Hd. apply clean_dot in Hd. unfold run_gen. rewrite Hd. destruct (_ ≫= json) as [s|]; [|eexists; split; [done|by right]].
  rewrite Ha, decide_True by done. eexists. split; [done|by left].
Qed.
(** Whatever else is cleaned, only what is in the output directory goes. *)
Theorem C56_only_output_deleted : forall a f p, ~ resolve cwd (ga_output a) `prefix_of` p ->
  let f' := (run_gen xml json ord cwd stdin a f).1 in (has_file f p -> has_file f' p) /\ (is_dir f p -> is_dir f' p).
Proof using Type.
  intros a f p Hp. cbn zeta. destruct (ga_clean a) eqn:Ha; [|destruct (C56_no_clean_no_deletion a f Ha) as [H1 H2]; split; [apply H1|apply H2]].
  unfold run_gen. destruct (_ ≫= json) as [s|]; [|done]. rewrite Ha. destruct (decide (clean (ga_output a) = lit ".")) as [E|E]; [done|]. rewrite resolve_clean. set (f1 := remove_below _ f).
  assert (H1 : (has_file f p -> has_file f1 p) /\ (is_dir f p -> is_dir f1 p)).
  { unfold f1, remove_below, has_file, is_dir. cbn. split.
    - intros [x Hx]. exists x. apply map_filter_lookup_Some. done.
    - intros [->|H]; [by left|right]. apply elem_of_filter. done. }
  destruct (undeletable _); [done|]. destruct (load_config _ _ _ _) as [c|]; [|done].
  pose proof (exec_all_keeps cwd (gen_ops s (ord s) (gen_new c (clean (ga_output a)))) f1) as [K1 K2]. unfold generate. destruct H1 as [A1 A2].
  destruct (exec_all _ _ _) as [f2 [e|]]; cbn [fst] in *; (split; [intros H; by apply K1, A1|intros H; by apply K2, A2]).
Qed.
(** ** C57: standard input *)
Theorem C57_stdin_spelling : forall cl out cfg input f,
  (forall here, resolve here input = resolve here (lit "-")) ->
  run_gen xml json ord cwd stdin (GenAction cl out cfg input) f = run_gen xml json ord cwd stdin (GenAction cl out cfg (lit "-")) f.
Proof using Type. intros cl out cfg input f H. apply clean_canonical in H. unfold run_gen. cbn [ga_input ga_output ga_config ga_clean]. by rewrite H. Qed.
(** How paths are spelled does not matter otherwise either. *)
Theorem C67_spelling : forall cl out cfg input out' cfg' input' f,
  (forall here, resolve here out = resolve here out') -> (forall here, resolve here cfg = resolve here cfg') -> (forall here, resolve here input = resolve here input') ->
  run_gen xml json ord cwd stdin (GenAction cl out cfg input) f = run_gen xml json ord cwd stdin (GenAction cl out' cfg' input') f.
Proof using Type. intros cl out cfg input out' cfg' input' f H1 H2 H3. apply clean_canonical in H1, H2, H3. unfold run_gen. cbn [ga_input ga_output ga_config ga_clean]. by rewrite H1, H2, H3. Qed.
End Run.
Print Assumptions C56_no_clean_no_deletion.
Print Assumptions C56_current_directory_refused.
Print Assumptions C56_only_output_deleted.
Print Assumptions C57_stdin_spelling.
Print Assumptions C67_spelling.
Theorem C67_clean : forall p q, clean p = clean q <-> forall here, resolve here p = resolve here q.
Proof. exact clean_canonical. Qed.
Theorem C67_clean_idempotent : forall p, clean (clean p) = clean p /\ forall here, resolve here (clean p) = resolve here p.
Proof. intros p. split; [apply clean_canonical|]; intros here; apply resolve_clean. Qed.

(** ** Witnesses *)
Definition ex_home : fpath := [lit "home"].
Definition ex_stm : stm := Stm [State (lit "initial") [] ∅] ∅ ∅.
Definition ex_suite : stm_suite := StmSuite {[ lit "c" := ty_enum ]} {[ lit "t" := ex_stm; lit "u" := ex_stm ]}.
Definition ex_cpp (v : variant) : cpp_config := CppConfig v [] [(lit "c", lit "T")] true (Some None).
Definition ex_config : config := Config [ex_cpp VAnimate; ex_cpp VRos] (lit "in").
Definition ex_source (v : gostr) : fpath := [lit "home"; lit "in"; v; lit "src"; lit "convert"; lit "convert.cpp"].
Definition ex_fs : fs := Fs (list_to_set (prefixes (removelast (ex_source (lit "animate"))) ++ prefixes (removelast (ex_source (lit "ros")))))
  (<[ex_source (lit "animate") := Bytes (lit "A")]> {[ ex_source (lit "ros") := Bytes (lit "R") ]}).
Definition ex_ord (n : nat) : list (gostr * stm) := if Nat.even n then [(lit "t", ex_stm); (lit "u", ex_stm)] else [(lit "u", ex_stm); (lit "t", ex_stm)].
Lemma ex_sane : sane ex_config ex_suite.
Proof.
  split.
  - intros cc H. cbn in H. rewrite elem_of_cons, elem1 in H. destruct H as [->| ->]; [by left|by right].
  - cbn. apply NoDup_cons. split; [intros H%elem1; done|]. apply NoDup_singleton.
  - intros name H. apply elem_of_dom in H as [m H]. unfold ex_suite in H. cbn [su_tests] in H. apply lookup_insert_Some in H as [[<- _]|[_ H]]; [plain|]. apply lookup_singleton_Some in H as [<- _]. plain.
Qed.
Lemma ex_orders : orders ex_suite ex_ord.
Proof.
  intros i. assert (E : map_to_list (su_tests ex_suite) ≡ₚ [(lit "t", ex_stm); (lit "u", ex_stm)]).
  { unfold ex_suite. cbn [su_tests]. rewrite map_to_list_insert by (by vm_compute). by rewrite map_to_list_singleton. }
  rewrite E. unfold ex_ord. destruct (Nat.even i); [done|]. apply Permutation_swap.
Qed.
Example C49_witness : sane ex_config ex_suite /\ separate ex_home ex_config (lit "out") /\ orders ex_suite ex_ord /\ unused ex_fs (resolve ex_home (lit "out")) /\
  complete ex_home ex_config ex_suite ex_fs /\ (generate ex_home ex_config (lit "out") ex_suite ex_ord ex_fs).2 = None.
Proof.
  assert (Hu : unused ex_fs (resolve ex_home (lit "out"))).
  { split.
    - intros p x H. unfold ex_fs in H. cbn [fs_files] in H. apply lookup_insert_Some in H as [[<- _]|[_ H]]; [|apply lookup_singleton_Some in H as [<- _]].
      all: split; refine (bool_decide_eq_false_1 _ _); vm_compute; reflexivity.
    - intros p H Hpre. exfalso. revert H Hpre. unfold ex_fs. cbn [fs_dirs]. rewrite elem_of_list_to_set. intros Hin.
      assert (Hall : Forall (fun p => ~ resolve ex_home (lit "out") `prefix_of` p) (prefixes (removelast (ex_source (lit "animate"))) ++ prefixes (removelast (ex_source (lit "ros"))))).
      { refine (bool_decide_eq_true_1 _ _). vm_compute. reflexivity. }
      rewrite Forall_forall in Hall. by apply Hall. }
  assert (Hsep : separate ex_home ex_config (lit "out")) by (refine (bool_decide_eq_false_1 _ _); vm_compute; reflexivity).
  assert (Hok : (generate ex_home ex_config (lit "out") ex_suite ex_ord ex_fs).2 = None) by (vm_compute; reflexivity).
  split_and!; [apply ex_sane|done|apply ex_orders|done| |done].
  destruct (generate ex_home ex_config (lit "out") ex_suite ex_ord ex_fs) as [f' e] eqn:E. cbn in Hok. subst e.
  eapply (C49_succeeds_iff ex_home ex_config (lit "out") ex_suite ex_ord ex_fs f' None ex_sane Hsep ex_orders Hu E). done.
Qed.
(** Without the override, the same run fails. *)
Example C49_witness_no_override : ~ overridden (CppConfig VAnimate [] [(lit "d", lit "T")] true (Some None)) ex_suite /\
  (generate ex_home (Config [CppConfig VAnimate [] [(lit "d", lit "T")] true (Some None)] (lit "in")) (lit "out") ex_suite ex_ord ex_fs).2 = Some (ECreate (lit "out/animate/src/convert/convert.h")).
Proof. split; [rewrite <- conv_iff; vm_compute; discriminate|vm_compute; reflexivity]. Qed.
(** A test called convert makes the missing directory as a side effect. *)
Example C49_witness_convert_test :
  (generate ex_home (Config [CppConfig VAnimate [] [] false None] (lit "in")) (lit "out") (StmSuite ∅ {[ lit "convert" := ex_stm ]}) (fun _ => [(lit "convert", ex_stm)]) ex_fs).2 = None.
Proof. vm_compute. reflexivity. Qed.
(** A variant listed twice: one configuration's files replace the other's. *)
Definition conv_types (x : content) : option (list gostr) := match x with CConvertH _ ctx => Some (map (fun kv => kv.2.2) (map_to_list (cx_types ctx))) | _ => None end.
Theorem C51_variant_twice_refuted : exists cwd c out s ord f f' cc r x,
  valid_variants c /\ plain_tests s /\ separate cwd c out /\ orders s ord /\ generate cwd c out s ord f = (f', None) /\ cc ∈ cf_cpps c /\
  (r, x) ∈ shared_files cc s /\ fs_files f' !! (resolve cwd out ++ variant_string (cc_variant cc) :: r) <> Some x.
Proof.
  set (c1 := CppConfig VAnimate [] [(lit "c", lit "T")] false None). set (c2 := CppConfig VAnimate [] [(lit "c", lit "U")] false None).
  exists ex_home, (Config [c1; c2] (lit "in")), (lit "out"), ex_suite, ex_ord, ex_fs. eexists _, c1, [lit "src"; lit "convert"; lit "convert.h"], (CConvertH VAnimate (process c1 (su_types ex_suite))).
  split_and!.
  - intros cc H. cbn in H. rewrite elem_of_cons, elem1 in H. destruct H as [->| ->]; by left.
  - exact (sane_names _ _ ex_sane).
  - refine (bool_decide_eq_false_1 _ _). vm_compute. reflexivity.
  - apply ex_orders.
  - refine (eq_trans (surjective_pairing _) _). apply f_equal2; [reflexivity|]. vm_compute. reflexivity.
  - left.
  - right. right. left.
  - intros H. apply (f_equal (fun o => o ≫= conv_types)) in H. vm_compute in H. discriminate H.
Qed.
Example C66_witness : ~ separate ex_home ex_config (lit "./in") /\ overridden (ex_cpp VAnimate) ex_suite /\
  (generate ex_home ex_config (lit "./in") ex_suite ex_ord ex_fs).2 = None /\ fs_files ex_fs !! conv_source ex_home ex_config (ex_cpp VAnimate) = Some (Bytes (lit "A")).
Proof. split_and!; [|apply conv_iff; vm_compute; reflexivity|vm_compute; reflexivity|vm_compute; reflexivity]. intros H. apply H. vm_compute. reflexivity. Qed.
(** Cleaning: .. is not refused, and takes the current directory with it. *)
Definition ex_xml (s : gostr) : option config := Some ex_config.
Definition ex_json (s : gostr) : option stm_suite := Some ex_suite.
Theorem C56_parent_refuted : exists xml json ord cwd stdin a f p,
  ga_clean a = true /\ has_file f p /\ cwd `prefix_of` p /\ ~ has_file (run_gen xml json ord cwd stdin a f).1 p.
Proof.
  exists ex_xml, ex_json, (fun _ => ex_ord), [lit "home"; lit "in"], [], (GenAction true (lit "..") (lit "x.xml") (lit "-")), ex_fs, (ex_source (lit "ros")). split_and!; [done|..].
  - eexists. vm_compute. reflexivity.
  - refine (bool_decide_eq_true_1 _ _). vm_compute. reflexivity.
  - intros [x H]. vm_compute in H. discriminate H.
Qed.
(** Nor is the current directory, spelled in a way that works only there. *)
Theorem C56_current_by_name_refuted : exists xml json ord cwd stdin a f p,
  ga_clean a = true /\ resolve cwd (ga_output a) = cwd /\ has_file f p /\ cwd `prefix_of` p /\ ~ has_file (run_gen xml json ord cwd stdin a f).1 p.
Proof.
  exists ex_xml, ex_json, (fun _ => ex_ord), [lit "home"; lit "in"], [], (GenAction true (lit "../in") (lit "x.xml") (lit "-")), ex_fs, (ex_source (lit "ros")). split_and!; [done|done|..].
  - eexists. vm_compute. reflexivity.
  - refine (bool_decide_eq_true_1 _ _). vm_compute. reflexivity.
  - intros [x H]. vm_compute in H. discriminate H.
Qed.
Example C56_witness : (forall here, resolve here (lit "a/..") = here) /\ (forall here, resolve here [] = here) /\ (forall here, resolve here (lit "./.") = here) /\
  (run_gen ex_xml ex_json (fun _ => ex_ord) ex_home [] (GenAction true (lit "a/..") (lit "x.xml") (lit "-")) ex_fs).2 = Some ErrCleanDot.
Proof. split_and!; [|done|done|vm_compute; reflexivity]. intros here. change (removelast (here ++ [lit "a"]) = here). by rewrite removelast_last. Qed.
Example C57_witness : (forall here, resolve here (lit "./-") = resolve here (lit "-")) /\ lit "./-" <> lit "-".
Proof. done. Qed.
