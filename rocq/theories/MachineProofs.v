(** * Lemmas about built machines *)
From Verif Require Export StmProofs.

(** ** Erasing identifiers *)
Lemma node_at_erase n p : node_at (erase_ids n) p = erase_ids <$> node_at n p.
Proof.
  revert n. induction p as [|i p IH]; intros n; [done|]. destruct n as [x t o e next]. cbn.
  rewrite list_lookup_fmap. destruct (next !! i); [|done]. cbn. apply IH.
Qed.
Lemma erase_fields n : n_tests (erase_ids n) = n_tests n /\ n_outcome (erase_ids n) = n_outcome n /\
  n_event (erase_ids n) = n_event n /\ n_next (erase_ids n) = map erase_ids (n_next n).
Proof. by destruct n. Qed.
Lemma erase_good_node n : good_node (erase_ids n) <-> good_node n.
Proof.
  destruct n as [x t o e next]. unfold good_node. cbn.
  assert (map erase_ids next = [] <-> next = []) as H1 by (destruct next; split; done).
  assert ((exists c, map erase_ids next = [c]) <-> exists c, next = [c]) as H2.
  { destruct next as [|a [|b l]]; cbn; split; intros [c Hc]; try discriminate; [by exists a|by exists (erase_ids a)]. }
  rewrite H1, H2. done.
Qed.
Lemma erase_good_tree a b : erase_ids a = erase_ids b -> good_tree a -> good_tree b.
Proof.
  intros E [[H1 [H2 H3]] H4]. split.
  - pose proof (erase_fields a) as (A1 & A2 & A3 & _). pose proof (erase_fields b) as (B1 & B2 & B3 & _).
    unfold good_root. rewrite <- B1, <- B2, <- B3, <- E, A1, A2, A3. done.
  - intros p m Hp Hm. apply (f_equal (fmap erase_ids)) in Hm. rewrite <- node_at_erase, <- E, node_at_erase in Hm.
    destruct (node_at a p) as [k|] eqn:Hk; [|done]. cbn in Hm. injection Hm as Hm.
    apply erase_good_node. rewrite <- Hm. apply erase_good_node. by apply (H4 p).
Qed.
Lemma erase_node_at a b p n : erase_ids a = erase_ids b -> node_at a p = Some n ->
  exists m, node_at b p = Some m /\ erase_ids m = erase_ids n.
Proof.
  intros E H. apply (f_equal (fmap erase_ids)) in H. rewrite <- node_at_erase, E, node_at_erase in H.
  destruct (node_at b p) as [m|]; [|done]. cbn in H. injection H as H. by exists m.
Qed.
Lemma erase_tree_event a b e : erase_ids a = erase_ids b -> tree_event a e -> tree_event b e.
Proof.
  intros E (p & n & H & He). destruct (erase_node_at _ _ _ _ E H) as (m & Hm & Hmn). exists p, m. split; [done|].
  rewrite <- He. by rewrite <- (proj1 (proj2 (proj2 (erase_fields m)))), Hmn, (proj1 (proj2 (proj2 (erase_fields n)))).
Qed.

Lemma assign_erase num l num' cs : assign num l = (num', cs) -> map erase_ids cs = map erase_ids l.
Proof.
  revert num num' cs. induction l as [|c l IH]; intros num num' cs; cbn; [by intros [= <- <-]|].
  case_bool_decide.
  - destruct (assign num l) as [n2 r'] eqn:E'. intros [= <- <-]. cbn. f_equal. by eapply IH.
  - destruct (assign (num + 1) l) as [n2 r'] eqn:E'. intros [= <- <-]. cbn. f_equal; [by destruct c|]. by eapply IH.
Qed.
Lemma lab_erase : (forall num n num' n', lab num n num' n' -> erase_ids n' = erase_ids n) /\
  (forall num l num' l', labs num l num' l' -> map erase_ids l' = map erase_ids l).
Proof.
  assert (H : forall num n num' n' (L : lab num n num' n'), erase_ids n' = erase_ids n).
  { apply (lab_mut (fun num n num' n' _ => erase_ids n' = erase_ids n)
                   (fun num l num' l' _ => map erase_ids l' = map erase_ids l)); try done.
    - intros num n num1 cs num2 cs' _ Ea _ IH. destruct n as [x t o e next]. cbn in *. f_equal.
      rewrite IH. by eapply assign_erase.
    - intros. cbn. congruence. }
  split; [done|]. induction 1; [done|]. cbn. f_equal; [by eapply H|done].
Qed.

(** ** Failing nodes are leaves *)
Definition fail_leaf (n : node) : Prop := forall p m, node_at n p = Some m -> n_outcome m = OFail -> n_next m = [].
Lemma fail_leaf_kids n c : fail_leaf n -> c ∈ n_next n -> fail_leaf c.
Proof.
  intros H Hc p m Hm. apply elem_of_list_lookup in Hc as [i Hi]. apply (H (i :: p)). cbn. by rewrite Hi.
Qed.
Lemma good_tree_fail_leaf n : good_tree n -> fail_leaf n.
Proof.
  intros [(_ & Ho & _) H] p m Hm Hf. destruct p as [|i p].
  - cbn in Hm. injection Hm as <-. congruence.
  - apply fail_no_next; [|done]. by apply (H (i :: p)).
Qed.
Lemma good_tree_live_event n p m : good_tree n -> node_at n p = Some m -> p <> [] -> n_outcome m <> OFail -> exists e, n_event m = Some e.
Proof.
  intros [_ H] Hm Hp Ho. destruct (H p m Hp Hm) as [_ [(? & _)|[(_ & He & _)|(_ & He & _)]]]; [done| |];
  destruct (n_event m) as [e|]; try done; by exists e.
Qed.

Definition is_live (pn : path * node) : Prop := n_outcome pn.2 <> OFail.
Global Instance is_live_dec pn : Decision (is_live pn).
Proof. unfold is_live. apply _. Defined.
Lemma rlist_preorder p n : fail_leaf n -> rlist p n ≡ₚ filter is_live (preorder p n).
Proof.
  revert p. induction n as [x t o e next IH] using node_ind'. intros p Hf.
  rewrite rlist_eq, preorder_eq, filter_cons. cbn [n_outcome n_next].
  destruct (decide (o = OFail)) as [Ho|Ho].
  - rewrite decide_False by (unfold is_live; cbn; tauto).
    pose proof (Hf [] _ eq_refl Ho) as Hn. cbn in Hn. by rewrite Hn.
  - rewrite decide_True by (unfold is_live; cbn; tauto). f_equiv.
    assert (Hk : Forall fail_leaf next).
    { apply Forall_forall. intros c Hc. by eapply fail_leaf_kids. }
    clear Hf. generalize 0. induction IH as [|c l Hc Hl IHl]; intros i; cbn [rlists preorders]; [done|].
    apply Forall_cons in Hk as [Hkc Hk]. rewrite filter_app, (IHl Hk (S i)), (Hc _ Hkc). apply Permutation_app_comm.
Qed.
Lemma rlist_listing T : good_tree T -> live_listing T (rlist [] T).
Proof.
  intros H. pose proof (good_tree_fail_leaf _ H) as Hf. pose proof (rlist_preorder [] T Hf) as Hp. split; [|split].
  - rewrite rlist_eq. destruct H as [(_ & Ho & _) _]. by rewrite decide_False by congruence.
  - rewrite Hp. pose proof (StronglySorted_NoDup _ (preorder_sorted [] T)) as Hnd. revert Hnd.
    generalize (preorder [] T) as l. induction l as [|a l IHl]; [done|]. cbn [fmap list_fmap]. rewrite NoDup_cons.
    intros [H1 H2]. rewrite filter_cons. destruct (decide (is_live a)); [|by apply IHl].
    cbn [fmap list_fmap]. apply NoDup_cons. split; [|by apply IHl]. intros Hin. apply H1.
    apply elem_of_list_fmap in Hin as (y & -> & Hy). apply elem_of_list_filter in Hy as [_ Hy].
    apply elem_of_list_fmap. by exists y.
  - intros p n. rewrite Hp, elem_of_list_filter, elem_preorder. unfold is_live. cbn [snd]. split.
    + intros [H1 (r & -> & H2)]. done.
    + intros [H1 H2]. split; [done|]. by exists p.
Qed.

(** ** Identifiers *)
Fixpoint below_ids (n : node) : list gostr :=
  match n with Node _ _ _ _ next => concat (map (fun c => n_id c :: below_ids c) next) end.
Lemma below_ids_eq n : below_ids n = concat (map (fun c => n_id c :: below_ids c) (n_next n)).
Proof. by destruct n. Qed.
Lemma below_split l : concat (map (fun c => n_id c :: below_ids c) l) ≡ₚ map n_id l ++ concat (map below_ids l).
Proof.
  induction l as [|c l IH]; [done|]. cbn. f_equiv. rewrite IH. rewrite !(assoc_L (++)). f_equiv. apply Permutation_app_comm.
Qed.
Lemma preorder_ids p n : map n_id (preorder p n).*2 = n_id n :: below_ids n.
Proof.
  revert p. induction n as [x t o e next IH] using node_ind'. intros p. rewrite preorder_eq, below_ids_eq.
  cbn [fmap list_fmap map snd n_id n_next]. f_equal. generalize 0.
  induction IH as [|c l Hc Hl IHl]; intros i; [done|]. cbn [preorders map concat].
  rewrite fmap_app, map_app, Hc, IHl. done.
Qed.
Definition given (l : list gostr) : list gostr := filter (fun i => i <> []) l.
Lemma given_perm l1 l2 : l1 ≡ₚ l2 -> given l1 ≡ₚ given l2.
Proof. intros H. unfold given. by rewrite H. Qed.
Lemma given_app a b : given (a ++ b) = given a ++ given b.
Proof. apply filter_app. Qed.

Lemma step_id_inj a b : step_id a = step_id b -> a = b.
Proof. unfold step_id. intros H. apply app_inv_head in H. by apply format_N_inj. Qed.
Lemma step_id_nonempty a : step_id a <> [].
Proof. done. Qed.
Lemma step_id_initial a : step_id a <> lit "initial".
Proof. done. Qed.

Lemma assign_ids_spec l : forall num num' cs, assign num l = (num', cs) ->
  (num <= num')%N /\ exists ks, map n_id cs ≡ₚ given (map n_id l) ++ map step_id ks /\
    NoDup ks /\ Forall (fun k => num <= k < num')%N ks.
Proof.
  induction l as [|c l IH]; intros num num' cs; cbn [assign].
  - intros [= <- <-]. split; [lia|]. exists []. split; [done|]. split; constructor.
  - case_bool_decide as Hc.
    + destruct (assign num l) as [n2 r'] eqn:E. intros [= <- <-]. destruct (IH _ _ _ E) as (Hle & ks & Hp & Hnd & Hr).
      split; [done|]. exists ks. split; [|done]. cbn [map]. unfold given. rewrite filter_cons.
      rewrite decide_True by done. cbn. by f_equiv.
    + destruct (assign (num + 1) l) as [n2 r'] eqn:E. intros [= <- <-].
      destruct (IH _ _ _ E) as (Hle & ks & Hp & Hnd & Hr).
      split; [lia|]. exists (num :: ks). split; [|split].
      * cbn [map]. unfold given. rewrite filter_cons. rewrite decide_False by (intros H; exact (H Hc)).
        rewrite <- Permutation_middle. assert (n_id (set_id (step_id num) c) = step_id num) as -> by (by destruct c).
        by f_equiv.
      * constructor; [|done]. intros Hin. rewrite Forall_forall in Hr. apply Hr in Hin. lia.
      * constructor; [lia|]. eapply Forall_impl; [exact Hr|]. cbn. intros. lia.
Qed.
Lemma NoDup_ranges (ks1 ks2 : list N) a b c : NoDup ks1 -> NoDup ks2 ->
  Forall (fun k => a <= k < b)%N ks1 -> Forall (fun k => b <= k < c)%N ks2 -> (a <= b)%N -> (b <= c)%N ->
  NoDup (ks1 ++ ks2) /\ Forall (fun k => a <= k < c)%N (ks1 ++ ks2).
Proof.
  intros H1 H2 F1 F2 Hab Hbc. rewrite Forall_forall in F1, F2. split.
  - apply NoDup_app. split; [done|]. split; [|done]. intros k Hk Hk'. apply F1 in Hk. apply F2 in Hk'. lia.
  - apply Forall_forall. intros k. rewrite elem_of_app. intros [H|H]; [apply F1 in H|apply F2 in H]; lia.
Qed.
Lemma assign_below num l num' cs : assign num l = (num', cs) -> map below_ids cs = map below_ids l.
Proof.
  revert num num' cs. induction l as [|c l IH]; intros num num' cs; cbn; [by intros [= <- <-]|].
  case_bool_decide.
  - destruct (assign num l) as [n2 r'] eqn:E'. intros [= <- <-]. cbn. f_equal. by eapply IH.
  - destruct (assign (num + 1) l) as [n2 r'] eqn:E'. intros [= <- <-]. cbn. f_equal; [by destruct c|]. by eapply IH.
Qed.
Lemma shallow_ids l l' : Forall2 shallow l l' -> map n_id l = map n_id l'.
Proof. induction 1 as [|a b l l' (Hi & _) H IH]; [done|]. cbn. by rewrite Hi, IH. Qed.

Lemma lab_ids : forall num n num' n', lab num n num' n' ->
  (num <= num')%N /\ exists ks, below_ids n' ≡ₚ given (below_ids n) ++ map step_id ks /\
     NoDup ks /\ Forall (fun k => num <= k < num')%N ks.
Proof.
  apply (lab_mut
   (fun num n num' n' _ => (num <= num')%N /\ exists ks, below_ids n' ≡ₚ given (below_ids n) ++ map step_id ks /\
     NoDup ks /\ Forall (fun k => num <= k < num')%N ks)
   (fun num l num' l' _ => (num <= num')%N /\ exists ks,
     concat (map below_ids l') ≡ₚ given (concat (map below_ids l)) ++ map step_id ks /\
     NoDup ks /\ Forall (fun k => num <= k < num')%N ks)).
  - intros num n Ho Hn. split; [lia|]. exists []. rewrite below_ids_eq, Hn. split; [done|]. split; constructor.
  - intros num n num1 cs num2 cs' Ho Ea Hl (Hle & ks & Hp & Hnd & Hr).
    destruct (assign_ids_spec _ _ _ _ Ea) as (Hle1 & ks1 & Hp1 & Hnd1 & Hr1).
    split; [lia|]. exists (ks1 ++ ks). split; [|by eapply NoDup_ranges].
    rewrite !below_ids_eq. destruct n as [x t o e next]. cbn [n_next set_next] in *. rewrite !below_split.
    rewrite <- (shallow_ids _ _ (labs_shallow _ _ _ _ Hl)), Hp, Hp1, (assign_below _ _ _ _ Ea).
    rewrite (given_perm _ _ (below_split next)), given_app, map_app. rewrite <- !(assoc_L (++)). f_equiv.
    rewrite !(assoc_L (++)). f_equiv. apply Permutation_app_comm.
  - intros num. split; [lia|]. exists []. split; [done|]. split; constructor.
  - intros num c r num1 r' num2 c' Hr (Hle1 & ks1 & Hp1 & Hnd1 & Hr1) Hc (Hle2 & ks2 & Hp2 & Hnd2 & Hr2).
    split; [lia|]. exists (ks1 ++ ks2). split; [|by eapply NoDup_ranges].
    cbn [map concat]. rewrite given_app, Hp1, Hp2, map_app.
    rewrite <- !(assoc_L (++)). f_equiv. rewrite (Permutation_app_comm (map step_id ks2)). by rewrite <- (assoc_L (++)).
Qed.

(** Identifiers position by position. *)
Definition id_ok (n n' : node) : Prop := n_id n' <> [] /\ (n_id n <> [] -> n_id n' = n_id n).
Lemma assign_lookup l : forall num num' cs i c, assign num l = (num', cs) -> l !! i = Some c ->
  exists c', cs !! i = Some c' /\ id_ok c c' /\ n_next c' = n_next c.
Proof.
  induction l as [|a l IH]; intros num num' cs i c; cbn [assign]; [done|].
  case_bool_decide as Ha.
  - destruct (assign num l) as [n2 r'] eqn:E. intros [= <- <-]. destruct i as [|i].
    + intros [= <-]. exists a. done.
    + cbn. by eapply IH.
  - destruct (assign (num + 1) l) as [n2 r'] eqn:E. intros [= <- <-]. destruct i as [|i].
    + intros [= <-]. exists (set_id (step_id num) a). split; [done|]. destruct a as [x ? ? ? ?]. cbn in *.
      split; [|done]. split; [done|]. intros H. by destruct Ha.
    + cbn. by eapply IH.
Qed.
Lemma lab_positions : forall num n num' n', lab num n num' n' ->
  forall p m, p <> [] -> node_at n p = Some m -> exists m', node_at n' p = Some m' /\ id_ok m m'.
Proof.
  apply (lab_mut
   (fun num n num' n' _ => forall p m, p <> [] -> node_at n p = Some m -> exists m', node_at n' p = Some m' /\ id_ok m m')
   (fun num l num' l' _ => forall i c, l !! i = Some c -> exists c', l' !! i = Some c' /\ n_id c' = n_id c /\
      forall p m, p <> [] -> node_at c p = Some m -> exists m', node_at c' p = Some m' /\ id_ok m m')).
  - intros num n Ho Hn [|i p] m Hp Hm; [done|]. cbn in Hm. by rewrite Hn in Hm.
  - intros num n num1 cs num2 cs' Ho Ea Hl IH [|i p] m Hp Hm; [done|]. destruct n as [x t o e next]. cbn in *.
    destruct (next !! i) as [c|] eqn:Ec; [|done].
    destruct (assign_lookup _ _ _ _ _ _ Ea Ec) as (c1 & Hc1 & Hok & Hnx).
    destruct (IH _ _ Hc1) as (c2 & Hc2 & Hid & Hsub). rewrite Hc2. destruct p as [|j p].
    + cbn in Hm. injection Hm as <-. exists c2. split; [done|]. unfold id_ok in *. by rewrite Hid.
    + apply (Hsub (j :: p)); [done|]. cbn in *. by rewrite Hnx.
  - intros num i c Hc. done.
  - intros num c r num1 r' num2 c' Hr IHr Hc IHc i d. destruct i as [|i]; cbn.
    + intros [= <-]. exists c'. split; [done|]. split; [by destruct (lab_shallow _ _ _ _ Hc)|]. exact IHc.
    + apply IHr.
Qed.

(** Labelling a labelled tree changes nothing. *)
Lemma assign_labelled l num : Forall (fun c => n_id c <> []) l -> assign num l = (num, l).
Proof. induction 1 as [|c l Hc Hl IH]; [done|]. cbn. rewrite bool_decide_true by done. by rewrite IH. Qed.
Definition labelled (n : node) : Prop := forall p m, p <> [] -> node_at n p = Some m -> n_id m <> [].
Lemma labelled_kids n : labelled n -> Forall (fun c => n_id c <> [] /\ labelled c) (n_next n).
Proof.
  intros H. apply Forall_forall. intros c Hc. apply elem_of_list_lookup in Hc as [i Hi]. split.
  - apply (H [i]); [done|]. cbn. by rewrite Hi.
  - intros p m Hp Hm. apply (H (i :: p)); [done|]. cbn. by rewrite Hi.
Qed.
Lemma lab_labelled : forall num n num' n', lab num n num' n' -> labelled n -> n' = n /\ num' = num.
Proof.
  apply (lab_mut
   (fun num n num' n' _ => labelled n -> n' = n /\ num' = num)
   (fun num l num' l' _ => Forall labelled l -> l' = l /\ num' = num)); try done.
  - intros num n num1 cs num2 cs' Ho Ea Hl IH H. apply labelled_kids in H.
    rewrite assign_labelled in Ea by (eapply Forall_impl; [exact H|]; by intros ? [? ?]). injection Ea as <- <-.
    destruct IH as [-> ->]; [eapply Forall_impl; [exact H|]; by intros ? [? ?]|]. by destruct n.
  - intros num c r num1 r' num2 c' Hr IHr Hc IHc H. apply Forall_cons in H as [H1 H2].
    destruct (IHr H2) as [-> ->]. by destruct (IHc H1) as [-> ->].
Qed.

(** ** Tests *)
Lemma elem_tests_below n t : t ∈ tests_below n <-> exists p m, p <> [] /\ node_at n p = Some m /\ t ∈ n_tests m.
Proof.
  induction n as [x ts o e next IH] using node_ind'. rewrite tests_below_eq. cbn [n_next].
  assert (t ∈ tests_of next <-> exists i c, next !! i = Some c /\ (t ∈ n_tests c \/ t ∈ tests_below c)) as ->.
  { clear IH. induction next as [|c l IHl]; cbn [tests_of].
    - rewrite elem_of_empty. split; [done|]. intros (i & c & H & _). done.
    - rewrite !elem_of_union, elem_of_list_to_set, IHl. split.
      + intros [H|(i & d & Hd & H)]; [by exists 0, c|by exists (S i), d].
      + intros ([|i] & d & Hd & H); [injection Hd as <-; by left|]. right. by exists i, d. }
  rewrite Forall_forall in IH. split.
  - intros (i & c & Hc & [H|H]).
    + exists [i], c. cbn. by rewrite Hc.
    + apply IH in H as (p & m & Hp & Hm & H); [|by eapply elem_of_list_lookup_2].
      exists (i :: p), m. cbn. by rewrite Hc.
  - intros ([|i p] & m & Hp & Hm & H); [done|]. cbn in Hm. destruct (next !! i) as [c|] eqn:Ec; [|done].
    exists i, c. split; [done|]. destruct p as [|j p].
    + cbn in Hm. injection Hm as <-. by left.
    + right. apply IH; [by eapply elem_of_list_lookup_2|]. by exists (j :: p), m.
Qed.

(** ** Targets *)
Lemma add_to_sets_trans l c t : concat (map ts_trans (add_to_sets l c t)) ≡ₚ concat (map ts_trans l) ++ [t].
Proof.
  induction l as [|ts l IH]; cbn; [done|]. destruct (channel_equals (ts_chan ts) c); cbn.
  - rewrite <- !(assoc_L (++)). f_equiv. apply Permutation_app_comm.
  - rewrite IH. by rewrite (assoc_L (++)).
Qed.
Definition live_trans (l : list node) : list transition :=
  map (fun ek => Transition (e_value ek.1) (n_id ek.2)) (omap live1 l).
Lemma state_trans_of n : state_trans (state_of n) ≡ₚ live_trans (n_next n).
Proof.
  unfold state_of, state_trans.
  assert (H : forall kids s, concat (map ts_trans (st_tsets (fold_left add_pure kids s))) ≡ₚ
                             concat (map ts_trans (st_tsets s)) ++ live_trans kids).
  { induction kids as [|k kids IH]; intros s; cbn [fold_left].
    - unfold live_trans. cbn. by rewrite app_nil_r.
    - rewrite IH. unfold live_trans. cbn [omap list_omap]. unfold live1 at 2. unfold add_pure. cbn [st_tsets].
      destruct (decide (n_outcome k = OFail)) as [Ho|Ho].
      + by rewrite bool_decide_true.
      + rewrite bool_decide_false by done. destruct (n_event k) as [e|]; cbn [fmap option_fmap option_map]; [|done].
        rewrite add_to_sets_trans. by rewrite <- (assoc_L (++)). }
  apply H.
Qed.
Definition live_ids (l : list node) : list gostr := map n_id (filter (fun k => n_outcome k <> OFail) l).
Definition evented (n : node) : Prop := forall p m, p <> [] -> node_at n p = Some m -> n_outcome m <> OFail -> n_event m <> None.
Lemma live_trans_ids l : Forall (fun k => n_outcome k <> OFail -> n_event k <> None) l -> map tr_next (live_trans l) = live_ids l.
Proof.
  unfold live_trans, live_ids. induction 1 as [|k l Hk Hl IH]; [done|]. cbn [omap list_omap]. rewrite filter_cons. unfold live1 at 1.
  destruct (decide (n_outcome k = OFail)) as [Ho|Ho].
  - rewrite decide_False by tauto. done.
  - rewrite decide_True by tauto. specialize (Hk Ho). destruct (n_event k); [|done]. cbn. by f_equal.
Qed.
Lemma evented_kids n c : evented n -> c ∈ n_next n -> evented c.
Proof.
  intros H Hc p m Hp Hm. apply elem_of_list_lookup in Hc as [i Hi]. apply (H (i :: p)); [done|]. cbn. by rewrite Hi.
Qed.
Lemma evented_next n : evented n -> Forall (fun k => n_outcome k <> OFail -> n_event k <> None) (n_next n).
Proof.
  intros H. apply Forall_forall. intros c Hc. apply elem_of_list_lookup in Hc as [i Hi].
  apply (H [i]); [done|]. cbn. by rewrite Hi.
Qed.
Definition targets (l : list (path * node)) : list gostr := map tr_next (concat (map state_trans (out_states l))).
Definition ids (l : list (path * node)) : list gostr := map (fun pn => n_id pn.2) l.
Lemma targets_app a b : targets (a ++ b) = targets a ++ targets b.
Proof. unfold targets, out_states. by rewrite !map_app, concat_app, map_app. Qed.
Lemma targets_rlist p n : evented n -> fail_leaf n -> n_outcome n <> OFail ->
  n_id n :: targets (rlist p n) ≡ₚ ids (rlist p n).
Proof.
  revert p. induction n as [x t o e next IH] using node_ind'. intros p He Hf Ho. cbn [n_outcome n_id] in *.
  rewrite rlist_eq. cbn [n_outcome n_next]. rewrite decide_False by done. cbn [ids map snd n_id]. f_equiv.
  change ((p, Node x t o e next) :: rlists 0 p next) with ([(p, Node x t o e next)] ++ rlists 0 p next).
  rewrite targets_app. unfold targets at 1. cbn [out_states map concat snd]. rewrite app_nil_r, state_trans_of.
  cbn [n_next]. pose proof (evented_next _ He) as Hnx. cbn in Hnx.
  rewrite live_trans_ids by done.
  assert (Hke : Forall evented next) by (apply Forall_forall; intros c Hc; by eapply evented_kids).
  assert (Hkf : Forall fail_leaf next) by (apply Forall_forall; intros c Hc; by eapply fail_leaf_kids).
  clear He Hf Ho Hnx. generalize 0. induction IH as [|c l Hc Hl IHl]; intros i; cbn [rlists]; [done|].
  apply Forall_cons in Hke as [Hec Hke]. apply Forall_cons in Hkf as [Hfc Hkf].
  rewrite targets_app. unfold ids. rewrite map_app. fold (ids (rlists (S i) p l)). fold (ids (rlist (p ++ [i]) c)).
  rewrite <- (IHl Hke Hkf (S i)). unfold live_ids. rewrite filter_cons.
  destruct (decide (n_outcome c = OFail)) as [Ho|Ho].
  - rewrite decide_False by tauto. rewrite rlist_eq, decide_True by done. cbn. by rewrite !app_nil_r.
  - rewrite decide_True by tauto. rewrite <- (Hc (p ++ [i]) Hec Hfc Ho). cbn [map].
    fold (live_ids l). cbn [app]. apply Permutation_cons_app. by rewrite (assoc_L (++)).
Qed.
Lemma good_tree_evented n : good_tree n -> evented n.
Proof.
  intros H p m Hp Hm Ho. destruct (good_tree_live_event _ _ _ H Hm Hp Ho) as [e ->]. done.
Qed.
Lemma machine_targets_rlist T types tests : good_tree T ->
  machine_targets (Stm (out_states (rlist [] T)) types tests) ≡ₚ tail (map st_id (out_states (rlist [] T))).
Proof.
  intros H. pose proof (targets_rlist [] T (good_tree_evented _ H) (good_tree_fail_leaf _ H)) as Ht.
  assert (Ho : n_outcome T <> OFail) by (destruct H as [(_ & Ho & _) _]; congruence). specialize (Ht Ho).
  assert (Hid : map st_id (out_states (rlist [] T)) = ids (rlist [] T)).
  { unfold out_states, ids. rewrite map_map. apply map_ext. intros [p n]. apply state_of_id. }
  rewrite Hid. rewrite rlist_eq, decide_False in Ht |- * by done. cbn [ids map snd tail] in Ht |- *.
  apply Permutation_cons_inv in Ht. exact Ht.
Qed.

(** Every non-failing node's state is reachable. *)
Lemma node_at_app n p q : node_at n (p ++ q) = node_at n p ≫= fun m => node_at m q.
Proof.
  revert n. induction p as [|i p IH]; intros n; [done|]. cbn. destruct (n_next n !! i); [|done]. cbn. apply IH.
Qed.
Lemma reach_nodes T m : good_tree T -> m_states m = out_states (rlist [] T) ->
  forall p n, node_at T p = Some n -> n_outcome n <> OFail -> reachable m (n_id n).
Proof.
  intros Hg Hm p. destruct (rlist_listing T Hg) as (Hhd & _ & Hin).
  induction p as [|i p IH] using rev_ind; intros n Hn Ho.
  - cbn in Hn. injection Hn as <-. rewrite <- (state_of_id T). apply reach_first. rewrite Hm.
    destruct (rlist [] T) as [|a l]; [done|]. cbn in Hhd |- *. by injection Hhd as ->.
  - rewrite node_at_app in Hn. destruct (node_at T p) as [k|] eqn:Ek; [|done]. cbn in Hn.
    destruct (n_next k !! i) as [c|] eqn:Ec; [|done]. injection Hn as ->.
    assert (Hok : n_outcome k <> OFail).
    { intros Hk. by rewrite (good_tree_fail_leaf _ Hg _ _ Ek Hk) in Ec. }
    specialize (IH k eq_refl Hok). rewrite <- (state_of_id k) in IH.
    destruct (good_tree_live_event T (p ++ [i]) n Hg) as [e He]; [|by destruct p|done|].
    { rewrite node_at_app, Ek. cbn. by rewrite Ec. }
    change (n_id n) with (tr_next (Transition (e_value e) (n_id n))).
    apply (reach_step m (state_of k)); [done| |].
    + rewrite Hm. unfold out_states. apply elem_of_list_fmap. exists (p, k). split; [done|]. by apply Hin.
    + rewrite (state_trans_of k). unfold live_trans. apply elem_of_list_fmap. exists (e, n). split; [done|].
      apply elem_of_list_omap. exists n. split; [by eapply elem_of_list_lookup_2|]. unfold live1.
      rewrite decide_False by done. by rewrite He.
Qed.
