(** * Proofs about the generated C++ programs *)
From Verif Require Export SpecCpp LitProofs.
From Verif Require Export BuildProofs PropStm.
From Verif Require Export StmProofs.

(** ** Lists *)
Lemma head_filter_unique {A} (P : A -> Prop) `{forall x, Decision (P x)} (l : list A) y :
  y ∈ l -> P y -> (forall x, x ∈ l -> P x -> x = y) -> head (filter P l) = Some y.
Proof.
  intros Hy HP Hu. induction l as [|x l IH]; [by apply elem_of_nil in Hy|]. rewrite filter_cons.
  case_decide as E; [cbn; f_equal; apply Hu; [left|done]|].
  apply IH; [apply elem_of_cons in Hy as [->|?]; done|]. intros z Hz. apply Hu. by right.
Qed.
Lemma head_filter_none {A} (P : A -> Prop) `{forall x, Decision (P x)} (l : list A) :
  (forall x, x ∈ l -> ~ P x) -> head (filter P l) = None.
Proof.
  intros Hu. induction l as [|x l IH]; [done|]. rewrite filter_cons, decide_False by (apply Hu; left).
  apply IH. intros z Hz. apply Hu. by right.
Qed.
Lemma find_case_Some {A} s (cases : list (gostr * A)) a :
  (s, a) ∈ cases -> NoDup cases.*1 -> find_case s cases = Some a.
Proof.
  intros Hin Hnd. unfold find_case. rewrite (head_filter_unique _ _ (s, a)); [done|done|done|].
  intros [s' a'] Hx Hs. cbn in Hs. subst s'. f_equal. clear - Hin Hx Hnd.
  induction cases as [|[k b] l IH]; [by apply elem_of_nil in Hin|]. cbn in Hnd. apply NoDup_cons in Hnd as [Hni Hnd].
  apply elem_of_cons in Hin as [E1|Hin]; apply elem_of_cons in Hx as [E2|Hx]; [congruence| | |by apply IH].
  - injection E1 as <- <-. exfalso. apply Hni. apply elem_of_list_fmap. by exists (s, a').
  - injection E2 as <- <-. exfalso. apply Hni. apply elem_of_list_fmap. by exists (s, a).
Qed.
Lemma find_case_None {A} s (cases : list (gostr * A)) : s ∉ cases.*1 -> find_case s cases = None.
Proof.
  intros Hin. unfold find_case. rewrite head_filter_none; [done|]. intros [k a] Hx E. cbn in E. subst k.
  apply Hin. apply elem_of_list_fmap. by exists (s, a).
Qed.
Lemma NoDup_map_inj {A B} (f : A -> B) l x y : NoDup (map f l) -> x ∈ l -> y ∈ l -> f x = f y -> x = y.
Proof.
  induction l as [|z l IH]; [intros _ H; by apply elem_of_nil in H|]. cbn. intros Hnd Hx Hy E. apply NoDup_cons in Hnd as [Hni Hnd].
  apply elem_of_cons in Hx as [->|Hx]; apply elem_of_cons in Hy as [->|Hy]; [done| | |by apply IH].
  - exfalso. apply Hni. rewrite E. apply elem_of_list_fmap. by exists y.
  - exfalso. apply Hni. rewrite <- E. apply elem_of_list_fmap. by exists x.
Qed.
Lemma NoDup_map_2 {A B} (f : A -> B) l : NoDup l -> (forall x y, x ∈ l -> y ∈ l -> f x = f y -> x = y) -> NoDup (map f l).
Proof. intros H1 H2. apply NoDup_fmap_2_strong; [|done]. intros x y Hx Hy. by apply H2. Qed.

Lemma range_map_perm {A} (m : gmap gostr A) : range_map m ≡ₚ map_to_list m.
Proof. apply merge_sort_Permutation. Qed.
Lemma range_map_elem {A} (m : gmap gostr A) k a : (k, a) ∈ range_map m <-> m !! k = Some a.
Proof. rewrite range_map_perm. apply elem_of_map_to_list. Qed.
Lemma range_map_NoDup {A} (m : gmap gostr A) : NoDup (range_map m).*1.
Proof. rewrite range_map_perm. apply NoDup_fst_map_to_list. Qed.

(** ** Letter case *)
Lemma upper_c_upper c : upper_c (upper_c c) = upper_c c.
Proof.
  unfold upper_c. destruct (is_lower c) eqn:E; [|by rewrite E].
  destruct c as [[] [] [] [] [] [] [] []]; cbn in E |- *; try discriminate E; reflexivity.
Qed.
Lemma to_upper_upcase s : to_upper (upcase_first s) = to_upper s.
Proof. destruct s as [|c r]; [done|]. unfold to_upper. cbn. by rewrite upper_c_upper. Qed.
Lemma state_entry_upper a b : state_entry a = state_entry b -> to_upper a = to_upper b.
Proof.
  unfold state_entry. intros H. apply (inj (app (lit "enter"))) in H.
  rewrite <- (to_upper_upcase a), <- (to_upper_upcase b). by rewrite H.
Qed.

(** ** Verdicts *)
Lemma set_verdicts l : forall v t, NoDup l.*1 ->
  fold_left set_verdict l v !! t = match find_case t l with Some o => Some o | None => v !! t end.
Proof.
  induction l as [|[k o] l IH]; intros v t Hnd; [done|]. cbn in Hnd. apply NoDup_cons in Hnd as [Hni Hnd].
  cbn [fold_left]. rewrite IH by done. unfold find_case. rewrite filter_cons. cbn [fst].
  destruct (decide (k = t)) as [->|Hne].
  - cbn. fold (find_case t l). rewrite find_case_None by done. unfold set_verdict. cbn. by rewrite lookup_insert.
  - destruct (head (filter (fun kv => kv.1 = t) l)); [done|]. cbn. unfold set_verdict. cbn. by rewrite lookup_insert_ne by done.
Qed.
Lemma gen_verdict (V : verdict) v t :
  fold_left set_verdict (map (fun to => (to.1, outcome_enum to.2)) (range_map V)) v !! t =
  match V !! t with Some o => Some (outcome_enum o) | None => v !! t end.
Proof.
  assert (Hk : (map (fun to : gostr * outcome => (to.1, outcome_enum to.2)) (range_map V)).*1 = (range_map V).*1).
  { generalize (range_map V) as l. induction l as [|[a b] l IH]; [done|]. cbn. f_equal. exact IH. }
  rewrite set_verdicts by (rewrite Hk; apply range_map_NoDup).
  destruct (V !! t) as [o|] eqn:E.
  - rewrite (find_case_Some _ _ (outcome_enum o)); [done| |rewrite Hk; apply range_map_NoDup].
    apply elem_of_list_fmap. exists (t, o). split; [done|]. by apply range_map_elem.
  - rewrite find_case_None; [done|]. rewrite Hk. intros H. apply elem_of_list_fmap in H as ([a o] & -> & H).
    apply range_map_elem in H. cbn in E. congruence.
Qed.

Lemma verdict_is_spec V o : verdict_is o V = true <-> exists t, V !! t = Some o.
Proof.
  unfold verdict_is. rewrite existsb_exists. split.
  - intros ([t o'] & Hin & Ho). apply elem_of_list_In, elem_of_map_to_list in Hin. apply bool_decide_eq_true in Ho. cbn in Ho. subst. by exists t.
  - intros [t Ht]. exists (t, o). split; [by apply elem_of_list_In, elem_of_map_to_list|]. by apply bool_decide_eq_true.
Qed.
Lemma state_says n t : st_verdict (state_of n) !! t = says n t.
Proof. by destruct (state_of_for n) as [_ _ _ ->]. Qed.
Lemma says_named n t o : says n t = Some o -> t ∈ concat (map n_tests (n_next n)).
Proof.
  unfold says. destruct (last _) as [k|] eqn:E; [|done]. intros _. apply last_Some_elem_of in E.
  apply elem_of_list_filter in E as [Ht Hk]. apply elem_of_list_In, in_concat. exists (n_tests k).
  split; apply elem_of_list_In; [|done]. apply elem_of_list_fmap. by exists k.
Qed.
Lemma failing_iff n : failing n <-> exists t, says n t = Some OFail.
Proof.
  unfold failing. rewrite Exists_exists. split; [intros (t & _ & H); by exists t|]. intros [t H]. exists t.
  split; [by eapply says_named|done].
Qed.
Lemma state_fails n : verdict_is OFail (st_verdict (state_of n)) = bool_decide (failing n).
Proof.
  apply eq_true_iff_eq. rewrite verdict_is_spec, bool_decide_eq_true, failing_iff.
  split; intros [t H]; exists t; [by rewrite <- state_says|by rewrite state_says].
Qed.

(** ** The machine of a tree *)

(** What the templates need of a machine. *)
Record gen_ok (T : node) (m : stm) (types : type_map) : Prop := {
  go_tree : good_tree T;
  go_states : m_states m = out_states (rlist [] T);
  go_distinct : case_distinct m;
  go_valid : valid_tree T;
  go_kind : one_kind T;
  go_typed : typed types T;
}.
Definition live_at (T : node) (p : path) (n : node) : Prop := node_at T p = Some n /\ n_outcome n <> OFail.

Lemma m_state_elem T m : good_tree T -> m_states m = out_states (rlist [] T) ->
  forall s, s ∈ m_states m <-> exists p n, live_at T p n /\ s = state_of n.
Proof.
  intros Hg Hs s. destruct (rlist_listing T Hg) as (_ & _ & Hin). rewrite Hs. unfold out_states. rewrite elem_of_list_fmap. split.
  - intros ([p n] & -> & H). apply Hin in H. by exists p, n.
  - intros (p & n & H & ->). exists (p, n). split; [done|]. by apply Hin.
Qed.
Lemma live_unique T m : good_tree T -> m_states m = out_states (rlist [] T) -> case_distinct m ->
  forall p q n k, live_at T p n -> live_at T q k -> to_upper (n_id n) = to_upper (n_id k) -> p = q /\ n = k.
Proof.
  intros Hg Hs Hd p q n k Hn Hk E. destruct (rlist_listing T Hg) as (_ & _ & Hin).
  apply Hin in Hn, Hk. unfold case_distinct in Hd. rewrite Hs in Hd. unfold out_states in Hd. rewrite map_map in Hd.
  assert ((p, n) = (q, k)) as H; [|injection H; done].
  apply (NoDup_map_inj _ _ _ _ Hd Hn Hk). cbn. by rewrite !state_of_id.
Qed.
Lemma case_distinct_ids m : case_distinct m -> NoDup (map st_id (m_states m)).
Proof.
  unfold case_distinct. intros H.
  assert (map (fun s => to_upper (st_id s)) (m_states m) = to_upper <$> map st_id (m_states m)) as E.
  { unfold fmap. rewrite <- list_fmap_compose. done. }
  rewrite E in H. by apply NoDup_fmap_1 in H.
Qed.

Lemma live_kid T p n i k : live_at T p n -> n_next n !! i = Some k -> n_outcome k <> OFail -> live_at T (p ++ [i]) k.
Proof. intros [H _] Hi Ho. split; [|done]. rewrite node_at_app, H. cbn. by rewrite Hi. Qed.
Lemma live_succs_elem n e k : (e, k) ∈ live_succs n <-> k ∈ n_next n /\ n_outcome k <> OFail /\ n_event k = Some e.
Proof.
  unfold live_succs. rewrite elem_of_list_omap. split.
  - intros (k' & Hk & H). destruct (decide (n_outcome k' = OFail)); [done|]. destruct (n_event k') as [e'|] eqn:Ee; [|done].
    cbn in H. injection H as <- <-. done.
  - intros (Hk & Ho & He). exists k. split; [done|]. by rewrite decide_False, He.
Qed.
Lemma live_succs_event T p n e k : live_at T p n -> (e, k) ∈ live_succs n -> tree_event T e.
Proof.
  intros [Hn _] H. apply live_succs_elem in H as (Hk & _ & He). apply elem_of_list_lookup in Hk as [i Hi].
  exists (p ++ [i]), k. split; [|done]. rewrite node_at_app, Hn. cbn. by rewrite Hi.
Qed.

(** ** Inputs *)
Lemma next_input_spec n : valid_state n ->
  match next_input n with
  | Some i => exists e k, n_next n !! i = Some k /\ n_outcome k <> OFail /\ n_event k = Some e /\
                ch_kind (e_chan e) = KIn /\ live_succs n = [(e, k)]
  | None => Forall (fun ek => ch_kind (e_chan ek.1) <> KIn) (live_succs n)
  end.
Proof.
  intros Hv. unfold next_input. destruct (list_find input_kid (n_next n)) as [[i k]|] eqn:E; cbn.
  - apply list_find_Some in E as (Hi & [Ho Hk] & _). destruct (n_event k) as [e|] eqn:Ee; [|done].
    exists e, k. split; [done|]. split; [done|]. split; [done|]. split; [done|].
    assert (Hin : (e, k) ∈ live_succs n) by (apply live_succs_elem; split; [by eapply elem_of_list_lookup_2|done]).
    destruct Hv as [Hv|(e' & k' & Hl & _)].
    + rewrite Forall_forall in Hv. by destruct (Hv _ Hin).
    + rewrite Hl in Hin |- *. apply elem_of_list_singleton in Hin. by rewrite Hin.
  - apply list_find_None in E. apply Forall_forall. intros [e k] Hin Hk. apply live_succs_elem in Hin as (Hin & Ho & He).
    rewrite Forall_forall in E. apply (E k Hin). split; [done|]. by rewrite He.
Qed.
Lemma tset_single s c t : map ts_chan (st_tsets s) = [c] -> trans_on s c = [t] -> st_tsets s = [TSet c [t]].
Proof.
  unfold trans_on. destruct (st_tsets s) as [|ts [|? ?]]; cbn [map]; [discriminate| |discriminate]. intros [= E] Ht.
  rewrite filter_cons, decide_True in Ht by done. cbn in Ht. rewrite app_nil_r in Ht. destruct ts as [c' l]. cbn in *. by subst.
Qed.
Lemma state_input n e k : live_succs n = [(e, k)] ->
  st_tsets (state_of n) = [TSet (e_chan e) [Transition (e_value e) (n_id k)]].
Proof.
  intros H. destruct (state_of_for n) as [_ Ht Hc _]. rewrite H in Hc, Ht. apply tset_single.
  - rewrite Hc. done.
  - rewrite Ht. rewrite filter_cons, decide_True by done. done.
Qed.
Lemma state_chan_elem n c : c ∈ map ts_chan (st_tsets (state_of n)) <-> exists e k, (e, k) ∈ live_succs n /\ e_chan e = c.
Proof.
  rewrite (sf_chans _ _ (state_of_for n)). rewrite firsts_elem. rewrite elem_of_list_fmap. split.
  - intros ([e k] & -> & H). by exists e, k.
  - intros (e & k & H & <-). by exists (e, k).
Qed.
Lemma state_has_in_spec n : valid_state n -> state_has_in (state_of n) = bool_decide (is_Some (next_input n)).
Proof.
  intros Hv. pose proof (next_input_spec n Hv) as H. apply eq_true_iff_eq. unfold state_has_in. rewrite bool_decide_eq_true, existsb_exists.
  destruct (next_input n) as [i|].
  - destruct H as (e & k & _ & _ & _ & Hk & Hl). split; [by eexists|]. intros _. rewrite (state_input n e k Hl).
    eexists. split; [by left|]. cbn. unfold is_in. by apply bool_decide_eq_true.
  - split; [|by intros [? ?]]. intros (ts & Hts & Hin). exfalso.
    assert (ts_chan ts ∈ map ts_chan (st_tsets (state_of n))) as Hc by (apply elem_of_list_fmap; exists ts; split; [done|by apply elem_of_list_In]).
    apply state_chan_elem in Hc as (e & k & Hek & Hc). rewrite Forall_forall in H. apply (H _ Hek). cbn. rewrite Hc.
    unfold is_in in Hin. by apply bool_decide_eq_true in Hin.
Qed.
Lemma state_in_spec n : valid_state n ->
  state_in (state_of n) = match next_input n ≫= (n_next n !!.) with
                          | Some k => (fun e => (e_chan e, Transition (e_value e) (n_id k))) <$> n_event k
                          | None => None
                          end.
Proof.
  intros Hv. pose proof (next_input_spec n Hv) as H. pose proof (state_has_in_spec n Hv) as Hh. unfold state_in.
  destruct (next_input n) as [i|]; cbn [mbind option_bind].
  - destruct H as (e & k & Hi & _ & He & Hk & Hl). rewrite Hi, He, (state_input n e k Hl). cbn.
    unfold is_in. by rewrite bool_decide_eq_true_2.
  - clear H. unfold state_has_in in Hh. rewrite bool_decide_eq_false_2 in Hh by (by intros [? ?]). revert Hh.
    induction (st_tsets (state_of n)) as [|ts l IH]; [done|]. cbn [existsb first_in]. intros Hh. apply orb_false_elim in Hh as [-> Hh].
    cbn [andb]. by apply IH.
Qed.

(** ** The acknowledgement callback *)
Lemma gen_accept_spec l : Forall (fun kv => kv.2 <> []) l -> exists cs, gen_accept l = Some cs /\
  cs.*1 = map (fun kv => enum_field kv.1) l /\
  (forall s f, (s, f) ∈ cs <-> exists k t r, (k, t :: r) ∈ l /\ s = enum_field k /\ f = state_entry (tr_next t)).
Proof.
  induction 1 as [|[k ts] l Hk Hl (cs & E & H1 & H2)].
  - exists []. split; [done|]. split; [done|]. intros s f. split; [intros H; by apply elem_of_nil in H|].
    intros (k & t & r & H & _). by apply elem_of_nil in H.
  - destruct ts as [|t r]; [done|]. cbn [gen_accept]. rewrite E. eexists. split; [done|]. cbn. rewrite H1. split; [done|].
    intros s f. rewrite elem_of_cons, H2. split.
    + intros [[= -> ->]|(k' & t' & r' & Hin & -> & ->)]; [exists k, t, r|exists k', t', r']; (split; [|done]); [by left|by right].
    + intros (k' & t' & r' & Hin & -> & ->). apply elem_of_cons in Hin as [[= <- <- <-]|Hin]; [by left|right]. by exists k', t', r'.
Qed.

Lemma firsts_NoDup_state n : NoDup (map ts_chan (st_tsets (state_of n))).
Proof. rewrite (sf_chans _ _ (state_of_for n)). apply firsts_NoDup. Qed.

Lemma merged_spec T m types : gen_ok T m types -> forall id ts,
  tc_in_merged (make_transitions m) !! id = Some ts <->
  exists p n i k e, live_at T p n /\ n_id n = id /\ next_input n = Some i /\ n_next n !! i = Some k /\
    n_event k = Some e /\ ts = [Transition (e_value e) (n_id k)].
Proof.
  intros [Hg Hs Hd Hv _ _] id ts. pose proof (case_distinct_ids m Hd) as Hnd.
  destruct (C35_merged_inputs m Hnd) as [Hm1 Hm2].
  assert (Hval : forall p n i, live_at T p n -> next_input n = Some i -> exists k e, n_next n !! i = Some k /\ n_event k = Some e /\
            sm_get (tc_in_merged (make_transitions m)) (n_id n) = [Transition (e_value e) (n_id k)]).
  { intros p n i Hn Hi. destruct Hn as [Hn Ho]. pose proof (next_input_spec n (Hv p n Hn Ho)) as Hsp. rewrite Hi in Hsp.
    destruct Hsp as (e & k & H1 & H2 & H3 & H4 & H5). exists k, e. split; [done|]. split; [done|].
    specialize (Hm1 (state_of n)). rewrite state_of_id in Hm1. specialize (Hm1 ltac:(apply (m_state_elem T); [done|done|by exists p, n]) (firsts_NoDup_state n)).
    rewrite (state_input n e k H5) in Hm1. rewrite filter_cons, decide_True in Hm1 by done. cbn in Hm1.
    by apply Permutation_singleton_r in Hm1. }
  split.
  - intros Hts. assert (Hk : is_Some (tc_in_merged (make_transitions m) !! id)) by (by eexists).
    apply Hm2 in Hk as (s & tset & Hin & Hid & Htset & Hkin). apply (m_state_elem T) in Hin as (p & n & Hn & ->); [|done|done].
    rewrite state_of_id in Hid. destruct (next_input n) as [i|] eqn:Ei.
    + destruct (Hval p n i Hn Ei) as (k & e & H1 & H2 & H3). exists p, n, i, k, e. split; [done|]. split; [done|]. split; [done|]. split; [done|]. split; [done|].
      unfold sm_get in H3. rewrite Hid, Hts in H3. done.
    + exfalso. destruct Hn as [Hn Ho]. pose proof (next_input_spec n (Hv p n Hn Ho)) as Hsp. rewrite Ei in Hsp.
      assert (ts_chan tset ∈ map ts_chan (st_tsets (state_of n))) as Hc by (apply elem_of_list_fmap; by exists tset).
      apply state_chan_elem in Hc as (e & k & Hek & Hc). rewrite Forall_forall in Hsp. apply (Hsp _ Hek). cbn. by rewrite Hc.
  - intros (p & n & i & k & e & Hn & <- & Hi & Hk & He & ->). destruct (Hval p n i Hn Hi) as (k' & e' & H1 & H2 & H3).
    assert (k' = k) as -> by congruence. assert (e' = e) as -> by congruence. unfold sm_get in H3.
    destruct (tc_in_merged (make_transitions m) !! n_id n); cbn in H3; [by f_equal|done].
Qed.
Lemma has_in_spec T m types : gen_ok T m types ->
  tc_has_in (make_transitions m) = true <-> exists p n, live_at T p n /\ is_Some (next_input n).
Proof.
  intros [Hg Hs Hd Hv _ _]. destruct (C35_context_split m) as (_ & _ & _ & _ & H & _). cbn zeta in H. rewrite H. clear H.
  assert (Heq : forall p n, live_at T p n -> (exists ts, ts ∈ st_tsets (state_of n) /\ ch_kind (ts_chan ts) = KIn) <-> is_Some (next_input n)).
  { intros p n [Hn Ho]. pose proof (state_has_in_spec n (Hv p n Hn Ho)) as Hh. rewrite <- (bool_decide_eq_true (is_Some _)), <- Hh.
    unfold state_has_in. rewrite existsb_exists. split; intros (ts & H1 & H2); exists ts; (split; [by apply elem_of_list_In|]);
    unfold is_in in *; first [by apply bool_decide_eq_true_2|by apply bool_decide_eq_true in H2]. }
  split.
  - intros (s & ts & Hin & H1 & H2). apply (m_state_elem T) in Hin as (p & n & Hn & ->); [|done|done]. exists p, n. split; [done|].
    apply (Heq p n Hn). by exists ts.
  - intros (p & n & Hn & Hi). apply (Heq p n Hn) in Hi as (ts & H1 & H2). exists (state_of n), ts. split; [|done].
    apply (m_state_elem T); [done|done|]. by exists p, n.
Qed.
Lemma first_has_in_spec T m types : gen_ok T m types -> 
  tc_first_state_has_in (make_transitions m) = bool_decide (is_Some (next_input T)).
Proof.
  intros [Hg Hs Hd Hv _ _]. destruct (make_transitions_spec m) as (_ & _ & _ & _ & H & _). rewrite H.
  assert (Ho : n_outcome T <> OFail) by (destruct Hg as [(_ & E & _) _]; congruence).
  rewrite <- (state_has_in_spec T) by (by apply (Hv [])). unfold first_state_has_in. rewrite Hs, rlist_eq, decide_False by done. done.
Qed.

(** ** Output callbacks *)
Lemma out_names_elem n w : w ∈ out_names n <-> exists p k e, p <> [] /\ live_at n p k /\
  n_event k = Some e /\ ch_kind (e_chan e) <> KIn /\ ch_name (e_chan e) = w.
Proof.
  induction n as [x t o ev next IH] using node_ind'. cbn [out_names]. split.
  - intros H. apply elem_of_list_In, in_concat in H as (l & Hl & Hw). apply in_map_iff in Hl as (k & <- & Hk).
    apply elem_of_list_In in Hw, Hk. apply elem_of_app in Hw as [Hw|Hw].
    + destruct (decide (n_outcome k = OFail)) as [?|Ho]; [by apply elem_of_nil in Hw|].
      destruct (n_event k) as [e|] eqn:Ee; [|by apply elem_of_nil in Hw].
      destruct (decide (ch_kind (e_chan e) = KIn)); [by apply elem_of_nil in Hw|]. apply elem_of_list_singleton in Hw.
      apply elem_of_list_lookup in Hk as [i Hi]. exists [i], k, e. split; [done|]. split; [split; [|done]; cbn; by rewrite Hi|]. done.
    + rewrite Forall_forall in IH. apply (IH k Hk) in Hw as (p & k' & e & Hp & [Hn Ho] & Hrest).
      apply elem_of_list_lookup in Hk as [i Hi]. exists (i :: p), k', e. split; [done|]. split; [split; [|done]; cbn; by rewrite Hi|]. done.
  - intros (p & k & e & Hp & [Hn Ho] & He & Hk & Hw). destruct p as [|i p]; [done|]. cbn in Hn.
    destruct (next !! i) as [c|] eqn:Ei; [|done]. apply elem_of_list_In, in_concat.
    eexists. split; [apply in_map_iff; exists c; split; [done|]; apply elem_of_list_In; by eapply elem_of_list_lookup_2|].
    apply elem_of_list_In, elem_of_app. destruct p as [|j p].
    + left. cbn in Hn. injection Hn as ->. rewrite decide_False, He, decide_False by done. by apply elem_of_list_singleton.
    + right. rewrite Forall_forall in IH. apply (IH c); [by eapply elem_of_list_lookup_2|]. exists (j :: p), k, e. done.
Qed.
Lemma out_names_live T w : good_tree T -> w ∈ out_names T <-> exists p n e k, live_at T p n /\ (e, k) ∈ live_succs n /\
  ch_kind (e_chan e) <> KIn /\ ch_name (e_chan e) = w.
Proof.
  intros Hg. rewrite out_names_elem. split.
  - intros (p & k & e & Hp & [Hn Ho] & He & Hk & Hw). destruct p as [|i p _] using rev_ind; [done|].
    rewrite node_at_app in Hn. destruct (node_at T p) as [n|] eqn:En; [|done]. cbn in Hn.
    destruct (n_next n !! i) as [k'|] eqn:Ei; [|done]. injection Hn as ->. exists p, n, e, k.
    split; [|split; [|done]].
    + split; [done|]. intros Hof. rewrite (good_tree_fail_leaf T Hg p n En Hof) in Ei. done.
    + apply live_succs_elem. split; [by eapply elem_of_list_lookup_2|done].
  - intros (p & n & e & k & Hn & Hek & Hk & Hw). apply live_succs_elem in Hek as (Hin & Ho & He).
    apply elem_of_list_lookup in Hin as [i Hi]. exists (p ++ [i]), k, e. split; [by destruct p|]. split; [by eapply live_kid|]. done.
Qed.

Lemma out_agg_elem T m : good_tree T -> m_states m = out_states (rlist [] T) -> forall a, a ∈ tc_out (make_transitions m) ->
  a ∈ transition_sets m /\ ch_kind (ag_chan a) <> KIn /\
  exists p n e k, live_at T p n /\ (e, k) ∈ live_succs n /\ e_chan e = ag_chan a.
Proof.
  intros Hg Hs a Ha. destruct (C35_context_split m) as (_ & _ & _ & E & _). cbn zeta in E. rewrite E in Ha.
  apply elem_of_list_filter in Ha as [Hk Ha]. split; [done|]. split; [done|].
  assert (Hc : ag_chan a ∈ map ag_chan (transition_sets m)) by (apply elem_of_list_fmap; by exists a).
  rewrite transition_sets_chans, firsts_elem in Hc. apply elem_of_list_In, in_concat in Hc as (l & Hl & Hc).
  apply in_map_iff in Hl as (s & <- & Hin). apply elem_of_list_In in Hin, Hc. apply (m_state_elem T) in Hin as (p & n & Hn & ->); [|done|done].
  apply state_chan_elem in Hc as (e & k & Hek & Hc). by exists p, n, e, k.
Qed.
Lemma out_agg_unique T m types : gen_ok T m types -> forall a b, a ∈ tc_out (make_transitions m) -> b ∈ tc_out (make_transitions m) ->
  ch_name (ag_chan a) = ch_name (ag_chan b) -> a = b.
Proof.
  intros [Hg Hs Hd Hv Hk _] a b Ha Hb E.
  destruct (out_agg_elem T m Hg Hs a Ha) as (Ha' & Hka & p & n & e & k & Hn & Hek & Hca).
  destruct (out_agg_elem T m Hg Hs b Hb) as (Hb' & Hkb & q & n' & e' & k' & Hn' & Hek' & Hcb).
  assert (ch_kind (ag_chan a) = ch_kind (ag_chan b)) as E2.
  { rewrite <- Hca, <- Hcb. apply Hk; [exact (live_succs_event _ _ _ _ _ Hn Hek)|exact (live_succs_event _ _ _ _ _ Hn' Hek')| | |]; rewrite ?Hca, ?Hcb; done. }
  assert (ag_chan a = ag_chan b) as E3 by (destruct (ag_chan a), (ag_chan b); cbn in *; congruence).
  apply (NoDup_map_inj ag_chan (transition_sets m)); [|done|done|done]. rewrite transition_sets_chans. apply firsts_NoDup.
Qed.
Lemma out_agg_exists T m types w : gen_ok T m types ->
  w ∈ out_names T -> exists a, a ∈ tc_out (make_transitions m) /\ ch_name (ag_chan a) = w.
Proof.
  intros [Hg Hs Hd Hv Hk _] Hw. apply out_names_live in Hw as (p & n & e & k & Hn & Hek & Hke & Hw); [|done].
  assert (Hc : e_chan e ∈ map ag_chan (transition_sets m)).
  { rewrite transition_sets_chans, firsts_elem. apply elem_of_list_In, in_concat. exists (map ts_chan (st_tsets (state_of n))). split.
    - apply in_map_iff. exists (state_of n). split; [done|]. apply elem_of_list_In. apply (m_state_elem T); [done|done|]. by exists p, n.
    - apply elem_of_list_In, state_chan_elem. by exists e, k. }
  apply elem_of_list_fmap in Hc as (a & Hc & Ha). exists a. split; [|by rewrite <- Hc].
  destruct (C35_context_split m) as (_ & _ & _ & E & _). cbn zeta in E. rewrite E. apply elem_of_list_filter. split; [by rewrite <- Hc|done].
Qed.
Lemma out_agg_name T m types a : gen_ok T m types -> a ∈ tc_out (make_transitions m) -> ch_name (ag_chan a) ∈ out_names T.
Proof.
  intros [Hg Hs _ _ _ _] Ha. destruct (out_agg_elem T m Hg Hs a Ha) as (_ & Hka & p & n & e & k & Hn & Hek & Hca).
  apply out_names_live; [done|]. exists p, n, e, k. split; [done|]. split; [done|]. by rewrite Hca.
Qed.

(** The chain of tests of a state. *)
Definition out_succs (c : channel) (n : node) : list (event * node) := filter (fun ek => e_chan ek.1 = c) (live_succs n).
Definition chain_of (l : list (event * node)) : list (vtest * gostr) :=
  map (fun ek => (gen_guard (e_value ek.1), state_entry (n_id ek.2))) l.
Lemma out_case T m types a p n : gen_ok T m types -> a ∈ tc_out (make_transitions m) -> live_at T p n ->
  find_case (enum_field (n_id n)) (oc_cases (gen_out a)) =
  if decide (out_succs (ag_chan a) n = []) then None else Some (chain_of (out_succs (ag_chan a) n)).
Proof.
  intros [Hg Hs Hd Hv Hk _] Ha Hn. destruct (out_agg_elem T m Hg Hs a Ha) as (Ha' & Hka & _).
  assert (Hin : state_of n ∈ m_states m) by (apply (m_state_elem T); [done|done|by exists p, n]).
  pose proof (C34_aggregation_per_state m a (state_of n) (case_distinct_ids m Hd) Ha' Hin) as Hget. rewrite state_of_id in Hget.
  rewrite (sf_trans _ _ (state_of_for n)) in Hget. fold (out_succs (ag_chan a) n) in Hget.
  pose proof (transition_sets_keys m a (n_id n) Ha') as Hkeys.
  assert (Hnd : NoDup (oc_cases (gen_out a)).*1).
  { cbn [gen_out oc_cases]. rewrite <- list_fmap_compose. apply NoDup_map_2; [apply (NoDup_fmap_1 fst), range_map_NoDup|].
    intros [k1 x1] [k2 x2] H1 H2 E. cbn in E. apply range_map_elem in H1, H2.
    assert (exists p n, live_at T p n /\ n_id n = k1) as (p1 & n1 & Hn1 & <-).
    { destruct (proj1 (transition_sets_keys m a k1 Ha') ltac:(by eexists)) as (s & Hs1 & <- & _).
      apply (m_state_elem T) in Hs1 as (p1 & n1 & Hn1 & ->); [|done|done]. exists p1, n1. by rewrite state_of_id. }
    assert (exists p n, live_at T p n /\ n_id n = k2) as (p2 & n2 & Hn2 & <-).
    { destruct (proj1 (transition_sets_keys m a k2 Ha') ltac:(by eexists)) as (s & Hs1 & <- & _).
      apply (m_state_elem T) in Hs1 as (p2 & n2 & Hn2 & ->); [|done|done]. exists p2, n2. by rewrite state_of_id. }
    destruct (live_unique T m Hg Hs Hd _ _ _ _ Hn1 Hn2 E) as [_ ->]. congruence. }
  case_decide as Eo.
  - apply find_case_None. cbn [gen_out oc_cases]. rewrite <- list_fmap_compose. intros H.
    apply elem_of_list_fmap in H as ([k1 x1] & E & H1). cbn in E. apply range_map_elem in H1.
    destruct (proj1 (transition_sets_keys m a k1 Ha') ltac:(by eexists)) as (s & Hs1 & Hid & Hc).
    apply (m_state_elem T) in Hs1 as (p1 & n1 & Hn1 & ->); [|done|done]. rewrite state_of_id in Hid. subst k1.
    destruct (live_unique T m Hg Hs Hd _ _ _ _ Hn Hn1 E) as [_ <-]. apply state_chan_elem in Hc as (e & k & Hek & Hc).
    assert ((e, k) ∈ out_succs (ag_chan a) n) as Hx by (by apply elem_of_list_filter). rewrite Eo in Hx. by apply elem_of_nil in Hx.
  - apply find_case_Some; [|done]. cbn [gen_out oc_cases]. apply elem_of_list_fmap.
    destruct (ag_states a !! n_id n) as [ts|] eqn:Ets.
    + exists (n_id n, ts). split; [|by apply range_map_elem]. cbn. f_equal. unfold sm_get in Hget. rewrite Ets in Hget. cbn in Hget. subst ts.
      unfold chain_of. rewrite map_map. done.
    + exfalso. unfold sm_get in Hget. rewrite Ets in Hget. cbn in Hget. destruct (out_succs (ag_chan a) n); done.
Qed.
Lemma run_chain_spec P l v c : Forall (fun ek => exists t, expressible t (e_value ek.1)) l ->
  run_chain P (chain_of l) v c = match head (filter (fun ek => e_value ek.1 = Some v) l) with
                                 | Some ek => enter P (state_entry (n_id ek.2)) c
                                 | None => Some (end_test OFF_SCRIPT c)
                                 end.
Proof.
  induction 1 as [|ek l (t & He) Hl IH]; [done|]. cbn [chain_of map run_chain]. rewrite (eval_gen_guard t) by done. rewrite filter_cons.
  case_decide as E; [by rewrite bool_decide_eq_true_2|]. rewrite bool_decide_eq_false_2 by done. exact IH.
Qed.
Lemma filter_ext_elem {A} (P Q : A -> Prop) `{forall x, Decision (P x)} `{forall x, Decision (Q x)} (l : list A) :
  (forall x, x ∈ l -> P x <-> Q x) -> filter P l = filter Q l.
Proof.
  induction l as [|x l IH]; intros H1; [done|]. rewrite !filter_cons. rewrite IH by (intros y Hy; apply H1; by right).
  pose proof (H1 x ltac:(left)) as Hx. destruct (decide (P x)), (decide (Q x)); tauto.
Qed.
Definition matching (w : gostr) (v : valuable) (ek : event * node) : Prop :=
  ch_kind (e_chan ek.1) <> KIn /\ ch_name (e_chan ek.1) = w /\ e_value ek.1 = Some v.
Global Instance matching_dec w v ek : Decision (matching w v ek).
Proof. unfold matching. apply _. Defined.
Lemma next_output_find n w v :
  match next_output n w v with
  | Some i => exists e k, n_next n !! i = Some k /\ n_outcome k <> OFail /\ n_event k = Some e /\
                head (filter (matching w v) (live_succs n)) = Some (e, k)
  | None => filter (matching w v) (live_succs n) = []
  end.
Proof.
  unfold next_output, live_succs. induction (n_next n) as [|k l IH]; [done|]. cbn [list_find].
  destruct (decide (output_kid w v k)) as [[Ho Hm]|Hn].
  - cbn [fmap option_fmap option_map fst]. destruct (n_event k) as [e|] eqn:Ee; [|done]. exists e, k. split; [done|]. split; [done|]. split; [done|].
    cbn [omap list_omap]. rewrite decide_False, Ee by done. cbn [fmap option_fmap option_map]. rewrite filter_cons, decide_True by done. done.
  - assert (Hskip : filter (matching w v) (omap (fun k => if decide (n_outcome k = OFail) then None else (fun e => (e, k)) <$> n_event k) (k :: l)) =
            filter (matching w v) (omap (fun k => if decide (n_outcome k = OFail) then None else (fun e => (e, k)) <$> n_event k) l)).
    { cbn [omap list_omap]. destruct (decide (n_outcome k = OFail)) as [|Ho]; [done|]. destruct (n_event k) as [e|] eqn:Ee; [|done].
      cbn [fmap option_fmap option_map]. rewrite filter_cons, decide_False; [done|]. intros Hm. apply Hn. split; [done|]. rewrite Ee. exact Hm. }
    rewrite Hskip. destruct (list_find (output_kid w v) l) as [[i k']|]; cbn in IH |- *; exact IH.
Qed.

(** ** The program *)
Record is_prog (T : node) (m : stm) (types : type_map) (tests : list gostr) (P : program) : Prop := {
  pg_tests : p_tests P = tests;
  pg_enum : p_enum P = map (fun s => enum_field (st_id s)) (m_states m);
  pg_state0 : p_state0 P = enum_field (n_id T);
  pg_initial : p_initial P = state_entry (n_id T);
  pg_delay : p_delay P = bool_decide (is_Some (next_input T));
  pg_accept : match p_accept P with
              | None => forall p n, live_at T p n -> next_input n = None
              | Some cs => NoDup cs.*1 /\ forall s f, (s, f) ∈ cs <->
                  exists p n i k, live_at T p n /\ next_input n = Some i /\ n_next n !! i = Some k /\
                    s = enum_field (n_id n) /\ f = state_entry (n_id k)
              end;
  pg_outs : p_outs P = map gen_out (tc_out (make_transitions m));
  pg_entries : p_entries P = map gen_entry (m_states m);
  pg_types : p_types P = types;
}.
Lemma good_live T : good_tree T -> live_at T [] T.
Proof. intros [(_ & Ho & _) _]. split; [done|]. congruence. Qed.
Lemma gen_prog T m types tests : gen_ok T m types ->
  exists P, gen_program m types tests = Some P /\ is_prog T m types tests P.
Proof.
  intros Hok. pose proof Hok as [Hg Hs Hd Hv Hk Ht]. unfold gen_program.
  assert (Hhd : exists rest, m_states m = state_of T :: rest).
  { rewrite Hs, rlist_eq, decide_False by (by destruct (good_live T Hg)). eexists. cbn. done. }
  destruct Hhd as [rest Hst]. rewrite Hst.
  assert (forallb (fun a => bool_decide (is_Some (types !! ch_name (ag_chan a)))) (tc_out (make_transitions m)) = true) as Hty.
  { apply forallb_forall. intros a Ha. apply elem_of_list_In in Ha. apply bool_decide_eq_true.
    destruct (out_agg_elem T m Hg Hs a Ha) as (_ & _ & p & n & e & k & Hn & Hek & Hc).
    destruct (Ht e (live_succs_event _ _ _ _ _ Hn Hek)) as (t & H & _). rewrite Hc in H. by exists t. }
  destruct (gen_accept_spec (range_map (tc_in_merged (make_transitions m)))) as (cs & Hcs & H1 & H2).
  { apply Forall_forall. intros [id ts] Hin. apply range_map_elem in Hin. apply (merged_spec T m types Hok) in Hin as (p & n & i & k & e & _ & _ & _ & _ & _ & ->). done. }
  rewrite Hty, Hcs. eexists. split; [done|]. split; cbn [p_tests p_enum p_state0 p_initial p_delay p_accept p_outs p_entries p_types]; rewrite ?state_of_id, ?Hst; try done.
  - by eapply first_has_in_spec.
  - destruct (tc_has_in (make_transitions m)) eqn:Eh.
    + split.
      * rewrite H1. apply NoDup_map_2; [apply (NoDup_fmap_1 fst), range_map_NoDup|]. intros [k1 x1] [k2 x2] Hx1 Hx2 E. cbn in E.
        apply range_map_elem in Hx1, Hx2.
        pose proof Hx1 as Hy1. apply (merged_spec T m types Hok) in Hy1 as (p1 & n1 & _ & _ & _ & Hn1 & <- & _).
        pose proof Hx2 as Hy2. apply (merged_spec T m types Hok) in Hy2 as (p2 & n2 & _ & _ & _ & Hn2 & <- & _).
        destruct (live_unique T m Hg Hs Hd _ _ _ _ Hn1 Hn2 E) as [_ ->]. congruence.
      * intros s f. rewrite H2. split.
        -- intros (k & t & r & Hin & -> & ->). apply range_map_elem in Hin.
           apply (merged_spec T m types Hok) in Hin as (p & n & i & k' & e & Hn & <- & Hi & Hk' & He & [= -> ->]).
           by exists p, n, i, k'.
        -- intros (p & n & i & k & Hn & Hi & Hki & -> & ->).
           pose proof (next_input_spec n (Hv p n (proj1 Hn) (proj2 Hn))) as Hsp. rewrite Hi in Hsp. destruct Hsp as (e & k' & Hk' & _ & He & _).
           assert (k' = k) as -> by congruence. exists (n_id n), (Transition (e_value e) (n_id k)), []. split; [|done].
           apply range_map_elem, (merged_spec T m types Hok). by exists p, n, i, k, e.
    + intros p n Hn. destruct (next_input n) eqn:Ei; [|done]. exfalso.
      assert (tc_has_in (make_transitions m) = true); [|congruence]. apply (has_in_spec T m types Hok). exists p, n. by rewrite Ei.
Qed.

(** ** Entering a state *)
Lemma find_entry_spec T m types tests P p n : gen_ok T m types -> is_prog T m types tests P -> live_at T p n ->
  find_entry P (state_entry (n_id n)) = Some (gen_entry (state_of n)).
Proof.
  intros [Hg Hs Hd Hv Hk Ht] HP Hn. unfold find_entry. rewrite (pg_entries _ _ _ _ _ HP).
  apply head_filter_unique.
  - apply elem_of_list_fmap. exists (state_of n). split; [done|]. apply (m_state_elem T); [done|done|]. by exists p, n.
  - cbn. by rewrite state_of_id.
  - intros e He Hne. apply elem_of_list_fmap in He as (s & -> & Hin). apply (m_state_elem T) in Hin as (q & k & Hkk & ->); [|done|done].
    cbn in Hne. rewrite state_of_id in Hne. apply state_entry_upper in Hne.
    by destruct (live_unique T m Hg Hs Hd _ _ _ _ Hkk Hn Hne) as [_ ->].
Qed.
(** The fields of the machine after entering node [n]. *)
Record entered (T : node) (types : type_map) (n : node) (c c' : cpp) : Prop := {
  et_status : c_status c' = if decide (failing n) then (if is_running (c_status c) then FAIL else c_status c)
                            else match next_input n with Some _ => WAIT_IN | None => WAIT_OUT end;
  et_state : c_state c' = enum_field (n_id n);
  et_verdict : forall t, c_verdict c' !! t = match says n t with Some o => Some (outcome_enum o) | None => c_verdict c !! t end;
  et_sent : exists new, c_sent c' = c_sent c ++ new /\ Forall2 (passed types) (input_of n) new;
}.
Lemma enter_sim T m types tests P p n c : gen_ok T m types -> is_prog T m types tests P -> live_at T p n ->
  exists c', enter P (state_entry (n_id n)) c = Some c' /\ entered T types n c c'.
Proof.
  intros Hok HP Hn. unfold enter. rewrite (find_entry_spec T m types tests P p n Hok HP Hn).
  pose proof Hok as [Hg Hs Hd Hv Hk Ht].
  pose proof (Hv p n (proj1 Hn) (proj2 Hn)) as Hvs.
  unfold run_entry. cbn [gen_entry en_state en_verdict en_act]. rewrite state_fails, state_of_id.
  assert (Hver : forall v t, fold_left set_verdict (map (fun to => (to.1, outcome_enum to.2)) (range_map (st_verdict (state_of n)))) v !! t =
      match says n t with Some o => Some (outcome_enum o) | None => v !! t end).
  { intros v t. by rewrite gen_verdict, state_says. }
  destruct (decide (failing n)) as [Hf|Hf].
  - rewrite bool_decide_eq_true_2 by done. eexists. split; [done|]. unfold end_test. cbn [c_status].
    assert (input_of n = []) as Hi by (unfold input_of; by rewrite decide_True).
    destruct (is_running (c_status c)) eqn:Er; cbn; split; cbn; rewrite ?decide_True, ?Er by done; try done;
      exists []; rewrite app_nil_r, Hi; (split; [done|constructor]).
  - rewrite bool_decide_eq_false_2 by done. rewrite (state_has_in_spec n Hvs), (state_in_spec n Hvs).
    pose proof (next_input_spec n Hvs) as Hsp. destruct (next_input n) as [i|] eqn:Ei.
    + destruct Hsp as (e & k & Hi & Ho & He & Hki & Hl). rewrite bool_decide_eq_true_2 by (by eexists). cbn [mbind option_bind].
      rewrite Hi, He. cbn [fmap option_fmap option_map tr_value].
      destruct (Ht e) as (t & Hty & Hex); [apply (live_succs_event T p n e k Hn); rewrite Hl; by left|].
      destruct (e_value e) as [x|] eqn:Ex; [|done]. rewrite (pg_types _ _ _ _ _ HP), Hty, (cpp_lit_value t x Hex).
      destruct (pass_expressible types (ch_name (e_chan e)) t x Hty Hex) as (w & Hw & Hp). rewrite Hw.
      eexists. split; [done|]. split; cbn; rewrite ?decide_False by done; rewrite ?Ei; try done.
      eexists. split; [done|]. unfold input_of. rewrite decide_False, Ei, Hi, He, Ex by done. constructor; [done|constructor].
    + rewrite bool_decide_eq_false_2 by (by intros [? ?]). eexists. split; [done|]. split; cbn; rewrite ?decide_False by done; rewrite ?Ei; try done.
      exists []. rewrite app_nil_r. unfold input_of. rewrite decide_False, Ei by done. split; [done|constructor].
Qed.

(** ** Callbacks *)
Lemma output_sim T m types tests P a p n v c : gen_ok T m types -> is_prog T m types tests P ->
  a ∈ tc_out (make_transitions m) -> live_at T p n -> c_state c = enum_field (n_id n) ->
  match next_output n (ch_name (ag_chan a)) v with
  | Some i => exists k, n_next n !! i = Some k /\ n_outcome k <> OFail /\ output_callback P (gen_out a) v c = enter P (state_entry (n_id k)) c
  | None => output_callback P (gen_out a) v c = Some (end_test OFF_SCRIPT c)
  end.
Proof.
  intros Hok HP Ha Hn Hc. pose proof Hok as [Hg Hs Hd Hv Hk Ht].
  pose proof (next_output_find n (ch_name (ag_chan a)) v) as Hf.
  unfold output_callback. rewrite Hc, (out_case T m types a p n Hok Ha Hn).
  assert (Heq : filter (fun ek => e_value ek.1 = Some v) (out_succs (ag_chan a) n) = filter (matching (ch_name (ag_chan a)) v) (live_succs n)).
  { unfold out_succs. rewrite list_filter_filter. apply filter_ext_elem. intros [e k] Hek. unfold matching. cbn.
    destruct (out_agg_elem T m Hg Hs a Ha) as (_ & Hka & q & n' & e' & k' & Hn' & Hek' & Hca). split.
    - intros [Hval He]. rewrite He. done.
    - intros (H1 & H2 & H3). split; [done|]. assert (ch_kind (e_chan e) = ch_kind (e_chan e')) as H4.
      { apply Hk; [exact (live_succs_event _ _ _ _ _ Hn Hek)|exact (live_succs_event _ _ _ _ _ Hn' Hek')|by rewrite Hca|done|by rewrite Hca]. }
      rewrite Hca in H4. destruct (e_chan e), (ag_chan a); cbn in *; congruence. }
  assert (Hrun : (match (if decide (out_succs (ag_chan a) n = []) then None else Some (chain_of (out_succs (ag_chan a) n))) with
                  | Some chain => run_chain P chain v c
                  | None => Some (end_test OFF_SCRIPT c)
                  end) = match head (filter (matching (ch_name (ag_chan a)) v) (live_succs n)) with
                         | Some ek => enter P (state_entry (n_id ek.2)) c
                         | None => Some (end_test OFF_SCRIPT c)
                         end).
  { rewrite <- Heq. case_decide as E; [by rewrite E|]. apply run_chain_spec. apply Forall_forall. intros [e k] Hek.
    apply elem_of_list_filter in Hek as [_ Hek]. destruct (Ht e (live_succs_event _ _ _ _ _ Hn Hek)) as (t & _ & Hx). by exists t. }
  rewrite Hrun. destruct (next_output n (ch_name (ag_chan a)) v) as [i|].
  - destruct Hf as (e & k & H1 & H2 & H3 & H4). exists k. rewrite H4. done.
  - rewrite Hf. done.
Qed.
Lemma accept_sim T m types tests P p n i c : gen_ok T m types -> is_prog T m types tests P ->
  live_at T p n -> c_state c = enum_field (n_id n) -> next_input n = Some i ->
  exists k, n_next n !! i = Some k /\ n_outcome k <> OFail /\ is_Some (p_accept P) /\ input_accepted_callback P c = enter P (state_entry (n_id k)) c.
Proof.
  intros Hok HP Hn Hc Hi. pose proof (next_input_spec n (go_valid _ _ _ Hok p n (proj1 Hn) (proj2 Hn))) as Hsp. rewrite Hi in Hsp.
  destruct Hsp as (e & k & Hk & Ho & He & _). exists k. split; [done|]. split; [done|]. unfold input_accepted_callback.
  pose proof (pg_accept _ _ _ _ _ HP) as Hacc. destruct (p_accept P) as [cs|].
  - split; [done|]. destruct Hacc as [Hnd Hcs]. rewrite (find_case_Some _ _ (state_entry (n_id k))); [done| |done].
    apply Hcs. by exists p, n, i, k.
  - rewrite (Hacc p n Hn) in Hi. done.
Qed.
Lemma accept_none T m types tests P p n c : gen_ok T m types -> is_prog T m types tests P ->
  live_at T p n -> c_state c = enum_field (n_id n) -> next_input n = None ->
  is_Some (p_accept P) -> input_accepted_callback P c = Some (end_test BUG c).
Proof.
  intros Hok HP Hn Hc Hi [cs Hcs]. unfold input_accepted_callback. pose proof (pg_accept _ _ _ _ _ HP) as Hacc. rewrite Hcs in Hacc |- *.
  destruct Hacc as [Hnd Hacc]. rewrite find_case_None; [done|]. intros H. apply elem_of_list_fmap in H as ([s f] & E & H). cbn in E. subst s.
  apply Hacc in H as (q & n' & i & k & Hn' & Hi' & _ & E & _). rewrite Hc in E. pose proof Hok as [Hg Hs Hd Hv Hk Ht].
  destruct (live_unique T m Hg Hs Hd _ _ _ _ Hn Hn' E) as [_ <-]. congruence.
Qed.
Lemma find_out T m types tests P w : gen_ok T m types -> is_prog T m types tests P ->
  match head (filter (fun o => oc_chan o = w) (p_outs P)) with
  | Some o => w ∈ out_names T /\ exists a, a ∈ tc_out (make_transitions m) /\ ch_name (ag_chan a) = w /\ o = gen_out a
  | None => w ∉ out_names T
  end.
Proof.
  intros Hok HP. rewrite (pg_outs _ _ _ _ _ HP). destruct (head _) as [o|] eqn:E.
  - assert (o ∈ filter (fun o => oc_chan o = w) (map gen_out (tc_out (make_transitions m)))) as Hin.
    { destruct (filter _ _); [done|]. cbn in E. injection E as ->. by left. }
    apply elem_of_list_filter in Hin as [Hw Hin]. apply elem_of_list_fmap in Hin as (a & -> & Ha). cbn in Hw.
    split; [|by exists a]. subst w. by eapply out_agg_name.
  - intros Hw. destruct (out_agg_exists T m types w Hok Hw) as (a & Ha & Hn).
    assert (gen_out a ∈ filter (fun o => oc_chan o = w) (map gen_out (tc_out (make_transitions m)))) as Hin.
    { apply elem_of_list_filter. split; [done|]. apply elem_of_list_fmap. by exists a. }
    destruct (filter _ _); [by apply elem_of_nil in Hin|done].
Qed.

(** ** Simulation *)
Lemma recorded_snoc T p n i k t : node_at T p = Some n -> n_next n !! i = Some k ->
  forall o, recorded T (p ++ [i]) t o = default (recorded T p t o) (says k t).
Proof.
  revert T. induction p as [|j p IH]; intros T Hn Hi o; cbn in Hn |- *.
  - injection Hn as ->. rewrite Hi. done.
  - destruct (n_next T !! j) as [c|]; [|done]. by rewrite IH.
Qed.
Lemma sends_snoc T p n i k : node_at T p = Some n -> n_next n !! i = Some k -> sends T (p ++ [i]) = sends T p ++ input_of k.
Proof.
  revert T. induction p as [|j p IH]; intros T Hn Hi; cbn in Hn |- *.
  - injection Hn as ->. rewrite Hi. by rewrite !app_nil_r.
  - destruct (n_next T !! j) as [c|]; [|done]. rewrite IH by done. by rewrite app_assoc.
Qed.
Record sim (T : node) (types : type_map) (tests : list gostr) (o : obs) (c : cpp) : Prop := {
  sm_status : c_status c = obs_status T o;
  sm_at : match o_at o with
          | None => c_state c = enum_field (n_id T) /\ is_Some (next_input T)
          | Some p => exists n, live_at T p n /\ c_state c = enum_field (n_id n)
          end;
  sm_verdict : forall t, t ∈ tests -> c_verdict c !! t = Some (outcome_enum (obs_outcome T o t));
  sm_sent : Forall2 (passed types) (obs_sent T o) (c_sent c);
  sm_end : match o_end o with Some s => is_running s = false | None => True end;
}.
Lemma arrive_sim T types tests p n c c' ob s0 : live_at T p n -> entered T types n c c' -> is_running (c_status c) = true ->
  (forall t, t ∈ tests -> c_verdict c !! t = Some (outcome_enum (ob t))) ->
  (forall t, recorded T p t OUnset = default (ob t) (says n t)) ->
  sends T p = s0 ++ input_of n -> Forall2 (passed types) s0 (c_sent c) ->
  sim T types tests (arrive T p) c'.
Proof.
  intros Hn [H1 H2 H3 (new & H4 & H5)] Hr Hob Hrec Hsnd Hs0. unfold arrive. rewrite (proj1 Hn). split; cbn [o_at o_end].
  - rewrite H1, Hr. unfold obs_status. cbn [o_at o_end]. destruct (decide (failing n)); [done|].
    rewrite (proj1 Hn). done.
  - exists n. done.
  - intros t Ht. rewrite H3. unfold obs_outcome. cbn [o_at]. rewrite Hrec. destruct (says n t); [done|]. by apply Hob.
  - unfold obs_sent. cbn [o_at]. rewrite Hsnd, H4. by apply Forall2_app.
  - by destruct (decide (failing n)).
Qed.
Lemma obs_running T o : match o_end o with Some s => is_running s = false | None => True end ->
  is_running (obs_status T o) = match o_end o with Some _ => false | None => true end.
Proof.
  unfold obs_status. destruct (o_end o) as [s|]; [done|]. intros _. destruct (o_at o) as [p|]; [|done].
  by destruct (node_at T p ≫= next_input).
Qed.
Lemma end_sim T types tests o c s : sim T types tests o c -> o_end o = None -> is_running s = false ->
  sim T types tests (Obs (o_at o) (Some s)) (end_test s c).
Proof.
  intros [H1 H2 H3 H4 H5] He Hs. unfold end_test. rewrite H1, (obs_running T o H5), He, Hs. split; cbn; done.
Qed.
Lemma enter_root T m types tests P o c : gen_ok T m types -> is_prog T m types tests P -> sim T types tests o c ->
  o_end o = None -> o_at o = None -> exists c', enter P (state_entry (n_id T)) c = Some c' /\ sim T types tests (arrive T []) c'.
Proof.
  intros Hok HP [H1 H2 H3 H4 H5] He Ha. pose proof (good_live T (go_tree _ _ _ Hok)) as Hl.
  destruct (enter_sim T m types tests P [] T c Hok HP Hl) as (c' & Hc' & Hent). exists c'. split; [done|].
  apply (arrive_sim T types tests [] T c c' (obs_outcome T o) [] Hl Hent).
  - by rewrite H1, (obs_running T o H5), He.
  - exact H3.
  - intros t. unfold obs_outcome. rewrite Ha. done.
  - cbn. by rewrite app_nil_r.
  - unfold obs_sent in H4. by rewrite Ha in H4.
Qed.
Lemma enter_kid T m types tests P o c p n i k : gen_ok T m types -> is_prog T m types tests P -> sim T types tests o c ->
  o_end o = None -> o_at o = Some p -> live_at T p n -> n_next n !! i = Some k -> n_outcome k <> OFail ->
  exists c', enter P (state_entry (n_id k)) c = Some c' /\ sim T types tests (arrive T (p ++ [i])) c'.
Proof.
  intros Hok HP [H1 H2 H3 H4 H5] He Ha Hl Hi Ho. pose proof (live_kid T p n i k Hl Hi Ho) as Hk.
  destruct (enter_sim T m types tests P _ k c Hok HP Hk) as (c' & Hc' & Hent). exists c'. split; [done|].
  apply (arrive_sim T types tests _ k c c' (obs_outcome T o) (sends T p) Hk Hent).
  - by rewrite H1, (obs_running T o H5), He.
  - exact H3.
  - intros t. unfold obs_outcome. rewrite Ha. apply (recorded_snoc T p n i k t (proj1 Hl) Hi).
  - apply (sends_snoc T p n i k (proj1 Hl) Hi).
  - unfold obs_sent in H4. by rewrite Ha in H4.
Qed.
Lemma start_sim T m types tests P : gen_ok T m types -> is_prog T m types tests P ->
  exists c, start P = Some c /\ sim T types tests (obs_start T) c.
Proof.
  intros Hok HP. unfold start. rewrite (pg_delay _ _ _ _ _ HP), (pg_state0 _ _ _ _ _ HP), (pg_initial _ _ _ _ _ HP).
  assert (Hiv : forall t, t ∈ tests -> initial_verdict P !! t = Some (outcome_enum OUnset)).
  { intros t Ht. unfold initial_verdict. rewrite (pg_tests _ _ _ _ _ HP). clear -Ht.
    induction tests as [|x l IH]; [by apply elem_of_nil in Ht|]. cbn. destruct (decide (x = t)) as [->|Hne]; [by rewrite lookup_insert|].
    rewrite lookup_insert_ne by done. apply IH. by apply elem_of_cons in Ht as [->|?]. }
  unfold obs_start. destruct (next_input T) as [i|] eqn:Ei.
  - rewrite bool_decide_eq_true_2 by (by eexists). eexists. split; [done|]. split; cbn; try done.
  - rewrite bool_decide_eq_false_2 by (by intros [? ?]). pose proof (good_live T (go_tree _ _ _ Hok)) as Hl.
    set (c0 := Cpp WAIT_START (enum_field (n_id T)) (initial_verdict P) []).
    destruct (enter_sim T m types tests P [] T c0 Hok HP Hl) as (c' & Hc' & Hent). exists c'. split; [done|].
    apply (arrive_sim T types tests [] T c0 c' (fun _ => OUnset) [] Hl Hent); try done. { cbn. by rewrite app_nil_r. }
    constructor.
Qed.
Lemma out_root_none T m types w v : gen_ok T m types -> is_Some (next_input T) -> next_output T w v = None.
Proof.
  intros Hok [i Hi]. pose proof (next_input_spec T (go_valid _ _ _ Hok [] T eq_refl (proj2 (good_live T (go_tree _ _ _ Hok))))) as Hsp. rewrite Hi in Hsp.
  destruct Hsp as (e & k & _ & _ & _ & Hk & Hl). pose proof (next_output_find T w v) as Hf. destruct (next_output T w v) as [j|]; [|done].
  destruct Hf as (e' & k' & _ & _ & _ & H). rewrite Hl, filter_cons in H. rewrite decide_False in H; [done|]. intros [H1 _]. done.
Qed.
(** An output delivered to a running test. *)
Lemma output_step T m types tests P o c w v : gen_ok T m types -> is_prog T m types tests P ->
  sim T types tests o c -> o_end o = None -> w ∈ out_names T -> forall oc, head (filter (fun oc => oc_chan oc = w) (p_outs P)) = Some oc ->
  exists c', output_callback P oc v c = Some c' /\
    sim T types tests (match o_at o with
                       | None => Obs None (Some OFF_SCRIPT)
                       | Some p => match node_at T p with
                                   | None => o
                                   | Some n => match next_output n w v with
                                               | Some i => arrive T (p ++ [i])
                                               | None => Obs (Some p) (Some OFF_SCRIPT)
                                               end
                                   end
                       end) c'.
Proof.
  intros Hok HP Hsim He Hw oc Hoc. pose proof (find_out T m types tests P w Hok HP) as Hf. rewrite Hoc in Hf.
  destruct Hf as (_ & a & Ha & <- & ->). destruct (o_at o) as [p|] eqn:Ea.
  - pose proof (sm_at _ _ _ _ _ Hsim) as Hat. rewrite Ea in Hat. destruct Hat as (n & Hn & Hc). rewrite (proj1 Hn).
    pose proof (output_sim T m types tests P a p n v c Hok HP Ha Hn Hc) as Ho. destruct (next_output n (ch_name (ag_chan a)) v) as [i|].
    + destruct Ho as (k & Hk & Hko & ->). by apply (enter_kid T m types tests P o c p n i k).
    + rewrite Ho. eexists. split; [done|]. rewrite <- Ea. by apply end_sim.
  - pose proof (sm_at _ _ _ _ _ Hsim) as Hat. rewrite Ea in Hat. destruct Hat as (Hc & Hi).
    pose proof (output_sim T m types tests P a [] T v c Hok HP Ha (good_live T (go_tree _ _ _ Hok)) Hc) as Ho.
    rewrite (out_root_none T m types _ v Hok Hi) in Ho. rewrite Ho. eexists. split; [done|]. rewrite <- Ea. by apply end_sim.
Qed.
Lemma animate_step_sim T m types tests P o c w v : gen_ok T m types -> is_prog T m types tests P -> no_reserved T ->
  sim T types tests o c -> exists c', animate_step P w v c = Some c' /\ sim T types tests (obs_step T o w v) c'.
Proof.
  intros Hok HP (Hr1 & Hr2 & Hr3) Hsim. pose proof Hsim as [H1 H2 H3 H4 H5]. unfold animate_step, obs_step.
  rewrite H1, (obs_running T o H5). destruct (o_end o) as [s|] eqn:Ee; [by eexists|]. cbn [negb].
  destruct (decide (w = lit "timeout")) as [->|Hw1].
  { rewrite bool_decide_eq_true_2 by done. eexists. split; [done|]. unfold timeout_callback.
    rewrite H1, (obs_running T o), Ee by (by rewrite Ee). by apply end_sim. }
  rewrite bool_decide_eq_false_2 by done. rewrite (pg_delay _ _ _ _ _ HP).
  pose proof (find_out T m types tests P w Hok HP) as Hf.
  assert (Hout : exists c', match head (filter (fun o => oc_chan o = w) (p_outs P)) with
                            | Some oc => output_callback P oc v c
                            | None => Some c
                            end = Some c' /\
    sim T types tests (if decide (w ∈ out_names T) then match o_at o with
                       | None => Obs None (Some OFF_SCRIPT)
                       | Some p => match node_at T p with
                                   | None => o
                                   | Some n => match next_output n w v with
                                               | Some i => arrive T (p ++ [i])
                                               | None => Obs (Some p) (Some OFF_SCRIPT)
                                               end
                                   end
                       end else o) c').
  { destruct (head _) as [oc|] eqn:Eh.
    - destruct Hf as [Hw _]. rewrite decide_True by done. by eapply output_step.
    - rewrite decide_False by done. eexists. split; [done|done]. }
  clear Hf. destruct (o_at o) as [p|] eqn:Ea.
  - destruct H2 as (n & Hn & Hc). unfold obs_status. rewrite Ee, Ea, (proj1 Hn). rewrite (proj1 Hn) in Hout. cbn [mbind option_bind].
    assert (bool_decide ((match next_input n with Some _ => WAIT_IN | None => WAIT_OUT end) = WAIT_START) = false) as ->
      by (apply bool_decide_eq_false; by destruct (next_input n)).
    rewrite !andb_false_r. destruct (decide (w = lit "accept")) as [->|Hw2].
    + destruct (next_input n) as [i|] eqn:Ei.
      * destruct (accept_sim T m types tests P p n i c Hok HP Hn Hc Ei) as (k & Hk & Hko & Hacc & ->).
        rewrite !bool_decide_eq_true_2 by done. cbn [andb]. by apply (enter_kid T m types tests P o c p n i k).
      * rewrite (bool_decide_eq_false_2 (WAIT_OUT = WAIT_IN)) by done. rewrite andb_false_r. cbn iota.
        rewrite decide_False in Hout by done. exact Hout.
    + rewrite (bool_decide_eq_false_2 (w = lit "accept")) by done. rewrite andb_false_r. cbn [andb].
      destruct Hout as (c' & Hc1 & Hc2). exists c'. split; [done|]. by destruct (decide (w ∈ out_names T)).
  - destruct H2 as [Hc Hi]. unfold obs_status. rewrite Ee, Ea. rewrite (bool_decide_eq_true_2 (is_Some _)) by done.
    rewrite (bool_decide_eq_true_2 (WAIT_START = WAIT_START)) by done. rewrite andb_true_r. cbn [andb].
    destruct (decide (w = lit "ready")) as [->|Hw2].
    + rewrite bool_decide_eq_true_2 by done. unfold initial_delay_callback. rewrite H1. unfold obs_status. rewrite Ee, Ea.
      rewrite bool_decide_eq_true_2 by done. rewrite (pg_initial _ _ _ _ _ HP). by apply (enter_root T m types tests P o c).
    + rewrite (bool_decide_eq_false_2 (w = lit "ready")) by done. rewrite (bool_decide_eq_false_2 (WAIT_START = WAIT_IN)) by done. rewrite andb_false_r.
      exact Hout.
Qed.
Lemma animate_sim T m types tests P script : gen_ok T m types -> is_prog T m types tests P -> no_reserved T ->
  exists c, animate P script = Some c /\ sim T types tests (obs_run T script) c.
Proof.
  intros Hok HP Hr. destruct (start_sim T m types tests P Hok HP) as (c & Hc & Hsim). unfold animate, obs_run. rewrite Hc. clear Hc.
  revert c Hsim. generalize (obs_start T) as o. induction script as [|[w v] script IH]; intros o c Hsim; [by exists c|].
  cbn [animate_loop fold_left fst snd]. destruct (animate_step_sim T m types tests P o c w v Hok HP Hr Hsim) as (c' & -> & Hsim'). by apply IH.
Qed.
