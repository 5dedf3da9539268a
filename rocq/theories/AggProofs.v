(** * Lemmas about grouping transitions and the template context *)
From Verif Require Export TypeProofs.

Definition add_flat (aggs : list agg) (x : gostr * tset) : list agg := add_to_aggs aggs x.1 x.2.
Definition flat (states : list state) : list (gostr * tset) :=
  concat (map (fun s => map (pair (st_id s)) (st_tsets s)) states).
Lemma transition_sets_flat m : transition_sets m = fold_left add_flat (flat (m_states m)) [].
Proof.
  unfold transition_sets, flat. generalize ([] : list agg) as r. induction (m_states m) as [|s l IH]; intros r; [done|].
  cbn [fold_left map concat]. rewrite fold_left_app, <- IH. f_equal. generalize (st_id s) as i. intros i. revert r.
  induction (st_tsets s) as [|ts l' IH']; intros r; [done|]. cbn. apply IH'.
Qed.
Lemma add_to_aggs_chans aggs id ts :
  map ag_chan (add_to_aggs aggs id ts) =
  if decide (ts_chan ts ∈ map ag_chan aggs) then map ag_chan aggs else map ag_chan aggs ++ [ts_chan ts].
Proof.
  induction aggs as [|a l IH]; cbn [add_to_aggs map].
  - by rewrite decide_False by apply not_elem_of_nil.
  - rewrite channel_equals_dec. case_bool_decide as E.
    + rewrite decide_True by (rewrite <- E; left). done.
    + cbn [map]. rewrite IH. destruct (decide (ts_chan ts ∈ map ag_chan l)) as [H|H].
      * by rewrite decide_True by (by right).
      * rewrite decide_False; [done|]. rewrite elem_of_cons. naive_solver.
Qed.
Definition upd_agg (id : gostr) (ts : tset) (a : agg) : agg :=
  Agg (ag_chan a) (<[id := sm_get (ag_states a) id ++ ts_trans ts]> (ag_states a)).
Lemma add_to_aggs_elem aggs id ts a' : NoDup (map ag_chan aggs) -> a' ∈ add_to_aggs aggs id ts ->
  (a' ∈ aggs /\ ag_chan a' <> ts_chan ts) \/
  (exists a, a ∈ aggs /\ ag_chan a = ts_chan ts /\ a' = upd_agg id ts a) \/
  (ts_chan ts ∉ map ag_chan aggs /\ a' = Agg (ts_chan ts) {[ id := ts_trans ts ]}).
Proof.
  induction aggs as [|a l IH]; cbn [add_to_aggs]; intros Hnd.
  - rewrite elem_of_list_singleton. intros ->. right. right. split; [apply not_elem_of_nil|done].
  - cbn in Hnd. apply NoDup_cons in Hnd as [Hni Hnd]. rewrite channel_equals_dec. case_bool_decide as E.
    + rewrite elem_of_cons. intros [->|H].
      * right. left. exists a. split; [left|]. split; [done|]. done.
      * left. split; [by right|]. intros Hc. apply Hni. rewrite E, <- Hc. apply elem_of_list_fmap. by exists a'.
    + rewrite elem_of_cons. intros [->|H].
      * left. split; [left|done].
      * apply IH in H as [[H1 H2]|[(b & H1 & H2 & H3)|[H1 H2]]]; [| | |done].
        -- left. split; [by right|done].
        -- right. left. exists b. split; [by right|done].
        -- right. right. split; [|done]. rewrite map_cons, elem_of_cons. naive_solver.
Qed.

Definition on (id : gostr) (c : channel) (x : gostr * tset) : Prop := x.1 = id /\ ts_chan x.2 = c.
Global Instance on_dec id c x : Decision (on id c x).
Proof. unfold on. apply _. Defined.
Definition flat_on (F : list (gostr * tset)) id c : list (gostr * tset) := filter (on id c) F.
Definition flat_trans (F : list (gostr * tset)) : list transition := concat (map (fun x => ts_trans x.2) F).
Definition agg_inv (F : list (gostr * tset)) (aggs : list agg) : Prop :=
  map ag_chan aggs = firsts (map (fun x => ts_chan x.2) F) /\
  forall a, a ∈ aggs -> forall id,
    ag_states a !! id = match flat_on F id (ag_chan a) with
                        | [] => None
                        | l => Some (flat_trans l)
                        end.
Lemma agg_inv_get F aggs a id : agg_inv F aggs -> a ∈ aggs -> sm_get (ag_states a) id = flat_trans (flat_on F id (ag_chan a)).
Proof.
  intros [_ H] Ha. unfold sm_get. rewrite (H a Ha id). by destruct (flat_on F id (ag_chan a)).
Qed.
Lemma flat_on_app F G id c : flat_on (F ++ G) id c = flat_on F id c ++ flat_on G id c.
Proof. apply filter_app. Qed.
Lemma flat_trans_app F G : flat_trans (F ++ G) = flat_trans F ++ flat_trans G.
Proof. unfold flat_trans. by rewrite map_app, concat_app. Qed.
Lemma agg_inv_step F aggs x : agg_inv F aggs -> agg_inv (F ++ [x]) (add_flat aggs x).
Proof.
  intros Hi. pose proof Hi as [Hc Hs]. destruct x as [id ts]. unfold add_flat. cbn [fst snd].
  assert (Hnd : NoDup (map ag_chan aggs)) by (rewrite Hc; apply firsts_NoDup). split.
  - rewrite add_to_aggs_chans, map_app. cbn [map]. rewrite firsts_snoc, Hc.
    destruct (decide (ts_chan ts ∈ firsts _)) as [H|H]; rewrite firsts_elem in H.
    + by rewrite decide_True.
    + by rewrite decide_False.
  - intros a' Ha' i. rewrite flat_on_app. unfold flat_on at 2. rewrite filter_cons, filter_nil.
    apply add_to_aggs_elem in Ha' as [[H1 H2]|[(a & H1 & H2 & ->)|[H1 ->]]]; [| | |done].
    + rewrite decide_False by (intros [_ H]; by apply H2). rewrite app_nil_r. by apply Hs.
    + cbn [upd_agg ag_chan ag_states]. destruct (decide (on i (ag_chan a) (id, ts))) as [[H3 H4]|H3].
      * cbn in H3. subst i. rewrite lookup_insert, (agg_inv_get F aggs) by done.
        assert (forall X, flat_trans X ++ ts_trans ts = flat_trans (X ++ [(id, ts)])) as ->.
        { intros X. rewrite flat_trans_app. f_equal. unfold flat_trans. cbn. by rewrite app_nil_r. }
        by destruct (flat_on F id (ag_chan a)).
      * rewrite lookup_insert_ne; [rewrite app_nil_r; by apply Hs|]. intros ->. apply H3. split; [done|]. by rewrite H2.
    + cbn [ag_chan ag_states].
      assert (Hn : flat_on F i (ts_chan ts) = []).
      { destruct (flat_on F i (ts_chan ts)) as [|y l] eqn:E; [done|]. exfalso. apply H1. rewrite Hc, firsts_elem.
        assert (Hy : y ∈ flat_on F i (ts_chan ts)) by (rewrite E; left). apply elem_of_list_filter in Hy as [[_ Hy] Hy'].
        apply elem_of_list_fmap. by exists y. }
      rewrite Hn. cbn [app]. destruct (decide (on i (ts_chan ts) (id, ts))) as [[H3 _]|H3].
      * cbn in H3. subst i. rewrite lookup_singleton. unfold flat_trans. cbn. by rewrite app_nil_r.
      * rewrite lookup_singleton_ne; [done|]. intros ->. by apply H3.
Qed.
Lemma agg_inv_fold G : forall F aggs, agg_inv F aggs -> agg_inv (F ++ G) (fold_left add_flat G aggs).
Proof.
  induction G as [|x G IH]; intros F aggs H; cbn [fold_left]; [by rewrite app_nil_r|].
  assert (F ++ x :: G = (F ++ [x]) ++ G) as -> by (by rewrite <- (assoc_L (++))). apply IH. by apply agg_inv_step.
Qed.
Lemma transition_sets_inv m : agg_inv (flat (m_states m)) (transition_sets m).
Proof.
  rewrite transition_sets_flat. apply (agg_inv_fold _ [] []). split; [done|]. intros a H. by apply elem_of_nil in H.
Qed.
(** Back to states. *)
Lemma flat_trans_on states id c : flat_trans (flat_on (flat states) id c) = trans_at states id c.
Proof.
  unfold trans_at. induction states as [|s l IH]; [done|]. unfold flat. cbn [map concat]. rewrite flat_on_app, flat_trans_app.
  fold (flat l). rewrite IH, filter_cons.
  assert (Hs : flat_trans (flat_on (map (pair (st_id s)) (st_tsets s)) id c) = if decide (st_id s = id) then trans_on s c else []).
  { unfold trans_on. induction (st_tsets s) as [|ts ll IHl]; [by destruct (decide (st_id s = id))|].
    cbn [map]. unfold flat_on in *. rewrite !filter_cons. destruct (decide (st_id s = id)) as [Hi|Hi].
    - destruct (decide (ts_chan ts = c)) as [Hc|Hc].
      + rewrite decide_True by (by split). unfold flat_trans in *. cbn [map concat snd]. by rewrite IHl.
      + rewrite decide_False by (by intros [_ ?]). done.
    - rewrite decide_False by (by intros [? _]). done. }
  rewrite Hs. by destruct (decide (st_id s = id)).
Qed.
Lemma flat_chan states c : c ∈ map (fun x => ts_chan x.2) (flat states) <-> exists s, s ∈ states /\ c ∈ map ts_chan (st_tsets s).
Proof.
  unfold flat. induction states as [|s l IH]; cbn [map concat].
  - split; [intros H; by apply elem_of_nil in H|]. intros (s & H & _). by apply elem_of_nil in H.
  - rewrite map_app, elem_of_app, IH, map_map. cbn [snd]. change (map (fun x => ts_chan x)) with (map ts_chan). split.
    + intros [H|(s' & H1 & H2)]; [exists s; split; [left|done]|exists s'; split; [by right|done]].
    + intros (s' & H1 & H2). apply elem_of_cons in H1 as [->|H1]; [by left|]. right. by exists s'.
Qed.
Lemma flat_chans states : map (fun x => ts_chan x.2) (flat states) = concat (map (fun s => map ts_chan (st_tsets s)) states).
Proof.
  unfold flat. induction states as [|s l IH]; [done|]. cbn [map concat]. rewrite map_app, map_map, IH. done.
Qed.
Lemma transition_sets_keys m a id : a ∈ transition_sets m ->
  is_Some (ag_states a !! id) <-> exists s, s ∈ m_states m /\ st_id s = id /\ ag_chan a ∈ map ts_chan (st_tsets s).
Proof.
  intros Ha. destruct (transition_sets_inv m) as [_ H]. rewrite (H a Ha id).
  assert (is_Some (match flat_on (flat (m_states m)) id (ag_chan a) with [] => None | l => Some (flat_trans l) end) <->
          exists x, x ∈ flat_on (flat (m_states m)) id (ag_chan a)) as ->.
  { destruct (flat_on (flat (m_states m)) id (ag_chan a)) as [|x l].
    - split; [intros [? ?]; done|]. intros [x Hx]. by apply elem_of_nil in Hx.
    - split; [|by eexists]. intros _. exists x. left. }
  unfold flat_on. split.
  - intros [[i ts] Hx]. apply elem_of_list_filter in Hx as [[Hi Hc] Hx]. cbn in Hi, Hc. subst i.
    unfold flat in Hx. apply elem_of_list_In, in_concat in Hx as (y & Hy & Hx). apply elem_of_list_In in Hy, Hx.
    apply elem_of_list_fmap in Hy as (s & -> & Hs). apply elem_of_list_fmap in Hx as (ts' & [= -> <-] & Hts).
    exists s. split; [done|]. split; [done|]. rewrite <- Hc. apply elem_of_list_fmap. by exists ts.
  - intros (s & Hs & <- & Hc). apply elem_of_list_fmap in Hc as (ts & Hc & Hts). exists (st_id s, ts).
    apply elem_of_list_filter. split; [by split|]. unfold flat. apply elem_of_list_In, in_concat.
    exists (map (pair (st_id s)) (st_tsets s)). split; apply elem_of_list_In.
    + apply elem_of_list_fmap. by exists s.
    + apply elem_of_list_fmap. by exists ts.
Qed.
Lemma transition_sets_get m a id : a ∈ transition_sets m -> sm_get (ag_states a) id = trans_at (m_states m) id (ag_chan a).
Proof. intros Ha. rewrite (agg_inv_get _ _ _ _ (transition_sets_inv m) Ha). apply flat_trans_on. Qed.
Lemma transition_sets_chans m :
  map ag_chan (transition_sets m) = firsts (concat (map (fun s => map ts_chan (st_tsets s)) (m_states m))).
Proof. destruct (transition_sets_inv m) as [-> _]. by rewrite flat_chans. Qed.

(** ** The context *)
Lemma merge_states_lookup m states id :
  merge_states m states !! id = match states !! id with Some ts => Some (sm_get m id ++ ts) | None => m !! id end.
Proof.
  unfold merge_states. revert id.
  apply (map_fold_ind (fun r st => forall id, r !! id = match st !! id with Some ts => Some (sm_get m id ++ ts) | None => m !! id end)).
  - intros id. by rewrite lookup_empty.
  - intros s ts st r Hs IH id. destruct (decide (id = s)) as [->|Hne].
    + rewrite !lookup_insert. do 2 f_equal. unfold sm_get. by rewrite IH, Hs.
    + rewrite !lookup_insert_ne by done. apply IH.
Qed.
Lemma sm_get_merge m states id : sm_get (merge_states m states) id = sm_get m id ++ sm_get states id.
Proof.
  unfold sm_get at 1 3. rewrite merge_states_lookup. destruct (states !! id); [done|]. cbn. by rewrite app_nil_r.
Qed.
Definition pop_step (c : tctx) (a : agg) : tctx :=
    let c1 := TCtx (tc_channels c ++ [ag_chan a]) (tc_all c) (tc_in c) (tc_out c)
                   (tc_in_merged c) (tc_has_in c) (tc_first_state_has_in c) in
    if is_in (ag_chan a) then add_input c1 a
    else TCtx (tc_channels c1) (tc_all c1) (tc_in c1) (tc_out c1 ++ [a])
              (tc_in_merged c1) (tc_has_in c1) (tc_first_state_has_in c1).
Definition ins (l : list agg) : list agg := filter (fun a => ch_kind (ag_chan a) = KIn) l.
Definition outs (l : list agg) : list agg := filter (fun a => ch_kind (ag_chan a) <> KIn) l.
Lemma pop_fold l : forall c,
  let c' := fold_left pop_step l c in
  tc_all c' = tc_all c /\ tc_channels c' = tc_channels c ++ map ag_chan l /\
  tc_in c' = tc_in c ++ ins l /\ tc_out c' = tc_out c ++ outs l /\
  tc_first_state_has_in c' = tc_first_state_has_in c /\
  tc_has_in c' = tc_has_in c || bool_decide (ins l <> []) /\
  (forall id, sm_get (tc_in_merged c') id = sm_get (tc_in_merged c) id ++ concat (map (fun a => sm_get (ag_states a) id) (ins l))) /\
  (forall id, is_Some (tc_in_merged c' !! id) <-> is_Some (tc_in_merged c !! id) \/ exists a, a ∈ ins l /\ is_Some (ag_states a !! id)).
Proof.
  induction l as [|a l IH]; intros c; cbn [fold_left].
  - cbn. rewrite !app_nil_r, orb_false_r. repeat split; try done.
    + intros id. by rewrite app_nil_r.
    + tauto.
    + intros [H|(a & H & _)]; [done|]. by apply elem_of_nil in H.
  - specialize (IH (pop_step c a)). cbn zeta in *. destruct IH as (-> & -> & -> & -> & -> & -> & I7 & I8).
    unfold pop_step, ins, outs in *. rewrite !filter_cons. unfold is_in in *. cbn [map].
    destruct (decide (ch_kind (ag_chan a) = KIn)) as [Hk|Hk].
    + rewrite bool_decide_true in * by done. rewrite decide_False by tauto. cbn in *.
      rewrite <- !(assoc_L (++)). rewrite !orb_true_r. repeat split; try done.
      * intros id. rewrite I7, sm_get_merge. by rewrite <- (assoc_L (++)).
      * intros H. apply I8 in H as [H|(b & H1 & H2)].
        -- rewrite merge_states_lookup in H. destruct (ag_states a !! id) eqn:E; [|by left].
           right. exists a. rewrite E. split; [left|by eexists].
        -- right. exists b. split; [by right|done].
      * intros H. apply I8. rewrite merge_states_lookup. destruct H as [H|(b & H1 & H2)].
        -- left. by destruct (ag_states a !! id).
        -- apply elem_of_cons in H1 as [->|H1].
           ++ left. by destruct H2 as [? ->].
           ++ right. by exists b.
    + rewrite bool_decide_false in * by done. rewrite decide_True by tauto. cbn in *.
      rewrite <- !(assoc_L (++)). repeat split; try done; apply I8.
Qed.
Lemma make_transitions_spec m :
  let c := make_transitions m in let l := transition_sets m in
  tc_all c = l /\ tc_channels c = map ag_chan l /\ tc_in c = ins l /\ tc_out c = outs l /\
  tc_first_state_has_in c = first_state_has_in m /\ tc_has_in c = bool_decide (ins l <> []) /\
  (forall id, sm_get (tc_in_merged c) id = concat (map (fun a => sm_get (ag_states a) id) (ins l))) /\
  (forall id, is_Some (tc_in_merged c !! id) <-> exists a, a ∈ ins l /\ is_Some (ag_states a !! id)).
Proof.
  cbn zeta. unfold make_transitions, populate_filters. cbn [tc_all]. change (fun (c : tctx) (a : agg) => _) with pop_step.
  destruct (pop_fold (transition_sets m) (TCtx [] (transition_sets m) [] [] ∅ false (first_state_has_in m)))
    as (H1 & H2 & H3 & H4 & H5 & H6 & H7 & H8).
  cbn in *. repeat split; try done.
  - intros H. apply H8 in H as [H|H]; [|done]. rewrite lookup_empty in H. by destruct H.
  - intros H. apply H8. by right.
Qed.
