(** * C70: what a state does on entry, for trees with any branching *)
From Verif Require Export BuiltProofs CppProofs PropStm.
From Verif Require Export StmProofs.

Lemma find_snoc {A} (P : A -> bool) l x :
  find P (l ++ [x]) = match find P l with Some y => Some y | None => if P x then Some x else None end.
Proof. induction l as [|y l IH]; cbn; [done|]. by destruct (P y). Qed.
Lemma find_firsts {A} `{EqDecision A} (P : A -> bool) l : find P (firsts l) = find P l.
Proof.
  induction l as [|x l IH] using rev_ind; [done|]. rewrite firsts_snoc, find_snoc. destruct (decide (x ∈ l)) as [Hx|Hx].
  - rewrite IH. destruct (find P l) as [y|] eqn:E; [done|]. destruct (P x) eqn:Ex; [|done].
    exfalso. apply elem_of_list_In in Hx. pose proof (find_none _ _ E _ Hx). congruence.
  - rewrite find_snoc, IH. done.
Qed.
Lemma find_map {A B} (f : A -> B) (P : B -> bool) l : find P (map f l) = f <$> find (fun a => P (f a)) l.
Proof. induction l as [|x l IH]; cbn; [done|]. by destruct (P (f x)). Qed.
Lemma find_Some_iff {A} (P : A -> bool) l x :
  find P l = Some x <-> exists l1 l2, l = l1 ++ x :: l2 /\ P x = true /\ forall y, y ∈ l1 -> P y = false.
Proof.
  induction l as [|y l IH]; cbn.
  - split; [done|]. by intros ([|? ?] & l2 & H & _).
  - destruct (P y) eqn:Ey.
    + split.
      * intros [= ->]. exists [], l. split; [done|]. split; [done|]. by intros z Hz%elem_of_nil.
      * intros ([|z l1] & l2 & H & Hx & Hl); [by injection H as -> ->|]. injection H as <- ->.
        rewrite (Hl y) in Ey by left. done.
    + rewrite IH. split.
      * intros (l1 & l2 & -> & Hx & Hl). exists (y :: l1), l2. split; [done|]. split; [done|].
        intros z [->|Hz]%elem_of_cons; [done|by apply Hl].
      * intros ([|z l1] & l2 & H & Hx & Hl); [injection H as -> ->; congruence|]. injection H as <- ->.
        exists l1, l2. split; [done|]. split; [done|]. intros z Hz. apply Hl. by right.
Qed.

Definition soleb (n : node) (c : channel) : bool :=
  is_in c && (length (filter (fun ek : event * node => e_chan ek.1 = c) (live_succs n)) =? 1).
Lemma is_in_iff c : is_in c = true <-> ch_kind c = KIn.
Proof. unfold is_in. destruct (ch_kind c); done. Qed.
Lemma sole_iff n e k : (e, k) ∈ live_succs n -> sole_input n e k <-> soleb n (e_chan e) = true.
Proof.
  intros Hin. unfold sole_input, soleb. rewrite andb_true_iff, is_in_iff, Nat.eqb_eq.
  split; intros [Hk H]; (split; [done|]); [by rewrite H|].
  assert (Hf : (e, k) ∈ filter (fun ek : event * node => e_chan ek.1 = e_chan e) (live_succs n)) by by apply elem_of_list_filter.
  destruct (filter _ _) as [|x [|y l]]; cbn in H; try lia. apply elem_of_list_singleton in Hf as ->. done.
Qed.

Lemma first_in_find l : first_in l = find (fun ts => is_in (ts_chan ts) && (length (ts_trans ts) =? 1)) l ≫=
  fun ts => (fun t => (ts_chan ts, t)) <$> head (ts_trans ts).
Proof.
  induction l as [|ts l IH]; cbn [first_in find]; [done|]. destruct (is_in (ts_chan ts) && _); [|done]. cbn. by destruct (ts_trans ts).
Qed.
Lemma trans_on_set s ts : NoDup (map ts_chan (st_tsets s)) -> ts ∈ st_tsets s -> trans_on s (ts_chan ts) = ts_trans ts.
Proof.
  unfold trans_on. induction (st_tsets s) as [|x l IH]; cbn [map]; intros Hnd Hin; [by apply elem_of_nil in Hin|].
  apply NoDup_cons in Hnd as [Hni Hnd]. apply elem_of_cons in Hin as [->|Hin].
  - rewrite filter_cons_True by done. cbn. assert (filter (fun y => ts_chan y = ts_chan x) l = []) as ->.
    { destruct (filter _ l) as [|y r] eqn:E; [done|]. exfalso. apply Hni.
      assert (y ∈ filter (fun y => ts_chan y = ts_chan x) l) as Hy by (rewrite E; left).
      apply elem_of_list_filter in Hy as [Hc Hy]. rewrite <- Hc. by apply elem_of_list_fmap_1. }
    cbn. by rewrite app_nil_r.
  - rewrite filter_cons_False; [by apply IH|]. intros E. apply Hni. rewrite E. by apply elem_of_list_fmap_1.
Qed.
Lemma find_ext {A} (P Q : A -> bool) l : (forall x, x ∈ l -> P x = Q x) -> find P l = find Q l.
Proof. induction l as [|x l IH]; intros H; cbn; [done|]. rewrite (H x) by left. rewrite IH; [done|]. intros y Hy. apply H. by right. Qed.

Lemma state_in_spec n s : state_for n s -> forall c t, state_in s = Some (c, t) <->
  exists e k, first_sole_input n e k /\ c = e_chan e /\ t = Transition (e_value e) (n_id k).
Proof.
  intros Hsf. assert (Hnd : NoDup (map ts_chan (st_tsets s))) by (rewrite (sf_chans _ _ Hsf); apply firsts_NoDup).
  assert (Htr : forall ts, ts ∈ st_tsets s -> ts_trans ts = map (fun ek => Transition (e_value ek.1) (n_id ek.2))
                 (filter (fun ek => e_chan ek.1 = ts_chan ts) (live_succs n))).
  { intros ts Hts. rewrite <- (trans_on_set s ts Hnd Hts). apply (sf_trans _ _ Hsf). }
  assert (Hf : ts_chan <$> find (fun ts => is_in (ts_chan ts) && (length (ts_trans ts) =? 1)) (st_tsets s) =
               (fun ek => e_chan ek.1) <$> find (fun ek => soleb n (e_chan ek.1)) (live_succs n)).
  { rewrite <- (find_map (fun ek : event * node => e_chan ek.1) (soleb n)), <- (find_firsts (soleb n)), <- (sf_chans _ _ Hsf), find_map. f_equal.
    apply find_ext. intros ts Hts. unfold soleb. by rewrite (Htr ts Hts), map_length. }
  intros c t. unfold state_in. rewrite first_in_find.
  set (f := fun ts : tset => _) in *.
  split.
  - destruct (find f (st_tsets s)) as [ts|] eqn:E; [|done]. cbn in Hf |- *.
    destruct (find _ (live_succs n)) as [[e k]|] eqn:E2; [|done]. injection Hf as Hc. cbn in Hc.
    apply find_some in E as [Hts%elem_of_list_In _].
    apply find_Some_iff in E2 as (l1 & l2 & Hl & Hs & Hb). cbn in Hs.
    assert (Hso : sole_input n e k) by (apply sole_iff; [rewrite Hl; set_solver|done]).
    pose proof Hso as [_ Hfil]. rewrite (Htr ts Hts), Hc, Hfil. cbn. intros [= <- <-]. exists e, k. split; [|done].
    exists l1, l2. split; [done|]. split; [done|]. intros e' k' Hin H. apply sole_iff in H; [|rewrite Hl; set_solver].
    specialize (Hb _ Hin). cbn in Hb. congruence.
  - intros (e & k & (l1 & l2 & Hl & Hs & Hb) & -> & ->).
    assert (E2 : find (fun ek : event * node => soleb n (e_chan ek.1)) (live_succs n) = Some (e, k)).
    { apply find_Some_iff. exists l1, l2. split; [done|]. split; [apply (sole_iff n e k); [rewrite Hl; set_solver|done]|].
      intros [e' k'] Hin. apply not_true_is_false. cbn. intros H. apply (Hb e' k' Hin). apply sole_iff; [rewrite Hl; set_solver|done]. }
    rewrite E2 in Hf. destruct (find f (st_tsets s)) as [ts|] eqn:E; [|done]. cbn in Hf |- *. injection Hf as Hc.
    apply find_some in E as [Hts%elem_of_list_In _]. destruct Hs as [_ Hfil]. by rewrite (Htr ts Hts), Hc, Hfil.
Qed.
Lemma state_has_in_spec n s : state_for n s -> state_has_in s = true <-> has_input_kid n.
Proof.
  intros Hsf. unfold state_has_in. rewrite existsb_exists. split.
  - intros (ts & Hts & Hk). apply elem_of_list_In in Hts. apply is_in_iff in Hk.
    destruct (state_for_channels n s ts Hsf Hts) as ([e k] & Hek & Hc). exists e, k. split; [done|]. cbn in Hc. congruence.
  - intros (e & k & Hek & Hk). destruct (state_for_has n s _ Hsf Hek) as (ts & Hts & Htr).
    assert (Hc : e_chan e ∈ map ts_chan (st_tsets s)).
    { rewrite (sf_chans _ _ Hsf). apply firsts_elem. apply elem_of_list_fmap. by exists (e, k). }
    apply elem_of_list_fmap in Hc as (ts' & Hc & Hts'). exists ts'. split; [by apply elem_of_list_In|]. apply is_in_iff. congruence.
Qed.
Lemma state_fails_for n s : state_for n s -> verdict_is OFail (st_verdict s) = true <-> failing n.
Proof.
  intros Hsf. rewrite verdict_is_spec, failing_iff. unfold says. by setoid_rewrite (sf_verdict _ _ Hsf).
Qed.

(** The states of the machine, in terms of the nodes of the tree. *)
Theorem C70_state_inputs : forall b root b', good_tree root -> build b root = Ok b' ->
  let T := apply_writes (b_writes b') root in
  exists l, live_listing T l /\ Forall2 (fun pn s =>
    (state_has_in s = true <-> has_input_kid pn.2) /\
    forall c t, state_in s = Some (c, t) <->
      exists e k, first_sole_input pn.2 e k /\ c = e_chan e /\ t = Transition (e_value e) (n_id k)) l (m_states (b_stm b')).
Proof.
  intros b root b' Hg Hb T. destruct (build_listing _ _ _ Hg Hb) as (l & Hl & HF). exists l. split; [done|].
  eapply Forall2_impl; [exact HF|]. intros pn s Hsf. split; [by apply state_has_in_spec|by apply state_in_spec].
Qed.
Print Assumptions C70_state_inputs.

(** The entry functions of the generated program. *)
Theorem C70_entry_actions : forall b root b' types tests P, good_tree root -> build b root = Ok b' ->
  gen_program (b_stm b') types tests = Some P ->
  let T := apply_writes (b_writes b') root in
  exists l, live_listing T l /\ Forall2 (fun pn en =>
    (en_act en = ActFail <-> failing pn.2) /\
    (en_act en = ActOut <-> ~ failing pn.2 /\ ~ has_input_kid pn.2) /\
    (forall ch v, en_act en = ActIn (Some (ch, v)) <-> ~ failing pn.2 /\
       exists e k, first_sole_input pn.2 e k /\ ch = ch_name (e_chan e) /\ v = cpp_value (e_value e)) /\
    (en_act en = ActIn None <-> ~ failing pn.2 /\ has_input_kid pn.2 /\ ~ exists e k, first_sole_input pn.2 e k))
    l (p_entries P).
Proof.
  intros b root b' types tests P Hg Hb HP T. destruct (build_listing _ _ _ Hg Hb) as (l & Hl & HF). exists l. split; [done|].
  assert (p_entries P = map gen_entry (m_states (b_stm b'))) as ->.
  { unfold gen_program in HP. destruct (m_states (b_stm b')) as [|s0 r]; [done|]. destruct (forallb _ _); [|done].
    destruct (gen_accept _); [|done]. by injection HP as <-. }
  apply Forall2_fmap_r. eapply Forall2_impl; [exact HF|]. intros [p n] s Hsf. cbn [snd] in Hsf. unfold compose, gen_entry. cbn [snd en_act].
  pose proof (state_fails_for n s Hsf) as H1. pose proof (state_has_in_spec n s Hsf) as H2. pose proof (state_in_spec n s Hsf) as H3.
  assert (H4 : forall e k, first_sole_input n e k -> has_input_kid n).
  { intros e k (l1 & l2 & E & [Hk _] & _). exists e, k. split; [rewrite E; set_solver|done]. }
  destruct (verdict_is OFail (st_verdict s)).
  { assert (failing n) by by apply H1. split_and!; [split; done|split; [done|by intros [? _]]|intros ch v; split; [done|by intros [? _]]|split; [done|by intros [? _]]]. }
  assert (~ failing n) by (intros H%H1; done). destruct (state_has_in s) eqn:Eh.
  - assert (has_input_kid n) by by apply H2. destruct (state_in s) as [[c t]|] eqn:Ei.
    + destruct (proj1 (H3 c t) eq_refl) as (e & k & Hs & -> & ->). split_and!.
      * split; done.
      * split; [done|]. intros [_ Hk]. done.
      * intros ch v. split.
        -- intros [= <- <-]. split; [done|]. by exists e, k.
        -- intros (_ & e' & k' & Hs' & -> & ->). specialize (proj2 (H3 (e_chan e') (Transition (e_value e') (n_id k')))) as Hx.
           specialize (Hx ltac:(by exists e', k')). injection Hx as Hc Hv Hn. cbn [tr_value]. by rewrite Hc, Hv.
      * split; [done|]. intros (_ & _ & Hno). destruct Hno. by exists e, k.
    + assert (Hno : ~ exists e k, first_sole_input n e k).
      { intros (e & k & Hs). specialize (proj2 (H3 (e_chan e) (Transition (e_value e) (n_id k)))) as Hx.
        specialize (Hx ltac:(by exists e, k)). done. }
      split_and!; [split; done|split; [done|by intros [_ Hk]]| |split; done]. intros ch v. split; [done|].
      intros (_ & e & k & Hs & _). destruct Hno. by exists e, k.
  - assert (Hnk : ~ has_input_kid n) by (intros Hk%H2; done). split_and!; [split; done|split; done| |].
    + intros ch v. split; [done|]. intros (_ & e & k & Hs & _). by apply H4 in Hs.
    + split; [done|]. by intros (_ & Hk & _).
Qed.
Print Assumptions C70_entry_actions.

(** A state that offers two values on its only input channel sends nothing: it waits for an
    acknowledgement of an input that was never sent. *)
Definition two_inputs : node :=
  let k z := mark [lit "t"] (inc_node (Event (Channel (lit "c") KIn) (Some (IntV z)))
                   [mark [lit "t"] (test_point (Event (Channel (lit "d") KOut) (Some (IntV 0))) [lit "t"])]) in
  mark [lit "t"] (root_node [k 1%Z; k 2%Z]).
Theorem C70_always_sends_refuted : exists root b' P en, good_tree root /\ build new_builder root = Ok b' /\
  gen_program (b_stm b') {[ lit "c" := ty_arithmos DNat; lit "d" := ty_arithmos DNat ]} [lit "t"] = Some P /\
  has_input_kid root /\ ~ failing root /\ en ∈ p_entries P /\ en_name en = p_initial P /\ en_act en = ActIn None.
Proof.
  exists two_inputs. eexists _, _, _.
  split; [apply full_iff; vm_compute; reflexivity|]. split; [vm_compute; reflexivity|]. split; [vm_compute; reflexivity|].
  split; [|split; [|split; [left|split; vm_compute; reflexivity]]].
  - eexists _, _. split; [vm_compute; left|done].
  - refine (bool_decide_eq_false_1 _ _). vm_compute. reflexivity.
Qed.
(** Otherwise the input of the first channel without alternatives is sent. *)
Definition later_input : node :=
  let k c z := mark [lit "t"] (inc_node (Event (Channel (lit c) KIn) (Some (IntV z)))
                   [mark [lit "t"] (test_point (Event (Channel (lit "d") KOut) (Some (IntV 0))) [lit "t"])]) in
  mark [lit "t"] (root_node [k "c" 1%Z; k "e" 5%Z; k "c" 2%Z; k "f" 6%Z]).
Example C70_witness : good_tree later_input /\ is_ok (build new_builder later_input) /\
  first_sole_input later_input (Event (Channel (lit "e") KIn) (Some (IntV 5)))
    (mark [lit "t"] (inc_node (Event (Channel (lit "e") KIn) (Some (IntV 5)))
       [mark [lit "t"] (test_point (Event (Channel (lit "d") KOut) (Some (IntV 0))) [lit "t"])])).
Proof.
  split; [apply full_iff; vm_compute; reflexivity|]. split; [eexists; vm_compute; reflexivity|].
  eexists [_], _. split; [reflexivity|]. split; [split; vm_compute; reflexivity|].
  intros e' k' H%elem_of_list_singleton. injection H as -> ->. intros [_ H]. apply (f_equal length) in H. vm_compute in H. discriminate H.
Qed.
