(** * Lemmas about building state machines *)
From Verif Require Export SpecStm ValidateProofs NamingProofs.

(** ** Transition sets *)
Lemma firsts_snoc {A} `{EqDecision A} (l : list A) x :
  firsts (l ++ [x]) = if decide (x ∈ l) then firsts l else firsts l ++ [x].
Proof.
  unfold firsts. rewrite reverse_app, reverse_singleton. cbn [app remove_dups].
  destruct (decide_rel _ x (reverse l)) as [H|H]; rewrite elem_of_reverse in H.
  - by rewrite (decide_True _ _ H).
  - rewrite (decide_False _ _ H). by rewrite reverse_cons.
Qed.
Lemma firsts_elem {A} `{EqDecision A} (l : list A) x : x ∈ firsts l <-> x ∈ l.
Proof. unfold firsts. by rewrite elem_of_reverse, elem_of_remove_dups, elem_of_reverse. Qed.
Lemma firsts_NoDup {A} `{EqDecision A} (l : list A) : NoDup (firsts l).
Proof. unfold firsts. rewrite (reverse_Permutation (remove_dups (reverse l))). apply NoDup_remove_dups. Qed.

Definition sets_on (l : list tset) (c : channel) : list transition :=
  concat (map ts_trans (filter (fun ts => ts_chan ts = c) l)).
Lemma channel_equals_dec a b : channel_equals a b = bool_decide (a = b).
Proof.
  destruct (channel_equals a b) eqn:E; symmetry.
  - apply bool_decide_eq_true. by apply channel_equals_iff.
  - apply bool_decide_eq_false. intros ->. assert (channel_equals b b = true) by (by apply channel_equals_iff). congruence.
Qed.
Lemma sets_on_cons ts l c : sets_on (ts :: l) c = if decide (ts_chan ts = c) then ts_trans ts ++ sets_on l c else sets_on l c.
Proof. unfold sets_on. rewrite filter_cons. by destruct (decide (ts_chan ts = c)). Qed.
Lemma sets_on_none l c : c ∉ map ts_chan l -> sets_on l c = [].
Proof.
  induction l as [|ts l IH]; [done|]. cbn [map]. rewrite not_elem_of_cons. intros [H1 H2].
  rewrite sets_on_cons, decide_False by congruence. by apply IH.
Qed.
Lemma add_to_sets_on l c t d : NoDup (map ts_chan l) ->
  sets_on (add_to_sets l c t) d = if decide (c = d) then sets_on l d ++ [t] else sets_on l d.
Proof.
  induction l as [|ts l IH]; cbn [add_to_sets]; intros Hnd.
  - rewrite sets_on_cons. cbn. by destruct (decide (c = d)).
  - cbn in Hnd. apply NoDup_cons in Hnd as [Hni Hnd]. rewrite channel_equals_dec. case_bool_decide as E.
    + rewrite !sets_on_cons. cbn. subst c. destruct (decide (ts_chan ts = d)) as [<-|]; [|done].
      rewrite (sets_on_none l) by done. by rewrite !app_nil_r.
    + rewrite !sets_on_cons, IH by done. destruct (decide (ts_chan ts = d)) as [<-|]; [|done].
      destruct (decide (c = ts_chan ts)); [congruence|done].
Qed.
Lemma add_to_sets_chans l c t :
  map ts_chan (add_to_sets l c t) = if decide (c ∈ map ts_chan l) then map ts_chan l else map ts_chan l ++ [c].
Proof.
  induction l as [|ts l IH]; cbn [add_to_sets map].
  - by rewrite decide_False by apply not_elem_of_nil.
  - rewrite channel_equals_dec. case_bool_decide as E.
    + rewrite decide_True by (subst; left). done.
    + cbn [map]. rewrite IH. destruct (decide (c ∈ map ts_chan l)) as [H|H].
      * by rewrite decide_True by (by right).
      * rewrite decide_False; [done|]. rewrite elem_of_cons. naive_solver.
Qed.
Lemma add_to_sets_nonempty l c t : Forall (fun ts => ts_trans ts <> []) l ->
  Forall (fun ts => ts_trans ts <> []) (add_to_sets l c t).
Proof.
  induction 1 as [|ts l H1 H2 IH]; cbn; [by repeat constructor|].
  destruct (channel_equals (ts_chan ts) c); constructor; try done. cbn. by destruct (ts_trans ts).
Qed.
Lemma add_to_sets_others l c t ts : ts_chan ts <> c -> ts ∈ add_to_sets l c t <-> ts ∈ l.
Proof.
  intros Hne. induction l as [|x l IH]; cbn.
  - rewrite elem_of_list_singleton. split; [intros ->; done|]. intros H. by apply elem_of_nil in H.
  - rewrite channel_equals_dec. case_bool_decide as E.
    + rewrite !elem_of_cons. split; (intros [->|H]; [|by right]); cbn in *; congruence.
    + rewrite !elem_of_cons, IH. done.
Qed.

(** ** States of nodes, as a function *)
Definition add_pure (s : state) (k : node) : state :=
  State (st_id s)
        (if bool_decide (n_outcome k = OFail) then st_tsets s
         else match n_event k with
              | Some e => add_to_sets (st_tsets s) (e_chan e) (Transition (e_value e) (n_id k))
              | None => st_tsets s
              end)
        (verdict_add (n_outcome k) (n_tests k) (st_verdict s)).
Definition state_of (n : node) : state := fold_left add_pure (n_next n) (new_state (n_id n)).

Lemma add_outgoing_pure k s : n_id k <> [] -> good_node k -> add_outgoing k s = Ok (add_pure s k).
Proof.
  intros Hid [_ Hg]. unfold add_outgoing, add_transition, add_verdicts, add_pure. cbn.
  case_bool_decide as Ho; [done|]. rewrite bool_decide_false by done.
  destruct Hg as [(Ho' & _)|[(_ & He & _)|(_ & He & _)]]; [done| |]; by destruct (n_event k).
Qed.

Lemma verdict_add_lookup o tests v t :
  verdict_add o tests v !! t = if decide (t ∈ tests) then Some o else v !! t.
Proof.
  unfold verdict_add. revert v. induction tests as [|x tests IH]; intros v; cbn.
  - by rewrite decide_False by apply not_elem_of_nil.
  - rewrite IH. destruct (decide (t ∈ tests)) as [H|H].
    + by rewrite decide_True by (by right).
    + destruct (decide (t = x)) as [->|Hne].
      * rewrite decide_True by left. by rewrite lookup_insert.
      * rewrite decide_False by (rewrite elem_of_cons; tauto). by rewrite lookup_insert_ne.
Qed.

Definition live1 (k : node) : option (event * node) :=
  if decide (n_outcome k = OFail) then None else (fun e => (e, k)) <$> n_event k.
Lemma fold_add_spec kids s0 done_ :
  (forall c, trans_on s0 c = map (fun ek => Transition (e_value ek.1) (n_id ek.2))
                                (filter (fun ek => e_chan ek.1 = c) (omap live1 done_))) ->
  map ts_chan (st_tsets s0) = firsts (map (fun ek => e_chan ek.1) (omap live1 done_)) ->
  Forall (fun ts => ts_trans ts <> []) (st_tsets s0) ->
  (forall t, st_verdict s0 !! t = n_outcome <$> last (filter (fun k => t ∈ n_tests k) done_)) ->
  let s := fold_left add_pure kids s0 in
  st_id s = st_id s0 /\
  (forall c, trans_on s c = map (fun ek => Transition (e_value ek.1) (n_id ek.2))
                                (filter (fun ek => e_chan ek.1 = c) (omap live1 (done_ ++ kids)))) /\
  map ts_chan (st_tsets s) = firsts (map (fun ek => e_chan ek.1) (omap live1 (done_ ++ kids))) /\
  Forall (fun ts => ts_trans ts <> []) (st_tsets s) /\
  (forall t, st_verdict s !! t = n_outcome <$> last (filter (fun k => t ∈ n_tests k) (done_ ++ kids))).
Proof.
  revert s0 done_. induction kids as [|k kids IH]; intros s0 d H1 H2 H3 H4; cbn [fold_left].
  - rewrite app_nil_r. done.
  - assert (Hs : d ++ k :: kids = (d ++ [k]) ++ kids) by (by rewrite <- (assoc_L (++))).
    rewrite Hs. specialize (IH (add_pure s0 k) (d ++ [k])).
    assert (Homap : omap live1 (d ++ [k]) = omap live1 d ++ match live1 k with Some x => [x] | None => [] end).
    { rewrite omap_app. f_equal. }
    assert (Hnd : NoDup (map ts_chan (st_tsets s0))) by (rewrite H2; apply firsts_NoDup).
    apply IH; clear IH.
    + intros c. rewrite Homap. unfold live1 at 2. unfold trans_on, add_pure. cbn [st_tsets].
      destruct (decide (n_outcome k = OFail)) as [Ho|Ho].
      * rewrite bool_decide_true by done. rewrite app_nil_r. apply H1.
      * rewrite bool_decide_false by done. destruct (n_event k) as [e|]; cbn [fmap option_fmap option_map].
        -- change (concat (map ts_trans (filter (fun ts => ts_chan ts = c)
              (add_to_sets (st_tsets s0) (e_chan e) (Transition (e_value e) (n_id k))))))
             with (sets_on (add_to_sets (st_tsets s0) (e_chan e) (Transition (e_value e) (n_id k))) c).
           rewrite add_to_sets_on by done. rewrite filter_app, map_app, filter_cons. cbn [fst].
           rewrite filter_nil.
           destruct (decide (e_chan e = c)); cbn [map].
           ++ f_equal. apply H1.
           ++ rewrite app_nil_r. apply H1.
        -- rewrite app_nil_r. apply H1.
    + rewrite Homap. unfold live1 at 2. unfold add_pure. cbn [st_tsets].
      destruct (decide (n_outcome k = OFail)) as [Ho|Ho].
      * rewrite bool_decide_true by done. by rewrite app_nil_r.
      * rewrite bool_decide_false by done. destruct (n_event k) as [e|]; cbn [fmap option_fmap option_map].
        -- rewrite map_app. cbn [map fst]. rewrite firsts_snoc, add_to_sets_chans, H2.
           destruct (decide (e_chan e ∈ firsts _)) as [H|H]; rewrite firsts_elem in H.
           ++ by rewrite decide_True.
           ++ by rewrite decide_False.
        -- by rewrite app_nil_r.
    + unfold add_pure. cbn [st_tsets]. destruct (bool_decide _); [done|].
      destruct (n_event k); [|done]. by apply add_to_sets_nonempty.
    + intros t. unfold add_pure. cbn [st_verdict]. rewrite verdict_add_lookup, filter_app, filter_cons, filter_nil.
      destruct (decide (t ∈ n_tests k)).
      * by rewrite last_snoc.
      * by rewrite app_nil_r.
Qed.
Lemma state_of_props n : state_for n (state_of n) /\ Forall (fun ts => ts_trans ts <> []) (st_tsets (state_of n)).
Proof.
  destruct (fold_add_spec (n_next n) (new_state (n_id n)) []) as (H0 & H1 & H2 & H3 & H4); [done|done|by constructor|done|].
  split; [|done]. split; done.
Qed.
Lemma state_of_for n : state_for n (state_of n).
Proof. apply state_of_props. Qed.
Lemma state_of_id n : st_id (state_of n) = n_id n.
Proof. apply state_of_for. Qed.

(** A state is determined by its node. *)
Lemma tsets_determined l1 l2 : map ts_chan l1 = map ts_chan l2 -> NoDup (map ts_chan l1) ->
  (forall c, sets_on l1 c = sets_on l2 c) -> l1 = l2.
Proof.
  revert l2. induction l1 as [|a l1 IH]; intros [|b l2] Hc Hnd Hs; try done.
  cbn in Hc, Hnd. injection Hc as Hab Hc. apply NoDup_cons in Hnd as [Hni Hnd].
  assert (Ha : ts_trans a = ts_trans b).
  { specialize (Hs (ts_chan a)). rewrite !sets_on_cons in Hs.
    rewrite decide_True in Hs by done. rewrite decide_True in Hs by done.
    rewrite !sets_on_none in Hs by congruence. by rewrite !app_nil_r in Hs. }
  f_equal; [destruct a, b; cbn in *; congruence|]. apply IH; [done|done|]. intros c.
  specialize (Hs c). rewrite !sets_on_cons in Hs. rewrite <- Hab in Hs.
  destruct (decide (ts_chan a = c)) as [<-|]; [|done].
  by rewrite !sets_on_none by congruence.
Qed.
Lemma state_for_unique n s1 s2 : state_for n s1 -> state_for n s2 -> s1 = s2.
Proof.
  intros [A1 A2 A3 A4] [B1 B2 B3 B4]. destruct s1 as [i1 t1 v1], s2 as [i2 t2 v2]. cbn in *. f_equal.
  - congruence.
  - apply tsets_determined; [congruence|rewrite A3; apply firsts_NoDup|].
    intros c. specialize (A2 c). specialize (B2 c). unfold trans_on in *. cbn in *. unfold sets_on. congruence.
  - apply map_eq. intros t. by rewrite A4, B4.
Qed.

(** ** Labelling *)
Definition step_id (num : N) : gostr := lit "step" ++ format_N num.
Fixpoint assign (num : N) (l : list node) : N * list node :=
  match l with
  | [] => (num, [])
  | c :: r =>
    if bool_decide (n_id c <> []) then let '(num2, r') := assign num r in (num2, c :: r')
    else let '(num2, r') := assign (num + 1) r in (num2, set_id (step_id num) c :: r')
  end.
Definition set_next (l : list node) (n : node) : node :=
  match n with Node i t o e _ => Node i t o e l end.

Inductive lab : N -> node -> N -> node -> Prop :=
| lab_fail num n : n_outcome n = OFail -> n_next n = [] -> lab num n num n
| lab_node num n num1 cs num2 cs' :
    n_outcome n <> OFail -> assign num (n_next n) = (num1, cs) -> labs num1 cs num2 cs' ->
    lab num n num2 (set_next cs' n)
with labs : N -> list node -> N -> list node -> Prop :=
| labs_nil num : labs num [] num []
| labs_cons num c r num1 r' num2 c' :
    labs num r num1 r' -> lab num1 c num2 c' -> labs num (c :: r) num2 (c' :: r').
Scheme lab_mut := Induction for lab Sort Prop with labs_mut := Induction for labs Sort Prop.

Definition kids_good (n : node) : Prop := forall p m, p <> [] -> node_at n p = Some m -> good_node m.
Definition sub_good (n : node) : Prop := forall p m, node_at n p = Some m -> good_node m.
Lemma kids_good_sub n : kids_good n <-> Forall sub_good (n_next n).
Proof.
  split.
  - intros H. apply Forall_forall. intros c Hc p m Hm. apply elem_of_list_lookup in Hc as [i Hi].
    apply (H (i :: p)); [done|]. cbn. by rewrite Hi.
  - intros H p m Hp Hm. destruct p as [|i p]; [done|]. cbn in Hm.
    destruct (n_next n !! i) as [c|] eqn:E; [|done]. rewrite Forall_forall in H.
    apply (H c) in Hm; [done|]. by eapply elem_of_list_lookup_2.
Qed.
Lemma sub_good_iff n : sub_good n <-> good_node n /\ kids_good n.
Proof.
  split.
  - intros H. split; [by apply (H [])|]. intros p m _ Hm. by apply (H p).
  - intros [H1 H2] p m Hm. destruct p as [|i p]; [cbn in Hm; by injection Hm as <-|]. by apply (H2 (i :: p)).
Qed.
Lemma good_node_set_id i n : good_node (set_id i n) <-> good_node n.
Proof. by destruct n. Qed.
Lemma kids_good_set_id i n : kids_good (set_id i n) <-> kids_good n.
Proof. rewrite !kids_good_sub. by destruct n. Qed.
Lemma sub_good_set_id i n : sub_good (set_id i n) <-> sub_good n.
Proof. by rewrite !sub_good_iff, good_node_set_id, kids_good_set_id. Qed.
Lemma fail_no_next n : good_node n -> n_outcome n = OFail -> n_next n = [].
Proof. intros [_ [(_ & _ & H)|[(H & _)|(H & _)]]] Ho; [done|congruence|congruence]. Qed.

Lemma assign_sizes num l num' cs : assign num l = (num', cs) -> sizes cs = sizes l.
Proof.
  revert num num' cs. induction l as [|c l IH]; intros num num' cs; cbn; [by intros [= <- <-]|].
  case_bool_decide.
  - destruct (assign num l) as [n2 r'] eqn:E. intros [= <- <-]. apply IH in E. unfold sizes in *. cbn. unfold list_sum in *. cbn in *. lia.
  - destruct (assign (num + 1) l) as [n2 r'] eqn:E. intros [= <- <-]. apply IH in E. unfold sizes in *. cbn.
    destruct c; cbn in *. unfold list_sum in *. cbn in *. lia.
Qed.
Lemma assign_good num l num' cs : assign num l = (num', cs) -> Forall sub_good l -> Forall sub_good cs.
Proof.
  revert num num' cs. induction l as [|c l IH]; intros num num' cs; cbn; [by intros [= <- <-]|].
  intros E H. apply Forall_cons in H as [H1 H2].
  case_bool_decide.
  - destruct (assign num l) as [n2 r'] eqn:E'. injection E as <- <-. constructor; [done|]. by eapply IH.
  - destruct (assign (num + 1) l) as [n2 r'] eqn:E'. injection E as <- <-. constructor; [by apply sub_good_set_id|]. by eapply IH.
Qed.
Lemma assign_ids num l num' cs : assign num l = (num', cs) -> Forall (fun c => n_id c <> []) cs.
Proof.
  revert num num' cs. induction l as [|c l IH]; intros num num' cs; cbn; [by intros [= <- <-]|].
  case_bool_decide.
  - destruct (assign num l) as [n2 r'] eqn:E'. intros [= <- <-]. constructor; [done|]. by eapply IH.
  - destruct (assign (num + 1) l) as [n2 r'] eqn:E'. intros [= <- <-]. constructor; [by destruct c|]. by eapply IH.
Qed.

Lemma nsize_next n : nsize n = S (sizes (n_next n)).
Proof. by destruct n. Qed.
Lemma lab_exists_aux k :
  (forall n num, nsize n <= k -> kids_good n -> (n_outcome n = OFail -> n_next n = []) -> exists num' n', lab num n num' n') /\
  (forall l num, sizes l <= k -> Forall sub_good l -> exists num' l', labs num l num' l').
Proof.
  induction k as [|k [IHn IHl]].
  - split.
    + intros n num H. rewrite nsize_next in H. lia.
    + intros [|c l] num H; [intros _; exists num, []; constructor|]. unfold sizes in H. cbn in H.
      rewrite nsize_next in H. lia.
  - assert (Hn : forall n num, nsize n <= S k -> kids_good n -> (n_outcome n = OFail -> n_next n = []) ->
                 exists num' n', lab num n num' n').
    { intros n num Hs Hg Hf. destruct (decide (n_outcome n = OFail)) as [Ho|Ho].
      - exists num, n. constructor; [done|by apply Hf].
      - destruct (assign num (n_next n)) as [num1 cs] eqn:Ea.
        destruct (IHl cs num1) as (num2 & cs' & H).
        + rewrite (assign_sizes _ _ _ _ Ea). rewrite nsize_next in Hs. lia.
        + eapply assign_good; [done|]. by apply kids_good_sub.
        + exists num2, (set_next cs' n). by econstructor. }
    split; [done|].
    intros l. induction l as [|c l IH]; intros num Hs Hg; [exists num, []; constructor|].
    apply Forall_cons in Hg as [Hc Hg]. unfold sizes in Hs. cbn in Hs. unfold list_sum in *.
    destruct (IH num) as (num1 & l' & Hl); [unfold sizes, list_sum; lia|done|].
    destruct (Hn c num1) as (num2 & c' & Hc').
    + lia.
    + by apply sub_good_iff in Hc as [_ ?].
    + apply fail_no_next. by apply sub_good_iff in Hc as [? _].
    + exists num2, (c' :: l'). by econstructor.
Qed.
Lemma lab_exists n num : kids_good n -> (n_outcome n = OFail -> n_next n = []) -> exists num' n', lab num n num' n'.
Proof. intros. by apply (lab_exists_aux (nsize n)). Qed.

(** Labelling keeps everything but the identifiers below. *)
Definition shallow (a b : node) : Prop :=
  n_id a = n_id b /\ n_tests a = n_tests b /\ n_outcome a = n_outcome b /\ n_event a = n_event b.
Lemma lab_shallow num n num' n' : lab num n num' n' -> shallow n n'.
Proof. intros H. destruct H; [done|]. by destruct n. Qed.
Lemma labs_shallow num l num' l' : labs num l num' l' -> Forall2 shallow l l'.
Proof. induction 1; constructor; [by eapply lab_shallow|done]. Qed.

Lemma state_of_shallow n n' : n_id n = n_id n' -> Forall2 shallow (n_next n) (n_next n') -> state_of n = state_of n'.
Proof.
  unfold state_of. intros -> H. generalize (new_state (n_id n')) as s.
  induction H as [|a b l1 l2 (H1 & H2 & H3 & H4) H IH]; intros s; [done|]. cbn [fold_left].
  rewrite <- IH. f_equal. unfold add_pure. by rewrite H1, H2, H3, H4.
Qed.

(** Non-failing nodes in processing order. *)
Fixpoint rlist (p : path) (n : node) : list (path * node) :=
  match n with
  | Node _ _ o _ next =>
    if decide (o = OFail) then [] else
    (p, n) :: (fix go i l := match l with [] => [] | c :: r => go (S i) r ++ rlist (p ++ [i]) c end) 0 next
  end.
Fixpoint rlists (i : nat) (p : path) (l : list node) : list (path * node) :=
  match l with [] => [] | c :: r => rlists (S i) p r ++ rlist (p ++ [i]) c end.
Lemma rlist_eq p n : rlist p n =
  if decide (n_outcome n = OFail) then [] else (p, n) :: rlists 0 p (n_next n).
Proof.
  destruct n as [x t o e next]. cbn [rlist n_next n_outcome]. destruct (decide (o = OFail)); [done|]. f_equal.
  generalize 0. induction next as [|c r IH]; intros i; [done|]. cbn. by rewrite IH.
Qed.
Fixpoint tests_below (n : node) : gset gostr :=
  match n with
  | Node _ _ _ _ next =>
    (fix go l := match l with [] => ∅ | c :: r => list_to_set (n_tests c) ∪ tests_below c ∪ go r end) next
  end.
Fixpoint tests_of (l : list node) : gset gostr :=
  match l with [] => ∅ | c :: r => list_to_set (n_tests c) ∪ tests_below c ∪ tests_of r end.
Lemma tests_below_eq n : tests_below n = tests_of (n_next n).
Proof. destruct n as [x t o e next]. cbn. induction next as [|c r IH]; [done|]. cbn. by rewrite IH. Qed.

(** Inferring types from a list of events. *)
Fixpoint infer_all (es : list (option event)) (types : type_map) : res berr type_map :=
  match es with
  | [] => Ok types
  | e :: r => match infer_type e types with Ok t => infer_all r t | Err x => Err x | Panic => Panic end
  end.
Lemma infer_all_app a b types : infer_all (a ++ b) types = res_bind (infer_all a types) (infer_all b).
Proof.
  revert types. induction a as [|e a IH]; intros types; [done|]. cbn.
  by destruct (infer_type e types).
Qed.

(** ** The builder's loop *)
Definition entries (i : nat) (p : path) (cs : list node) : list (path * node) :=
  imap (fun k c => (p ++ [i + k], c)) cs.
Lemma entries_cons i p c cs : entries i p (c :: cs) = (p ++ [i], c) :: entries (S i) p cs.
Proof. unfold entries. by rewrite children_from. Qed.
Lemma entries_children p n : children p n = entries 0 p (n_next n).
Proof. done. Qed.

Fixpoint assign_writes (num : N) (i : nat) (p : path) (l : list node) : list (path * gostr) :=
  match l with
  | [] => []
  | c :: r => if bool_decide (n_id c <> []) then assign_writes num (S i) p r
              else (p ++ [i], step_id num) :: assign_writes (num + 1) (S i) p r
  end.
Fixpoint tests_here (l : list node) : gset gostr :=
  match l with [] => ∅ | c :: r => list_to_set (n_tests c) ∪ tests_here r end.

Lemma build_children_spec l : forall num i p st M ws s num1 cs,
  assign num l = (num1, cs) -> Forall good_node l ->
  build_children (Builder num st M ws) (entries i p l) s =
  Ok (Builder num1 st (Stm (m_states M) (m_types M) (m_tests M ∪ tests_here l)) (ws ++ assign_writes num i p l),
      fold_left add_pure cs s, entries i p cs).
Proof.
  induction l as [|c l IH]; intros num i p st M ws s num1 cs Ea Hg.
  - cbn in Ea. injection Ea as <- <-. cbn. rewrite app_nil_r, (right_id_L ∅ (∪)). by destruct M.
  - rewrite entries_cons. cbn [build_children]. apply Forall_cons in Hg as [Hc Hg].
    cbn [assign assign_writes tests_here] in *. unfold ensure_node_id.
    case_bool_decide as Hid.
    + destruct (assign num l) as [num2 r'] eqn:E. injection Ea as <- <-.
      rewrite add_outgoing_pure by done.
      rewrite (IH _ _ _ _ _ _ _ _ _ E Hg). cbn [m_states m_types m_tests].
      rewrite entries_cons. by rewrite (assoc_L (∪)).
    + cbn [b_num b_stack b_stm b_writes]. destruct (assign (num + 1) l) as [num2 r'] eqn:E. injection Ea as <- <-.
      fold (step_id num).
      rewrite add_outgoing_pure; [|by destruct c|by apply good_node_set_id].
      rewrite (IH _ _ _ _ _ _ _ _ _ E Hg). cbn [m_states m_types m_tests].
      rewrite entries_cons, (assoc_L (∪)), <- (assoc_L (++)). cbn [app].
      do 6 f_equal. by destruct c.
Qed.

Lemma tests_here_assign num l num1 cs : assign num l = (num1, cs) -> tests_here cs = tests_here l.
Proof.
  revert num num1 cs. induction l as [|c l IH]; intros num num1 cs; cbn; [by intros [= <- <-]|].
  case_bool_decide.
  - destruct (assign num l) as [n2 r'] eqn:E. intros [= <- <-]. cbn. by erewrite IH.
  - destruct (assign (num + 1) l) as [n2 r'] eqn:E. intros [= <- <-]. cbn. erewrite IH by done. by destruct c.
Qed.

(** Effect of identifier writes on the tree. *)
Lemma apply_writes_app a b t : apply_writes (a ++ b) t = apply_writes b (apply_writes a t).
Proof. unfold apply_writes. by rewrite fold_left_app. Qed.
Lemma node_at_update p g t n : node_at t p = Some n -> node_at (update_at p g t) p = Some (g n).
Proof.
  revert t. induction p as [|i p IH]; intros t H; cbn in *; [by injection H as ->|].
  destruct t as [x ts o e nx]. cbn in *. rewrite list_lookup_alter.
  destruct (nx !! i); cbn; [|done]. by apply IH.
Qed.
Lemma node_at_snoc t p n i : node_at t p = Some n -> node_at t (p ++ [i]) = n_next n !! i.
Proof.
  revert t. induction p as [|j p IH]; intros t H; cbn in *.
  - injection H as ->. by destruct (n_next n !! i).
  - destruct (n_next t !! j); [|done]. by apply IH.
Qed.
Lemma update_at_id p t n : node_at t p = Some n -> update_at p (fun _ => n) t = t.
Proof.
  revert t. induction p as [|i p IH]; intros t H; cbn in *; [congruence|].
  destruct t as [x ts o e nx]. cbn in *. f_equal. apply list_eq. intros k.
  destruct (decide (k = i)) as [->|Hne].
  - rewrite list_lookup_alter. destruct (nx !! i) as [c|] eqn:E; [|done]. cbn. by rewrite IH.
  - by rewrite list_lookup_alter_ne.
Qed.
Lemma update_child p pre c post x ts o e g t :
  node_at t p = Some (Node x ts o e (pre ++ c :: post)) ->
  update_at (p ++ [length pre]) g t = update_at p (fun _ => Node x ts o e (pre ++ g c :: post)) t.
Proof.
  intros H. rewrite update_at_app. apply update_at_ext. intros m Hm. rewrite H in Hm. injection Hm as <-.
  cbn. f_equal. rewrite alter_app_r_alt by done. by rewrite Nat.sub_diag.
Qed.
Lemma assign_writes_tree l : forall num num1 cs p pre x ts o e t,
  assign num l = (num1, cs) -> node_at t p = Some (Node x ts o e (pre ++ l)) ->
  apply_writes (assign_writes num (length pre) p l) t = update_at p (fun _ => Node x ts o e (pre ++ cs)) t.
Proof.
  induction l as [|c l IH]; intros num num1 cs p pre x ts o e t Ea Ht; cbn in Ea |- *.
  - injection Ea as <- <-. by rewrite update_at_id.
  - case_bool_decide.
    + destruct (assign num l) as [n2 r'] eqn:E. injection Ea as <- <-.
      specialize (IH num n2 r' p (pre ++ [c]) x ts o e t E). rewrite app_length, Nat.add_1_r in IH.
      rewrite <- !(assoc_L (++)) in IH. cbn in IH. by apply IH.
    + destruct (assign (num + 1) l) as [n2 r'] eqn:E. injection Ea as <- <-.
      unfold apply_writes. cbn [fold_left]. fold (apply_writes (assign_writes (num + 1) (S (length pre)) p l)).
      unfold apply_write. cbn [fst snd]. erewrite update_child by exact Ht.
      specialize (IH (num + 1)%N n2 r' p (pre ++ [set_id (step_id num) c]) x ts o e).
      rewrite app_length, Nat.add_1_r in IH.
      assert (Happ : forall X, (pre ++ [set_id (step_id num) c]) ++ X = pre ++ set_id (step_id num) c :: X).
      { intros X. by rewrite <- (assoc_L (++)). }
      rewrite Happ in IH. unfold apply_writes in IH. rewrite IH; [|done|].
      * rewrite Happ. by rewrite update_at_compose.
      * erewrite node_at_update by exact Ht. done.
Qed.

Definition out_states (l : list (path * node)) : list state := map (fun pn => state_of pn.2) l.
Definition out_events (l : list (path * node)) : list (option event) := map (fun pn => n_event pn.2) l.

Lemma rlists_app_shallow : True. Proof. done. Qed.

Lemma loop_lab :
  forall num n num' n', lab num n num' n' ->
    kids_good n -> forall p, exists w,
    (forall T, node_at T p = Some n -> apply_writes w T = update_at p (fun _ => n') T) /\
    forall fuel rest M ws,
      build_loop (nsize n + fuel) (Builder num ((p, n) :: rest) M ws) =
      match infer_all (out_events (rlist p n')) (m_types M) with
      | Ok types => build_loop fuel (Builder num' rest
          (Stm (m_states M ++ out_states (rlist p n')) types (m_tests M ∪ tests_below n')) (ws ++ w))
      | Err x => Err x
      | Panic => Panic
      end.
Proof.
  apply (lab_mut
    (fun num n num' n' _ => kids_good n -> forall p, exists w,
      (forall T, node_at T p = Some n -> apply_writes w T = update_at p (fun _ => n') T) /\
      forall fuel rest M ws,
        build_loop (nsize n + fuel) (Builder num ((p, n) :: rest) M ws) =
        match infer_all (out_events (rlist p n')) (m_types M) with
        | Ok types => build_loop fuel (Builder num' rest
            (Stm (m_states M ++ out_states (rlist p n')) types (m_tests M ∪ tests_below n')) (ws ++ w))
        | Err x => Err x
        | Panic => Panic
        end)
    (fun num cs num' cs' _ => Forall sub_good cs -> forall p i, exists w,
      (forall T x t o e pre, length pre = i -> node_at T p = Some (Node x t o e (pre ++ cs)) ->
          apply_writes w T = update_at p (fun _ => Node x t o e (pre ++ cs')) T) /\
      forall fuel rest M ws,
        build_loop (sizes cs + fuel) (Builder num (rev (entries i p cs) ++ rest) M ws) =
        match infer_all (out_events (rlists i p cs')) (m_types M) with
        | Ok types => build_loop fuel (Builder num' rest
            (Stm (m_states M ++ out_states (rlists i p cs')) types
                 (foldr (fun c s => tests_below c ∪ s) (m_tests M) cs')) (ws ++ w))
        | Err x => Err x
        | Panic => Panic
        end)).
  - (* fail *)
    intros num n Ho Hn _ p. exists []. split.
    + intros T HT. cbn. by rewrite update_at_id.
    + intros fuel rest M ws. rewrite nsize_next, Hn. cbn [sizes map list_sum foldr Nat.add build_loop b_stack].
      unfold sizes. cbn [map list_sum foldr Nat.add build_loop b_stack].
      unfold process_node. rewrite bool_decide_true by done. cbn [b_num b_stm b_writes].
      rewrite rlist_eq, decide_True by done. rewrite tests_below_eq, Hn. cbn.
      rewrite !app_nil_r, (right_id_L ∅ (∪)). by destruct M.
  - (* node *)
    intros num n num1 cs num2 cs' Ho Ea Hl IH Hg p.
    pose proof (proj1 (kids_good_sub n) Hg) as Hg'.
    pose proof (assign_good _ _ _ _ Ea Hg') as Hgcs.
    destruct (IH Hgcs p 0) as (w & Hw & Hloop).
    exists (assign_writes num 0 p (n_next n) ++ w). split.
    + intros T HT. rewrite apply_writes_app. destruct n as [x t o e next]. cbn [n_next set_next] in *.
      pose proof (assign_writes_tree next num num1 cs p [] x t o e T Ea HT) as Haw. cbn [length app] in Haw. rewrite Haw.
      rewrite (Hw _ x t o e []); [by rewrite update_at_compose|done|].
      erewrite node_at_update by exact HT. done.
    + intros fuel rest M ws. rewrite nsize_next. cbn [Nat.add build_loop b_stack b_num b_stm b_writes].
      unfold process_node. rewrite bool_decide_false by done. rewrite entries_children.
      rewrite (build_children_spec _ _ _ _ _ _ _ _ _ _ Ea).
      2:{ eapply Forall_impl; [exact Hg'|]. intros c Hc. by apply sub_good_iff in Hc as [? _]. }
      cbn [b_stm b_num b_stack b_writes m_types m_states m_tests].
      rewrite rlist_eq. assert (n_outcome (set_next cs' n) = n_outcome n) as -> by (by destruct n).
      rewrite decide_False by done. cbn [out_events out_states map snd].
      assert (n_event (set_next cs' n) = n_event n) as -> by (by destruct n).
      cbn [infer_all].
      assert (n_next (set_next cs' n) = cs') as Hnx by (by destruct n). rewrite Hnx.
      destruct (infer_type (n_event n) (m_types M)) as [ty|x|]; [|done|done].
      rewrite push_all. rewrite <- (assign_sizes _ _ _ _ Ea). rewrite Hloop. cbn [m_types m_states m_tests].
      fold (out_events (rlists 0 p cs')). fold (out_states (rlists 0 p cs')).
      destruct (infer_all (out_events (rlists 0 p cs')) ty) as [ty'|x|]; [|done|done].
      do 2 f_equal.
      * f_equal.
        -- rewrite <- (assoc_L (++)). cbn [app]. do 2 f_equal.
           unfold state_of at 1. rewrite Hnx.
           assert (n_id (set_next cs' n) = n_id n) as -> by (by destruct n).
           assert (Hst : state_of (set_next cs n) = state_of (set_next cs' n)).
           { apply state_of_shallow; destruct n; cbn; [done|]. by eapply labs_shallow. }
           unfold state_of in Hst. destruct n; cbn in Hst |- *. exact Hst.
        -- rewrite tests_below_eq, Hnx.
           assert (Hsh : Forall2 shallow cs cs') by (by eapply labs_shallow).
           rewrite <- (tests_here_assign _ _ _ _ Ea).
           clear -Hsh. set (A := m_tests M). clearbody A.
           assert (H : forall A, foldr (fun c s => tests_below c ∪ s) (A ∪ tests_here cs) cs' = A ∪ tests_of cs').
           { induction Hsh as [|a b l1 l2 (_ & Ht & _) Hsh IH]; intros B; cbn; [done|].
             rewrite (assoc_L (∪) B), IH, Ht. set_solver. }
           apply H.
      * by rewrite <- (assoc_L (++)).
  - (* nil *)
    intros num _ p i. exists []. split.
    + intros T x t o e pre _ HT. cbn. by rewrite update_at_id.
    + intros fuel rest M ws. cbn. rewrite !app_nil_r. by destruct M.
  - (* cons *)
    intros num c r num1 r' num2 c' Hr IHr Hc IHc Hg p i. apply Forall_cons in Hg as [Hgc Hgr].
    destruct (IHr Hgr p (S i)) as (w1 & Hw1 & Hl1).
    destruct (IHc (proj2 (proj1 (sub_good_iff c) Hgc)) (p ++ [i])) as (w2 & Hw2 & Hl2).
    exists (w1 ++ w2). split.
    + intros T x t o e pre Hpre HT. rewrite apply_writes_app.
      rewrite (Hw1 T x t o e (pre ++ [c])); [|rewrite app_length; cbn; lia|by rewrite <- (assoc_L (++))].
      rewrite <- (assoc_L (++)). cbn [app]. rewrite Hw2.
      * rewrite <- Hpre. erewrite update_child; [|by erewrite node_at_update by exact HT].
        by rewrite update_at_compose.
      * erewrite node_at_snoc; [|by erewrite node_at_update by exact HT].
        cbn. by rewrite lookup_app_r, <- Hpre, Nat.sub_diag by lia.
    + intros fuel rest M ws. rewrite entries_cons. cbn [rev]. rewrite <- (assoc_L (++)). cbn [app].
      assert (sizes (c :: r) + fuel = sizes r + (nsize c + fuel)) as ->.
      { unfold sizes. cbn. unfold list_sum. lia. }
      rewrite Hl1. cbn [rlists]. unfold out_events at 2. rewrite map_app, infer_all_app.
      fold (out_events (rlists (S i) p r')). fold (out_events (rlist (p ++ [i]) c')).
      destruct (infer_all (out_events (rlists (S i) p r')) (m_types M)) as [ty|x|]; [|done|done].
      cbn [res_bind]. rewrite Hl2. cbn [m_types m_states m_tests].
      destruct (infer_all (out_events (rlist (p ++ [i]) c')) ty) as [ty'|x|]; [|done|done].
      do 2 f_equal; [|by rewrite (assoc_L (++))]. f_equal.
      * rewrite <- (assoc_L (++)). f_equal. unfold out_states. by rewrite map_app.
      * cbn. by rewrite (comm_L (∪)).
Qed.

(** What Build does, in terms of the labelled tree. *)
Lemma build_lab b root num' T :
  good_tree root -> lab 0 (set_id (lit "initial") root) num' T ->
  exists ws, apply_writes ws root = T /\
  build b root =
  match infer_all (out_events (rlist [] T)) ∅ with
  | Ok types => Ok (Builder num' [] (Stm (out_states (rlist [] T)) types (tests_below T)) ws)
  | Err x => Err x
  | Panic => Panic
  end.
Proof.
  intros [Hr Hk] Hlab.
  assert (Hk' : kids_good (set_id (lit "initial") root)) by (by apply kids_good_set_id).
  destruct (loop_lab _ _ _ _ Hlab Hk' []) as (w & Hw & Hl).
  exists (([], lit "initial") :: w). split.
  - unfold apply_writes. cbn [fold_left]. unfold apply_write at 2. cbn [fst snd update_at].
    change (fold_left apply_write w (set_id (lit "initial") root)) with (apply_writes w (set_id (lit "initial") root)).
    by rewrite Hw.
  - unfold build, push. rewrite <- (Nat.add_0_r (nsize _)). rewrite Hl. cbn [m_types m_states m_tests empty_stm].
    destruct (infer_all (out_events (rlist [] T)) ∅); [|done|done]. cbn. by rewrite (left_id_L ∅ (∪)).
Qed.
