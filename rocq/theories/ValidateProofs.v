(** * Lemmas about Walk and validation *)
From Verif Require Export Validate SpecTree TestLangProofs.

(** ** Walk *)

Lemma push_all {A} (l st : list A) : fold_left (fun st c => push c st) l st = rev l ++ st.
Proof.
  revert st. induction l as [|x l IH]; intros st; simpl; [done|].
  rewrite IH. unfold push. by rewrite <- (assoc_L (++)).
Qed.
Lemma push_all_rev {A} (l st : list A) : fold_left (fun st c => push c st) (rev l) st = l ++ st.
Proof. by rewrite push_all, rev_involutive. Qed.

Fixpoint preorder (p : path) (n : node) : list (path * node) :=
  match n with
  | Node _ _ _ _ next =>
    (p, n) :: (fix go i l := match l with [] => [] | c :: r => preorder (p ++ [i]) c ++ go (S i) r end) 0 next
  end.
Fixpoint preorders (i : nat) (p : path) (l : list node) : list (path * node) :=
  match l with [] => [] | c :: r => preorder (p ++ [i]) c ++ preorders (S i) p r end.
Lemma preorder_eq p n : preorder p n = (p, n) :: preorders 0 p (n_next n).
Proof.
  destruct n as [x t o e next]. cbn [preorder n_next]. f_equal.
  generalize 0. induction next as [|c r IH]; intros i; [done|]. cbn. by rewrite IH.
Qed.

(** A listing of the nodes on the stack, top first. *)
Definition stack_order (st : list (path * node)) : list (path * node) :=
  concat (map (fun pn => preorder pn.1 pn.2) st).
Definition stack_size (st : list (path * node)) : nat := list_sum (map (fun pn => nsize pn.2) st).

Lemma children_from i (p : path) (l : list node) :
  imap (fun k c => (p ++ [i + k], c)) l =
  match l with [] => [] | c :: r => (p ++ [i], c) :: imap (fun k c => (p ++ [S i + k], c)) r end.
Proof.
  destruct l as [|c r]; [done|]. cbn. rewrite Nat.add_0_r. f_equal.
  apply imap_ext. intros k x _. cbn. by rewrite Nat.add_succ_r.
Qed.
Lemma stack_order_children_from i (p : path) (l : list node) :
  stack_order (imap (fun k c => (p ++ [i + k], c)) l) = preorders i p l.
Proof.
  revert i. induction l as [|c r IH]; intros i; [done|].
  rewrite children_from. unfold stack_order. cbn. f_equal. apply (IH (S i)).
Qed.
Lemma stack_order_children p n : stack_order (children p n) = preorders 0 p (n_next n).
Proof. unfold children. apply (stack_order_children_from 0). Qed.
Lemma stack_order_app a b : stack_order (a ++ b) = stack_order a ++ stack_order b.
Proof. unfold stack_order. by rewrite map_app, concat_app. Qed.
Lemma stack_size_app a b : stack_size (a ++ b) = stack_size a + stack_size b.
Proof. unfold stack_size. by rewrite map_app, list_sum_app. Qed.
Lemma stack_size_children_from i (p : path) (l : list node) :
  stack_size (imap (fun k c => (p ++ [i + k], c)) l) = sizes l.
Proof.
  revert i. induction l as [|c r IH]; intros i; [done|].
  rewrite children_from. unfold stack_size, sizes in *. cbn. f_equal. apply (IH (S i)).
Qed.
Lemma stack_size_children p n : S (stack_size (children p n)) = nsize n.
Proof.
  unfold children. rewrite (stack_size_children_from 0). destruct n; done.
Qed.

Lemma walk_loop_spec {E A} (f : path -> node -> A -> res E A) fuel stack a :
  stack_size stack <= fuel ->
  walk_loop f fuel stack a = Some (visit_all f (stack_order stack) a).
Proof.
  revert stack a. induction fuel as [|fuel IH]; intros stack a Hf.
  - destruct stack as [|[p n] st]; [done|]. unfold stack_size in Hf. simpl in Hf.
    destruct n; simpl in Hf; lia.
  - destruct stack as [|[p n] st]; [done|].
    cbn [walk_loop]. unfold stack_order. cbn [map concat fst snd].
    rewrite preorder_eq. cbn [visit_all app].
    destruct (f p n a) as [a'|e|]; [|done|done].
    rewrite push_all_rev, IH.
    + by rewrite stack_order_app, stack_order_children.
    + rewrite stack_size_app. unfold stack_size in Hf. cbn [map list_sum snd] in Hf.
      pose proof (stack_size_children p n). unfold stack_size in *. simpl in Hf. lia.
Qed.
Lemma walk_visits {E A} (f : path -> node -> A -> res E A) root a :
  walk f root a = Some (visit_all f (preorder [] root) a).
Proof.
  unfold walk. rewrite walk_loop_spec.
  - unfold stack_order, push. cbn. by rewrite app_nil_r.
  - unfold stack_size, push. cbn. lia.
Qed.

(** ** The listing is the pre-order *)

Lemma elem_preorder p n q m :
  (q, m) ∈ preorder p n <-> exists r, q = p ++ r /\ node_at n r = Some m.
Proof.
  revert p q m. induction n as [x t o e next IH] using node_ind'. intros p q m.
  rewrite preorder_eq, elem_of_cons. cbn [n_next].
  assert (Hgen : forall i, (q, m) ∈ preorders i p next <->
    exists k r c, next !! k = Some c /\ q = p ++ (i + k) :: r /\ node_at c r = Some m).
  { induction IH as [|c l Hc Hl IHl]; intros i; cbn [preorders].
    - rewrite elem_of_nil. split; [done|]. intros (k & r & c & Hk & _). discriminate.
    - rewrite elem_of_app, Hc, IHl. split.
      + intros [(r & -> & Hr)|(k & r & c' & Hk & -> & Hr)].
        * exists 0, r, c. split; [done|]. rewrite Nat.add_0_r. split; [|done]. by rewrite <- (assoc_L (++)).
        * exists (S k), r, c'. split; [done|]. split; [|done]. by rewrite Nat.add_succ_r.
      + intros (k & r & c' & Hk & -> & Hr). destruct k as [|k].
        * left. injection Hk as <-. exists r. rewrite Nat.add_0_r, <- (assoc_L (++)). done.
        * right. exists k, r, c'. split; [done|]. by rewrite Nat.add_succ_r. }
  rewrite Hgen. cbn [Nat.add]. split.
  - intros [[= -> ->]|(k & r & c & Hk & -> & Hr)].
    + exists []. by rewrite app_nil_r.
    + exists (k :: r). split; [done|]. cbn. by rewrite Hk.
  - intros (r & -> & Hr). destruct r as [|k r]; cbn in Hr.
    + left. rewrite app_nil_r. by injection Hr as ->.
    + right. destruct (next !! k) as [c|] eqn:Hk; [|discriminate]. by exists k, r, c.
Qed.

Lemma path_lt_app p q r : path_lt q r -> path_lt (p ++ q) (p ++ r).
Proof. induction p as [|i p IH]; [done|]. intros H. cbn. apply pl_deeper. by apply IH. Qed.

Lemma StronglySorted_app {A} (R : A -> A -> Prop) l1 l2 :
  StronglySorted R l1 -> StronglySorted R l2 -> (forall x y, x ∈ l1 -> y ∈ l2 -> R x y) ->
  StronglySorted R (l1 ++ l2).
Proof.
  induction 1 as [|x l1 H1 IH Hx]; intros H2 H; [done|]. cbn. constructor.
  - apply IH; [done|]. intros. apply H; [by right|done].
  - apply Forall_app. split; [done|]. apply Forall_forall. intros y Hy. apply H; [left|done].
Qed.

Lemma preorder_sorted p n : StronglySorted path_lt (preorder p n).*1.
Proof.
  revert p. induction n as [x t o e next IH] using node_ind'. intros p.
  rewrite preorder_eq. cbn [n_next fmap list_fmap fst].
  assert (Hin : forall i q, q ∈ (preorders i p next).*1 -> exists k r, q = p ++ (i + k) :: r).
  { intros i q. clear IH. revert i. induction next as [|c l IHl]; intros i; cbn [preorders].
    - intros H. by apply elem_of_nil in H.
    - rewrite fmap_app, elem_of_app. intros [H|H].
      + apply elem_of_list_fmap in H as ([q' m] & -> & H). apply elem_preorder in H as (r & -> & _).
        exists 0, r. cbn. rewrite Nat.add_0_r, <- (assoc_L (++)). done.
      + apply IHl in H as (k & r & ->). exists (S k), r. by rewrite Nat.add_succ_r. }
  constructor.
  - generalize 0. clear Hin. induction IH as [|c l Hc Hl IHl]; intros i; cbn [preorders]; [constructor|].
    rewrite fmap_app. apply StronglySorted_app; [apply Hc|apply IHl|].
    intros a b Ha Hb.
    apply elem_of_list_fmap in Ha as ([q' m] & -> & Ha). apply elem_preorder in Ha as (r & -> & _).
    cbn [fst]. rewrite <- (assoc_L (++)).
    assert (Hb' : exists k r, b = p ++ (S i + k) :: r).
    { clear Hc IHl Hl. revert Hb. generalize (S i) as j. induction l as [|d l IHl]; intros j; cbn [preorders].
      - intros H. by apply elem_of_nil in H.
      - rewrite fmap_app, elem_of_app. intros [H|H].
        + apply elem_of_list_fmap in H as ([q' m'] & -> & H). apply elem_preorder in H as (r' & -> & _).
          exists 0, r'. cbn. rewrite Nat.add_0_r, <- (assoc_L (++)). done.
        + apply IHl in H as (k & r' & ->). exists (S k), r'. by rewrite Nat.add_succ_r. }
    destruct Hb' as (k & r' & ->). apply path_lt_app. cbn. constructor. lia.
  - apply Forall_forall. intros q Hq. apply Hin in Hq as (k & r & ->).
    rewrite <- (app_nil_r p) at 1. apply path_lt_app. constructor.
Qed.

Lemma preorder_is_preorder n : preorder_of n (preorder [] n).
Proof.
  split; [apply preorder_sorted|]. intros p m. rewrite elem_preorder. split.
  - intros (r & -> & H). done.
  - intros H. by exists p.
Qed.

Lemma path_lt_irrefl p : ~ path_lt p p.
Proof.
  induction p as [|i p IH]; intros H; inversion H; subst; [lia|by apply IH].
Qed.
Lemma path_lt_asym p q : path_lt p q -> path_lt q p -> False.
Proof.
  induction 1 as [i p|i j p q Hlt|i p q H IH]; intros H'; inversion H'; subst; try lia; eauto.
Qed.
(** The pre-order listing is unique. *)
Lemma StronglySorted_unique (l1 l2 : list path) :
  StronglySorted path_lt l1 -> StronglySorted path_lt l2 -> (forall x, x ∈ l1 <-> x ∈ l2) -> l1 = l2.
Proof.
  intros H1. revert l2. induction H1 as [|x l1 H1 IH Hx]; intros l2 H2 Heq.
  - destruct l2 as [|y l2]; [done|]. exfalso. apply (not_elem_of_nil y). apply Heq. left.
  - destruct H2 as [|y l2 H2 Hy]; [exfalso; apply (not_elem_of_nil x); apply Heq; left|].
    assert (x = y) as <-.
    { assert (x ∈ y :: l2) as Hxi by (apply Heq; left).
      assert (y ∈ x :: l1) as Hyi by (apply Heq; left).
      apply elem_of_cons in Hxi as [|Hxi]; [done|]. apply elem_of_cons in Hyi as [|Hyi]; [done|].
      rewrite Forall_forall in Hx, Hy. exfalso. eapply path_lt_asym; eauto. }
    f_equal. apply IH; [done|]. intros z. specialize (Heq z). rewrite !elem_of_cons in Heq.
    rewrite Forall_forall in Hx, Hy. split; intros Hz.
    + assert (z = x \/ z ∈ l2) as [->|] by tauto; [|done]. exfalso. apply (path_lt_irrefl x). by apply Hx.
    + assert (z = x \/ z ∈ l1) as [->|] by tauto; [|done]. exfalso. apply (path_lt_irrefl x). by apply Hy.
Qed.
Lemma list_fst_unique {A} (l1 l2 : list (path * A)) :
  l1.*1 = l2.*1 -> NoDup l1.*1 -> (forall x, x ∈ l1 -> x ∈ l2) -> l1 = l2.
Proof.
  revert l2. induction l1 as [|[p a] l1 IH]; intros [|[q b] l2] Heq Hnd Hin; cbn in *; try done.
  injection Heq as <- Heq. apply NoDup_cons in Hnd as [Hp Hnd].
  assert (a = b) as <-.
  { assert ((p, a) ∈ (p, b) :: l2) as H by (apply Hin; left).
    apply elem_of_cons in H as [H|H]; [congruence|]. exfalso. apply Hp. rewrite Heq.
    apply elem_of_list_fmap. by exists (p, a). }
  f_equal. apply IH; [done|done|]. intros x Hx.
  assert (x ∈ (p, a) :: l2) as H by (apply Hin; by right).
  apply elem_of_cons in H as [->|H]; [|done]. exfalso. apply Hp. apply elem_of_list_fmap. by exists (p, a).
Qed.
Lemma StronglySorted_NoDup (l : list path) : StronglySorted path_lt l -> NoDup l.
Proof.
  induction 1 as [|x l H IH Hx]; constructor; [|done]. intros Hin. rewrite Forall_forall in Hx.
  apply (path_lt_irrefl x). by apply Hx.
Qed.
Lemma preorder_of_unique n l : preorder_of n l -> l = preorder [] n.
Proof.
  intros [Hs Hi]. destruct (preorder_is_preorder n) as [Hs' Hi'].
  apply list_fst_unique.
  - apply StronglySorted_unique; [done|done|]. intros p. split; intros H.
    + apply elem_of_list_fmap in H as ([q m] & -> & H). apply elem_of_list_fmap. exists (q, m).
      split; [done|]. by apply Hi', Hi.
    + apply elem_of_list_fmap in H as ([q m] & -> & H). apply elem_of_list_fmap. exists (q, m).
      split; [done|]. by apply Hi, Hi'.
  - by apply StronglySorted_NoDup.
  - intros [p m] H. by apply Hi', Hi.
Qed.

(** ** Validation *)

Lemma v_root_iff n : v_root n = None <-> good_root n.
Proof.
  unfold v_root, good_root. destruct n as [x t o e next]; cbn.
  destruct e; [naive_solver|].
  destruct o; cbn; try naive_solver.
  destruct t; cbn; naive_solver.
Qed.
Lemma v_node_iff n : v_node n = None <-> good_node n.
Proof.
  unfold v_node, v_fail_node, v_pass_node, v_non_fail_node, one_next, good_node.
  destruct n as [x t o e next]; cbn.
  destruct t as [|t0 t]; [cbn; naive_solver|]. cbn.
  destruct o; cbn.
  - naive_solver.
  - destruct e; [|naive_solver]. destruct next; cbn; naive_solver.
  - destruct e; [naive_solver|]. destruct next; cbn; naive_solver.
  - destruct next as [|c [|d next]]; cbn; [naive_solver| |naive_solver].
    destruct e; naive_solver.
  - naive_solver.
Qed.

(** The fault, if any, of a node in a tree. *)
Definition fault (pn : path * node) : option verr :=
  if bool_decide (pn.1 = []) then v_root pn.2 else v_node pn.2.
Lemma v_visit_fault p n : v_visit p n tt = match fault (p, n) with Some e => Err e | None => Ok tt end.
Proof. reflexivity. Qed.
Lemma visit_all_ok l :
  visit_all v_visit l tt = Ok tt <-> Forall (fun pn => fault pn = None) l.
Proof.
  induction l as [|[p n] l IH]; cbn [visit_all]; [done|]. rewrite Forall_cons.
  rewrite v_visit_fault. destruct (fault (p, n)) as [e|].
  - naive_solver.
  - rewrite IH. naive_solver.
Qed.
Lemma visit_all_unit l : visit_all v_visit l tt <> Panic.
Proof.
  induction l as [|[p n] l IH]; cbn [visit_all]; [done|]. rewrite v_visit_fault.
  by destruct (fault (p, n)).
Qed.

Lemma visit_all_first l :
  visit_all v_visit l tt =
  match list_find (fun pn => is_Some (fault pn)) l with
  | None => Ok tt
  | Some (_, pn) => match fault pn with Some e => Err e | None => Ok tt end
  end.
Proof.
  induction l as [|[p n] l IH]; [done|]. cbn [visit_all list_find]. rewrite v_visit_fault.
  destruct (fault (p, n)) as [e|] eqn:E.
  - rewrite decide_True by (by eexists). by rewrite E.
  - rewrite decide_False by (by intros [? ?]). rewrite IH.
    by destruct (list_find _ l) as [[k x]|].
Qed.

Lemma full_iff r : full (Some r) = Ok r <-> good_tree r.
Proof.
  unfold full. rewrite walk_visits.
  assert (visit_all v_visit (preorder [] r) tt = Ok tt <-> good_tree r) as H.
  { rewrite visit_all_ok, Forall_forall. destruct (preorder_is_preorder r) as [_ Hi]. split.
    - intros H. split.
      + apply v_root_iff. apply (H ([], r)). by apply Hi.
      + intros p m Hp Hm. apply v_node_iff. apply Hi, H in Hm. unfold fault in Hm. cbn in Hm. by rewrite bool_decide_false in Hm.
    - intros [Hr Hn] [p m] Hin. apply Hi in Hin. unfold fault. cbn. case_bool_decide as Hp.
      + subst p. cbn in Hin. injection Hin as <-. by apply v_root_iff.
      + apply v_node_iff. by eapply Hn. }
  destruct (visit_all v_visit (preorder [] r) tt) as [[]|e|] eqn:E.
  - naive_solver.
  - naive_solver.
  - naive_solver.
Qed.
Lemma full_no_panic r : full (Some r) <> Panic.
Proof.
  unfold full. rewrite walk_visits. pose proof (visit_all_unit (preorder [] r)).
  by destruct (visit_all v_visit (preorder [] r) tt).
Qed.
Lemma full_result r x : full (Some r) = Ok x -> x = r.
Proof.
  unfold full. destruct (walk v_visit r tt) as [[|e|]|]; congruence.
Qed.

Lemma full_first_fault r l e : preorder_of r l ->
  full (Some r) = Err e <->
  exists l1 p n l2, l = l1 ++ (p, n) :: l2 /\ Forall (fun pn => fault pn = None) l1 /\ fault (p, n) = Some e.
Proof.
  intros Hl. apply preorder_of_unique in Hl as ->.
  assert (visit_all v_visit (preorder [] r) tt = Err e <->
    exists l1 p n l2, preorder [] r = l1 ++ (p, n) :: l2 /\ Forall (fun pn => fault pn = None) l1 /\ fault (p, n) = Some e) as <-.
  { generalize (preorder [] r) as l. induction l as [|[p n] l IH]; cbn [visit_all].
    - split; [discriminate|]. intros (l1 & p & n & l2 & H & _). by destruct l1.
    - rewrite v_visit_fault.
      destruct (fault (p, n)) as [e'|] eqn:E.
      + split.
        * intros [= ->]. exists [], p, n, l. done.
        * intros (l1 & p' & n' & l2 & H & Hl1 & He). destruct l1 as [|x l1]; cbn in H; simplify_eq; [done|].
          apply Forall_cons in Hl1 as [Hx _]. congruence.
      + rewrite IH. split.
        * intros (l1 & p' & n' & l2 & -> & Hl1 & He). exists ((p, n) :: l1), p', n', l2. split; [done|].
          split; [by constructor|done].
        * intros (l1 & p' & n' & l2 & H & Hl1 & He). destruct l1 as [|x l1]; cbn in H; simplify_eq.
          apply Forall_cons in Hl1 as [_ Hl1]. by exists l1, p', n', l2. }
  unfold full. rewrite walk_visits.
  destruct (visit_all v_visit (preorder [] r) tt) as [[]|e'|]; naive_solver.
Qed.

(** ** Maps *)

Section maps.
  Context {E T U : Type}.
  Implicit Types (mapper : T -> res E U).

  Lemma try_over_map_ok mapper order acc r :
    NoDup order.*1 ->
    try_over_map_values mapper order acc = Ok r <->
    (forall k v, (k, v) ∈ order -> exists u, mapper v = Ok u /\ r !! k = Some u) /\
    (forall k, k ∉ order.*1 -> r !! k = acc !! k).
  Proof.
    revert acc. induction order as [|[k v] order IH]; intros acc Hnd; cbn [try_over_map_values].
    - split.
      + intros [= ->]. split; [|done]. intros k v H. by apply elem_of_nil in H.
      + intros [_ H]. f_equal. apply map_eq. intros k. symmetry. apply H. apply not_elem_of_nil.
    - cbn in Hnd. apply NoDup_cons in Hnd as [Hk Hnd].
      destruct (mapper v) as [u|e|] eqn:Em.
      + rewrite IH by done. split.
        * intros [H1 H2]. split.
          -- intros k' v' Hin. apply elem_of_cons in Hin as [[= -> ->]|Hin]; [|by apply H1].
             exists u. split; [done|]. rewrite H2 by done. by rewrite lookup_insert.
          -- intros k' Hk'. cbn in Hk'. apply not_elem_of_cons in Hk' as [Hne Hk'].
             rewrite H2 by done. by rewrite lookup_insert_ne.
        * intros [H1 H2]. split.
          -- intros k' v' Hin. apply H1. by right.
          -- intros k' Hk'. destruct (decide (k' = k)) as [->|Hne].
             ++ rewrite lookup_insert. destruct (H1 k v) as (u' & Hu & Hr); [left|]. congruence.
             ++ rewrite lookup_insert_ne by done. apply H2. cbn. apply not_elem_of_cons. done.
      + split; [discriminate|]. intros [H1 _]. destruct (H1 k v) as (u & Hu & _); [left|congruence].
      + split; [discriminate|]. intros [H1 _]. destruct (H1 k v) as (u & Hu & _); [left|congruence].
  Qed.

  Lemma try_over_map_fail mapper order acc e :
    try_over_map_values mapper order acc = Err e -> exists k v, (k, v) ∈ order /\ mapper v = Err e.
  Proof.
    revert acc. induction order as [|[k v] order IH]; intros acc; cbn [try_over_map_values]; [discriminate|].
    destruct (mapper v) as [u|e'|] eqn:Em.
    - intros H. apply IH in H as (k' & v' & Hin & H'). exists k', v'. split; [by right|done].
    - intros [= ->]. exists k, v. split; [left|done].
    - discriminate.
  Qed.
  Lemma try_over_map_panic mapper order acc :
    try_over_map_values mapper order acc = Panic -> exists k v, (k, v) ∈ order /\ mapper v = Panic.
  Proof.
    revert acc. induction order as [|[k v] order IH]; intros acc; cbn [try_over_map_values]; [discriminate|].
    destruct (mapper v) as [u|e'|] eqn:Em.
    - intros H. apply IH in H as (k' & v' & Hin & H'). exists k', v'. split; [by right|done].
    - discriminate.
    - intros _. exists k, v. split; [left|done].
  Qed.
End maps.

Lemma order_of_NoDup {T} (m : gmap gostr T) order : order_of m order -> NoDup order.*1.
Proof. unfold order_of. intros H. rewrite H. apply NoDup_fst_map_to_list. Qed.
Lemma order_of_elem {T} (m : gmap gostr T) order k v :
  order_of m order -> (k, v) ∈ order <-> m !! k = Some v.
Proof. unfold order_of. intros H. rewrite H. apply elem_of_map_to_list. Qed.
Lemma order_of_dom {T} (m : gmap gostr T) order k :
  order_of m order -> k ∉ order.*1 -> m !! k = None.
Proof.
  intros H Hk. destruct (m !! k) as [v|] eqn:E; [|done]. exfalso. apply Hk.
  apply elem_of_list_fmap. exists (k, v). split; [done|]. by eapply order_of_elem.
Qed.

(** The characterisation used for suites: for every iteration order. *)
Lemma try_over_map_order {E T U} (mapper : T -> res E U) (m : gmap gostr T) order r :
  order_of m order ->
  try_over_map_values mapper order ∅ = Ok r <->
  (forall k, match m !! k with
             | None => r !! k = None
             | Some v => exists u, mapper v = Ok u /\ r !! k = Some u
             end).
Proof.
  intros Ho. rewrite try_over_map_ok by (by eapply order_of_NoDup). split.
  - intros [H1 H2] k. destruct (m !! k) as [v|] eqn:Eq.
    + apply H1. by eapply order_of_elem.
    + rewrite H2; [apply lookup_empty|]. intros Hin. apply elem_of_list_fmap in Hin as ([k' v] & -> & Hin).
      eapply order_of_elem in Hin; [|done]. cbn in Eq. congruence.
  - intros H. split.
    + intros k v Hin. eapply order_of_elem in Hin; [|done]. specialize (H k). by rewrite Hin in H.
    + intros k Hk. specialize (H k). rewrite (order_of_dom _ _ _ Ho Hk) in H. by rewrite lookup_empty.
Qed.

Lemma over_map_spec {T U} (g : gostr -> T -> U) (m : gmap gostr T) order :
  order_of m order -> over_map (fun k t => (k, g k t)) order ∅ = map_imap (fun k t => Some (g k t)) m.
Proof.
  intros Ho.
  assert (H : forall order acc, NoDup order.*1 -> forall k,
    over_map (fun k t => (k, g k t)) order acc !! k =
    match list_find (fun kt => kt.1 = k) order with Some (_, (k', t)) => Some (g k' t) | None => acc !! k end).
  { clear m order Ho. intros order. induction order as [|[k v] order IH]; intros acc Hnd k'; cbn [over_map list_find]; [done|].
    cbn in Hnd. apply NoDup_cons in Hnd as [Hk Hnd]. rewrite IH by done. cbn [fst].
    destruct (decide (k = k')) as [->|Hne].
    - destruct (list_find (fun kt => kt.1 = k') order) as [[i [k'' t]]|] eqn:Eq.
      + apply list_find_Some in Eq as (Hi & Hk'' & _). cbn in Hk''. subst k''. exfalso. apply Hk.
        apply elem_of_list_fmap. exists (k', t). split; [done|]. by eapply elem_of_list_lookup_2.
      + by rewrite lookup_insert.
    - destruct (list_find (fun kt => kt.1 = k') order) as [[i [k'' t]]|]; cbn; [done|]. by rewrite lookup_insert_ne. }
  apply map_eq. intros k. rewrite H by (by eapply order_of_NoDup). rewrite map_lookup_imap.
  destruct (list_find (fun kt => kt.1 = k) order) as [[i [k' t]]|] eqn:Eq.
  - apply list_find_Some in Eq as (Hi & Hk & _). cbn in Hk. subst k'.
    apply elem_of_list_lookup_2 in Hi. eapply order_of_elem in Hi; [|done]. by rewrite Hi.
  - rewrite lookup_empty. destruct (m !! k) as [v|] eqn:Em; [|done].
    eapply order_of_elem in Em; [|done]. apply list_find_None in Eq. rewrite Forall_forall in Eq.
    exfalso. by apply (Eq (k, v)).
Qed.

(** ** Faults *)
Lemma v_root_fault n e : v_root n = Some e <-> root_fault n e.
Proof.
  unfold v_root. split.
  - destruct (n_event n) eqn:He; [intros [= <-]; constructor; congruence|].
    case_bool_decide as Ho; cbn; [|intros [= <-]; by constructor].
    destruct (n_tests n) eqn:Ht; cbn; [|done]. intros [= <-]. by constructor.
  - intros H. destruct H as [H|He Ho|He Ho Ht].
    + by destruct (n_event n).
    + rewrite He. by rewrite bool_decide_false.
    + rewrite He, Ht. by rewrite bool_decide_true.
Qed.
Lemma v_node_fault n e : v_node n = Some e <-> node_fault n e.
Proof.
  unfold v_node, v_fail_node, v_pass_node, v_non_fail_node, one_next. destruct n as [x t o ev next].
  split.
  - cbn. destruct t as [|t0 t]; cbn; [intros [= <-]; by constructor|].
    destruct o; cbn; [intros [= <-]; by constructor| | | |intros [= <-]; by econstructor].
    + destruct ev; [destruct next|]; cbn; intros [= <-]; by constructor.
    + destruct ev; [|destruct next]; cbn; intros [= <-]; by constructor.
    + destruct next as [|c [|d next]]; cbn; [intros [= <-]; by constructor| |intros [= <-]; by constructor].
      destruct ev; intros [= <-]; by constructor.
  - intros H. destruct H; cbn in *; simplify_eq/=; try (destruct t as [|t0 t]; [done|]); cbn; try done.
    + by destruct ev.
    + by destruct next.
    + by destruct next as [|c [|d next]].
    + by destruct next as [|c [|d next]].
    + by destruct ev.
Qed.
Lemma fault_at_iff p n e : fault (p, n) = Some e <-> fault_at p n e.
Proof.
  unfold fault, fault_at. cbn. case_bool_decide; rewrite ?v_root_fault, ?v_node_fault; naive_solver.
Qed.
Lemma fault_none_iff p n : fault (p, n) = None <-> ~ exists e, fault_at p n e.
Proof.
  split.
  - intros H [e He]. apply fault_at_iff in He. congruence.
  - intros H. destruct (fault (p, n)) as [e|] eqn:E; [|done]. destruct H. exists e. by apply fault_at_iff.
Qed.
Lemma full_reports r l e : preorder_of r l ->
  full (Some r) = Err e <->
  exists l1 p n l2, l = l1 ++ (p, n) :: l2 /\
    (forall q m, (q, m) ∈ l1 -> ~ exists e', fault_at q m e') /\ fault_at p n e.
Proof.
  intros Hl. rewrite full_first_fault by done. split.
  - intros (l1 & p & n & l2 & -> & H1 & H2). exists l1, p, n, l2. split; [done|]. split.
    + intros q m Hin. rewrite Forall_forall in H1. apply H1 in Hin. by apply fault_none_iff.
    + by apply fault_at_iff.
  - intros (l1 & p & n & l2 & -> & H1 & H2). exists l1, p, n, l2. split; [done|]. split.
    + apply Forall_forall. intros [q m] Hin. apply fault_none_iff. by apply H1.
    + by apply fault_at_iff.
Qed.
Lemma fault_unique p n e e' : fault_at p n e -> fault_at p n e' -> e = e'.
Proof. rewrite <- !fault_at_iff. congruence. Qed.

(** ** MarkAll *)
Lemma update_at_app p q g n :
  update_at (p ++ q) g n = update_at p (update_at q g) n.
Proof.
  revert n. induction p as [|i p IH]; intros n; cbn; [done|]. destruct n as [x t o e next]. f_equal.
  apply list_eq. intros k. destruct (decide (k = i)) as [->|Hne].
  - rewrite !list_lookup_alter. destruct (next !! i); cbn; [f_equal; apply IH|done].
  - by rewrite !list_lookup_alter_ne by done.
Qed.
Fixpoint mark_list (tests : list gostr) (l : list (path * node)) (t : node) : node :=
  match l with [] => t | (p, _) :: l => mark_list tests l (update_at p (mark tests) t) end.
Lemma mark_list_app tests l1 l2 t : mark_list tests (l1 ++ l2) t = mark_list tests l2 (mark_list tests l1 t).
Proof. revert t. induction l1 as [|[p n] l1 IH]; intros t; [done|]. cbn. apply IH. Qed.
Lemma visit_all_mark tests l t :
  visit_all (fun p _ (t : node) => Ok (update_at p (mark tests) t)) l t
  = (Ok (mark_list tests l t) : res Empty_set node).
Proof. revert t. induction l as [|[p n] l IH]; intros t; [done|]. cbn. apply IH. Qed.

Lemma update_at_compose p (g h : node -> node) n :
  update_at p g (update_at p h n) = update_at p (fun m => g (h m)) n.
Proof.
  revert n. induction p as [|i p IH]; intros n; cbn; [done|]. destruct n as [x t o e next]. cbn. f_equal.
  apply list_eq. intros k. destruct (decide (k = i)) as [->|Hne].
  - rewrite !list_lookup_alter. destruct (next !! i); cbn; [f_equal; apply IH|done].
  - by rewrite !list_lookup_alter_ne by done.
Qed.
Lemma update_at_ext p (g h : node -> node) n :
  (forall m, node_at n p = Some m -> g m = h m) -> update_at p g n = update_at p h n.
Proof.
  revert n. induction p as [|i p IH]; intros n H; cbn; [by apply H|]. destruct n as [x t o e next]. f_equal.
  apply list_eq. intros k. destruct (decide (k = i)) as [->|Hne].
  - rewrite !list_lookup_alter. destruct (next !! i) as [c|] eqn:Ec; cbn; [f_equal|done].
    apply IH. intros m Hm. apply H. cbn. by rewrite Ec.
  - by rewrite !list_lookup_alter_ne by done.
Qed.
Lemma mark_list_preorder tests p n t :
  node_at t p = Some n ->
  mark_list tests (preorder p n) t = update_at p (fun _ => retag tests n) t.
Proof.
  revert p t. induction n as [x ts o e next IH] using node_ind'. intros p t Hat.
  rewrite preorder_eq. cbn [mark_list n_next].
  assert (Hgen : forall done rest t', next = done ++ rest ->
    node_at t' p = Some (Node x tests o e (map (retag tests) done ++ rest)) ->
    mark_list tests (preorders (length done) p rest) t'
    = update_at p (fun _ => Node x tests o e (map (retag tests) next)) t').
  { intros d rest. revert d. induction rest as [|c rest IHr]; intros d t' Hn Ht'; cbn [preorders].
    - rewrite app_nil_r in Hn. subst d. cbn [mark_list]. rewrite app_nil_r in Ht'.
      transitivity (update_at p (fun m => m) t').
      + clear. revert t'. induction p as [|i p IH]; intros [x' t1 o' e' nx]; cbn; [done|]. f_equal.
        apply list_eq. intros k. destruct (decide (k = i)) as [->|Hne].
        * rewrite list_lookup_alter. destruct (nx !! i); cbn; [by rewrite <- IH|done].
        * by rewrite list_lookup_alter_ne.
      + apply update_at_ext. intros m Hm. congruence.
    - rewrite mark_list_app.
      assert (Hc : node_at t' (p ++ [length d]) = Some c).
      { clear -Ht'. revert t' Ht'. induction p as [|i p IH]; intros t' H; cbn in *.
        - injection H as ->. cbn. rewrite lookup_app_r by (rewrite map_length; done).
          by rewrite map_length, Nat.sub_diag.
        - destruct (n_next t' !! i); [|done]. by apply IH. }
      rewrite Forall_forall in IH. rewrite IH; [|subst next; apply elem_of_app; right; left|done].
      rewrite update_at_app.
      assert (Hup : update_at p (update_at [length d] (fun _ => retag tests c)) t'
                  = update_at p (fun _ => Node x tests o e (map (retag tests) (d ++ [c]) ++ rest)) t').
      { apply update_at_ext. intros m Hm. rewrite Ht' in Hm. injection Hm as <-. cbn. f_equal.
        rewrite map_app. rewrite alter_app_r_alt by (by rewrite map_length).
        rewrite map_length, Nat.sub_diag. cbn. by rewrite <- (assoc_L (++)). }
      rewrite Hup. specialize (IHr (d ++ [c])). rewrite app_length, Nat.add_1_r in IHr.
      rewrite IHr.
      + rewrite update_at_compose. done.
      + subst next. by rewrite <- (assoc_L (++)).
      + clear -Ht'. revert t' Ht'. induction p as [|i p IH]; intros t' H; cbn in *; [done|].
        destruct t' as [x' t1 o' e' nx]. cbn in *. rewrite list_lookup_alter.
        destruct (nx !! i); cbn; [|done]. by apply IH. }
  specialize (Hgen [] next (update_at p (mark tests) t) eq_refl). cbn [length map app] in Hgen.
  rewrite Hgen.
  - rewrite update_at_compose. apply update_at_ext. intros m Hm. done.
  - clear -Hat. revert t Hat. induction p as [|i p IH]; intros t H; cbn in *; [by injection H as ->|].
    destruct t as [x' t1 o' e' nx]. cbn in *. rewrite list_lookup_alter.
    destruct (nx !! i); cbn; [|done]. by apply IH.
Qed.
Lemma mark_all_spec tests root : mark_all tests root = Some (Ok (retag tests root)).
Proof.
  unfold mark_all. rewrite walk_visits, visit_all_mark. by rewrite mark_list_preorder.
Qed.
