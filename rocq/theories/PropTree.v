(** * Properties C19-C21, C62: validation and tree walking *)
From Verif Require Import ValidateProofs.

(** A small valid tree, used as a witness below: foo.in.3 then bar.out may not happen. *)
Definition ex_foo : event := Event (Channel (lit "foo") KIn) (Some (IntV 3)).
Definition ex_bar : event := Event (Channel (lit "bar") KOut) (Some (EnumV (lit "On"))).
Definition ex_tree : node :=
  mark [lit "t"] (root_node [mark [lit "t"] (inc_node ex_foo [test_point ex_bar [lit "t"]])]).

(** C19: full validation accepts exactly the well-formed trees, whatever their depth, and
    never crashes on a (non-null) tree. *)
Theorem C19_full_validation_exact : forall r : node,
  (full (Some r) = Ok r <-> good_tree r) /\
  (forall x, full (Some r) = Ok x -> x = r) /\
  full (Some r) <> Panic.
Proof.
  intros r. split; [exact (full_iff r)|]. split; [exact (full_result r)|exact (full_no_panic r)].
Qed.
Print Assumptions C19_full_validation_exact.

(** A null test (as read from the JSON text [{"a": null}]) makes validation crash instead. *)
Theorem C19_null_test_refuted : full None = Panic.
Proof. reflexivity. Qed.

Example C19_witness : full (Some ex_tree) = Ok ex_tree.
Proof. vm_compute. done. Qed.

(** C20: walking visits every node exactly once, in pre-order, threading the visitor's
    state and stopping at the first failure. *)
Theorem C20_walk_is_preorder : forall (E A : Type) (f : path -> node -> A -> res E A) r l a,
  preorder_of r l -> walk f r a = Some (visit_all f l a).
Proof.
  intros E A f r l a H. rewrite (preorder_of_unique r l H). exact (walk_visits f r a).
Qed.
Print Assumptions C20_walk_is_preorder.

Theorem C20_preorder_exists : forall r, exists l, preorder_of r l /\ forall l', preorder_of r l' -> l' = l.
Proof.
  intros r. exists (preorder [] r). split; [exact (preorder_is_preorder r)|exact (preorder_of_unique r)].
Qed.

(** C20: the error reported is the fault of the first faulty node in pre-order. *)
Theorem C20_first_fault_reported : forall r l e, preorder_of r l ->
  full (Some r) = Err e <->
  exists l1 p n l2, l = l1 ++ (p, n) :: l2 /\
    (forall q m, (q, m) ∈ l1 -> ~ exists e', fault_at q m e') /\ fault_at p n e.
Proof. exact full_reports. Qed.
Print Assumptions C20_first_fault_reported.

Example C20_witness :
  (* two faulty nodes: the left one, deeper, is reported *)
  full (Some (mark [lit "t"] (root_node
    [mark [lit "t"] (inc_node ex_foo [new_node OInc None []]);
     mark [lit "t"] (new_node OUnset None [])]))) = Err ErrNoTests.
Proof. vm_compute. done. Qed.

(** C21: for every iteration order of the suite's map, validation succeeds exactly if every
    test is valid, and then returns the same tests under the same names. *)
Theorem C21_suite_validation_order_free : forall (s : suite) order r, order_of s order ->
  full_suite order = Ok r <->
  forall k, match s !! k with
            | None => r !! k = None
            | Some None => False
            | Some (Some n) => good_tree n /\ r !! k = Some n
            end.
Proof.
  intros s order r Ho. unfold full_suite. rewrite (try_over_map_order _ _ _ _ Ho). split.
  - intros H k. generalize (H k). destruct (s !! k) as [[n|]|]; [|cbn; intros (u & Hu); destruct Hu; discriminate|done].
    intros (u & Hu & Hr). pose proof (full_result _ _ Hu) as ->. split; [by apply full_iff|done].
  - intros H k. generalize (H k). destruct (s !! k) as [[n|]|]; [|done|done].
    intros [Hg Hr]. exists n. split; [by apply full_iff|done].
Qed.
Print Assumptions C21_suite_validation_order_free.

(** C21: failing is also independent of the order (which error is reported is not), and any
    error reported is the error of some test of the suite. *)
Theorem C21_suite_validation_failure : forall (s : suite) order1 order2,
  order_of s order1 -> order_of s order2 ->
  (forall r, full_suite order1 = Ok r <-> full_suite order2 = Ok r) /\
  (forall e, full_suite order1 = Err e -> exists k n, s !! k = Some (Some n) /\ full (Some n) = Err e) /\
  (full_suite order1 = Panic -> exists k, s !! k = Some None).
Proof.
  intros s o1 o2 H1 H2. split; [|split].
  - intros r. by rewrite !(C21_suite_validation_order_free s) by done.
  - intros e He. apply try_over_map_fail in He as (k & [n|] & Hin & He); [|done].
    exists k, n. split; [by apply (order_of_elem s o1)|done].
  - intros He. apply try_over_map_panic in He as (k & [n|] & Hin & He).
    + by apply full_no_panic in He.
    + exists k. by apply (order_of_elem s o1).
Qed.
Print Assumptions C21_suite_validation_failure.

(** Which error is reported does depend on the order. *)
Theorem C21_reported_error_order_refuted :
  ~ forall (s : suite) o1 o2, order_of s o1 -> order_of s o2 -> full_suite o1 = full_suite o2.
Proof.
  intros H.
  set (a := Some (root_node [])). set (b := Some (pass_node ex_foo [])).
  assert (full_suite [(lit "a", a); (lit "b", b)] = full_suite [(lit "b", b); (lit "a", a)]) as He.
  { apply (H (<[lit "a" := a]> (<[lit "b" := b]> ∅))); unfold order_of.
    - rewrite map_to_list_insert by done. rewrite map_to_list_insert by done. by rewrite map_to_list_empty.
    - rewrite map_to_list_insert by done. rewrite map_to_list_insert by done. rewrite map_to_list_empty.
      constructor. }
  vm_compute in He. discriminate.
Qed.

Example C21_witness :
  full_suite [(lit "a", Some ex_tree)] = Ok (<[lit "a" := ex_tree]> ∅) /\
  order_of (<[lit "a" := Some ex_tree]> ∅ : suite) [(lit "a", Some ex_tree)].
Proof. split; [vm_compute; done|]. unfold order_of. rewrite map_to_list_insert by done. by rewrite map_to_list_empty. Qed.

(** C62: marking a whole tree replaces the tags of every node and changes nothing else. *)
Theorem C62_mark_all : forall tests r, mark_all tests r = Some (Ok (retag tests r)).
Proof. exact mark_all_spec. Qed.
Print Assumptions C62_mark_all.

Example C62_witness :
  mark_all [lit "x"; lit "y"] ex_tree =
  Some (Ok (Node [] [lit "x"; lit "y"] OUnset None
    [Node [] [lit "x"; lit "y"] OInc (Some ex_foo)
      [Node [] [lit "x"; lit "y"] OPass (Some ex_bar)
        [Node [] [lit "x"; lit "y"] OFail None []]]])).
Proof. vm_compute. done. Qed.
