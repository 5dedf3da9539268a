(** * C91: what test suites and machine files say, whatever keys are repeated *)
From Verif Require Export MergeOk PropJsonText.
From Verif Require Export StmProofs.

(** A text is read as a suite exactly if it starts with a JSON document that fits and says this suite. *)
Theorem C91_suite : forall text s, read_suite text = Ok s <-> exists j, read_doc text = Some j /\ suite_ok j /\ suite_says j s.
Proof.
  intros text s. unfold read_suite. destruct (read_doc text) as [j|]; [|split; [discriminate|by intros (? & [=] & _)]]. split.
  - intros H. exists j. split; [done|]. split; [apply suite_accepts; by exists s|by apply suite_reads].
  - intros (j' & [= <-] & Hok & Hs). apply suite_accepts in Hok as [s' Hs']. rewrite Hs'. f_equal. eapply suite_says_fun; [by apply suite_reads|exact Hs].
Qed.
Theorem C91_machines : forall text u, read_stm_suite text = Ok u <-> exists j, read_doc text = Some j /\ machines_ok j /\ machines_say j u.
Proof.
  intros text u. unfold read_stm_suite. destruct (read_doc text) as [j|]; [|split; [discriminate|by intros (? & [=] & _)]]. split.
  - intros H. exists j. split; [done|]. split; [apply machines_accepts; by exists u|by apply machines_reads].
  - intros (j' & [= <-] & Hok & Hs). apply machines_accepts in Hok as [u' Hu']. rewrite Hu'. f_equal. eapply machines_say_fun; [by apply machines_reads|exact Hs].
Qed.
(** The same for the text itself: blanks, the text of a JSON value (C80), anything. *)
Theorem C91_suite_text : forall w t rest j s, white w -> denotes t j -> (N.of_nat (jdepth j) <= 10000)%N -> suite_ok j -> suite_says j s -> read_suite (w ++ t ++ rest) = Ok s.
Proof.
  intros w t rest j s Hw Ht Hd Hok Hs. apply C91_suite. exists j. split; [|done]. apply C80_reads; [done..|]. intros Hn. destruct Hok as [->|(kvs & -> & _)]; destruct Hn.
Qed.
(** Every document that fits says one thing. *)
Theorem C91_one_meaning : (forall j, suite_ok j -> exists s, suite_says j s /\ forall s', suite_says j s' -> s' = s) /\ (forall j, machines_ok j -> exists u, machines_say j u /\ forall u', machines_say j u' -> u' = u).
Proof.
  split; intros j Hok.
  - apply suite_accepts in Hok as [s Hs%suite_reads]. exists s. split; [done|]. intros s' Hs'. by eapply suite_says_fun.
  - apply machines_accepts in Hok as [u Hu%machines_reads]. exists u. split; [done|]. intros u' Hu'. by eapply machines_say_fun.
Qed.
(** Where nothing is repeated: a text, a list, something that may be null, given once. *)
Theorem C91_once :
  (forall A (parse : gostr -> option A) zero s a, text_says parse zero [JStr s] a <-> parse s = Some a) /\
  (forall A (says : list json -> A -> Prop) l xs, list_says says [JArr l] xs <-> Forall2 (fun j x => says [j] x) l xs) /\
  (forall A (says : list json -> A -> Prop) j o, pointer_says says [j] o <-> match o with None => j = JNull | Some a => j <> JNull /\ says [j] a end) /\
  (forall s e, events_say zero_event (texts [JStr s]) e <-> event_unmarshal zero_event s = Ok e).
Proof.
  split_and!.
  - done.
  - intros A says l xs. unfold list_says. destruct l as [|j0 l]; cbn [since existsb no_elements orb last default row].
    + split; [intros [H _]; by destruct xs|]. intros H. apply Forall2_nil_inv_l in H. by subst xs.
    + split.
      * intros [Hlen Hs]. apply Forall2_same_length_lookup. split; [done|]. intros i j x Hj Hx. specialize (Hs i x Hx). unfold column in Hs. cbn [omap list_omap row] in Hs. by rewrite Hj in Hs.
      * intros H. apply Forall2_same_length_lookup in H as [Hlen Hs]. split; [done|]. intros i x Hx. destruct ((j0 :: l) !! i) as [j|] eqn:Ej.
        -- unfold column. cbn [omap list_omap row]. rewrite Ej. by apply (Hs i).
        -- apply lookup_ge_None in Ej. apply lookup_lt_Some in Hx. lia.
  - intros A says j [a|]; unfold pointer_says; cbn [since existsb]; destruct j; cbn; naive_solver.
  - intros s e. cbn. rewrite C04_event_text_accepted. split.
    + intros H. inversion H as [|? ? e1 ? ? H1 H2]; subst. by inversion H2; subst.
    + intros H. econstructor; [exact H|constructor].
Qed.
(** Only the order of values for the same field matters. *)
Theorem C91_key_order : forall kvs kvs' n, (forall f, said f kvs = said f kvs') -> node_says kvs n -> node_says kvs' n.
Proof. intros kvs kvs' n H Hn. inversion Hn as [? i ts o e next H1 H2 H3 H4 H5 H6]; subst. constructor; rewrite <-H; assumption. Qed.

(** What may surprise.  The last value for a field does not count as a whole: an element keeps what an
    earlier array says of its place; and what a shorter array cuts off comes back with a longer one. *)
Definition root (s : jres suite) : option node := match s with Ok s => match s !! lit "t" with Some o => o | None => None end | _ => None end.
Definition twice (a b : gostr) : gostr := lit "{""t"":{""next"":[" ++ a ++ lit "],""next"":[" ++ b ++ lit "]}}".
Definition only (b : gostr) : gostr := lit "{""t"":{""next"":[" ++ b ++ lit "]}}".
Theorem C91_last_counts_refuted : exists a b, is_ok (read_suite (only a)) /\ is_ok (read_suite (only b)) /\ is_ok (read_suite (twice a b)) /\ read_suite (twice a b) <> read_suite (only b).
Proof.
  exists (lit "{""id"":""x""}"), (lit "{""outcome"":""fail""}"). split_and!; [vm_compute; by eexists..|].
  intros H. apply (f_equal root) in H. vm_compute in H. discriminate H.
Qed.
Example C91_witness :
  root (read_suite (twice (lit "{""id"":""x""},{""id"":""y""}") (lit "{""outcome"":""fail""}"))) = Some (Node [] [] OUnset None [Node (lit "x") [] OFail None []]) /\
  root (read_suite (twice (lit "{""id"":""x""},{""id"":""y""}") (lit "{}],""Next"":[{},{},{}"))) = Some (Node [] [] OUnset None [Node (lit "x") [] OUnset None []; Node (lit "y") [] OUnset None []; Node [] [] OUnset None []]) /\
  root (read_suite (twice (lit "{""id"":""x""},{""id"":""y""}") (lit "],""next"":[{},{}"))) = Some (Node [] [] OUnset None [Node [] [] OUnset None []; Node [] [] OUnset None []]) /\
  root (read_suite (lit "{""t"":{""event"":""c.in.5"",""event"":""d.out"",""id"":""a"",""ID"":""b"",""id"":null}}")) = Some (Node (lit "b") [] OUnset (Some (Event (Channel (lit "d") KOut) (Some (IntV 5)))) []) /\
  root (read_suite (lit "{""t"":{""event"":""c.in.5"",""event"":null,""event"":""d.out""}}")) = Some (Node [] [] OUnset (Some (Event (Channel (lit "d") KOut) None)) []) /\
  root (read_suite (lit "{""t"":{""id"":""a""},""t"":{""outcome"":""pass""}}")) = Some (Node [] [] OPass None []) /\
  read_suite (lit "{""t"":{""id"":5,""id"":""a""}}") = Err JType.
Proof. split_and!; vm_compute; reflexivity. Qed.
(** The same in machine files. *)
(** Of the states of machine t: their names, and whether there are verdicts. *)
Definition stm_states (s : jres rsuite) : list (option (gostr * bool)) :=
  match s with
  | Ok u => match ru_tests u !! lit "t" with Some (Some m) => map (fmap (fun s => (rs_id s, bool_decide (is_Some (rs_verdict s))))) (rm_states m) | _ => [] end
  | _ => []
  end.
Example C91_witness_machines :
  stm_states (read_stm_suite (lit "{""tests"":{""t"":{""states"":[{""id"":""x"",""verdicts"":{}},null],""states"":[{},{""id"":""y""}]}}}")) = [Some (lit "x", true); Some (lit "y", false)] /\
  stm_states (read_stm_suite (lit "{""tests"":{""t"":{""states"":[{""id"":""x""}]}},""tests"":{""u"":null}}")) = [Some (lit "x", false)] /\
  stm_states (read_stm_suite (lit "{""tests"":{""t"":{""states"":[{""id"":""x""}]}},""tests"":null}")) = [].
Proof. split_and!; vm_compute; reflexivity. Qed.
Print Assumptions C91_suite. Print Assumptions C91_machines. Print Assumptions C91_one_meaning. Print Assumptions C91_last_counts_refuted.
