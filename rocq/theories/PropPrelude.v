(** * C86: the prelude does what the tests take it to do *)
From Verif Require Import Prelude PropGen RunNames RunStm.
From Verif Require Export SpecPrelude.
From Verif Require Export StmProofs.

Lemma perm7 {A} (a b c d e o : A) : [a; o; b; o; c; d; e] ≡ₚ [a; b; c; d; e; o; o].
Proof.
  constructor. transitivity ([b; o; c; d; e] ++ [o]); [apply (Permutation_app_comm [o])|]. cbn [app]. constructor. apply (Permutation_app_comm [o] [c; d; e; o]).
Qed.
Lemma sub_paths (l k : list (list gostr)) : forallb (fun q => existsb (path_eqb q) k) l = true -> forall q, q ∈ l -> q ∈ k.
Proof.
  intros H q Hq. rewrite forallb_forall in H. apply elem_of_list_In in Hq. apply H, existsb_exists in Hq as (x & Hx & E). apply bool_decide_eq_true in E. subst x. by apply elem_of_list_In.
Qed.
Definition the_decls : list hdecl := Eval vm_compute in default [] (read_decls prelude_h).
Definition the_source : list citem := Eval vm_compute in default [] (read_source prelude_cpp).
Lemma decls_read : read_decls prelude_h = Some the_decls.
Proof. vm_compute. reflexivity. Qed.
Lemma source_read : read_source prelude_cpp = Some the_source.
Proof. vm_compute. reflexivity. Qed.

(** The files are read as a list of declarations and definitions: the enumerators are those that the programs
    are taken to know (SpecRun.v), and each function that is declared is defined, once for each declaration. *)
Theorem C86_reads : exists d p, read_decls prelude_h = Some d /\ read_source prelude_cpp = Some p /\
  (forall q, q ∈ enums_of d <-> q ∈ prelude_enums) /\ NoDup (enums_of d) /\ defined_funs p ≡ₚ declared_funs d.
Proof.
  exists the_decls, the_source. split; [exact decls_read|]. split; [exact source_read|]. split; [|split].
  - intros q. split; apply sub_paths; vm_compute; reflexivity.
  - apply (bool_decide_eq_true_1 (NoDup _)). vm_compute. reflexivity.
  - match goal with |- ?a ≡ₚ ?b => let x := eval vm_compute in a in change a with x; let y := eval vm_compute in b in change b with y end. apply perm7.
Qed.
Print Assumptions C86_reads.

(** An argument that a parameter of an enumeration accepts is one of its enumerators. *)
Lemma accepts_status v : accepts (enums_of the_decls) (CType false (BName [lit "rtcg"; lit "Status"]) []) v = true -> exists s : status, v = v_status s.
Proof.
  destruct v as [| | | |k| | | | | | | | |]; try (intros H; discriminate H).
  unfold accepts. cbn [ct_base]. intros [H1 H2]%andb_true_iff. apply existsb_exists in H1 as (q & Hq & E). apply bool_decide_eq_true in E. subst q.
  let x := eval vm_compute in (enums_of the_decls) in change (enums_of the_decls) with x in Hq.
  cbn [In] in Hq. repeat (destruct Hq as [Hq|Hq]; [subst k; first [exfalso; vm_compute in H2; discriminate H2|by exists WAIT_START|by exists WAIT_IN|by exists WAIT_OUT|by exists OFF_SCRIPT|by exists TIMEOUT|by exists FAIL|by exists BUG]|]). destruct Hq.
Qed.
Lemma status_of_some v s : status_of v = Some s -> v = v_status s.
Proof.
  unfold status_of. destruct v as [| | | |k| | | | | | | | |]; try discriminate. destruct k as [|r [|t [|x [|]]]]; try discriminate.
  unfold str_eqb. repeat (case_bool_decide; cbn [andb]; subst); intros E; try discriminate E; by injection E as <-.
Qed.
Notation status_t := (CType false (BName [lit "rtcg"; lit "Status"]) []).
Lemma overload_none q v : q = [lit "rtcg"; lit "status"; lit "isRunning"] \/ q = [lit "rtcg"; lit "status"; lit "exitCode"] -> accepts (enums_of the_decls) status_t v = false ->
  find_overload (enums_of the_decls) the_source q [v] = None.
Proof.
  intros Hq Hv. unfold the_source. cbn [find_overload].
  destruct Hq as [->| ->];
    repeat match goal with |- context [path_eqb ?a ?b && _] => first [rewrite (eq_refl : path_eqb a b = false); cbn [andb]|rewrite (eq_refl : path_eqb a b = true); cbn [andb all_accept]] end;
    change (accepts (enums_of the_decls) _ v) with (accepts (enums_of the_decls) status_t v); rewrite Hv; reflexivity.
Qed.
Lemma not_accepted v : status_of v = None -> accepts (enums_of the_decls) status_t v = false.
Proof. intros H. destruct (accepts _ _ v) eqn:E; [|done]. apply accepts_status in E as [s ->]. by destruct s. Qed.

(** The functions that SpecRun.v has built in do what the prelude's text does when it is run, for every argument:
    isRunning and exitCode of any value; and getStatus of an object, wherever it is, of any class derived from
    rtcg::TestCase that has none of its own.  And a test case starts with the status that rtcg.h gives it. *)
Theorem C86_builtins : forall d p, read_decls prelude_h = Some d -> read_source prelude_cpp = Some p ->
  let run := call_prelude p (enums_of d) 1 in
  (forall prog conv call this v w,
     call_named prog conv call this [lit "rtcg"; lit "status"; lit "isRunning"] [v] w = run None [lit "rtcg"; lit "status"; lit "isRunning"] [v] w /\
     call_named prog conv call this [lit "rtcg"; lit "status"; lit "exitCode"] [v] w = run None [lit "rtcg"; lit "status"; lit "exitCode"] [v] w) /\
  (forall prog call c ms at_ w, find_class prog c = Some (Some [lit "rtcg"; lit "TestCase"], ms) -> has_method ms (lit "getStatus") = false ->
     call_member prog call (VObj c at_) (lit "getStatus") [] w = run (Some (lit "TestCase", at_)) [lit "rtcg"; lit "TestCase"; lit "getStatus"] [] w) /\
  (forall prog conv call this n c ms at_ w, find_class prog c = Some (Some [lit "rtcg"; lit "TestCase"], ms) -> Forall (fun m => match m with MField _ _ _ => False | _ => True end) ms ->
     construct prog conv call this (S n) c at_ w =
     Fine tt (set_fields (foldr (fun f m => match f.2 with Some v => <[at_ ++ [f.1] := v]> m | None => m end) (w_fields w) (initial_fields (enums_of d) d [lit "rtcg"; lit "TestCase"])) w)).
Proof.
  intros d p Hd Hp. rewrite decls_read in Hd. injection Hd as <-. rewrite source_read in Hp. injection Hp as <-. intros run. split_and!.
  - intros prog conv call this v w. destruct (status_of v) as [s|] eqn:E.
    + apply status_of_some in E as ->. destruct w, s; split; vm_compute; reflexivity.
    + assert (H : forall q, q = [lit "rtcg"; lit "status"; lit "isRunning"] \/ q = [lit "rtcg"; lit "status"; lit "exitCode"] -> run None q [v] w = Fault).
      { intros q Hq. unfold run. cbn [call_prelude]. by rewrite (overload_none q v Hq (not_accepted v E)). }
      rewrite !H by (first [by left|by right]). unfold call_named.
      rewrite (eq_refl : path_eqb [lit "rtcg"; lit "status"; lit "isRunning"] [lit "rtcg"; lit "status"; lit "isRunning"] = true).
      rewrite (eq_refl : path_eqb [lit "rtcg"; lit "status"; lit "exitCode"] [lit "rtcg"; lit "status"; lit "isRunning"] = false).
      rewrite (eq_refl : path_eqb [lit "rtcg"; lit "status"; lit "exitCode"] [lit "rtcg"; lit "status"; lit "exitCode"] = true). rewrite E. split; by destruct this as [[? ?]|].
  - intros prog call c ms at_ w Hc Hm. unfold call_member, class_has. rewrite Hc, Hm. cbn [andb].
    rewrite (eq_refl : path_eqb [lit "rtcg"; lit "TestCase"] [lit "rtcg"; lit "TestCase"] && str_eqb (lit "getStatus") (lit "getStatus") = true).
    destruct w. unfold run. cbn [call_prelude].
    match goal with |- context [find_overload ?a ?b ?q ?l] => let x := eval vm_compute in (find_overload a b q l) in change (find_overload a b q l) with x end. cbv iota beta.
    cbn [map full_stmt zip app execs exec eval set_vars SpecRun.w_vars SpecRun.w_fields SpecRun.w_in SpecRun.w_out SpecRun.w_subs SpecRun.w_timers SpecRun.w_down].
    match goal with |- context [name_value ?a ?b ?c ?w'] => assert (E : name_value a b c w' = w_fields !! (at_ ++ [lit "status_"])) end.
    { unfold name_value. match goal with |- context [var_of ?a ?b] => rewrite (eq_refl : var_of a b = None) end. cbn [field_of SpecRun.w_fields set_vars].
      change (["s"%char; "t"%char; "a"%char; "t"%char; "u"%char; "s"%char; "_"%char] : gostr) with (lit "status_").
      destruct (w_fields !! (at_ ++ [lit "status_"])); [done|]. match goal with |- context [find_const ?a ?b] => rewrite (eq_refl : find_const a b = None) end. done. }
    rewrite E. destruct (w_fields !! _); reflexivity.
  - intros prog conv call this n c ms at_ w Hc Hm. cbn [construct]. rewrite Hc. rewrite (eq_refl : path_eqb [lit "rtcg"; lit "TestCase"] [lit "rtcg"; lit "TestCase"] = true).
    match goal with |- context [initial_fields ?a ?b ?c] => let x := eval vm_compute in (initial_fields a b c) in change (initial_fields a b c) with x end. cbn [foldr fst snd].
    change (["s"%char; "t"%char; "a"%char; "t"%char; "u"%char; "s"%char; "_"%char] : gostr) with (lit "status_").
    match goal with |- context [VEnum ?q] => change (VEnum q) with (VEnum [lit "rtcg"; lit "Status"; lit "WAIT_START"]) end.
    clear Hc. induction Hm as [|m ms Hm Hms IH]; [reflexivity|]. destruct m; [exact IH|exact IH|destruct Hm].
Qed.
Print Assumptions C86_builtins.

(** What is printed for statuses and outcomes: a text each, and no two statuses (or outcomes) have the same. *)
Definition explained (s : status) : gostr :=
  match s with
  | WAIT_START => lit "waiting to start" | WAIT_IN => lit "waiting for input acknowledgement" | WAIT_OUT => lit "waiting for output"
  | OFF_SCRIPT => lit "an event happened that took the test off-script" | TIMEOUT => lit "the test ran out of time"
  | FAIL => lit "an unwanted behaviour occurred" | BUG => lit "an internal error occurred"
  end.
Definition outcome_texts : list (gostr * gostr) :=
  [(lit "UNSET", lit "unset"); (lit "INC", lit "inconclusive"); (lit "PASS", lit "passed"); (lit "FAIL", lit "failed")].
Theorem C86_printed : forall d p, read_decls prelude_h = Some d -> read_source prelude_cpp = Some p ->
  let print name v := call_prelude p (enums_of d) 2 None [lit "operator<<"] [VOstream name; v] in
  (forall name s w, print name (v_status s) w = Fine (VOstream name) (put_out (FPrint name [VStr (explained s)]) w)) /\
  (forall name o t w, (o, t) ∈ outcome_texts -> print name (v_outcome o) w = Fine (VOstream name) (put_out (FPrint name [VStr t]) w)) /\
  (forall s s', explained s = explained s' -> s = s') /\ NoDup (map snd outcome_texts).
Proof.
  intros d p Hd Hp. rewrite decls_read in Hd. injection Hd as <-. rewrite source_read in Hp. injection Hp as <-. intros print. split_and!.
  - intros name s w. destruct w, s; vm_compute; reflexivity.
  - intros name o t w H. unfold outcome_texts in H. apply elem_of_list_In in H. destruct w. repeat (destruct H as [[= <- <-]|H]; [vm_compute; reflexivity|]). destruct H.
  - intros [] []; intros E; try reflexivity; discriminate E.
  - apply (bool_decide_eq_true_1 (NoDup _)). vm_compute. reflexivity.
Qed.
Print Assumptions C86_printed.

(** After a successful run the two files are in the tree of every variant. *)
Theorem C86_generated : forall cwd c out s ord f f' cc,
  sane c s -> separate cwd c out -> orders s ord -> generate cwd c out s ord f = (f', None) -> cc ∈ cf_cpps c ->
  let dir := resolve cwd out ++ [variant_string (cc_variant cc); lit "src"; lit "rtcg"] in
  forall name text, prelude_text name = Some text -> exists x, fs_files f' !! (dir ++ [name]) = Some (CPrelude x) /\ prelude_text x = Some text.
Proof.
  intros cwd c out s ord f f' cc Hs Hio Ho E Hcc dir name text Hn. destruct (C51_contents cwd c out s ord f f' cc Hs Hio Ho E Hcc) as [Hsh _]. cbn zeta in Hsh. exists name. split; [|done].
  specialize (Hsh [lit "src"; lit "rtcg"; name] (CPrelude name)). unfold dir. rewrite <- app_assoc in Hsh |- *. apply Hsh. unfold shared_files. cbn zeta. apply elem_of_app. left.
  unfold prelude_text in Hn. destruct (decide (name = lit "rtcg.h")) as [->|]; [right; left|]. destruct (decide (name = lit "rtcg.cpp")) as [->|]; [left|done].
Qed.
Print Assumptions C86_generated.
(** Witness: both files. *)
Example C86_witness : prelude_text (lit "rtcg.h") = Some prelude_h /\ prelude_text (lit "rtcg.cpp") = Some prelude_cpp /\
  exists d p, read_decls prelude_h = Some d /\ read_source prelude_cpp = Some p /\
    forall w, call_prelude p (enums_of d) 1 None [lit "rtcg"; lit "status"; lit "exitCode"] [v_status FAIL] w = Fine (VInt 1) w /\
      call_prelude p (enums_of d) 1 None [lit "rtcg"; lit "status"; lit "exitCode"] [VInt 3] w = Fault.
Proof.
  split; [vm_compute; reflexivity|]. split; [vm_compute; reflexivity|]. exists the_decls, the_source. split; [exact decls_read|]. split; [exact source_read|].
  intros []. split; vm_compute; reflexivity.
Qed.
