(** * The names that main.cpp declares *)
From Verif Require Export RunBase CppProofs.
From Verif Require Export StmProofs.

(** ** Functions *)
Definition fun_name (i : citem) : option (list gostr) := match i with CFun _ q _ _ => Some q | _ => None end.
Definition fun_names (p : list citem) : list (list gostr) := omap fun_name p.
Lemma find_fun_in p r q ps b : NoDup (fun_names p) -> CFun r q ps b ∈ p -> find_fun p q = Some (ps, b).
Proof.
  unfold fun_names. induction p as [|i p IH]; intros Hn Hi; [by apply elem_of_nil in Hi|]. apply elem_of_cons in Hi as [<-|Hi].
  - cbn. by rewrite path_eqb_refl.
  - destruct i as [l|t x e|x l|x c ms|r' q' ps' b']; cbn in Hn |- *; try (by apply IH).
    apply NoDup_cons in Hn as [Hni Hn]. rewrite path_eqb_ne; [by apply IH|]. intros ->. apply Hni. apply elem_of_list_omap. by eexists.
Qed.
Lemma fun_names_app a b : fun_names (a ++ b) = fun_names a ++ fun_names b.
Proof. apply omap_app. Qed.
Lemma fun_names_map {A} (f : A -> citem) (g : A -> list gostr) l : (forall x, fun_name (f x) = Some (g x)) -> fun_names (map f l) = map g l.
Proof. intros H. induction l as [|x l IH]; [done|]. unfold fun_names in *. cbn. by rewrite H, IH. Qed.
Lemma fun_names_none l : Forall (fun i => fun_name i = None) l -> fun_names l = [].
Proof. induction 1 as [|i l H _ IH]; [done|]. unfold fun_names in *. cbn. by rewrite H. Qed.

Definition opt_names (tc : tctx) : list gostr :=
  (if tc_first_state_has_in tc then [lit "initialDelayCallback"] else []) ++ (if tc_has_in tc then [lit "inputAcceptedCallback"] else []).
Definition fixed_names : list gostr := [lit "getVerdict"; lit "stateName"; lit "end"; lit "timeoutCallback"].
Definition sm_names (m : stm) : list gostr :=
  let tc := make_transitions m in
  fixed_names ++ opt_names tc ++ map (fun a => callback_name (agg_name a)) (tc_out tc) ++ map (fun s => state_entry (st_id s)) (m_states m).
Definition s0_of (m : stm) : gostr := match m_states m with s :: _ => st_id s | [] => [] end.

Lemma main_items_eq v name m ctx tests : main_items v name m ctx tests =
  a_includes v ctx ++ a_constants v ++ a_verdict v tests ++ [a_enum (m_states m)] ++ [in_ns [lit "state"] (a_name (m_states m))] ++
  a_stm v (make_transitions m) (s0_of m) (m_states m) ++ [a_main v name (make_transitions m) ctx].
Proof.
  assert (H : forall l, concat (map CxxProofs.flat (map TopItem l)) = l) by (intros l; induction l as [|i l IH]; [done|]; cbn; by rewrite IH).
  unfold main_items, main_tops. cbv zeta. fold (s0_of m). rewrite !map_app, !concat_app, !H. cbn [map concat CxxProofs.flat app]. by rewrite <- !app_assoc.
Qed.
Lemma main_fun_names v name m ctx tests : fun_names (main_items v name m ctx tests) =
  [lit "Verdict"; lit "dump"] :: map (fun t => [lit "Verdict"; t]) tests ++ [lit "state"; lit "name"] ::
  map SMq (lit "StateMachine" :: sm_names m) ++ [[lit "main"]].
Proof.
  rewrite main_items_eq, !fun_names_app. rewrite (fun_names_none (a_includes v ctx)), (fun_names_none (a_constants v)).
  2: { unfold a_constants. destruct v; repeat constructor. }
  2: { unfold a_includes. apply Forall_forall. intros i Hi. apply elem_of_list_fmap in Hi as (x & -> & _). done. }
  cbn [app]. unfold a_verdict. rewrite fun_names_app. rewrite (fun_names_map (a_setter v) (fun t => [lit "Verdict"; t])) by done.
  change (fun_names [CClass (lit "Verdict") None (a_verdict_members tests); a_dump v tests]) with [[lit "Verdict"; lit "dump"]].
  cbn [app]. f_equal. f_equal. change (fun_names [a_enum (m_states m)]) with (@nil (list gostr)).
  change (fun_names [in_ns [lit "state"] (a_name (m_states m))]) with [[lit "state"; lit "name"]]. cbn [app]. f_equal.
  change (fun_names [a_main v name (make_transitions m) ctx]) with [[lit "main"]]. f_equal.
  unfold a_stm, sm_names, fixed_names, opt_names. cbv zeta. cbn [map]. rewrite !fun_names_app, !map_app.
  rewrite (fun_names_map (a_out v) (fun a => SMq (callback_name (agg_name a)))) by done.
  rewrite (fun_names_map (a_entry v) (fun s => SMq (state_entry (st_id s)))) by done. rewrite !map_map.
  change (fun_names [a_class v (make_transitions m) (s0_of m) (m_states m); a_ctor v (make_transitions m) (s0_of m); a_getVerdict; a_stateName; a_end_fun v; a_timeout v])
    with [SMq (lit "StateMachine"); SMq (lit "getVerdict"); SMq (lit "stateName"); SMq (lit "end"); SMq (lit "timeoutCallback")].
  cbn [app]. rewrite <- !app_assoc. by destruct (tc_first_state_has_in _), (tc_has_in _).
Qed.

(** ** Classes *)
Definition is_class (i : citem) : bool := match i with CClass _ _ _ => true | _ => false end.
Lemma find_class_skip l r c : forallb (fun i => negb (is_class i)) l = true -> find_class (l ++ r) c = find_class r c.
Proof. induction l as [|i l IH]; cbn [forallb app]; [done|]. intros [H1 H2]%andb_prop. destruct i; try done; by apply IH. Qed.
Lemma forallb_map_true {A B} (P : B -> bool) (f : A -> B) l : (forall x, P (f x) = true) -> forallb P (map f l) = true.
Proof. intros H. induction l as [|x l IH]; [done|]. cbn. by rewrite H, IH. Qed.
Lemma find_verdict v name m ctx tests : find_class (main_items v name m ctx tests) (lit "Verdict") = Some (None, a_verdict_members tests).
Proof.
  rewrite main_items_eq. rewrite find_class_skip by (by apply forallb_map_true). rewrite find_class_skip by (by destruct v).
  unfold a_verdict. rewrite <- app_assoc. cbn [app find_class]. by rewrite str_eqb_refl.
Qed.
Lemma find_machine v name m ctx tests : find_class (main_items v name m ctx tests) (lit "StateMachine") =
  Some (Some [lit "rtcg"; lit "TestCase"], a_members v (make_transitions m) (s0_of m) (m_states m)).
Proof.
  rewrite main_items_eq. rewrite find_class_skip by (by apply forallb_map_true). rewrite find_class_skip by (by destruct v).
  unfold a_verdict. rewrite <- app_assoc. cbn [app find_class]. change (str_eqb (lit "Verdict") (lit "StateMachine")) with false. cbn iota.
  change (find_class (a_dump v tests :: ?r) ?c) with (find_class r c). rewrite find_class_skip by (by apply forallb_map_true).
  change (find_class (a_enum _ :: in_ns _ (a_name _) :: ?r) ?c) with (find_class r c). unfold a_stm. rewrite <- app_assoc. cbn [app].
  unfold a_class. cbn [find_class]. by rewrite str_eqb_refl.
Qed.
Lemma has_method_elem ms x : has_method ms x = true <-> exists r ps, MMethod (Some r) x ps ∈ ms.
Proof.
  induction ms as [|m ms IH]; cbn [has_method]; [split; [done|intros (? & ? & H); by apply elem_of_nil in H]|].
  destruct m as [b|[r|] y ps|t y i].
  - rewrite IH. split; intros (r & ps & H); exists r, ps; [by right|]. by apply elem_of_cons in H as [|].
  - rewrite orb_true_iff, IH. split.
    + intros [H|(r' & ps' & H)]; [apply bool_decide_eq_true in H; subst; exists r, ps; left|exists r', ps'; by right].
    + intros (r' & ps' & H). apply elem_of_cons in H as [[= -> -> ->]|H]; [left; apply str_eqb_refl|right; by exists r', ps'].
  - rewrite IH. split; intros (r' & ps' & H); exists r', ps'; [by right|]. by apply elem_of_cons in H as [|].
  - rewrite IH. split; intros (r' & ps' & H); exists r', ps'; [by right|]. by apply elem_of_cons in H as [|].
Qed.
Lemma has_method_app a b x : has_method (a ++ b) x = has_method a x || has_method b x.
Proof. induction a as [|m a IH]; [done|]. destruct m as [|[r|]|]; cbn; rewrite IH; [done|by rewrite orb_assoc|done|done]. Qed.
Lemma has_method_map {A} (f : A -> member) (g : A -> gostr) l x : (forall a, exists r ps, f a = MMethod (Some r) (g a) ps) -> has_method (map f l) x = bool_decide (x ∈ map g l).
Proof.
  intros H. apply eq_true_iff_eq. rewrite has_method_elem, bool_decide_eq_true. split.
  - intros (r & ps & Hx). apply elem_of_list_fmap in Hx as (a & E & Ha). destruct (H a) as (r' & ps' & E'). rewrite E' in E. injection E as _ -> _.
    apply elem_of_list_fmap. by exists a.
  - intros Hx. apply elem_of_list_fmap in Hx as (a & -> & Ha). destruct (H a) as (r & ps & E). exists r, ps. rewrite <- E. apply elem_of_list_fmap. by exists a.
Qed.
Lemma has_method_fields {A} (f : A -> member) l x : (forall a, exists t y i, f a = MField t y i) -> has_method (map f l) x = false.
Proof. intros H. induction l as [|a l IH]; [done|]. cbn [map]. destruct (H a) as (t & y & i & ->). done. Qed.
Lemma machine_has v name m ctx tests x : class_has (main_items v name m ctx tests) (lit "StateMachine") x = bool_decide (x ∈ sm_names m).
Proof.
  unfold class_has. rewrite find_machine. unfold a_members. rewrite !has_method_app.
  rewrite (has_method_map (fun a => MMethod (Some void_t) (callback_name (agg_name a)) (a_out_params a)) (fun a => callback_name (agg_name a))) by (intros a; by eexists _, _).
  rewrite (has_method_map (fun s => MMethod (Some void_t) (state_entry (st_id s)) []) (fun s => state_entry (st_id s))) by (intros a; by eexists _, _).
  assert (E : has_method (match v with VRos => map (fun a => MField pub_t (fld (publisher_name (agg_name a))) None) (tc_in (make_transitions m)) | _ => [] end) x = false).
  { destruct v; try done. apply has_method_fields. intros a. by eexists _, _, _. }
  rewrite E. clear E. apply eq_true_iff_eq. rewrite bool_decide_eq_true. unfold sm_names, fixed_names, opt_names. cbv zeta.
  rewrite !orb_true_iff, !bool_decide_eq_true, !elem_of_app. cbn [has_method]. rewrite !orb_false_r. rewrite ?orb_true_iff. unfold str_eqb. rewrite !bool_decide_eq_true.
  assert (A : forall (b : bool) x y, has_method (if b then [MMethod (Some void_t) y (a_timer_params v)] else []) x = true <-> x ∈ (if b then [y] else [])).
  { intros b a c. destruct b; cbn; [|by rewrite elem_of_nil]. rewrite orb_false_r, elem_of_list_singleton. unfold str_eqb. rewrite bool_decide_eq_true. naive_solver. }
  assert (B : forall (b : bool) x y, has_method (if b then [MMethod (Some void_t) y (a_accept_params v)] else []) x = true <-> x ∈ (if b then [y] else [])).
  { intros b a c. destruct b; cbn; [|by rewrite elem_of_nil]. rewrite orb_false_r, elem_of_list_singleton. unfold str_eqb. rewrite bool_decide_eq_true. naive_solver. }
  rewrite A, B. rewrite !elem_of_cons, elem_of_nil. clear. naive_solver.
Qed.
Lemma verdict_has v name m ctx tests x : class_has (main_items v name m ctx tests) (lit "Verdict") x = bool_decide (x ∈ lit "dump" :: tests).
Proof.
  unfold class_has. rewrite find_verdict. unfold a_verdict_members. rewrite !has_method_app.
  rewrite (has_method_map (fun t => MMethod (Some void_t) t [(outcome_t, lit "new_val")]) (fun t => t)) by (intros a; by eexists _, _). rewrite map_id.
  rewrite has_method_fields by (intros a; by eexists _, _, _). apply eq_true_iff_eq. rewrite bool_decide_eq_true, !orb_true_iff, bool_decide_eq_true. cbn [has_method].
  rewrite !orb_false_r. unfold str_eqb. rewrite bool_decide_eq_true, elem_of_cons. clear. naive_solver.
Qed.

(** ** Enumerators and constants *)
Definition is_enum (i : citem) : bool := match i with CEnum _ _ => true | _ => false end.
Definition enum_in (q : list gostr) (p : list citem) : bool :=
  existsb (fun i => match i with CEnum e fs => existsb (fun f => path_eqb [e; f] q) fs | _ => false end) p.
Lemma enum_in_app q a b : enum_in q (a ++ b) = enum_in q a || enum_in q b.
Proof. apply existsb_app. Qed.
Lemma enum_in_none q l : forallb (fun i => negb (is_enum i)) l = true -> enum_in q l = false.
Proof. induction l as [|i l IH]; [done|]. cbn [forallb]. intros [H1 H2]%andb_prop. destruct i; try done; by apply IH. Qed.
Lemma main_enum_in v name m ctx tests q : enum_in q (main_items v name m ctx tests) = bool_decide (q ∈ map (fun s => [lit "State"; enum_field (st_id s)]) (m_states m)).
Proof.
  rewrite main_items_eq, !enum_in_app.
  rewrite (enum_in_none q (a_includes v ctx)) by (by apply forallb_map_true). rewrite (enum_in_none q (a_constants v)) by (by destruct v).
  rewrite (enum_in_none q (a_verdict v tests)) by (unfold a_verdict; cbn; by apply forallb_map_true).
  rewrite (enum_in_none q [in_ns [lit "state"] (a_name (m_states m))]) by done. rewrite (enum_in_none q [a_main v name (make_transitions m) ctx]) by done.
  rewrite (enum_in_none q (a_stm v (make_transitions m) (s0_of m) (m_states m))).
  2: { unfold a_stm. rewrite !forallb_app. rewrite !forallb_map_true by done. by destruct (tc_first_state_has_in _), (tc_has_in _). }
  cbn [orb]. rewrite !orb_false_r. unfold enum_in, a_enum. cbn [existsb]. rewrite orb_false_r. apply eq_true_iff_eq.
  rewrite existsb_exists, bool_decide_eq_true, elem_of_list_fmap. split.
  - intros (f & Hf & E). apply in_map_iff in Hf as (s & <- & Hs). apply bool_decide_eq_true in E. exists s. split; [done|by apply elem_of_list_In].
  - intros (s & -> & Hs). exists (enum_field (st_id s)). split; [apply in_map_iff; exists s; split; [done|by apply elem_of_list_In]|apply path_eqb_refl].
Qed.
Lemma main_enumerator v name m ctx tests q : enumerator (main_items v name m ctx tests) q =
  existsb (path_eqb q) prelude_enums || bool_decide (q ∈ map (fun s => [lit "State"; enum_field (st_id s)]) (m_states m)).
Proof. unfold enumerator. f_equal. apply main_enum_in. Qed.
Lemma state_enumerator v name m ctx tests s : s ∈ m_states m -> enumerator (main_items v name m ctx tests) [lit "State"; enum_field (st_id s)] = true.
Proof. intros H. rewrite main_enumerator. apply orb_true_iff. right. apply bool_decide_eq_true_2. apply elem_of_list_fmap. by exists s. Qed.
Lemma std_enumerator v name m ctx tests x : enumerator (main_items v name m ctx tests) [lit "std"; x] = false.
Proof.
  rewrite main_enumerator. apply orb_false_iff. split.
  - apply not_true_iff_false. intros (q & Hq & E)%existsb_exists. apply bool_decide_eq_true in E. subst q.
    unfold prelude_enums in Hq. apply in_app_or in Hq as [Hq|Hq]; apply in_map_iff in Hq as (y & E & _); discriminate E.
  - apply bool_decide_eq_false_2. intros (s & [= E] & _)%elem_of_list_fmap.
Qed.
Lemma find_const_skip l r x : forallb (fun i => match i with CVar _ _ _ => false | _ => true end) l = true -> find_const (l ++ r) x = find_const r x.
Proof. induction l as [|i l IH]; cbn [forallb app]; [done|]. intros [H1 H2]%andb_prop. destruct i; try done; by apply IH. Qed.
Lemma ros_constants name m ctx tests : find_const (main_items VRos name m ctx tests) (lit "TIMEOUT_SEC") = Some (ENum (lit "15")) /\
  find_const (main_items VRos name m ctx tests) (lit "INPUT_DELAY_SEC") = Some (ENum (lit "3")).
Proof.
  rewrite main_items_eq. rewrite !(find_const_skip (a_includes VRos ctx)) by (by apply forallb_map_true). by split.
Qed.
