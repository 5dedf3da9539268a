(** * The functions of main.cpp do what the model of Cpp.v says *)
From Verif Require Export RunNames SpecSession.
From Verif Require Export StmProofs.

(** ** Text in literals *)
Lemma cpp_safe_app a b : cpp_safe a -> cpp_safe b -> cpp_safe (a ++ b).
Proof. unfold cpp_safe. rewrite !elem_of_app. naive_solver. Qed.
Definition safeb (s : gostr) : bool := forallb (fun c => negb (existsb (Ascii.eqb c) [byte 34; byte 92; byte 10; byte 13; byte 0])) s.
Lemma safeb_ok s : safeb s = true -> cpp_safe s.
Proof.
  intros H. unfold safeb in H. pose proof (proj1 (forallb_forall _ _) H) as H'. clear H.
  assert (A : forall c, existsb (Ascii.eqb c) [byte 34; byte 92; byte 10; byte 13; byte 0] = true -> c ∉ s).
  { intros c Hc Hin. specialize (H' c (proj1 (elem_of_list_In _ _) Hin)). apply negb_true_iff in H'. congruence. }
  split_and!; apply A; reflexivity.
Qed.
Lemma ident_safe s : identifier s -> cpp_safe s.
Proof.
  intros [H _]. assert (A : forall c, ident_char c = false -> c ∉ s).
  { intros c Hc Hin. pose proof (proj1 (Forall_forall _ _) H c Hin) as E. cbn in E. congruence. }
  split_and!; apply A; reflexivity.
Qed.
Lemma safe_digits k : cpp_safe (format_N k).
Proof.
  destruct (format_N_spec k) as (_ & H & _). assert (A : forall c, is_digit c = false -> c ∉ format_N k).
  { intros c Hc Hin. pose proof (proj1 (Forall_forall _ _) H c Hin) as E. cbn in E. congruence. }
  split_and!; apply A; reflexivity.
Qed.
Lemma str_body_app s r : cpp_safe s -> str_body (s ++ r) = (fun b => s ++ b) <$> str_body r.
Proof.
  induction s as [|c s IH]; intros (H1 & H2 & H3 & H4 & H5); [cbn [app]; by destruct (str_body r)|].
  apply not_elem_of_cons in H1 as [N1 H1], H2 as [N2 H2], H3 as [N3 H3], H4 as [N4 H4], H5 as [N5 H5].
  assert (forall x, x <> c -> Ascii.eqb c x = false) as Hne by (intros x Hx; apply aeqb_neq; congruence).
  cbn [app str_body]. rewrite !Hne by done. cbn [orb]. rewrite IH by done. by destruct (str_body r).
Qed.
Lemma var_of_None {A} x (l : list (gostr * A)) : x ∉ l.*1 -> var_of x l = None.
Proof.
  induction l as [|[y a] l IH]; [done|]. cbn. intros [H1 H2]%not_elem_of_cons. rewrite str_eqb_ne by congruence. by apply IH.
Qed.
Lemma leave_same vs w : w_vars w = vs -> leave vs w = w.
Proof. intros <-. unfold leave. rewrite Nat.sub_diag, drop_0. apply set_vars_id. Qed.
Lemma find_case_split {A} k (cs : list (gostr * A)) : 
  match find_case k cs with Some a => exists l1 l2, cs = l1 ++ (k, a) :: l2 /\ k ∉ l1.*1 | None => k ∉ cs.*1 end.
Proof.
  induction cs as [|[s a] cs IH]; [cbn; apply not_elem_of_nil|]. unfold find_case. rewrite filter_cons. cbn [fst]. destruct (decide (s = k)) as [->|Hn].
  - cbn. exists [], cs. split; [done|apply not_elem_of_nil].
  - fold (find_case k cs). destruct (find_case k cs) as [b|].
    + destruct IH as (l1 & l2 & -> & H). exists ((s, a) :: l1), l2. split; [done|]. cbn. by apply not_elem_of_cons.
    + cbn. by apply not_elem_of_cons.
Qed.

(** ** What is known of the program *)
Definition stm_key (x : gostr) : list gostr := [lit "stm"; x].
Definition SM : gostr := lit "StateMachine".
Definition VD : gostr := lit "Verdict".
Definition sm_self : self := Some (SM, [lit "stm"]).
Definition vd_at : list gostr := [lit "stm"; lit "verdict_"].
Definition vd_self : self := Some (VD, vd_at).

Record declares (v : variant) (name : gostr) (m : stm) (ctx : cctx) (tests : list gostr) (p : list citem) : Prop := {
  d_fun : forall r q ps b, CFun r q ps b ∈ main_items v name m ctx tests -> find_fun p q = Some (ps, b);
  d_sm : forall x, class_has p SM x = bool_decide (x ∈ sm_names m);
  d_vd : forall x, class_has p VD x = bool_decide (x ∈ lit "dump" :: tests);
  d_state : forall f, f ∈ map (fun s => enum_field (st_id s)) (m_states m) -> enumerator p [lit "State"; f] = true;
  d_std : forall x, enumerator p [lit "std"; x] = false;
  d_prelude : forall q, existsb (path_eqb q) prelude_enums = true -> enumerator p q = true;
  d_sm_class : find_class p SM = Some (Some [lit "rtcg"; lit "TestCase"], a_members v (make_transitions m) (s0_of m) (m_states m));
  d_vd_class : find_class p VD = Some (None, a_verdict_members tests);
  d_consts : v = VRos -> find_const p (lit "TIMEOUT_SEC") = Some (ENum (lit "15")) /\ find_const p (lit "INPUT_DELAY_SEC") = Some (ENum (lit "3"));
}.
Lemma main_declares v name m ctx tests : NoDup (fun_names (main_items v name m ctx tests)) -> declares v name m ctx tests (main_items v name m ctx tests).
Proof.
  intros Hn. split.
  - intros r q ps b. by apply find_fun_in.
  - apply machine_has.
  - apply verdict_has.
  - intros f Hf. apply elem_of_list_fmap in Hf as (s & -> & Hs). by apply state_enumerator.
  - apply std_enumerator.
  - intros q Hq. rewrite main_enumerator, Hq. done.
  - apply find_machine.
  - apply find_verdict.
  - intros ->. apply ros_constants.
Qed.

(** What is known of the machine. *)
Record machine_ok (v : variant) (m : stm) (types : type_map) (tests : list gostr) (P : program) : Prop := {
  mo_prog : gen_program m types tests = Some P;
  mo_decl : well_declared P;
  mo_lits : literals_ok P;
  mo_ids : forall s, s ∈ m_states m -> cpp_safe (st_id s);
  mo_tests : forall t, t ∈ tests -> cpp_safe t;
  mo_trans : forall s ts t, s ∈ m_states m -> ts ∈ st_tsets s -> t ∈ ts_trans ts ->
    cpp_safe (ch_name (ts_chan ts)) /\ cpp_safe (value_string_value (tr_value t)) /\ cpp_safe (tr_next t);
  mo_merged : forall s, s ∈ (range_map (tc_in_merged (make_transitions m))).*1 -> cpp_safe s;
  mo_outs : forall a, a ∈ tc_out (make_transitions m) -> cpp_safe (agg_name a) /\ forall s, s ∈ (range_map (ag_states a)).*1 -> cpp_safe s;
  mo_convs : forall a, a ∈ tc_in (make_transitions m) \/ a ∈ tc_out (make_transitions m) -> convert_to (agg_name a) ∉ sm_names m /\ convert_from (agg_name a) ∉ sm_names m;
  mo_pubs : forall s c t, s ∈ m_states m -> state_in s = Some (c, t) -> exists a, a ∈ tc_in (make_transitions m) /\ agg_name a = ch_name c;
}.

Section Machine.
  Context (v : variant) (name : gostr) (m : stm) (ctx : cctx) (tests : list gostr) (types : type_map) (P : program).
  Context (p : list citem) (conv : gostr -> cval -> option cval) (rounds : nat).
  Context (HD : declares v name m ctx tests p) (HM : machine_ok v m types tests P) (HC : plain_conversions types conv).
  Notation tc := (make_transitions m).
  Notation R := (run_call p conv rounds).
  Notation eval n := (SpecRun.eval p conv (R n)).
  Notation evals n := (SpecRun.evals p conv (R n)).
  Notation exec n := (SpecRun.exec p conv rounds (R n)).
  Notation execs n := (SpecRun.execs p conv rounds (R n)).

  (** ** Names and logs *)
  Lemma prelude_name this a b c w : existsb (path_eqb [a; b; c]) prelude_enums = true -> name_value p this [a; b; c] w = Some (VEnum [a; b; c]).
  Proof. intros H. unfold name_value. by rewrite (d_prelude _ _ _ _ _ _ HD _ H). Qed.
  Lemma gives_status n this s w : gives p conv (R n) this (status_q (status_text s)) w (v_status s).
  Proof. apply gives_name. unfold v_status. apply prelude_name. by destruct s. Qed.
  Definition outcome_name (o : gostr) : Prop := o ∈ [lit "UNSET"; lit "INC"; lit "PASS"; lit "FAIL"].
  Lemma gives_outcome n this o w : outcome_name o -> gives p conv (R n) this (outcome_q o) w (v_outcome o).
  Proof. intros H. apply gives_name. unfold v_outcome. apply prelude_name. unfold outcome_name in H. rewrite !elem_of_cons, elem_of_nil in H. destruct H as [->|[->|[->|[->|[]]]]]; reflexivity. Qed.
  Lemma state_enum f : f ∈ p_enum P -> enumerator p [lit "State"; f] = true.
  Proof.
    intros H. apply (d_state _ _ _ _ _ _ HD).
    pose proof (mo_prog _ _ _ _ _ HM) as E. unfold gen_program in E. destruct (m_states m) as [|s0 r] eqn:Es; [done|]. destruct (forallb _ _); [|done].
    destruct (gen_accept _); [|done]. injection E as <-. done.
  Qed.
  Lemma gives_state n this f w : f ∈ p_enum P -> gives p conv (R n) this (nm2 (lit "State") f) w (VEnum [lit "State"; f]).
  Proof. intros H. apply gives_name. unfold name_value. by rewrite state_enum. Qed.
  Lemma gives_std n this x w u : std_name [lit "std"; x] = Some u -> gives p conv (R n) this (nm2 (lit "std") x) w u.
  Proof. intros H. apply gives_name. unfold name_value. by rewrite (d_std _ _ _ _ _ _ HD). Qed.
  Lemma gives_field n c at_ x w u : var_of x (w_vars w) = None -> w_fields w !! (at_ ++ [x]) = Some u -> gives p conv (R n) (Some (c, at_)) (nm x) w u.
  Proof. intros H1 H2. apply gives_name. unfold name_value. by rewrite H1; cbn [field_of]; rewrite H2. Qed.
  Lemma gives_var n this x w u : var_of x (w_vars w) = Some u -> gives p conv (R n) this (nm x) w u.
  Proof. intros H1. apply gives_name. unfold name_value. by rewrite H1. Qed.

  Lemma log_ok n this level s ps vs w : level = info \/ level = err -> cpp_safe s -> Forall2 (fun e x => gives p conv (R n) this e w x) ps vs ->
    exec n this (a_log v level (EStr s) ps) w = Fine Go (put_out (logged v level (VStr s :: vs)) w).
  Proof.
    intros Hl Hs Hps. pose proof (gives_std n this (lit "endl") w VEndl eq_refl) as Hendl. pose proof (gives_str p conv (R n) this s w Hs) as Hstr.
    assert (Hps' : Forall2 (fun e x => gives p conv (R n) this e w x) (ps ++ [endl]) (vs ++ [VEndl])) by (apply Forall2_app; [done|by constructor]).
    assert (Hr : exec n this (ecall [lit "ROS_" ++ to_upper level ++ lit "_STREAM"] [EOps (EStr s) (shl (ps ++ [endl]))]) w =
                 Fine Go (put_out (FPrint (lit "ROS_" ++ to_upper level ++ lit "_STREAM") (VStr s :: vs ++ [VEndl])) w)).
    { apply exec_expr with VUnit. unfold MainAst.call. rewrite eval_log by (by destruct Hl as [-> | ->]). rewrite Hstr. cbn [rbind]. rewrite (parts_gives _ _ _ _ _ _ _ Hps').
      cbn [rbind]. by rewrite app_nil_r || cbn [concat]; rewrite ?app_nil_r. }
    assert (Ha : exec n this (SExpr (EOps (nm2 (lit "std") (lit "cerr")) (shl (EStr (lit "[" ++ level ++ lit "] ") :: EStr s :: ps ++ [endl])))) w =
                 Fine Go (put_out (FPrint (lit "cerr") (VStr (lit "[" ++ level ++ lit "] ") :: VStr s :: vs ++ [VEndl])) w)).
    { eapply exec_expr. rewrite eval_ops. rewrite (gives_std n this (lit "cerr") w (VOstream (lit "cerr")) eq_refl). cbn [rbind].
      rewrite (parts_gives p conv (R n) this _ (VStr (lit "[" ++ level ++ lit "] ") :: VStr s :: vs ++ [VEndl]) w); [reflexivity|].
      constructor; [apply gives_str; destruct Hl as [-> | ->]; apply safeb_ok; reflexivity|]. by constructor. }
    unfold a_log, logged. destruct v; [exact Ha|exact Hr|exact Ha].
  Qed.

  (** ** The state of the program *)
  (** [pubs]: the publishers have been assigned. *)
  Record rel (pubs : bool) (c : cpp) (w : world) : Prop := {
    r_status : w_fields w !! stm_key (lit "status_") = Some (v_status (c_status c));
    r_state : w_fields w !! stm_key (lit "state_") = Some (VEnum [lit "State"; c_state c]);
    r_verdict : w_fields w !! stm_key (lit "verdict_") = Some (VObj VD vd_at);
    r_tests : forall t, t ∈ tests -> exists o, c_verdict c !! t = Some o /\ w_fields w !! (vd_at ++ [fld t]) = Some (v_outcome o) /\ outcome_name o;
    r_sent : filter (fun e => input_effect v e = true) (w_out w) = map (sent_effect v) (c_sent c);
    r_down : v = VRos -> w_down w = negb (is_running (c_status c));
    r_pubs : v = VRos -> forall a, a ∈ tc_in tc -> exists x, w_fields w !! stm_key (fld (publisher_name (agg_name a))) = Some x /\
      (pubs = true -> x = VTopic (topic_name (agg_name a)));
    r_in_enum : c_state c ∈ p_enum P;
  }.
  Record frame (w w' : world) : Prop := {
    fr_vars : w_vars w' = w_vars w;
    fr_in : w_in w' = w_in w;
    fr_subs : w_subs w' = w_subs w;
    fr_timers : w_timers w' = w_timers w;
  }.
  Lemma frame_refl w : frame w w.
  Proof. done. Qed.
  Lemma frame_trans a b c : frame a b -> frame b c -> frame a c.
  Proof. intros [] []. split; congruence. Qed.
  Lemma rel_vars pubs c w vs : rel pubs c w -> rel pubs c (set_vars vs w).
  Proof. intros [H1 H2 H3 H4 H5 H6 H7 H8]. by split. Qed.
  Lemma rel_in pubs c w i : rel pubs c w -> rel pubs c (set_in i w).
  Proof. intros [H1 H2 H3 H4 H5 H6 H7 H8]. by split. Qed.
  Lemma rel_out pubs c w e : rel pubs c w -> input_effect v e = false -> rel pubs c (put_out e w).
  Proof.
    intros [H1 H2 H3 H4 H5 H6 H7 H8] He. split; try done. cbn [put_out w_out]. rewrite filter_app, H5. cbn [filter list_filter].
    rewrite decide_False by (by rewrite He). apply app_nil_r.
  Qed.
  (** A line of the log that shows no input. *)
  Definition plain_log (s : gostr) : Prop := forall r, s <> "("%char :: r.
  Lemma log_quiet level s vs : plain_log s -> input_effect v (logged v level (VStr s :: vs)) = false.
  Proof.
    intros H. unfold logged. destruct v; cbn; [|done|]; apply bool_decide_eq_false_2; intros [r Hr]; by apply (H (lit "Actual value received by SUT on " ++ r)).
  Qed.
  Lemma filter_put e w : filter (fun e => input_effect v e = true) (w_out (put_out e w)) = filter (fun e => input_effect v e = true) (w_out w) ++ (if input_effect v e then [e] else []).
  Proof. cbn [put_out w_out]. rewrite filter_app. f_equal. cbn [filter list_filter]. destruct (input_effect v e) eqn:E; [by rewrite decide_True|by rewrite decide_False]. Qed.

  (** Statements, run in a method of the machine. *)
  Definition does (n : nat) (pubs : bool) (vars : list (gostr * cval)) (l : list stmt) (c : cpp) (f : flow) (c' : cpp) : Prop :=
    forall w, rel pubs c w -> w_vars w = vars -> exists w', execs n sm_self l w = Fine f w' /\ rel pubs c' w' /\ frame w w'.
  Lemma does_nil n pubs vars c : does n pubs vars [] c Go c.
  Proof. intros w Hr Hv. by exists w. Qed.
  Lemma does_cons n pubs vars s l c c1 f c2 : does n pubs vars [s] c Go c1 -> does n pubs vars l c1 f c2 -> does n pubs vars (s :: l) c f c2.
  Proof.
    intros H1 H2 w Hr Hv. destruct (H1 w Hr Hv) as (w1 & E1 & Hr1 & F1). destruct (H2 w1 Hr1) as (w2 & E2 & Hr2 & F2).
    { by rewrite (fr_vars _ _ F1). }
    exists w2. split; [|split; [done|by eapply frame_trans]]. cbn in E1 |- *. destruct (exec n sm_self s w) as [[] w'| | |]; cbn in E1 |- *; try discriminate E1. injection E1 as ->. done.
  Qed.
  Lemma does_app n pubs vars l1 l2 c c1 f c2 : does n pubs vars l1 c Go c1 -> does n pubs vars l2 c1 f c2 -> does n pubs vars (l1 ++ l2) c f c2.
  Proof.
    intros H1 H2 w Hr Hv. destruct (H1 w Hr Hv) as (w1 & E1 & Hr1 & F1). destruct (H2 w1 Hr1) as (w2 & E2 & Hr2 & F2).
    { by rewrite (fr_vars _ _ F1). }
    exists w2. split; [|split; [done|by eapply frame_trans]]. by rewrite (execs_app _ _ _ _ _ _ _ _ _ E1).
  Qed.
  Lemma does_one n pubs vars s c f c' : (forall w, rel pubs c w -> w_vars w = vars -> exists w', exec n sm_self s w = Fine f w' /\ rel pubs c' w' /\ frame w w') ->
    does n pubs vars [s] c f c'.
  Proof.
    intros H w Hr Hv. destruct (H w Hr Hv) as (w' & E & Hr' & F). exists w'. split; [|done]. cbn. rewrite E. by destruct f.
  Qed.
  Lemma does_log n pubs vars level s ps c : level = info \/ level = err -> cpp_safe s -> plain_log s ->
    (forall w, rel pubs c w -> w_vars w = vars -> exists vs, Forall2 (fun e x => gives p conv (R n) sm_self e w x) ps vs) ->
    does n pubs vars [a_log v level (EStr s) ps] c Go c.
  Proof.
    intros Hl Hs Hq Hps. apply does_one. intros w Hr Hv. destruct (Hps w Hr Hv) as [vs Hvs]. eexists. split; [by apply log_ok|].
    split; [|done]. apply rel_out; [done|]. by apply log_quiet.
  Qed.
  Lemma does_log1 n pubs vars s c : cpp_safe s -> plain_log s -> does n pubs vars [a_log v info (EStr s) []] c Go c.
  Proof. intros H1 H2. apply does_log; [by left|done|done|]. intros w _ _. by exists []. Qed.

  (** A function, run to its end. *)
  Definition runs (n : nat) (pubs : bool) (f : gostr) (args : list cval) (c c' : cpp) : Prop :=
    forall w, rel pubs c w -> exists w', R n sm_self (SMq f) args w = Fine VUnit w' /\ rel pubs c' w' /\ frame w w'.
  Lemma runs_fun n pubs r f ps b args c fl c' : CFun r (SMq f) ps b ∈ main_items v name m ctx tests -> length ps = length args ->
    does n pubs (zip (map snd ps) args) b c fl c' -> fl = Go \/ fl = Ret VUnit -> runs (S n) pubs f args c c'.
  Proof.
    intros Hin Hlen Hd Hfl w Hr. cbn [run_call]. rewrite (d_fun _ _ _ _ _ _ HD _ _ _ _ Hin). apply Nat.eqb_eq in Hlen. rewrite Hlen.
    destruct (Hd (set_vars (zip (map snd ps) args) w) (rel_vars _ _ _ _ Hr) eq_refl) as (w' & E & Hr' & F). rewrite E. cbn [rbind].
    exists (set_vars (w_vars w) w'). split; [by destruct Hfl as [-> | ->]|]. split; [by apply rel_vars|]. destruct F. by split.
  Qed.
  Lemma call_method n f args w : f ∈ sm_names m -> log_macro [f] = false -> forall vs, Forall2 (fun e x => gives p conv (R n) sm_self e w x) args vs ->
    eval n sm_self (MainAst.call [f] args) w = R n sm_self (SMq f) vs w.
  Proof.
    intros Hf Hm vs Hvs. unfold MainAst.call. rewrite eval_call by done. rewrite (evals_gives _ _ _ _ _ _ _ Hvs). cbn [rbind].
    unfold call_named. cbn [sm_self]. rewrite (d_sm _ _ _ _ _ _ HD), bool_decide_eq_true_2 by done. fold sm_self. fold (SMq f).
    change [SM; f] with (SMq f). destruct (R n sm_self (SMq f) vs w); done.
  Qed.
  Lemma does_call n pubs vars f args vs c c' : f ∈ sm_names m -> log_macro [f] = false ->
    (forall w, rel pubs c w -> w_vars w = vars -> Forall2 (fun e x => gives p conv (R n) sm_self e w x) args vs) ->
    runs n pubs f vs c c' -> does n pubs vars [ecall [f] args] c Go c'.
  Proof.
    intros Hf Hm Ha Hr. apply does_one. intros w Hw Hv. destruct (Hr w Hw) as (w' & E & Hr' & F). exists w'. split; [|done].
    eapply exec_expr. rewrite (call_method _ _ _ _ Hf Hm _ (Ha w Hw Hv)). exact E.
  Qed.

  Lemma status_of_v s : status_of (v_status s) = Some s.
  Proof. by destruct s. Qed.
  Lemma gives_is_running n this e w s : gives p conv (R n) this e w (v_status s) -> gives p conv (R n) this (is_running_of e) w (VBool (is_running s)).
  Proof.
    intros H. unfold gives, is_running_of, MainAst.call. rewrite eval_call by done.
    rewrite (evals_gives p conv (R n) this [e] [v_status s] w) by (by constructor). cbn [rbind].
    assert (E : call_named p conv (R n) this [lit "rtcg"; lit "status"; lit "isRunning"] [v_status s] w = opt ((fun s => VBool (is_running s)) <$> status_of (v_status s)) w) by reflexivity.
    rewrite E, status_of_v. done.
  Qed.
  Lemma field_status n pubs c w : rel pubs c w -> var_of (lit "status_") (w_vars w) = None -> gives p conv (R n) sm_self (nm (lit "status_")) w (v_status (c_status c)).
  Proof. intros Hr Hv. apply gives_field; [done|]. apply (r_status _ _ _ Hr). Qed.
  Lemma field_state n pubs c w : rel pubs c w -> var_of (lit "state_") (w_vars w) = None -> gives p conv (R n) sm_self (nm (lit "state_")) w (VEnum [lit "State"; c_state c]).
  Proof. intros Hr Hv. apply gives_field; [done|]. apply (r_state _ _ _ Hr). Qed.
  Lemma store_field x u w : var_of x (w_vars w) = None -> is_Some (w_fields w !! stm_key x) ->
    store sm_self (nm x) u w = Fine tt (set_fields (<[stm_key x := u]> (w_fields w)) w).
  Proof. intros H1 [y H2]. unfold store, nm. rewrite H1. cbn [field_of sm_self]. change ([lit "stm"] ++ [x]) with (stm_key x). by rewrite H2. Qed.

  (** Changing the status, the state. *)
  Definition with_status (s : status) (c : cpp) : cpp := Cpp s (c_state c) (c_verdict c) (c_sent c).
  Definition with_state (x : gostr) (c : cpp) : cpp := Cpp (c_status c) x (c_verdict c) (c_sent c).
  Lemma stm_key_vd x t : stm_key x <> vd_at ++ [fld t].
  Proof. unfold stm_key, vd_at. cbn. congruence. Qed.
  Lemma fld_ne a b : last a <> Some "_"%char -> a <> fld b.
  Proof. intros H ->. apply H. unfold fld. by rewrite last_snoc. Qed.
  Lemma pub_ends c : exists r, fld (publisher_name c) = r ++ lit "_pub_".
  Proof. exists (topic_name c). unfold fld, publisher_name. by rewrite <- app_assoc. Qed.
  Lemma ends_ne (a b : gostr) r : reverse a = lit "_bup_" ++ r -> reverse b `prefix_of` reverse b -> take 5 (reverse b) <> lit "_bup_" -> a <> b.
  Proof. intros H _ H' ->. apply H'. rewrite H. done. Qed.
  Lemma pub_fld_ne c x : take 5 (reverse x) <> lit "_bup_" -> fld (publisher_name c) <> x.
  Proof.
    destruct (pub_ends c) as [r E]. eapply ends_ne; [|done]. rewrite E, reverse_app. reflexivity.
  Qed.
  Lemma rel_with_status pubs c w s : rel pubs c w -> (v = VRos -> is_running s = is_running (c_status c)) ->
    rel pubs (with_status s c) (set_fields (<[stm_key (lit "status_") := v_status s]> (w_fields w)) w).
  Proof.
    intros [H1 H2 H3 H4 H5 H6 H7 H8] Hrun. split; cbn [set_fields w_fields w_out w_down c_status c_state c_verdict c_sent with_status]; try done.
    - by rewrite lookup_insert.
    - by rewrite lookup_insert_ne.
    - by rewrite lookup_insert_ne.
    - intros t Ht. rewrite lookup_insert_ne by apply stm_key_vd. by apply H4.
    - intros Hv. rewrite Hrun by done. by apply H6.
    - intros Hv a Ha. rewrite lookup_insert_ne; [by apply H7|]. intros [= E]. symmetry in E. revert E. by apply pub_fld_ne.
  Qed.
  Lemma rel_with_state pubs c w x : rel pubs c w -> x ∈ p_enum P ->
    rel pubs (with_state x c) (set_fields (<[stm_key (lit "state_") := VEnum [lit "State"; x]]> (w_fields w)) w).
  Proof.
    intros [H1 H2 H3 H4 H5 H6 H7 H8] Hx. split; cbn [set_fields w_fields w_out w_down c_status c_state c_verdict c_sent with_state]; try done.
    - by rewrite lookup_insert_ne.
    - by rewrite lookup_insert.
    - by rewrite lookup_insert_ne.
    - intros t Ht. rewrite lookup_insert_ne by apply stm_key_vd. by apply H4.
    - intros Hv a Ha. rewrite lookup_insert_ne; [by apply H7|]. intros [= E]. symmetry in E. revert E. by apply pub_fld_ne.
  Qed.
  Lemma does_set_status n pubs vars s c : var_of (lit "status_") vars = None -> (v = VRos -> is_running s = is_running (c_status c)) ->
    does n pubs vars [set_status (status_text s)] c Go (with_status s c).
  Proof.
    intros Hv Hs. apply does_one. intros w Hr <-. eexists. split.
    - eapply exec_assign; [apply gives_status|]. apply store_field; [done|]. rewrite (r_status _ _ _ Hr). by eexists.
    - split; [by apply rel_with_status|done].
  Qed.

  (** ** end *)
  Lemma in_stm i : i ∈ a_stm v tc (s0_of m) (m_states m) -> i ∈ main_items v name m ctx tests.
  Proof. intros H. rewrite main_items_eq, !elem_of_app. auto 20. Qed.
  Lemma in_end : a_end_fun v ∈ main_items v name m ctx tests.
  Proof. apply in_stm. unfold a_stm. rewrite !elem_of_app, !elem_of_cons. auto 20. Qed.
  Lemma does_if_false n pubs vars e a c : (forall w, rel pubs c w -> w_vars w = vars -> gives p conv (R n) sm_self e w (VBool false)) ->
    does n pubs vars [SIf e a None] c Go c.
  Proof.
    intros H. apply does_one. intros w Hr Hv. exists w. split; [|done]. by rewrite (exec_if _ _ _ _ _ _ _ _ _ _ _ (H w Hr Hv)).
  Qed.
  Lemma does_if n pubs vars e b a a' c f c' : (forall w, rel pubs c w -> w_vars w = vars -> gives p conv (R n) sm_self e w (VBool b)) ->
    does n pubs vars [if b then a else a'] c f c' -> does n pubs vars [SIf e a (Some a')] c f c'.
  Proof.
    intros H Hd w Hr Hv. destruct (Hd w Hr Hv) as (w' & E & Hw). exists w'. split; [|done]. cbn [SpecRun.execs] in E |- *.
    rewrite (exec_if _ _ _ _ _ _ _ _ _ _ _ (H w Hr Hv)). by destruct b.
  Qed.
  Lemma does_if_ret n pubs vars e l c : (forall w, rel pubs c w -> w_vars w = vars -> gives p conv (R n) sm_self e w (VBool true)) ->
    does n pubs vars [SIf e (SReturn None) None; l] c (Ret VUnit) c.
  Proof.
    intros H w Hr Hv. exists w. split; [|done]. cbn [SpecRun.execs]. by rewrite (exec_if _ _ _ _ _ _ _ _ _ _ _ (H w Hr Hv)).
  Qed.
  Lemma does_early n pubs vars s l c : does n pubs vars [s] c (Ret VUnit) c -> does n pubs vars (s :: l) c (Ret VUnit) c.
  Proof.
    intros H w Hr Hv. destruct (H w Hr Hv) as (w' & E & Hw). exists w'. split; [|done]. cbn [SpecRun.execs] in E |- *.
    destruct (exec n sm_self s w) as [[| |u] w1| | |]; cbn in E |- *; try discriminate E. done.
  Qed.
  Lemma does_if_true n pubs vars e a c f c' : (forall w, rel pubs c w -> w_vars w = vars -> gives p conv (R n) sm_self e w (VBool true)) ->
    does n pubs vars [a] c f c' -> does n pubs vars [SIf e a None] c f c'.
  Proof.
    intros H Hd w Hr Hv. destruct (Hd w Hr Hv) as (w' & E & Hw). exists w'. split; [|done]. cbn [SpecRun.execs] in E |- *.
    by rewrite (exec_if _ _ _ _ _ _ _ _ _ _ _ (H w Hr Hv)).
  Qed.
  Lemma does_block n pubs vars l c f c' : does n pubs vars l c f c' -> does n pubs vars [SBlock l] c f c'.
  Proof.
    intros H. apply does_one. intros w Hr Hv. destruct (H w Hr Hv) as (w' & E & Hr' & F). exists w'. split; [|done]. rewrite exec_block, E. cbn [rbind].
    by rewrite leave_same by apply F.
  Qed.
  Lemma does_return n pubs vars c : does n pubs vars [SReturn None] c (Ret VUnit) c.
  Proof. apply does_one. intros w Hr Hv. by exists w. Qed.
  Lemma gives_not_running n pubs vars c w : var_of (lit "status_") vars = None -> rel pubs c w -> w_vars w = vars ->
    gives p conv (R n) sm_self (EUn UNot running_status) w (VBool (negb (is_running (c_status c)))).
  Proof. intros Hv Hr <-. apply gives_not, gives_is_running. by eapply field_status. Qed.

  Lemma end_ok n pubs s c : is_running s = false -> runs (S n) pubs (lit "end") [v_status s] c (end_test s c).
  Proof.
    intros Hs. unfold end_test. destruct (is_running (c_status c)) eqn:Erun.
    - rewrite Hs. eapply (runs_fun n pubs _ _ _ _ _ _ Go); [apply in_end|done| |by left]. cbn [map snd zip]. set (vars := [(lit "s", v_status s)]).
      eapply does_cons; [apply does_if_false; intros w Hr Hv; pose proof (gives_not_running n pubs vars c w eq_refl Hr Hv) as H; by rewrite Erun in H|].
      eapply does_cons; [apply does_if_false; intros w Hr Hv; replace (VBool false) with (VBool (is_running s)) by (by rewrite Hs); apply gives_is_running, gives_var; rewrite Hv; reflexivity|].
      intros w Hr Hv.
      assert (E1 : exec n sm_self (SAssign (nm (lit "status_")) (nm (lit "s"))) w = Fine Go (set_fields (<[stm_key (lit "status_") := v_status s]> (w_fields w)) w)).
      { eapply exec_assign; [apply gives_var; by rewrite Hv|]. apply store_field; [by rewrite Hv|]. rewrite (r_status _ _ _ Hr). by eexists. }
      rewrite (execs_cons _ _ _ _ _ _ _ _ _ E1). set (w1 := set_fields _ w).
      assert (Hr1 : v <> VRos -> rel pubs (with_status s c) w1) by (intros Hn; by apply rel_with_status).
      destruct (decide (v = VRos)) as [Hv'|Hv'].
      + exists (shut_down w1). split; [by rewrite Hv'|]. split; [|done].
        destruct Hr as [H1 H2 H3 H4 H5 H6 H7 H8]. split; cbn [w1 shut_down set_fields w_fields w_out w_down c_status c_state c_verdict c_sent with_status]; try done.
        * by rewrite lookup_insert.
        * by rewrite lookup_insert_ne.
        * by rewrite lookup_insert_ne.
        * intros t Ht. rewrite lookup_insert_ne by apply stm_key_vd. by apply H4.
        * intros _. by rewrite Hs.
        * intros Hv2 a Ha. rewrite lookup_insert_ne; [by apply H7|]. intros [= E]. symmetry in E. revert E. by apply pub_fld_ne.
      + exists w1. split; [by destruct v|]. split; [by apply Hr1|done].
    - eapply (runs_fun n pubs _ _ _ _ _ _ (Ret VUnit)); [apply in_end|done| |by right]. cbn [map snd zip app]. apply does_early.
      apply does_if_true; [intros w Hr Hv; pose proof (gives_not_running n pubs [(lit "s", v_status s)] c w eq_refl Hr Hv) as H; by rewrite Erun in H|]. apply does_block.
      eapply does_cons; [|apply does_return]. apply does_log; [by right|by apply safeb_ok|by intros r|]. intros w Hr Hv. eexists.
      constructor; [apply (field_status n pubs c); [done|by rewrite Hv]|]. constructor; [apply gives_str; by apply safeb_ok|].
      constructor; [apply gives_var; by rewrite Hv|]. constructor; [apply gives_str; by apply safeb_ok|constructor].
  Qed.
  Lemma does_end n pubs vars s c : is_running s = false -> does (S n) pubs vars [a_end (status_text s)] c Go (end_test s c).
  Proof.
    intros Hs. unfold a_end. eapply does_call; [|done| |by apply end_ok].
    - unfold sm_names, fixed_names. rewrite !elem_of_app, !elem_of_cons. auto 20.
    - intros w _ _. constructor; [apply gives_status|constructor].
  Qed.

  (** ** Setters *)
  Definition with_verdict (x : gmap gostr gostr) (c : cpp) : cpp := Cpp (c_status c) (c_state c) x (c_sent c).
  Lemma fld_inj a b : fld a = fld b -> a = b.
  Proof. unfold fld. by intros H%app_inv_tail. Qed.
  Lemma in_setter t : t ∈ tests -> a_setter v t ∈ main_items v name m ctx tests.
  Proof. intros H. rewrite main_items_eq, !elem_of_app. right. right. left. unfold a_verdict. apply elem_of_app. right. apply elem_of_list_fmap. by exists t. Qed.
  Lemma setter_ok n pubs t o c w : t ∈ tests -> outcome_name o -> rel pubs c w ->
    exists w', R (S n) vd_self [VD; t] [v_outcome o] w = Fine VUnit w' /\ rel pubs (with_verdict (set_verdict (c_verdict c) (t, o)) c) w' /\ frame w w'.
  Proof.
    intros Ht Ho Hr. cbn [run_call]. change [VD; t] with [lit "Verdict"; t]. rewrite (d_fun _ _ _ _ _ _ HD _ _ _ _ (in_setter t Ht)).
    change (length [(outcome_t, lit "new_val")] =? length [v_outcome o]) with true. cbn iota zeta. cbn [map snd zip].
    set (w0 := set_vars [(lit "new_val", v_outcome o)] w). pose proof (rel_vars _ _ _ [(lit "new_val", v_outcome o)] Hr : rel pubs c w0) as Hr0.
    destruct (r_tests _ _ _ Hr0 t Ht) as (old & Hold & Hf & Hon).
    assert (Hvar : var_of (fld t) [(lit "new_val", v_outcome o)] = None).
    { apply var_of_None. cbn. rewrite elem_of_list_singleton. intros E. symmetry in E. revert E. by apply fld_ne. }
    assert (G1 : gives p conv (R n) vd_self (nm (fld t)) w0 (v_outcome old)) by (by apply gives_field).
    assert (G2 : gives p conv (R n) vd_self (nm (lit "new_val")) w0 (v_outcome o)) by (by apply gives_var).
    assert (G3 : gives p conv (R n) vd_self (e_eq (nm (fld t)) (nm (lit "new_val"))) w0 (VBool (bool_decide (old = o)))).
    { eapply gives_op; [apply G1|apply G2| |done|done]. cbn. do 2 f_equal. unfold path_eqb. apply bool_decide_ext. split; [congruence|by intros ->]. }
    assert (Hset : forall t', t' ∈ tests -> exists o', set_verdict (c_verdict c) (t, o) !! t' = Some o' /\
      (<[vd_at ++ [fld t] := v_outcome o]> (w_fields w)) !! (vd_at ++ [fld t']) = Some (v_outcome o') /\ outcome_name o').
    { intros t' Ht'. unfold set_verdict. cbn [fst snd]. destruct (decide (t' = t)) as [->|Hne].
      - exists o. by rewrite !lookup_insert.
      - destruct (r_tests _ _ _ Hr t' Ht') as (o' & H1 & H2 & H3). exists o'. rewrite !lookup_insert_ne; [done| |congruence].
        intros E%app_inv_head. injection E as E. apply fld_inj in E. congruence. }
    cbn [SpecRun.execs]. rewrite (exec_if _ _ _ _ _ _ _ _ _ _ _ G3). destruct (decide (old = o)) as [->|Hne].
    - rewrite bool_decide_eq_true_2 by done. cbn [SpecRun.exec rbind]. exists (set_vars (w_vars w) w0). split; [done|]. split; [|done].
      destruct Hr as [H1 H2 H3 H4 H5 H6 H7 H8]. split; try done. cbn [set_vars w_fields w0 with_verdict c_verdict].
      intros t' Ht'. destruct (Hset t' Ht') as (o' & E1 & E2 & E3). exists o'. split; [done|]. split; [|done].
      rewrite insert_id in E2; [done|]. exact Hf.
    - rewrite bool_decide_eq_false_2 by done. cbn [rbind].
      rewrite (log_ok n vd_self info (lit "Test " ++ t ++ lit " is now ") _ [v_outcome o; VStr (lit "; was "); v_outcome old; VStr (lit ".")] w0).
      2: by left. 2: { apply cpp_safe_app; [by apply safeb_ok|]. apply cpp_safe_app; [by apply (mo_tests _ _ _ _ _ HM)|by apply safeb_ok]. }
      2: { constructor; [done|]. constructor; [apply gives_str; by apply safeb_ok|]. constructor; [done|]. constructor; [apply gives_str; by apply safeb_ok|constructor]. }
      cbn [rbind]. set (e := logged _ _ _). set (w1 := put_out e w0).
      assert (E1 : exec n vd_self (SAssign (nm (fld t)) (nm (lit "new_val"))) w1 = Fine Go (set_fields (<[vd_at ++ [fld t] := v_outcome o]> (w_fields w1)) w1)).
      { eapply exec_assign; [by apply gives_var|]. unfold store, nm. change (w_vars w1) with [(lit "new_val", v_outcome o)]. rewrite Hvar. cbn [field_of vd_self]. change (w_fields w1) with (w_fields w0). rewrite Hf. reflexivity. }
      rewrite E1. cbn [rbind]. eexists. split; [done|]. split; [|done].
      assert (Hr1 : rel pubs c (set_vars (w_vars w) w1)).
      { apply rel_vars. apply rel_out; [done|]. apply log_quiet. by intros r. }
      destruct Hr1 as [H1 H2 H3 H4 H5 H6 H7 H8]. split; cbn [set_vars set_fields w_fields w_out w_down with_verdict c_status c_state c_verdict c_sent]; try done.
      + rewrite lookup_insert_ne; [done|]. intros E. symmetry in E. by apply stm_key_vd in E.
      + rewrite lookup_insert_ne; [done|]. intros E. symmetry in E. by apply stm_key_vd in E.
      + rewrite lookup_insert_ne; [done|]. intros E. symmetry in E. by apply stm_key_vd in E.
      + intros Hv a Ha. rewrite lookup_insert_ne; [by apply H7|]. intros E. symmetry in E. by apply stm_key_vd in E.
  Qed.
  Lemma does_setter n pubs vars to c : to.1 ∈ tests -> outcome_name (outcome_enum to.2) -> var_of (lit "verdict_") vars = None ->
    does (S n) pubs vars [a_set_verdict to] c Go (with_verdict (set_verdict (c_verdict c) (to.1, outcome_enum to.2)) c).
  Proof.
    intros Ht Ho Hv. apply does_one. intros w Hr Hvw. destruct (setter_ok n pubs to.1 (outcome_enum to.2) c w Ht Ho Hr) as (w' & E & Hr' & F).
    exists w'. split; [|done]. eapply exec_expr. unfold mcall. rewrite eval_dot.
    assert (G : gives p conv (R (S n)) sm_self (nm (lit "verdict_")) w (VObj VD vd_at)) by (apply gives_field; [by rewrite Hvw|]; apply (r_verdict _ _ _ Hr)).
    rewrite G. cbn [rbind]. rewrite posts_call. rewrite (evals_gives p conv (R (S n)) sm_self [outcome_q (outcome_enum to.2)] [v_outcome (outcome_enum to.2)] w) by (constructor; [by apply gives_outcome|constructor]).
    cbn [rbind call_member]. rewrite (d_vd _ _ _ _ _ _ HD), bool_decide_eq_true_2 by (by right). fold vd_self. rewrite E. cbn [rbind]. reflexivity.
  Qed.
  Lemma does_setters n pubs vars l : var_of (lit "verdict_") vars = None -> forall c, Forall (fun to => to.1 ∈ tests /\ outcome_name (outcome_enum to.2)) l ->
    does (S n) pubs vars (map a_set_verdict l) c Go (with_verdict (fold_left set_verdict (map (fun to => (to.1, outcome_enum to.2)) l) (c_verdict c)) c).
  Proof.
    intros Hv. induction l as [|to l IH]; intros c Hl; cbn [map fold_left].
    - destruct c. apply does_nil.
    - apply Forall_cons in Hl as [[H1 H2] Hl]. eapply does_cons; [by apply does_setter|]. apply (IH (with_verdict (set_verdict (c_verdict c) (to.1, outcome_enum to.2)) c) Hl).
  Qed.

  (** ** Literals and conversions *)
  Lemma gives_lit n this x y w : cpp_lit (cpp_value x) = Some y -> gives p conv (R n) this (a_lit x) w (val y).
  Proof.
    unfold gives. destruct x as [[z|s]|].
    - unfold cpp_value. assert (is_enum_ty (value_type (Some (IntV z))) = false) as -> by (cbn; by destruct (0 <=? z)%Z). cbn [a_lit].
      change (value_string_value (Some (IntV z))) with (format_int z). unfold format_int. destruct (z <? 0)%Z eqn:E.
      + cbn [cpp_lit]. change (Ascii.eqb "-" (byte 34)) with false. change (Ascii.eqb "-" "-") with true. cbn iota.
        destruct (nat_lit (format_N (Z.abs_N z))) as [k|] eqn:Ek; [|done]. intros [= <-]. cbn [SpecRun.eval]. unfold num_value. rewrite Ek. reflexivity.
      + destruct (format_N_spec (Z.to_N z)) as (H1 & _). destruct (format_N (Z.to_N z)) as [|c r] eqn:Ef; [done|].
        destruct (digit_not_special _ _ _ Ef) as [E1 E2]. unfold cpp_lit. rewrite E1, E2. destruct (nat_lit (c :: r)) as [k|] eqn:Ek; [|done]. intros [= <-].
        cbn [SpecRun.eval]. unfold num_value. rewrite Ek. reflexivity.
    - intros H. cbn [a_lit SpecRun.eval]. change (cpp_lit (cpp_value (Some (EnumV s)))) with (EnumV <$> str_body (s ++ lit """")) in H. unfold str_value.
      change [byte 34] with (lit """"). destruct (str_body (s ++ lit """")) as [b|]; [|done]. injection H as <-. reflexivity.
    - vm_compute. intros [= <-]; reflexivity.
  Qed.
  Lemma gives_conv n f e w x y : (forall g, f <> "R"%char :: g) -> f ∉ sm_names m -> conv f x = Some y -> gives p conv (R n) sm_self e w x ->
    gives p conv (R n) sm_self (MainAst.call [f] [e]) w y.
  Proof.
    intros Hf Hn Hc He. unfold gives, MainAst.call. rewrite eval_call.
    2: { unfold log_macro, log_macros. cbn [existsb]. rewrite !str_eqb_ne; [done|apply Hf|apply Hf]. }
    rewrite (evals_gives p conv (R n) sm_self [e] [x] w) by (by constructor). cbn [rbind]. unfold call_named. cbn [sm_self].
    rewrite (d_sm _ _ _ _ _ _ HD), bool_decide_eq_false_2 by done. rewrite Hc. done.
  Qed.
  Lemma gives_to n ch t e w x y : (exists a, (a ∈ tc_in tc \/ a ∈ tc_out tc) /\ agg_name a = ch) -> types !! ch = Some t -> c_string x -> pass_value t x = Some y -> gives p conv (R n) sm_self e w (val x) ->
    gives p conv (R n) sm_self (MainAst.call [convert_to ch] [e]) w (val y).
  Proof. intros (a & Ha & <-) Ht Hcs Hp He. eapply gives_conv; [by intros g|apply (mo_convs _ _ _ _ _ HM a Ha)|by eapply (pc_to _ _ HC)|done]. Qed.
  Lemma gives_from n ch t e w x : (exists a, (a ∈ tc_in tc \/ a ∈ tc_out tc) /\ agg_name a = ch) -> types !! ch = Some t -> fits_type t x -> gives p conv (R n) sm_self e w (val x) ->
    gives p conv (R n) sm_self (MainAst.call [convert_from ch] [e]) w (val x).
  Proof. intros (a & Ha & <-) Ht Hp He. eapply gives_conv; [by intros g|apply (mo_convs _ _ _ _ _ HM a Ha)|by eapply (pc_from _ _ HC)|done]. Qed.

  (** ** Entry functions *)
  Lemma prog_eq : exists acc, gen_accept (range_map (tc_in_merged tc)) = Some acc /\
    P = Program tests (map (fun s => enum_field (st_id s)) (m_states m)) (enum_field (s0_of m)) (state_entry (s0_of m)) (tc_first_state_has_in tc)
          (if tc_has_in tc then Some acc else None) (map gen_out (tc_out tc)) (map gen_entry (m_states m)) types.
  Proof.
    pose proof (mo_prog _ _ _ _ _ HM) as E. unfold gen_program in E. unfold s0_of. destruct (m_states m) as [|s0 r] eqn:Es; [done|]. cbv zeta in E. destruct (forallb _ _); [|done].
    destruct (gen_accept _) as [acc|]; [|done]. injection E as <-. exists acc. done.
  Qed.
  Lemma does_two n pubs vars id a b c : cpp_safe id -> cpp_safe a -> cpp_safe b -> does n pubs vars [a_two v id a b] c Go c.
  Proof.
    intros H1 H2 H3. apply does_log; [by left| |by intros r|].
    - apply cpp_safe_app; [by apply safeb_ok|by apply cpp_safe_app].
    - intros w _ _. exists [VStr b]. constructor; [by apply gives_str|constructor].
  Qed.
  Definition with_sent (l : list (gostr * valuable)) (c : cpp) : cpp := Cpp (c_status c) (c_state c) (c_verdict c) l.
  Lemma lit_c_string x y : cpp_safe (value_string_value x) -> cpp_lit (cpp_value x) = Some y -> c_string y.
  Proof.
    intros Hs. destruct x as [[z|s]|].
    - unfold cpp_value. assert (is_enum_ty (value_type (Some (IntV z))) = false) as -> by (cbn; by destruct (0 <=? z)%Z).
      change (value_string_value (Some (IntV z))) with (format_int z). unfold format_int. destruct (z <? 0)%Z eqn:E.
      + cbn [cpp_lit]. change (Ascii.eqb "-" (byte 34)) with false. change (Ascii.eqb "-" "-") with true. cbn iota.
        destruct (nat_lit (format_N (Z.abs_N z))) as [k|] eqn:Ek; [|done]. by intros [= <-].
      + destruct (format_N_spec (Z.to_N z)) as (H1 & _). destruct (format_N (Z.to_N z)) as [|c r] eqn:Ef; [done|].
        destruct (digit_not_special _ _ _ Ef) as [E1 E2]. unfold cpp_lit. rewrite E1, E2. destruct (nat_lit (c :: r)) as [k|] eqn:Ek; [|done]. by intros [= <-].
    - intros Hl. change (cpp_value (Some (EnumV s))) with ((lit """" ++ s) ++ lit """") in Hl. rewrite cpp_lit_str in Hl by exact Hs. injection Hl as <-. apply Hs.
    - vm_compute. intros [= <-].
  Qed.
  Lemma does_input n ch t x y ty c : cpp_safe (ch_name ch) -> cpp_safe (value_string_value (tr_value t)) -> types !! ch_name ch = Some ty -> cpp_lit (cpp_value (tr_value t)) = Some x -> pass_value ty x = Some y ->
    (exists a, a ∈ tc_in tc /\ agg_name a = ch_name ch) ->
    does n true [] [a_input v ch t] c Go (with_sent (c_sent c ++ [(ch_name ch, y)]) c).
  Proof.
    intros Hs Hvs Hty Hx Hy Hpub. pose proof (lit_c_string _ _ Hvs Hx) as Hcs. apply does_one. intros w Hr Hv.
    assert (G : gives p conv (R n) sm_self (MainAst.call [convert_to (ch_name ch)] [a_lit (tr_value t)]) w (val y)).
    { eapply gives_to; [|done|exact Hcs|done|by apply gives_lit]. destruct Hpub as (a & Ha & <-). exists a. split; [by left|done]. }
    assert (Hrel : rel true (with_sent (c_sent c ++ [(ch_name ch, y)]) c) (put_out (sent_effect v (ch_name ch, y)) w)).
    { destruct Hr as [H1 H2 H3 H4 H5 H6 H7 H8]. split; try done. rewrite filter_put, H5. cbn [c_sent with_sent]. rewrite map_app. f_equal.
      assert (input_effect v (sent_effect v (ch_name ch, y)) = true) as ->; [|done].
      unfold sent_effect, info_line, logged. destruct v; cbn; [|done|]; apply bool_decide_eq_true_2; by eexists. }
    eexists. split; [|split; [exact Hrel|done]]. unfold a_input. cbv zeta.
    assert (Ha : forall v', v' = v -> v' <> VRos -> exec n sm_self (a_log v' info (EStr (lit "(Actual value received by SUT on " ++ ch_name ch ++ lit " after conversion: "))
        [MainAst.call [convert_to (ch_name ch)] [a_lit (tr_value t)]; EStr (lit ")")]) w = Fine Go (put_out (sent_effect v' (ch_name ch, y)) w)).
    { intros v' -> Hne. rewrite (log_ok n sm_self info _ _ [val y; VStr (lit ")")] w).
      - unfold sent_effect. destruct v; done.
      - by left.
      - apply cpp_safe_app; [by apply safeb_ok|]. apply cpp_safe_app; [done|by apply safeb_ok].
      - constructor; [done|]. constructor; [apply gives_str; by apply safeb_ok|constructor]. }
    destruct v as [| |k] eqn:Ev; [apply Ha; done| |apply Ha; done].
    destruct Hpub as (a & Hin & Hn). destruct (r_pubs _ _ _ Hr Ev a Hin) as (u & Hu & Hu2). specialize (Hu2 eq_refl). subst u.
    eapply exec_expr. unfold mcall. rewrite eval_dot.
    assert (G2 : gives p conv (R n) sm_self (nm (fld (publisher_name (ch_name ch)))) w (VTopic (topic_name (agg_name a)))).
    { apply gives_field; [by rewrite Hv|]. rewrite <- Hn. exact Hu. }
    rewrite G2. cbn [rbind]. rewrite posts_call, (evals_gives p conv (R n) sm_self _ [val y] w) by (by constructor). rewrite Hn. reflexivity.
  Qed.
  Lemma in_entry s : s ∈ m_states m -> a_entry v s ∈ main_items v name m ctx tests.
  Proof. intros H. apply in_stm. unfold a_stm. rewrite !elem_of_app. do 4 right. apply elem_of_list_fmap. by exists s. Qed.
  Lemma does_expected n pubs vars s c : s ∈ m_states m ->
    does n pubs vars (concat (map (fun ts => map (a_expected v (st_id s) (ts_chan ts)) (ts_trans ts)) (st_tsets s))) c Go c.
  Proof.
    intros Hs. assert (H : forall tss, (forall ts, ts ∈ tss -> ts ∈ st_tsets s) ->
      does n pubs vars (concat (map (fun ts => map (a_expected v (st_id s) (ts_chan ts)) (ts_trans ts)) tss)) c Go c); [|by apply H].
    induction tss as [|ts tss IH]; intros Hin; [apply does_nil|]. cbn [map concat]. eapply does_app; [|apply IH; intros ts' H'; apply Hin; by right].
    assert (H : forall l, (forall t, t ∈ l -> t ∈ ts_trans ts) -> does n pubs vars (map (a_expected v (st_id s) (ts_chan ts)) l) c Go c); [|by apply H].
    induction l as [|t l IHl]; intros Hl; [apply does_nil|]. cbn [map]. eapply does_cons; [|apply IHl; intros t' H'; apply Hl; by right].
    destruct (mo_trans _ _ _ _ _ HM s ts t Hs (Hin ts ltac:(left)) (Hl t ltac:(left))) as (S1 & S2 & S3).
    apply does_two; [by apply (mo_ids _ _ _ _ _ HM)| |]; repeat apply cpp_safe_app; try done; by apply safeb_ok.
  Qed.
  Lemma state_in_elem s c t : state_in s = Some (c, t) -> exists ts, ts ∈ st_tsets s /\ ts_chan ts = c /\ t ∈ ts_trans ts.
  Proof.
    unfold state_in. induction (st_tsets s) as [|ts l IH]; [done|]. cbn [first_in]. intros H.
    assert (IH' : first_in l = Some (c, t) -> exists ts0, ts0 ∈ ts :: l /\ ts_chan ts0 = c /\ t ∈ ts_trans ts0) by (intros E; destruct (IH E) as (x & H1 & H2); exists x; split; [by right|done]).
    destruct (is_in (ts_chan ts) && (length (ts_trans ts) =? 1)); [|by apply IH']. destruct (ts_trans ts) as [|t0 l0] eqn:Et; [done|].
    injection H as <- <-. exists ts. split; [left|]. split; [done|]. rewrite Et. left.
  Qed.
  Lemma in_p_enum s : s ∈ m_states m -> enum_field (st_id s) ∈ p_enum P.
  Proof. intros Hs. destruct prog_eq as (acc & _ & ->). cbn [p_enum]. apply elem_of_list_fmap. by exists s. Qed.
  Lemma in_p_entries s : s ∈ m_states m -> gen_entry s ∈ p_entries P.
  Proof. intros Hs. destruct prog_eq as (acc & _ & ->). cbn [p_entries]. apply elem_of_list_fmap. by exists s. Qed.
  Lemma does_act n pubs s c c' : s ∈ m_states m -> is_running (c_status c) = true -> (pubs = true \/ forall x, en_act (gen_entry s) <> ActIn (Some x)) ->
    match en_act (gen_entry s) with
    | ActFail => Some (end_test FAIL c)
    | ActIn None => Some (with_status WAIT_IN c)
    | ActIn (Some (ch, l)) =>
      match p_types P !! ch, cpp_lit l with
      | Some t, Some x => match pass_value t x with Some y => Some (with_sent (c_sent c ++ [(ch, y)]) (with_status WAIT_IN c)) | None => None end
      | _, _ => None
      end
    | ActOut => Some (with_status WAIT_OUT c)
    end = Some c' -> does (S n) pubs [] (a_act v s) c Go c'.
  Proof.
    intros Hs Hrun Hsend. unfold gen_entry, a_act. cbn [en_act]. cbn [gen_entry en_act] in Hsend. destruct (verdict_is OFail (st_verdict s)).
    { intros [= <-]. by apply (does_end n pubs [] FAIL). }
    destruct (state_has_in s).
    2: { intros [= <-]. eapply does_app; [apply (does_set_status (S n) pubs [] WAIT_OUT); [done|]; by rewrite Hrun|]. by apply does_expected. }
    destruct (state_in s) as [[ch t]|] eqn:Ei.
    - assert (p_types P = types) as -> by (destruct prog_eq as (acc & _ & ->); done).
      destruct (types !! ch_name ch) as [ty|] eqn:Ety; [|done]. destruct (cpp_lit (cpp_value (tr_value t))) as [x|] eqn:Ex; [|done].
      destruct (pass_value ty x) as [y|] eqn:Ey; [|done]. intros [= <-].
      destruct (state_in_elem _ _ _ Ei) as (ts & Hts & Hch & Ht). destruct (mo_trans _ _ _ _ _ HM s ts t Hs Hts Ht) as (S1 & S2 & S3). rewrite Hch in S1.
      destruct Hsend as [->|Hsend]; [|by destruct (Hsend (ch_name ch, cpp_value (tr_value t)))].
      eapply does_app; [apply (does_set_status (S n) true [] WAIT_IN); [done|]; by rewrite Hrun|].
      eapply does_cons.
      2: { apply (does_input (S n) ch t x y ty (with_status WAIT_IN c)); try done. by apply (mo_pubs _ _ _ _ _ HM s ch t). }
      apply does_two; [by apply (mo_ids _ _ _ _ _ HM)| |]; repeat apply cpp_safe_app; try done; by apply safeb_ok.
    - intros [= <-]. rewrite app_nil_r. apply (does_set_status (S n) pubs [] WAIT_IN); [done|]. by rewrite Hrun.
  Qed.
  Lemma entry_ok n pubs s c c' : s ∈ m_states m -> is_running (c_status c) = true -> (pubs = true \/ forall x, en_act (gen_entry s) <> ActIn (Some x)) ->
    run_entry P (gen_entry s) c = Some c' -> runs (S (S n)) pubs (state_entry (st_id s)) [] c c'.
  Proof.
    intros Hs Hrun Hsend E. eapply (runs_fun (S n) pubs _ _ _ _ _ _ Go); [by apply in_entry|done| |by left]. cbn [zip map].
    set (c1 := with_verdict (fold_left set_verdict (map (fun to => (to.1, outcome_enum to.2)) (range_map (st_verdict s))) (c_verdict c)) (with_state (enum_field (st_id s)) c)).
    cbn [app]. eapply does_cons.
    { apply does_one. intros w Hr Hv. eexists. split.
      - eapply exec_assign; [apply gives_state, in_p_enum, Hs|]. apply store_field; [by rewrite Hv|]. rewrite (r_state _ _ _ Hr). by eexists.
      - split; [|done]. by apply rel_with_state, in_p_enum. }
    eapply does_cons.
    { apply does_log1; [|by intros r]. apply cpp_safe_app; [by apply safeb_ok|]. apply cpp_safe_app; [by apply (mo_ids _ _ _ _ _ HM)|by apply safeb_ok]. }
    eapply does_app; [apply (does_setters n pubs [] (range_map (st_verdict s)) eq_refl)|].
    { apply Forall_forall. intros to Hto. 
      destruct (wd_setters _ (mo_decl _ _ _ _ _ HM) (gen_entry s) to.1 (outcome_enum to.2)) as [H1 H2].
      - by apply in_p_entries.
      - apply elem_of_list_fmap. by exists to.
      - destruct prog_eq as (acc & _ & EP). rewrite EP in H1. cbn [p_tests] in H1. done. }
    apply (does_act n pubs s c1 c' Hs); [done|done|]. rewrite <- E. unfold run_entry. cbn [gen_entry en_verdict en_state]. unfold c1, with_status, with_verdict, with_state, with_sent. cbn [c_status c_state c_verdict c_sent].
    destruct (en_act (gen_entry s)) as [|[[ch l]|]|]; done.
  Qed.
  Lemma enter_ok n pubs f c c' : is_running (c_status c) = true -> (pubs = true \/ forall e x, find_entry P f = Some e -> en_act e <> ActIn (Some x)) ->
    enter P f c = Some c' -> f ∈ sm_names m /\ log_macro [f] = false /\ runs (S (S n)) pubs f [] c c'.
  Proof.
    intros Hrun Hsend. unfold enter. destruct (find_entry P f) as [e|] eqn:Ef; [|done]. intros E. unfold find_entry in Ef.
    assert (He : e ∈ filter (fun e => en_name e = f) (p_entries P)) by (destruct (filter _ _) as [|x l]; [done|]; injection Ef as ->; left).
    apply elem_of_list_filter in He as [Hn He]. destruct prog_eq as (acc & _ & EP). assert (He' : e ∈ map gen_entry (m_states m)) by (by rewrite EP in He).
    apply elem_of_list_fmap in He' as (s & -> & Hs). subst f. split_and!.
    - unfold sm_names. rewrite !elem_of_app. do 3 right. apply elem_of_list_fmap. by exists s.
    - unfold log_macro, log_macros. cbn [existsb gen_entry en_name]. unfold state_entry. by rewrite !str_eqb_ne.
    - eapply entry_ok; [done|done| |done]. destruct Hsend as [->|Hsend]; [by left|right]. intros x. by apply Hsend.
  Qed.
  Lemma does_enter n pubs vars f c c' : is_running (c_status c) = true -> (pubs = true \/ forall e x, find_entry P f = Some e -> en_act e <> ActIn (Some x)) ->
    enter P f c = Some c' -> does (S (S n)) pubs vars [ecall [f] []] c Go c'.
  Proof. intros Hrun Hs E. destruct (enter_ok n pubs f c c' Hrun Hs E) as (H1 & H2 & H3). by eapply does_call. Qed.

  (** ** Switches over the state *)
  Lemma state_label this f w : f ∈ p_enum P -> label p this (nm2 (lit "State") f) w = Some [lit "State"; f].
  Proof.
    intros Hf. unfold label, nm2, name_value. by rewrite state_enum.
  Qed.
  Lemma state_label_ok this f w : f ∈ p_enum P -> label_ok p this (Some (nm2 (lit "State") f)) w = true.
  Proof. intros Hf. unfold label_ok. rewrite state_label by done. by apply bool_decide_eq_true_2. Qed.
  Lemma state_label_ne this k f w : f ∈ p_enum P -> f <> k -> label_is p this [lit "State"; k] (Some (nm2 (lit "State") f)) w = false.
  Proof. intros Hf Hn. unfold label_is. rewrite state_label by done. apply path_eqb_ne. congruence. Qed.

  Lemma in_name : CFun (Some cstr_t) [lit "state"; lit "name"] [(plain_t [lit "State"], lit "s")]
    [SSwitch (nm (lit "s")) (map (fun s => (Some (state_q (st_id s)), [SReturn (Some (EStr (st_id s)))])) (m_states m)); SReturn (Some (EStr (lit "???")))] ∈ main_items v name m ctx tests.
  Proof. rewrite main_items_eq, !elem_of_app. do 4 right. left. apply elem_of_list_singleton. reflexivity. Qed.
  Lemma in_stateName : a_stateName ∈ main_items v name m ctx tests.
  Proof. apply in_stm. unfold a_stm. rewrite !elem_of_app, !elem_of_cons. auto 20. Qed.
  Lemma name_ok n k w : exists x, R (S n) None [lit "state"; lit "name"] [VEnum [lit "State"; k]] w = Fine (VStr x) w.
  Proof.
    cbn [run_call]. rewrite (d_fun _ _ _ _ _ _ HD _ _ _ _ in_name). change (length [(plain_t [lit "State"], lit "s")] =? length [VEnum [lit "State"; k]]) with true. cbn iota zeta.
    cbn [map snd zip]. set (w0 := set_vars [(lit "s", VEnum [lit "State"; k])] w).
    assert (G : gives p conv (R n) None (nm (lit "s")) w0 (VEnum [lit "State"; k])) by (by apply gives_var).
    set (cs := map (fun s => (enum_field (st_id s), st_id s)) (m_states m)).
    assert (Hcs : forall f x, (f, x) ∈ cs -> f ∈ p_enum P /\ cpp_safe x).
    { intros f x H. apply elem_of_list_fmap in H as (s & [= -> ->] & Hs). split; [by apply in_p_enum|by apply (mo_ids _ _ _ _ _ HM)]. }
    set (case := fun fx : gostr * gostr => (Some (nm2 (lit "State") fx.1), [SReturn (Some (EStr fx.2))])).
    assert (E : map (fun s => (Some (state_q (st_id s)), [SReturn (Some (EStr (st_id s)))])) (m_states m) = map case cs) by (unfold cs; by rewrite map_map).
    rewrite E. clearbody cs. clear E.
    pose proof (find_case_split k cs) as Hf. destruct (find_case k cs) as [x|].
    - destruct Hf as (l1 & l2 & -> & Hk). destruct (Hcs k x ltac:(apply elem_of_app; right; left)) as [Hke Hx]. exists x. rewrite map_app. cbn [map]. cbn [SpecRun.execs].
      assert (E : execs n None [SReturn (Some (EStr x))] w0 = Fine (Ret (VStr x)) w0).
      { cbn. pose proof (gives_str p conv (R n) None x w0 Hx) as Gx. unfold gives in Gx. cbn in Gx. by rewrite Gx. }
      unfold case at 2. cbn [fst snd]. rewrite (switch_hit p conv rounds (R n) None _ [lit "State"; k] w0 (map case l1) _ _ (map case l2) (Ret (VStr x)) w0); [| exact G | by apply state_label | | | exact E | done].
      + cbn [rbind]. rewrite leave_same by done. unfold w0. by rewrite set_vars_vars, set_vars_id.
      + apply Forall_forall. intros c Hc. assert (Hc' : c ∈ map case (l1 ++ (k, x) :: l2)) by (rewrite map_app; exact Hc).
        apply elem_of_list_fmap in Hc' as ([f y] & -> & Hin). apply state_label_ok. by apply (Hcs f y).
      + apply Forall_forall. intros c Hc. apply elem_of_list_fmap in Hc as ([f y] & -> & Hin). apply state_label_ne; [apply (Hcs f y), elem_of_app; by left|].
        cbn [fst]. intros E'. subst f. apply Hk. apply elem_of_list_fmap. by exists (k, y).
    - exists (lit "???"). cbn [SpecRun.execs]. rewrite (switch_none p conv rounds (R n) None _ [lit "State"; k] w0 (map case cs) G).
      + cbn [rbind]. rewrite leave_same by done. pose proof (gives_str p conv (R n) None (lit "???") w0 ltac:(by apply safeb_ok)) as Gx.
        assert (SpecRun.exec p conv rounds (R n) None (SReturn (Some (EStr (lit "???")))) w0 = Fine (Ret (VStr (lit "???"))) w0) as ->.
        { unfold gives in Gx. cbn [SpecRun.exec]. by rewrite Gx. }
        cbn [rbind]. unfold w0. by rewrite set_vars_vars, set_vars_id.
      + apply Forall_forall. intros c Hc. apply elem_of_list_fmap in Hc as ([f y] & -> & Hin). destruct (Hcs f y Hin) as [H1 H2]. split; [by eexists|].
        split; [by apply state_label_ok|]. apply state_label_ne; [done|]. cbn [fst]. intros E'. subst f. apply Hf. apply elem_of_list_fmap. by exists (k, y).
  Qed.
  Lemma gives_stateName n pubs c w : rel pubs c w -> exists x, gives p conv (R (S (S n))) sm_self (MainAst.call [lit "stateName"] []) w x.
  Proof.
    intros Hr. destruct (name_ok n (c_state c) (set_vars [] w)) as [x Hx]. exists (VStr x). unfold gives. rewrite (call_method (S (S n)) (lit "stateName") [] w) with (vs := []); [| |done|constructor].
    2: { unfold sm_names, fixed_names. rewrite !elem_of_app, !elem_of_cons. auto 20. }
    rewrite (run_call_S _ _ _ _ _ _ _ _ _ _ (d_fun _ _ _ _ _ _ HD _ _ _ _ in_stateName)) by done. cbn [zip map].
    assert (G : gives p conv (R (S n)) sm_self (nm (lit "state_")) (set_vars [] w) (VEnum [lit "State"; c_state c])) by (eapply field_state; [by apply rel_vars|done]).
    assert (E : SpecRun.exec p conv rounds (R (S n)) sm_self (SReturn (Some (MainAst.call [lit "state"; lit "name"] [nm (lit "state_")]))) (set_vars [] w) = Fine (Ret (VStr x)) (set_vars [] w)).
    { cbn [SpecRun.exec]. unfold MainAst.call. rewrite eval_call by done. rewrite (evals_gives p conv (R (S n)) sm_self _ [VEnum [lit "State"; c_state c]] _) by (by constructor).
      cbn [rbind]. change (call_named p conv (R (S n)) sm_self [lit "state"; lit "name"] ?a ?w) with (R (S n) None [lit "state"; lit "name"] a w). rewrite Hx. done. }
    cbn [SpecRun.execs]. rewrite E. cbn [rbind]. by rewrite set_vars_vars, set_vars_id.
  Qed.

  (** ** Callbacks *)
  Lemma in_timeout : a_timeout v ∈ main_items v name m ctx tests.
  Proof. apply in_stm. unfold a_stm. rewrite !elem_of_app, !elem_of_cons. auto 20. Qed.
  Lemma timer_vars x (args : list cval) : x <> lit "event" -> var_of x (zip (map snd (a_timer_params v)) args) = None.
  Proof.
    intros H. apply var_of_None. unfold a_timer_params. destruct v; cbn; try apply not_elem_of_nil.
    destruct args; cbn; [apply not_elem_of_nil|]. by rewrite elem_of_list_singleton.
  Qed.
  Lemma timeout_ok n pubs args c : length (a_timer_params v) = length args -> runs (S (S n)) pubs (lit "timeoutCallback") args c (timeout_callback c).
  Proof.
    intros Hl. unfold timeout_callback. assert (Hv0 : var_of (lit "status_") (zip (map snd (a_timer_params v)) args) = None) by (by apply timer_vars).
    destruct (is_running (c_status c)) eqn:Erun.
    - eapply (runs_fun (S n) pubs _ _ _ _ _ _ Go); [apply in_timeout|done| |by left].
      eapply does_cons; [apply does_if_false; intros w Hr Hv; pose proof (gives_not_running (S n) pubs _ c w Hv0 Hr Hv) as H; by rewrite Erun in H|].
      eapply does_cons; [apply does_log1; [by apply safeb_ok|by intros r]|]. by apply (does_end n pubs _ TIMEOUT).
    - eapply (runs_fun (S n) pubs _ _ _ _ _ _ (Ret VUnit)); [apply in_timeout|done| |by right]. apply does_early.
      apply does_if_true; [intros w Hr Hv; pose proof (gives_not_running (S n) pubs _ c w Hv0 Hr Hv) as H; by rewrite Erun in H|]. apply does_return.
  Qed.
  Lemma in_delay : tc_first_state_has_in tc = true -> a_delay v (s0_of m) ∈ main_items v name m ctx tests.
  Proof. intros E. apply in_stm. unfold a_stm. rewrite E, !elem_of_app. right. left. by apply elem_of_list_singleton. Qed.
  Lemma status_ne s s' : bin OpNe (v_status s) (v_status s') = Some (VBool (bool_decide (s <> s'))).
  Proof. by destruct s, s'. Qed.
  Lemma status_eq s s' : bin OpEq (v_status s) (v_status s') = Some (VBool (bool_decide (s = s'))).
  Proof. by destruct s, s'. Qed.
  Lemma delay_ok n args c c' : tc_first_state_has_in tc = true -> length (a_timer_params v) = length args -> is_running (c_status c) = true ->
    initial_delay_callback P c = Some c' -> runs (S (S (S n))) true (lit "initialDelayCallback") args c c'.
  Proof.
    intros Hf Hl Hrun. unfold initial_delay_callback. assert (Hv0 : var_of (lit "status_") (zip (map snd (a_timer_params v)) args) = None) by (by apply timer_vars).
    assert (G : forall w, rel true c w -> w_vars w = zip (map snd (a_timer_params v)) args ->
      gives p conv (R (S (S n))) sm_self (e_ne (nm (lit "status_")) (status_q (lit "WAIT_START"))) w (VBool (bool_decide (c_status c <> WAIT_START)))).
    { intros w Hr Hv. eapply gives_op; [eapply field_status; [done|by rewrite Hv]|apply (gives_status _ _ WAIT_START)|apply status_ne|done|done]. }
    destruct (decide (c_status c = WAIT_START)) as [Es|Es].
    - rewrite (bool_decide_eq_true_2 (c_status c = WAIT_START)) by done. intros E.
      eapply (runs_fun (S (S n)) true _ _ _ _ _ _ Go); [by apply in_delay|done| |by left].
      eapply does_cons; [apply does_if_false; intros w Hr Hv; specialize (G w Hr Hv); by rewrite bool_decide_eq_false_2 in G by (by intros H)|].
      eapply does_cons; [apply does_log1; [by apply safeb_ok|by intros r]|].
      apply (does_enter n true); [done|by left|]. rewrite <- E. f_equal. destruct prog_eq as (acc & _ & ->). done.
    - rewrite (bool_decide_eq_false_2 (c_status c = WAIT_START)) by done. intros [= <-].
      eapply (runs_fun (S (S n)) true _ _ _ _ _ _ (Ret VUnit)); [by apply in_delay|done| |by right]. apply does_early.
      apply does_if_true; [intros w Hr Hv; specialize (G w Hr Hv); by rewrite bool_decide_eq_true_2 in G|]. apply does_return.
  Qed.

  (** A switch over the state whose cases are given by [cs]. *)
  Definition state_case {A} (body : gostr -> A -> list stmt) (fa : gostr * A) : option expr * list stmt := (Some (nm2 (lit "State") fa.1), body fa.1 fa.2).
  Lemma does_switch {A} n pubs vars (cs : list (gostr * A)) body dflt c c' : var_of (lit "state_") vars = None ->
    (forall f, f ∈ cs.*1 -> f ∈ p_enum P) ->
    match find_case (c_state c) cs with
    | Some a => does n pubs vars (body (c_state c) a) c Brk c'
    | None => does n pubs vars dflt c Go c'
    end -> does n pubs vars [SSwitch (nm (lit "state_")) (map (state_case body) cs ++ [(None, dflt)])] c Go c'.
  Proof.
    intros Hv Hcs Hd. apply does_one. intros w Hr Hvw. pose proof (field_state n pubs c w Hr ltac:(by rewrite Hvw)) as G.
    pose proof (find_case_split (c_state c) cs) as Hf. destruct (find_case (c_state c) cs) as [a|].
    - destruct Hf as (l1 & l2 & -> & Hk). destruct (Hd w Hr Hvw) as (w' & E & Hr' & F). exists w'. split; [|done].
      rewrite map_app. cbn [map]. rewrite <- app_assoc. cbn [app]. unfold state_case at 2. cbn [fst snd].
      rewrite (switch_hit p conv rounds (R n) sm_self _ [lit "State"; c_state c] w (map (state_case body) l1) _ _ (map (state_case body) l2 ++ [(None, dflt)]) Brk w'); [|exact G| | | |exact E|done].
      + by rewrite leave_same by apply F.
      + apply state_label. apply (r_in_enum _ _ _ Hr).
      + apply Forall_forall. intros x Hx. assert (Hx' : x ∈ map (state_case body) (l1 ++ (c_state c, a) :: l2) ++ [(None, dflt)]) by (rewrite map_app, <- app_assoc; exact Hx).
        apply elem_of_app in Hx' as [Hx'|Hx']; [|apply elem_of_list_singleton in Hx' as ->; done]. apply elem_of_list_fmap in Hx' as ([f y] & -> & Hin).
        apply state_label_ok. apply Hcs. apply elem_of_list_fmap. by exists (f, y).
      + apply Forall_forall. intros x Hx. apply elem_of_list_fmap in Hx as ([f y] & -> & Hin). apply state_label_ne.
        * apply Hcs. rewrite fmap_app, elem_of_app. left. apply elem_of_list_fmap. by exists (f, y).
        * cbn [fst]. intros E'. subst f. apply Hk. apply elem_of_list_fmap. by exists (c_state c, y).
    - destruct (Hd w Hr Hvw) as (w' & E & Hr' & F). exists w'. split; [|done].
      rewrite (switch_default p conv rounds (R n) sm_self _ [lit "State"; c_state c] w (map (state_case body) cs) dflt Go w' G); [by rewrite leave_same by apply F| |exact E|done].
      apply Forall_forall. intros x Hx. apply elem_of_list_fmap in Hx as ([f y] & -> & Hin). assert (Hfe : f ∈ p_enum P) by (apply Hcs, elem_of_list_fmap; by exists (f, y)).
      split; [by eexists|]. split; [by apply state_label_ok|]. apply state_label_ne; [done|]. cbn [fst]. intros E'. subst f. apply Hf. apply elem_of_list_fmap. by exists (c_state c, y).
  Qed.
  Lemma does_break n pubs vars c : does n pubs vars [SBreak] c Brk c.
  Proof. apply does_one. intros w Hr Hv. by exists w. Qed.

  (** *** inputAcceptedCallback *)
  Lemma in_accept : tc_has_in tc = true -> a_accept v tc ∈ main_items v name m ctx tests.
  Proof. intros E. apply in_stm. unfold a_stm. rewrite E, !elem_of_app. right. right. left. by apply elem_of_list_singleton. Qed.
  Definition hd_next (ts : list transition) : gostr := match ts with t :: _ => tr_next t | [] => [] end.
  Lemma gen_accept_map l cs : gen_accept l = Some cs -> cs = map (fun sts => (enum_field sts.1, state_entry (hd_next sts.2))) l /\ Forall (fun sts => sts.2 <> []) l.
  Proof.
    revert cs. induction l as [|[s [|t ts]] l IH]; intros cs; cbn [gen_accept]; [intros [= <-]; by split|done|].
    destruct (gen_accept l) as [cs'|]; [|done]. intros [= <-]. destruct (IH cs' eq_refl) as [-> H]. split; [done|]. by constructor.
  Qed.
  Lemma accept_cases_map l : Forall (fun sts => sts.2 <> []) l -> a_accept_cases v l = map (fun sts => a_accept_case v sts.1 (hd_next sts.2)) l.
  Proof. unfold a_accept_cases. induction 1 as [|[s [|t ts]] l H _ IH]; [done|done|]. cbn [map concat app snd fst] in *. by rewrite IH. Qed.
  Lemma accept_vars x (args : list cval) : x <> lit "msg" -> var_of x (zip (map snd (a_accept_params v)) args) = None.
  Proof.
    intros H. apply var_of_None. unfold a_accept_params. destruct v; cbn; try apply not_elem_of_nil.
    destruct args; cbn; [apply not_elem_of_nil|]. by rewrite elem_of_list_singleton.
  Qed.
  Lemma accept_ok n args c c' : length (a_accept_params v) = length args -> is_running (c_status c) = true ->
    input_accepted_callback P c = Some c' -> runs (S (S (S n))) true (lit "inputAcceptedCallback") args c c'.
  Proof.
    intros Hl Hrun. destruct prog_eq as (acc & Hacc & EP). unfold input_accepted_callback.
    assert (p_accept P = if tc_has_in tc then Some acc else None) as Epa by (by rewrite EP). rewrite Epa. destruct (tc_has_in tc) eqn:Ehas; [|done]. intros E.
    destruct (gen_accept_map _ _ Hacc) as [Ecs Hne].
    eapply (runs_fun (S (S n)) true _ _ _ _ _ _ Go); [by apply in_accept|done| |by left].
    rewrite accept_cases_map by done.
    set (l := range_map (tc_in_merged tc)) in *.
    set (cs := map (fun sts => (enum_field sts.1, (sts.1, state_entry (hd_next sts.2)))) l).
    set (body := fun (f : gostr) (sn : gostr * gostr) => [a_log v info (EStr (lit "Accepted input on state " ++ sn.1 ++ lit " as expected.")) []; ecall [sn.2] []; SBreak]).
    assert (map (fun sts => a_accept_case v sts.1 (hd_next sts.2)) l = map (state_case body) cs) as -> by (unfold cs; by rewrite map_map).
    assert (Hcs1 : cs.*1 = acc.*1) by (subst acc; unfold cs; rewrite <- !list_fmap_compose; done).
    assert (Hfind : find_case (c_state c) acc = snd <$> find_case (c_state c) cs).
    { subst acc. unfold cs, find_case. clear. induction l as [|sts l IH]; [done|]. cbn [map]. rewrite !filter_cons. cbn [fst]. by destruct (decide _). }
    apply does_switch.
    - by apply accept_vars.
    - intros f Hf. rewrite Hcs1 in Hf. apply (wd_states _ (mo_decl _ _ _ _ _ HM)). unfold used_states. rewrite Epa. cbn. right. rewrite !elem_of_app. auto.
    - rewrite Hfind in E. pose proof (find_case_split (c_state c) cs) as Hsp. destruct (find_case (c_state c) cs) as [[s f]|].
      + cbn [fmap option_fmap option_map snd] in E. destruct Hsp as (l1 & l2 & Hl12 & _).
        assert (Hin : (c_state c, (s, f)) ∈ cs) by (rewrite Hl12, elem_of_app; right; left). apply elem_of_list_fmap in Hin as (sts & [= _ -> ->] & Hin).
        unfold body. cbn [fst snd]. eapply does_cons; [apply does_log1; [|by intros r]|].
        * apply cpp_safe_app; [by apply safeb_ok|]. apply cpp_safe_app; [|by apply safeb_ok]. apply (mo_merged _ _ _ _ _ HM). apply elem_of_list_fmap. by exists sts.
        * eapply does_cons; [|apply does_break]. apply (does_enter n true); [done|by left|done].
      + cbn in E. injection E as <-. eapply does_cons; [|by apply (does_end (S n) true _ BUG)].
        apply does_log; [by right|by apply safeb_ok|by intros r|]. intros w Hr Hv. destruct (gives_stateName n true c w Hr) as [x Hx]. exists [x]. by constructor.
  Qed.

  (** *** Output callbacks *)
  Lemma fits_std t x : fits_type t x -> match x with EnumV _ => std_type t = lit "std::string" | IntV _ => std_type t = lit "unsigned int" \/ std_type t = lit "int" end.
  Proof. destruct x; cbn [fits_type]; [intros [[-> _]|[-> _]]; [by left|by right]|by intros [-> _]]. Qed.
  Lemma gives_guard n t x y w : var_of (lit "value") (w_vars w) = Some (val x) -> fits_type t x ->
    match gen_guard y with
    | GCompare l => std_type t = lit "std::string" /\ exists s, cpp_lit l = Some (EnumV s)
    | GEqual l => (std_type t = lit "unsigned int" \/ std_type t = lit "int") /\ exists z, cpp_lit l = Some (IntV z)
    end -> gives p conv (R n) sm_self (a_guard y) w (VBool (eval_guard (gen_guard y) x)).
  Proof.
    intros Hv Hfit. apply fits_std in Hfit. pose proof (gives_var n sm_self (lit "value") w _ Hv) as Gv. unfold a_guard, gen_guard.
    assert (El : cpp_lit (cpp_value y) = cpp_lit (if is_enum_ty (value_type y) then (lit """" ++ value_string_value y) ++ lit """" else value_string_value y)).
    { unfold cpp_value. by destruct (is_enum_ty (value_type y)). }
    destruct (is_enum_ty (value_type y)).
    - intros [Ht [s Hs]]. destruct x as [z|s']; [destruct Hfit as [E|E]; rewrite Ht in E; discriminate E|].
      rewrite <- El in Hs. pose proof (gives_lit n sm_self y _ w Hs) as Gl. cbn [val] in Gl, Gv. unfold eval_guard. rewrite <- El, Hs.
      assert (Gm : gives p conv (R n) sm_self (mcall (lit "value") (lit "compare") [a_lit y]) w (VInt (if str_eqb s' s then 0 else 1))).
      { unfold gives, mcall. rewrite eval_dot. unfold gives, nm in Gv. rewrite Gv. cbn [rbind]. rewrite posts_call, (evals_gives p conv (R n) sm_self _ [VStr s] w) by (by constructor). reflexivity. }
      eapply gives_op; [exact Gm| |  |done|done].
      + unfold gives. reflexivity.
      + cbn [bin same_value fmap option_fmap option_map]. do 2 f_equal. unfold str_eqb. destruct (decide (s' = s)) as [->|Hne].
        * by rewrite !bool_decide_eq_true_2.
        * rewrite (bool_decide_eq_false_2 (s' = s)) by done. by rewrite bool_decide_eq_false_2 by congruence.
    - intros [Ht [z Hz]]. destruct x as [z'|s']; [|rewrite Hfit in Ht; destruct Ht as [E|E]; discriminate E].
      rewrite <- El in Hz. pose proof (gives_lit n sm_self y _ w Hz) as Gl. cbn [val] in Gl, Gv. unfold eval_guard. rewrite <- El, Hz.
      eapply gives_op; [exact Gv|exact Gl| |done|done]. cbn [bin same_value fmap option_fmap option_map]. do 2 f_equal.
      apply eq_true_iff_eq. rewrite Z.eqb_eq, bool_decide_eq_true. split; [by intros ->|congruence].
  Qed.
  Lemma does_chain n t x vars ts last c c' : var_of (lit "value") vars = Some (val x) -> fits_type t x -> is_running (c_status c) = true ->
    Forall (fun tr => match gen_guard (tr_value tr) with
      | GCompare l => std_type t = lit "std::string" /\ exists s, cpp_lit l = Some (EnumV s)
      | GEqual l => (std_type t = lit "unsigned int" \/ std_type t = lit "int") /\ exists z, cpp_lit l = Some (IntV z)
      end) ts ->
    does (S (S n)) true vars [last] c Go (end_test OFF_SCRIPT c) ->
    run_chain P (map (fun tr => (gen_guard (tr_value tr), state_entry (tr_next tr))) ts) x c = Some c' ->
    does (S (S n)) true vars [a_chain ts last] c Go c'.
  Proof.
    intros Hv Hf Hrun Hts Hlast. induction Hts as [|tr ts Htr _ IH]; cbn [map run_chain].
    - by intros [= <-].
    - intros E. unfold a_chain. cbn [foldr]. fold (a_chain ts last).
      apply (does_if (S (S n)) true vars _ (eval_guard (gen_guard (tr_value tr)) x)).
      + intros w Hr Hvw. apply (gives_guard _ t); [by rewrite Hvw|done|done].
      + destruct (eval_guard _ x); [|by apply IH]. apply (does_enter n true); [done|by left|done].
  Qed.
  Lemma in_out a : a ∈ tc_out tc -> a_out v a ∈ main_items v name m ctx tests.
  Proof. intros E. apply in_stm. unfold a_stm. rewrite !elem_of_app. do 3 right. left. apply elem_of_list_fmap. by exists a. Qed.
  Lemma channel_string_safe c : cpp_safe (ch_name c) -> cpp_safe (channel_string c).
  Proof.
    unfold channel_string. intros H. destruct (ch_name c) as [|x r]; [by apply safeb_ok|]. cbn [join].
    apply cpp_safe_app; [done|]. apply cpp_safe_app; [by apply safeb_ok|]. destruct (ch_kind c) as [| | |k]; try by apply safeb_ok.
    cbn [kind_string]. apply cpp_safe_app; [by apply safeb_ok|]. apply cpp_safe_app; [|by apply safeb_ok]. apply safe_digits.
  Qed.
  Lemma out_ok n a t x c c' : a ∈ tc_out tc -> types !! agg_name a = Some t -> fits_type t x -> is_running (c_status c) = true ->
    output_callback P (gen_out a) x c = Some c' -> runs (S (S (S n))) true (callback_name (agg_name a)) [val x] c c'.
  Proof.
    intros Ha Ht Hfit Hrun E w Hr. rewrite (run_call_S _ _ _ _ _ _ _ _ _ _ (d_fun _ _ _ _ _ _ HD _ _ _ _ (in_out a Ha))) by done. cbn [map snd zip a_out_params].
    set (w0 := set_vars [(lit "msg", val x)] w). set (vars := [(lit "value", val x); (lit "msg", val x)]).
    assert (G : gives p conv (R (S (S n))) sm_self (MainAst.call [convert_from (agg_name a)] [nm (lit "msg")]) w0 (val x)).
    { eapply gives_from; [exists a; split; [by right|done]|done|done|]. by apply gives_var. }
    assert (E1 : exec (S (S n)) sm_self (SDecl auto_t (lit "value") (Some (MainAst.call [convert_from (agg_name a)] [nm (lit "msg")]))) w0 = Fine Go (set_vars vars w)).
    { cbn [SpecRun.exec]. unfold gives in G. rewrite G. reflexivity. }
    rewrite (execs_cons _ _ _ _ _ _ _ _ _ E1).
    set (cs := map (fun sts => (enum_field sts.1, sts)) (range_map (ag_states a))).
    set (last := fun s : gostr => SBlock [a_log v info (EStr (lit "Unexpected value ")) [nm (lit "value"); EStr (lit " for " ++ channel_string (ag_chan a) ++ lit " in state " ++ s ++ lit ".")];
                        a_end (lit "OFF_SCRIPT")]).
    set (body := fun (f : gostr) (sts : gostr * list transition) => [a_chain sts.2 (last sts.1); SBreak]).
    assert (map (fun sts => a_out_case v (ag_chan a) sts.1 sts.2) (range_map (ag_states a)) = map (state_case body) cs) as -> by (unfold cs; by rewrite map_map).
    assert (Hcs1 : cs.*1 = (oc_cases (gen_out a)).*1) by (unfold cs, gen_out; cbn [oc_cases]; rewrite <- !list_fmap_compose; done).
    assert (Hfind : find_case (c_state c) (oc_cases (gen_out a)) = (fun sts => map (fun tr => (gen_guard (tr_value tr), state_entry (tr_next tr))) sts.2) <$> find_case (c_state c) cs).
    { unfold cs, find_case, gen_out. cbn [oc_cases]. clear. induction (range_map (ag_states a)) as [|sts l IH]; [done|]. cbn [map]. rewrite !filter_cons. cbn [fst]. by destruct (decide _). }
    destruct (mo_outs _ _ _ _ _ HM a Ha) as [Sa Ss]. assert (Sc : cpp_safe (channel_string (ag_chan a))) by (by apply channel_string_safe).
    assert (Hgo : gen_out a ∈ p_outs P) by (destruct prog_eq as (acc & _ & ->); apply elem_of_list_fmap; by exists a).
    assert (Hty : p_types P = types) by (by destruct prog_eq as (acc & _ & ->)).
    assert (Hsw : does (S (S n)) true vars [SSwitch (nm (lit "state_")) (map (state_case body) cs ++
       [(None, [a_log v info (EStr (lit "Output ")) [nm (lit "value"); EStr (lit " on " ++ channel_string (ag_chan a) ++ lit " in unexpected state "); MainAst.call [lit "stateName"] []; EStr (lit ".")];
                a_end (lit "OFF_SCRIPT")])])] c Go c').
    { apply does_switch; [done| |].
      - intros f Hf. rewrite Hcs1 in Hf. apply (wd_states _ (mo_decl _ _ _ _ _ HM)). unfold used_states. right. rewrite !elem_of_app. right. right.
        apply elem_of_list_In, in_concat. exists ((oc_cases (gen_out a)).*1). split; [apply in_map_iff; exists (gen_out a); split; [done|by apply elem_of_list_In]|by apply elem_of_list_In].
      - unfold output_callback in E. rewrite Hfind in E. pose proof (find_case_split (c_state c) cs) as Hsp. destruct (find_case (c_state c) cs) as [sts|].
        + cbn [fmap option_fmap option_map] in E. destruct Hsp as (l1 & l2 & Hl12 & _).
          assert (Hin : (c_state c, sts) ∈ cs) by (rewrite Hl12, elem_of_app; right; left). apply elem_of_list_fmap in Hin as (sts' & [= Est ->] & Hin).
          unfold body. eapply does_cons; [|apply does_break]. apply (does_chain n t x); [done|done|done| | |done].
          * apply Forall_forall. intros tr Htr. destruct (proj1 (mo_lits _ _ _ _ _ HM) (gen_out a) (enum_field sts'.1, map (fun tr => (gen_guard (tr_value tr), state_entry (tr_next tr))) sts'.2)
              (gen_guard (tr_value tr)) (state_entry (tr_next tr)) Hgo) as (t' & Ht' & Hg).
            -- unfold gen_out. cbn [oc_cases]. apply elem_of_list_fmap. by exists sts'.
            -- cbn [snd]. apply elem_of_list_fmap. by exists tr.
            -- rewrite Hty in Ht'. change (oc_chan (gen_out a)) with (agg_name a) in Ht'. rewrite Ht in Ht'. injection Ht' as <-. exact Hg.
          * apply does_block. eapply does_cons; [|by apply (does_end (S n) true _ OFF_SCRIPT)]. apply does_log; [by left|by apply safeb_ok|by intros r|].
            intros w1 _ Hv1. eexists. constructor; [apply gives_var; rewrite Hv1; reflexivity|]. constructor; [apply gives_str|constructor].
            repeat apply cpp_safe_app; try done; try (by apply safeb_ok). apply Ss. apply elem_of_list_fmap. by exists sts'.
        + cbn in E. injection E as <-. eapply does_cons; [|by apply (does_end (S n) true _ OFF_SCRIPT)]. apply does_log; [by left|by apply safeb_ok|by intros r|].
          intros w1 Hr1 Hv1. destruct (gives_stateName n true c w1 Hr1) as [y Hy]. eexists. constructor; [apply gives_var; rewrite Hv1; reflexivity|].
          constructor; [apply gives_str; repeat apply cpp_safe_app; try done; by apply safeb_ok|]. constructor; [exact Hy|]. constructor; [apply gives_str; by apply safeb_ok|constructor]. }
    destruct (Hsw (set_vars vars w) (rel_vars _ _ _ _ Hr) eq_refl) as (w' & E2 & Hr' & F). rewrite E2. cbn [rbind]. exists (set_vars (w_vars w) w').
    split; [done|]. split; [by apply rel_vars|]. destruct F. by split.
  Qed.

  (** ** Calls from main *)
  Definition stm_obj : cval := VObj SM [lit "stm"].
  Lemma gives_evals n this l vs w : Forall2 (fun e x => gives p conv (R n) this e w x) l vs -> evals n this l w = Fine vs w.
  Proof. apply evals_gives. Qed.
  Lemma main_call n f args vs c c' w : f ∈ sm_names m -> Forall2 (fun e x => gives p conv (R n) None e w x) args vs -> rel true c w ->
    var_of (lit "stm") (w_vars w) = Some stm_obj -> runs n true f vs c c' ->
    exists w', eval n None (mcall (lit "stm") f args) w = Fine VUnit w' /\ rel true c' w' /\ frame w w'.
  Proof.
    intros Hf Ha Hr Hv Hruns. destruct (Hruns w Hr) as (w' & E & Hr' & F). exists w'. split; [|done]. unfold mcall. rewrite eval_dot.
    pose proof (gives_var n None (lit "stm") w _ Hv) as G. unfold gives, nm in G. rewrite G. cbn [rbind]. rewrite posts_call, (gives_evals _ _ _ _ _ Ha). cbn [rbind].
    unfold call_member, stm_obj. rewrite (d_sm _ _ _ _ _ _ HD), bool_decide_eq_true_2 by done. change (Some (SM, [lit "stm"])) with sm_self. change [SM; f] with (SMq f).
    rewrite E. reflexivity.
  Qed.
  Lemma getStatus_not : lit "getStatus" ∉ sm_names m.
  Proof.
    unfold sm_names, fixed_names, opt_names. cbv zeta. rewrite !elem_of_app. intros [H|[H|[H|H]]].
    - revert H. rewrite !elem_of_cons, elem_of_nil. intros [H|[H|[H|[H|[]]]]]; discriminate H.
    - destruct H as [H|H]; [destruct (tc_first_state_has_in _)|destruct (tc_has_in _)]; try (by apply elem_of_nil in H); apply elem_of_list_singleton in H; discriminate H.
    - apply elem_of_list_fmap in H as (a & H & _). unfold callback_name in H. apply (f_equal reverse) in H. rewrite reverse_app in H. discriminate H.
    - apply elem_of_list_fmap in H as (s & H & _). discriminate H.
  Qed.
  Lemma gives_get_status n c w : rel true c w -> var_of (lit "stm") (w_vars w) = Some stm_obj -> gives p conv (R n) None get_status w (v_status (c_status c)).
  Proof.
    intros Hr Hv. unfold gives, get_status, mcall. rewrite eval_dot. pose proof (gives_var n None (lit "stm") w _ Hv) as G. unfold gives, nm in G. rewrite G. cbn [rbind].
    rewrite posts_call. cbn [SpecRun.evals rbind]. unfold call_member, stm_obj. rewrite (d_sm _ _ _ _ _ _ HD), bool_decide_eq_false_2 by apply getStatus_not.
    rewrite (d_sm_class _ _ _ _ _ _ HD). rewrite path_eqb_refl, str_eqb_refl. cbn [andb]. change ([lit "stm"] ++ [lit "status_"]) with (stm_key (lit "status_")).
    rewrite (r_status _ _ _ Hr). reflexivity.
  Qed.

  (** ** Construction *)
  Definition construct_fields n this at_ k := fix fields (ms : list member) (w : world) : result unit :=
     match ms with
     | [] => Fine tt w
     | MField t x i :: r =>
       '(_, w) <~ (match i, t with
                  | Some e, _ => '(v, w) <~ eval n this e w; Fine tt (set_fields (<[at_ ++ [x] := v]> (w_fields w)) w)
                  | None, CType _ (BName [d]) [] => '(_, w) <~ construct p conv (R n) this k d (at_ ++ [x]) w; Fine tt (set_fields (<[at_ ++ [x] := VObj d (at_ ++ [x])]> (w_fields w)) w)
                  | None, _ => Fine tt (set_fields (<[at_ ++ [x] := VNew t]> (w_fields w)) w)
                  end);
       fields r w
     | _ :: r => fields r w
     end.
  Definition base_fields (b : option (list gostr)) at_ w := match b with
                   | Some q => if path_eqb q [lit "rtcg"; lit "TestCase"]
                               then set_fields (<[at_ ++ [lit "status_"] := VEnum [lit "rtcg"; lit "Status"; lit "WAIT_START"]]> (w_fields w)) w else w
                   | None => w
                   end.
  Lemma construct_S n this k cl at_ w b ms : find_class p cl = Some (b, ms) ->
    construct p conv (R n) this (S k) cl at_ w = construct_fields n this at_ k ms (base_fields b at_ w).
  Proof. intros H. cbn [construct]. rewrite H. reflexivity. Qed.
  Lemma fields_app n this at_ k l1 l2 w w1 : construct_fields n this at_ k l1 w = Fine tt w1 -> construct_fields n this at_ k (l1 ++ l2) w = construct_fields n this at_ k l2 w1.
  Proof.
    revert w. induction l1 as [|x l1 IH]; intros w; [by intros [= ->]|]. destruct x as [| |t x i]; cbn [app construct_fields]; [apply IH|apply IH|].
    fold (construct_fields n this at_ k). destruct (match i with Some _ => _ | None => _ end) as [u w2| | |]; cbn [rbind]; [apply IH|done..].
  Qed.
  Lemma fields_skip n this at_ k l w : Forall (fun x => match x with MField _ _ _ => False | _ => True end) l -> construct_fields n this at_ k l w = Fine tt w.
  Proof. induction 1 as [|x l Hx _ IH]; [done|]. by destruct x. Qed.
  (** Only the fields differ. *)
  Definition same_but_fields (w w' : world) : Prop := w' = set_fields (w_fields w') w.
  Lemma verdict_fields n at_ k ts w : exists w', construct_fields n None at_ k (map (fun t => MField outcome_t (fld t) (Some (outcome_q (lit "UNSET")))) ts) w = Fine tt w' /\
    same_but_fields w w' /\ (forall t, t ∈ ts -> w_fields w' !! (at_ ++ [fld t]) = Some (v_outcome (lit "UNSET"))) /\
    (forall q, q ∉ map (fun t => at_ ++ [fld t]) ts -> w_fields w' !! q = w_fields w !! q).
  Proof.
    revert w. induction ts as [|t ts IH]; intros w; [exists w; split_and!; [done|by destruct w|by intros t Ht%elem_of_nil|done]|]. cbn [map construct_fields]. fold (construct_fields n None at_ k).
    pose proof (gives_outcome n None (lit "UNSET") w ltac:(unfold outcome_name; rewrite !elem_of_cons; auto)) as G. unfold gives in G. rewrite G. cbn [rbind].
    set (w1 := set_fields _ w). destruct (IH w1) as (w' & E & S & H1 & H2). exists w'. split; [done|]. split; [|split].
    - unfold same_but_fields in *. rewrite S. done.
    - intros t' Ht'. destruct (decide (t' ∈ ts)) as [Hin|Hin]; [by apply H1|]. apply elem_of_cons in Ht' as [->|]; [|done]. rewrite H2; [cbn; by rewrite lookup_insert|].
      intros Hx. apply elem_of_list_fmap in Hx as (t2 & Hx & Ht2). apply app_inv_head in Hx. injection Hx as Hx. apply fld_inj in Hx. by subst.
    - intros q Hq. apply not_elem_of_cons in Hq as [Hq1 Hq2]. rewrite H2 by done. cbn. by rewrite lookup_insert_ne by congruence.
  Qed.
  Lemma pub_fields n at_ k (l : list agg) w : exists w', construct_fields n None at_ k (map (fun a => MField pub_t (fld (publisher_name (agg_name a))) None) l) w = Fine tt w' /\
    same_but_fields w w' /\ (forall a, a ∈ l -> is_Some (w_fields w' !! (at_ ++ [fld (publisher_name (agg_name a))]))) /\
    (forall q, q ∉ map (fun a => at_ ++ [fld (publisher_name (agg_name a))]) l -> w_fields w' !! q = w_fields w !! q).
  Proof.
    revert w. induction l as [|a l IH]; intros w; [exists w; split_and!; [done|by destruct w|by intros t Ht%elem_of_nil|done]|]. cbn [map construct_fields]. fold (construct_fields n None at_ k).
    cbn [pub_t plain_t rbind]. set (w1 := set_fields _ w). destruct (IH w1) as (w' & E & S & H1 & H2). exists w'. split; [done|]. split; [|split].
    - unfold same_but_fields in *. rewrite S. done.
    - intros a' Ha'. destruct (decide (at_ ++ [fld (publisher_name (agg_name a'))] ∈ map (fun a => at_ ++ [fld (publisher_name (agg_name a))]) l)) as [Hin|Hin].
      + apply elem_of_list_fmap in Hin as (a2 & -> & Ha2). by apply H1.
      + apply elem_of_cons in Ha' as [->|Ha']; [|by destruct Hin; apply elem_of_list_fmap; exists a']. rewrite H2 by done. cbn. rewrite lookup_insert. by eexists.
    - intros q Hq. apply not_elem_of_cons in Hq as [Hq1 Hq2]. rewrite H2 by done. cbn. by rewrite lookup_insert_ne by congruence.
  Qed.
  Definition c0 : cpp := Cpp WAIT_START (p_state0 P) (initial_verdict P) [].
  Lemma initial_unset t : t ∈ tests -> initial_verdict P !! t = Some (lit "UNSET").
  Proof.
    intros Ht. unfold initial_verdict. destruct prog_eq as (acc & _ & ->). cbn [p_tests]. clear -Ht. induction tests as [|x l IH]; [by apply elem_of_nil in Ht|]. cbn [map]. rewrite list_to_map_cons.
    destruct (decide (x = t)) as [->|Hn]; [by rewrite lookup_insert|]. rewrite lookup_insert_ne by done. apply IH. by apply elem_of_cons in Ht as [->|].
  Qed.
  Lemma state0_in : p_state0 P ∈ p_enum P.
  Proof. apply (wd_states _ (mo_decl _ _ _ _ _ HM)). unfold used_states. left. Qed.
  Lemma construct_ok n k w : w_down w = false -> filter (fun e => input_effect v e = true) (w_out w) = [] ->
    exists w', construct p conv (R n) None (S (S k)) SM [lit "stm"] w = Fine tt w' /\ rel false c0 w' /\ same_but_fields w w'.
  Proof.
    intros Hd Ho. rewrite (construct_S _ _ _ _ _ _ _ _ (d_sm_class _ _ _ _ _ _ HD)). unfold base_fields. rewrite path_eqb_refl.
    set (w1 := set_fields _ w). unfold a_members.
    rewrite (fields_app _ _ _ _ _ _ w1 w1) by (apply fields_skip; repeat constructor).
    rewrite (fields_app _ _ _ _ _ _ w1 w1) by (apply fields_skip; destruct (tc_first_state_has_in _); repeat constructor).
    rewrite (fields_app _ _ _ _ _ _ w1 w1) by (apply fields_skip; destruct (tc_has_in _); repeat constructor).
    rewrite (fields_app _ _ _ _ _ _ w1 w1) by (apply fields_skip; apply Forall_forall; intros x Hx; by apply elem_of_list_fmap in Hx as (a & -> & _)).
    cbn [app construct_fields]. fold (construct_fields n None [lit "stm"] (S k)). cbn [plain_t].
    change [lit "stm"; lit "verdict_"] with vd_at. change (lit "Verdict") with VD. change [lit "stm"; lit "state_"] with (stm_key (lit "state_")).
    rewrite (construct_S _ _ _ _ _ _ _ _ (d_vd_class _ _ _ _ _ _ HD)). cbn [base_fields]. unfold a_verdict_members.
    rewrite (fields_app _ _ _ _ _ _ w1 w1) by (apply fields_skip; repeat constructor).
    rewrite (fields_app _ _ _ _ _ _ w1 w1) by (apply fields_skip; apply Forall_forall; intros x Hx; by apply elem_of_list_fmap in Hx as (a & -> & _)).
    rewrite (fields_app _ _ _ _ _ _ w1 w1) by (apply fields_skip; repeat constructor).
    destruct (verdict_fields n vd_at k tests w1) as (w2 & E2 & S2 & H2 & K2). rewrite E2. cbn [rbind].
    set (w3 := set_fields (<[vd_at := VObj _ vd_at]> (w_fields w2)) w2).
    pose proof (gives_state n None (p_state0 P) w3 state0_in) as G. unfold gives in G.
    assert (Es0 : state_q (s0_of m) = nm2 (lit "State") (p_state0 P)) by (unfold state_q; by destruct prog_eq as (acc & _ & ->)). rewrite Es0, G. cbn [rbind].
    set (w4 := set_fields (<[stm_key (lit "state_") := _]> (w_fields w3)) w3).
    assert (Hpubs : exists w5, construct_fields n None [lit "stm"] (S k) (match v with VRos => map (fun a => MField pub_t (fld (publisher_name (agg_name a))) None) (tc_in tc) | _ => [] end) w4 = Fine tt w5 /\
      same_but_fields w4 w5 /\ (v = VRos -> forall a, a ∈ tc_in tc -> is_Some (w_fields w5 !! stm_key (fld (publisher_name (agg_name a))))) /\
      (forall q, q ∉ map (fun a => [lit "stm"] ++ [fld (publisher_name (agg_name a))]) (tc_in tc) -> w_fields w5 !! q = w_fields w4 !! q)).
    { destruct v; [exists w4; split_and!; [done|by destruct w4|done|done]| |exists w4; split_and!; [done|by destruct w4|done|done]].
      destruct (pub_fields n [lit "stm"] (S k) (tc_in tc) w4) as (w5 & E5 & S5 & H5 & K5). exists w5. split_and!; [done|done|intros _ a Ha; by apply H5|done]. }
    destruct Hpubs as (w5 & E5 & S5 & H5 & K5). rewrite (fields_app _ _ _ _ _ _ w4 w5) by exact E5. rewrite fields_skip.
    2: { apply Forall_app. split; [apply Forall_forall; intros x Hx; by apply elem_of_list_fmap in Hx as (s & -> & _)|repeat constructor]. }
    exists w5. split; [done|].
    assert (Hne : forall x, take 5 (reverse x) <> lit "_bup_" -> stm_key x ∉ map (fun a => [lit "stm"] ++ [fld (publisher_name (agg_name a))]) (tc_in tc)).
    { intros x Hx Hin. apply elem_of_list_fmap in Hin as (a & [= E] & _). symmetry in E. revert E. by apply pub_fld_ne. }
    assert (Hne2 : forall t, vd_at ++ [fld t] ∉ map (fun a => [lit "stm"] ++ [fld (publisher_name (agg_name a))]) (tc_in tc)).
    { intros t Hin. apply elem_of_list_fmap in Hin as (a & E & _). discriminate E. }
    assert (Hvt : forall x, stm_key x ∉ map (fun t => vd_at ++ [fld t]) tests).
    { intros x Hin. apply elem_of_list_fmap in Hin as (t & E & _). by apply stm_key_vd in E. }
    assert (Ew : same_but_fields w w5).
    { unfold same_but_fields in *. rewrite S5. unfold w4, w3. rewrite S2. reflexivity. }
    split; [|done]. split.
    - rewrite K5 by (by apply Hne). cbn. rewrite lookup_insert_ne, lookup_insert_ne by done. rewrite K2 by apply Hvt. cbn. by rewrite lookup_insert.
    - rewrite K5 by (by apply Hne). cbn. by rewrite lookup_insert.
    - rewrite K5 by (by apply Hne). cbn. rewrite lookup_insert_ne by done. by rewrite lookup_insert.
    - intros t Ht. exists (lit "UNSET"). split; [by apply initial_unset|]. split; [|unfold outcome_name; rewrite !elem_of_cons; auto].
      rewrite K5 by apply Hne2. cbn [w4 w3 set_fields w_fields]. rewrite lookup_insert_ne by apply stm_key_vd. rewrite lookup_insert_ne by (intros E; apply (f_equal length) in E; discriminate E). by apply H2.
    - rewrite Ew. cbn [set_fields w_out c0 c_sent map]. done.
    - intros _. rewrite Ew. cbn [set_fields w_down c0 c_status is_running negb]. done.
    - intros Hv a Ha. destruct (H5 Hv a Ha) as [x Hx]. exists x. split; [done|done].
    - apply state0_in.
  Qed.

  (** The constructor. *)
  Lemma in_ctor : a_ctor v tc (s0_of m) ∈ main_items v name m ctx tests.
  Proof. apply in_stm. unfold a_stm. rewrite !elem_of_app, !elem_of_cons. auto 20. Qed.
  Definition topics : list cval := match v with VRos => map (fun a => VTopic (topic_name (agg_name a))) (tc_in tc) | _ => [] end.
  Definition ctor_vars : list (gostr * cval) := zip (map snd (a_ctor_params v (tc_in tc))) topics.
  Lemma pub_same a b : publisher_name a = publisher_name b -> topic_name a = topic_name b.
  Proof. unfold publisher_name. by intros H%app_inv_tail. Qed.
  Lemma zip_topics (l : list agg) a rest : a ∈ l ->
    var_of (publisher_name (agg_name a)) (zip (map (fun a => publisher_name (agg_name a)) l) (map (fun a => VTopic (topic_name (agg_name a))) l) ++ rest) = Some (VTopic (topic_name (agg_name a))).
  Proof.
    induction l as [|b l IH]; intros Ha; [by apply elem_of_nil in Ha|]. cbn [map zip app var_of zip_with].
    destruct (decide (publisher_name (agg_name b) = publisher_name (agg_name a))) as [E|E].
    - rewrite E, str_eqb_refl. by rewrite (pub_same _ _ E).
    - rewrite str_eqb_ne by done. apply IH. apply elem_of_cons in Ha as [->|]; [done|done].
  Qed.
  Lemma ctor_var x : take 4 (reverse x) <> lit "bup_" -> var_of x ctor_vars = None.
  Proof.
    intros H. apply var_of_None. unfold ctor_vars, topics, a_ctor_params. destruct v; try apply not_elem_of_nil. rewrite map_map. cbn [snd].
    clear -H. induction (tc_in tc) as [|a l IH]; [apply not_elem_of_nil|]. cbn [map zip zip_with fmap list_fmap fst]. apply not_elem_of_cons. split; [|exact IH].
    intros ->. apply H. unfold publisher_name. rewrite reverse_app. done.
  Qed.
  Lemma rel_no_pubs pubs c w : v <> VRos -> rel pubs c w -> rel true c w.
  Proof. intros Hv [H1 H2 H3 H4 H5 H6 H7 H8]. split; try done. Qed.
  Lemma assign_pubs n c (l : list agg) : v = VRos -> (forall a, a ∈ l -> a ∈ tc_in tc) -> forall w done_, rel false c w -> w_vars w = ctor_vars ->
    (forall a, a ∈ done_ -> w_fields w !! stm_key (fld (publisher_name (agg_name a))) = Some (VTopic (topic_name (agg_name a)))) ->
    exists w', execs n sm_self (map (fun a => SAssign (nm (fld (publisher_name (agg_name a)))) (nm (publisher_name (agg_name a)))) l) w = Fine Go w' /\ rel false c w' /\ frame w w' /\
      forall a, a ∈ done_ ++ l -> w_fields w' !! stm_key (fld (publisher_name (agg_name a))) = Some (VTopic (topic_name (agg_name a))).
  Proof.
    intros Ev. induction l as [|a l IH]; intros Hl w done_ Hr Hv Hd.
    { exists w. split; [done|]. split; [done|]. split; [done|]. by rewrite app_nil_r. }
    cbn [map]. assert (Ha : a ∈ tc_in tc) by (apply Hl; left).
    assert (E : exec n sm_self (SAssign (nm (fld (publisher_name (agg_name a)))) (nm (publisher_name (agg_name a)))) w =
      Fine Go (set_fields (<[stm_key (fld (publisher_name (agg_name a))) := VTopic (topic_name (agg_name a))]> (w_fields w)) w)).
    { eapply exec_assign.
      - apply gives_var. rewrite Hv. unfold ctor_vars, topics, a_ctor_params. rewrite Ev, map_map. cbn [snd]. rewrite <- (app_nil_r (zip _ _)). by apply zip_topics.
      - apply store_field.
        + rewrite Hv. apply ctor_var. unfold fld, publisher_name. rewrite !reverse_app. done.
        + destruct (r_pubs _ _ _ Hr Ev a Ha) as (x & Hx & _). by eexists. }
    rewrite (execs_cons _ _ _ _ _ _ _ _ _ E). set (w1 := set_fields _ w).
    assert (Hne : forall x, take 5 (reverse x) <> lit "_bup_" -> stm_key (fld (publisher_name (agg_name a))) <> stm_key x).
    { intros x Hx [= E']. revert E'. by apply pub_fld_ne. }
    assert (Hr1 : rel false c w1).
    { destruct Hr as [H1 H2 H3 H4 H5 H6 H7 H8]. split; cbn [w1 set_fields w_fields w_out w_down]; try done.
      - by rewrite lookup_insert_ne by (by apply Hne).
      - by rewrite lookup_insert_ne by (by apply Hne).
      - by rewrite lookup_insert_ne by (by apply Hne).
      - intros t Ht. rewrite lookup_insert_ne by apply stm_key_vd. by apply H4.
      - intros _ b Hb. destruct (decide (stm_key (fld (publisher_name (agg_name b))) = stm_key (fld (publisher_name (agg_name a))))) as [->|Hn].
        + rewrite lookup_insert. by eexists.
        + rewrite lookup_insert_ne by congruence. by apply H7. }
    destruct (IH ltac:(intros b Hb; apply Hl; by right) w1 (done_ ++ [a]) Hr1 Hv) as (w' & E' & Hr' & F & Hall).
    { intros b Hb. cbn [w1 set_fields w_fields]. destruct (decide (stm_key (fld (publisher_name (agg_name b))) = stm_key (fld (publisher_name (agg_name a))))) as [Eq|Hn].
      - rewrite Eq, lookup_insert. injection Eq as Eq. apply fld_inj in Eq. by rewrite (pub_same _ _ Eq).
      - rewrite lookup_insert_ne by congruence. apply elem_of_app in Hb as [Hb|Hb]; [by apply Hd|]. apply elem_of_list_singleton in Hb as ->. done. }
    exists w'. split; [done|]. split; [done|]. split; [eapply frame_trans; [|exact F]; by split|]. intros b Hb. apply Hall. rewrite <- app_assoc. exact Hb.
  Qed.
  Lemma initial_no_send : tc_first_state_has_in tc = false -> forall e x, find_entry P (p_initial P) = Some e -> en_act e <> ActIn (Some x).
  Proof.
    intros Ef e x. destruct prog_eq as (acc & _ & ->). unfold find_entry. cbn [p_initial p_entries]. pose proof (mo_prog _ _ _ _ _ HM) as HP. unfold gen_program in HP. unfold s0_of.
    destruct (m_states m) as [|s0 r] eqn:Es; [done|]. cbn [map]. rewrite filter_cons_True by done. cbn [head]. intros [= <-]. unfold gen_entry. cbn [en_act].
    assert (Hin : state_has_in s0 = false).
    { pose proof (proj1 (proj2 (proj2 (proj2 (proj2 (make_transitions_spec m)))))) as E. rewrite E in Ef. unfold first_state_has_in in Ef. by rewrite Es in Ef. }
    rewrite Hin. by destruct (verdict_is OFail (st_verdict s0)).
  Qed.
  Lemma ctor_ok n c w : start P = Some c -> rel false c0 w -> exists w', R (S (S (S n))) sm_self (SMq SM) topics w = Fine VUnit w' /\ rel true c w' /\ frame w w'.
  Proof.
    intros Hst Hr. rewrite (run_call_S _ _ _ _ _ _ _ _ _ _ (d_fun _ _ _ _ _ _ HD _ _ _ _ in_ctor)).
    2: { unfold a_ctor_params, topics. destruct v; try done. by rewrite !map_length. }
    fold ctor_vars. set (w0 := set_vars ctor_vars w). pose proof (rel_vars _ _ _ ctor_vars Hr : rel false c0 w0) as Hr0.
    assert (Hfirst : does (S (S n)) false ctor_vars (if tc_first_state_has_in tc then [set_status (lit "WAIT_START")] else [ecall [state_entry (s0_of m)] []]) c0 Go c).
    { unfold start in Hst. destruct prog_eq as (acc & _ & EP). assert (Ed : p_delay P = tc_first_state_has_in tc) by (by rewrite EP). assert (Ei : p_initial P = state_entry (s0_of m)) by (by rewrite EP).
      rewrite Ed in Hst. destruct (tc_first_state_has_in tc) eqn:Ef.
      - injection Hst as <-. exact (does_set_status (S (S n)) false ctor_vars WAIT_START c0 (ctor_var (lit "status_") ltac:(done)) (fun _ => eq_refl)).
      - rewrite <- Ei. apply (does_enter n false); [done| |done]. right. by apply initial_no_send. }
    destruct (Hfirst w0 Hr0 eq_refl) as (w1 & E1 & Hr1 & F1). rewrite (execs_app _ _ _ _ _ _ _ _ _ E1).
    assert (Hrest : exists w', execs (S (S n)) sm_self match v with
           | VRos => map (fun a => SAssign (nm (fld (publisher_name (agg_name a)))) (nm (publisher_name (agg_name a)))) (tc_in tc) | _ => [] end w1 = Fine Go w' /\ rel true c w' /\ frame w1 w').
    { destruct (decide (v = VRos)) as [Ev|Ev].
      - destruct (assign_pubs (S (S n)) c (tc_in tc) Ev ltac:(done) w1 [] Hr1 ltac:(by rewrite (fr_vars _ _ F1)) ltac:(by intros a Ha%elem_of_nil)) as (w' & E' & Hr' & F & Hall).
        exists w'. split; [by rewrite Ev|]. split; [|done]. destruct Hr' as [H1 H2 H3 H4 H5 H6 H7 H8]. split; try done. intros _ a Ha. eexists. split; [by apply Hall|done].
      - exists w1. split; [by destruct v|]. split; [by eapply rel_no_pubs|done]. }
    destruct Hrest as (w' & E' & Hr' & F'). rewrite E'. cbn [rbind]. exists (set_vars (w_vars w) w'). split; [done|]. split; [by apply rel_vars|].
    pose proof (frame_trans _ _ _ F1 F') as []. by split.
  Qed.

  (** ** The end of main *)
  Definition outs (l : list effect) (w : world) : world := World (w_fields w) (w_vars w) (w_in w) (w_out w ++ l) (w_subs w) (w_timers w) (w_down w).
  Lemma outs_nil w : outs [] w = w.
  Proof. unfold outs. rewrite app_nil_r. by destruct w. Qed.
  Lemma outs_app l1 l2 w : outs l2 (outs l1 w) = outs (l1 ++ l2) w.
  Proof. unfold outs. cbn. by rewrite app_assoc. Qed.
  Lemma outs_put e w : put_out e w = outs [e] w.
  Proof. done. Qed.
  Definition outcome_in (c : cpp) (t : gostr) : gostr := default [] (c_verdict c !! t).
  Definition outcome_line (c : cpp) (t : gostr) : effect := info_line v [VStr (lit "  " ++ t ++ lit " = "); v_outcome (outcome_in c t)].
  Lemma dump_lines n c (ts : list gostr) : (forall t, t ∈ ts -> t ∈ tests) -> forall w, rel true c w -> w_vars w = [] ->
    execs n vd_self (map (fun t => a_log v info (EStr (lit "  " ++ t ++ lit " = ")) [nm (fld t)]) ts) w = Fine Go (outs (map (outcome_line c) ts) w).
  Proof.
    induction ts as [|t ts IH]; intros Ht w Hr Hv; [cbn; by rewrite outs_nil|]. cbn [map].
    assert (Hin : t ∈ tests) by (apply Ht; left). destruct (r_tests _ _ _ Hr t Hin) as (o & H1 & H2 & _).
    assert (E : exec n vd_self (a_log v info (EStr (lit "  " ++ t ++ lit " = ")) [nm (fld t)]) w = Fine Go (put_out (outcome_line c t) w)).
    { rewrite (log_ok n vd_self info _ _ [v_outcome o] w).
      - replace o with (outcome_in c t); [done|]. unfold outcome_in. etransitivity; [exact (f_equal (default []) H1)|done].
      - by left.
      - apply cpp_safe_app; [by apply safeb_ok|]. apply cpp_safe_app; [by apply (mo_tests _ _ _ _ _ HM)|by apply safeb_ok].
      - constructor; [|constructor]. apply gives_field; [by rewrite Hv|done]. }
    rewrite (execs_cons _ _ _ _ _ _ _ _ _ E). rewrite IH.
    - by rewrite outs_put, outs_app.
    - intros t' Ht'. apply Ht. by right.
    - apply rel_out; [done|]. unfold outcome_line. apply log_quiet. by intros r.
    - done.
  Qed.
  Lemma in_dump : a_dump v tests ∈ main_items v name m ctx tests.
  Proof. rewrite main_items_eq, !elem_of_app. right. right. left. unfold a_verdict. cbn. right. left. Qed.
  Lemma in_getVerdict : a_getVerdict ∈ main_items v name m ctx tests.
  Proof. apply in_stm. unfold a_stm. rewrite !elem_of_app, !elem_of_cons. auto 20. Qed.
  Definition dumped (c : cpp) : list effect := info_line v [VStr (lit "Final outcomes: ")] :: map (outcome_line c) tests.
  Lemma dump_ok n c w : rel true c w -> R (S n) vd_self [VD; lit "dump"] [] w = Fine VUnit (outs (dumped c) w).
  Proof.
    intros Hr. change VD with (lit "Verdict"). rewrite (run_call_S _ _ _ _ _ _ _ _ _ _ (d_fun _ _ _ _ _ _ HD _ _ _ _ in_dump)) by done. cbn [zip map app].
    set (w0 := set_vars [] w). pose proof (rel_vars _ _ _ [] Hr : rel true c w0) as Hr0.
    assert (E : exec n vd_self (a_log v info (EStr (lit "Final outcomes: ")) []) w0 = Fine Go (put_out (info_line v [VStr (lit "Final outcomes: ")]) w0)).
    { rewrite (log_ok n vd_self info _ _ [] w0); [done|by left|by apply safeb_ok|constructor]. }
    rewrite (execs_cons _ _ _ _ _ _ _ _ _ E). rewrite dump_lines with (c := c); [|done| |done].
    - cbn [rbind]. by rewrite outs_put, outs_app.
    - apply rel_out; [done|]. apply log_quiet. by intros r.
  Qed.
  Lemma getVerdict_ok n c w : rel true c w -> R (S n) sm_self (SMq (lit "getVerdict")) [] w = Fine (VObj VD vd_at) w.
  Proof.
    intros Hr. rewrite (run_call_S _ _ _ _ _ _ _ _ _ _ (d_fun _ _ _ _ _ _ HD _ _ _ _ in_getVerdict)) by done. cbn [zip map].
    pose proof (gives_field n SM [lit "stm"] (lit "verdict_") (set_vars [] w) (VObj VD vd_at) eq_refl (r_verdict _ _ _ Hr)) as G. unfold gives in G.
    cbn [SpecRun.execs SpecRun.exec]. unfold sm_self. rewrite G. cbn [rbind]. by rewrite set_vars_vars, set_vars_id.
  Qed.
  Definition finished (c : cpp) : effect := info_line v [VStr (lit "Test " ++ name ++ lit " finished: "); v_status (c_status c); VStr (lit ".")].
  Lemma final_ok n c w : cpp_safe name -> rel true c w -> var_of (lit "stm") (w_vars w) = Some stm_obj ->
    execs (S n) None (a_final v name) w = Fine (Ret (VInt (exit_code (c_status c)))) (outs (finished c :: dumped c) (declare (lit "status") (v_status (c_status c)) w)).
  Proof.
    intros Hn Hr Hv. unfold a_final. set (w1 := declare (lit "status") (v_status (c_status c)) w).
    assert (E1 : exec (S n) None (SDecl auto_t (lit "status") (Some get_status)) w = Fine Go w1).
    { cbn [SpecRun.exec]. pose proof (gives_get_status (S n) c w Hr Hv) as G. unfold gives in G. rewrite G. done. }
    rewrite (execs_cons _ _ _ _ _ _ _ _ _ E1). assert (Hr1 : rel true c w1) by (by apply rel_vars).
    assert (G1 : forall l, gives p conv (R (S n)) None (nm (lit "status")) (outs l w1) (v_status (c_status c))) by (intros l; by apply gives_var).
    assert (E2 : exec (S n) None (a_log v info (EStr (lit "Test " ++ name ++ lit " finished: ")) [nm (lit "status"); EStr (lit ".")]) w1 = Fine Go (put_out (finished c) w1)).
    { rewrite (log_ok (S n) None info _ _ [v_status (c_status c); VStr (lit ".")] w1); [done|by left| |].
      - apply cpp_safe_app; [by apply safeb_ok|]. apply cpp_safe_app; [done|by apply safeb_ok].
      - constructor; [specialize (G1 []); by rewrite outs_nil in G1|]. constructor; [apply gives_str; by apply safeb_ok|constructor]. }
    rewrite (execs_cons _ _ _ _ _ _ _ _ _ E2). set (w2 := put_out (finished c) w1).
    assert (Hr2 : rel true c w2) by (apply rel_out; [done|]; apply log_quiet; by intros r).
    assert (E3 : exec (S n) None (SExpr (EPost (nm (lit "stm")) [XDot (lit "getVerdict"); XCall []; XDot (lit "dump"); XCall []])) w2 = Fine Go (outs (dumped c) w2)).
    { eapply exec_expr. unfold nm. rewrite eval_dot. assert (Hv2 : var_of (lit "stm") (w_vars w2) = Some stm_obj) by exact Hv.
      pose proof (gives_var (S n) None (lit "stm") w2 _ Hv2) as G. unfold gives, nm in G. rewrite G. cbn [rbind]. rewrite posts_call. cbn [SpecRun.evals rbind].
      unfold call_member at 1. unfold stm_obj. rewrite (d_sm _ _ _ _ _ _ HD), bool_decide_eq_true_2.
      2: { unfold sm_names, fixed_names. rewrite !elem_of_app, !elem_of_cons. auto 20. }
      change (Some (SM, [lit "stm"])) with sm_self. change [SM; lit "getVerdict"] with (SMq (lit "getVerdict")). rewrite (getVerdict_ok n c w2 Hr2). cbn [rbind].
      rewrite posts_call. cbn [SpecRun.evals rbind]. unfold call_member. rewrite (d_vd _ _ _ _ _ _ HD), bool_decide_eq_true_2 by left.
      change (Some (VD, vd_at)) with vd_self. rewrite (dump_ok n c w2 Hr2). reflexivity. }
    rewrite (execs_cons _ _ _ _ _ _ _ _ _ E3). set (w3 := outs (dumped c) w2).
    assert (E4 : exec (S n) None (SReturn (Some (MainAst.call [lit "rtcg"; lit "status"; lit "exitCode"] [nm (lit "status")]))) w3 = Fine (Ret (VInt (exit_code (c_status c)))) w3).
    { cbn [SpecRun.exec]. unfold MainAst.call. rewrite eval_call by done. rewrite (gives_evals (S n) None [nm (lit "status")] [v_status (c_status c)] w3).
      2: { constructor; [|constructor]. specialize (G1 ([finished c] ++ dumped c)). unfold w3, w2. rewrite outs_put, outs_app. exact G1. }
      cbn [rbind]. change (call_named p conv (R (S n)) None [lit "rtcg"; lit "status"; lit "exitCode"] [v_status (c_status c)] w3) with (opt ((fun s => VInt (exit_code s)) <$> status_of (v_status (c_status c))) w3).
      rewrite status_of_v. reflexivity. }
    cbn [SpecRun.execs]. rewrite E4. cbn [rbind]. unfold w3, w2. by rewrite outs_put, outs_app.
  Qed.

  (** ** The prompts of the animate variant *)
  Lemma type_name_safe c : cpp_safe (type_name ctx c).
  Proof.
    unfold type_name. destruct (cx_types ctx !! c) as [[t o]|]; [|by apply safeb_ok]. cbn [fst].
    unfold ty_string. repeat match goal with |- context [if ?b then _ else _] => destruct b end; by apply safeb_ok.
  Qed.
  Definition quiet (l : list effect) : Prop := Forall (fun e => input_effect v e = false) l.
  Lemma rel_outs pubs c w l : quiet l -> rel pubs c w -> rel pubs c (outs l w).
  Proof.
    intros Hq. revert w. induction l as [|e l IH]; intros w Hr; [by rewrite outs_nil|]. apply Forall_cons in Hq as [He Hq].
    change (e :: l) with ([e] ++ l). rewrite <- outs_app. apply IH; [done|]. rewrite <- outs_put. by apply rel_out.
  Qed.
  Definition says (n : nat) (vars : list (gostr * cval)) (l : list stmt) : Prop :=
    forall w, w_vars w = vars -> exists es, quiet es /\ execs n None l w = Fine Go (outs es w).
  Lemma says_nil n vars : says n vars [].
  Proof. intros w _. exists []. split; [constructor|]. by rewrite outs_nil. Qed.
  Lemma says_app n vars l1 l2 : says n vars l1 -> says n vars l2 -> says n vars (l1 ++ l2).
  Proof.
    intros H1 H2 w Hv. destruct (H1 w Hv) as (e1 & Q1 & E1). destruct (H2 (outs e1 w) Hv) as (e2 & Q2 & E2). exists (e1 ++ e2).
    split; [by apply Forall_app|]. rewrite (execs_app _ _ _ _ _ _ _ _ _ E1), E2, outs_app. done.
  Qed.
  Lemma cout_says n s w : is_Some (str_body (s ++ [byte 34])) -> exists x, exec n None (cout s) w = Fine Go (put_out (FPrint (lit "cout") [VStr x]) w).
  Proof.
    intros [x Hx]. exists x. unfold cout. eapply exec_expr. rewrite eval_ops, (gives_std n None (lit "cout") w (VOstream (lit "cout")) eq_refl). cbn [rbind].
    change [(OpShl, EStr s)] with (shl [EStr s]). rewrite (parts_gives p conv (R n) None [EStr s] [VStr x] w); [reflexivity|]. constructor; [|constructor]. unfold gives. cbn [SpecRun.eval]. unfold str_value. by rewrite Hx.
  Qed.
  Lemma print_quiet x : input_effect v (FPrint (lit "cout") [VStr x]) = false.
  Proof. by destruct v. Qed.
  Lemma says_cout n vars s : is_Some (str_body (s ++ [byte 34])) -> says n vars [cout s].
  Proof.
    intros Hs w _. destruct (cout_says n s w Hs) as [x E]. exists [FPrint (lit "cout") [VStr x]]. split; [constructor; [apply print_quiet|constructor]|].
    by rewrite (execs_cons _ _ _ _ _ _ _ _ _ E).
  Qed.
  Lemma says_if n vars e b a a' : (forall w, w_vars w = vars -> gives p conv (R n) None e w (VBool b)) -> says n vars [a] -> says n vars (match a' with Some a' => [a'] | None => [] end) -> says n vars [SIf e a a'].
  Proof.
    intros He Ha Ha' w Hv. specialize (Ha w Hv). specialize (Ha' w Hv). cbn [SpecRun.execs] in Ha |- *. rewrite (exec_if _ _ _ _ _ _ _ _ _ _ _ (He w Hv)).
    destruct b; [exact Ha|]. destruct a'; [exact Ha'|]. exact Ha'.
  Qed.
  Lemma gives_is_status n this x s s' w : var_of x (w_vars w) = Some (v_status s) -> gives p conv (R n) this (e_eq (nm x) (status_q (status_text s'))) w (VBool (bool_decide (s = s'))).
  Proof. intros Hx. eapply gives_op; [by apply gives_var|apply gives_status|apply status_eq|done|done]. Qed.
  Lemma prompt_says n s r : says n ((lit "s", v_status s) :: r) (a_prompt tc ctx).
  Proof.
    set (vars := (lit "s", v_status s) :: r).
    assert (Hs : forall s' w, w_vars w = vars -> gives p conv (R n) None (e_eq (nm (lit "s")) (status_q (status_text s'))) w (VBool (bool_decide (s = s')))).
    { intros s' w Hw. apply gives_is_status. by rewrite Hw. }
    unfold a_prompt. apply says_app; [apply says_cout; by eexists|]. apply says_app; [|apply (says_app _ _ [_; _])].
    - destruct (tc_has_in tc); [|apply says_nil].
      assert (Hacc : says n vars [SIf (e_eq (nm (lit "s")) (status_q (lit "WAIT_IN"))) (cout (lit "  accept (accepts an input)\n")) None]).
      { eapply says_if; [apply (Hs WAIT_IN)|apply says_cout; by eexists|apply says_nil]. }
      cbv zeta. destruct (tc_first_state_has_in tc); [|exact Hacc]. eapply says_if; [apply (Hs WAIT_START)|apply says_cout; by eexists|exact Hacc].
    - apply (says_app _ _ [_] [_]); apply says_cout; by eexists.
    - apply says_app; [|apply says_cout; by eexists].
      assert (forall l, (forall a, a ∈ l -> a ∈ tc_out tc) -> says n vars (map (fun a => cout (lit "  " ++ agg_name a ++ lit " (type: " ++ type_name ctx (agg_name a) ++ lit ")\n")) l)) as Hl.
      { induction l as [|a l IH]; intros Hin; [apply says_nil|]. cbn [map]. apply (says_app _ _ [_]); [|apply IH; intros b Hb; apply Hin; by right]. apply says_cout.
        rewrite <- !app_assoc. rewrite str_body_app by (by apply safeb_ok). rewrite str_body_app by (apply (mo_outs _ _ _ _ _ HM); apply Hin; left).
        rewrite str_body_app by (by apply safeb_ok). rewrite str_body_app by apply type_name_safe. by eexists. }
      destruct (tc_out tc) as [|a l] eqn:Eo; [apply says_cout; by eexists|]. apply Hl. intros b Hb. first [exact Hb|by rewrite Eo].
  Qed.

  (** ** A round of the loop *)
  Definition show (x : valuable) : gostr := match x with IntV z => format_int z | EnumV s => s end.
  Context (Hctx : forall c t, types !! c = Some t -> exists o, cx_types ctx !! c = Some (t, o)).
  Definition not_words (s : gostr) : Prop := s ∉ [lit "timeout"; lit "ready"; lit "accept"].
  Context (Hwords : forall a, a ∈ tc_out tc -> not_words (agg_name a)).
  Definition is_out (y : gostr) : Prop := y ∈ map agg_name (tc_out tc).
  Lemma pass_fits t x : fits_type t x -> pass_value t x = Some x.
  Proof.
    destruct x as [z|s]; cbn [fits_type].
    - intros [[-> H]|[-> H]]; cbn [pass_value].
      + change (is_nat_ty (ty_arithmos DNat)) with true. cbn iota. unfold wrap32. by rewrite Z.mod_small.
      + change (is_nat_ty (ty_arithmos DInt)) with false. change (is_int_ty (ty_arithmos DInt)) with true. cbn iota. unfold swrap32. rewrite Z.mod_small by lia. do 2 f_equal. lia.
    - by intros [-> _].
  Qed.
  Lemma fits_c_string t x : fits_type t x -> c_string x.
  Proof. destruct x; [done|]. by intros [_ ?]. Qed.
  Lemma read_number_fits u s z rest : read_number u s = (z, rest) -> exists t, reads_unsigned t u /\ fits_type t (IntV z).
  Proof.
    intros E. exists (if u then ty_arithmos DNat else ty_arithmos DInt). split; [done|]. revert E. unfold read_number. destruct (sign_of s) as [neg r]. destruct (leading_digits r) as [ds t].
    set (n := Z.of_N _). assert (0 <= n)%Z by lia. destruct (bool_decide (ds = [])); [intros [= <- _]|].
    - destruct u; [left|right]; (split; [done|lia]).
    - destruct u; cbn [fits_type].
      + destruct (Z.ltb_spec n (2 ^ 32)); intros [= <- _]; left; (split; [done|]); [|lia]. destruct neg; [|lia]. apply Z.mod_pos_bound. lia.
      + set (k := if neg then (- n)%Z else n). destruct (Z.ltb_spec k (- 2 ^ 31)); [intros [= <- _]; right; (split; [done|lia])|]. destruct (Z.ltb_spec k (2 ^ 31)); intros [= <- _]; right; (split; [done|lia]).
  Qed.
  (** What reading a value for channel [y] gives, and leaves. *)
  Definition takes (y : gostr) (x : valuable) (ins rest : list input) : Prop :=
    exists t, types !! y = Some t /\ fits_type t x /\ ins <> [] /\ read_input (default_value (std_t t)) ins = Some (val x, rest).
  Definition takes_if (l : list agg) (y : gostr) (x : valuable) (ins rest : list input) : Prop :=
    if bool_decide (y ∈ map agg_name l) then takes y x ins rest else ins = rest.
  Lemma chain_skip n c a l last w : gives p conv (R n) None c w (VBool false) -> exec n None (if_chain ((c, a) :: l) last) w = exec n None (if_chain l last) w.
  Proof. intros G. change (if_chain ((c, a) :: l) last) with (SIf c a (Some (if_chain l last))). by rewrite (exec_if _ _ _ _ _ _ _ _ _ _ _ G). Qed.
  Lemma chain_take n c a l last w : gives p conv (R n) None c w (VBool true) -> exec n None (if_chain ((c, a) :: l) last) w = exec n None a w.
  Proof. intros G. change (if_chain ((c, a) :: l) last) with (SIf c a (Some (if_chain l last))). by rewrite (exec_if _ _ _ _ _ _ _ _ _ _ _ G). Qed.
  Lemma gives_choice n y s w : cpp_safe s -> var_of (lit "choice") (w_vars w) = Some (VStr y) -> gives p conv (R n) None (e_eq (nm (lit "choice")) (EStr s)) w (VBool (str_eqb y s)).
  Proof. intros Hs Hx. eapply gives_op; [by apply gives_var|by apply gives_str|reflexivity|done|done]. Qed.
  Lemma gives_choice_and n y s s0 st w : cpp_safe s -> var_of (lit "choice") (w_vars w) = Some (VStr y) -> var_of (lit "s") (w_vars w) = Some (v_status s0) ->
    gives p conv (R n) None (choice_and s (status_text st)) w (VBool (str_eqb y s && bool_decide (s0 = st))).
  Proof.
    intros Hs Hx Hy. unfold choice_and. eapply gives_op; [by apply gives_choice|by apply (gives_is_status _ _ _ s0)|reflexivity|done|done].
  Qed.
  Definition round_vars (c : cpp) : list (gostr * cval) := [(lit "s", v_status (c_status c)); (lit "stm", stm_obj)].
  Lemma in_sm_fixed f : f ∈ fixed_names -> f ∈ sm_names m.
  Proof. intros H. unfold sm_names. rewrite !elem_of_app. by left. Qed.
  Lemma call_stm n f c c' w : f ∈ sm_names m -> rel true c w -> var_of (lit "stm") (w_vars w) = Some stm_obj -> runs n true f [] c c' ->
    exists w', exec n None (SExpr (mcall (lit "stm") f [])) w = Fine Go w' /\ rel true c' w' /\ frame w w'.
  Proof.
    intros Hf Hr Hv Hrun. destruct (main_call n f [] [] c c' w Hf ltac:(constructor) Hr Hv Hrun) as (w' & E & Hw). exists w'. split; [by eapply exec_expr|done].
  Qed.
  (** The branches for outputs. *)
  Lemma out_branch n a x c c' w rest : a ∈ tc_out tc -> is_running (c_status c) = true ->
    output_callback P (gen_out a) x c = Some c' -> rel true c w -> var_of (lit "stm") (w_vars w) = Some stm_obj -> takes (agg_name a) x (w_in w) rest ->
    exists w', exec (S (S (S n))) None (a_choice ctx a).2 w = Fine Go w' /\ rel true c' w' /\ w_vars w' = w_vars w /\ w_in w' = rest.
  Proof.
    intros Ha Hrun Hc Hr Hv (t & Ht & Hfit & Hne & Hread). unfold a_choice. cbn [snd]. rewrite exec_block. destruct (Hctx _ _ Ht) as [o Ho].
    assert (a_type_std ctx (agg_name a) = std_t t) as -> by (unfold a_type_std; by rewrite Ho).
    set (w1 := declare (lit "in") (default_value (std_t t)) w). rewrite (execs_cons _ _ _ _ _ _ _ _ w1) by reflexivity.
    set (w2 := set_vars ((lit "in", val x) :: w_vars w) (set_in rest w)).
    assert (E2 : exec (S (S (S n))) None (read_into (lit "in")) w1 = Fine Go w2).
    { unfold read_into. eapply exec_expr. rewrite eval_ops, (gives_std _ None (lit "cin") w1 VCin eq_refl). cbn [rbind]. unfold nm, read_var. cbn [w1 declare set_vars w_vars w_in var_of].
      rewrite str_eqb_refl. destruct (w_in w) as [|i r]; [done|]. rewrite Hread. cbn [set_var]. rewrite str_eqb_refl. reflexivity. }
    rewrite (execs_cons _ _ _ _ _ _ _ _ _ E2).
    assert (Hr2 : rel true c w2) by (by apply rel_vars, rel_in).
    destruct (main_call (S (S (S n))) (callback_name (agg_name a)) [MainAst.call [convert_to (agg_name a)] [nm (lit "in")]] [val x] c c' w2) as (w3 & E3 & Hr3 & F3); [| |done|done|by eapply out_ok|].
    { unfold sm_names. rewrite !elem_of_app. right. right. left. apply elem_of_list_fmap. by exists a. }
    { constructor; [|constructor]. unfold gives, MainAst.call. rewrite eval_call by done. rewrite (gives_evals _ None [nm (lit "in")] [val x] w2); [|constructor; [by apply gives_var|constructor]].
      cbn [rbind]. unfold call_named. rewrite (pc_to _ _ HC _ _ _ _ Ht (fits_c_string _ _ Hfit) (pass_fits _ _ Hfit)). reflexivity. }
    cbn [SpecRun.execs]. rewrite (exec_expr _ _ _ _ _ _ _ _ _ E3). cbn [rbind]. eexists. split; [reflexivity|].
    unfold leave. rewrite (fr_vars _ _ F3). cbn [w2 set_vars w_vars]. replace (length ((lit "in", val x) :: w_vars w) - length (w_vars w)) with 1 by (cbn [length]; lia). cbn [drop].
    split; [by apply rel_vars|]. split; [done|]. cbn [set_vars w_in]. by rewrite (fr_in _ _ F3).
  Qed.
  Lemma out_waits n a w : a ∈ tc_out tc -> is_Some (types !! agg_name a) -> w_in w = [] ->
    exists w', exec n None (a_choice ctx a).2 w = Waits w' /\ w_in w' = [] /\ w_out w' = w_out w.
  Proof.
    intros Ha [t Ht] Hin. unfold a_choice. cbn [snd]. rewrite exec_block. destruct (Hctx _ _ Ht) as [o Ho].
    rewrite (execs_cons _ _ _ _ _ _ _ _ (declare (lit "in") (default_value (a_type_std ctx (agg_name a))) w)) by reflexivity.
    set (w1 := declare _ _ w). assert (E : exec n None (read_into (lit "in")) w1 = Waits w1).
    { unfold read_into. cbn [SpecRun.exec]. rewrite eval_ops, (gives_std _ None (lit "cin") w1 VCin eq_refl). cbn [rbind]. unfold nm, read_var. cbn [w1 declare set_vars w_vars w_in var_of].
      rewrite str_eqb_refl, Hin. reflexivity. }
    cbn [SpecRun.execs]. rewrite E. cbn [rbind]. by exists w1.
  Qed.
  Lemma out_branches n y x c c' last rest : is_running (c_status c) = true ->
    (forall w, exists e, quiet [e] /\ exec (S (S (S n))) None last w = Fine Go (put_out e w)) ->
    forall l w, (forall a, a ∈ l -> a ∈ tc_out tc) -> rel true c w -> var_of (lit "stm") (w_vars w) = Some stm_obj -> var_of (lit "choice") (w_vars w) = Some (VStr y) ->
    takes_if l y x (w_in w) rest ->
    match head (filter (fun o => oc_chan o = y) (map gen_out l)) with Some o => output_callback P o x c | None => Some c end = Some c' ->
    exists w', exec (S (S (S n))) None (if_chain (map (a_choice ctx) l) last) w = Fine Go w' /\ rel true c' w' /\ w_vars w' = w_vars w /\ w_in w' = rest.
  Proof.
    intros Hrun Hlast. induction l as [|a l IH]; intros w Hl Hr Hv Hch Hin Hc.
    - cbn in Hc. injection Hc as <-. destruct (Hlast w) as (e & He & E). exists (put_out e w). split; [exact E|]. split; [apply rel_out; [done|]; by apply Forall_inv in He|]. split; [done|].
      cbn [put_out w_in]. unfold takes_if in Hin. by rewrite bool_decide_eq_false_2 in Hin by apply not_elem_of_nil.
    - cbn [map]. assert (Hsafe : cpp_safe (agg_name a)) by (apply (mo_outs _ _ _ _ _ HM); apply Hl; left).
      pose proof (gives_choice (S (S (S n))) y _ w Hsafe Hch) as G. unfold a_choice at 1. destruct (decide (agg_name a = y)) as [E|Hne].
      + subst y. rewrite str_eqb_refl in G. rewrite chain_take by exact G.
        cbn [map] in Hc. rewrite filter_cons_True in Hc by done. cbn [head] in Hc.
        unfold takes_if in Hin. rewrite bool_decide_eq_true_2 in Hin by (cbn [map]; left).
        exact (out_branch n a x c c' w rest (Hl a ltac:(left)) Hrun Hc Hr Hv Hin).
      + rewrite str_eqb_ne in G by congruence. rewrite chain_skip by exact G.
        apply IH; [intros b Hb; apply Hl; by right|done|done|done| |].
        * unfold takes_if in *. replace (bool_decide (y ∈ map agg_name l)) with (bool_decide (y ∈ map agg_name (a :: l))); [done|]. symmetry. apply bool_decide_ext. cbn [map]. rewrite elem_of_cons. split; [by right|]. intros [H|H]; [congruence|done].
        * cbn [map] in Hc. rewrite filter_cons_False in Hc by exact Hne. exact Hc.
  Qed.

  Lemma word_not_out y : y ∈ [lit "timeout"; lit "ready"; lit "accept"] -> bool_decide (y ∈ map agg_name (tc_out tc)) = false.
  Proof. intros Hy. apply bool_decide_eq_false_2. intros (a & -> & Ha)%elem_of_list_fmap. by apply (Hwords a Ha). Qed.
  Definition sorry : stmt := cout (lit "Sorry, try again.\n").
  Lemma sorry_exec n w : exec n None sorry w = Fine Go (put_out sorry_line w).
  Proof.
    unfold sorry, cout. eapply exec_expr. rewrite eval_ops, (gives_std n None (lit "cout") w (VOstream (lit "cout")) eq_refl). cbn [rbind].
    change [(OpShl, EStr (lit "Sorry, try again.\n"))] with (shl [EStr (lit "Sorry, try again.\n")]).
    rewrite (parts_gives p conv (R n) None [EStr (lit "Sorry, try again.\n")] [VStr (lit "Sorry, try again." ++ [byte 10])] w); [reflexivity|]. constructor; [|constructor]. unfold gives. cbn [SpecRun.eval]. reflexivity.
  Qed.
  Lemma sorry_says n w : exists e, quiet [e] /\ exec n None sorry w = Fine Go (put_out e w).
  Proof. exists sorry_line. split; [|apply sorry_exec]. constructor; [apply print_quiet|constructor]. Qed.
  (** No name is the empty word. *)
  Context (Hempty : forall a, a ∈ tc_out tc -> agg_name a <> []).
  Lemma choices_none n c w : w_vars w = (lit "choice", VStr []) :: round_vars c -> exec n None (if_chain (a_choices tc ctx) sorry) w = Fine Go (put_out sorry_line w).
  Proof.
    intros Hv. assert (Hch : var_of (lit "choice") (w_vars w) = Some (VStr [])) by (by rewrite Hv).
    assert (Hs : var_of (lit "s") (w_vars w) = Some (v_status (c_status c))) by (by rewrite Hv).
    rewrite <- (sorry_exec n w). unfold a_choices. cbn [app].
    rewrite chain_skip by (exact (gives_choice n [] (lit "timeout") w ltac:(by apply safeb_ok) Hch)).
    assert (Hl : forall l, (forall a, a ∈ l -> a ∈ tc_out tc) -> exec n None (if_chain (map (a_choice ctx) l) sorry) w = exec n None sorry w).
    { induction l as [|a l IH]; intros Hin; [done|]. cbn [map]. unfold a_choice at 1. pose proof (gives_choice n [] (agg_name a) w ltac:(apply (mo_outs _ _ _ _ _ HM); apply Hin; left) Hch) as G.
      rewrite str_eqb_ne in G by (intros E; symmetry in E; revert E; apply Hempty, Hin; left). rewrite chain_skip by exact G. apply IH. intros b Hb. apply Hin. by right. }
    specialize (Hl (tc_out tc) ltac:(done)).
    assert (Ha : forall r, exec n None (if_chain ((if tc_has_in tc then [(choice_and (lit "accept") (lit "WAIT_IN"), SExpr (mcall (lit "stm") (lit "inputAcceptedCallback") []))] else []) ++ r) sorry) w = exec n None (if_chain r sorry) w).
    { intros r. destruct (tc_has_in tc); [|done]. cbn [app]. by rewrite chain_skip by (exact (gives_choice_and n [] (lit "accept") (c_status c) WAIT_IN w ltac:(by apply safeb_ok) Hch Hs)). }
    assert (Hb : forall r, exec n None (if_chain ((if tc_first_state_has_in tc then [(choice_and (lit "ready") (lit "WAIT_START"), SExpr (mcall (lit "stm") (lit "initialDelayCallback") []))] else []) ++ r) sorry) w = exec n None (if_chain r sorry) w).
    { intros r. destruct (tc_first_state_has_in tc); [|done]. cbn [app]. by rewrite chain_skip by (exact (gives_choice_and n [] (lit "ready") (c_status c) WAIT_START w ltac:(by apply safeb_ok) Hch Hs)). }
    rewrite Hb, Ha. exact Hl.
  Qed.
  Lemma choices_ok n y x c c' w rest : v <> VRos -> is_running (c_status c) = true -> animate_step P y x c = Some c' ->
    rel true c w -> w_vars w = (lit "choice", VStr y) :: round_vars c -> takes_if (tc_out tc) y x (w_in w) rest ->
    exists w', exec (S (S (S n))) None (if_chain (a_choices tc ctx) sorry) w = Fine Go w' /\ rel true c' w' /\ w_vars w' = w_vars w /\ w_in w' = rest.
  Proof.
    intros Hnr Hrun Hstep Hr Hv Hin. unfold animate_step in Hstep. rewrite Hrun in Hstep. cbn [negb] in Hstep.
    assert (Hch : var_of (lit "choice") (w_vars w) = Some (VStr y)) by (by rewrite Hv). assert (Hst : var_of (lit "stm") (w_vars w) = Some stm_obj) by (by rewrite Hv).
    assert (Hs : var_of (lit "s") (w_vars w) = Some (v_status (c_status c))) by (by rewrite Hv).
    assert (Htp : length (a_timer_params v) = length (@nil cval)) by (by destruct v). assert (Hap : length (a_accept_params v) = length (@nil cval)) by (by destruct v).
    assert (Hcall : forall f, f ∈ sm_names m -> runs (S (S (S n))) true f [] c c' -> bool_decide (y ∈ map agg_name (tc_out tc)) = false ->
      exists w', exec (S (S (S n))) None (SExpr (mcall (lit "stm") f [])) w = Fine Go w' /\ rel true c' w' /\ w_vars w' = w_vars w /\ w_in w' = rest).
    { intros f Hf Hrf Hno. destruct (call_stm (S (S (S n))) f c c' w Hf Hr Hst Hrf) as (w' & E & Hr' & F). exists w'. split; [exact E|]. split; [done|]. split; [apply F|].
      rewrite (fr_in _ _ F). unfold takes_if in Hin. by rewrite Hno in Hin. }
    destruct prog_eq as (acc & Hacc & EP). assert (Ed : p_delay P = tc_first_state_has_in tc) by (by rewrite EP).
    assert (Epa : p_accept P = if tc_has_in tc then Some acc else None) by (by rewrite EP). assert (Epo : p_outs P = map gen_out (tc_out tc)) by (by rewrite EP).
    unfold a_choices. cbn [app]. pose proof (gives_choice (S (S (S n))) y (lit "timeout") w ltac:(by apply safeb_ok) Hch) as G1.
    destruct (decide (y = lit "timeout")) as [->|N1].
    { rewrite str_eqb_refl in G1. rewrite chain_take by exact G1. rewrite bool_decide_eq_true_2 in Hstep by done. injection Hstep as <-.
      apply Hcall; [apply in_sm_fixed; unfold fixed_names; rewrite !elem_of_cons; auto 20|by apply timeout_ok|apply word_not_out; left]. }
    rewrite str_eqb_ne in G1 by done. rewrite chain_skip by exact G1. rewrite bool_decide_eq_false_2 in Hstep by done. clear G1.
    rewrite Ed in Hstep.
    assert (Hready : exists l, (if tc_first_state_has_in tc then [(choice_and (lit "ready") (lit "WAIT_START"), SExpr (mcall (lit "stm") (lit "initialDelayCallback") []))] else []) = l /\
      ((tc_first_state_has_in tc && bool_decide (y = lit "ready") && bool_decide (c_status c = WAIT_START) = true /\ exists a b, l = [(a, b)] /\ gives p conv (R (S (S (S n)))) None a w (VBool true) /\ b = SExpr (mcall (lit "stm") (lit "initialDelayCallback") [])) \/
       (tc_first_state_has_in tc && bool_decide (y = lit "ready") && bool_decide (c_status c = WAIT_START) = false /\ forall r last, exec (S (S (S n))) None (if_chain (l ++ r) last) w = exec (S (S (S n))) None (if_chain r last) w))).
    { eexists. split; [reflexivity|]. destruct (tc_first_state_has_in tc); cbn [andb]; [|by right].
      pose proof (gives_choice_and (S (S (S n))) y (lit "ready") (c_status c) WAIT_START w ltac:(by apply safeb_ok) Hch Hs) as G. unfold str_eqb in G.
      destruct (bool_decide (y = lit "ready") && bool_decide (c_status c = WAIT_START)) eqn:Eb; [left|right]; (split; [done|]).
      - eexists _, _. split; [reflexivity|]. split; [exact G|done].
      - intros r last. cbn [app]. by rewrite chain_skip by exact G. }
    destruct Hready as (l1 & -> & [(Eb & a & b & -> & G & ->)|(Eb & Hskip)]); rewrite Eb in Hstep.
    { cbn [app]. rewrite chain_take by exact G. apply andb_true_iff in Eb as [[Ef Ey]%andb_true_iff _]. apply bool_decide_eq_true_1 in Ey as ->.
      apply Hcall; [|by apply delay_ok|apply word_not_out; right; left]. unfold sm_names, opt_names. rewrite Ef, !elem_of_app. right. left. left. left. }
    rewrite Hskip. clear Hskip Eb l1.
    assert (Haccept : exists l, (if tc_has_in tc then [(choice_and (lit "accept") (lit "WAIT_IN"), SExpr (mcall (lit "stm") (lit "inputAcceptedCallback") []))] else []) = l /\
      ((bool_decide (is_Some (p_accept P)) && bool_decide (y = lit "accept") && bool_decide (c_status c = WAIT_IN) = true /\ exists a b, l = [(a, b)] /\ gives p conv (R (S (S (S n)))) None a w (VBool true) /\ b = SExpr (mcall (lit "stm") (lit "inputAcceptedCallback") [])) \/
       (bool_decide (is_Some (p_accept P)) && bool_decide (y = lit "accept") && bool_decide (c_status c = WAIT_IN) = false /\ forall r last, exec (S (S (S n))) None (if_chain (l ++ r) last) w = exec (S (S (S n))) None (if_chain r last) w))).
    { eexists. split; [reflexivity|]. rewrite Epa. destruct (tc_has_in tc); [|right; split; [rewrite bool_decide_eq_false_2; [done|by intros [? ?]]|done]].
      rewrite (bool_decide_eq_true_2 (is_Some (Some acc))) by (by eexists). cbn [andb].
      pose proof (gives_choice_and (S (S (S n))) y (lit "accept") (c_status c) WAIT_IN w ltac:(by apply safeb_ok) Hch Hs) as G. unfold str_eqb in G.
      destruct (bool_decide (y = lit "accept") && bool_decide (c_status c = WAIT_IN)) eqn:Eb; [left|right]; (split; [done|]).
      - eexists _, _. split; [reflexivity|]. split; [exact G|done].
      - intros r last. cbn [app]. by rewrite chain_skip by exact G. }
    destruct Haccept as (l1 & -> & [(Eb & a & b & -> & G & ->)|(Eb & Hskip)]); rewrite Eb in Hstep.
    { cbn [app]. rewrite chain_take by exact G. apply andb_true_iff in Eb as [[Ef Ey]%andb_true_iff _]. apply bool_decide_eq_true_1 in Ey as ->.
      apply Hcall; [|by apply accept_ok|apply word_not_out; right; right; left]. rewrite Epa in Ef. unfold sm_names, opt_names. destruct (tc_has_in tc); [|apply bool_decide_eq_true_1 in Ef; by destruct Ef].
      rewrite !elem_of_app. right. left. right. left. }
    rewrite Hskip. clear Hskip Eb l1. rewrite Epo in Hstep.
    eapply out_branches; [exact Hrun|apply sorry_says|done|done|done|done|exact Hin|exact Hstep].
  Qed.
  Definition round_stmt : stmt := SBlock (a_round tc ctx).
  Lemma round_eq : a_round tc ctx = a_prompt tc ctx ++ [SDecl (plain_t [lit "std"; lit "string"]) (lit "choice") None; read_into (lit "choice"); if_chain (a_choices tc ctx) sorry].
  Proof. reflexivity. Qed.
  Lemma read_choice n w : exec n None (read_into (lit "choice")) (declare (lit "choice") (VStr []) w) =
    match w_in w with
    | [] => Waits (declare (lit "choice") (VStr []) w)
    | IWord y :: r => Fine Go (set_vars ((lit "choice", VStr y) :: w_vars w) (set_in r w))
    | IClosed :: r => Fine Go (set_vars ((lit "choice", VStr []) :: w_vars w) (set_in (IClosed :: r) w))
    | _ => Fault
    end.
  Proof.
    unfold read_into. cbn [SpecRun.exec]. rewrite eval_ops, (gives_std _ None (lit "cin") _ VCin eq_refl). cbn [rbind]. unfold nm, read_var. cbn [declare set_vars w_vars w_in var_of].
    rewrite str_eqb_refl. by destruct (w_in w) as [|[y| | |] r].
  Qed.
  Lemma round_waits n c w : rel true c w -> w_vars w = round_vars c -> w_in w = [] -> exists w', exec n None round_stmt w = Waits w' /\ rel true c w'.
  Proof.
    intros Hr Hv Hin. unfold round_stmt. rewrite exec_block, round_eq. destruct (prompt_says n (c_status c) [(lit "stm", stm_obj)] w Hv) as (es & Q & E).
    rewrite (execs_app _ _ _ _ _ _ _ _ _ E). set (w1 := outs es w). assert (Hr1 : rel true c w1) by (by apply rel_outs).
    rewrite (execs_cons _ _ _ _ _ _ _ _ (declare (lit "choice") (VStr []) w1)) by reflexivity.
    pose proof (read_choice n w1) as E1. assert (w_in w1 = []) as Hin1 by exact Hin. rewrite Hin1 in E1. cbn [SpecRun.execs]. rewrite E1. cbn [rbind].
    eexists. split; [reflexivity|]. by apply rel_vars.
  Qed.
  (** A channel's name, without a value yet. *)
  Lemma round_no_value n y c w : is_out y -> is_Some (types !! y) -> rel true c w -> w_vars w = round_vars c -> w_in w = [IWord y] ->
    exists w', exec n None round_stmt w = Waits w' /\ filter (fun e => input_effect v e = true) (w_out w') = map (sent_effect v) (c_sent c).
  Proof.
    intros Hy Hty Hr Hv Hin. unfold round_stmt. rewrite exec_block, round_eq. destruct (prompt_says n (c_status c) [(lit "stm", stm_obj)] w Hv) as (es & Q & E).
    rewrite (execs_app _ _ _ _ _ _ _ _ _ E). set (w1 := outs es w). assert (Hr1 : rel true c w1) by (by apply rel_outs).
    rewrite (execs_cons _ _ _ _ _ _ _ _ (declare (lit "choice") (VStr []) w1)) by reflexivity.
    pose proof (read_choice n w1) as E1. assert (w_in w1 = [IWord y]) as Hin1 by exact Hin. rewrite Hin1 in E1. rewrite (execs_cons _ _ _ _ _ _ _ _ _ E1).
    set (w2 := set_vars _ _) in *. assert (Hin2 : w_in w2 = []) by done. assert (Hr2 : rel true c w2) by (by apply rel_vars, rel_in).
    assert (Hch : var_of (lit "choice") (w_vars w2) = Some (VStr y)) by done.
    assert (Hs : var_of (lit "s") (w_vars w2) = Some (v_status (c_status c))) by (cbn [w2 set_vars w_vars]; change (w_vars w1) with (w_vars w); by rewrite Hv).
    assert (Hno : y ∉ [lit "timeout"; lit "ready"; lit "accept"]). { intros Hw. pose proof (word_not_out y Hw) as Hf. by apply bool_decide_eq_false_1 in Hf. }
    rewrite !elem_of_cons in Hno.
    assert (Hl : forall l, (forall a, a ∈ l -> a ∈ tc_out tc) -> y ∈ map agg_name l -> exists w', exec n None (if_chain (map (a_choice ctx) l) sorry) w2 = Waits w' /\ w_out w' = w_out w2).
    { induction l as [|a l IH]; intros Hsub Hyl; [by apply elem_of_nil in Hyl|]. cbn [map] in *. unfold a_choice at 1. pose proof (gives_choice n y (agg_name a) w2 ltac:(apply (mo_outs _ _ _ _ _ HM); apply Hsub; left) Hch) as G.
      destruct (decide (agg_name a = y)) as [Ey|Hne].
      - rewrite Ey in G. rewrite str_eqb_refl in G. rewrite Ey. rewrite chain_take by exact G.
        destruct (out_waits n a w2 ltac:(apply Hsub; left) ltac:(by rewrite Ey) Hin2) as (w' & Ew & _ & Eo). exists w'. split; [|done]. unfold a_choice in Ew. cbn [snd] in Ew. rewrite Ey in Ew. exact Ew.
      - rewrite str_eqb_ne in G by congruence. rewrite chain_skip by exact G. apply IH; [intros b Hb; apply Hsub; by right|]. apply elem_of_cons in Hyl as [Hyl|Hyl]; [congruence|done]. }
    destruct (Hl (tc_out tc) ltac:(done) Hy) as (w' & Ew & Eo). clear Hl.
    assert (Ec : exec n None (if_chain (a_choices tc ctx) sorry) w2 = Waits w').
    { unfold a_choices. cbn [app]. rewrite chain_skip by (pose proof (gives_choice n y (lit "timeout") w2 ltac:(by apply safeb_ok) Hch) as G; rewrite str_eqb_ne in G by tauto; exact G).
      assert (Ha : forall r, exec n None (if_chain ((if tc_has_in tc then [(choice_and (lit "accept") (lit "WAIT_IN"), SExpr (mcall (lit "stm") (lit "inputAcceptedCallback") []))] else []) ++ r) sorry) w2 = exec n None (if_chain r sorry) w2).
      { intros r. destruct (tc_has_in tc); [|done]. cbn [app]. pose proof (gives_choice_and n y (lit "accept") (c_status c) WAIT_IN w2 ltac:(by apply safeb_ok) Hch Hs) as G. rewrite str_eqb_ne in G by tauto. by rewrite chain_skip by exact G. }
      assert (Hb : forall r, exec n None (if_chain ((if tc_first_state_has_in tc then [(choice_and (lit "ready") (lit "WAIT_START"), SExpr (mcall (lit "stm") (lit "initialDelayCallback") []))] else []) ++ r) sorry) w2 = exec n None (if_chain r sorry) w2).
      { intros r. destruct (tc_first_state_has_in tc); [|done]. cbn [app]. pose proof (gives_choice_and n y (lit "ready") (c_status c) WAIT_START w2 ltac:(by apply safeb_ok) Hch Hs) as G. rewrite str_eqb_ne in G by tauto. by rewrite chain_skip by exact G. }
      rewrite Hb, Ha. exact Ew. }
    cbn [SpecRun.execs]. rewrite Ec. cbn [rbind]. exists w'. split; [reflexivity|]. rewrite Eo. apply (r_sent _ _ _ Hr2).
  Qed.
  Lemma round_ok n y x c c' w ins rest : v <> VRos -> is_running (c_status c) = true -> animate_step P y x c = Some c' ->
    rel true c w -> w_vars w = round_vars c -> w_in w = IWord y :: ins -> takes_if (tc_out tc) y x ins rest ->
    exists w', exec (S (S (S n))) None round_stmt w = Fine Go w' /\ rel true c' w' /\ w_vars w' = w_vars w /\ w_in w' = rest.
  Proof.
    intros Hnr Hrun Hstep Hr Hv Hin Hta. unfold round_stmt. rewrite exec_block, round_eq. destruct (prompt_says (S (S (S n))) (c_status c) [(lit "stm", stm_obj)] w Hv) as (es & Q & E).
    rewrite (execs_app _ _ _ _ _ _ _ _ _ E). set (w1 := outs es w). assert (Hr1 : rel true c w1) by (by apply rel_outs).
    rewrite (execs_cons _ _ _ _ _ _ _ _ (declare (lit "choice") (VStr []) w1)) by reflexivity.
    pose proof (read_choice (S (S (S n))) w1) as E1. assert (Hin1 : w_in w1 = IWord y :: ins) by exact Hin. rewrite Hin1 in E1.
    rewrite (execs_cons _ _ _ _ _ _ _ _ _ E1). set (w2 := set_vars _ _) in *.
    destruct (choices_ok n y x c c' w2 rest Hnr Hrun Hstep) as (w' & E2 & Hr' & Hv' & Hi').
    { by apply rel_vars, rel_in. }
    { cbn [w2 set_vars w_vars]. f_equal. exact Hv. }
    { done. }
    cbn [SpecRun.execs]. rewrite E2. cbn [rbind]. eexists. split; [reflexivity|]. unfold leave. rewrite Hv'. cbn [w2 set_vars w_vars set_in]. change (w_vars w1) with (w_vars w).
    replace (length ((lit "choice", VStr y) :: w_vars w) - length (w_vars w)) with 1 by (cbn [length]; lia). cbn [drop]. split; [by apply rel_vars|]. done.
  Qed.
  (** After the end of the input. *)
  Lemma sorries_app l1 l2 : sorries (l1 ++ l2) = sorries l1 + sorries l2.
  Proof. unfold sorries. by rewrite filter_app, app_length. Qed.
  Lemma round_closed n c w r : rel true c w -> w_vars w = round_vars c -> w_in w = IClosed :: r ->
    exists w', exec n None round_stmt w = Fine Go w' /\ rel true c w' /\ w_vars w' = w_vars w /\ w_in w' = IClosed :: r /\ S (sorries (w_out w)) <= sorries (w_out w').
  Proof.
    intros Hr Hv Hin. unfold round_stmt. rewrite exec_block, round_eq. destruct (prompt_says n (c_status c) [(lit "stm", stm_obj)] w Hv) as (es & Q & E).
    rewrite (execs_app _ _ _ _ _ _ _ _ _ E). set (w1 := outs es w). assert (Hr1 : rel true c w1) by (by apply rel_outs).
    rewrite (execs_cons _ _ _ _ _ _ _ _ (declare (lit "choice") (VStr []) w1)) by reflexivity.
    pose proof (read_choice n w1) as E1. assert (Hin1 : w_in w1 = IClosed :: r) by exact Hin. rewrite Hin1 in E1.
    rewrite (execs_cons _ _ _ _ _ _ _ _ _ E1). set (w2 := set_vars _ _) in *.
    assert (Hv2 : w_vars w2 = (lit "choice", VStr []) :: round_vars c) by (cbn [w2 set_vars w_vars]; f_equal; exact Hv).
    cbn [SpecRun.execs]. rewrite (choices_none n c w2 Hv2). cbn [rbind]. eexists. split; [reflexivity|].
    assert (Hr2 : rel true c w2) by (by apply rel_vars, rel_in). split; [apply rel_vars, rel_out; [done|apply print_quiet]|].
    split; [|split; [done|]].
    - unfold leave. cbn [put_out set_vars w_vars]. rewrite Hv2, Hv. reflexivity.
    - cbn [leave set_vars put_out w_out w2 set_in w1 outs]. rewrite !sorries_app. change (sorries [sorry_line]) with 1. lia.
  Qed.
  Definition the_loop (n k : nat) : world -> result flow := loop p conv rounds (R n) None (nm (lit "s")) get_status (is_running_of (nm (lit "s"))) round_stmt k.
  Lemma next_round n c2 w w1 : rel true c2 w1 -> w_vars w1 = w_vars w -> (exists c, w_vars w = round_vars c) ->
    exists w2, w2 = set_vars (round_vars c2) w1 /\ SpecRun.eval p conv (R n) None get_status w1 = Fine (v_status (c_status c2)) w1 /\ store None (nm (lit "s")) (v_status (c_status c2)) w1 = Fine tt w2.
  Proof.
    intros Hr Hv [c Hc]. eexists. split; [reflexivity|]. split; [exact (gives_get_status n c2 w1 Hr ltac:(by rewrite Hv, Hc))|]. unfold store, nm. rewrite Hv, Hc. reflexivity.
  Qed.
  Lemma loop_closed n c r : is_running (c_status c) = true -> forall k w, rel true c w -> w_vars w = round_vars c -> w_in w = IClosed :: r ->
    exists w', the_loop n k w = Busy w' /\ rel true c w' /\ k + sorries (w_out w) <= sorries (w_out w').
  Proof.
    intros Hrun. induction k as [|k IH]; intros w Hr Hv Hin; unfold the_loop; cbn [loop]; [exists w; split; [done|split; [done|lia]]|].
    assert (G : gives p conv (R n) None (is_running_of (nm (lit "s"))) w (VBool (is_running (c_status c)))) by (apply gives_is_running, gives_var; by rewrite Hv).
    unfold gives in G. rewrite G, Hrun. cbn [rbind]. destruct (round_closed n c w r Hr Hv Hin) as (w1 & E & Hr1 & Hv1 & Hi1 & Hs). rewrite E. cbn [rbind].
    destruct (next_round n c w w1 Hr1 Hv1 ltac:(by exists c)) as (w2 & Ew2 & E1 & E2). rewrite E1. cbn [rbind]. rewrite E2. cbn [rbind].
    destruct (IH w2) as (w' & Ew & Hr' & Hs'); [subst w2; by apply rel_vars|by subst w2|by subst w2|]. exists w'. split; [exact Ew|]. split; [done|]. subst w2. cbn [set_vars w_out] in Hs'. lia.
  Qed.
  Lemma loop_over n c k w : is_running (c_status c) = false -> w_vars w = round_vars c -> the_loop n (S k) w = Fine Go w.
  Proof.
    intros Hrun Hv. unfold the_loop. cbn [loop].
    assert (G : gives p conv (R n) None (is_running_of (nm (lit "s"))) w (VBool (is_running (c_status c)))) by (apply gives_is_running, gives_var; by rewrite Hv).
    unfold gives in G. rewrite G, Hrun. reflexivity.
  Qed.
  Lemma over_loop script c c' : is_running (c_status c) = false -> animate_loop P script c = Some c' -> c' = c.
  Proof.
    intros Erun. induction script as [|[y x] l IH]; cbn [animate_loop]; [by intros [= <-]|]. unfold animate_step. rewrite Erun. cbn [negb]. exact IH.
  Qed.
  Context (Htyped : forall a, a ∈ tc_out tc -> is_Some (types !! agg_name a)).
  Lemma loop_ok n ins script e : v <> VRos -> typed_as is_out types ins script e -> forall k c c' w, length script < k -> animate_loop P script c = Some c' -> rel true c w -> w_vars w = round_vars c -> w_in w = ins ->
    exists w', if is_running (c_status c') then
                 (if e then the_loop (S (S (S n))) k w = Busy w' /\ k - length script <= sorries (w_out w') else the_loop (S (S (S n))) k w = Waits w') /\
                 filter (fun e => input_effect v e = true) (w_out w') = map (sent_effect v) (c_sent c')
               else the_loop (S (S (S n))) k w = Fine Go w' /\ rel true c' w' /\ w_vars w' = round_vars c'.
  Proof.
    intros Hnr H.
    assert (Hstep : forall y x ins rest script (e : bool), takes_if (tc_out tc) y x ins rest ->
      (forall k c c' w, length script < k -> animate_loop P script c = Some c' -> rel true c w -> w_vars w = round_vars c -> w_in w = rest ->
        exists w', if is_running (c_status c') then
                     (if e then the_loop (S (S (S n))) k w = Busy w' /\ k - length script <= sorries (w_out w') else the_loop (S (S (S n))) k w = Waits w') /\
                     filter (fun e => input_effect v e = true) (w_out w') = map (sent_effect v) (c_sent c')
                   else the_loop (S (S (S n))) k w = Fine Go w' /\ rel true c' w' /\ w_vars w' = round_vars c') ->
      forall k c c' w, length ((y, x) :: script) < k -> animate_loop P ((y, x) :: script) c = Some c' -> rel true c w -> w_vars w = round_vars c -> w_in w = IWord y :: ins ->
        exists w', if is_running (c_status c') then
                     (if e then the_loop (S (S (S n))) k w = Busy w' /\ k - length ((y, x) :: script) <= sorries (w_out w') else the_loop (S (S (S n))) k w = Waits w') /\
                     filter (fun e => input_effect v e = true) (w_out w') = map (sent_effect v) (c_sent c')
                   else the_loop (S (S (S n))) k w = Fine Go w' /\ rel true c' w' /\ w_vars w' = round_vars c').
    { clear ins script e H. intros y x ins rest script e Hta IH k c c' w Hk Hloop Hr Hv Hin. destruct k as [|k]; [lia|]. destruct (is_running (c_status c)) eqn:Erun.
      - cbn [animate_loop] in Hloop. destruct (animate_step P y x c) as [c2|] eqn:Estep; [|done].
        destruct (round_ok n y x c c2 w ins rest Hnr Erun Estep Hr Hv Hin Hta) as (w1 & E & Hr1 & Hv1 & Hi1).
        destruct (next_round (S (S (S n))) c2 w w1 Hr1 Hv1 ltac:(by exists c)) as (w2 & Ew2 & E1 & E2).
        assert (EL : the_loop (S (S (S n))) (S k) w = the_loop (S (S (S n))) k w2).
        { unfold the_loop. cbn [loop]. assert (G : gives p conv (R (S (S (S n)))) None (is_running_of (nm (lit "s"))) w (VBool (is_running (c_status c)))) by (apply gives_is_running, gives_var; by rewrite Hv).
          unfold gives in G. rewrite G, Erun. cbn [rbind]. rewrite E. cbn [rbind]. rewrite E1. cbn [rbind]. rewrite E2. reflexivity. }
        rewrite EL. cbn [length] in Hk |- *. replace (S k - S (length script)) with (k - length script) by lia.
        apply (IH k c2 c' w2); [lia|done|subst w2; by apply rel_vars|by subst w2|by subst w2].
      - pose proof (over_loop _ _ _ Erun Hloop) as ->. rewrite Erun. exists w. split; [by apply (loop_over _ c)|done]. }
    induction H as [|r|y x r script e Hno H IH|y Hy|y s r script e Hy Ht Hs H IH|y r Hy Ht|y t u s z rest r script e Hy Ht Hu Hrd H IH]; intros k c c' w Hk Hloop Hr Hv Hin.
    - destruct k as [|k]; [cbn in Hk; lia|]. cbn in Hloop. injection Hloop as <-. destruct (is_running (c_status c)) eqn:Erun.
      + destruct (round_waits (S (S (S n))) c w Hr Hv Hin) as (w' & E & Hr'). exists w'. split; [|apply (r_sent _ _ _ Hr')].
        unfold the_loop. cbn [loop]. assert (G : gives p conv (R (S (S (S n)))) None (is_running_of (nm (lit "s"))) w (VBool (is_running (c_status c)))) by (apply gives_is_running, gives_var; by rewrite Hv).
        unfold gives in G. rewrite G, Erun. cbn [rbind]. rewrite E. reflexivity.
      + exists w. split; [by apply (loop_over _ c)|done].
    - cbn in Hloop. injection Hloop as <-. destruct (is_running (c_status c)) eqn:Erun.
      + destruct (loop_closed (S (S (S n))) c r Erun k w Hr Hv Hin) as (w' & E & Hr' & Hs). exists w'. split; [split; [done|cbn [length]; lia]|apply (r_sent _ _ _ Hr')].
      + destruct k as [|k]; [cbn in Hk; lia|]. exists w. split; [by apply (loop_over _ c)|done].
    - revert k c c' w Hk Hloop Hr Hv Hin. apply (Hstep y x r r script e); [|exact IH]. unfold takes_if. by rewrite bool_decide_eq_false_2.
    - destruct k as [|k]; [cbn in Hk; lia|]. cbn in Hloop. injection Hloop as <-. destruct (is_running (c_status c)) eqn:Erun.
      + assert (Hty : is_Some (types !! y)). { apply elem_of_list_fmap in Hy as (a & -> & Ha). by apply Htyped. }
        destruct (round_no_value (S (S (S n))) y c w Hy Hty Hr Hv Hin) as (w' & E & Hs). exists w'. split; [|exact Hs].
        unfold the_loop. cbn [loop]. assert (G : gives p conv (R (S (S (S n)))) None (is_running_of (nm (lit "s"))) w (VBool (is_running (c_status c)))) by (apply gives_is_running, gives_var; by rewrite Hv).
        unfold gives in G. rewrite G, Erun. cbn [rbind]. rewrite E. reflexivity.
      + exists w. split; [by apply (loop_over _ c)|done].
    - revert k c c' w Hk Hloop Hr Hv Hin. apply (Hstep y (EnumV s) (IWord s :: r) r script e); [|exact IH]. unfold takes_if. rewrite bool_decide_eq_true_2 by exact Hy.
      exists ty_enum. split; [done|]. split; [done|]. split; [done|reflexivity].
    - revert k c c' w Hk Hloop Hr Hv Hin. apply (Hstep y (EnumV []) (IClosed :: r) (IClosed :: r) [] true).
      + unfold takes_if. rewrite bool_decide_eq_true_2 by exact Hy. exists ty_enum. split; [done|]. split; [split; [done|by apply not_elem_of_nil]|]. split; [done|reflexivity].
      + intros k c c' w Hk Hloop Hr Hv Hin. cbn in Hloop. injection Hloop as <-. destruct (is_running (c_status c)) eqn:Erun.
        * destruct (loop_closed (S (S (S n))) c r Erun k w Hr Hv Hin) as (w' & E & Hr' & Hs). exists w'. split; [split; [done|cbn [length]; lia]|apply (r_sent _ _ _ Hr')].
        * destruct k as [|k]; [cbn in Hk; lia|]. exists w. split; [by apply (loop_over _ c)|done].
    - revert k c c' w Hk Hloop Hr Hv Hin. apply (Hstep y (IntV z) (IWord s :: r) (after_number rest r) script e); [|exact IH]. unfold takes_if. rewrite bool_decide_eq_true_2 by exact Hy.
      destruct (read_number_fits u s z rest Hrd) as (t' & Hu' & Hfit). exists t. unfold reads_unsigned in Hu, Hu'. split; [done|]. rewrite Hu. rewrite Hu' in Hfit. split; [done|]. split; [done|].
      destruct u; cbn; by rewrite Hrd.
  Qed.

  (** ** main *)
  Context (Hp : 2 <= length p) (Hname : cpp_safe name).
  Lemma in_main : a_main v name tc ctx ∈ main_items v name m ctx tests.
  Proof. rewrite main_items_eq, !elem_of_app, !elem_of_cons. auto 20. Qed.
  Lemma quiet_final c : quiet (finished c :: dumped c).
  Proof.
    unfold finished, dumped. constructor; [apply log_quiet; by intros r|]. constructor; [apply log_quiet; by intros r|].
    apply Forall_map, Forall_true. intros t. apply log_quiet. by intros r.
  Qed.
  Lemma init_ok n c args w : start P = Some c -> Forall2 (fun e x => gives p conv (R (S (S (S n)))) None e w x) args topics -> w_down w = false -> filter (fun e => input_effect v e = true) (w_out w) = [] ->
    exists w', exec (S (S (S n))) None (SInit (plain_t [lit "StateMachine"]) (lit "stm") args) w = Fine Go (declare (lit "stm") stm_obj w') /\ rel true c w' /\ frame w w'.
  Proof.
    intros Hst Hargs Hd Ho. destruct (length p) as [|[|k]] eqn:Ek; [lia|lia|]. destruct (construct_ok (S (S (S n))) k w Hd Ho) as (w1 & E1 & Hr1 & Hs).
    destruct (ctor_ok n c w1 Hst Hr1) as (w2 & E2 & Hr2 & F). exists w2. split; [|split; [done|]].
    - unfold plain_t. cbn [SpecRun.exec]. rewrite (gives_evals _ _ _ _ _ Hargs). cbn [rbind]. rewrite Ek. change (lit "StateMachine") with SM. rewrite E1. cbn [rbind].
      change (Some (SM, [lit "stm"])) with sm_self. change [SM; SM] with (SMq SM). rewrite E2. reflexivity.
    - eapply frame_trans; [|exact F]. unfold same_but_fields in Hs. rewrite Hs. by split.
  Qed.
  Definition at_start (ins : list input) : world := World ∅ [] ins [] [] [] false.
  Definition done_with (c : cpp) (w : world) : Prop :=
    filter (fun e => input_effect v e = true) (w_out w) = map (sent_effect v) (c_sent c) /\ exists before, w_out w = before ++ finished c :: dumped c.
  Lemma animate_main n ins script e c : v <> VRos -> typed_as is_out types ins script e -> length script < rounds -> animate P script = Some c ->
    exists w', if is_running (c_status c) then
        (if e then R (S (S (S (S n)))) None [lit "main"] [] (at_start ins) = Busy w' /\ rounds - length script <= sorries (w_out w')
         else R (S (S (S (S n)))) None [lit "main"] [] (at_start ins) = Waits w') /\ filter (fun e => input_effect v e = true) (w_out w') = map (sent_effect v) (c_sent c)
      else R (S (S (S (S n)))) None [lit "main"] [] (at_start ins) = Fine (VInt (exit_code (c_status c))) w' /\ done_with c w'.
  Proof.
    intros Hnr Hfit Hlen Ha. unfold animate in Ha. destruct (start P) as [c1|] eqn:Est; [|done]. set (w0 := at_start ins).
    rewrite (run_call_S _ _ _ _ _ _ _ _ _ _ (d_fun _ _ _ _ _ _ HD _ _ _ _ in_main)) by (by destruct v).
    assert (Ez : zip (map snd (a_main_params v)) (@nil cval) = []) by (by destruct v). rewrite Ez. change (set_vars [] w0) with w0.
    assert (Ei : a_init v name tc = [SInit (plain_t [lit "StateMachine"]) (lit "stm") []; a_log v info (EStr (lit "Test " ++ name ++ lit " in main loop.")) []]) by (by destruct v).
    rewrite Ei. clear Ei.
    assert (Et : topics = []) by (unfold topics; by destruct v). destruct (init_ok n c1 [] w0 Est) as (w1 & E1 & Hr1 & F1); [rewrite Et; constructor|done|done|].
    cbn [app]. rewrite (execs_cons _ _ _ _ _ _ _ _ _ E1). set (w2 := declare (lit "stm") stm_obj w1).
    assert (E2 : exec (S (S (S n))) None (a_log v info (EStr (lit "Test " ++ name ++ lit " in main loop.")) []) w2 = Fine Go (put_out (logged v info [VStr (lit "Test " ++ name ++ lit " in main loop.")]) w2)).
    { apply log_ok; [by left| |constructor]. apply cpp_safe_app; [by apply safeb_ok|]. apply cpp_safe_app; [done|by apply safeb_ok]. }
    rewrite (execs_cons _ _ _ _ _ _ _ _ _ E2). set (w3 := put_out _ w2). assert (Hr3 : rel true c1 w3) by (apply rel_out; [by apply rel_vars|]; apply log_quiet; by intros r).
    replace (match v with VRos => [ecall [lit "ros"; lit "spin"] []] | _ => a_loop tc ctx end) with (a_loop tc ctx) by (by destruct v). unfold a_loop. rewrite <- !app_assoc.
    assert (Hmsg : says (S (S (S n))) (w_vars w3) (if tc_first_state_has_in tc then [cout (lit "[!] Test is waiting for the SUT to initialise before sending an input.\n")] else [])).
    { destruct (tc_first_state_has_in tc); [apply says_cout; by eexists|apply says_nil]. }
    destruct (Hmsg w3 eq_refl) as (es & Q & E3). rewrite (execs_app _ _ _ _ _ _ _ _ _ E3). set (w4 := outs es w3). assert (Hr4 : rel true c1 w4) by (by apply rel_outs).
    assert (Hv4 : w_vars w4 = [(lit "stm", stm_obj)]) by (cbn [w4 w3 w2 outs put_out declare set_vars w_vars]; by rewrite (fr_vars _ _ F1)).
    assert (Hin4 : w_in w4 = ins) by (cbn [w4 w3 w2 outs put_out declare set_vars w_in]; by rewrite (fr_in _ _ F1)).
    cbn [app SpecRun.execs]. rewrite exec_for. pose proof (gives_get_status (S (S (S n))) c1 w4 Hr4 ltac:(by rewrite Hv4)) as G. unfold gives in G. rewrite G. cbn [rbind].
    set (w5 := declare (lit "s") (v_status (c_status c1)) w4). change (SBlock (a_round tc ctx)) with round_stmt.
    destruct (loop_ok n ins script e Hnr Hfit rounds c1 c w5 Hlen Ha) as (w6 & Hloop); [by apply rel_vars|cbn [w5 declare set_vars w_vars]; by rewrite Hv4|done|].
    unfold the_loop in Hloop. destruct (is_running (c_status c)) eqn:Erun.
    - destruct Hloop as [Hloop Hsent]. exists w6. split; [|exact Hsent]. destruct e; [destruct Hloop as [-> Hso]; split; [reflexivity|done]|by rewrite Hloop].
    - destruct Hloop as (-> & Hr6 & Hv6). cbn [rbind]. rewrite Hv4. unfold leave. rewrite Hv6. change (drop (length (round_vars c) - length [(lit "stm", stm_obj)]) (round_vars c)) with [(lit "stm", stm_obj)].
      set (w7 := set_vars _ w6). assert (Hr7 : rel true c w7) by (by apply rel_vars).
      change (SpecRun.execs p conv rounds (R (S (S (S n)))) None (a_final v name) w7) with (execs (S (S (S n))) None (a_final v name) w7). rewrite (final_ok (S (S n)) c w7 Hname Hr7 eq_refl). cbn [rbind].
      eexists. split; [reflexivity|]. split; [|by eexists]. pose proof (rel_outs true c (declare (lit "status") (v_status (c_status c)) w7) _ (quiet_final c) (rel_vars _ _ _ _ Hr7)) as Hr8.
      exact (r_sent _ _ _ Hr8).
  Qed.

  (** ** main of the ROS variant *)
  Context (Htop : forall a, a ∈ tc_in tc \/ a ∈ tc_out tc -> cpp_safe (topic_name (agg_name a))).
  Context (Htopics : NoDup (map (fun a => topic_name (agg_name a)) (tc_out tc))) (Hacc_topic : lit "input_accepted" ∉ map (fun a => topic_name (agg_name a)) (tc_out tc)).
  Definition reg (vars : list (gostr * cval)) (subs : list (gostr * (cval * cval))) (timers : list (Z * (cval * cval))) (w : world) : world :=
    World (w_fields w) (vars ++ w_vars w) (w_in w) (w_out w) (w_subs w ++ subs) (w_timers w ++ timers) (w_down w).
  Lemma reg_nil w : reg [] [] [] w = w.
  Proof. unfold reg. rewrite !app_nil_r. by destruct w. Qed.
  Lemma reg_reg v1 s1 t1 v2 s2 t2 w : reg v2 s2 t2 (reg v1 s1 t1 w) = reg (v2 ++ v1) (s1 ++ s2) (t1 ++ t2) w.
  Proof. unfold reg. cbn. by rewrite !app_assoc. Qed.
  Definition spare (vars : list (gostr * cval)) : Prop := Forall (fun y => y.1 ∉ [lit "nh"; lit "stm"; lit "TIMEOUT_SEC"; lit "INPUT_DELAY_SEC"]) vars.
  Lemma spare_var vars r x : x ∈ [lit "nh"; lit "stm"; lit "TIMEOUT_SEC"; lit "INPUT_DELAY_SEC"] -> spare vars -> var_of x (vars ++ r) = var_of x r.
  Proof.
    intros Hx. induction 1 as [|[y u] vars Hy _ IH]; [done|]. cbn [app var_of fst] in *. rewrite str_eqb_ne; [exact IH|]. intros ->. by apply Hy.
  Qed.
  Definition registers (n : nat) (l : list stmt) vars subs timers : Prop := spare vars /\
    forall w, var_of (lit "nh") (w_vars w) = Some VNode -> var_of (lit "stm") (w_vars w) = Some stm_obj -> var_of (lit "TIMEOUT_SEC") (w_vars w) = None -> var_of (lit "INPUT_DELAY_SEC") (w_vars w) = None ->
    execs n None l w = Fine Go (reg vars subs timers w).
  Lemma registers_nil n : registers n [] [] [] [].
  Proof. split; [constructor|]. intros w _ _ _ _. by rewrite reg_nil. Qed.
  Lemma registers_app n l1 l2 v1 s1 t1 v2 s2 t2 : registers n l1 v1 s1 t1 -> registers n l2 v2 s2 t2 -> registers n (l1 ++ l2) (v2 ++ v1) (s1 ++ s2) (t1 ++ t2).
  Proof.
    intros [S1 H1] [S2 H2]. split; [by apply Forall_app|]. intros w A B C D. rewrite (execs_app _ _ _ _ _ _ _ _ _ (H1 w A B C D)). rewrite H2, reg_reg; [done| | | |];
      cbn [reg w_vars]; (rewrite spare_var; [done| |done]); rewrite !elem_of_cons; auto 10.
  Qed.
  Lemma gives_method n f w : f ∈ sm_names m -> gives p conv (R n) None (method_ref f) w (VMethod SM f).
  Proof.
    intros Hf. unfold gives, method_ref, SMq. cbn [SpecRun.eval]. change (lit "StateMachine") with SM. by rewrite (d_sm _ _ _ _ _ _ HD), bool_decide_eq_true_2.
  Qed.
  Lemma gives_stm_ref n w : var_of (lit "stm") (w_vars w) = Some stm_obj -> gives p conv (R n) None stm_ref w stm_obj.
  Proof.
    intros Hv. unfold gives, stm_ref. pose proof (gives_var n None (lit "stm") w _ Hv) as G. unfold gives, nm in G. unfold nm. cbn [SpecRun.eval]. cbn [SpecRun.eval] in G. rewrite G. reflexivity.
  Qed.
  Lemma sub_registers n x topic cb : spare [(x, VHandle)] -> cpp_safe topic -> cb ∈ sm_names m -> registers n [a_ros_sub x topic cb] [(x, VHandle)] [(topic, (VMethod SM cb, stm_obj))] [].
  Proof.
    intros Hx Ht Hcb. split; [done|]. intros w A B C D. cbn [SpecRun.execs]. unfold a_ros_sub. cbn [SpecRun.exec]. unfold nh_call, mcall. rewrite eval_dot.
    pose proof (gives_var n None (lit "nh") w _ A) as G. unfold gives, nm in G. rewrite G. cbn [rbind]. rewrite posts_call.
    rewrite (gives_evals n None _ [VStr topic; VInt 10; VMethod SM cb; stm_obj] w).
    2: { constructor; [by apply gives_str|]. constructor; [reflexivity|]. constructor; [by apply gives_method|]. constructor; [by apply gives_stm_ref|constructor]. }
    cbn [rbind]. unfold call_member. rewrite str_eqb_refl. cbn [rbind]. unfold reg. cbn [app]. by rewrite app_nil_r.
  Qed.
  Lemma timer_registers n x sec k cb : spare [(x, VHandle)] -> cb ∈ sm_names m ->
    (forall w, var_of (lit "TIMEOUT_SEC") (w_vars w) = None -> var_of (lit "INPUT_DELAY_SEC") (w_vars w) = None -> gives p conv (R n) None (nm sec) w (VInt k)) ->
    registers n [a_timer x sec cb] [(x, VHandle)] [] [(k, (VMethod SM cb, stm_obj))].
  Proof.
    intros Hx Hcb Hk. split; [done|]. intros w A B C D. cbn [SpecRun.execs]. unfold a_timer. cbn [SpecRun.exec]. unfold nh_call, mcall. rewrite eval_dot.
    pose proof (gives_var n None (lit "nh") w _ A) as G. unfold gives, nm in G. rewrite G. cbn [rbind]. rewrite posts_call.
    rewrite (gives_evals n None _ [VInt k; VMethod SM cb; stm_obj] w).
    2: { constructor; [|constructor; [by apply gives_method|]; constructor; [by apply gives_stm_ref|constructor]]. unfold gives, MainAst.call. rewrite eval_call by done.
         rewrite (gives_evals n None _ [VInt k] w); [reflexivity|]. constructor; [by apply Hk|constructor]. }
    cbn [rbind]. unfold call_member. rewrite str_eqb_refl. cbn [rbind]. unfold reg. cbn [app]. by rewrite app_nil_r.
  Qed.
  Lemma gives_sec n x k w : find_const p x = Some (ENum k) -> var_of x (w_vars w) = None -> forall z, nat_lit k = Some z -> gives p conv (R n) None (nm x) w (VInt (Z.of_N z)).
  Proof. intros H1 H2 z Hz. apply gives_name. unfold name_value. rewrite H2. cbn [field_of]. rewrite H1. cbn [const_value]. by rewrite Hz. Qed.
  Definition the_subs : list (gostr * (cval * cval)) :=
    (if tc_has_in tc then [(lit "input_accepted", (VMethod SM (lit "inputAcceptedCallback"), stm_obj))] else []) ++
    map (fun a => (topic_name (agg_name a), (VMethod SM (callback_name (agg_name a)), stm_obj))) (tc_out tc).
  Definition the_timers : list (Z * (cval * cval)) :=
    (15%Z, (VMethod SM (lit "timeoutCallback"), stm_obj)) :: (if tc_first_state_has_in tc then [(3%Z, (VMethod SM (lit "initialDelayCallback"), stm_obj))] else []).
  Lemma ends_not (a b : gostr) s : drop (length b - length s) b <> s -> a ++ s <> b.
  Proof. intros H <-. apply H. rewrite app_length. replace (length a + length s - length s) with (length a) by lia. apply drop_app. Qed.
  Lemma sub_spare x : spare [(subscriber_name x, VHandle)].
  Proof. constructor; [|constructor]. cbn [fst]. unfold subscriber_name. rewrite !elem_of_cons, elem_of_nil. intros [H|[H|[H|[H|[]]]]]; revert H; apply ends_not; vm_compute; discriminate. Qed.
  Lemma callback_in a : a ∈ tc_out tc -> callback_name (agg_name a) ∈ sm_names m.
  Proof. intros Ha. unfold sm_names. rewrite !elem_of_app. right. right. left. apply elem_of_list_fmap. by exists a. Qed.
  Lemma subs_register n (l : list agg) : (forall a, a ∈ l -> a ∈ tc_out tc) -> exists vars,
    registers n (map (fun a => a_ros_sub (subscriber_name (agg_name a)) (topic_name (agg_name a)) (callback_name (agg_name a))) l) vars
      (map (fun a => (topic_name (agg_name a), (VMethod SM (callback_name (agg_name a)), stm_obj))) l) [].
  Proof.
    induction l as [|a l IH]; intros Hl; [exists []; apply registers_nil|]. destruct IH as [vars H]; [intros b Hb; apply Hl; by right|].
    eexists. cbn [map]. refine (registers_app n [_] _ _ [_] [] _ _ [] _ H). assert (Ha : a ∈ tc_out tc) by (apply Hl; left). apply sub_registers; [apply sub_spare|apply Htop; by right|by apply callback_in].
  Qed.
  Lemma ros_registers n : v = VRos -> exists vars, registers n (a_ros_subs tc) vars the_subs the_timers.
  Proof.
    intros Hv. destruct (d_consts _ _ _ _ _ _ HD Hv) as [Hc1 Hc2]. destruct (subs_register n (tc_out tc) ltac:(done)) as [vs Hs]. unfold a_ros_subs.
    assert (exists vars, registers n (if tc_has_in tc then [a_ros_sub (lit "input_accepted_sub") (lit "input_accepted") (lit "inputAcceptedCallback")] else []) vars
      (if tc_has_in tc then [(lit "input_accepted", (VMethod SM (lit "inputAcceptedCallback"), stm_obj))] else []) []) as [v1 H1].
    { destruct (tc_has_in tc) eqn:Eh; [|exists []; apply registers_nil]. eexists. apply sub_registers.
      - constructor; [|constructor]. apply (bool_decide_eq_true_1 (_ ∉ _)). by vm_compute.
      - by apply safeb_ok.
      - unfold sm_names, opt_names. rewrite Eh, !elem_of_app. right. left. right. left. }
    assert (registers n [a_timer (lit "timeout_timer") (lit "TIMEOUT_SEC") (lit "timeoutCallback")] [(lit "timeout_timer", VHandle)] [] [(15%Z, (VMethod SM (lit "timeoutCallback"), stm_obj))]) as H3.
    { apply timer_registers.
      - constructor; [|constructor]. apply (bool_decide_eq_true_1 (_ ∉ _)). by vm_compute.
      - apply in_sm_fixed. unfold fixed_names. rewrite !elem_of_cons. auto 20.
      - intros w A B. by apply (gives_sec n _ (lit "15") w Hc1 A 15%N). }
    assert (exists vars, registers n (if tc_first_state_has_in tc then [a_timer (lit "initial_delay_timer") (lit "INPUT_DELAY_SEC") (lit "initialDelayCallback")] else []) vars []
      (if tc_first_state_has_in tc then [(3%Z, (VMethod SM (lit "initialDelayCallback"), stm_obj))] else [])) as [v4 H4].
    { destruct (tc_first_state_has_in tc) eqn:Eh; [|exists []; apply registers_nil]. eexists. apply timer_registers.
      - constructor; [|constructor]. apply (bool_decide_eq_true_1 (_ ∉ _)). by vm_compute.
      - unfold sm_names, opt_names. rewrite Eh, !elem_of_app. right. left. left. left.
      - intros w A B. by apply (gives_sec n _ (lit "3") w Hc2 B 3%N). }
    eexists. pose proof (registers_app _ _ _ _ _ _ _ _ _ H1 (registers_app _ _ _ _ _ _ _ _ _ Hs (registers_app _ _ _ _ _ _ _ _ _ H3 H4))) as H. cbn [app] in H. rewrite ?app_nil_r in H. exact H.
  Qed.

  Definition pub_var (a : agg) : gostr * cval := (publisher_name (agg_name a), VTopic (topic_name (agg_name a))).
  Lemma pub_var_ne a x : drop (length x - 4) x <> lit "_pub" -> publisher_name (agg_name a) <> x.
  Proof. intros H. unfold publisher_name. by apply ends_not. Qed.
  Lemma pubs_declare n (l : list agg) : (forall a, a ∈ l -> a ∈ tc_in tc) -> forall w, var_of (lit "nh") (w_vars w) = Some VNode ->
    execs n None (map (fun a => SDecl auto_t (publisher_name (agg_name a))
         (Some (EPost (nm (lit "nh")) [XDot (lit "advertise"); XInst [channel_value_type (agg_name a)]; XCall [EStr (topic_name (agg_name a)); ENum (lit "1000")]]))) l) w =
    Fine Go (set_vars (rev (map pub_var l) ++ w_vars w) w).
  Proof.
    induction l as [|a l IH]; intros Hl w A; [cbn; by rewrite set_vars_id|]. cbn [map].
    assert (E : exec n None (SDecl auto_t (publisher_name (agg_name a))
         (Some (EPost (nm (lit "nh")) [XDot (lit "advertise"); XInst [channel_value_type (agg_name a)]; XCall [EStr (topic_name (agg_name a)); ENum (lit "1000")]]))) w =
         Fine Go (set_vars (pub_var a :: w_vars w) w)).
    { cbn [SpecRun.exec]. unfold nm. rewrite eval_dot. pose proof (gives_var n None (lit "nh") w _ A) as G. unfold gives, nm in G. rewrite G. cbn [rbind]. rewrite posts_inst.
      rewrite (gives_evals n None _ [VStr (topic_name (agg_name a)); VInt 1000] w); [reflexivity|]. constructor; [apply gives_str; apply Htop; left; apply Hl; left|]. constructor; [reflexivity|constructor]. }
    rewrite (execs_cons _ _ _ _ _ _ _ _ _ E), IH; [|intros b Hb; apply Hl; by right|].
    - cbn [rev set_vars w_vars]. rewrite <- app_assoc. done.
    - cbn [set_vars w_vars pub_var var_of fst]. rewrite str_eqb_ne; [done|]. by apply pub_var_ne.
  Qed.
  Lemma pub_vars_find (l : list agg) a r : a ∈ l -> var_of (publisher_name (agg_name a)) (map pub_var l ++ r) = Some (VTopic (topic_name (agg_name a))).
  Proof.
    induction l as [|b l IH]; [by intros H%elem_of_nil|]. intros H. cbn [map app pub_var var_of fst]. destruct (decide (publisher_name (agg_name b) = publisher_name (agg_name a))) as [E|Hn].
    - rewrite E, str_eqb_refl. by rewrite (pub_same _ _ E).
    - rewrite str_eqb_ne by done. apply IH. apply elem_of_cons in H as [->|H]; [done|done].
  Qed.
  Lemma pub_vars_skip (l : list agg) x r : drop (length x - 4) x <> lit "_pub" -> var_of x (map pub_var l ++ r) = var_of x r.
  Proof. intros Hx. induction l as [|b l IH]; [done|]. cbn [map app pub_var var_of fst]. rewrite str_eqb_ne; [done|]. by apply pub_var_ne. Qed.
  Lemma rev_pub_var (l : list agg) : rev (map pub_var l) = map pub_var (rev l).
  Proof. symmetry. apply map_rev. Qed.

  (** ros::spin *)
  Definition ros_input (e : ros_event) : input :=
    match e with
    | RTimeout => ITick 15
    | RDelay => ITick 3
    | RAccept => IMsg (lit "input_accepted") (VBool true)
    | ROut ch x => IMsg (topic_name ch) (val x)
    end.
  Definition fits_event (e : ros_event) : Prop :=
    match e with ROut ch x => ch ∈ map agg_name (tc_out tc) /\ exists t, types !! ch = Some t /\ fits_type t x | _ => True end.
  Lemma deliver_one n f arg c c' w : runs n true f [arg] c c' -> rel true c w ->
    exists w', deliver (R n) [(VMethod SM f, stm_obj)] [arg] w = Fine VUnit w' /\ rel true c' w' /\ frame w w'.
  Proof.
    intros Hf Hr. destruct (Hf w Hr) as (w' & E & Hw). exists w'. split; [|done]. cbn [deliver]. unfold stm_obj. rewrite str_eqb_refl.
    change (Some (SM, [lit "stm"])) with sm_self. change [SM; f] with (SMq f). rewrite E. reflexivity.
  Qed.
  Lemma filter_topics (l : list agg) a : NoDup (map (fun a => topic_name (agg_name a)) l) -> a ∈ l ->
    filter (fun s => str_eqb s.1 (topic_name (agg_name a)) = true) (map (fun a => (topic_name (agg_name a), (VMethod SM (callback_name (agg_name a)), stm_obj))) l) =
    [(topic_name (agg_name a), (VMethod SM (callback_name (agg_name a)), stm_obj))].
  Proof.
    induction l as [|b l IH]; [by intros _ H%elem_of_nil|]. cbn [map]. intros [Hb Hn]%NoDup_cons Ha. rewrite filter_cons. cbn [fst].
    apply elem_of_cons in Ha as [<-|Ha].
    - rewrite decide_True by apply str_eqb_refl. f_equal. clear -Hb. induction l as [|d l IH]; [done|]. cbn [map] in Hb |- *. apply not_elem_of_cons in Hb as [H1 H2].
      rewrite filter_cons_False; [by apply IH|]. cbn [fst]. by rewrite str_eqb_ne by congruence.
    - rewrite decide_False; [by apply IH|]. rewrite str_eqb_ne; [done|]. intros E. apply Hb. rewrite E. apply elem_of_list_fmap. by exists a.
  Qed.
  Lemma filter_none (l : list agg) t : t ∉ map (fun a => topic_name (agg_name a)) l ->
    filter (fun s => str_eqb s.1 t = true) (map (fun a => (topic_name (agg_name a), (VMethod SM (callback_name (agg_name a)), stm_obj))) l) = [].
  Proof.
    induction l as [|d l IH]; [done|]. cbn [map]. intros [H1 H2]%not_elem_of_cons. rewrite filter_cons_False; [by apply IH|]. cbn [fst]. by rewrite str_eqb_ne by congruence.
  Qed.
  Lemma ros_event_ok n e c c' w : v = VRos -> fits_event e -> is_running (c_status c) = true -> ros_callback P e c = Some c' -> rel true c w -> w_subs w = the_subs -> w_timers w = the_timers ->
    exists l args, callbacks (ros_input e) w = Some (l, args) /\ forall r, exists w', deliver (R (S (S (S n)))) l args (set_in r w) = Fine VUnit w' /\ rel true c' w' /\ frame (set_in r w) w'.
  Proof.
    intros Hv Hfit Hrun Hc Hr Hsubs Htimers. destruct prog_eq as (acc & Hacc & EP). assert (Ed : p_delay P = tc_first_state_has_in tc) by (by rewrite EP).
    assert (Epa : p_accept P = if tc_has_in tc then Some acc else None) by (by rewrite EP). assert (Epo : p_outs P = map gen_out (tc_out tc)) by (by rewrite EP).
    assert (Hnone : c' = c -> forall r, exists w', deliver (R (S (S (S n)))) [] [VUnit] (set_in r w) = Fine VUnit w' /\ rel true c' w' /\ frame (set_in r w) w').
    { intros -> r. eexists. split; [reflexivity|]. split; [by apply rel_in|done]. }
    assert (Hone : forall f arg, runs (S (S (S n))) true f [arg] c c' -> forall r, exists w', deliver (R (S (S (S n)))) [(VMethod SM f, stm_obj)] [arg] (set_in r w) = Fine VUnit w' /\ rel true c' w' /\ frame (set_in r w) w').
    { intros f arg Hf r. apply deliver_one with c; [done|by apply rel_in]. }
    destruct e as [| | |ch x]; cbn [ros_input callbacks ros_callback fits_event] in *.
    - injection Hc as <-. eexists _, _. split; [reflexivity|]. rewrite Htimers. unfold the_timers. rewrite filter_cons_True by done.
      assert (filter (fun s => (s.1 =? 15)%Z = true) (if tc_first_state_has_in tc then [(3%Z, (VMethod SM (lit "initialDelayCallback"), stm_obj))] else []) = []) as -> by (by destruct (tc_first_state_has_in tc)).
      cbn [map snd]. apply Hone. apply timeout_ok. by rewrite Hv.
    - rewrite Ed in Hc. eexists _, _. split; [reflexivity|]. rewrite Htimers. unfold the_timers. rewrite filter_cons_False by done. destruct (tc_first_state_has_in tc) eqn:Ef.
      + change (map snd (filter (fun s => (s.1 =? 3)%Z = true) [(3%Z, (VMethod SM (lit "initialDelayCallback"), stm_obj))])) with [(VMethod SM (lit "initialDelayCallback"), stm_obj)].
        apply Hone. apply delay_ok; [done|by rewrite Hv|done|done].
      + injection Hc as <-. by apply Hnone.
    - rewrite Epa in Hc. eexists _, _. split; [reflexivity|]. rewrite Hsubs. unfold the_subs. rewrite filter_app, (filter_none (tc_out tc)) by exact Hacc_topic. rewrite app_nil_r. destruct (tc_has_in tc) eqn:Eh.
      + rewrite filter_cons_True by apply str_eqb_refl. cbn [filter list_filter map snd]. apply Hone. apply accept_ok; [by rewrite Hv|done|done].
      + injection Hc as <-. cbn [filter list_filter map]. intros r. eexists. split; [reflexivity|]. split; [by apply rel_in|done].
    - destruct Hfit as ((a & -> & Ha)%elem_of_list_fmap & t & Ht & Hfit). eexists _, _. split; [reflexivity|]. rewrite Hsubs. unfold the_subs. rewrite filter_app.
      rewrite (filter_topics _ _ Htopics Ha).
      assert (filter (fun s => str_eqb s.1 (topic_name (agg_name a)) = true) (if tc_has_in tc then [(lit "input_accepted", (VMethod SM (lit "inputAcceptedCallback"), stm_obj))] else []) = []) as ->.
      { destruct (tc_has_in tc); [|done]. rewrite filter_cons_False; [done|]. cbn [fst]. rewrite str_eqb_ne; [done|]. intros E. apply Hacc_topic. rewrite E. apply elem_of_list_fmap. by exists a. }
      cbn [app map snd]. rewrite Epo in Hc. apply Hone.
      assert (Hd : exists b, b ∈ tc_out tc /\ agg_name b = agg_name a /\ head (filter (fun o => oc_chan o = agg_name a) (map gen_out (tc_out tc))) = Some (gen_out b)).
      { clear -Ha. induction (tc_out tc) as [|b l IH]; [by apply elem_of_nil in Ha|]. cbn [map]. rewrite filter_cons. destruct (decide (oc_chan (gen_out b) = agg_name a)) as [E|Hne].
        - exists b. split; [left|]. split; [exact E|done].
        - apply elem_of_cons in Ha as [->|Ha]; [by destruct Hne|]. destruct (IH Ha) as (d & Hd & E & E'). exists d. split; [by right|done]. }
      destruct Hd as (b & Hb & Eb & Ehd). rewrite Ehd in Hc. rewrite <- Eb. rewrite <- Eb in Ht. by eapply out_ok.
  Qed.
  Lemma spin_ok n evs : v = VRos -> Forall fits_event evs -> forall c c' w, ros_loop P evs c = Some c' -> rel true c w -> w_subs w = the_subs -> w_timers w = the_timers ->
    exists w', rel true c' w' /\ w_vars w' = w_vars w /\ spin (R (S (S (S n)))) (map ros_input evs) w = if is_running (c_status c') then Waits w' else Fine VUnit w'.
  Proof.
    intros Hv. induction 1 as [|e evs Hfit _ IH]; intros c c' w Hloop Hr Hs Ht; cbn [map spin]; rewrite (r_down _ _ _ Hr Hv).
    - cbn in Hloop. injection Hloop as <-. exists w. split; [done|]. split; [done|]. by destruct (is_running (c_status c)).
    - cbn [ros_loop] in Hloop. unfold ros_step in Hloop. destruct (is_running (c_status c)) eqn:Erun; cbn [negb].
      + destruct (ros_callback P e c) as [c1|] eqn:Ec; [|done]. destruct (ros_event_ok n e c c1 w Hv Hfit Erun Ec Hr Hs Ht) as (l & args & -> & Hd).
        destruct (Hd (map ros_input evs)) as (w1 & E1 & Hr1 & F1). rewrite E1. cbn [rbind].
        destruct (IH c1 c' w1 Hloop Hr1) as (w2 & Hr2 & Hv2 & E2); [by rewrite (fr_subs _ _ F1)|by rewrite (fr_timers _ _ F1)|]. exists w2. split; [done|]. split; [|done].
        rewrite Hv2. apply F1.
      + assert (c' = c) as ->.
        { clear -Hloop Erun. revert Hloop. induction evs as [|e' l IH]; cbn [ros_loop]; [by intros [=]|]. unfold ros_step. rewrite Erun. exact IH. }
        exists w. by rewrite Erun.
  Qed.
  Lemma ros_main n evs c : v = VRos -> Forall fits_event evs -> ros P evs = Some c ->
    exists w', if is_running (c_status c) then R (S (S (S (S n)))) None [lit "main"] [VInt 1; VUnit] (at_start (map ros_input evs)) = Waits w' /\ filter (fun e => input_effect v e = true) (w_out w') = map (sent_effect v) (c_sent c)
      else R (S (S (S (S n)))) None [lit "main"] [VInt 1; VUnit] (at_start (map ros_input evs)) = Fine (VInt (exit_code (c_status c))) w' /\ done_with c w'.
  Proof.
    intros Hv Hfit Ha. unfold ros in Ha. destruct (start P) as [c1|] eqn:Est; [|done]. set (w0 := at_start (map ros_input evs)).
    rewrite (run_call_S _ _ _ _ _ _ _ _ _ _ (d_fun _ _ _ _ _ _ HD _ _ _ _ in_main)) by (by rewrite Hv).
    set (vars0 := [(lit "argc", VInt 1); (lit "argv", VUnit)]). assert (Ez : zip (map snd (a_main_params v)) [VInt 1; VUnit] = vars0) by (by rewrite Hv). rewrite Ez. clear Ez.
    set (wa := set_vars vars0 w0).
    assert (Eb : a_init v name tc ++ match v with VRos => [ecall [lit "ros"; lit "spin"] []] | _ => a_loop tc ctx end ++ a_final v name =
      ecall [lit "ros"; lit "init"] [nm (lit "argc"); nm (lit "argv"); EStr name] :: SDecl (plain_t [lit "ros"; lit "NodeHandle"]) (lit "nh") None ::
      map (fun a => SDecl auto_t (publisher_name (agg_name a))
         (Some (EPost (nm (lit "nh")) [XDot (lit "advertise"); XInst [channel_value_type (agg_name a)]; XCall [EStr (topic_name (agg_name a)); ENum (lit "1000")]]))) (tc_in tc) ++
      SInit (plain_t [lit "StateMachine"]) (lit "stm") (map (fun a => nm (publisher_name (agg_name a))) (tc_in tc)) :: a_ros_subs tc ++
      a_log v info (EStr (lit "Test " ++ name ++ lit " in main loop.")) [] :: ecall [lit "ros"; lit "spin"] [] :: a_final v name).
    { rewrite Hv. unfold a_init, a_ros_init, a_ctor_args. rewrite <- !app_assoc. reflexivity. }
    rewrite Eb. clear Eb.
    assert (E1 : exec (S (S (S n))) None (ecall [lit "ros"; lit "init"] [nm (lit "argc"); nm (lit "argv"); EStr name]) wa = Fine Go wa).
    { unfold ecall, MainAst.call. eapply exec_expr. rewrite eval_call by done. rewrite (gives_evals _ None _ [VInt 1; VUnit; VStr name] wa); [reflexivity|].
      constructor; [by apply gives_var|]. constructor; [by apply gives_var|]. constructor; [by apply gives_str|constructor]. }
    rewrite (execs_cons _ _ _ _ _ _ _ _ _ E1). set (wb := declare (lit "nh") VNode wa). rewrite (execs_cons _ _ _ _ _ _ _ _ wb) by reflexivity.
    rewrite (execs_app _ _ _ _ _ _ _ _ _ (pubs_declare _ (tc_in tc) ltac:(done) wb eq_refl)). rewrite rev_pub_var. set (wc := set_vars _ wb).
    destruct (init_ok n c1 (map (fun a => nm (publisher_name (agg_name a))) (tc_in tc)) wc Est) as (w1 & E2 & Hr1 & F1); [|done|done|].
    { unfold topics. rewrite Hv. assert (Hl : forall l, (forall a, a ∈ l -> a ∈ tc_in tc) -> Forall2 (fun e x => gives p conv (R (S (S (S n)))) None e wc x) (map (fun a => nm (publisher_name (agg_name a))) l) (map (fun a => VTopic (topic_name (agg_name a))) l)).
      { induction l as [|a l IH]; intros Hl; [constructor|]. constructor; [|apply IH; intros b Hb; apply Hl; by right]. apply gives_var. cbn [wc set_vars w_vars]. apply pub_vars_find.
        apply elem_of_list_In, (proj1 (in_rev _ _)), elem_of_list_In. apply Hl. left. }
      by apply Hl. }
    rewrite (execs_cons _ _ _ _ _ _ _ _ _ E2). set (w2 := declare (lit "stm") stm_obj w1).
    assert (Hv2 : w_vars w2 = (lit "stm", stm_obj) :: map pub_var (rev (tc_in tc)) ++ (lit "nh", VNode) :: vars0) by (cbn [w2 declare set_vars w_vars]; rewrite (fr_vars _ _ F1); done).
    destruct (ros_registers (S (S (S n))) Hv) as (vars & Hsp & Hreg).
    assert (Hx : forall x, drop (length x - 4) x <> lit "_pub" -> x <> lit "stm" -> var_of x (w_vars w2) = var_of x ((lit "nh", VNode) :: vars0)).
    { intros x H1 H2. rewrite Hv2. cbn [var_of]. rewrite str_eqb_ne by congruence. by apply pub_vars_skip. }
    assert (E3 : execs (S (S (S n))) None (a_ros_subs tc) w2 = Fine Go (reg vars the_subs the_timers w2)).
    { apply Hreg; [by rewrite Hx|by rewrite Hv2|by rewrite Hx|by rewrite Hx]. }
    rewrite (execs_app _ _ _ _ _ _ _ _ _ E3). set (w3 := reg _ _ _ w2).
    assert (Hr3 : rel true c1 w3) by (destruct Hr1 as [H1 H2 H3 H4 H5 H6 H7 H8]; by split).
    assert (E4 : exec (S (S (S n))) None (a_log v info (EStr (lit "Test " ++ name ++ lit " in main loop.")) []) w3 = Fine Go (put_out (logged v info [VStr (lit "Test " ++ name ++ lit " in main loop.")]) w3)).
    { apply log_ok; [by left| |constructor]. apply cpp_safe_app; [by apply safeb_ok|]. apply cpp_safe_app; [done|by apply safeb_ok]. }
    rewrite (execs_cons _ _ _ _ _ _ _ _ _ E4). set (w4 := put_out _ w3). assert (Hr4 : rel true c1 w4) by (apply rel_out; [done|]; apply log_quiet; by intros r).
    assert (Hsub : w_subs w4 = the_subs) by (cbn [w4 w3 reg put_out w_subs w2 declare set_vars]; rewrite (fr_subs _ _ F1); done).
    assert (Htim : w_timers w4 = the_timers) by (cbn [w4 w3 reg put_out w_timers w2 declare set_vars]; rewrite (fr_timers _ _ F1); done).
    assert (Hin : w_in w4 = map ros_input evs) by (cbn [w4 w3 reg put_out w_in w2 declare set_vars]; rewrite (fr_in _ _ F1); done).
    assert (Hst4 : var_of (lit "stm") (w_vars w4) = Some stm_obj).
    { cbn [w4 w3 reg put_out w_vars]. rewrite spare_var; [by rewrite Hv2|rewrite !elem_of_cons; auto 10|done]. }
    destruct (spin_ok n evs Hv Hfit c1 c w4 Ha Hr4 Hsub Htim) as (w5 & Hr5 & Hv5 & E5).
    assert (Espin : exec (S (S (S n))) None (ecall [lit "ros"; lit "spin"] []) w4 = if is_running (c_status c) then Waits w5 else Fine Go w5).
    { unfold ecall, MainAst.call. cbn [SpecRun.exec]. rewrite eval_call by done. cbn [SpecRun.evals rbind].
      change (call_named p conv (R (S (S (S n)))) None [lit "ros"; lit "spin"] [] w4) with (spin (R (S (S (S n)))) (w_in w4) w4). rewrite Hin, E5. by destruct (is_running (c_status c)). }
    cbn [SpecRun.execs]. rewrite Espin. destruct (is_running (c_status c)) eqn:Erun; cbn [rbind].
    - exists w5. split; [done|]. apply (r_sent _ _ _ Hr5).
    - change (SpecRun.execs p conv rounds (R (S (S (S n)))) None (a_final v name) w5) with (execs (S (S (S n))) None (a_final v name) w5). rewrite (final_ok (S (S n)) c w5 Hname Hr5 ltac:(by rewrite Hv5)). cbn [rbind].
      eexists. split; [reflexivity|]. split; [|by eexists]. pose proof (rel_outs true c (declare (lit "status") (v_status (c_status c)) w5) _ (quiet_final c) (rel_vars _ _ _ _ Hr5)) as Hr8.
      exact (r_sent _ _ _ Hr8).
  Qed.
End Machine.
