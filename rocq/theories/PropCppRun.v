(** * Properties C43, C44, C45, C58, C59: run-time behaviour of any generated program, C++
    types and literals, identifier case *)
From Verif Require Export PropCppTrace.
From Verif Require Export StmProofs.

(** C43: once an interactive test has ended, nothing typed afterwards changes anything. *)
Lemma animate_loop_ended P rest c : is_running (c_status c) = false -> animate_loop P rest c = Some c.
Proof.
  intros H. induction rest as [|[w v] rest IH]; [done|]. cbn [animate_loop]. unfold animate_step. rewrite H. cbn [negb]. exact IH.
Qed.
Lemma animate_app P script rest : animate P (script ++ rest) = animate P script ≫= animate_loop P rest.
Proof.
  unfold animate. destruct (start P) as [c0|]; [|done]. revert c0. induction script as [|[w v] script IH]; intros c0; [done|].
  cbn [animate_loop app]. destruct (animate_step P w v c0) as [c1|]; [|done]. apply IH.
Qed.
Theorem C43_finished_stays : forall P script rest c,
  animate P script = Some c -> is_running (c_status c) = false -> animate P (script ++ rest) = Some c.
Proof. intros P script rest c H Hr. rewrite animate_app, H. by apply animate_loop_ended. Qed.
Print Assumptions C43_finished_stays.
(** The same for the event loop of the ROS variant. *)
Lemma ros_loop_ended P rest c : is_running (c_status c) = false -> ros_loop P rest c = Some c.
Proof. intros H. induction rest as [|e rest IH]; [done|]. cbn [ros_loop]. unfold ros_step. rewrite H. exact IH. Qed.
Lemma ros_app P evs rest : ros P (evs ++ rest) = ros P evs ≫= ros_loop P rest.
Proof.
  unfold ros. destruct (start P) as [c0|]; [|done]. revert c0. induction evs as [|e evs IH]; intros c0; [done|].
  cbn [ros_loop app]. destruct (ros_step P e c0) as [c1|]; [|done]. apply IH.
Qed.
Theorem C43_finished_stays_ros : forall P evs rest c,
  ros P evs = Some c -> is_running (c_status c) = false -> ros P (evs ++ rest) = Some c.
Proof. intros P evs rest c H Hr. rewrite ros_app, H. by apply ros_loop_ended. Qed.
Print Assumptions C43_finished_stays_ros.

(** A callback itself does not check: an output arriving after the timeout (one already queued
    when ROS shuts down, say) restarts the test. *)
Definition demo_program : program := Eval vm_compute in default (Program [] [] [] [] false None [] [] ∅) demo_prog.
Theorem C43_raw_callback_refuted : exists c c',
  gen_program (b_stm demo_built) branching_types [lit "t"] = Some demo_program /\
  animate demo_program [(lit "ready", no_value); (lit "accept", no_value); (lit "timeout", no_value)] = Some c /\
  c_status c = TIMEOUT /\
  ros_callback demo_program (ROut (lit "d") (EnumV (lit "on"))) c = Some c' /\ is_running (c_status c') = true.
Proof.
  eexists _, _. split; [vm_compute; reflexivity|]. split; [vm_compute; reflexivity|]. split; [done|].
  split; [vm_compute; reflexivity|]. done.
Qed.

(** C44: timers and the end of a test, for any program. *)
Theorem C44_timeout : forall P script c v, animate P script = Some c ->
  animate P (script ++ [(lit "timeout", v)]) =
    Some (Cpp (if is_running (c_status c) then TIMEOUT else c_status c) (c_state c) (c_verdict c) (c_sent c)).
Proof.
  intros P script c v H. rewrite animate_app, H. cbn. unfold animate_step.
  destruct (is_running (c_status c)) eqn:E; cbn [negb].
  - rewrite bool_decide_eq_true_2 by done. unfold timeout_callback, end_test. by rewrite !E.
  - by destruct c.
Qed.
Print Assumptions C44_timeout.
(** A timer can fire at any time: at the level of callbacks, however often. *)
Theorem C44_timeout_callback : forall c n,
  Nat.iter n timeout_callback c =
    if decide (n = 0) then c
    else Cpp (if is_running (c_status c) then TIMEOUT else c_status c) (c_state c) (c_verdict c) (c_sent c).
Proof.
  intros c n. destruct (decide (n = 0)) as [->|Hn]; [done|]. destruct n as [|n]; [done|]. clear Hn.
  induction n as [|n IH].
  - cbn. unfold timeout_callback, end_test. destruct (is_running (c_status c)) eqn:E; [done|by destruct c].
  - change (Nat.iter (S (S n)) timeout_callback c) with (timeout_callback (Nat.iter (S n) timeout_callback c)). rewrite IH.
    unfold timeout_callback at 1. cbn. destruct (is_running (c_status c)) eqn:E; cbn; [done|]. by rewrite E.
Qed.
Print Assumptions C44_timeout_callback.
(** The initial delay matters only while the test is waiting to start, when it enters the
    first state. *)
Theorem C44_initial_delay : forall P c,
  (c_status c <> WAIT_START -> initial_delay_callback P c = Some c) /\
  (c_status c = WAIT_START -> initial_delay_callback P c = enter P (p_initial P) c).
Proof.
  intros P c. unfold initial_delay_callback. split; intros H.
  - by rewrite bool_decide_eq_false_2.
  - by rewrite bool_decide_eq_true_2.
Qed.
(** The first end wins, and ending with a waiting status is an internal error. *)
Theorem C44_end_once : forall s s' c,
  end_test s' (end_test s c) = end_test s c /\
  is_running (c_status (end_test s c)) = false /\
  (is_running (c_status c) = false -> end_test s c = c) /\
  (is_running (c_status c) = true -> is_running s = false -> c_status (end_test s c) = s) /\
  (is_running (c_status c) = true -> is_running s = true -> c_status (end_test s c) = BUG) /\
  c_state (end_test s c) = c_state c /\ c_verdict (end_test s c) = c_verdict c /\ c_sent (end_test s c) = c_sent c.
Proof.
  intros s s' c. unfold end_test. destruct (is_running (c_status c)) eqn:E, (is_running s) eqn:E';
    cbn; rewrite ?E, ?E'; repeat split; done.
Qed.
Print Assumptions C44_end_once.

(** C45: exit codes and running statuses. *)
Theorem C45_exit_codes : forall s,
  (exit_code s = 1%Z <-> s = FAIL) /\ (exit_code s = 2%Z <-> s = BUG) /\
  (exit_code s = 0%Z <-> s <> FAIL /\ s <> BUG) /\
  (is_running s = true <-> s = WAIT_START \/ s = WAIT_IN \/ s = WAIT_OUT).
Proof. intros []; cbn; intuition (try discriminate; try congruence). Qed.
Print Assumptions C45_exit_codes.
(** A test that has finished reports a failure by its exit code exactly if the forbidden
    behaviour was found: internal errors never happen under the interactive loop. *)
Theorem C45_no_internal_error : forall b root b' types tests,
  good_tree root -> build b root = Ok b' -> supported types root -> no_reserved root ->
  exists P, gen_program (b_stm b') types tests = Some P /\
    forall script, exists c, animate P script = Some c /\ exit_code (c_status c) <> 2%Z.
Proof.
  intros b root b' types tests Hg Hb Hs Hr. destruct (C48_follows_tree b root b' types tests Hg Hb Hs Hr) as (P & HP & H).
  exists P. split; [done|]. intros script. destruct (H script) as (c & Hc & [H1 _ _] & _). exists c. split; [done|].
  assert (Hne : c_status c <> BUG); [|by destruct (c_status c)].
  rewrite H1. clear. unfold obs_status.
  assert (Hb : o_end (obs_run root script) <> Some BUG).
  { unfold obs_run. assert (Hi : forall o, o_end o <> Some BUG -> o_end (fold_left (fun o wv => obs_step root o wv.1 wv.2) script o) <> Some BUG).
    { assert (Harr : forall p, o_end (arrive root p) <> Some BUG).
      { intros p. unfold arrive. cbn. destruct (node_at root p) as [n|]; [|done]. by destruct (decide (failing n)). }
      induction script as [|[w v] script IH]; intros o Ho; [done|]. cbn [fold_left fst snd]. apply IH. unfold obs_step.
      destruct (o_end o) eqn:Eo; [by rewrite Eo|]. destruct (decide (w = lit "timeout")) as [E1|E1]; [done|]. destruct (o_at o) as [p|].
      - destruct (node_at root p) as [n|]; [|by rewrite Eo]. destruct (decide (w = lit "accept")) as [E2|E2].
        + destruct (next_input n); [apply Harr|by rewrite Eo].
        + destruct (decide (w ∈ out_names root)) as [E3|E3]; [|by rewrite Eo]. destruct (next_output n w v); [apply Harr|done].
      - destruct (decide (w = lit "ready")) as [E2|E2]; [apply Harr|]. destruct (decide (w ∈ out_names root)) as [E3|E3]; [done|by rewrite Eo]. }
    apply Hi. unfold obs_start. destruct (next_input root); [done|]. unfold arrive. cbn. by destruct (decide (failing root)). }
  destruct (o_end (obs_run root script)) as [s|]; [congruence|]. destruct (o_at _) as [p|]; [|done]. by destruct (node_at root p ≫= next_input).
Qed.
Print Assumptions C45_no_internal_error.

Example C43_C44_C45_witness :
  gen_program (b_stm demo_built) branching_types [lit "t"] = Some demo_program /\
  c_status <$> animate demo_program (demo_script ++ [(lit "d", EnumV (lit "off"))]) = Some FAIL /\
  c_status <$> animate demo_program (demo_script ++ [(lit "d", EnumV (lit "off")); (lit "timeout", no_value)]) = Some FAIL /\
  c_status <$> animate demo_program (demo_script ++ [(lit "timeout", no_value)]) = Some TIMEOUT.
Proof. split; [vm_compute; reflexivity|]. split; [vm_compute; reflexivity|]. split; vm_compute; reflexivity. Qed.

(** ** C58: C++ types and literals *)
Theorem C58_std_types : forall t,
  (std_type t = lit "std::string" <-> t_kind t = TEnum) /\
  (std_type t = lit "unsigned int" <-> t = ty_arithmos DNat) /\
  (std_type t = lit "int" <-> t = ty_arithmos DInt) /\
  (std_type t = lit "double" <-> t = ty_arithmos DReal) /\
  (std_type t = lit "void *" <-> t_kind t <> TEnum /\ t <> ty_arithmos DNat /\ t <> ty_arithmos DInt /\ t <> ty_arithmos DReal).
Proof.
  intros [k d]. destruct k, d; split_and!; split; intros H; try (vm_compute in H; discriminate); try done; try (split_and!; done);
    destruct H as (H1 & H2 & H3 & H4); done.
Qed.
Print Assumptions C58_std_types.
(** The literal of a number denotes that number (up to 63 bits). *)
Theorem C58_number_literals : forall z, (Z.abs z < 2 ^ 63)%Z -> cpp_lit (cpp_value (Some (IntV z))) = Some (IntV z).
Proof.
  intros z H. unfold cpp_value. assert (is_enum_ty (value_type (Some (IntV z))) = false) as -> by (cbn; by destruct (0 <=? z)%Z).
  by apply cpp_lit_int.
Qed.
Print Assumptions C58_number_literals.
(** The literal of a constant denotes that constant exactly if the constant has no quote,
    backslash, line break or NUL. *)
Lemma str_body_length u : forall b, str_body u = Some b -> length b < length u.
Proof.
  induction u as [u IH] using (induction_ltof1 _ (@length ascii)). intros b. unfold ltof in IH. destruct u as [|c r]; [done|].
  cbn [str_body]. destruct (Ascii.eqb c (byte 34)).
  - destruct r; [|done]. intros [= <-]. cbn. lia.
  - destruct (Ascii.eqb c (byte 92)).
    + destruct r as [|d r']; [done|]. cbv zeta. destruct (if Ascii.eqb d (byte 92) then _ else _) as [x|]; [|done].
      destruct (str_body r') as [b'|] eqn:E; [|done]. intros [= <-]. apply IH in E; cbn; lia.
    + destruct (_ || _); [done|]. destruct (str_body r) as [b'|] eqn:E; [|done]. intros [= <-]. apply IH in E; cbn; lia.
Qed.
Lemma str_body_only s : str_body (s ++ lit """") = Some s -> cpp_safe s.
Proof.
  induction s as [|c s IH]; [intros _; repeat split; apply not_elem_of_nil|]. cbn [app str_body].
  destruct (Ascii.eqb c (byte 34)) eqn:E1; [by destruct s|]. destruct (Ascii.eqb c (byte 92)) eqn:E2.
  { destruct (s ++ lit """") as [|d r'] eqn:Es; [done|]. cbv zeta. destruct (if Ascii.eqb d (byte 92) then _ else _) as [x|]; [|done].
    destruct (str_body r') as [b|] eqn:Eb; [|done]. intros [= _ ->]. apply str_body_length in Eb.
    apply (f_equal length) in Es. rewrite app_length in Es. cbn in Es. lia. }
  destruct (Ascii.eqb c (byte 10)) eqn:E3; [done|]. destruct (Ascii.eqb c (byte 13)) eqn:E4; [done|]. destruct (Ascii.eqb c (byte 0)) eqn:E5; [done|].
  cbn [orb]. destruct (str_body (s ++ lit """")) as [b|]; [|done]. intros [= ->]. destruct (IH eq_refl) as (H1 & H2 & H3 & H4 & H5).
  apply Ascii.eqb_neq in E1, E2, E3, E4, E5. split_and!; (apply not_elem_of_cons; split; [by apply not_eq_sym|done]).
Qed.
Theorem C58_constant_literals : forall s, cpp_lit (cpp_value (Some (EnumV s))) = Some (EnumV s) <-> cpp_safe s.
Proof.
  intros s. split.
  - intros H. apply str_body_only. unfold cpp_value in H. cbn [value_type] in H. change (is_enum_ty ty_enum) with true in H. cbn iota in H.
    assert (H' : EnumV <$> str_body (s ++ lit """") = Some (EnumV s)) by exact H.
    destruct (str_body (s ++ lit """")) as [b|]; [|done]. cbn in H'. by injection H' as ->.
  - intros H. unfold cpp_value. cbn [value_type]. change (is_enum_ty ty_enum) with true. cbn iota. by apply cpp_lit_str.
Qed.
Print Assumptions C58_constant_literals.
Example C58_witness :
  std_type (ty_arithmos DNat) = lit "unsigned int" /\
  cpp_value (Some (IntV (-42))) = lit "-42" /\ cpp_value (Some (EnumV (lit "on"))) = lit """on""" /\
  cpp_safe (lit "on") /\ ~ cpp_safe (lit "a""b") /\
  cpp_lit (cpp_value (Some (EnumV (lit "a\nb")))) = Some (EnumV [byte 97; byte 10; byte 98]).
Proof.
  split; [vm_compute; reflexivity|]. split; [vm_compute; reflexivity|]. split; [vm_compute; reflexivity|].
  split; [apply (bool_decide_unpack _); vm_compute; exact I|]. split; [|vm_compute; reflexivity].
  intros (H & _). apply H. right. left.
Qed.

(** ** C59: identifier case *)

(** What lower-underscoring does to each character: lower it, after an underscore if it is a
    capital that follows a small letter. *)
Definition lower_at (s : gostr) (i : nat) (c : ascii) : gostr :=
  match i with
  | 0 => [lower_c c]
  | S j => match s !! j with
           | Some d => if is_lower d && is_upper c then ["_"%char; lower_c c] else [lower_c c]
           | None => [lower_c c]
           end
  end.
Lemma lower_underscored_spec d s : lower_underscored (is_lower d) s = concat (imap (fun i => lower_at (d :: s) (S i)) s).
Proof.
  revert d. induction s as [|c s IH]; intros d; [done|]. rewrite imap_cons. cbn [concat].
  assert (Hs : concat (imap ((fun i => lower_at (d :: c :: s) (S i)) ∘ S) s) = concat (imap (fun i => lower_at (c :: s) (S i)) s)) by done.
  rewrite Hs, <- IH. clear Hs. cbn [lower_underscored]. change (lower_at (d :: c :: s) 1 c) with (if is_lower d && is_upper c then ["_"%char; lower_c c] else [lower_c c]).
  rewrite (andb_comm (is_upper c)). destruct (is_lower d && is_upper c) eqn:E; [done|].
  destruct (Ascii.eqb c "_") eqn:E2; [|done]. apply Ascii.eqb_eq in E2 as ->. done.
Qed.
Theorem C59_lower_underscored : forall s, to_lower_underscored s = concat (imap (lower_at s) s).
Proof.
  intros [|c s]; [done|]. unfold to_lower_underscored. change false with (is_lower "_"%char). rewrite lower_underscored_spec.
  rewrite !imap_cons. cbn [concat]. f_equal.
Qed.
Print Assumptions C59_lower_underscored.
Lemma lower_c_not_upper c : is_upper (lower_c c) = false.
Proof. destruct c as [[] [] [] [] [] [] [] []]; vm_compute; reflexivity. Qed.
Lemma lower_not_upper_id c : is_upper c = false -> lower_c c = c.
Proof. unfold lower_c. by intros ->. Qed.
Lemma lower_c_underscore c : lower_c c = "_"%char -> c = "_"%char.
Proof. destruct c as [[] [] [] [] [] [] [] []]; vm_compute; intros H; congruence. Qed.
Lemma lu_no_upper b s : Forall (fun c => is_upper c = false) (lower_underscored b s).
Proof.
  revert b. induction s as [|c s IH]; intros b; [constructor|]. cbn [lower_underscored].
  destruct (is_upper c && b); [|destruct (Ascii.eqb c "_")]; repeat constructor; try apply IH; apply lower_c_not_upper.
Qed.
Lemma lu_id b s : Forall (fun c => is_upper c = false) s -> lower_underscored b s = s.
Proof.
  intros H. revert b. induction H as [|c s Hc Hs IH]; intros b; [done|]. cbn [lower_underscored]. rewrite Hc. cbn [andb].
  destruct (Ascii.eqb c "_") eqn:E; [apply Ascii.eqb_eq in E as ->|rewrite (lower_not_upper_id c Hc)]; by rewrite IH.
Qed.
Definition not_underscore (c : ascii) : Prop := c <> "_"%char.
Global Instance not_underscore_dec c : Decision (not_underscore c).
Proof. unfold not_underscore. apply _. Defined.
Lemma lu_letters b s : filter not_underscore (lower_underscored b s : list ascii) = map lower_c (filter not_underscore (s : list ascii)).
Proof.
  assert (Hu : ~ not_underscore "_"%char) by (intros H; by apply H).
  revert b. induction s as [|c s IH]; intros b; [done|]. cbn [lower_underscored].
  destruct (is_upper c && b) eqn:Eu.
  - assert (not_underscore c) by (intros ->; done). assert (not_underscore (lower_c c)) by (intros E; by apply lower_c_underscore in E).
    rewrite filter_cons_False by done. rewrite !filter_cons_True by done. cbn [map]. by rewrite IH.
  - destruct (Ascii.eqb c "_") eqn:E.
    + apply Ascii.eqb_eq in E as ->. rewrite !filter_cons_False by done. apply IH.
    + apply Ascii.eqb_neq in E. assert (not_underscore (lower_c c)) by (intros E'; by apply lower_c_underscore in E').
      rewrite !filter_cons_True by done. cbn [map]. by rewrite IH.
Qed.
Theorem C59_lower_properties : forall s,
  Forall (fun c => is_upper c = false) (to_lower_underscored s) /\
  to_lower_underscored (to_lower_underscored s) = to_lower_underscored s /\
  filter not_underscore (to_lower_underscored s : list ascii) = map lower_c (filter not_underscore (s : list ascii)).
Proof.
  intros s. split; [apply lu_no_upper|]. split; [|apply lu_letters]. apply lu_id. apply lu_no_upper.
Qed.
Print Assumptions C59_lower_properties.
Lemma upper_c_not_lower c : is_lower (upper_c c) = false.
Proof. destruct c as [[] [] [] [] [] [] [] []]; vm_compute; reflexivity. Qed.
Theorem C59_upcase_first : forall s,
  length (upcase_first s) = length s /\ drop 1 (upcase_first s) = drop 1 s /\
  (forall c, head s = Some c -> head (upcase_first s) = Some (upper_c c)) /\
  upcase_first (upcase_first s) = upcase_first s /\
  (forall c, head (upcase_first s) = Some c -> is_lower c = false).
Proof.
  intros [|c s]; [done|]. cbn. repeat split; try done.
  - intros d [= <-]. done.
  - f_equal. apply upper_c_upper.
  - intros d [= <-]. apply upper_c_not_lower.
Qed.
Print Assumptions C59_upcase_first.
(** It is not injective, so that two channels can get the same ROS topic. *)
Theorem C59_injective_refuted : exists a b, a <> b /\ to_lower_underscored a = to_lower_underscored b.
Proof. exists (lit "fooBar"), (lit "foo_bar"). split; [done|]. vm_compute. reflexivity. Qed.
Example C59_witness : to_lower_underscored (lit "fooBarHTTP_Q1a") = lit "foo_bar_http_q1a" /\ upcase_first (lit "step0") = lit "Step0".
Proof. split; vm_compute; reflexivity. Qed.
