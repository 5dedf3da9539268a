(** * C95: a file that ends too early is never taken for a complete one, except traces *)
From Verif Require Export SpecTruncate PropJsonText PropConfigText PropProcess.
From Verif Require Export StmProofs.

(** ** JSON *)
Lemma denotes_obj_head t l : denotes t (JObj l) -> exists r, t = "{"%char :: r.
Proof. intros H. inversion H; subst; by eexists. Qed.
Lemma number_start t r : number_text t -> t <> "{"%char :: r.
Proof. intros (c & r' & -> & [->|H])%number_head; [discriminate|]. intros [= -> _]. discriminate H. Qed.
Lemma white_same w w' c r c' r' : white w -> white w' -> opener c -> opener c' -> w ++ c :: r = w' ++ c' :: r' -> w = w' /\ c = c' /\ r = r'.
Proof.
  intros Hw. revert w'. induction Hw as [|x w Hx Hw IH]; intros w' Hw' Hc Hc' E.
  - destruct Hw' as [|x w' Hx Hw']; cbn in E; [by injection E|]. injection E as -> _. apply is_ws_iff in Hx. destruct Hc as [Hc _]. congruence.
  - destruct Hw' as [|x' w' Hx' Hw']; cbn in E; [injection E as -> _; apply is_ws_iff in Hx; destruct Hc' as [Hc' _]; congruence|].
    injection E as -> E. destruct (IH w' Hw' Hc Hc' E) as (-> & -> & ->). done.
Qed.
Lemma cut_parse M w t l p lost : white w -> denotes t (JObj l) -> w ++ t = p ++ lost -> lost <> [] -> parse_value M p = None.
Proof.
  intros Hw Ht E Hl. destruct (parse_value M p) as [[j r]|] eqn:Ep; [|done]. exfalso.
  remember (M + jdepth (JObj l)) as d eqn:Ed. assert (L1 : M <= d) by lia. assert (L2 : jdepth (JObj l) <= d) by lia. clear Ed.
  apply parse_sound in Ep as (w' & t' & -> & Hw' & Ht' & Hd').
  pose proof (proj1 parse_complete t _ Ht d [] L2 (fun x => match x with end)) as P. rewrite app_nil_r in P.
  assert (P1 : parse_value d (w ++ t) = Some (JObj l, [])) by (rewrite (parse_value_ws _ _ t); [done|by apply skip_white]).
  rewrite E, <- !app_assoc in P1.
  assert (Hn : ~ is_num j).
  { destruct j; cbn; try tauto. intros _. inversion Ht' as [| | |n Hn| | | | |]; subst. destruct (denotes_head _ _ Ht) as (c & x & -> & Hc). destruct (denotes_head _ _ Ht') as (c' & x' & -> & Hc').
    rewrite <- !app_assoc in E. cbn [app] in E. destruct (white_same w w' c x c' (x' ++ r ++ lost) Hw Hw' Hc Hc' E) as (-> & -> & ->).
    destruct (denotes_obj_head _ _ Ht) as [y Ey]. injection Ey as -> _. by eapply number_start. }
  rewrite (parse_value_ws _ _ (t' ++ r ++ lost)) in P1 by (by apply skip_white).
  rewrite (proj1 parse_complete t' j Ht' d (r ++ lost)) in P1; [|lia|done].
  injection P1 as _ P1. apply app_eq_nil in P1 as [_ ->]. done.
Qed.
Lemma cut_object w t l p lost : white w -> denotes t (JObj l) -> w ++ t = p ++ lost -> lost <> [] -> read_doc p = None.
Proof. intros Hw Ht E Hl. unfold read_doc. rewrite (cut_parse max_depth w t l p lost Hw Ht E Hl). reflexivity. Qed.
(** A suite in a file, whoever wrote it: what is left of it when its end is missing is not a suite. *)
Theorem C95_json : forall w t l p lost, white w -> denotes t (JObj l) -> w ++ t = p ++ lost -> lost <> [] ->
  read_suite p = Err JSyntax /\ read_stm_suite p = Err JSyntax.
Proof.
  intros w t l p lost Hw Ht E Hl. pose proof (cut_object w t l p lost Hw Ht E Hl) as H. unfold read_suite, read_stm_suite. by rewrite H.
Qed.
Lemma cut_written j text p : write_doc j = Some text -> no_num j -> (exists l, j = JObj l) -> beginning p text ->
  (cut_short p text -> read_doc p = None) /\ (~ cut_short p text -> read_doc p = read_doc text).
Proof.
  intros Hw Hn [l ->] [lost E].
  pose proof (read_write_doc _ _ Hn Hw) as Hr.
  destruct (C80_written _ _ Hw Hn) as (t & -> & Ht). cbn [jcoerce] in Ht. split.
  - intros (lost' & E' & H1 & H2). destruct (exists_last H1) as (x & c & ->). rewrite app_assoc in E'. apply app_inj_tail in E' as [E' <-].
    eapply (cut_object [] t _ p x); [constructor|exact Ht|exact E'|]. intros ->. by apply H2.
  - intros H. destruct (decide (lost = [])) as [->|H1]; [rewrite app_nil_r in E; by rewrite E|]. destruct (decide (lost = [byte 10])) as [->|H2]; [|by destruct H; exists lost].
    apply app_inj_tail in E as [<- _]. rewrite Hr. apply C80_only in Hr as (w' & t' & r' & _ & _ & _ & Hdep).
    rewrite <- (app_nil_r t). apply (C80_reads [] t); [constructor|exact Ht|exact Hdep|by intros []].
Qed.
(** What rtcg-read-traces prints, cut anywhere: rtcg-make-stms sees that it is not a suite, unless only the
    last newline is missing; then it reads the same suite. *)
Theorem C95_tests : forall s text p, write_suite s = Some text -> beginning p text ->
  (cut_short p text -> read_suite p = Err JSyntax) /\ (~ cut_short p text -> read_suite p = read_suite text).
Proof.
  intros s text p Hw Hp. unfold write_suite in Hw.
  assert (Hnn : no_num (enc_map enc_node_ptr s)) by (apply enc_map_no_num; intros [n|]; [apply enc_node_no_num|done]).
  destruct (cut_written _ _ p Hw Hnn ltac:(by eexists) Hp) as [H1 H2]. unfold read_suite. split; intros H; [by rewrite H1|by rewrite H2].
Qed.
Theorem C95_machines : forall orders s text p, write_stm_suite orders s = Ok text -> beginning p text ->
  (cut_short p text -> read_stm_suite p = Err JSyntax) /\ (~ cut_short p text -> read_stm_suite p = read_stm_suite text).
Proof.
  intros orders s text p Hw Hp. unfold write_stm_suite in Hw. apply res_bind_Ok in Hw as (j & Hj & Hw). destruct (write_doc j) as [t|] eqn:E; [|done]. injection Hw as ->.
  destruct (enc_stm_suite_shape _ _ _ Hj) as [Hnn _].
  assert (Ho : exists l, j = JObj l). { unfold enc_stm_suite in Hj. apply res_bind_Ok in Hj as (x & _ & Hj). apply res_bind_Ok in Hj as (y & _ & Hj). injection Hj as <-. by eexists. }
  destruct (cut_written _ _ p E Hnn Ho Hp) as [H1 H2]. unfold read_stm_suite. split; intros H; [by rewrite H1|by rewrite H2].
Qed.

(** ** The tools: exit code 1, nothing printed, and no file touched (not even with -clean) *)
Lemma tool_one cwd f stdin args t1 t2 : is_dir f cwd -> tool_reads cwd f stdin args t1 -> tool_reads cwd f stdin args t2 -> t1 = t2.
Proof.
  intros Hcwd H1 H2. destruct (tool_open cwd f stdin (lit "rtcg-read-traces") args Hcwd) as [(p & _ & Ho)|[_ Ho]]; [|by apply Ho in H1]. apply Ho in H1, H2. congruence.
Qed.
Lemma tests_written ord cwd f stdin args tests : proc_read_traces ord cwd f stdin args = (0%N, tests) -> exists s, write_suite s = Some tests.
Proof.
  intros H. unfold proc_read_traces in H. destruct (parse_tool_args _) as [q| |]; [|discriminate H..]. destruct (open_input cwd stdin f q) as [text|]; [|discriminate H].
  unfold run_read_traces in H. destruct (read_traces text) as [ts| |]; [|discriminate H..]. destruct (name_all ts) as [m|]; [|discriminate H].
  destruct (write_suite (expand_all (ord m))) as [out|] eqn:Ew; [|discriminate H]. cbn [finish] in H. injection H as ->. by eexists.
Qed.
Lemma run_stms_written o text out : run_make_stms o text = Ok out -> exists orders s, write_stm_suite orders s = Ok out.
Proof.
  unfold run_make_stms. destruct (read_suite text) as [s| |]; [|discriminate..]. destruct (full_suite _) as [vs| |]; [|discriminate..]. destruct (build_suite _ _ _) as [ss| |]; [|discriminate..].
  destruct (write_stm_suite (ms_sets o ss) ss) as [x| |] eqn:Ew; [|discriminate..]. intros [= <-]. exists (ms_sets o ss), ss. exact Ew.
Qed.
Lemma stms_written o cwd f stdin args stms : proc_make_stms o cwd f stdin args = (0%N, stms) -> exists orders s, write_stm_suite orders s = Ok stms.
Proof.
  unfold proc_make_stms. destruct (parse_tool_args _) as [p| |]; [|discriminate..]. destruct (open_input cwd stdin f p) as [text|]; [|discriminate].
  destruct (run_make_stms o text) as [t|e|] eqn:E; cbn [finish]; [|discriminate..]. intros [= <-]. exact (run_stms_written _ _ _ E).
Qed.
Theorem C95_make_stms : forall ord cwd f stdin args tests p o cwd' f' stdin' args', is_dir f' cwd' ->
  proc_read_traces ord cwd f stdin args = (0%N, tests) -> cut_short p tests -> tool_reads cwd' f' stdin' args' p ->
  proc_make_stms o cwd' f' stdin' args' = (1%N, []).
Proof.
  intros ord cwd f stdin args tests p o cwd' f' stdin' args' Hcwd H Hc Ht.
  pose proof (tests_written _ _ _ _ _ _ H) as Hw.
  destruct Hw as [s Hw]. assert (Hb : beginning p tests) by (destruct Hc as (l & -> & _); by exists l).
  destruct (C95_tests s tests p Hw Hb) as [Hs _]. specialize (Hs Hc).
  assert (Hr : run_make_stms o p = Err (MsRead JSyntax)) by (unfold run_make_stms; by rewrite Hs).
  destruct (proc_make_stms o cwd' f' stdin' args') as [code out] eqn:E.
  destruct (C83_make_stms o cwd' f' stdin' args' code out Hcwd E) as [(-> & t & Ht' & Hx)|[(-> & -> & _)|(-> & -> & t & Ht' & Hx)]]; [|done|];
    rewrite (tool_one _ _ _ _ _ _ Hcwd Ht' Ht), Hr in Hx; discriminate Hx.
Qed.
Theorem C95_gen : forall o cwd f stdin args stms p xml ord cwd' f' stdin' args' c i,
  proc_make_stms o cwd f stdin args = (0%N, stms) -> cut_short p stms -> gen_line args' c i -> machines_from cwd' f' stdin' i p ->
  proc_gen xml ord cwd' f' stdin' args' = (f', 1%N).
Proof.
  intros o cwd f stdin args stms p xml ord cwd' f' stdin' args' c i H Hc (fl & rest & Hl & Hrest) Hm.
  pose proof (stms_written _ _ _ _ _ _ H) as Hw.
  destruct Hw as (orders & s & Hw). assert (Hb : beginning p stms) by (destruct Hc as (l & -> & _); by exists l).
  destruct (C95_machines orders s stms p Hw Hb) as [Hs _]. specialize (Hs Hc).
  assert (Hrun : forall a, ga_input a = i -> run_gen_nulls xml ord cwd' stdin' a f' = (f', Ended (Some ReadSuiteErr))).
  { intros a Ea. unfold run_gen_nulls. rewrite Ea.
    assert (Hi : read_input cwd' stdin' f' (clean i) = Some p).
    { unfold read_input. destruct Hm as [[Hn ->]|[Hn Hf]].
      - rewrite decide_True by (by apply stdin_names). done.
      - rewrite decide_False by (by rewrite stdin_names). rewrite resolve_clean. unfold file_bytes. by rewrite Hf. }
    rewrite Hi. cbn [mbind option_bind]. by rewrite Hs. }
  unfold proc_gen. apply C83_flags in Hl. rewrite Hl. destruct Hrest as [[-> ->]| ->].
  - change (parse_gen_args [c]) with (GenArgs c (lit "-")). cbv beta iota. rewrite (Hrun (GenAction (gf_clean fl) (gf_output fl) c (lit "-")) eq_refl). reflexivity.
  - change (parse_gen_args [c; i]) with (GenArgs c i). cbv beta iota. rewrite (Hrun (GenAction (gf_clean fl) (gf_output fl) c i) eq_refl). reflexivity.
Qed.

(** ** The configuration: what is left is refused, or read as the whole *)
Section Root.
Context (first second : N -> bool).
(** Where the root ends: like [xml_root], but giving what follows. *)
Fixpoint root_end (fuel : nat) (s : gostr) : option gostr :=
  match fuel with
  | O => None
  | S fuel =>
    match raw_token first second s with
    | Some (TMisc, rest) | Some (TChars _, rest) => root_end fuel rest
    | Some (TStart n l ends, rest) =>
      if ends : bool then Some rest
      else match xml_items first second (length rest) rest with
           | Some (_, _, r) => Some r
           | None => None
           end
    | Some (TEnd _, _) | None => None
    end
  end.
Lemma root_end_step fuel s : root_end (S fuel) s =
    match raw_token first second s with
    | Some (TMisc, rest) | Some (TChars _, rest) => root_end fuel rest
    | Some (TStart n l ends, rest) =>
      if ends : bool then Some rest
      else match xml_items first second (length rest) rest with
           | Some (_, _, r) => Some r
           | None => None
           end
    | Some (TEnd _, _) | None => None
    end.
Proof. reflexivity. Qed.
Lemma root_end_element t e rest : element_text first second t e -> forall fuel, length (t ++ rest) <= fuel -> root_end fuel (t ++ rest) = Some rest.
Proof.
  intros [n p l attrs ats Hn Ha He|n p l attrs ats body kids w Hn Ha He Hb Hw] fuel Hf; (destruct fuel as [|fuel]; [cbn in Hf; lia|]); rewrite root_end_step.
  - change (lit "/>") with (close true). destruct (start_at first second n p l attrs ats true rest Hn Ha) as (l' & -> & <-); [by destruct attrs|]. done.
  - replace ((lit "<" ++ n ++ attrs ++ lit ">" ++ body ++ lit "</" ++ n ++ w ++ lit ">") ++ rest) with ((lit "<" ++ n ++ attrs ++ close false) ++ body ++ (lit "</" ++ n ++ w ++ lit ">") ++ rest) in *
      by (by rewrite <- !app_assoc).
    destruct (start_at first second n p l attrs ats false (body ++ (lit "</" ++ n ++ w ++ lit ">") ++ rest) Hn Ha) as (l' & -> & <-); [done|]. cbn [snd].
    assert (Ht : end_tag first second (p, l) (lit "</" ++ n ++ w ++ lit ">")) by (by exists n, w). by rewrite (items_complete _ _ body kids (p, l) _ rest Hb Ht) by done.
Qed.
Lemma root_end_complete pre l t e rest : items_text first second pre l -> (forall e', Child e' ∉ l) -> element_text first second t e ->
  forall fuel, length (pre ++ t ++ rest) <= fuel -> root_end fuel (pre ++ t ++ rest) = Some rest.
Proof.
  intros Hp Hn Ht. pose proof (root_end_element t e rest Ht) as R. pose proof (element_head _ _ t e Ht) as Hh. remember (t ++ rest) as s eqn:Es.
  assert (Hs : head s = Some "<"%char) by (subst s; by destruct t). clear Es Hh Ht.
  induction Hp as [|raw v r l Hc Hr Hl IH|x v r l Hc Hl IH|m r l Hm Hl IH|x e' r l He Hl IH] ; intros fuel Hf.
  - by apply R.
  - rewrite <- app_assoc in Hf |- *. pose proof Hc as [H0 _]. destruct fuel as [|fuel]; [destruct raw; [done|cbn in Hf; lia]|]. rewrite root_end_step.
    rewrite (token_at _ _ (TChars v) raw (r ++ s)); [|apply tt_chars; [done|]|done].
    + apply IH; [intros e'' ?; apply (Hn e''); by right|]. destruct raw; [done|]. cbn in Hf. rewrite app_length in Hf. unfold gostr in *. lia.
    + right. destruct r as [|c r]; [done|]. by apply Hr.
  - rewrite <- app_assoc in Hf |- *. assert (H0 : x <> []) by (by destruct Hc as (raw & -> & _)). destruct fuel as [|fuel]; [destruct x; [done|cbn in Hf; lia]|]. rewrite root_end_step.
    rewrite (token_at _ _ (TChars v) x (r ++ s)); [|by apply tt_cdata|done]. apply IH; [intros e'' ?; apply (Hn e''); by right|]. destruct x; [done|]. cbn in Hf. rewrite app_length in Hf. unfold gostr in *. lia.
  - rewrite <- app_assoc in Hf |- *. assert (H0 : m <> []) by (by destruct Hm). destruct fuel as [|fuel]; [destruct m; [done|cbn in Hf; lia]|]. rewrite root_end_step.
    rewrite (token_at _ _ TMisc m (r ++ s)); [|by apply tt_misc|done]. apply IH; [done|]. destruct m; [done|]. cbn in Hf. rewrite app_length in Hf. unfold gostr in *. lia.
  - exfalso. apply (Hn e'). by left.
Qed.
End Root.
(** If anything is missing of the root element or before it, it is refused. *)
Theorem C95_config_cut : forall first second pre l t e p lost,
  items_text first second pre l -> (forall e', Child e' ∉ l) -> element_text first second t e -> pre ++ t = p ++ lost -> lost <> [] ->
  read_config first second p = None.
Proof.
  intros first second pre l t e p lost Hp Hl Ht E Hlost. destruct (read_config first second p) as [c|] eqn:Er; [|done]. exfalso.
  apply C81_only in Er as (e' & (pre' & l' & t' & r & -> & H1 & H2 & H3) & _).
  pose proof (root_end_complete first second pre l t e [] Hp Hl Ht _ (le_n _)) as R. rewrite app_nil_r, E, <- !app_assoc in R.
  rewrite (root_end_complete first second pre' l' t' e' (r ++ lost) H1 H2 H3 _ (le_n _)) in R. injection R as R. apply app_eq_nil in R as [_ ->]. done.
Qed.
Theorem C95_config : forall first second text c p, read_config first second text = Some c -> beginning p text ->
  read_config first second p = None \/ read_config first second p = Some c.
Proof.
  intros first second text c p H [lost ->]. destruct (read_config first second p) as [c'|] eqn:E; [|by left]. right.
  apply C81_only in H as (e & Hd & Hs). apply C81_only in E as (e' & (pre & l & t & r & -> & H1 & H2 & H3) & Hs').
  assert (Hd' : document first second ((pre ++ t ++ r) ++ lost) e') by (exists pre, l, t, (r ++ lost); by rewrite <- !app_assoc).
  destruct (C81_one_meaning _ _ _ _ _ _ _ Hd Hd' Hs Hs') as [_ ->]. done.
Qed.

(** ** Traces: at the end of a line nothing is noticed, and the rest of the traces is lost *)
Theorem C95_traces_refuted : forall a b ts, Csv.dquote ∉ a ++ b -> read_traces (a ++ [nl] ++ b) = Ok ts ->
  exists kept lost, ts = kept ++ lost /\ read_traces (a ++ [nl]) = Ok kept /\ read_traces b = Ok lost.
Proof.
  intros a b ts Hq. assert (Ha : Csv.dquote ∉ a /\ Csv.dquote ∉ b) by (by rewrite elem_of_app in Hq; tauto). destruct Ha as [Ha Hb].
  assert (Hn : Csv.dquote ∉ a ++ [nl]) by (rewrite elem_of_app, elem_of_list_singleton; intros [?|?]; [done|discriminate]).
  rewrite app_assoc. rewrite !read_plain; [|done|done|by rewrite elem_of_app; tauto].
  unfold plain_rows. rewrite (plain_rows_app (a ++ [nl]) b) by (right; by exists a). rewrite map_app.
  generalize (map (fun l => map trim_left (split_all comma l)) (filter kept_line (file_lines (a ++ [nl])))) as x, (map (fun l => map trim_left (split_all comma l)) (filter kept_line (file_lines b))) as y. clear.
  intros x y. revert ts. induction x as [|r x IH]; intros ts; cbn [app parse_rows]; [intros H; by exists [], ts|].
  destruct (parse_row r) as [t| |]; [|discriminate..]. destruct (parse_rows (x ++ y)) as [ts'| |] eqn:E; [|discriminate..]. intros [= <-].
  destruct (IH ts' eq_refl) as (k & l & -> & -> & ->). by exists (t :: k), l.
Qed.
(** Within a line a trace is cut, and another behaviour is forbidden. *)
Theorem C95_trace_line_refuted : exists text p t t', beginning p text /\ read_traces text = Ok [t] /\ read_traces p = Ok [t'] /\
  f_forbid t <> f_forbid t' /\ f_forbid t' ∈ f_prefix t.
Proof.
  exists (lit "a:speed.in.3,alarm.out.On"), (lit "a:speed.in.3").
  exists (Forbidden (lit "a") [Event (Channel (lit "speed") KIn) (Some (IntV 3))] (Event (Channel (lit "alarm") KOut) (Some (EnumV (lit "On"))))), (Forbidden (lit "a") [] (Event (Channel (lit "speed") KIn) (Some (IntV 3)))).
  split; [by exists (lit ",alarm.out.On")|]. split; [vm_compute; reflexivity|]. split; [vm_compute; reflexivity|]. split; [discriminate|]. by left.
Qed.

(** ** Witness: two traces, from the tools *)
Lemma doc_long j text : write_doc j = Some text -> no_num j -> (exists l, j = JObj l) -> 2 < length text.
Proof.
  intros Hw Hn [l ->]. destruct (C80_written _ _ Hw Hn) as (t & -> & Ht). rewrite app_length. change (length [byte 10]) with 1. cbn [jcoerce] in Ht.
  inversion Ht; subst; rewrite !app_length; change (length (lit "{")) with 1; change (length (lit "}")) with 1; lia.
Qed.
Lemma tests_long s text : write_suite s = Some text -> 2 < length text.
Proof. intros H. eapply doc_long; [exact H| |by eexists]. apply enc_map_no_num; intros [n|]; [apply enc_node_no_num|done]. Qed.
Lemma stms_long orders s text : write_stm_suite orders s = Ok text -> 2 < length text.
Proof.
  unfold write_stm_suite. intros Hw. apply res_bind_Ok in Hw as (j & Hj & Hw). destruct (write_doc j) as [t|] eqn:E; [|done]. injection Hw as ->.
  destruct (enc_stm_suite_shape _ _ _ Hj) as [Hnn _]. eapply doc_long; [exact E|exact Hnn|].
  unfold enc_stm_suite in Hj. apply res_bind_Ok in Hj as (x & _ & Hj). apply res_bind_Ok in Hj as (y & _ & Hj). injection Hj as <-. by eexists.
Qed.
Example C95_witness : exists tests stms p q, proc_read_traces map_to_list ex_home chain_fs w_file [] = (0%N, tests) /\ proc_make_stms some_orders ex_home chain_fs tests [] = (0%N, stms) /\
  cut_short p tests /\ cut_short q stms /\ p <> [] /\ q <> [] /\
  gen_line [lit "-clean"; lit "c.xml"] (lit "c.xml") (lit "-") /\ machines_from ex_home chain_fs q (lit "-") q.
Proof.
  assert (Ho : any_order map_to_list) by (intros m; unfold order_of; done).
  destruct (C61_pipeline map_to_list some_orders w_file w_traces Ho some_orders_any w_file_read w_testable) as (x & y & s & names & H1 & H2 & H3 & _).
  assert (Hcut : forall t : gostr, (2 < length t) -> cut_short (take 1 t) t /\ take 1 t <> []).
  { intros [|a [|b [|c t]]] Hl; cbn in Hl; try lia. split; [|done]. exists (b :: c :: t). split; [done|]. split; discriminate. }
  assert (E1 : proc_read_traces map_to_list ex_home chain_fs w_file [] = (0%N, x)) by (change (finish (run_read_traces map_to_list w_file) = (0%N, x)); by rewrite H1).
  assert (E2 : proc_make_stms some_orders ex_home chain_fs x [] = (0%N, y)) by (change (finish (run_make_stms some_orders x) = (0%N, y)); by rewrite H2).
  assert (Hx : 2 < length x) by (destruct (tests_written _ _ _ _ _ _ E1) as [s1 Hs1]; exact (tests_long _ _ Hs1)).
  assert (Hy : 2 < length y) by (destruct (stms_written _ _ _ _ _ _ E2) as (o1 & s1 & Hs1); exact (stms_long _ _ _ Hs1)).
  exists x, y, (take 1 x), (take 1 y).
  destruct (Hcut x Hx) as [Cx Nx], (Hcut y Hy) as [Cy Ny].
  split; [exact E1|]. split; [exact E2|]. split; [exact Cx|]. split; [exact Cy|]. split; [exact Nx|]. split; [exact Ny|]. split.
  - exists (GenFlags true (lit "out")), []. split; [apply C83_flags; vm_compute; reflexivity|by left].
  - left. split; [|done]. by intros here.
Qed.

Example C95_witness_config : forall first second, read_config first second chain_xml = Some chain_conf /\ read_config first second (take 20 chain_xml) = None.
Proof. intros first second. split; vm_compute; reflexivity. Qed.
Example C95_witness_cut : forall first second, exists pre l t e rest, chain_xml = pre ++ t ++ rest /\ items_text first second pre l /\ (forall e', Child e' ∉ l) /\ element_text first second t e.
Proof.
  intros first second. assert (Hd : exists e, document first second chain_xml e /\ says_config e chain_conf) by (apply C81_only; vm_compute; reflexivity).
  destruct Hd as (e & (pre & l & t & rest & H) & _). by exists pre, l, t, e, rest.
Qed.
Example C95_witness_traces : exists a b, Csv.dquote ∉ a ++ b /\ w_file = a ++ [nl] ++ b /\ is_ok (read_traces (a ++ [nl])) /\ is_ok (read_traces b) /\ read_traces (a ++ [nl]) <> read_traces w_file.
Proof.
  exists (lit "# two traces" ++ nl :: lit "a: c.in.3,d.out.on"), (lit "d.out.off, c.in.-4,d.out.on" ++ [nl]).
  split; [refine (bool_decide_eq_true_1 _ _); vm_compute; reflexivity|]. split; [reflexivity|]. split; [eexists; vm_compute; reflexivity|]. split; [eexists; vm_compute; reflexivity|].
  vm_compute. discriminate.
Qed.

Print Assumptions C95_json.
Print Assumptions C95_tests.
Print Assumptions C95_machines.
Print Assumptions C95_make_stms.
Print Assumptions C95_gen.
Print Assumptions C95_config_cut.
Print Assumptions C95_config.
Print Assumptions C95_traces_refuted.
Print Assumptions C95_trace_line_refuted.
