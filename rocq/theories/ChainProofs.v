(** * Generated programs for single forbidden traces *)
From Verif Require Export EraseProofs.
From Verif Require Export StmProofs.

Lemma spine_cons name e es f : spine name (e :: es) f = Node [] [name] OInc (Some e) [spine name es f].
Proof. done. Qed.
Lemma spine_nil name f : spine name [] f = Node [] [name] OPass (Some f) [Node [] [name] OFail None []].
Proof. done. Qed.
(** The nodes of the tree of a trace: after [j] events. *)
Definition zeros (j : nat) : path := replicate j 0.
Lemma zeros_snoc j : zeros j ++ [0] = zeros (S j).
Proof. unfold zeros. rewrite <- replicate_cons_app. done. Qed.
Lemma spine_at name f : forall es n j, n_next n = [spine name es f] -> j <= S (length es) ->
  exists nd, node_at n (zeros j) = Some nd /\ n_next nd = (if decide (j = S (length es)) then [Node [] [name] OFail None []] else [spine name (drop j es) f]) /\
    (1 <= j -> n_outcome nd <> OFail).
Proof.
  induction es as [|e es IH]; intros n j Hn Hj; cbn [length] in *.
  - destruct j as [|[|j]]; [| |lia].
    + exists n. cbn. split; [done|]. split; [done|lia].
    + exists (spine name [] f). cbn. rewrite Hn. cbn. split; [done|]. done.
  - destruct j as [|j].
    + exists n. cbn. split; [done|]. split; [done|lia].
    + destruct (IH (spine name (e :: es) f) j eq_refl ltac:(lia)) as (nd & H1 & H2 & H3). exists nd. cbn. rewrite Hn. cbn. split; [done|].
      split.
      * rewrite H2. destruct (decide (j = S (length es))), (decide (S j = S (S (length es)))); try lia; done.
      * intros _. destruct j as [|j]; [|apply H3; lia]. cbn in H1. injection H1 as <-. done.
Qed.

Lemma spine_any name f : forall es p m, node_at (spine name es f) p = Some m ->
  n_id m = [] /\ length (n_next m) <= 1 /\ forall e, n_event m = Some e -> e ∈ es ++ [f].
Proof.
  induction es as [|e es IH]; intros p m.
  - rewrite spine_nil. destruct p as [|[|i] [|j p]]; cbn; try discriminate; intros [= <-]; cbn; (split; [done|]; split; [lia|]).
    + intros e [= ->]. by left.
    + done.
  - rewrite spine_cons. destruct p as [|[|i] p]; cbn.
    + intros [= <-]. cbn. split; [done|]. split; [lia|]. intros e' [= ->]. by left.
    + intros H. destruct (IH p m H) as (H1 & H2 & H3). split; [done|]. split; [done|]. intros e' He. right. by apply H3.
    + discriminate.
Qed.
Lemma expand_any t name p m : node_at (expand t name) p = Some m ->
  n_id m = [] /\ length (n_next m) <= 1 /\ forall e, n_event m = Some e -> e ∈ trace_events t.
Proof.
  rewrite expand_spine. destruct p as [|[|i] p]; cbn.
  - intros [= <-]. done.
  - apply spine_any.
  - discriminate.
Qed.
Lemma single_valid n : length (n_next n) <= 1 -> valid_state n.
Proof.
  intros H. unfold valid_state, live_succs. destruct (n_next n) as [|k [|? ?]]; cbn in H |- *; [by left; constructor| |lia].
  destruct (decide (n_outcome k = OFail)); [by left; constructor|]. destruct (n_event k) as [e|]; [|by left; constructor].
  destruct (decide (ch_kind (e_chan e) = KIn)) as [E|E]; [right; by exists e, k|left]. constructor; [done|constructor].
Qed.
Lemma expand_valid t name : valid_tree (expand t name).
Proof. intros p n Hn _. apply single_valid. by apply (expand_any t name p). Qed.
Lemma expand_event t name e : tree_event (expand t name) e <-> e ∈ trace_events t.
Proof.
  split; [intros (p & m & Hm & He); by apply (expand_any t name p m Hm)|].
  intros He. destruct (expand_chain t name) as (l & Hc & Hi & Hp & _).
  assert (Hin : exists n, n ∈ l /\ n_event n = Some e).
  { unfold trace_events in He. rewrite <- Hi in He. rewrite elem_of_app in He. destruct He as [He|He].
    - unfold inc_events in He. apply elem_of_list_omap in He as (n & Hn & He). exists n. split; [done|]. by destruct (decide _).
    - rewrite <- Hp in He. unfold pass_events in He. apply elem_of_list_omap in He as (n & Hn & He). exists n. split; [done|]. by destruct (decide _). }
  destruct Hin as (n & Hn & Hev). clear -Hc Hn Hev. revert Hc. generalize (expand t name) as T. induction l as [|c l IH]; intros T Hc; [done|].
  destruct Hc as [Hx Hc]. apply elem_of_cons in Hn as [->|Hn].
  - exists [0], c. cbn. by rewrite Hx.
  - destruct Hc as [[_ ->]|[_ Hc]]; [by apply elem_of_nil in Hn|]. destruct (IH Hn c Hc) as (p & m & Hm & He).
    exists (0 :: p), m. cbn. by rewrite Hx.
Qed.
Lemma expand_ids t name : fresh_cased (expand t name).
Proof.
  split.
  - intros p q n m _ _ Hn _ _ Hne. destruct (expand_any t name p n Hn) as [E _]. done.
  - intros p n _ Hn. destruct (expand_any t name p n Hn) as [-> _]. split; [done|]. intros k. done.
Qed.
Lemma expand_out_names t name w : w ∈ out_names (expand t name) <-> w ∈ output_names (trace_events t).
Proof.
  rewrite out_names_elem. unfold output_names. rewrite elem_of_list_fmap. split.
  - intros (p & k & e & _ & [Hk _] & He & Hin & Hw). exists e. split; [done|]. apply elem_of_list_filter. split; [done|].
    apply (expand_event t name). by exists p, k.
  - intros (e & -> & He). apply elem_of_list_filter in He as [Hk He]. apply (expand_event t name) in He as (p & m & Hm & He).
    exists p, m, e. destruct (decide (p = [])) as [->|Hp].
    + change (Some (expand t name) = Some m) in Hm. rewrite expand_spine in Hm. injection Hm as <-. discriminate.
    + split; [done|]. split; [split; [done|]|done]. pose proof (expand_good t name) as [_ Hg].
      destruct (Hg p m Hp Hm) as [_ [(_ & E & _)|[(E & _)|(E & _)]]]; [congruence|congruence|congruence].
Qed.
Lemma expand_supported types t name : trace_ok types t -> supported types (expand t name) /\ no_reserved (expand t name).
Proof.
  intros (H1 & H2 & H3). split.
  - split; [apply expand_valid| | |apply expand_ids].
    + intros e1 e2 He1 He2. rewrite expand_event in He1, He2. by apply H2.
    + intros e He. rewrite expand_event in He. by apply H1.
  - unfold no_reserved. by rewrite !expand_out_names.
Qed.

(** The node after [j] events. *)
Definition after_outcome (t : forbidden) (j : nat) : outcome :=
  if decide (j = length (trace_events t)) then OFail
  else if decide (S j = length (trace_events t)) then OPass else OInc.
Record nth_node (t : forbidden) (name : gostr) (j : nat) (nd : node) : Prop := {
  nn_at : live_at (expand t name) (zeros j) nd;
  nn_input : next_input nd = match trace_events t !! j with
                             | Some e => if decide (ch_kind (e_chan e) = KIn) then Some 0 else None
                             | None => None
                             end;
  nn_output : forall w v, next_output nd w v =
    match trace_events t !! j with
    | Some e => if decide (ch_kind (e_chan e) <> KIn /\ ch_name (e_chan e) = w /\ e_value e = Some v) then Some 0 else None
    | None => None
    end;
  nn_failing : failing nd <-> j = length (trace_events t);
  nn_says : forall x, says nd x = if decide (x = name) then Some (after_outcome t j) else None;
  nn_event : forall k e, n_next nd !! 0 = Some k -> trace_events t !! j = Some e -> n_event k = Some e;
}.
Lemma says_single nd k name o x : n_next nd = [k] -> n_tests k = [name] -> n_outcome k = o ->
  says nd x = if decide (x = name) then Some o else None.
Proof.
  intros H1 H2 H3. unfold says. rewrite H1, filter_cons. destruct (decide (x = name)) as [->|Hne].
  - rewrite decide_True by (rewrite H2; by left). cbn. by rewrite H3.
  - rewrite decide_False; [done|]. rewrite H2. intros H. by apply elem_of_list_singleton in H.
Qed.
Lemma expand_node t name j : j <= length (trace_events t) -> exists nd, nth_node t name j nd.
Proof.
  intros Hj. unfold trace_events in Hj. rewrite app_length in Hj. cbn in Hj.
  destruct (spine_at name (f_forbid t) (f_prefix t) (expand t name) j) as (nd & H1 & H2 & H3);
    [by rewrite expand_spine|lia|]. exists nd.
  assert (Hlive : live_at (expand t name) (zeros j) nd).
  { split; [done|]. destruct j as [|j]; [|apply H3; lia]. change (Some (expand t name) = Some nd) in H1. rewrite expand_spine in H1. injection H1 as <-. done. }
  assert (Hlen : length (trace_events t) = S (length (f_prefix t))) by (unfold trace_events; rewrite app_length; cbn; lia).
  destruct (decide (j = S (length (f_prefix t)))) as [->|Hne].
  - assert (Hev : trace_events t !! S (length (f_prefix t)) = None) by (apply lookup_ge_None; lia).
    assert (Hs : forall x, says nd x = if decide (x = name) then Some (after_outcome t (S (length (f_prefix t)))) else None).
    { intros x. assert (after_outcome t (S (length (f_prefix t))) = OFail) as -> by (unfold after_outcome; by rewrite Hlen, decide_True). by eapply says_single. }
    split; [done| | | |done|].
    + rewrite Hev. unfold next_input. by rewrite H2.
    + intros w v. rewrite Hev. unfold next_output. by rewrite H2.
    + rewrite Hlen. split; [done|]. intros _. apply failing_iff. exists name. rewrite Hs, decide_True by done. unfold after_outcome. by rewrite Hlen, decide_True.
    + intros k e _. rewrite Hev. discriminate.
  - assert (Hk : exists e, trace_events t !! j = Some e /\ n_event (spine name (drop j (f_prefix t)) (f_forbid t)) = Some e /\
             n_outcome (spine name (drop j (f_prefix t)) (f_forbid t)) = after_outcome t j /\
             n_tests (spine name (drop j (f_prefix t)) (f_forbid t)) = [name] /\ after_outcome t j <> OFail).
    { unfold after_outcome. rewrite Hlen, decide_False by done. unfold trace_events. destruct (decide (S j = S (length (f_prefix t)))) as [E|E].
      - assert (j = length (f_prefix t)) as -> by lia. rewrite drop_all, list_lookup_middle by done. by exists (f_forbid t).
      - destruct (f_prefix t !! j) as [e|] eqn:Ej; [|apply lookup_ge_None in Ej; lia].
        rewrite (drop_S _ e j Ej), spine_cons. exists e. split; [by apply lookup_app_l_Some|]. done. }
    destruct Hk as (e & Ee & K1 & K2 & K3 & K4). set (k := spine name (drop j (f_prefix t)) (f_forbid t)) in *. clearbody k.
    assert (Hs : forall x, says nd x = if decide (x = name) then Some (after_outcome t j) else None).
    { intros x. by eapply says_single. }
    split; [done| | | |done|]; rewrite ?Ee.
    + unfold next_input. rewrite H2. cbn [list_find]. unfold input_kid. destruct (decide (ch_kind (e_chan e) = KIn)) as [Ek|Ek].
      * rewrite decide_True; [done|]. rewrite K1, K2. done.
      * rewrite decide_False; [done|]. rewrite K1, K2. tauto.
    + intros w v. unfold next_output. rewrite H2. cbn [list_find].
      destruct (decide (ch_kind (e_chan e) <> KIn /\ ch_name (e_chan e) = w /\ e_value e = Some v)) as [Ek|Ek].
      * rewrite decide_True; [done|]. unfold output_kid. rewrite K1, K2. done.
      * rewrite decide_False; [done|]. unfold output_kid. rewrite K1, K2. tauto.
    + rewrite Hlen. split; [|done]. intros Hf. apply failing_iff in Hf as [x Hx]. rewrite Hs in Hx. destruct (decide (x = name)); congruence.
    + intros k' e'. rewrite H2. cbn. congruence.
Qed.

(** ** Observations of one trace *)
Definition run_from (T : node) (o : obs) (script : list (gostr * valuable)) : obs :=
  fold_left (fun o wv => obs_step T o wv.1 wv.2) script o.
Lemma run_ended T o s script : o_end o = Some s -> run_from T o script = o.
Proof.
  intros H. induction script as [|[w v] script IH]; [done|]. cbn. unfold obs_step at 2. by rewrite H.
Qed.
Lemma arrive_nth t name j nd : nth_node t name j nd ->
  arrive (expand t name) (zeros j) = Obs (Some (zeros j)) (if decide (j = length (trace_events t)) then Some FAIL else None).
Proof.
  intros H. unfold arrive. rewrite (proj1 (nn_at _ _ _ _ H)). pose proof (nn_failing _ _ _ _ H) as Hf.
  destruct (decide (failing nd)), (decide (j = length (trace_events t))); tauto.
Qed.
Lemma zeros_inj a b : zeros a = zeros b -> a = b.
Proof. intros H. apply (f_equal length) in H. unfold zeros in H. by rewrite !replicate_length in H. Qed.

Definition upto (j m : nat) (es : list event) : list event := take (m - j) (drop j es).
Lemma upto_nil j es : upto j j es = [].
Proof. unfold upto. by rewrite Nat.sub_diag. Qed.
Lemma upto_cons j m es e : es !! j = Some e -> j < m -> upto j m es = e :: upto (S j) m es.
Proof. intros H1 H2. unfold upto. rewrite (drop_S _ e j H1). replace (m - j) with (S (m - S j)) by lia. done. Qed.

(** How one more word changes what has been seen. *)
Lemma seen_nil_inv names es : seen names es [] <-> es = [].
Proof. split; [by inversion 1|intros ->; constructor]. Qed.
Lemma seen_cons_iff names e es w v script : lit "timeout" ∉ names -> lit "accept" ∉ names ->
  (ch_kind (e_chan e) <> KIn -> ch_name (e_chan e) ∈ names) ->
  seen names (e :: es) ((w, v) :: script) <->
  if decide (w = lit "timeout") then False
  else if decide (w = lit "accept") then (if decide (ch_kind (e_chan e) = KIn) then seen names es script else seen names (e :: es) script)
  else if decide (w ∈ names) then
    (if decide (ch_kind (e_chan e) <> KIn /\ ch_name (e_chan e) = w /\ e_value e = Some v) then seen names es script else False)
  else seen names (e :: es) script.
Proof.
  intros Ht Ha Hn.
  assert (Hinv : seen names (e :: es) ((w, v) :: script) ->
    (w = lit "accept" /\ ch_kind (e_chan e) = KIn /\ seen names es script) \/
    (w = ch_name (e_chan e) /\ ch_kind (e_chan e) <> KIn /\ e_value e = Some v /\ seen names es script) \/
    (w <> lit "timeout" /\ w ∉ names /\ (w = lit "accept" -> ch_kind (e_chan e) <> KIn) /\ seen names (e :: es) script)).
  { intros H. inversion H; subst; [left|right; left|right; right]; done. }
  destruct (decide (w = lit "timeout")) as [H1|H1].
  { split; [|done]. intros [(E & _)|[(E & Hk & _)|(E & _)]]%Hinv; [rewrite H1 in E; discriminate|apply Ht; rewrite <- H1, E; by apply Hn|done]. }
  destruct (decide (w = lit "accept")) as [H2|H2].
  { destruct (decide (ch_kind (e_chan e) = KIn)) as [Hk|Hk].
    - split; [|rewrite H2; by constructor]. intros [(_ & _ & H)|[(_ & H & _)|(_ & _ & H & _)]]%Hinv; [done|done|by destruct H].
    - split; [|intros H; apply seen_ignored; try done; by rewrite H2].
      intros [(_ & H & _)|[(E & _ & _)|(_ & _ & _ & H)]]%Hinv; [done| |done]. exfalso. apply Ha. rewrite <- H2, E. by apply Hn. }
  destruct (decide (w ∈ names)) as [H3|H3].
  { destruct (decide _) as [(K1 & <- & K3)|K].
    - split; [|by constructor]. intros [(E & _)|[(_ & _ & _ & H)|(_ & H & _)]]%Hinv; done.
    - split; [|done]. intros [(E & _)|[(E & H & H' & _)|(_ & H & _)]]%Hinv; [done| |done]. by apply K. }
  split; [|intros H; by apply seen_ignored]. intros [(E & _)|[(E & H & H' & _)|(_ & _ & _ & H)]]%Hinv; [done| |done].
  exfalso. apply H3. rewrite E. by apply Hn.
Qed.
Lemma seen_ready_cons_iff names es w v script :
  lit "timeout" ∉ names -> lit "ready" ∉ names ->
  seen_ready names es ((w, v) :: script) <->
  if decide (w = lit "timeout") then False
  else if decide (w = lit "ready") then seen names es script
  else if decide (w ∈ names) then False else seen_ready names es script.
Proof.
  intros Ht Hr.
  assert (Hinv : seen_ready names es ((w, v) :: script) ->
    (w = lit "ready" /\ seen names es script) \/
    (w <> lit "timeout" /\ w <> lit "ready" /\ w ∉ names /\ seen_ready names es script)).
  { intros H. inversion H; subst; [left|right]; done. }
  destruct (decide (w = lit "timeout")) as [H1|H1].
  { split; [|done]. intros [(E & _)|(E & _)]%Hinv; [rewrite H1 in E; discriminate|done]. }
  destruct (decide (w = lit "ready")) as [H2|H2].
  { rewrite H2 in *. split; [|by constructor]. intros [(_ & H)|(_ & H & _)]%Hinv; done. }
  destruct (decide (w ∈ names)) as [H3|H3].
  { split; [|done]. intros [(E & _)|(_ & _ & E & _)]%Hinv; done. }
  split; [|by apply sr_ignored]. intros [(E & _)|(_ & _ & _ & H)]%Hinv; done.
Qed.

Section trace.
  Context (t : forbidden) (name : gostr).
  Let T := expand t name.
  Let es := trace_events t.
  Let names := output_names es.
  Context (Hres : lit "timeout" ∉ names /\ lit "ready" ∉ names /\ lit "accept" ∉ names).

  (** Where the tester ends up: [j'] events have been seen, and no more. *)
  Definition ends (o : obs) (j' : nat) : Prop :=
    o_at o = Some (zeros j') /\ (o_end o = Some FAIL <-> j' = length es).
  Lemma name_in e : e ∈ es -> ch_kind (e_chan e) <> KIn -> ch_name (e_chan e) ∈ names.
  Proof. intros He Hk. unfold names, output_names. apply elem_of_list_fmap. exists e. split; [done|]. by apply elem_of_list_filter. Qed.
  Lemma seen_run script : forall j, j <= length es -> exists j', j <= j' <= length es /\
    ends (run_from T (arrive T (zeros j)) script) j' /\
    forall m, j <= m <= length es -> (seen names (upto j m es) script <-> m <= j').
  Proof.
    destruct Hres as (R1 & R2 & R3).
    induction script as [|[w v] script IH]; intros j Hj.
    - destruct (expand_node t name j Hj) as [nd Hnd]. exists j. split; [lia|]. pose proof (arrive_nth _ _ _ _ Hnd) as Har. fold T es in Har. change (run_from T (arrive T (zeros j)) []) with (arrive T (zeros j)). rewrite Har. split.
      + split; [done|]. cbn. fold es. destruct (decide (j = length es)); split; try done; congruence.
      + intros m Hm. rewrite seen_nil_inv. split.
        * intros H. unfold upto in H. apply (f_equal length) in H. rewrite take_length, drop_length in H. cbn in H. lia.
        * intros H. assert (m = j) as -> by lia. apply upto_nil.
    - destruct (expand_node t name j Hj) as [nd Hnd]. pose proof (arrive_nth _ _ _ _ Hnd) as Har. fold T es in Har.
      destruct (decide (j = length es)) as [->|Hne].
      { exists (length es). split; [lia|]. rewrite (run_ended T _ FAIL) by (by rewrite Har). rewrite Har. split; [done|].
        intros m Hm. assert (m = length es) as -> by lia. rewrite upto_nil. split; [lia|constructor]. }
      assert (Hlt : j < length es) by lia.
      destruct (es !! j) as [e|] eqn:Ee; [|apply lookup_ge_None in Ee; lia].
      assert (Hin : e ∈ es) by (by eapply elem_of_list_lookup_2).
      assert (Hstop : forall s (Q : nat -> Prop), s <> FAIL -> (forall m, j < m <= length es -> ~ Q m) -> Q j ->
         exists j', j <= j' <= length es /\ ends (run_from T (Obs (Some (zeros j)) (Some s)) script) j' /\ forall m, j <= m <= length es -> (Q m <-> m <= j')).
      { intros s Q Hs HQ HQj. exists j. split; [lia|]. rewrite (run_ended T _ s) by done. split.
        - split; [done|]. cbn. split; [congruence|lia].
        - intros m Hm. destruct (decide (m = j)) as [->|Hmj]; [split; [lia|done]|]. split; [|lia]. intros H. exfalso. apply (HQ m); [lia|done]. }
      assert (Hmove : forall (Q : nat -> Prop), (forall m, j < m <= length es -> (Q m <-> seen names (upto (S j) m es) script)) -> Q j ->
         exists j', j <= j' <= length es /\ ends (run_from T (arrive T (zeros (S j))) script) j' /\ forall m, j <= m <= length es -> (Q m <-> m <= j')).
      { intros Q HQ HQj. destruct (IH (S j) ltac:(lia)) as (j' & Hj' & He & Hm'). exists j'. split; [lia|]. split; [done|].
        intros m Hm. destruct (decide (m = j)) as [->|Hmj]; [split; [lia|done]|]. rewrite HQ by lia. apply Hm'. lia. }
      assert (Hstay : forall (Q : nat -> Prop), (forall m, j < m <= length es -> (Q m <-> seen names (upto j m es) script)) -> Q j ->
         exists j', j <= j' <= length es /\ ends (run_from T (arrive T (zeros j)) script) j' /\ forall m, j <= m <= length es -> (Q m <-> m <= j')).
      { intros Q HQ HQj. destruct (IH j Hj) as (j' & Hj' & He & Hm'). exists j'. split; [lia|]. split; [done|].
        intros m Hm. destruct (decide (m = j)) as [->|Hmj]; [split; [lia|done]|]. rewrite HQ by lia. apply Hm'. lia. }
      assert (HQj : seen names (upto j j es) ((w, v) :: script)) by (rewrite upto_nil; constructor).
      assert (Hiff : forall m, j < m <= length es -> (seen names (upto j m es) ((w, v) :: script) <->
          if decide (w = lit "timeout") then False
          else if decide (w = lit "accept") then (if decide (ch_kind (e_chan e) = KIn) then seen names (upto (S j) m es) script else seen names (upto j m es) script)
          else if decide (w ∈ names) then
            (if decide (ch_kind (e_chan e) <> KIn /\ ch_name (e_chan e) = w /\ e_value e = Some v) then seen names (upto (S j) m es) script else False)
          else seen names (upto j m es) script)).
      { intros m Hm. rewrite (upto_cons j m es e Ee) by lia. apply seen_cons_iff; [done|done|]. by apply name_in. }
      change (run_from T (arrive T (zeros j)) ((w, v) :: script)) with (run_from T (obs_step T (arrive T (zeros j)) w v) script).
      rewrite Har. unfold obs_step. cbn [o_end o_at]. pose proof (proj1 (nn_at _ _ _ _ Hnd)) as Hat. fold T in Hat. rewrite Hat.
      rewrite (nn_input _ _ _ _ Hnd), (nn_output _ _ _ _ Hnd). fold es. rewrite Ee.
      destruct (decide (w = lit "timeout")) as [E1|E1].
      { apply Hstop; [done| |done]. intros m Hm H. by apply (Hiff m Hm) in H. }
      destruct (decide (w = lit "accept")) as [E2|E2].
      { destruct (decide (ch_kind (e_chan e) = KIn)) as [Ek|Ek].
        - rewrite ?zeros_snoc. apply Hmove; [exact Hiff|done].
        - rewrite <- Har. apply Hstay; [exact Hiff|done]. }
      pose proof (expand_out_names t name w) as Hon. fold T es names in Hon.
      destruct (decide (w ∈ names)) as [E3|E3].
      + rewrite decide_True by (by apply Hon).
        destruct (decide (ch_kind (e_chan e) <> KIn /\ ch_name (e_chan e) = w /\ e_value e = Some v)) as [E4|E4].
        * rewrite ?zeros_snoc. apply Hmove; [exact Hiff|done].
        * apply Hstop; [done| |done]. intros m Hm H. by apply (Hiff m Hm) in H.
      + rewrite decide_False by (by rewrite Hon). rewrite <- Har. apply Hstay; [exact Hiff|done].
  Qed.

  Lemma ready_run script : let o := run_from T (Obs None None) script in is_Some (next_input T) ->
    (exists j', j' <= length es /\ ends o j' /\ forall m, m <= length es -> (seen_ready names (take m es) script <-> m <= j')) \/
    (o_at o = None /\ o_end o <> Some FAIL /\ forall m, ~ seen_ready names (take m es) script).
  Proof.
    intros o Hi. subst o. destruct Hres as (R1 & R2 & R3). induction script as [|[w v] script IH].
    - right. split; [done|]. split; [done|]. intros m H. inversion H.
    - change (run_from T (Obs None None) ((w, v) :: script)) with (run_from T (obs_step T (Obs None None) w v) script).
      unfold obs_step. cbn [o_end o_at].
      pose proof (expand_out_names t name w) as Hon. fold T es names in Hon.
      destruct (decide (w = lit "timeout")) as [E1|E1].
      { right. rewrite (run_ended T _ TIMEOUT) by done. split; [done|]. split; [done|]. intros m. rewrite seen_ready_cons_iff by done. rewrite decide_True by done. tauto. }
      destruct (decide (w = lit "ready")) as [E2|E2].
      { left. destruct (seen_run script 0 ltac:(lia)) as (j' & Hj & He & Hm). exists j'. split; [lia|]. split; [done|].
        intros m Hm'. rewrite seen_ready_cons_iff by done. rewrite decide_False, decide_True by done.
        specialize (Hm m ltac:(lia)). unfold upto in Hm. rewrite Nat.sub_0_r, drop_0 in Hm. done. }
      destruct (decide (w ∈ names)) as [E3|E3].
      + rewrite decide_True by (by apply Hon). right. rewrite (run_ended T _ OFF_SCRIPT) by done. split; [done|]. split; [done|].
        intros m. rewrite seen_ready_cons_iff by done. rewrite decide_False, decide_False, decide_True by done. tauto.
      + rewrite decide_False by (by rewrite Hon). destruct IH as [(j' & H1 & H2 & H3)|(H1 & H2 & H3)].
        * left. exists j'. split; [done|]. split; [done|]. intros m Hm. rewrite seen_ready_cons_iff by done. rewrite !decide_False by done. by apply H3.
        * right. split; [done|]. split; [done|]. intros m. rewrite seen_ready_cons_iff by done. rewrite !decide_False by done. apply H3.
  Qed.
  Lemma trace_run script : let o := obs_run T script in
    (exists j', j' <= length es /\ ends o j' /\ forall m, m <= length es -> (reached t (take m es) script <-> m <= j')) \/
    (o_at o = None /\ o_end o <> Some FAIL /\ forall m, ~ reached t (take m es) script).
  Proof.
    intros o. subst o. destruct (expand_node t name 0 ltac:(lia)) as [nd Hnd].
    assert (nd = T) as -> by (pose proof (proj1 (nn_at _ _ _ _ Hnd)) as H; change (Some T = Some nd) in H; congruence).
    pose proof (nn_input _ _ _ _ Hnd) as Hin. fold es in Hin.
    assert (Hes : exists e r, es = e :: r).
    { unfold es, trace_events. destruct (f_prefix t); cbn; eauto. }
    destruct Hes as (e & r & Hes). rewrite Hes in Hin. change ((e :: r) !! 0) with (Some e) in Hin. cbn iota in Hin.
    assert (Hre : forall l s, reached t l s <-> if decide (ch_kind (e_chan e) = KIn) then seen_ready names l s else seen names l s).
    { intros l s. unfold reached. fold es. fold names. by rewrite Hes. }
    setoid_rewrite Hre. clear Hre. unfold obs_run, obs_start. rewrite Hin.
    destruct (decide (ch_kind (e_chan e) = KIn)) as [Hk|Hk].
    - apply ready_run. rewrite Hin. by eexists.
    - left. destruct (seen_run script 0 ltac:(lia)) as (j' & Hj & He & Hm). exists j'. split; [lia|]. split; [done|].
      intros m Hm'. specialize (Hm m ltac:(lia)). unfold upto in Hm. rewrite Nat.sub_0_r, drop_0 in Hm. done.
  Qed.
  Lemma recorded_nth j : j <= length es -> recorded T (zeros j) name OUnset = after_outcome t j.
  Proof.
    destruct j as [|j]; intros Hj.
    - destruct (expand_node t name 0 ltac:(lia)) as [nd Hnd].
      assert (nd = T) as -> by (pose proof (proj1 (nn_at _ _ _ _ Hnd)) as H; change (Some T = Some nd) in H; congruence).
      cbn. rewrite (nn_says _ _ _ _ Hnd), decide_True by done. done.
    - destruct (expand_node t name j ltac:(fold es; lia)) as [nd Hnd]. destruct (expand_node t name (S j) Hj) as [nd' Hnd'].
      rewrite <- zeros_snoc. pose proof (proj1 (nn_at _ _ _ _ Hnd)) as Hat. fold T in Hat.
      pose proof (proj1 (nn_at _ _ _ _ Hnd')) as Hat'. fold T in Hat'. rewrite <- zeros_snoc, (node_at_snoc T _ nd 0 Hat) in Hat'.
      rewrite (recorded_snoc T _ nd 0 nd' name Hat Hat'). rewrite (nn_says _ _ _ _ Hnd'), decide_True by done. done.
  Qed.
  Lemma input_of_nth j nd : nth_node t name j nd -> input_of nd = inputs_of (option_list (es !! j)).
  Proof.
    intros Hnd. unfold input_of. rewrite (nn_input _ _ _ _ Hnd). fold es.
    destruct (decide (failing nd)) as [Hf|Hf].
    - apply (nn_failing _ _ _ _ Hnd) in Hf. fold es in Hf. subst j. assert (es !! length es = None) as -> by (by apply lookup_ge_None). done.
    - destruct (es !! j) as [e|] eqn:Ee; [|done]. change (option_list (Some e)) with [e]. unfold inputs_of. rewrite filter_cons. destruct (decide (ch_kind (e_chan e) = KIn)) as [Hk|Hk]; [|done].
      pose proof (nn_input _ _ _ _ Hnd) as Hi. fold es in Hi. rewrite Ee, decide_True in Hi by done.
      unfold next_input in Hi. destruct (list_find input_kid (n_next nd)) as [[i k]|] eqn:El; [|done]. cbn in Hi. injection Hi as ->.
      apply list_find_Some in El as (Hk0 & _). change (n_next nd !! 0 = Some k) in Hk0. rewrite Hk0. rewrite (nn_event _ _ _ _ Hnd k e Hk0 Ee). done.
  Qed.
  Lemma sends_nth j : j <= length es -> sends T (zeros j) = inputs_of (take (S j) es).
  Proof.
    induction j as [|j IH]; intros Hj.
    - destruct (expand_node t name 0 ltac:(lia)) as [nd Hnd].
      assert (nd = T) as -> by (pose proof (proj1 (nn_at _ _ _ _ Hnd)) as H; change (Some T = Some nd) in H; congruence).
      cbn [zeros replicate sends]. rewrite (input_of_nth 0 T Hnd), app_nil_r. f_equal. by destruct es.
    - destruct (expand_node t name j ltac:(fold es; lia)) as [nd Hnd]. destruct (expand_node t name (S j) Hj) as [nd' Hnd'].
      rewrite <- zeros_snoc. pose proof (proj1 (nn_at _ _ _ _ Hnd)) as Hat. fold T in Hat.
      pose proof (proj1 (nn_at _ _ _ _ Hnd')) as Hat'. fold T in Hat'. rewrite <- zeros_snoc, (node_at_snoc T _ nd 0 Hat) in Hat'.
      rewrite (sends_snoc T _ nd 0 nd' Hat Hat'), IH by lia. rewrite (input_of_nth _ _ Hnd').
      unfold inputs_of. rewrite <- map_app. f_equal. rewrite <- filter_app. f_equal.
      destruct (es !! S j) as [e|] eqn:Ee.
      + symmetry. by apply take_S_r.
      + apply lookup_ge_None in Ee. rewrite !take_ge by lia. by rewrite app_nil_r.
  Qed.
End trace.
