(** * Lemmas about the testing language *)
From Verif Require Export TestLang SpecLang GoStrProofs.
From Coq Require Import ZifyBool ZifyNat ZifyN.
Ltac Zify.zify_post_hook ::= Z.div_mod_to_equations.


(** ** Values *)

Lemma value_unmarshal_int s t z :
  trimmed s t -> value_unmarshal s = Some (IntV z) <-> int_syntax t z /\ int64 z.
Proof.
  intros Ht. apply trimmed_iff in Ht. unfold value_unmarshal. rewrite Ht.
  rewrite <- parse_int_Some. destruct (parse_int t); naive_solver.
Qed.
Lemma value_unmarshal_enum s t :
  trimmed s t -> ~ spells_int64 t -> value_unmarshal s = Some (EnumV t).
Proof.
  intros Ht Hn. apply trimmed_iff in Ht. unfold value_unmarshal. rewrite Ht.
  destruct (parse_int t) as [z|] eqn:E; [|done].
  destruct Hn. exists z. by apply parse_int_Some.
Qed.
Lemma trimmed_exists s : exists t, trimmed s t.
Proof. exists (trim_space s). by apply trimmed_iff. Qed.
Lemma trimmed_unique s t t' : trimmed s t -> trimmed s t' -> t = t'.
Proof. rewrite !trimmed_iff. congruence. Qed.

Lemma value_roundtrip v : value_unmarshal (valuable_text v) = Some v <-> plain_value v.
Proof.
  destruct v as [z|s]; simpl.
  - unfold value_unmarshal. rewrite trim_space_plain by apply format_int_plain.
    destruct (parse_int (format_int z)) as [z'|] eqn:E.
    + apply parse_int_Some in E as [H1 H2].
      pose proof (int_syntax_det _ _ _ H1 (format_int_syntax z)) as ->. naive_solver.
    + split; [discriminate|]. intros H. rewrite parse_format_int in E by done. discriminate.
  - unfold value_unmarshal, spells_int64. rewrite no_outer_space_iff.
    destruct (parse_int (trim_space s)) as [z|] eqn:E.
    + split; [discriminate|]. intros [H1 H2]. rewrite H1 in E. apply parse_int_Some in E.
      destruct H2. by exists z.
    + split.
      * intros [= H]. split; [done|]. intros (z & Hz). apply parse_int_Some in Hz.
        rewrite H in E. congruence.
      * intros [-> _]. done.
Qed.

Lemma value_unmarshal_plain s : exists v, value_unmarshal s = Some v /\ plain_value v.
Proof.
  unfold value_unmarshal. destruct (parse_int (trim_space s)) as [z|] eqn:E.
  - eexists. split; [done|]. simpl. by apply parse_int_Some in E as [_ ?].
  - eexists. split; [done|]. simpl. split.
    + apply no_outer_space_iff. apply trim_space_idem.
    + intros (z & Hz). apply parse_int_Some in Hz. congruence.
Qed.

Lemma value_equals_iff a b : value_equals a b = true <-> a = b.
Proof.
  destruct a as [[x|x]|], b as [[y|y]|]; simpl; try naive_solver.
  - rewrite Z.eqb_eq. naive_solver.
  - rewrite bool_decide_eq_true. naive_solver.
Qed.

(** ** Kinds and the other enumerations *)

Lemma kind_value_Some s k : kind_value s = Some k <-> valid_kind k /\ s = kind_string k.
Proof.
  unfold kind_value, valid_kind.
  repeat (destruct (decide _); [subst|]); split; intros H.
  all: try (injection H as <-; split; [tauto|done]).
  all: try discriminate.
  all: destruct H as [[->|[->| ->]] H]; try done; try discriminate.
Qed.
Lemma kind_string_lower k : valid_kind k -> to_lower (kind_string k) = kind_string k.
Proof. intros [->|[->| ->]]; reflexivity. Qed.
Lemma parse_kind_Some s k : parse_kind s = Some k <-> valid_kind k /\ to_lower s = kind_string k.
Proof.
  unfold parse_kind. destruct (kind_value s) as [k'|] eqn:E.
  - apply kind_value_Some in E as [Hv ->]. rewrite kind_string_lower by done. split.
    + intros [= ->]. done.
    + intros [Hv' H]. destruct Hv as [->|[->| ->]], Hv' as [->|[->| ->]]; done.
  - apply kind_value_Some.
Qed.
Lemma parse_kind_string k : valid_kind k -> parse_kind (kind_string k) = Some k.
Proof. intros H. apply parse_kind_Some. split; [done|]. by apply kind_string_lower. Qed.
Lemma kind_string_ascii k : valid_kind k -> Forall (fun c => is_ascii c = true) (kind_string k).
Proof. intros [->|[->| ->]]; repeat constructor. Qed.
Lemma kind_string_plain k : valid_kind k -> Forall (fun c => plain_byte c = true) (kind_string k).
Proof. intros [->|[->| ->]]; repeat constructor. Qed.
Lemma kind_string_nodot k : valid_kind k -> "."%char ∉ kind_string k.
Proof. intros [->|[->| ->]] H; repeat (apply elem_of_cons in H as [?|H]; [discriminate|]); by apply elem_of_nil in H. Qed.

(** The first byte of a lower-cased string starting with an ASCII byte. *)
Lemma to_lower_head c s : is_ascii c = true -> exists r, to_lower (c :: s) = lower_c c :: r.
Proof.
  intros Hc. unfold is_ascii in Hc. cbn [to_lower]. destruct s as [|d s]; [by eexists|].
  destruct (Ascii.eqb c (byte 196)) eqn:E1.
  { apply aeqb_spec in E1 as ->. rewrite code_byte in Hc by lia. lia. }
  cbn [andb]. destruct s as [|e s]; [by eexists|].
  destruct (Ascii.eqb c (byte 226)) eqn:E2.
  { apply aeqb_spec in E2 as ->. rewrite code_byte in Hc by lia. lia. }
  cbn [andb]. by eexists.
Qed.
Lemma parse_kind_bad n : parse_kind (kind_string (KBad n)) = None.
Proof.
  destruct (parse_kind (kind_string (KBad n))) as [k|] eqn:E; [|done].
  apply parse_kind_Some in E as [Hv H]. exfalso.
  destruct (to_lower_head "K"%char (lit "ind(" ++ format_N n ++ lit ")")) as [r Hr]; [done|].
  change (kind_string (KBad n)) with ("K"%char :: (lit "ind(" ++ format_N n ++ lit ")")) in H.
  rewrite Hr in H. destruct Hv as [->|[->| ->]]; discriminate.
Qed.

Lemma outcome_value_Some s o : outcome_value s = Some o <-> valid_outcome o /\ s = outcome_string o.
Proof.
  unfold outcome_value, valid_outcome.
  repeat (destruct (decide _); [subst|]); split; intros H.
  all: try (injection H as <-; split; [tauto|done]).
  all: try discriminate.
  all: destruct H as [[->|[->|[->| ->]]] H]; try done; try discriminate.
Qed.
Lemma outcome_string_lower o : valid_outcome o -> to_lower (outcome_string o) = outcome_string o.
Proof. intros [->|[->|[->| ->]]]; reflexivity. Qed.
Lemma parse_outcome_Some s o :
  parse_outcome s = Some o <-> valid_outcome o /\ to_lower s = outcome_string o.
Proof.
  unfold parse_outcome. destruct (outcome_value s) as [o'|] eqn:E.
  - apply outcome_value_Some in E as [Hv ->]. rewrite outcome_string_lower by done. split.
    + intros [= ->]. done.
    + intros [Hv' H]. destruct Hv as [->|[->|[->| ->]]], Hv' as [->|[->|[->| ->]]]; done.
  - apply outcome_value_Some.
Qed.
Lemma outcome_string_ascii o : valid_outcome o -> Forall (fun c => is_ascii c = true) (outcome_string o).
Proof. intros [->|[->|[->| ->]]]; repeat constructor. Qed.
Lemma parse_outcome_bad n : parse_outcome (outcome_string (OBad n)) = None.
Proof.
  destruct (parse_outcome (outcome_string (OBad n))) as [k|] eqn:E; [|done].
  apply parse_outcome_Some in E as [Hv H]. exfalso.
  destruct (to_lower_head "O"%char (lit "utcome(" ++ format_N n ++ lit ")")) as [r Hr]; [done|].
  change (outcome_string (OBad n)) with ("O"%char :: (lit "utcome(" ++ format_N n ++ lit ")")) in H.
  rewrite Hr in H. destruct Hv as [->|[->|[->| ->]]]; discriminate.
Qed.


Lemma parse_type_Some s t :
  parse_type s = Some t <-> t ∈ basic_types /\ ty_string t = Some (to_lower s).
Proof.
  unfold parse_type, basic_types. cbv zeta.
  repeat match goal with |- context [decide (to_lower s = ?x)] =>
    destruct (decide (to_lower s = x)) as [->|]; cbv iota end.
  1-5: split; [intros [= <-]; split; [set_solver|reflexivity]|];
       intros [Ht H]; repeat (apply elem_of_cons in Ht as [->|Ht]; [try reflexivity; discriminate H|]);
       by apply elem_of_nil in Ht.
  split; [discriminate|].
  intros [Ht H].
  apply elem_of_cons in Ht as [->|Ht]; [change (Some (lit "()") = Some (to_lower s)) in H; congruence|].
  apply elem_of_cons in Ht as [->|Ht]; [change (Some (lit "enum") = Some (to_lower s)) in H; congruence|].
  apply elem_of_cons in Ht as [->|Ht]; [change (Some (lit "nat") = Some (to_lower s)) in H; congruence|].
  apply elem_of_cons in Ht as [->|Ht]; [change (Some (lit "int") = Some (to_lower s)) in H; congruence|].
  apply elem_of_cons in Ht as [->|Ht]; [change (Some (lit "real") = Some (to_lower s)) in H; congruence|].
  by apply elem_of_nil in Ht.
Qed.
Lemma ty_string_lower t : t ∈ basic_types -> exists s, ty_string t = Some s /\ to_lower s = s /\ Forall (fun c => is_ascii c = true) s.
Proof.
  intros Ht. unfold basic_types in Ht.
  repeat (apply elem_of_cons in Ht as [->|Ht]; [eexists; split; [reflexivity|]; split; [reflexivity|repeat constructor]|]).
  by apply elem_of_nil in Ht.
Qed.
Lemma ty_string_inj a b s : a ∈ basic_types -> b ∈ basic_types ->
  ty_string a = Some s -> ty_string b = Some s -> a = b.
Proof.
  intros Ha Hb H1 H2.
  assert (parse_type s = Some a) as Hpa.
  { apply parse_type_Some. split; [done|]. destruct (ty_string_lower a Ha) as (s' & H & Hl & _). congruence. }
  assert (parse_type s = Some b) as Hpb.
  { apply parse_type_Some. split; [done|]. destruct (ty_string_lower b Hb) as (s' & H & Hl & _). congruence. }
  congruence.
Qed.

(** ** Channels and events *)

Lemma channel_equals_iff a b : channel_equals a b = true <-> a = b.
Proof.
  unfold channel_equals. rewrite andb_true_iff, !bool_decide_eq_true.
  destruct a, b; simpl. naive_solver.
Qed.
Lemma event_equals_iff a b : event_equals a b = true <-> a = b.
Proof.
  unfold event_equals. rewrite andb_true_iff, channel_equals_iff, value_equals_iff.
  destruct a, b; simpl. naive_solver.
Qed.


Lemma event_text_fun s n k v n' k' v' :
  event_text s n k v -> event_text s n' k' v' -> n = n' /\ k = k' /\ v = v'.
Proof.
  intros H1 H2.
  assert (Hc : forall n k v, event_text s n k v ->
    exists r, cut "." s = Some (n, r) /\
      match v with None => cut "." r = None /\ r = k | Some v => cut "." r = Some (k, v) end).
  { intros a b c H. inversion H; subst.
    - exists b. split; [by apply cut_app|]. split; [by apply cut_None|done].
    - eexists. split; [by apply cut_app|]. by apply cut_app. }
  destruct (Hc _ _ _ H1) as (r & Hr & Hv), (Hc _ _ _ H2) as (r' & Hr' & Hv').
  assert (Heq : Some (n, r) = Some (n', r')) by congruence. injection Heq as <- <-.
  destruct v, v'.
  - assert (Heq : Some (k, g) = Some (k', g0)) by congruence. injection Heq as <- <-. done.
  - destruct Hv'. congruence.
  - destruct Hv. congruence.
  - destruct Hv as [_ <-], Hv' as [_ <-]. done.
Qed.

Lemma channel_unmarshal_rem_spec text c r :
  channel_unmarshal_rem text = Ok (c, r) <->
  exists name ktext, event_text text name ktext r /\
    ch_name c = trim_space name /\ parse_kind (trim_space ktext) = Some (ch_kind c).
Proof.
  unfold channel_unmarshal_rem, num_event_parts, num_channel_parts. cbn [Nat.add split_n].
  change event_sep with "."%char.
  destruct (cut "." text) as [[f0 t1]|] eqn:E0.
  - apply cut_Some in E0 as [-> H0].
    destruct (cut "." t1) as [[f1 f2]|] eqn:E1.
    + apply cut_Some in E1 as [-> H1]. cbn.
      destruct (parse_kind (trim_space f1)) as [k|] eqn:Ek.
      * split.
        -- intros [= <- <-]. exists f0, f1. split; [by constructor|]. done.
        -- intros (n & kt & Ht & Hn & Hk).
           destruct (event_text_fun _ _ _ _ _ _ _ Ht (et_three f0 f1 f2 H0 H1)) as (-> & -> & ->).
           destruct c as [cn ck]; simpl in *. rewrite Ek in Hk. injection Hk as ->. by rewrite Hn.
      * split; [discriminate|]. intros (n & kt & Ht & Hn & Hk).
        destruct (event_text_fun _ _ _ _ _ _ _ Ht (et_three f0 f1 f2 H0 H1)) as (-> & -> & ->).
        congruence.
    + apply cut_None in E1. cbn.
      destruct (parse_kind (trim_space t1)) as [k|] eqn:Ek.
      * split.
        -- intros [= <- <-]. exists f0, t1. split; [by constructor|]. done.
        -- intros (n & kt & Ht & Hn & Hk).
           destruct (event_text_fun _ _ _ _ _ _ _ Ht (et_two f0 t1 H0 E1)) as (-> & -> & ->).
           destruct c as [cn ck]; simpl in *. rewrite Ek in Hk. injection Hk as ->. by rewrite Hn.
      * split; [discriminate|]. intros (n & kt & Ht & Hn & Hk).
        destruct (event_text_fun _ _ _ _ _ _ _ Ht (et_two f0 t1 H0 E1)) as (-> & -> & ->).
        congruence.
  - apply cut_None in E0. cbn. split; [discriminate|].
    intros (n & kt & Ht & _). exfalso. apply E0. inversion Ht; subst; set_solver.
Qed.
Lemma channel_unmarshal_rem_no_panic text : channel_unmarshal_rem text <> Panic.
Proof.
  unfold channel_unmarshal_rem, num_event_parts, num_channel_parts. cbn [Nat.add split_n].
  destruct (cut event_sep text) as [[f0 t1]|]; [|done].
  destruct (cut event_sep t1) as [[f1 f2]|]; cbn; by destruct (parse_kind _).
Qed.

Lemma event_unmarshal_spec old text e :
  event_unmarshal old text = Ok e <->
  exists name ktext v, event_text text name ktext v /\
    ch_name (e_chan e) = trim_space name /\ parse_kind (trim_space ktext) = Some (ch_kind (e_chan e)) /\
    e_value e = match v with None => e_value old | Some t => value_unmarshal t end.
Proof.
  unfold event_unmarshal. split.
  - destruct (channel_unmarshal_rem text) as [[c r]|x|] eqn:E; [|discriminate|discriminate].
    apply channel_unmarshal_rem_spec in E as (n & k & Ht & Hn & Hk).
    destruct r as [r|]; intros [= <-]; exists n, k; eexists; (split; [exact Ht|]); done.
  - intros (n & k & v & Ht & Hn & Hk & Hv).
    assert (channel_unmarshal_rem text = Ok (e_chan e, v)) as ->.
    { apply channel_unmarshal_rem_spec. by exists n, k. }
    destruct e as [c w]; simpl in *. destruct v; by rewrite Hv.
Qed.
Lemma event_unmarshal_no_panic old text : event_unmarshal old text <> Panic.
Proof.
  unfold event_unmarshal. destruct (channel_unmarshal_rem text) as [[c [r|]]|x|] eqn:E; try done.
  by apply channel_unmarshal_rem_no_panic in E.
Qed.

Lemma valid_kind_dec k : valid_kind k \/ exists n, k = KBad n.
Proof. unfold valid_kind. destruct k; eauto. Qed.

(** The text of an event with a non-empty channel name. *)
Lemma event_marshal_ne e :
  ch_name (e_chan e) <> [] ->
  event_marshal e = ch_name (e_chan e) ++ "."%char :: kind_string (ch_kind (e_chan e)) ++
    match e_value e with None => [] | Some v => "."%char :: valuable_text v end.
Proof.
  intros Hne. unfold event_marshal, channel_marshal.
  destruct (ch_name (e_chan e)) as [|c r] eqn:E; [done|].
  destruct (e_value e); simpl; [|by rewrite app_nil_r].
  rewrite <- (assoc_L (++)). done.
Qed.

Lemma valuable_text_len_lt v r : value_unmarshal r = Some v -> length (valuable_text v) <= length r \/ exists z, v = IntV z.
Proof.
  intros H. destruct v as [z|s]; [right; by eexists|]. left.
  unfold value_unmarshal in H. destruct (parse_int (trim_space r)); [discriminate|].
  injection H as <-. simpl. destruct (trim_space_spec r) as (a & b & _ & _ & Hr & _).
  rewrite Hr at 2. rewrite !app_length. lia.
Qed.

Lemma int_syntax_nodot s z : int_syntax s z -> "."%char ∉ s.
Proof.
  intros H. assert (Hd : forall ds, all_digits ds -> "."%char ∉ ds).
  { intros ds Hds Hx. unfold all_digits in Hds. rewrite Forall_forall in Hds. specialize (Hds _ Hx). discriminate. }
  destruct H as [ds _ Hds|ds _ Hds|ds _ Hds]; intros Hin.
  - by apply (Hd ds).
  - apply elem_of_cons in Hin as [Hx|Hx]; [discriminate|]. by apply (Hd ds).
  - apply elem_of_cons in Hin as [Hx|Hx]; [discriminate|]. by apply (Hd ds).
Qed.

Lemma event_roundtrip e :
  event_unmarshal zero_event (event_marshal e) = Ok e <->
  valid_kind (ch_kind (e_chan e)) /\ plain_chan_name (ch_name (e_chan e)) /\
  match e_value e with None => True | Some v => plain_value v end.
Proof.
  unfold plain_chan_name. split.
  - intros H. apply event_unmarshal_spec in H as (n & k & v & Ht & Hn & Hk & Hv).
    assert (Hvk : valid_kind (ch_kind (e_chan e))) by (by apply parse_kind_Some in Hk as [? _]).
    destruct (decide (ch_name (e_chan e) = [])) as [Hemp|Hne].
    { exfalso. unfold event_marshal, channel_marshal in Ht. rewrite Hemp in Ht.
      destruct (e_value e) as [w|] eqn:Ew; simpl in Ht.
      - destruct w as [z|s].
        + simpl in Ht. assert (Hnd : "."%char ∉ format_int z).
          { eapply int_syntax_nodot. apply format_int_syntax. }
          destruct (event_text_fun _ _ _ _ _ _ _ Ht (et_two [] (format_int z) (not_elem_of_nil _) Hnd)) as (-> & -> & ->).
          simpl in Hv. done.
        + simpl in Ht. destruct v as [v|]; [|by rewrite Hv in Ew; simpl in Ew].
          inversion Ht as [|n' k' v' Hn' Hk' Heq]; subst.
          destruct n as [|n0 n]; [|simpl in Heq; injection Heq as -> _; exfalso; apply Hn'; left].
          simpl in Heq. injection Heq as Heq.
          destruct (valuable_text_len_lt (EnumV s) v) as [Hl|[z Hz]]; [congruence| |done].
          simpl in Hl. rewrite <- Heq, app_length in Hl. simpl in Hl. lia.
      - inversion Ht; subst; by destruct n. }
    rewrite event_marshal_ne in Ht by done.
    split; [done|].
    assert (Hnd : "."%char ∉ n) by (inversion Ht; subst; done).
    assert (Hnm : "."%char ∉ ch_name (e_chan e)).
    { rewrite Hn. intros Hin. apply Hnd. by apply trim_space_elem. }
    assert (n = ch_name (e_chan e) /\ v = match e_value e with None => None | Some w => Some (valuable_text w) end) as [-> ->].
    { destruct (e_value e) as [w|].
      - destruct (event_text_fun _ _ _ _ _ _ _ Ht (et_three _ _ (valuable_text w) Hnm (kind_string_nodot _ Hvk))) as (-> & _ & ->). done.
      - rewrite app_nil_r in Ht.
        destruct (event_text_fun _ _ _ _ _ _ _ Ht (et_two _ _ Hnm (kind_string_nodot _ Hvk))) as (-> & _ & ->). done. }
    split; [split; [done|split; [done|by apply no_outer_space_iff]]|].
    destruct (e_value e) as [w|] eqn:Ew; [|done].
    apply value_roundtrip. by rewrite <- Hv.
  - intros (Hk & (Hne & Hnd & Hsp) & Hv). apply event_unmarshal_spec.
    exists (ch_name (e_chan e)), (kind_string (ch_kind (e_chan e))),
      (match e_value e with None => None | Some w => Some (valuable_text w) end).
    split; [|split; [|split]].
    + rewrite event_marshal_ne by done. destruct (e_value e).
      * constructor; [done|by apply kind_string_nodot].
      * rewrite app_nil_r. constructor; [done|by apply kind_string_nodot].
    + symmetry. by apply no_outer_space_iff.
    + rewrite trim_space_plain by (by apply kind_string_plain). by apply parse_kind_string.
    + destruct (e_value e) as [w|]; [|done]. symmetry. by apply value_roundtrip.
Qed.

Lemma event_parsed_plain text e :
  event_unmarshal zero_event text = Ok e -> ch_name (e_chan e) <> [] ->
  valid_kind (ch_kind (e_chan e)) /\ plain_chan_name (ch_name (e_chan e)) /\
  match e_value e with None => True | Some v => plain_value v end.
Proof.
  intros H Hne. apply event_unmarshal_spec in H as (n & k & v & Ht & Hn & Hk & Hv).
  split; [by apply parse_kind_Some in Hk as [? _]|]. split.
  - split; [done|]. rewrite Hn. split.
    + intros Hin. apply trim_space_elem in Hin. inversion Ht; subst; done.
    + apply no_outer_space_iff. apply trim_space_idem.
  - rewrite Hv. destruct v as [v|]; [|done].
    destruct (value_unmarshal_plain v) as (w & -> & Hw). done.
Qed.

Lemma event_parsed_stable text e :
  event_unmarshal zero_event text = Ok e -> ch_name (e_chan e) <> [] ->
  event_unmarshal zero_event (event_marshal e) = Ok e.
Proof. intros H1 H2. apply event_roundtrip. by eapply event_parsed_plain. Qed.

(** ** Unification *)


Lemma domain_num_inj a b : domain_num a = domain_num b -> a = b.
Proof. destruct a, b; simpl; (done || lia). Qed.
Lemma max_domain_num a b : domain_num (max_domain a b) = N.max (domain_num a) (domain_num b).
Proof. unfold max_domain. destruct (domain_num a <=? domain_num b)%N eqn:E; lia. Qed.


Lemma unify_some a b :
  unify (Some a) (Some b) =
  if decide (t_kind a = t_kind b)
  then Ok (Some (if decide (t_kind a = TArithmos)
                 then RsType TArithmos (max_domain (t_domain a) (t_domain b)) else a))
  else Err ErrUnifyDifferentKinds.
Proof.
  unfold unify. destruct (decide (t_kind a = t_kind b)) as [H|H].
  - rewrite bool_decide_true by done. simpl. destruct (decide (t_kind a = TArithmos)).
    + by rewrite bool_decide_true.
    + by rewrite bool_decide_false.
  - by rewrite bool_decide_false.
Qed.

Lemma unify_lub a b c :
  wf_type a -> wf_type b -> unify (Some a) (Some b) = Ok (Some c) ->
  wf_type c /\ ty_le a c /\ ty_le b c /\ forall d, ty_le a d -> ty_le b d -> ty_le c d.
Proof.
  unfold ty_le, wf_type. rewrite unify_some. intros Ha Hb.
  destruct (decide (t_kind a = t_kind b)) as [Hk|]; [|discriminate].
  destruct (decide (t_kind a = TArithmos)) as [Hr|Hr]; intros [= <-]; cbn [t_kind t_domain].
  - rewrite max_domain_num. split; [by left|]. split; [split; [done|lia]|].
    split; [split; [congruence|lia]|]. intros d [H1 H2] [H3 H4]. split; [congruence|lia].
  - split; [done|]. destruct Ha as [?|Ha]; [done|]. destruct Hb as [?|Hb]; [congruence|].
    rewrite Ha, Hb. split; [done|]. split; [split; [congruence|lia]|]. intros d [H1 H2] _. split; [done|]. lia.
Qed.
Lemma unify_ok_iff a b : is_ok (unify (Some a) (Some b)) <-> t_kind a = t_kind b.
Proof.
  unfold is_ok. rewrite unify_some. destruct (decide (t_kind a = t_kind b)); split; try done.
  - intros _. by eexists.
  - by intros [? ?].
Qed.
Lemma unify_comm a b :
  match a with Some a => wf_type a | None => True end ->
  match b with Some b => wf_type b | None => True end ->
  unify a b = unify b a.
Proof.
  destruct a as [[ka da]|], b as [[kb db]|]; try done. rewrite !unify_some. cbn [t_kind t_domain].
  unfold wf_type. cbn [t_kind t_domain]. intros Ha Hb.
  destruct (decide (ka = kb)) as [->|]; [|by rewrite decide_False].
  rewrite !(decide_True (P:=kb = kb)) by done. destruct (decide (kb = TArithmos)).
  - do 3 f_equal. apply domain_num_inj. rewrite !max_domain_num. lia.
  - destruct Ha as [?|Ha]; [done|]. destruct Hb as [?|Hb]; [done|]. by rewrite Ha, Hb.
Qed.
Lemma unify_none_r a : unify a None = Ok a.
Proof. by destruct a. Qed.
Lemma unify_none_l a : unify None a = Ok a.
Proof. done. Qed.
Lemma unify_assoc a b c :
  res_bind (unify a b) (fun x => unify x c) = res_bind (unify b c) (fun x => unify a x).
Proof.
  destruct a as [[ka da]|]; cycle 1.
  { rewrite unify_none_l. cbn [res_bind]. by destruct (unify b c). }
  destruct b as [[kb db]|]; cycle 1.
  { rewrite unify_none_l, unify_none_r. done. }
  destruct c as [[kc dc]|]; cycle 1.
  { rewrite unify_none_r. cbn [res_bind].
    destruct (unify (Some (RsType ka da)) (Some (RsType kb db))); try done. cbn [res_bind].
    apply unify_none_r. }
  rewrite !unify_some. cbn [t_kind t_domain].
  destruct (decide (ka = kb)) as [->|Hab]; cbn [res_bind].
  - destruct (decide (kb = kc)) as [->|Hbc]; cbn [res_bind].
    + destruct (decide (kc = TArithmos)) as [->|Hc]; cbn [res_bind].
      * rewrite !unify_some. cbn [t_kind t_domain]. rewrite decide_True by done.
        do 2 f_equal. rewrite !decide_True by done.
        f_equal. apply domain_num_inj. rewrite !max_domain_num. lia.
      * rewrite !unify_some. cbn [t_kind t_domain]. rewrite !(decide_True (P:=kc = kc)) by done. by rewrite !(decide_False (P:=kc = TArithmos)) by done.
    + destruct (decide (kb = TArithmos)) as [->|Hc]; rewrite unify_some; cbn [t_kind]; by rewrite decide_False.
  - destruct (decide (kb = kc)) as [->|Hbc]; cbn [res_bind]; [|done].
    destruct (decide (kc = TArithmos)) as [->|Hc]; rewrite unify_some; cbn [t_kind]; by rewrite decide_False.
Qed.
Lemma unify_idem a : unify a a = Ok a.
Proof.
  destruct a as [[k d]|]; [|done]. rewrite unify_some. cbn [t_kind t_domain]. rewrite decide_True by done.
  destruct (decide (k = TArithmos)) as [->|]; [|done]. do 3 f_equal. apply domain_num_inj.
  rewrite max_domain_num. lia.
Qed.
Lemma value_type_wf v : wf_type (value_type v).
Proof.
  destruct v as [[z|s]|]; [|by right|by right]. unfold value_type. destruct (0 <=? z)%Z; by left.
Qed.

(** ** Lemmas behind the property theorems *)

Lemma event_denoted_iff old text e :
  event_unmarshal old text = Ok e <-> event_denoted old text e.
Proof.
  rewrite event_unmarshal_spec. unfold event_denoted. split.
  - intros (n & k & v & Ht & Hn & Hk & Hv). apply parse_kind_Some in Hk as [Hk1 Hk2].
    exists n, k, v, (trim_space n), (trim_space k). rewrite !trimmed_iff.
    split; [done|]. split; [done|]. split; [done|]. split; [done|]. split; [done|]. split; [done|].
    by destruct v.
  - intros (n & k & v & n' & k' & Ht & Hn & Hn' & Hk & Hvk & Hk' & Hv).
    rewrite trimmed_iff in Hn, Hk. exists n, k, v. split; [done|]. split; [congruence|].
    split; [apply parse_kind_Some; split; [done|congruence]|]. by destruct v.
Qed.

Lemma event_empty_name_unstable text e :
  event_unmarshal zero_event text = Ok e -> ch_name (e_chan e) = [] ->
  event_unmarshal zero_event (event_marshal e) <> Ok e.
Proof.
  intros _ Hn H. apply event_roundtrip in H as (_ & (Hne & _) & _). done.
Qed.

Lemma event_unmarshal_used old text :
  (forall old', is_ok (event_unmarshal old text) <-> is_ok (event_unmarshal old' text)) /\
  (forall e, event_unmarshal old text = Ok e ->
    ((exists name k, event_text text name k None) ->
      e_value e = e_value old /\
      event_unmarshal zero_event text = Ok (Event (e_chan e) None)) /\
    ((exists name k v, event_text text name k (Some v)) ->
      event_unmarshal zero_event text = Ok e)).
Proof.
  split.
  - intros old'. unfold is_ok, event_unmarshal.
    destruct (channel_unmarshal_rem text) as [[c [r|]]|x|].
    + done.
    + split; intros _; by eexists.
    + split; intros [? ?]; discriminate.
    + split; intros [? ?]; discriminate.
  - intros e H. apply event_unmarshal_spec in H as (n & k & v & Ht & Hn & Hk & Hv). split.
    + intros (n' & k' & Ht'). destruct (event_text_fun _ _ _ _ _ _ _ Ht Ht') as (-> & -> & ->).
      split; [done|]. apply event_unmarshal_spec. exists n', k', None. done.
    + intros (n' & k' & v' & Ht'). destruct (event_text_fun _ _ _ _ _ _ _ Ht Ht') as (-> & -> & ->).
      apply event_unmarshal_spec. exists n', k', (Some v'). done.
Qed.

Lemma unify_join a b : wf_type a -> wf_type b ->
  (is_ok (unify (Some a) (Some b)) <-> t_kind a = t_kind b) /\
  (forall r, unify (Some a) (Some b) = Ok r ->
     exists c, r = Some c /\ wf_type c /\ ty_le a c /\ ty_le b c /\
               forall d, ty_le a d -> ty_le b d -> ty_le c d) /\
  unify (Some a) (Some b) <> Panic.
Proof.
  intros Ha Hb. split; [apply unify_ok_iff|]. split.
  - intros r Hr. destruct r as [c|].
    + exists c. split; [done|]. by apply unify_lub.
    + rewrite unify_some in Hr. destruct (decide (t_kind a = t_kind b)); discriminate.
  - rewrite unify_some. by destruct (decide (t_kind a = t_kind b)).
Qed.

Lemma kind_names :
  (forall s k, parse_kind s = Some k <-> valid_kind k /\ to_lower s = kind_string k) /\
  (forall s k, valid_kind k -> same_but_case s (kind_string k) -> parse_kind s = Some k) /\
  (forall k k', valid_kind k -> valid_kind k' -> kind_string k = kind_string k' -> k = k') /\
  (forall n, parse_kind (kind_string (KBad n)) = None).
Proof.
  split; [exact parse_kind_Some|]. split; [|split; [|exact parse_kind_bad]].
  - intros s k Hk Hs. apply parse_kind_Some. split; [done|].
    rewrite (to_lower_same _ _ Hs) by (by apply kind_string_ascii). by apply kind_string_lower.
  - intros k k' [->|[->| ->]] [->|[->| ->]]; done.
Qed.
Lemma outcome_names :
  (forall s o, parse_outcome s = Some o <-> valid_outcome o /\ to_lower s = outcome_string o) /\
  (forall s o, valid_outcome o -> same_but_case s (outcome_string o) -> parse_outcome s = Some o) /\
  (forall o o', valid_outcome o -> valid_outcome o' -> outcome_string o = outcome_string o' -> o = o') /\
  (forall n, parse_outcome (outcome_string (OBad n)) = None).
Proof.
  split; [exact parse_outcome_Some|]. split; [|split; [|exact parse_outcome_bad]].
  - intros s o Ho Hs. apply parse_outcome_Some. split; [done|].
    rewrite (to_lower_same _ _ Hs) by (by apply outcome_string_ascii). by apply outcome_string_lower.
  - intros o o' [->|[->|[->| ->]]] [->|[->|[->| ->]]]; done.
Qed.
Lemma type_names :
  (forall s t, parse_type s = Some t <-> t ∈ basic_types /\ ty_string t = Some (to_lower s)) /\
  (forall t, t ∈ basic_types -> exists n, ty_string t = Some n /\
     forall s, same_but_case s n -> parse_type s = Some t) /\
  (forall a b n, a ∈ basic_types -> b ∈ basic_types ->
     ty_string a = Some n -> ty_string b = Some n -> a = b).
Proof.
  split; [exact parse_type_Some|]. split; [|exact ty_string_inj].
  intros t Ht. destruct (ty_string_lower t Ht) as (n & Hn & Hl & Ha). exists n. split; [done|].
  intros s Hs. apply parse_type_Some. split; [done|]. rewrite (to_lower_same _ _ Hs Ha). congruence.
Qed.
