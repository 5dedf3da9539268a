(** * The documents that are accepted, and that they say one thing only *)
From Verif Require Export MergeSays.
From Verif Require Export StmProofs.

Definition accepts {A} (dec : A -> json -> jres A) (j : json) (P : Prop) : Prop := forall a, (exists b, dec a j = Ok b) <-> P.
Lemma bind_accepts {A B} (r : jres A) (k : A -> jres B) P Q : ((exists a, r = Ok a) <-> P) -> (forall a, (exists b, k a = Ok b) <-> Q) -> (exists b, res_bind r k = Ok b) <-> P /\ Q.
Proof.
  intros HP HQ. split.
  - intros (b & (a & Ha & Hb)%res_bind_Ok). split; [apply HP; by exists a|apply (HQ a); by exists b].
  - intros [[a Ha]%HP HQ']. apply (HQ a) in HQ' as [b Hb]. exists b. by rewrite Ha.
Qed.
Lemma ok_accepts {A B} (f : A -> B) (r : jres A) : (exists b, res_bind r (fun a => Ok (f a)) = Ok b) <-> exists a, r = Ok a.
Proof. split; [intros (b & (a & Ha & _)%res_bind_Ok); by exists a|intros (a & ->); by eexists]. Qed.
Lemma done_accepts {A B} (b : A -> B) (r : jres A) P : ((exists a, r = Ok a) <-> P) -> (exists c, res_bind r (fun a => Ok (b a)) = Ok c) <-> P.
Proof. by rewrite ok_accepts. Qed.
Lemma seq_accepts {A} (dec : A -> json -> jres A) (ok : json -> Prop) l a : (forall j, j ∈ l -> accepts dec j (ok j)) -> (exists b, m_seq dec l a = Ok b) <-> Forall ok l.
Proof.
  revert a. induction l as [|j l IH]; intros a H; cbn [m_seq]; [split; [constructor|by exists a]|].
  rewrite Forall_cons. apply bind_accepts; [apply H; left|]. intros b. apply IH. intros j' Hj. apply H. by right.
Qed.
Lemma field_accepts {A} f (dec : A -> json -> jres A) (ok : json -> Prop) a kvs : (forall j, j ∈ said f kvs -> accepts dec j (ok j)) -> (exists b, m_field f dec a kvs = Ok b) <-> Forall ok (said f kvs).
Proof. rewrite m_field_seq. apply seq_accepts. Qed.
Lemma text_accepts {A} (f : A -> gostr -> jres A) (parse : gostr -> option A) j : (forall a s, (exists b, f a s = Ok b) <-> is_Some (parse s)) -> accepts (m_text f) j (text_ok parse j).
Proof.
  intros H a. unfold text_ok. destruct j as [| | |s| |]; cbn; (split; [intros [rs0 Hb]; try discriminate Hb|intros [Hj|(s' & x & Hj & Hx)]; try discriminate Hj]).
  - by left.
  - by exists a.
  - right. assert (Hs : is_Some (parse s)) by (apply (H a); by exists rs0). destruct Hs as [x Hx]. by exists s, x.
  - injection Hj as <-. apply (H a). by exists x.
Qed.
Lemma of_option_accepts {A} (o : option A) : (exists b, of_option o = Ok b) <-> is_Some o.
Proof. destruct o; cbn; split; intros [x Hx]; try discriminate Hx; eexists; reflexivity. Qed.
Lemma string_accepts j : accepts m_string j (string_ok j).
Proof. intros a. unfold string_ok, text_ok. destruct j as [| | |s| |]; cbn; (split; [intros [rs0 Hb]; try discriminate Hb|intros [Hj|(s' & x & Hj & Hx)]; try discriminate Hj]); try (by left); try (by eexists); right; by exists s, s. Qed.
Lemma slice_accepts {A} zero (dec : A -> json -> jres A) (ok : json -> Prop) j : (forall l k, j = JArr l -> k ∈ l -> accepts dec k (ok k)) -> accepts (m_slice zero dec) j (list_ok ok j).
Proof.
  intros H a. unfold list_ok. destruct j as [| | | |l|]; cbn [m_slice]; try (split; [intros [rs0 Hb]; discriminate Hb|intros [Hj|(lx & Hj & _)]; discriminate Hj]).
  - split; [by left|by eexists].
  - assert (Hc : forall mem, (exists xs, m_cells zero dec mem l = Ok xs) <-> Forall ok l).
    { assert (Hk : forall k, k ∈ l -> accepts dec k (ok k)) by (intros k; by apply H). clear H. induction l as [|k l IH]; intros mem; cbn [m_cells]; [split; [constructor|by eexists]|].
      rewrite Forall_cons. apply bind_accepts; [apply Hk; left|]. intros x. apply done_accepts. apply IH. intros k' Hk'. apply Hk. by right. }
    transitivity (Forall ok l).
    + destruct l as [|k l]; [split; [constructor|by eexists]|]. apply done_accepts. apply Hc.
    + split; [intros HF; right; by exists l|]. intros [Hj|(l' & [= <-] & HF)]; [discriminate Hj|exact HF].
Qed.
Lemma ptr_accepts {A} zero (dec : A -> json -> jres A) j (P : Prop) : (is_null j = true -> P) -> (is_null j = false -> accepts dec j P) -> accepts (m_ptr zero dec) j P.
Proof.
  intros Hn Hd a. destruct j; [split; [by intros _; apply Hn|by eexists]|..]; apply done_accepts, Hd; reflexivity.
Qed.
Lemma struct_accepts {A} (f : A -> list (gostr * json) -> jres A) (ok : list (gostr * json) -> Prop) j : (forall a kvs, (exists b, f a kvs = Ok b) <-> ok kvs) -> accepts (m_struct f) j (record_ok ok j).
Proof.
  intros H a. unfold record_ok. destruct j as [| | | | |kvs]; cbn [m_struct]; try (split; [intros [rs0 Hb]; discriminate Hb|intros [Hj|(lx & Hj & _)]; discriminate Hj]).
  - split; [by left|by eexists].
  - rewrite H. split; [intros Hk; right; by exists kvs|]. intros [Hj|(l' & [= <-] & HF)]; [discriminate Hj|exact HF].
Qed.
Lemma members_accepts {A} (dec : json -> jres A) (ok : json -> Prop) kvs m : (forall kv, kv ∈ kvs -> (exists b, dec kv.2 = Ok b) <-> ok kv.2) -> (exists m', dec_members dec kvs m = Ok m') <-> Forall (fun kv => ok kv.2) kvs.
Proof.
  revert m. induction kvs as [|[k v] kvs IH]; intros m H; cbn [dec_members]; [split; [constructor|by eexists]|].
  rewrite Forall_cons. apply bind_accepts; [apply (H (k, v)); left|]. intros x. apply IH. intros kv Hkv. apply H. by right.
Qed.
Lemma map_accepts {A} (dec : json -> jres A) (ok : json -> Prop) j : (forall k, (exists b, dec k = Ok b) <-> ok k) -> accepts (m_map dec) j (map_ok ok j).
Proof.
  intros H a. unfold map_ok. destruct j as [| | | | |kvs]; cbn [m_map]; try (split; [intros [rs0 Hb]; discriminate Hb|intros [Hj|(lx & Hj & _)]; discriminate Hj]).
  - split; [by left|by eexists].
  - rewrite (members_accepts dec ok) by (intros kv _; apply H). split; [intros Hk; right; by exists kvs|]. intros [Hj|(l' & [= <-] & HF)]; [discriminate Hj|exact HF].
Qed.

(** ** Test suites *)
Lemma event_accepts e s : (exists b, of_event_res (event_unmarshal e s) = Ok b) <-> exists e', event_denoted zero_event s e'.
Proof.
  transitivity (is_ok (event_unmarshal e s)).
  - pose proof (C04_event_text_never_crashes e s) as Hn. unfold is_ok. destruct (event_unmarshal e s) as [b| |]; cbn; [split; intros _; by exists b|split; by intros []|done].
  - rewrite (proj1 (C06_parse_into_used_event e s) zero_event). split.
    + intros [b Hb]. exists b. by apply C04_event_text_accepted.
    + intros (e' & He%C04_event_text_accepted). by exists e'.
Qed.
Lemma said_depth f kvs j : j ∈ said f kvs -> S (jdepth j) <= jdepth (JObj kvs).
Proof.
  unfold said. intros (kv & -> & [_ Hin]%elem_of_list_filter)%elem_of_list_fmap. cbn [jdepth]. apply le_n_S.
  pose proof (proj1 (list_max_le (map (fun kv : gostr * json => jdepth kv.2) kvs) _) (Nat.le_refl _)) as HF. rewrite List.Forall_forall in HF. apply HF.
  apply (in_map (fun kv : gostr * json => jdepth kv.2)). by apply elem_of_list_In.
Qed.
Lemma arr_depth l j : j ∈ l -> S (jdepth j) <= jdepth (JArr l).
Proof.
  intros Hin. cbn [jdepth]. apply le_n_S. pose proof (proj1 (list_max_le (map jdepth l) _) (Nat.le_refl _)) as HF. rewrite List.Forall_forall in HF. apply HF, in_map. by apply elem_of_list_In.
Qed.
Lemma node_accepts fuel j : jdepth j < fuel -> accepts (m_node fuel) j (node_ok j).
Proof.
  revert j. induction fuel as [|fuel IH]; intros j Hf; [lia|]. intros [i0 ts0 o0 e0 next0 n0]. destruct j as [| | | | |kvs]; cbn [m_node]; try (split; [intros [rs0 Hb]; discriminate Hb|intros Hj; inversion Hj]).
  { split; [constructor|by eexists]. }
  transitivity (Forall string_ok (said "id" kvs) /\ Forall (list_ok string_ok) (said "tests" kvs) /\ Forall (text_ok parse_outcome) (said "outcome" kvs) /\ Forall event_ok (said "event" kvs) /\ Forall (list_ok node_ok) (said "next" kvs)).
  - apply bind_accepts; [apply field_accepts; intros j _; apply string_accepts|intros i].
    apply bind_accepts; [apply field_accepts; intros j _; apply slice_accepts; intros l k _ _; apply string_accepts|intros ts].
    apply bind_accepts; [apply field_accepts; intros j _; apply text_accepts; intros a s; apply of_option_accepts|intros o].
    apply bind_accepts.
    { apply field_accepts. intros j _. apply ptr_accepts; [destruct j; try done; by left|]. intros Hn a. unfold event_ok. destruct j as [| | |s| |]; cbn; try discriminate Hn.
      3:{ rewrite event_accepts. split; [intros (e' & He); right; by exists s, e'|]. intros [Hj|(s' & e' & [= <-] & He)]; [discriminate Hj|by exists e']. }
      all: split; [intros [rs0 Hb]; discriminate Hb|intros [Hj|(s' & e' & Hj & _)]; discriminate Hj]. }
    intros e. apply done_accepts. apply field_accepts. intros j Hj. apply slice_accepts. intros l k -> Hk. apply IH. pose proof (said_depth _ _ _ Hj). pose proof (arr_depth _ _ Hk). lia.
  - split.
    + intros (H1 & H2 & H3 & H4 & H5). constructor; [done..| |]; rewrite Forall_forall in H5.
      * intros j Hj. destruct (H5 j Hj) as [->|(l & -> & _)]; [by left|right; by exists l].
      * intros l j Hl Hj. destruct (H5 _ Hl) as [[=]|(l' & [= <-] & HF)]. rewrite Forall_forall in HF. by apply HF.
    + intros H. inversion H as [|kvs' H1 H2 H3 H4 H5 H6]; subst. split_and!; [done..|]. apply Forall_forall. intros j Hj. destruct (H5 j Hj) as [->|(l & ->)]; [by left|right]. exists l. split; [done|]. apply Forall_forall. intros k Hk. by apply (H6 l).
Qed.
Lemma suite_accepts j : (exists s, m_suite j = Ok s) <-> suite_ok j.
Proof.
  unfold m_suite, suite_ok, map_ok. destruct j as [| | | | |kvs]; cbn [dec_map]; try (split; [intros [rs0 Hb]; discriminate Hb|intros [Hj|(lx & Hj & _)]; discriminate Hj]).
  - split; [by left|by eexists].
  - rewrite (members_accepts _ node_ok).
    + split; [intros Hk; right; by exists kvs|]. intros [Hj|(l' & [= <-] & HF)]; [discriminate Hj|exact HF].
    + intros [k v] Hkv. cbn [snd]. apply done_accepts. apply ptr_accepts; [destruct v; try done; constructor|]. intros _. apply node_accepts.
      assert (S (jdepth v) <= jdepth (JObj kvs)); [|lia]. apply (said_depth k). unfold said. apply elem_of_list_fmap. exists (k, v). split; [done|]. by apply elem_of_list_filter.
Qed.
(** ** Machines *)
Lemma transition_accepts j : accepts m_transition j (transition_ok j).
Proof.
  apply struct_accepts. intros a kvs. apply bind_accepts; [apply field_accepts; intros k _; apply text_accepts; intros b s; split; by eexists|intros v].
  apply done_accepts, field_accepts. intros k _. apply string_accepts.
Qed.
Lemma tset_accepts j : accepts m_tset j (tset_ok j).
Proof.
  apply struct_accepts. intros a kvs. apply bind_accepts; [apply field_accepts; intros k _; apply text_accepts; intros b s; rewrite channel_text_eq; apply of_option_accepts|intros v].
  apply done_accepts, field_accepts. intros k _. apply slice_accepts. intros l x _ _. apply transition_accepts.
Qed.
Lemma res_map_accepts {A B} (f : A -> jres B) (ok : A -> Prop) l : (forall a, (exists b, f a = Ok b) <-> ok a) -> (exists k, res_map f l = Ok k) <-> Forall ok l.
Proof.
  intros H. induction l as [|a l IH]; cbn [res_map]; [split; [constructor|by eexists]|]. rewrite Forall_cons. apply bind_accepts; [apply H|]. intros b. by apply done_accepts.
Qed.
Lemma dec_string_accepts j : (exists s, dec_string j = Ok s) <-> string_ok j.
Proof. unfold string_ok, text_ok. destruct j as [| | |s| |]; cbn; (split; [intros [rs0 Hb]; try discriminate Hb|intros [Hj|(s' & x & Hj & Hx)]; try discriminate Hj]); try (by left); try (by eexists); right; by exists s, s. Qed.
Lemma set_accepts j : (exists X, dec_set j = Ok X) <-> list_ok string_ok j.
Proof.
  unfold dec_set. rewrite ok_accepts. unfold list_ok. destruct j as [| | | |l|]; cbn [dec_list]; try (split; [intros [rs0 Hb]; discriminate Hb|intros [Hj|(lx & Hj & _)]; discriminate Hj]).
  - split; [by left|by eexists].
  - rewrite (res_map_accepts _ string_ok) by apply dec_string_accepts. split; [intros HF; right; by exists l|]. intros [Hj|(l' & [= <-] & HF)]; [discriminate Hj|exact HF].
Qed.
Lemma verdict_accepts j : (exists v, dec_verdict j = Ok v) <-> verdict_ok j.
Proof.
  unfold dec_verdict, verdict_ok.
  assert (Hm : (exists m, dec_map dec_string j = Ok m) <-> map_ok string_ok j).
  { pose proof (map_accepts dec_string string_ok j dec_string_accepts ∅) as H. rewrite <-H. by destruct j. }
  rewrite <-Hm. split.
  - intros (v & (m & Hd & H)%res_bind_Ok). split; [by exists m|]. destruct (forallb _ _) eqn:E; [|done]. intros k x s Hx Hs.
    assert (Hd' : dec_members dec_string (members j) ∅ = Ok m) by (destruct j; try done; exact Hd).
    pose proof (map_says_of _ (fun j s => string_value j = Some s) _ _ (fun j a => proj1 (string_value_dec j a)) Hd' k) as Hk. rewrite Hx in Hk. destruct Hk as (s' & Hk & Hs').
    pose proof (eq_trans (eq_sym Hs) Hs') as Es. injection Es as <-. rewrite forallb_forall in E. specialize (E (k, s)). rewrite <-elem_of_list_In, elem_of_map_to_list in E. specialize (E Hk). by apply bool_decide_eq_true in E.
  - intros [(m & Hd) Hall]. rewrite Hd. cbn [res_bind]. destruct (forallb _ _) eqn:E; [by eexists|]. exfalso. apply not_true_iff_false in E. apply E, forallb_forall. intros [k s] Hin. apply bool_decide_eq_true. cbn [snd].
    rewrite <-elem_of_list_In, elem_of_map_to_list in Hin. assert (Hd' : dec_members dec_string (members j) ∅ = Ok m) by (destruct j; try done; exact Hd).
    pose proof (map_says_of _ (fun j s => string_value j = Some s) _ _ (fun j a => proj1 (string_value_dec j a)) Hd' k) as Hk. destruct (last (said_at k (members j))) as [x|] eqn:Ex; [|by rewrite Hin in Hk].
    destruct Hk as (s' & Hk & Hs). pose proof (eq_trans (eq_sym Hin) Hk) as Es. injection Es as <-. by eapply Hall.
Qed.
Lemma verdict_null : verdict_ok JNull.
Proof. split; [by left|]. by intros k v s [=]. Qed.
Lemma state_accepts j : accepts m_state j (state_ok j).
Proof.
  apply struct_accepts. intros a kvs. apply bind_accepts; [apply field_accepts; intros k _; apply string_accepts|intros v].
  apply bind_accepts; [apply field_accepts; intros k _; apply slice_accepts; intros l x _ _; apply tset_accepts|intros w].
  apply done_accepts, field_accepts. intros k _. apply ptr_accepts; [destruct k; try done; intros _; apply verdict_null|]. intros _ b. apply verdict_accepts.
Qed.
Lemma types_accepts j : accepts m_type_map j (types_ok j).
Proof.
  apply map_accepts. intros k. pose proof (ptr_accepts ty_empty (m_text (fun _ s => of_option (parse_type s))) k (text_ok parse_type k)) as H.
  assert (E : dec_ptr (dec_text (fun s => of_option (parse_type s)) ty_empty) k = m_ptr ty_empty (m_text (fun _ s => of_option (parse_type s))) None k) by (by destruct k).
  rewrite E. apply H; [destruct k; try done; by left|]. intros _. apply text_accepts. intros a s. apply of_option_accepts.
Qed.
Lemma stm_accepts j : accepts m_stm j (stm_ok j).
Proof.
  apply struct_accepts. intros a kvs. apply bind_accepts; [apply field_accepts; intros k _; apply slice_accepts; intros l x _ _; apply ptr_accepts; [destruct x; try done; by left|intros _; apply state_accepts]|intros v].
  apply bind_accepts; [apply field_accepts; intros k _; apply types_accepts|intros w]. apply done_accepts, field_accepts. intros k _ b. apply set_accepts.
Qed.
Lemma machines_accepts j : (exists u, m_stm_suite j = Ok u) <-> machines_ok j.
Proof.
  apply (struct_accepts _ (fun kvs => Forall types_ok (said "types" kvs) /\ Forall (map_ok stm_ok) (said "tests" kvs))). intros a kvs.
  apply bind_accepts; [apply field_accepts; intros k _; apply types_accepts|intros v]. apply done_accepts, field_accepts. intros k _. apply map_accepts. intros x.
  apply done_accepts. apply ptr_accepts; [destruct x; try done; by left|intros _; apply stm_accepts].
Qed.

(** ** One thing only *)
Lemma text_says_fun {A} (parse : gostr -> option A) zero l a b : text_says parse zero l a -> text_says parse zero l b -> a = b.
Proof. unfold text_says. destruct (last (texts l)); [|by intros -> ->]. intros Ha Hb. rewrite Ha in Hb. by injection Hb. Qed.
Lemma list_says_fun {A} (says : list json -> A -> Prop) l xs ys : (forall k x y, says k x -> says k y -> x = y) -> list_says says l xs -> list_says says l ys -> xs = ys.
Proof.
  intros Hf [Hx1 Hx2] [Hy1 Hy2]. apply list_eq. intros i. destruct (xs !! i) as [x|] eqn:Ex.
  - assert (Hi : i < length ys) by (apply lookup_lt_Some in Ex; lia). apply lookup_lt_is_Some in Hi as [y Ey]. rewrite Ey. f_equal. eapply Hf; [by apply Hx2|by apply Hy2].
  - symmetry. apply lookup_ge_None. apply lookup_ge_None in Ex. lia.
Qed.
Lemma pointer_says_fun {A} (says : list json -> A -> Prop) l a b : (forall k x y, says k x -> says k y -> x = y) -> pointer_says says l a -> pointer_says says l b -> a = b.
Proof. intros Hf. destruct a as [a|], b as [b|]; cbn; [|by intros [? _] ?|by intros ? [? _]|done]. intros [_ Ha] [_ Hb]. f_equal. by eapply Hf. Qed.
Lemma map_says_fun {A} (says : json -> A -> Prop) kvs m m' : (forall k x y, says k x -> says k y -> x = y) -> map_says says kvs m -> map_says says kvs m' -> m = m'.
Proof.
  intros Hf H H'. apply map_eq. intros k. specialize (H k). specialize (H' k). destruct (last (said_at k kvs)) as [j|]; [|by rewrite H, H'].
  destruct H as (a & -> & Ha), H' as (b & -> & Hb). f_equal. by eapply Hf.
Qed.
Lemma events_say_fun e l a b : events_say e l a -> events_say e l b -> a = b.
Proof.
  intros H. revert b. induction H as [e|e s e1 r e2 H1 _ IH]; intros b Hb; inversion Hb as [|? ? e1' ? ? H1' H2']; subst; [done|].
  apply C04_event_text_accepted in H1. apply C04_event_text_accepted in H1'. rewrite H1 in H1'. apply Ok_inj in H1'. subst e1'. by apply IH.
Qed.
Lemma node_says_fun kvs a b : node_says kvs a -> node_says kvs b -> a = b.
Proof.
  intros H. revert b. induction H as [kvs i ts o e next Hi Hts Ho He Hlen Hn IH]; intros b Hb. inversion Hb as [? i' ts' o' e' next' Hi' Hts' Ho' He' Hlen' Hn']; subst. f_equal.
  - by eapply text_says_fun.
  - refine (list_says_fun _ _ _ _ _ Hts Hts'). intros k x y. apply text_says_fun.
  - by eapply text_says_fun.
  - refine (pointer_says_fun _ _ _ _ _ He He'). intros k x y. apply events_say_fun.
  - apply list_eq. intros k. destruct (next !! k) as [x|] eqn:Ex.
    + assert (Hk : k < length next') by (apply lookup_lt_Some in Ex; lia). apply lookup_lt_is_Some in Hk as [y Ey]. rewrite Ey. f_equal. eapply IH; [done|]. by apply Hn'.
    + symmetry. apply lookup_ge_None. apply lookup_ge_None in Ex. lia.
Qed.
Lemma suite_says_fun j s s' : suite_says j s -> suite_says j s' -> s = s'.
Proof. apply map_says_fun. intros k x y. apply pointer_says_fun. intros l n n'. apply node_says_fun. Qed.
Lemma transition_says_fun kvs a b : transition_says kvs a -> transition_says kvs b -> a = b.
Proof. destruct a, b. intros [H1 H2] [H1' H2']. cbn in *. f_equal; by eapply text_says_fun. Qed.
Lemma tset_says_fun kvs a b : tset_says kvs a -> tset_says kvs b -> a = b.
Proof.
  destruct a, b. intros [H1 H2] [H1' H2']. cbn in *. f_equal; [by eapply text_says_fun|]. refine (list_says_fun _ _ _ _ _ H2 H2'). intros k x y. apply transition_says_fun.
Qed.
Lemma verdict_says_fun l a b : verdict_says l a -> verdict_says l b -> a = b.
Proof.
  intros (j & Hj & Ha) (j' & Hj' & Hb). rewrite Hj in Hj'. injection Hj' as <-. refine (map_says_fun _ _ _ _ _ Ha Hb). intros k x y (s & Hs & Hx) (s' & Hs' & Hy).
  pose proof (eq_trans (eq_sym Hs) Hs') as E. injection E as <-. rewrite Hx in Hy. by injection Hy.
Qed.
Lemma set_says_fun l X Y : set_says l X -> set_says l Y -> X = Y.
Proof. intros HX HY. apply set_eq. intros x. by rewrite (HX x), (HY x). Qed.
Lemma state_says_fun kvs a b : state_says kvs a -> state_says kvs b -> a = b.
Proof.
  destruct a, b. intros [H1 H2 H3] [H1' H2' H3']. cbn in *. f_equal; [by eapply text_says_fun| |].
  - refine (list_says_fun _ _ _ _ _ H2 H2'). intros k x y. apply tset_says_fun.
  - refine (pointer_says_fun _ _ _ _ _ H3 H3'). intros k x y. apply verdict_says_fun.
Qed.
Lemma types_say_fun l a b : types_say l a -> types_say l b -> a = b.
Proof. apply map_says_fun. intros k x y. apply pointer_says_fun. intros k' x' y'. apply text_says_fun. Qed.
Lemma stm_says_fun kvs a b : stm_says kvs a -> stm_says kvs b -> a = b.
Proof.
  destruct a, b. intros [H1 H2 H3] [H1' H2' H3']. cbn in *. f_equal; [|by eapply types_say_fun|by eapply set_says_fun].
  refine (list_says_fun _ _ _ _ _ H1 H1'). intros k x y. apply pointer_says_fun. intros k' x' y'. apply state_says_fun.
Qed.
Lemma machines_say_fun j a b : machines_say j a -> machines_say j b -> a = b.
Proof.
  destruct a, b. intros [H1 H2] [H1' H2']. cbn in *. f_equal; [by eapply types_say_fun|]. refine (map_says_fun _ _ _ _ _ H2 H2'). intros k x y. apply pointer_says_fun. intros k' x' y'. apply stm_says_fun.
Qed.
