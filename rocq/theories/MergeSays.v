(** * The decoders read what documents say *)
From Verif Require Export MergeProofs SpecMerge DecProofs PropText.
From Verif Require Export StmProofs.

(** ** Several values one after the other *)
Fixpoint m_seq {A} (dec : A -> json -> jres A) (l : list json) (a : A) : jres A :=
  match l with [] => Ok a | j :: r => res_bind (dec a j) (m_seq dec r) end.
Lemma m_field_seq {A} f (dec : A -> json -> jres A) a kvs : m_field f dec a kvs = m_seq dec (said f kvs) a.
Proof.
  unfold m_field, said. generalize (base.filter (fun kv : gostr * json => fold_key kv.1 = fold_key f) kvs). intros l. revert a.
  induction l as [|kv l IH]; intros a; cbn [m_fold m_seq map]; [done|]. destruct (dec a kv.2); [apply IH|done..].
Qed.
Lemma m_seq_app {A} (dec : A -> json -> jres A) l k a : m_seq dec (l ++ k) a = res_bind (m_seq dec l a) (m_seq dec k).
Proof. revert a. induction l as [|j l IH]; intros a; cbn [m_seq app]; [done|]. destruct (dec a j); [apply IH|done..]. Qed.
Lemma m_seq_snoc {A} (dec : A -> json -> jres A) l j a b : m_seq dec (l ++ [j]) a = Ok b <-> exists c, m_seq dec l a = Ok c /\ dec c j = Ok b.
Proof.
  rewrite m_seq_app. split.
  - intros (c & Hc & H)%res_bind_Ok. exists c. split; [done|]. cbn in H. by destruct (dec c j).
  - intros (c & -> & H). cbn. by rewrite H.
Qed.
Lemma since_snoc P l j : since P (l ++ [j]) = if P j then [] else since P l ++ [j].
Proof.
  induction l as [|x l IH]; cbn [since app existsb].
  - by destruct (P j).
  - rewrite existsb_app. cbn [existsb]. rewrite orb_false_r. destruct (P j) eqn:E.
    + rewrite !orb_true_r. rewrite IH. done.
    + rewrite orb_false_r. destruct (P x || existsb P l); [exact IH|done].
Qed.
Lemma said_app f k1 k2 : said f (k1 ++ k2) = said f k1 ++ said f k2.
Proof. unfold said. by rewrite filter_app, map_app. Qed.
Lemma all_members_snoc l j : all_members (l ++ [j]) = all_members l ++ members j.
Proof. unfold all_members. rewrite map_app, concat_app. cbn. by rewrite app_nil_r. Qed.
Lemma column_snoc i l j : column i (l ++ [j]) = column i l ++ match row j !! i with Some x => [x] | None => [] end.
Proof. unfold column. rewrite omap_app. cbn. by destruct (row j !! i). Qed.
Lemma texts_snoc l j : texts (l ++ [j]) = texts l ++ match j with JStr s => [s] | _ => [] end.
Proof. unfold texts. rewrite omap_app. by destruct j. Qed.

Lemma seq_text {A} (f : gostr -> option A) zero l a : m_seq (m_text (fun _ s => of_option (f s))) l zero = Ok a -> text_says f zero l a.
Proof.
  unfold text_says. revert a. induction l as [|j l IH] using rev_ind; intros a H; [cbn in *; by apply Ok_inj in H|].
  apply m_seq_snoc in H as (c & Hc & H). rewrite texts_snoc. destruct j as [| | |s| |]; cbn in H; try done.
  - apply Ok_inj in H. subst c. rewrite app_nil_r. by apply IH.
  - rewrite last_snoc. destruct (f s); [|done]. apply Ok_inj in H. by subst.
Qed.
Lemma seq_ext {A} (dec dec' : A -> json -> jres A) l a : (forall a j, dec a j = dec' a j) -> m_seq dec l a = m_seq dec' l a.
Proof. intros H. revert a. induction l as [|j l IH]; intros a; cbn; [done|]. rewrite H. destruct (dec' a j); [apply IH|done..]. Qed.
Lemma seq_string l a : m_seq m_string l [] = Ok a -> string_says l a.
Proof. intros H. apply seq_text. rewrite <-H. by apply seq_ext. Qed.

Lemma m_cells_lookup {A} zero (dec : A -> json -> jres A) mem l xs i : m_cells zero dec mem l = Ok xs ->
  match l !! i with Some j => exists x, xs !! i = Some x /\ dec (default zero (mem !! i)) j = Ok x | None => xs !! i = mem !! i end.
Proof.
  revert mem xs i. induction l as [|j l IH]; intros mem xs i H; cbn [m_cells] in H; [apply Ok_inj in H; by subst xs|].
  apply res_bind_Ok in H as (x & Hx & H). apply res_bind_Ok in H as (ys & Hys & H). apply Ok_inj in H. subst xs.
  destruct i as [|i]; [exists x; split; [done|]; by destruct mem|]. cbn. specialize (IH _ _ i Hys). by destruct mem.
Qed.
Lemma seq_slice_cells {A} zero (dec : A -> json -> jres A) l s : m_seq (m_slice zero dec) l m_nil = Ok s ->
  s.2 = length (row (default JNull (last (since no_elements l)))) /\ s.2 <= length s.1 /\
  (forall i x, s.1 !! i = Some x -> m_seq dec (column i (since no_elements l)) zero = Ok x) /\
  (forall i, s.1 !! i = None -> column i (since no_elements l) = []).
Proof.
  revert s. induction l as [|j l IH] using rev_ind; intros s H.
  { cbn in H. apply Ok_inj in H. subst s. cbn. split_and!; [done..| |]; by intros. }
  apply m_seq_snoc in H as (c & Hc & H). rewrite since_snoc. specialize (IH _ Hc) as (_ & _ & Hs & Hn).
  destruct j as [| | | |[|j0 row0]|]; try discriminate H.
  1,2: cbn in H; apply Ok_inj in H; subst s; cbn; split_and!; [reflexivity|lia|by intros|by intros].
  cbn [no_elements]. rewrite last_snoc. cbn [default row]. cbn [m_slice] in H.
  apply res_bind_Ok in H as (mem & Hm & H). apply Ok_inj in H. subst s. cbn [fst snd]. split_and!; [done|by apply (m_cells_length _ _ _ _ _ Hm)| |].
  - intros i x Hx. rewrite column_snoc. cbn [row]. pose proof (m_cells_lookup _ _ _ _ _ i Hm) as Hl. destruct ((j0 :: row0) !! i) as [ji|].
    + destruct Hl as (x' & Hx' & Hd). rewrite Hx in Hx'. injection Hx' as <-. apply m_seq_snoc. destruct (c.1 !! i) as [y|] eqn:Ey.
      * exists y. split; [by apply Hs|exact Hd].
      * exists zero. rewrite (Hn _ Ey). split; [done|exact Hd].
    + rewrite app_nil_r. apply Hs. by rewrite <-Hl.
  - intros i Hx. rewrite column_snoc. cbn [row]. pose proof (m_cells_lookup _ _ _ _ _ i Hm) as Hl. destruct ((j0 :: row0) !! i) as [ji|].
    + destruct Hl as (x' & Hx' & _). by rewrite Hx in Hx'.
    + rewrite app_nil_r. apply Hn. by rewrite <-Hl.
Qed.
Lemma seq_slice {A B} (f : A -> B) zero (dec : A -> json -> jres A) (says : list json -> B -> Prop) l s :
  (forall k x, m_seq dec k zero = Ok x -> says k (f x)) -> m_seq (m_slice zero dec) l m_nil = Ok s -> list_says says l (map f (live s)).
Proof.
  intros Hd (Hn & Hle & Hs & _)%seq_slice_cells. unfold live. split; [rewrite map_length, take_length; lia|].
  intros i y Hy. rewrite list_lookup_fmap in Hy. destruct (take s.2 s.1 !! i) as [x|] eqn:E; [|done]. injection Hy as <-. apply lookup_take_Some in E as [E _]. by apply Hd, Hs.
Qed.
Lemma seq_ptr {A B} (f : A -> B) zero (dec : A -> json -> jres A) (says : list json -> B -> Prop) l o :
  (forall k x, k <> [] -> Forall (fun j => is_null j = false) k -> m_seq dec k zero = Ok x -> says k (f x)) -> m_seq (m_ptr zero dec) l None = Ok o -> pointer_says says l (f <$> o).
Proof.
  intros Hd. assert (H : forall o, m_seq (m_ptr zero dec) l None = Ok o ->
    match o with None => since is_null l = [] | Some x => since is_null l <> [] /\ Forall (fun j => is_null j = false) (since is_null l) /\ m_seq dec (since is_null l) zero = Ok x end).
  { induction l as [|j l IH] using rev_ind; intros o' H; [cbn in H; apply Ok_inj in H; by subst o'|].
    apply m_seq_snoc in H as (c & Hc & H). specialize (IH _ Hc). rewrite since_snoc. destruct (is_null j) eqn:Ej.
    - destruct j; try discriminate Ej. cbn in H. apply Ok_inj in H. by subst o'.
    - assert (H' : res_bind (dec (default zero c) j) (fun a => Ok (Some a)) = Ok o') by (destruct j; [discriminate Ej|exact H..]). apply res_bind_Ok in H' as (x & Hx & H'). apply Ok_inj in H'. subst o'.
      split; [by destruct (since is_null l)|]. rewrite m_seq_snoc. destruct c as [c|].
      + destruct IH as (_ & HF & Hs). split; [apply Forall_app; by split; [|constructor]|]. exists c. done.
      + rewrite IH. split; [by constructor|]. by exists zero. }
  intros Ho. specialize (H _ Ho). destruct o as [x|]; cbn; [|done]. destruct H as (Hne & HF & Hs). split; [done|]. by apply Hd.
Qed.
Definition joins {A} (f : A -> list (gostr * json) -> jres A) : Prop :=
  (forall a, f a [] = Ok a) /\ forall a b c k1 k2, f a k1 = Ok b -> f b k2 = Ok c -> f a (k1 ++ k2) = Ok c.
Lemma seq_struct {A} (f : A -> list (gostr * json) -> jres A) zero l a : joins f -> m_seq (m_struct f) l zero = Ok a -> f zero (all_members l) = Ok a.
Proof.
  intros [H0 H1]. revert a. induction l as [|j l IH] using rev_ind; intros a H; [cbn in *; by rewrite H0|].
  apply m_seq_snoc in H as (c & Hc & H). rewrite all_members_snoc. eapply H1; [by apply IH|].
  destruct j; cbn in H; try done. cbn [members]. by rewrite H0.
Qed.
Lemma field_join {A} f (dec : A -> json -> jres A) a b c k1 k2 : m_field f dec a k1 = Ok b -> m_field f dec b k2 = Ok c -> m_field f dec a (k1 ++ k2) = Ok c.
Proof. rewrite !m_field_seq, said_app, m_seq_app. intros -> H. exact H. Qed.
Lemma said_nil f : said f [] = [].
Proof. done. Qed.

(** Maps. *)
Lemma said_at_cons k k' v kvs : said_at k ((k', v) :: kvs) = if decide (k' = k) then v :: said_at k kvs else said_at k kvs.
Proof. unfold said_at. rewrite filter_cons. cbn [fst]. by destruct (decide (k' = k)). Qed.
Lemma members_says {A} (dec : json -> jres A) (says : json -> A -> Prop) kvs m0 m : (forall j a, dec j = Ok a -> says j a) -> dec_members dec kvs m0 = Ok m ->
  forall k, match last (said_at k kvs) with None => m !! k = m0 !! k | Some j => exists a, m !! k = Some a /\ says j a end.
Proof.
  intros Hd. revert m0. induction kvs as [|[k' v] kvs IH]; intros m0 H k; cbn [dec_members] in H; [apply Ok_inj in H; by subst m|].
  apply res_bind_Ok in H as (a & Ha & H). specialize (IH _ H k). rewrite said_at_cons. destruct (decide (k' = k)) as [->|Hne].
  - rewrite last_cons. destruct (last (said_at k kvs)) as [j|]; [exact IH|]. exists a. rewrite IH, lookup_insert. split; [done|by apply Hd].
  - destruct (last (said_at k kvs)) as [j|]; [exact IH|]. by rewrite IH, lookup_insert_ne.
Qed.
Lemma dec_members_app {A} (dec : json -> jres A) k1 k2 m : dec_members dec (k1 ++ k2) m = res_bind (dec_members dec k1 m) (dec_members dec k2).
Proof. revert m. induction k1 as [|[k v] k1 IH]; intros m; cbn [dec_members app]; [done|]. destruct (dec v); [apply IH|done..]. Qed.
Lemma seq_map {A} (dec : json -> jres A) l m : m_seq (m_map dec) l ∅ = Ok m -> dec_members dec (all_members (since is_null l)) ∅ = Ok m.
Proof.
  revert m. induction l as [|j l IH] using rev_ind; intros m H; [exact H|]. apply m_seq_snoc in H as (c & Hc & H). rewrite since_snoc.
  destruct j; cbn in H; try done; cbn [is_null].
  rewrite all_members_snoc, dec_members_app. rewrite (IH _ Hc). exact H.
Qed.
Lemma map_says_of {A} (dec : json -> jres A) (says : json -> A -> Prop) kvs m : (forall j a, dec j = Ok a -> says j a) -> dec_members dec kvs ∅ = Ok m -> map_says says kvs m.
Proof. intros Hd H k. pose proof (members_says dec says kvs ∅ m Hd H k) as Hk. rewrite lookup_empty in Hk. exact Hk. Qed.

(** ** Test suites *)
Lemma seq_events l e0 e : m_seq (m_text (fun e s => of_event_res (event_unmarshal e s))) l e0 = Ok e -> events_say e0 (texts l) e.
Proof.
  revert e0. induction l as [|j l IH]; intros e0 H; cbn [m_seq] in H; [apply Ok_inj in H; subst e; constructor|].
  apply res_bind_Ok in H as (e1 & H1 & H). destruct j as [| | |s| |]; cbn in H1; try done.
  - apply Ok_inj in H1. subst e1. by apply IH.
  - cbn. econstructor; [|by apply IH]. apply C04_event_text_accepted. destruct (event_unmarshal e0 s); cbn in H1; try done. by apply Ok_inj in H1; subst.
Qed.
Lemma m_node_joins fuel : joins (fun a kvs => m_node (S fuel) a (JObj kvs)).
Proof.
  split; [intros [i ts o e next n]; reflexivity|]. intros [i0 ts0 o0 e0 next0 n0] [i1 ts1 o1 e1 next1 n1] c k1 k2 H1 H2. cbn [m_node] in *.
  apply res_bind_Ok in H1 as (i & Hi & H1). apply res_bind_Ok in H1 as (ts & Hts & H1). apply res_bind_Ok in H1 as (o & Ho & H1). apply res_bind_Ok in H1 as (e & He & H1). apply res_bind_Ok in H1 as ([nx1 nxn] & Hn & H1).
  apply Ok_inj in H1. cbn [fst snd] in H1. injection H1 as <- <- <- <- <- <-.
  apply res_bind_Ok in H2 as (i' & Hi' & H2). apply res_bind_Ok in H2 as (ts' & Hts' & H2). apply res_bind_Ok in H2 as (o' & Ho' & H2). apply res_bind_Ok in H2 as (e' & He' & H2). apply res_bind_Ok in H2 as (nx' & Hn' & H2).
  rewrite (field_join _ _ _ _ _ _ _ Hi Hi'). cbn [res_bind]. rewrite (field_join _ _ _ _ _ _ _ Hts Hts'). cbn [res_bind]. rewrite (field_join _ _ _ _ _ _ _ Ho Ho'). cbn [res_bind].
  rewrite (field_join _ _ _ _ _ _ _ He He'). cbn [res_bind]. rewrite (field_join _ _ _ _ _ _ _ Hn Hn'). cbn [res_bind]. exact H2.
Qed.
Lemma m_node_struct fuel a j : m_node (S fuel) a j = m_struct (fun a kvs => m_node (S fuel) a (JObj kvs)) a j.
Proof. by destruct a, j. Qed.
Lemma node_reads fuel l m : m_seq (m_node fuel) l zero_mnode = Ok m -> node_says (all_members l) (node_of m).
Proof.
  revert l m. induction fuel as [|fuel IH]; intros l m H.
  { destruct l as [|j l]; [|discriminate H]. cbn in H. apply Ok_inj in H. subst m. cbn. constructor; try done; by intros. }
  rewrite (seq_ext _ _ _ _ (m_node_struct fuel)) in H. apply (seq_struct (fun a kvs => m_node (S fuel) a (JObj kvs))) in H; [|apply m_node_joins].
  generalize dependent (all_members l). clear l. intros kvs H. unfold zero_mnode in H. cbn [m_node] in H.
  apply res_bind_Ok in H as (i & Hi & H). apply res_bind_Ok in H as (ts & Hts & H). apply res_bind_Ok in H as (o & Ho & H). apply res_bind_Ok in H as (e & He & H). apply res_bind_Ok in H as (nx & Hn & H).
  apply Ok_inj in H. subst m. rewrite !m_field_seq in *. cbn [node_of]. 
  apply seq_slice_cells in Hn as (Hlen & Hle & Hs & _). constructor.
  - by apply seq_string.
  - pose proof (seq_slice id _ _ string_says _ _ (fun k x => seq_string k x) Hts) as Hl. rewrite list_fmap_id in Hl. exact Hl.
  - by apply seq_text.
  - pose proof (seq_ptr id _ _ (fun l => events_say zero_event (texts l)) _ _ (fun k x _ _ H => seq_events k zero_event x H) He) as Hl. by destruct e.
  - rewrite take_length, map_length. lia.
  - intros k n Hk. apply lookup_take_Some in Hk as [Hk _]. rewrite list_lookup_fmap in Hk. destruct (nx.1 !! k) as [x|] eqn:Ex; [|done]. injection Hk as <-. by apply IH, Hs.
Qed.
Lemma suite_reads j s : m_suite j = Ok s -> suite_says j s.
Proof.
  intros H. assert (Hm : dec_members (fun v => res_bind (m_ptr zero_mnode (m_node (S (jdepth j))) None v) (fun o => Ok (node_of <$> o))) (members j) ∅ = Ok s) by (destruct j; try done; exact H).
  revert Hm. apply map_says_of. intros v o Ho. apply res_bind_Ok in Ho as (m & Hm & Ho). apply Ok_inj in Ho. subst o.
  apply (seq_ptr node_of zero_mnode (m_node (S (jdepth j))) (fun l => node_says (all_members l)) [v] m); [intros k x _ _; apply node_reads|]. cbn [m_seq]. rewrite Hm. done.
Qed.

(** ** Machines *)
Ltac invert_binds H := repeat (let x := fresh "x" in let Hx := fresh "Hx" in apply res_bind_Ok in H as (x & Hx & H)).
Lemma transition_reads l t : m_seq m_transition l (Transition None []) = Ok t -> transition_says (all_members l) t.
Proof.
  intros H. apply seq_struct in H; [|split; [by intros []|]].
  - invert_binds H. apply Ok_inj in H. subst t. rewrite !m_field_seq in *. split; [apply (seq_text (fun s => Some (value_unmarshal s))); exact Hx|by apply seq_string].
  - intros a b c k1 k2 H1 H2. invert_binds H1. apply Ok_inj in H1. subst b. invert_binds H2. cbn in *.
    rewrite (field_join _ _ _ _ _ _ _ Hx Hx1). cbn [res_bind]. rewrite (field_join _ _ _ _ _ _ _ Hx0 Hx2). exact H2.
Qed.
Lemma channel_text_eq s : of_event_res (channel_unmarshal s) = of_option (channel_of_text s).
Proof. unfold channel_of_text. pose proof (channel_unmarshal_np s) as H. by destruct (channel_unmarshal s). Qed.
Lemma tset_reads l t : m_seq m_tset l (zero_channel, m_nil) = Ok t -> tset_says (all_members l) (tset_of t).
Proof.
  intros H. apply seq_struct in H; [|split; [by intros []|]].
  - invert_binds H. apply Ok_inj in H. subst t. rewrite !m_field_seq in *. split; cbn [tset_of ts_chan ts_trans fst snd] in *.
    + apply seq_text. rewrite <-Hx. apply seq_ext. intros a [| | |s| |]; try done. cbn. by rewrite channel_text_eq.
    + pose proof (seq_slice id _ _ (fun l => transition_says (all_members l)) _ _ transition_reads Hx0) as Hl. rewrite list_fmap_id in Hl. exact Hl.
  - intros a b c k1 k2 H1 H2. invert_binds H1. apply Ok_inj in H1. subst b. invert_binds H2. cbn [fst snd] in *.
    rewrite (field_join _ _ _ _ _ _ _ Hx Hx1). cbn [res_bind]. rewrite (field_join _ _ _ _ _ _ _ Hx0 Hx2). exact H2.
Qed.
Lemma seq_fresh {A} (dec : json -> jres A) l a b : m_seq (fun _ => dec) l a = Ok b -> match last l with None => b = a | Some j => dec j = Ok b end.
Proof.
  revert b. induction l as [|j l IH] using rev_ind; intros b H; [by apply Ok_inj in H|]. apply m_seq_snoc in H as (c & _ & H). by rewrite last_snoc.
Qed.
Lemma string_value_dec j s : dec_string j = Ok s <-> string_value j = Some s.
Proof. destruct j; cbn; split; intros H; try discriminate H; injection H as H; subst s; reflexivity. Qed.
Lemma dec_verdict_says j v : dec_verdict j = Ok v -> map_says (fun j o => exists s, string_value j = Some s /\ parse_outcome s = Some o) (members j) v.
Proof.
  intros (m & Hm & H)%res_bind_Ok. assert (Hd : dec_members dec_string (members j) ∅ = Ok m) by (destruct j; try done; exact Hm).
  pose proof (map_says_of _ (fun j s => string_value j = Some s) _ _ (fun j a => proj1 (string_value_dec j a)) Hd) as Hs. destruct (forallb _ _) eqn:E; [|done]. apply Ok_inj in H. subst v.
  intros k. specialize (Hs k). rewrite lookup_omap. destruct (last (said_at k (members j))) as [x|]; [|by rewrite Hs].
  destruct Hs as (s & Hk & Hs). rewrite Hk. cbn. rewrite forallb_forall in E.
  specialize (E (k, s)). rewrite <-elem_of_list_In, elem_of_map_to_list in E. specialize (E Hk). apply bool_decide_eq_true in E as [o Ho]. cbn in Ho. exists o. split; [done|]. by exists s.
Qed.
Lemma state_reads l s : m_seq m_state l zero_mstate = Ok s -> state_says (all_members l) (rstate_of s).
Proof.
  intros H. apply seq_struct in H; [|split; [by intros []|]].
  - invert_binds H. apply Ok_inj in H. subst s. rewrite !m_field_seq in *. split; cbn [rstate_of rs_id rs_tsets rs_verdict ms_id ms_tsets ms_verdict] in *.
    + by apply seq_string.
    + exact (seq_slice tset_of _ _ (fun l => tset_says (all_members l)) _ _ tset_reads Hx0).
    + assert (Hd : forall k x, k <> [] -> Forall (fun j => is_null j = false) k -> m_seq (fun _ : verdict => dec_verdict) k ∅ = Ok x -> verdict_says k (id x)).
      { intros k v Hk _ Hv. apply seq_fresh in Hv. destruct (last k) as [j|] eqn:E; [|by apply last_None in E]. exists j. split; [done|]. by apply dec_verdict_says. }
      pose proof (seq_ptr id _ _ _ _ _ Hd Hx1) as Hl. by destruct x1.
  - intros a b c k1 k2 H1 H2. invert_binds H1. apply Ok_inj in H1. subst b. invert_binds H2. cbn [ms_id ms_tsets ms_verdict] in *.
    rewrite (field_join _ _ _ _ _ _ _ Hx Hx2). cbn [res_bind]. rewrite (field_join _ _ _ _ _ _ _ Hx0 Hx3). cbn [res_bind]. rewrite (field_join _ _ _ _ _ _ _ Hx1 Hx4). exact H2.
Qed.
Lemma types_reads l m : m_seq m_type_map l ∅ = Ok m -> types_say l m.
Proof.
  intros H%seq_map. revert H. apply map_says_of. intros j o Ho. destruct j; cbn in Ho; try (apply Ok_inj in Ho; subst o); try done.
  - unfold dec_ptr in Ho. apply res_bind_Ok in Ho as (t & Ht & Ho). apply Ok_inj in Ho. subst o. split; [done|]. unfold text_says. cbn in *. destruct (parse_type s); [|done]. by apply Ok_inj in Ht; subst.
Qed.
Lemma row_strings r xs : res_map dec_string r = Ok xs -> forall x, x ∈ xs <-> exists k, k ∈ r /\ string_value k = Some x.
Proof.
  revert xs. induction r as [|k r IH]; intros xs Hr x; cbn in Hr; [apply Ok_inj in Hr; subst xs; split; [by intros ?%elem_of_nil|by intros (? & ?%elem_of_nil & _)]|].
  apply res_bind_Ok in Hr as (y & Hy & Hr). apply res_bind_Ok in Hr as (ys & Hys & Hr). apply Ok_inj in Hr. subst xs. apply string_value_dec in Hy. rewrite elem_of_cons, (IH _ Hys). split.
  - intros [->|(k' & Hk & Hs)]; [exists k; split; [left|done]|exists k'; split; [by right|done]].
  - intros (k' & [->|Hk]%elem_of_cons & Hs); [left; pose proof (eq_trans (eq_sym Hs) Hy) as E; by injection E|right; by exists k'].
Qed.
Lemma set_reads l X : m_seq (fun _ => dec_set) l ∅ = Ok X -> set_says l X.
Proof.
  intros H%seq_fresh x. destruct (last l) as [j|]; [|subst X; split; [by intros ?%elem_of_empty|by intros (? & ? & [=] & _)]].
  unfold dec_set in H. apply res_bind_Ok in H as (xs & Hxs & H). apply Ok_inj in H. subst X. rewrite elem_of_list_to_set.
  assert (Hr : res_map dec_string (row j) = Ok xs) by (destruct j; try done; exact Hxs). rewrite (row_strings _ _ Hr). split.
  - intros (k & Hk). by exists j, k.
  - intros (j' & k & [= <-] & Hk). by exists k.
Qed.
Lemma stm_reads l m : m_seq m_stm l zero_mstm = Ok m -> stm_says (all_members l) (rstm_of m).
Proof.
  intros H. apply seq_struct in H; [|split; [by intros []|]].
  - invert_binds H. apply Ok_inj in H. subst m. rewrite !m_field_seq in *. split; cbn [rstm_of rm_states rm_types rm_tests mm_states mm_types mm_tests] in *.
    + refine (seq_slice (fmap rstate_of) _ _ _ _ _ _ Hx). intros k y Hk. apply (seq_ptr rstate_of zero_mstate m_state); [|exact Hk]. intros k' x' _ _. apply state_reads.
    + by apply types_reads.
    + by apply set_reads.
  - intros a b c k1 k2 H1 H2. invert_binds H1. apply Ok_inj in H1. subst b. invert_binds H2. cbn [mm_states mm_types mm_tests] in *.
    rewrite (field_join _ _ _ _ _ _ _ Hx Hx2). cbn [res_bind]. rewrite (field_join _ _ _ _ _ _ _ Hx0 Hx3). cbn [res_bind]. rewrite (field_join _ _ _ _ _ _ _ Hx1 Hx4). exact H2.
Qed.
Lemma machines_reads j u : m_stm_suite j = Ok u -> machines_say j u.
Proof.
  intros H. unfold m_stm_suite in H.
  assert (Hm : res_bind (m_field "types" m_type_map ∅ (members j)) (fun ty => res_bind (m_field "tests" (m_map (fun v => res_bind (m_ptr zero_mstm m_stm None v) (fun o => Ok (rstm_of <$> o)))) ∅ (members j)) (fun te => Ok (RSuite ty te))) = Ok u) by (destruct j; try done; exact H).
  clear H. invert_binds Hm. apply Ok_inj in Hm. subst u. rewrite !m_field_seq in *. split; cbn [ru_types ru_tests]; [by apply types_reads|].
  apply seq_map in Hx0. revert Hx0. apply map_says_of. intros v o Ho. apply res_bind_Ok in Ho as (m & Hm & Ho). apply Ok_inj in Ho. subst o.
  apply (seq_ptr rstm_of zero_mstm m_stm (fun l => stm_says (all_members l)) [v] m); [intros k x' _ _; apply stm_reads|]. cbn [m_seq]. rewrite Hm. done.
Qed.
