(** * The JSON decoders never crash, and the fuel of the tree decoder does not matter *)
From Verif Require Export Json CodecProofs CsvProofs PropText.
From Verif Require Export StmProofs.

(** ** Decoding never panics *)
Lemma bind_np {E A B} (r : res E A) (f : A -> res E B) :
  r <> Panic -> (forall a, f a <> Panic) -> res_bind r f <> Panic.
Proof. destruct r; cbn; auto; discriminate. Qed.
Lemma get_field_np f kvs : get_field f kvs <> Panic.
Proof. unfold get_field. by destruct (base.filter _ _) as [|? [|? ?]]. Qed.
Lemma dec_field_np {A} f (dec : json -> jres A) zero kvs : (forall j, dec j <> Panic) -> dec_field f dec zero kvs <> Panic.
Proof. intros H. apply bind_np; [apply get_field_np|]. intros [j|]; [apply H|discriminate]. Qed.
Lemma dec_string_np j : dec_string j <> Panic.
Proof. by destruct j. Qed.
Lemma dec_text_np {A} (f : gostr -> jres A) zero j : (forall s, f s <> Panic) -> dec_text f zero j <> Panic.
Proof. intros H. destruct j; cbn; try discriminate. apply H. Qed.
Lemma res_map_np {E A B} (f : A -> res E B) l : (forall a, f a <> Panic) -> res_map f l <> Panic.
Proof.
  intros H. induction l as [|x l IH]; cbn; [discriminate|]. apply bind_np; [apply H|]. intros y.
  apply bind_np; [done|]. intros ys. discriminate.
Qed.
Lemma dec_list_np {A} (dec : json -> jres A) j : (forall j, dec j <> Panic) -> dec_list dec j <> Panic.
Proof. intros H. destruct j; cbn; try discriminate. by apply res_map_np. Qed.
Lemma dec_ptr_np {A} (dec : json -> jres A) j : (forall j, dec j <> Panic) -> dec_ptr dec j <> Panic.
Proof. intros H. destruct j; cbn; try discriminate; (apply bind_np; [apply H|]; intros a; discriminate). Qed.
Lemma dec_map_np {A} (dec : json -> jres A) j : (forall j, dec j <> Panic) -> dec_map dec j <> Panic.
Proof.
  intros H. destruct j as [| | | | |kvs]; cbn; try discriminate. generalize (∅ : gmap gostr A).
  induction kvs as [|[k v] kvs IH]; intros m; cbn; [discriminate|]. apply bind_np; [apply H|]. intros a. apply IH.
Qed.
Lemma dec_struct_np {A} (zero : A) f j : (forall kvs, f kvs <> Panic) -> dec_struct zero f j <> Panic.
Proof. intros H. destruct j; cbn; try discriminate. apply H. Qed.
Lemma of_option_np {A} (o : option A) : of_option o <> Panic.
Proof. by destruct o. Qed.
Lemma dec_node_np fuel j : dec_node fuel j <> Panic.
Proof.
  revert j. induction fuel as [|fuel IH]; intros j; cbn; [discriminate|]. destruct j; try discriminate.
  apply bind_np; [apply dec_field_np, dec_string_np|intros i].
  apply bind_np; [apply dec_field_np; intros ?; apply dec_list_np, dec_string_np|intros ts].
  apply bind_np; [apply dec_field_np; intros ?; apply dec_text_np; intros ?; apply of_option_np|intros o].
  apply bind_np; [apply dec_field_np; intros ?; apply dec_ptr_np; intros ?; apply dec_text_np; intros s|intros e].
  { pose proof (C04_event_text_never_crashes zero_event s). by destruct (event_unmarshal zero_event s). }
  apply bind_np; [apply dec_field_np; intros ?; apply dec_list_np, IH|intros ?]. discriminate.
Qed.
Lemma m_fold_np {A} (dec : A -> json -> jres A) l a : (forall a j, dec a j <> Panic) -> m_fold dec l a <> Panic.
Proof. intros H. revert a. induction l as [|kv l IH]; intros a; cbn [m_fold]; [discriminate|]. apply bind_np; [apply H|apply IH]. Qed.
Lemma m_field_np {A} f (dec : A -> json -> jres A) a kvs : (forall a j, dec a j <> Panic) -> m_field f dec a kvs <> Panic.
Proof. apply m_fold_np. Qed.
Lemma m_string_np a j : m_string a j <> Panic.
Proof. by destruct j. Qed.
Lemma m_text_np {A} (f : A -> gostr -> jres A) a j : (forall a s, f a s <> Panic) -> m_text f a j <> Panic.
Proof. intros H. destruct j; cbn; try discriminate. apply H. Qed.
Lemma m_ptr_np {A} (zero : A) dec o j : (forall a j, dec a j <> Panic) -> m_ptr zero dec o j <> Panic.
Proof. intros H. destruct j; cbn [m_ptr]; try discriminate; (apply bind_np; [apply H|]; intros a; discriminate). Qed.
Lemma m_slice_np {A} (zero : A) dec s j : (forall a j, dec a j <> Panic) -> m_slice zero dec s j <> Panic.
Proof.
  intros H. destruct j as [| | | |[|j0 l]|]; cbn [m_slice]; try discriminate. apply bind_np; [|discriminate]. generalize (j0 :: l) as k, s.1. intros k.
  induction k as [|j k IH]; intros mem; cbn [m_cells]; [discriminate|]. apply bind_np; [apply H|intros x]. apply bind_np; [apply IH|discriminate].
Qed.
Lemma dec_members_np {A} (dec : json -> jres A) kvs m : (forall j, dec j <> Panic) -> dec_members dec kvs m <> Panic.
Proof. intros H. revert m. induction kvs as [|[k v] kvs IH]; intros m; cbn; [discriminate|]. apply bind_np; [apply H|]. intros a. apply IH. Qed.
Lemma m_map_np {A} (dec : json -> jres A) m j : (forall j, dec j <> Panic) -> m_map dec m j <> Panic.
Proof. intros H. destruct j; cbn; try discriminate. by apply dec_members_np. Qed.
Lemma m_struct_np {A} (f : A -> _) old j : (forall a kvs, f a kvs <> Panic) -> m_struct f old j <> Panic.
Proof. intros H. destruct j; cbn; try discriminate. apply H. Qed.
Lemma m_node_np fuel old j : m_node fuel old j <> Panic.
Proof.
  revert old j. induction fuel as [|fuel IH]; intros [i ts o e next n] j; cbn [m_node]; [discriminate|]. destruct j; try discriminate.
  apply bind_np; [apply m_field_np, m_string_np|intros i'].
  apply bind_np; [apply m_field_np; intros ? ?; apply m_slice_np, m_string_np|intros ts'].
  apply bind_np; [apply m_field_np; intros ? ?; apply m_text_np; intros ? ?; apply of_option_np|intros o'].
  apply bind_np; [apply m_field_np; intros ? ?; apply m_ptr_np; intros ? ?; apply m_text_np; intros ev s|intros e'].
  { pose proof (C04_event_text_never_crashes ev s). by destruct (event_unmarshal ev s). }
  apply bind_np; [apply m_field_np; intros ? ?; apply m_slice_np, IH|intros ?]. discriminate.
Qed.
Lemma read_suite_np text : read_suite text <> Panic.
Proof.
  unfold read_suite. destruct (read_doc text) as [j|]; [|discriminate]. apply dec_map_np. intros ?. apply bind_np; [apply m_ptr_np; intros ? ?; apply m_node_np|discriminate].
Qed.
Lemma channel_unmarshal_np s : channel_unmarshal s <> Panic.
Proof.
  pose proof (C04_event_text_never_crashes zero_event s) as H. unfold event_unmarshal in H. unfold channel_unmarshal.
  by destruct (channel_unmarshal_rem s) as [[? ?]| |].
Qed.
Lemma read_stm_suite_np text : read_stm_suite text <> Panic.
Proof.
  unfold read_stm_suite. destruct (read_doc text) as [j|]; [|discriminate].
  assert (Hty : forall m j, m_type_map m j <> Panic).
  { intros ? ?. apply m_map_np. intros ?. apply dec_ptr_np. intros ?. apply dec_text_np. intros ?. apply of_option_np. }
  assert (Hv : forall j, dec_verdict j <> Panic).
  { intros ?. apply bind_np; [apply dec_map_np, dec_string_np|]. intros m. by destruct (forallb _ _). }
  assert (Htr : forall a j, m_transition a j <> Panic).
  { intros x0 j0. apply m_struct_np. intros a kvs. apply bind_np; [apply m_field_np; intros ? ?; by apply m_text_np|intros v].
    apply bind_np; [apply m_field_np, m_string_np|discriminate]. }
  assert (Hts : forall a j, m_tset a j <> Panic).
  { intros x0 j0. apply m_struct_np. intros a kvs. apply bind_np; [apply m_field_np; intros ? ?; apply m_text_np; intros _ s|intros c].
    - pose proof (channel_unmarshal_np s). by destruct (channel_unmarshal s).
    - apply bind_np; [|discriminate]. apply m_field_np. intros ? ?. by apply m_slice_np. }
  assert (Hst : forall a j, m_state a j <> Panic).
  { intros x0 j0. apply m_struct_np. intros a kvs. apply bind_np; [apply m_field_np, m_string_np|intros i].
    apply bind_np; [apply m_field_np; intros ? ?; by apply m_slice_np|intros t]. apply bind_np; [|discriminate]. apply m_field_np. intros ? ?. by apply m_ptr_np. }
  assert (Hse : forall (a : gset gostr) j, dec_set j <> Panic) by (intros _ ?; apply bind_np; [apply dec_list_np, dec_string_np|discriminate]).
  assert (Hsm : forall a j, m_stm a j <> Panic).
  { intros x0 j0. apply m_struct_np. intros a kvs. apply bind_np; [apply m_field_np; intros ? ?; apply m_slice_np; intros ? ?; by apply m_ptr_np|intros s].
    apply bind_np; [by apply m_field_np|intros ty]. apply bind_np; [by apply m_field_np|discriminate]. }
  apply m_struct_np. intros a kvs. apply bind_np; [by apply m_field_np|intros ty]. apply bind_np; [|discriminate].
  apply m_field_np. intros ? ?. apply m_map_np. intros ?. apply bind_np; [by apply m_ptr_np|discriminate].
Qed.

(** ** Fuel *)
Lemma res_map_ext {E A B} (f g : A -> res E B) l : (forall a, a ∈ l -> f a = g a) -> res_map f l = res_map g l.
Proof.
  induction l as [|x l IH]; intros H; cbn; [done|]. rewrite (H x) by left. rewrite IH; [done|]. intros a Ha. apply H. by right.
Qed.
Lemma get_field_in f kvs j : get_field f kvs = Ok (Some j) -> exists k, (k, j) ∈ kvs.
Proof.
  unfold get_field. destruct (base.filter _ _) as [|[k v] [|? ?]] eqn:E; try discriminate. intros [= <-].
  exists k. cbn. assert (H : (k, v) ∈ base.filter (fun kv : gostr * json => fold_key kv.1 = fold_key f) kvs) by (rewrite E; left).
  by apply elem_of_list_filter in H as [_ H].
Qed.
Lemma list_max_elem x (l : list nat) : x ∈ l -> x <= list_max l.
Proof. intros H. pose proof (proj1 (list_max_le l (list_max l)) (le_n _)) as HF. rewrite Forall_forall in HF. by apply HF. Qed.
Lemma dec_node_fuel f1 f2 j : jdepth j < f1 -> jdepth j < f2 -> dec_node f1 j = dec_node f2 j.
Proof.
  revert f2 j. induction f1 as [|f1 IH]; intros f2 j H1 H2; [lia|]. destruct f2 as [|f2]; [lia|].
  destruct j as [| | | | |kvs]; try done. cbn [dec_node].
  assert (Hn : dec_field "next" (dec_list (dec_node f1)) [] kvs = dec_field "next" (dec_list (dec_node f2)) [] kvs).
  { unfold dec_field. destruct (get_field _ kvs) as [[j|]| |] eqn:Eg; try done. cbn [res_bind].
    apply get_field_in in Eg as [k Hk]. destruct j as [| | | |l|]; try done. cbn [dec_list]. apply res_map_ext. intros a Ha.
    assert (jdepth (JArr l) <= list_max (map (fun kv : gostr * json => jdepth kv.2) kvs)) as Hd.
    { apply list_max_elem. apply elem_of_list_fmap. by exists (k, JArr l). }
    assert (jdepth a <= list_max (map jdepth l)) by (apply list_max_elem, elem_of_list_fmap; by exists a).
    cbn [jdepth] in *. apply IH; lia. }
  by rewrite Hn.
Qed.

(** ** Encoding never panics *)
Lemma enc_map_res_np {A} (enc : gostr -> A -> wres json) m : (forall k a, enc k a <> Panic) -> enc_map_res enc m <> Panic.
Proof.
  intros H. apply bind_np; [|discriminate]. apply res_map_np. intros [k a]. apply bind_np; [apply H|discriminate].
Qed.
Lemma enc_stm_suite_np orders s : enc_stm_suite orders s <> Panic.
Proof.
  assert (Hty : forall m, enc_types m <> Panic).
  { intros m. apply enc_map_res_np. intros _ t. by destruct (ty_string t). }
  apply bind_np; [apply Hty|intros ty]. apply bind_np; [|discriminate]. apply enc_map_res_np. intros k m.
  apply bind_np; [|intros ss; apply bind_np; [apply Hty|discriminate]].
  apply res_map_np. intros st. apply bind_np; [|discriminate]. apply res_map_np. intros ts. apply bind_np; [|discriminate].
  apply res_map_np. intros t. unfold enc_transition. destruct (tr_value t) as [[]|]; cbn; discriminate.
Qed.
