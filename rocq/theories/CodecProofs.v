(** * Proofs about the JSON forms of suites *)
From Verif Require Export JsonProofs LitProofs TestLangProofs TypeProofs MergeProofs.
From Verif Require Export StmProofs.

(** ** Fields *)

Definition lacks (f : gostr) (kvs : list (gostr * json)) : Prop :=
  Forall (fun kv => fold_key kv.1 <> fold_key f) kvs.

Lemma lacks_nil f : lacks f [].
Proof. constructor. Qed.
Lemma lacks_cons f k v r : fold_key k <> fold_key f -> lacks f r -> lacks f ((k, v) :: r).
Proof. by constructor. Qed.
Lemma lacks_omit f b k v : fold_key k <> fold_key f -> lacks f (omit b k v).
Proof. intros. destruct b; cbn; repeat constructor. done. Qed.
Lemma lacks_app f a b : lacks f a -> lacks f b -> lacks f (a ++ b).
Proof. intros. by apply Forall_app_2. Qed.

Lemma filter_lacks f kvs : lacks f kvs -> base.filter (fun kv => fold_key kv.1 = fold_key f) kvs = [].
Proof.
  induction 1 as [|kv kvs H _ IH]; [done|]. rewrite filter_cons_False by done. done.
Qed.

Lemma dec_field_absent {A} f dec (zero : A) kvs : lacks f kvs -> dec_field f dec zero kvs = Ok zero.
Proof. intros H. unfold dec_field, get_field. by rewrite filter_lacks. Qed.

Lemma dec_field_here {A} f dec (zero : A) a k v b :
  lacks f a -> fold_key k = fold_key f -> lacks f b ->
  dec_field f dec zero (a ++ (k, v) :: b) = dec v.
Proof.
  intros Ha Hk Hb. unfold dec_field, get_field.
  rewrite filter_app, (filter_lacks f a Ha), filter_cons_True by done.
  by rewrite (filter_lacks f b Hb).
Qed.

Lemma dec_field_first {A} f dec (zero : A) k v b :
  fold_key k = fold_key f -> lacks f b -> dec_field f dec zero ((k, v) :: b) = dec v.
Proof. intros. by apply (dec_field_here _ _ _ []); [apply Forall_nil_2|..]. Qed.

Lemma dec_field_omit {A} f dec (zero : A) a bo k v b :
  lacks f a -> fold_key k = fold_key f -> lacks f b ->
  dec_field f dec zero (a ++ omit bo k v ++ b) = if bo then Ok zero else dec v.
Proof.
  intros Ha Hk Hb. destruct bo; cbn [omit app].
  - apply dec_field_absent. by apply lacks_app.
  - by apply dec_field_here.
Qed.

Lemma dec_field_second {A} f dec (zero : A) k1 v1 bo k v :
  fold_key k1 <> fold_key f -> fold_key k = fold_key f ->
  dec_field f dec zero ((k1, v1) :: omit bo k v) = if bo then Ok zero else dec v.
Proof.
  intros H1 H2. pose proof (dec_field_omit f dec zero [(k1, v1)] bo k v []) as H.
  rewrite app_nil_r in H. apply H; [by repeat constructor|done|constructor].
Qed.

Ltac solve_lacks :=
  repeat first
    [ apply lacks_nil
    | apply lacks_cons; [vm_compute; discriminate|]
    | apply lacks_omit; vm_compute; discriminate
    | apply lacks_app
    | match goal with |- lacks _ (match ?e with _ => _ end) => destruct e end ].

(** ** Lists and maps *)

Lemma res_map_ok {E A B} (f : A -> res E B) (g : A -> B) l :
  (forall x, x ∈ l -> f x = Ok (g x)) -> res_map f l = Ok (map g l).
Proof.
  induction l as [|x l IH]; intros H; [done|]. cbn [res_map map].
  rewrite (H x) by apply elem_of_list_here. cbn [res_bind].
  rewrite IH; [done|]. intros y Hy. apply H. by apply elem_of_list_further.
Qed.

Lemma res_map_map {E A B C} (f : B -> res E C) (g : A -> B) l :
  res_map f (map g l) = res_map (fun x => f (g x)) l.
Proof. induction l as [|x l IH]; [done|]. cbn [res_map map]. by rewrite IH. Qed.

Lemma res_map_id {E A B} (f : B -> res E A) (g : A -> B) l :
  (forall x, x ∈ l -> f (g x) = Ok x) -> res_map f (map g l) = Ok l.
Proof.
  intros H. rewrite res_map_map. rewrite (res_map_ok _ id) by done. by rewrite map_id.
Qed.

Lemma res_map_inv {E A B} (f : A -> res E B) l ys :
  res_map f l = Ok ys -> Forall2 (fun x y => f x = Ok y) l ys.
Proof.
  revert ys. induction l as [|x l IH]; intros ys; cbn; [intros [= <-]; constructor|].
  destruct (f x) as [y| |] eqn:Efx; cbn; [|done..].
  destruct (res_map f l) as [ys'| |]; cbn; [|done..]. intros [= <-]. constructor; auto.
Qed.

Lemma range_map_perm {A} (m : gmap gostr A) : range_map m ≡ₚ map_to_list m.
Proof. apply merge_sort_Permutation. Qed.

Lemma range_map_elem {A} (m : gmap gostr A) k a : (k, a) ∈ range_map m <-> m !! k = Some a.
Proof. rewrite range_map_perm. apply elem_of_map_to_list. Qed.

Lemma range_map_nodup {A} (m : gmap gostr A) : NoDup (range_map m).*1.
Proof. rewrite range_map_perm. apply NoDup_fst_map_to_list. Qed.

Lemma dec_members_F2 {A B} (dec : json -> jres B) (g : A -> B) (l : list (gostr * A)) kjs m :
  Forall2 (fun kv kj => kj.1 = kv.1 /\ dec kj.2 = Ok (g kv.2)) l kjs -> NoDup l.*1 ->
  (forall k, k ∈ l.*1 -> m !! k = None) ->
  dec_members dec kjs m = Ok ((g <$> (list_to_map l : gmap gostr A)) ∪ m).
Proof.
  intros H. revert m. induction H as [|[k a] [k' j] l kjs [Hk Hd] H IH]; intros m Hnd Hm.
  { cbn. by rewrite fmap_empty, (left_id_L ∅ (∪)). }
  cbn [fst snd] in Hk, Hd. subst k'.
  cbn [dec_members]. rewrite Hd. cbn [res_bind].
  apply NoDup_cons in Hnd as [Hk Hnd].
  rewrite IH; [|done|].
  - f_equal. change (list_to_map ((k, a) :: l)) with (<[k := a]> (list_to_map l : gmap gostr A)).
    rewrite fmap_insert, <- insert_union_l, <- insert_union_r; [done|].
    rewrite lookup_fmap. by rewrite (not_elem_of_list_to_map_1 l k).
  - intros k' Hk'. rewrite lookup_insert_ne by (intros ->; done). apply Hm.
    by apply elem_of_list_further.
Qed.

Lemma dec_map_F2 {A B} (dec : json -> jres B) (g : A -> B) (m : gmap gostr A) kjs :
  Forall2 (fun kv kj => kj.1 = kv.1 /\ dec kj.2 = Ok (g kv.2)) (range_map m) kjs ->
  dec_map dec (JObj kjs) = Ok (g <$> m).
Proof.
  intros H. cbn [dec_map]. rewrite (dec_members_F2 dec g _ _ _ H).
  - f_equal. rewrite (right_id_L ∅ (∪)). f_equal.
    rewrite (list_to_map_proper (range_map m) (map_to_list m)).
    + apply list_to_map_to_list.
    + apply range_map_nodup.
    + apply range_map_perm.
  - apply range_map_nodup.
  - done.
Qed.

Lemma dec_map_fmap {A B} (dec : json -> jres B) (g : A -> B) (enc : A -> json) (m : gmap gostr A) :
  (forall k a, m !! k = Some a -> dec (enc a) = Ok (g a)) ->
  dec_map dec (enc_map enc m) = Ok (g <$> m).
Proof.
  intros Hd. unfold enc_map. apply dec_map_F2. apply Forall2_fmap_r, Forall_Forall2_diag.
  apply Forall_forall. intros [k a] Hin. split; [done|]. apply (Hd k). by apply range_map_elem.
Qed.

Lemma dec_map_gen {A} (dec : json -> jres A) (enc : A -> json) (m : gmap gostr A) :
  (forall k a, m !! k = Some a -> dec (enc a) = Ok a) -> dec_map dec (enc_map enc m) = Ok m.
Proof. intros H. rewrite (dec_map_fmap _ id) by done. by rewrite map_fmap_id. Qed.

(** ** Valid strings *)

Lemma valid_utf8_nil : valid_utf8 [].
Proof. by exists []. Qed.
Lemma valid_utf8_app a b : valid_utf8 a -> valid_utf8 b -> valid_utf8 (a ++ b).
Proof.
  intros (ra & Ha & ->) (rb & Hb & ->). exists (ra ++ rb). split; [by apply Forall_app_2|].
  rewrite map_app. induction (map encode_rune ra) as [|x l IH]; [done|].
  change (mjoin ((x :: l) ++ map encode_rune rb)) with (x ++ mjoin (l ++ map encode_rune rb)).
  rewrite <- IH. change (mjoin (x :: l)) with (x ++ mjoin l). by rewrite app_assoc.
Qed.
Lemma valid_utf8_ascii s : Forall (fun c => is_ascii c = true) s -> valid_utf8 s.
Proof.
  induction 1 as [|c s Hc _ IH]; [apply valid_utf8_nil|].
  apply (valid_utf8_app [c] s); [|done].
  unfold is_ascii in Hc. apply N.ltb_lt in Hc as Hc'.
  exists [code c]. split; [constructor; [left; lia|constructor]|].
  cbn. unfold encode_rune. rewrite Hc. cbn. unfold byte, code. by rewrite ascii_N_embedding.
Qed.

Lemma event_marshal_valid e : safe_event e -> valid_utf8 (event_marshal e).
Proof.
  intros [(Hk & (Hne & _) & Hn) Hv]. unfold event_marshal, channel_marshal.
  assert (Hc : valid_utf8 (join [event_sep] [ch_name (e_chan e); kind_string (ch_kind (e_chan e))])).
  { cbn [join]. apply valid_utf8_app; [done|]. apply valid_utf8_app.
    - apply valid_utf8_ascii. by repeat constructor.
    - by apply valid_utf8_ascii, kind_string_ascii. }
  destruct (ch_name (e_chan e)) as [|c r] eqn:E; [done|].
  destruct (e_value e) as [v|]; [|done].
  cbn [join] in Hc |- *. apply valid_utf8_app; [done|]. apply valid_utf8_app.
  - apply valid_utf8_ascii. by repeat constructor.
  - by destruct Hv.
Qed.

Lemma safe_event_roundtrip e : safe_event e -> event_unmarshal zero_event (event_marshal e) = Ok e.
Proof.
  intros [(Hk & Hn & _) Hv]. apply event_roundtrip. split_and!; [done..|].
  destruct (e_value e); [by destruct Hv|done].
Qed.

Lemma outcome_roundtrip o : valid_outcome o -> parse_outcome (outcome_string o) = Some o.
Proof. intros [->|[->|[->| ->]]]; reflexivity. Qed.
Lemma outcome_valid o : valid_outcome o -> valid_utf8 (outcome_string o).
Proof. intros H. by apply valid_utf8_ascii, outcome_string_ascii. Qed.

(** ** Nodes *)

Lemma enc_node_eq i ts o e next :
  enc_node (Node i ts o e next) =
  JObj (omit (bool_decide (i = [])) "id" (JStr i) ++
        omit (bool_decide (ts = [])) "tests" (JArr (map JStr ts)) ++
        omit (bool_decide (o = OUnset)) "outcome" (JStr (outcome_string o)) ++
        match e with None => [] | Some e => [(lit "event", JStr (event_marshal e))] end ++
        omit (bool_decide (next = [])) "next" (JArr (map enc_node next))).
Proof. done. Qed.

Lemma dec_enc_node n : forall fuel, safe_node n -> height n <= fuel -> dec_node fuel (enc_node n) = Ok n.
Proof.
  induction n as [i ts o e next IH] using node_ind'. intros fuel Hs Hf.
  destruct fuel as [|fuel]; [cbn in Hf; lia|].
  destruct Hs as (Hi & Hts & Ho & He & Hnext).
  rewrite enc_node_eq. cbn [dec_node].
  set (Fid := omit (bool_decide (i = [])) _ _).
  set (Ftests := omit (bool_decide (ts = [])) _ _).
  set (Fout := omit (bool_decide (o = OUnset)) _ _).
  set (Fev := match e with None => [] | Some _ => _ end).
  set (Fnext := omit (bool_decide (next = [])) _ _).
  assert (H1 : dec_field "id" dec_string [] (Fid ++ Ftests ++ Fout ++ Fev ++ Fnext) = Ok i).
  { etrans; [apply (dec_field_omit _ _ _ []); [solve_lacks|reflexivity|unfold Ftests, Fout, Fev, Fnext; solve_lacks]|].
    case_bool_decide as E; [by subst|done]. }
  assert (H2 : dec_field "tests" (dec_list dec_string) [] (Fid ++ Ftests ++ Fout ++ Fev ++ Fnext) = Ok ts).
  { unfold Ftests. rewrite dec_field_omit; [|unfold Fid; solve_lacks|reflexivity|unfold Fout, Fev, Fnext; solve_lacks].
    case_bool_decide as E; [by subst|]. cbn [dec_list]. by apply res_map_id. }
  assert (H3 : dec_field "outcome" (dec_text (fun s => of_option (parse_outcome s)) OUnset)
                 OUnset (Fid ++ Ftests ++ Fout ++ Fev ++ Fnext) = Ok o).
  { rewrite (app_assoc Fid). unfold Fout.
    rewrite dec_field_omit; [|unfold Fid, Ftests; solve_lacks|reflexivity|unfold Fev, Fnext; solve_lacks].
    case_bool_decide as E; [by subst|]. cbn [dec_text]. by rewrite outcome_roundtrip. }
  assert (H4 : dec_field "event"
                 (dec_ptr (dec_text (fun s => of_event_res (event_unmarshal zero_event s)) zero_event))
                 None (Fid ++ Ftests ++ Fout ++ Fev ++ Fnext) = Ok e).
  { rewrite (app_assoc Fid), (app_assoc (Fid ++ _)). unfold Fev. destruct e as [e|].
    - cbn [app]. rewrite dec_field_here; [|unfold Fid, Ftests, Fout; solve_lacks|reflexivity|unfold Fnext; solve_lacks].
      cbn [dec_ptr dec_text]. by rewrite safe_event_roundtrip.
    - apply dec_field_absent. unfold Fid, Ftests, Fout, Fnext. solve_lacks. }
  assert (H5 : dec_field "next" (dec_list (dec_node fuel)) [] (Fid ++ Ftests ++ Fout ++ Fev ++ Fnext) = Ok next).
  { rewrite (app_assoc Fid), (app_assoc (Fid ++ _)), (app_assoc ((Fid ++ _) ++ _)). unfold Fnext.
    rewrite <- (app_nil_r (omit _ _ _)).
    rewrite dec_field_omit; [|unfold Fid, Ftests, Fout, Fev; solve_lacks|reflexivity|solve_lacks].
    case_bool_decide as E; [by subst|]. cbn [dec_list]. apply res_map_id.
    intros c Hc. apply foldr_and_Forall in Hnext. rewrite Forall_forall in IH, Hnext.
    apply IH; [done|by apply Hnext|].
    cbn [height] in Hf. eapply list_max_elem; [|apply le_S_n, Hf].
    apply in_map. by apply elem_of_list_In. }
  rewrite H1. cbn [res_bind]. rewrite H2. cbn [res_bind]. rewrite H3. cbn [res_bind].
  rewrite H4. cbn [res_bind]. rewrite H5. done.
Qed.

Lemma omit_no_num b k v : no_num v -> Forall (fun kv => no_num kv.2) (omit b k v).
Proof. intros. destruct b; by repeat constructor. Qed.
Lemma JObj_no_num l : Forall (fun kv => no_num kv.2) l -> no_num (JObj l).
Proof. intros H. cbn. by apply (foldr_and_Forall (fun kv => no_num kv.2)). Qed.
Lemma JArr_no_num l : Forall no_num l -> no_num (JArr l).
Proof. intros H. cbn. by apply foldr_and_Forall. Qed.
Definition member_valid (kv : gostr * json) : Prop := valid_utf8 kv.1 /\ jvalid kv.2.
Lemma JObj_valid l : Forall member_valid l -> jvalid (JObj l).
Proof. intros H. cbn. by apply (foldr_and_Forall member_valid). Qed.
Lemma JArr_valid l : Forall jvalid l -> jvalid (JArr l).
Proof. intros H. cbn. by apply foldr_and_Forall. Qed.
Lemma omit_valid b k v : valid_utf8 k -> jvalid v -> Forall member_valid (omit b k v).
Proof. intros. destruct b; repeat constructor; done. Qed.
Lemma strs_valid l : Forall valid_utf8 l -> jvalid (JArr (map JStr l)).
Proof.
  intros H. apply JArr_valid. apply Forall_forall. intros j (s & <- & Hs)%elem_of_list_In%in_map_iff.
  apply elem_of_list_In in Hs. rewrite Forall_forall in H. exact (H _ Hs).
Qed.
Lemma strs_no_num l : no_num (JArr (map JStr l)).
Proof.
  apply JArr_no_num. apply Forall_forall. by intros j (s & <- & Hs)%elem_of_list_In%in_map_iff.
Qed.
Lemma lit_valid (s : gostr) : forallb is_ascii s = true -> valid_utf8 s.
Proof.
  intros H. apply valid_utf8_ascii. rewrite forallb_forall in H. apply Forall_forall.
  intros c Hc%elem_of_list_In. auto.
Qed.

Lemma enc_node_no_num n : no_num (enc_node n).
Proof.
  induction n as [i ts o e next IH] using node_ind'. rewrite enc_node_eq. apply JObj_no_num.
  repeat apply Forall_app_2; try apply omit_no_num; try done.
  - apply strs_no_num.
  - destruct e; by repeat constructor.
  - apply JArr_no_num. apply Forall_forall. intros j (c & <- & Hc%elem_of_list_In)%elem_of_list_In%in_map_iff.
    rewrite Forall_forall in IH. by apply IH.
Qed.

Lemma enc_node_valid n : safe_node n -> jvalid (enc_node n).
Proof.
  induction n as [i ts o e next IH] using node_ind'. intros (Hi & Hts & Ho & He & Hnext).
  rewrite enc_node_eq. apply JObj_valid.
  repeat apply Forall_app_2.
  - apply omit_valid; [by apply lit_valid|done].
  - apply omit_valid; [by apply lit_valid|by apply strs_valid].
  - apply omit_valid; [by apply lit_valid|by apply outcome_valid].
  - destruct e; constructor; [|constructor]. split; [by apply lit_valid|]. by apply event_marshal_valid.
  - apply omit_valid; [by apply lit_valid|]. apply JArr_valid.
    apply Forall_forall. intros j (c & <- & Hc%elem_of_list_In)%elem_of_list_In%in_map_iff.
    apply foldr_and_Forall in Hnext. rewrite Forall_forall in IH, Hnext. apply IH; [done|by apply Hnext].
Qed.

(** Depth of a node's JSON form. *)
Lemma strs_depth l : list_max (map jdepth (map JStr l)) = 0.
Proof. induction l as [|x l IH]; [done|]. exact IH. Qed.

Lemma enc_node_depth_eq i ts o e next :
  jdepth (enc_node (Node i ts o e next)) =
  S (Nat.max (if decide (ts = []) then 0 else 1)
             (if decide (next = []) then 0 else S (list_max (map (fun c => jdepth (enc_node c)) next)))).
Proof.
  rewrite enc_node_eq. cbn [jdepth]. f_equal. rewrite !map_app, !list_max_app.
  assert (Hom : forall b k v, list_max (map (fun kv => jdepth kv.2) (omit b k v)) = if b then 0 else jdepth v).
  { intros [] k v; [done|]. cbn. lia. }
  rewrite !Hom.
  assert (Hid : (if bool_decide (i = []) then 0 else jdepth (JStr i)) = 0)
    by by destruct (bool_decide (i = [])).
  assert (Hou : (if bool_decide (o = OUnset) then 0 else jdepth (JStr (outcome_string o))) = 0)
    by by destruct (bool_decide (o = OUnset)).
  assert (Hev : list_max (map (fun kv => jdepth kv.2)
     (match e with None => [] | Some e => [(lit "event", JStr (event_marshal e))] end)) = 0) by by destruct e.
  rewrite Hid, Hou, Hev.
  assert (Ht : (if bool_decide (ts = []) then 0 else jdepth (JArr (map JStr ts))) = if decide (ts = []) then 0 else 1).
  { destruct ts as [|t0 ts0]; [done|]. rewrite decide_False, bool_decide_eq_false_2 by done.
    cbn [jdepth]. by rewrite strs_depth. }
  assert (Hn : (if bool_decide (next = []) then 0 else jdepth (JArr (map enc_node next))) =
               if decide (next = []) then 0 else S (list_max (map (fun c => jdepth (enc_node c)) next))).
  { destruct next as [|n0 next0]; [done|]. rewrite decide_False, bool_decide_eq_false_2 by done.
    cbn [jdepth]. by rewrite map_map. }
  rewrite Ht, Hn. lia.
Qed.

Lemma list_max_le_pointwise {A} (f g : A -> nat) l :
  (forall x, x ∈ l -> f x <= g x) -> list_max (map f l) <= list_max (map g l).
Proof.
  intros H. apply list_max_le. rewrite List.Forall_forall. intros y (x & <- & Hx)%in_map_iff.
  etrans; [apply H; by apply elem_of_list_In|].
  eapply list_max_elem; [|reflexivity]. by apply in_map.
Qed.

Lemma height_le_depth n : height n <= jdepth (enc_node n).
Proof.
  induction n as [i ts o e next IH] using node_ind'. rewrite enc_node_depth_eq. cbn [height].
  apply le_n_S. destruct (decide (next = [])) as [->|Hne]; [cbn; lia|].
  rewrite Forall_forall in IH.
  pose proof (list_max_le_pointwise height (fun c => jdepth (enc_node c)) next IH). lia.
Qed.

Lemma depth_le_height n : jdepth (enc_node n) <= 2 * height n.
Proof.
  induction n as [i ts o e next IH] using node_ind'. rewrite enc_node_depth_eq. cbn [height].
  rewrite Forall_forall in IH.
  assert (list_max (map (fun c => jdepth (enc_node c)) next) <= 2 * list_max (map height next)).
  { apply list_max_le. rewrite List.Forall_forall. intros y (x & <- & Hx)%in_map_iff.
    assert (height x <= list_max (map height next))
      by (eapply list_max_elem; [by apply in_map|reflexivity]).
    specialize (IH x). rewrite elem_of_list_In in IH. specialize (IH Hx). lia. }
  destruct (decide (ts = [])), (decide (next = [])); lia.
Qed.

(** A tagged tree has the greatest depth possible. *)
Lemma depth_tagged n :
  (forall p m, node_at n p = Some m -> n_tests m <> []) -> jdepth (enc_node n) = 2 * height n.
Proof.
  induction n as [i ts o e next IH] using node_ind'. intros Ht.
  rewrite enc_node_depth_eq. cbn [height].
  destruct (decide (ts = [])) as [E|_]; [by destruct (Ht [] _ eq_refl)|].
  destruct (decide (next = [])) as [->|Hne]; [done|].
  assert (list_max (map (fun c => jdepth (enc_node c)) next) = 2 * list_max (map height next)).
  { assert (Hc : forall c, c ∈ next -> jdepth (enc_node c) = 2 * height c).
    { rewrite Forall_forall in IH. intros c Hc. apply IH; [done|].
      apply elem_of_list_lookup in Hc as [k Hk]. intros p m Hm. apply (Ht (k :: p)).
      cbn. by rewrite Hk. }
    clear -Hc. induction next as [|c next IHn]; [done|]. cbn [map list_max foldr].
    change (foldr Nat.max 0 ?x) with (list_max x).
    rewrite IHn by (intros; apply Hc; by apply elem_of_list_further).
    rewrite (Hc c) by apply elem_of_list_here. lia. }
  lia.
Qed.

(** ** Test suites *)

Definition suite_height (s : suite) : nat :=
  list_max (map (fun kv => match kv.2 with None => 0 | Some n => height n end) (map_to_list s)).

Lemma enc_map_no_num {A} (enc : A -> json) m : (forall a, no_num (enc a)) -> no_num (enc_map enc m).
Proof.
  intros H. apply JObj_no_num. apply Forall_forall.
  intros kv ([k a] & <- & _)%elem_of_list_In%in_map_iff. apply H.
Qed.
Lemma enc_map_valid {A} (enc : A -> json) (m : gmap gostr A) :
  (forall k a, m !! k = Some a -> valid_utf8 k /\ jvalid (enc a)) -> jvalid (enc_map enc m).
Proof.
  intros H. apply JObj_valid. apply Forall_forall.
  intros kv ([k a] & <- & Hin%elem_of_list_In)%elem_of_list_In%in_map_iff. apply H.
  by apply range_map_elem.
Qed.
Lemma enc_map_depth_le {A} (enc : A -> json) (m : gmap gostr A) d :
  jdepth (enc_map enc m) <= S d <-> forall k a, m !! k = Some a -> jdepth (enc a) <= d.
Proof.
  unfold enc_map. cbn [jdepth]. rewrite map_map. cbn [snd].
  rewrite <- Nat.succ_le_mono, list_max_le, List.Forall_forall. split.
  - intros H k a Hk. apply H. apply in_map_iff. exists (k, a). split; [done|].
    by apply elem_of_list_In, range_map_elem.
  - intros H y ([k a] & <- & Hin%elem_of_list_In)%in_map_iff. apply (H k). by apply range_map_elem.
Qed.

Lemma dec_enc_suite s : safe_suite s -> dec_suite (enc_map enc_node_ptr s) = Ok s.
Proof.
  intros Hs. unfold dec_suite.
  set (fuel := S (jdepth _)).
  apply dec_map_gen.
  intros k [n|] Hk; [|done]. cbn [enc_node_ptr]. unfold dec_ptr.
  destruct (Hs k _ Hk) as [_ Hn].
  assert (Hd : dec_node fuel (enc_node n) = Ok n).
  { apply dec_enc_node; [done|]. unfold fuel.
    assert (Hle : jdepth (enc_map enc_node_ptr s) <= S (jdepth (enc_map enc_node_ptr s))) by lia.
    apply enc_map_depth_le with (k := k) (a := Some n) in Hle; [|done]. cbn [enc_node_ptr] in Hle.
    pose proof (height_le_depth n). lia. }
  rewrite Hd. destruct n as [i ts o e next]. rewrite enc_node_eq. done.
Qed.

Theorem suite_roundtrip s text :
  safe_suite s -> write_suite s = Some text -> read_suite text = Ok s.
Proof.
  intros Hs Hw. unfold read_suite.
  assert (Hv : jvalid (enc_map enc_node_ptr s)).
  { apply enc_map_valid. intros k n Hk. destruct (Hs k n Hk) as [? Hn]. split; [done|].
    destruct n; [by apply enc_node_valid|done]. }
  assert (Hnn : no_num (enc_map enc_node_ptr s))
    by (apply enc_map_no_num; intros [n|]; [apply enc_node_no_num|done]).
  rewrite (read_write_doc _ _ Hnn Hw).
  rewrite jcoerce_valid by done. by apply m_suite_ok, dec_enc_suite.
Qed.

Lemma write_suite_ok s :
  is_Some (write_suite s) <->
  forall k n, s !! k = Some (Some n) -> jdepth (enc_node n) < max_depth.
Proof.
  unfold write_suite, write_doc.
  assert (Hm : exists d, max_depth = S d).
  { exists (pred max_depth). assert (0 < max_depth) by (unfold max_depth; lia). lia. }
  destruct Hm as [d Hm].
  destruct (_ <=? _) eqn:E.
  - split; [|intros _; by eexists]. intros _ k n Hk. apply Nat.leb_le in E. rewrite Hm in E |- *.
    rewrite enc_map_depth_le in E. specialize (E _ _ Hk). cbn in E. lia.
  - split; [by intros [? ?]|]. intros H. exfalso. apply Nat.leb_gt in E.
    assert (jdepth (enc_map enc_node_ptr s) <= max_depth); [|lia].
    rewrite Hm. apply enc_map_depth_le. intros k [n|] Hk; [|cbn; lia].
    specialize (H k n Hk). cbn. lia.
Qed.

(** ** State machine suites *)

(** Encoders that may fail. *)
Definition shape (d : nat) (j : json) : Prop := no_num j /\ jdepth j <= d.

Lemma res_bind_Ok {E A B} (r : res E A) (f : A -> res E B) b :
  res_bind r f = Ok b <-> exists a, r = Ok a /\ f a = Ok b.
Proof. destruct r; cbn; naive_solver. Qed.

Lemma Ok_inj {E A} (a b : A) : @Ok E A a = Ok b -> b = a.
Proof. by intros [= ->]. Qed.

Lemma res_map_ok_iff {E A B} (f : A -> res E B) l :
  is_ok (res_map f l) <-> forall x, x ∈ l -> is_ok (f x).
Proof.
  split.
  - intros [ys H%res_map_inv] x Hx. apply elem_of_list_lookup in Hx as [i Hi].
    eapply Forall2_lookup_l in H as (y & _ & Hy); [|done]. by exists y.
  - induction l as [|x l IH]; intros H; [by eexists|].
    destruct (H x) as [y Hy]; [apply elem_of_list_here|].
    destruct IH as [ys Hys]; [intros; apply H; by apply elem_of_list_further|].
    exists (y :: ys). cbn. by rewrite Hy, Hys.
Qed.

Lemma JArr_shape d l : Forall (shape d) l -> shape (S d) (JArr l).
Proof.
  intros H. split.
  - apply JArr_no_num. eapply Forall_impl; [exact H|]. by intros ? [].
  - cbn [jdepth]. apply le_n_S, list_max_le, List.Forall_forall.
    intros y (j & <- & Hj%elem_of_list_In)%in_map_iff. rewrite Forall_forall in H. by apply H.
Qed.
Definition mshape (d : nat) (kv : gostr * json) : Prop := shape d kv.2.
Lemma JObj_shape d l : Forall (mshape d) l -> shape (S d) (JObj l).
Proof.
  intros H. split.
  - apply JObj_no_num. eapply Forall_impl; [exact H|]. by intros ? [].
  - cbn [jdepth]. apply le_n_S, list_max_le, List.Forall_forall.
    intros y (j & <- & Hj%elem_of_list_In)%in_map_iff. rewrite Forall_forall in H.
    by apply (H j).
Qed.
Lemma omit_shape d b k v : shape d v -> Forall (mshape d) (omit b k v).
Proof. intros. destruct b; repeat constructor; by destruct H. Qed.
Lemma JStr_shape d s : shape d (JStr s).
Proof. split; [done|cbn; lia]. Qed.
Lemma strs_shape d l : shape (S d) (JArr (map JStr l)).
Proof.
  apply JArr_shape, Forall_forall. intros j (s & <- & _)%elem_of_list_In%in_map_iff. apply JStr_shape.
Qed.
Lemma shape_mono d d' j : shape d j -> d <= d' -> shape d' j.
Proof. intros [? ?] ?. split; [done|lia]. Qed.

Lemma res_map_shape {A} (f : A -> wres json) d l js :
  (forall x j, f x = Ok j -> shape d j) -> res_map f l = Ok js -> Forall (shape d) js.
Proof.
  intros Hf H%res_map_inv. apply Forall_forall. intros j Hj.
  apply elem_of_list_lookup in Hj as [i Hi].
  eapply Forall2_lookup_r in H as (x & _ & Hx); [|done]. by eapply Hf.
Qed.

Lemma res_map_dec {A} (f : A -> wres json) (dec : json -> jres A) l js :
  (forall x j, x ∈ l -> f x = Ok j -> dec j = Ok x /\ jvalid j) ->
  res_map f l = Ok js -> res_map dec js = Ok l /\ Forall jvalid js.
Proof.
  intros Hf H%res_map_inv. induction H as [|x j l js Hx H IH]; [done|].
  destruct (Hf x j) as [Hd Hv]; [apply elem_of_list_here|done|].
  destruct IH as [IHd IHv]; [intros; apply Hf; [by apply elem_of_list_further|done]|].
  split; [|by constructor]. cbn. by rewrite Hd, IHd.
Qed.

(** Transitions. *)
Lemma enc_transition_ok t : is_ok (enc_transition t) <-> tr_value t <> None.
Proof.
  unfold enc_transition. destruct (tr_value t) as [v|]; cbn.
  - split; [done|]. intros _. by eexists.
  - split; [|done]. by intros [? ?].
Qed.
Lemma enc_transition_shape t j : enc_transition t = Ok j -> shape 1 j.
Proof.
  unfold enc_transition. destruct (value_marshal (tr_value t)) as [s| |]; [|done..].
  intros [= <-]. apply JObj_shape. constructor; [apply JStr_shape|]. apply omit_shape, JStr_shape.
Qed.
Lemma enc_transition_dec t j :
  safe_value (tr_value t) -> valid_utf8 (tr_next t) ->
  enc_transition t = Ok j -> dec_transition j = Ok t /\ jvalid j.
Proof.
  unfold enc_transition. intros Hv Hn. destruct t as [[v|] nx]; cbn [tr_value tr_next value_marshal] in *; [|done].
  destruct Hv as [Hp Hu].
  intros [= <-]. split.
  - unfold dec_transition, dec_struct.
    cbn [app]. rewrite dec_field_first; [|reflexivity|solve_lacks].
    apply value_roundtrip in Hp.
    assert (Hdv : dec_jvalue (JStr (valuable_text v)) = Ok (Some v)) by (unfold dec_jvalue, dec_text; by rewrite Hp).
    rewrite Hdv. cbn [res_bind].
    rewrite dec_field_second; [|vm_compute; discriminate|reflexivity].
    case_bool_decide as E; [by subst|done].
  - apply JObj_valid. constructor; [split; [by apply lit_valid|done]|].
    apply omit_valid; [by apply lit_valid|done].
Qed.

(** Transition sets. *)
Lemma channel_roundtrip c : safe_channel c -> channel_unmarshal (channel_marshal c) = Ok c /\ valid_utf8 (channel_marshal c).
Proof.
  intros Hc. pose proof Hc as (Hk & Hn & Hu).
  assert (He : safe_event (Event c None)) by done.
  pose proof (safe_event_roundtrip _ He) as H. pose proof (event_marshal_valid _ He) as Hv.
  split; [|done]. change (event_marshal (Event c None)) with (channel_marshal c) in H.
  unfold channel_unmarshal. unfold event_unmarshal in H.
  destruct (channel_unmarshal_rem (channel_marshal c)) as [[c' [v|]]| |]; cbn in *; [|naive_solver..].
  inversion H as [[H1 H2]]. subst. unfold value_unmarshal in H2. by destruct (parse_int _).
Qed.

Lemma enc_tset_ok ts : is_ok (enc_tset ts) <-> forall t, t ∈ ts_trans ts -> tr_value t <> None.
Proof.
  unfold enc_tset. split.
  - intros [j (trs & H & _)%res_bind_Ok] t Ht. apply enc_transition_ok.
    assert (Ho : is_ok (res_map enc_transition (ts_trans ts))) by by eexists.
    rewrite res_map_ok_iff in Ho. by apply Ho.
  - intros H. assert (Ho : is_ok (res_map enc_transition (ts_trans ts))).
    { apply res_map_ok_iff. intros t Ht. by apply enc_transition_ok, H. }
    destruct Ho as [trs ->]. by eexists.
Qed.
Lemma enc_tset_shape ts j : enc_tset ts = Ok j -> shape 3 j.
Proof.
  unfold enc_tset. intros (trs & H & [= <-])%res_bind_Ok.
  apply JObj_shape. constructor; [apply JStr_shape|]. apply omit_shape, JArr_shape.
  eapply res_map_shape; [apply enc_transition_shape|done].
Qed.
Lemma enc_tset_dec ts j :
  safe_channel (ts_chan ts) ->
  (forall t, t ∈ ts_trans ts -> safe_value (tr_value t) /\ valid_utf8 (tr_next t)) ->
  enc_tset ts = Ok j -> dec_tset j = Ok ts /\ jvalid j.
Proof.
  unfold enc_tset. intros Hc Ht (trs & H & [= <-])%res_bind_Ok.
  apply (res_map_dec _ dec_transition) in H as [Hd Hv].
  2: { intros t j' Hin He. apply enc_transition_dec; [by apply Ht..|done]. }
  destruct (channel_roundtrip _ Hc) as [Hcr Hcv].
  split.
  - unfold dec_tset, dec_struct.
    cbn [app]. rewrite dec_field_first; [|reflexivity|solve_lacks].
    cbn [dec_text]. rewrite Hcr. cbn [of_event_res res_bind].
    rewrite dec_field_second; [|vm_compute; discriminate|reflexivity].
    destruct ts as [c tr]. cbn [ts_chan ts_trans] in *.
    case_bool_decide as E.
    + subst. cbn in Hd. injection Hd as <-. done.
    + cbn [dec_list]. by rewrite Hd.
  - apply JObj_valid. constructor; [split; [by apply lit_valid|done]|].
    apply omit_valid; [by apply lit_valid|]. by apply JArr_valid.
Qed.

(** Verdicts and sets. *)
Lemma enc_verdict_shape v : shape 1 (enc_verdict v).
Proof.
  split; [by apply enc_map_no_num|]. apply enc_map_depth_le. intros; cbn; lia.
Qed.
Lemma dec_enc_verdict (v : verdict) :
  (forall t o, v !! t = Some o -> valid_outcome o) -> dec_verdict (enc_verdict v) = Ok v.
Proof.
  intros Hv. unfold dec_verdict, enc_verdict.
  assert (H : dec_map dec_string (enc_map (fun o => JStr (outcome_string o)) v) = Ok (outcome_string <$> v)).
  { by apply dec_map_fmap. }
  rewrite H. cbn [res_bind].
  assert (Hb : forallb (fun kv => bool_decide (is_Some (parse_outcome kv.2))) (map_to_list (outcome_string <$> v)) = true).
  { apply forallb_forall. intros [k s] Hin%elem_of_list_In%elem_of_map_to_list. cbn.
    rewrite lookup_fmap in Hin. apply fmap_Some in Hin as (o & Ho & ->).
    apply bool_decide_eq_true_2. rewrite outcome_roundtrip by by eapply Hv. by eexists. }
  rewrite Hb. f_equal. apply map_eq. intros k. rewrite lookup_omap, lookup_fmap.
  destruct (v !! k) as [o|] eqn:E; [|done]. cbn. apply outcome_roundtrip. by eapply Hv.
Qed.

Lemma dec_enc_set order : dec_set (enc_set order) = Ok (list_to_set order).
Proof. unfold dec_set, enc_set. cbn [dec_list]. by rewrite res_map_id. Qed.

(** States. *)
Lemma enc_state_ok s : is_ok (enc_state s) <->
  forall ts t, ts ∈ st_tsets s -> t ∈ ts_trans ts -> tr_value t <> None.
Proof.
  unfold enc_state. split.
  - intros [j (tss & H & _)%res_bind_Ok] ts t Hts.
    assert (Ho : is_ok (res_map enc_tset (st_tsets s))) by by eexists.
    rewrite res_map_ok_iff in Ho. specialize (Ho _ Hts). rewrite enc_tset_ok in Ho. by apply Ho.
  - intros H. assert (Ho : is_ok (res_map enc_tset (st_tsets s))).
    { apply res_map_ok_iff. intros ts Hts. apply enc_tset_ok. intros t. by apply H. }
    destruct Ho as [tss ->]. by eexists.
Qed.
Lemma enc_state_shape s j : enc_state s = Ok j -> shape 5 j.
Proof.
  unfold enc_state. intros (tss & H & [= <-])%res_bind_Ok.
  apply JObj_shape. constructor; [apply JStr_shape|]. apply Forall_app_2.
  - apply omit_shape, JArr_shape. eapply res_map_shape; [apply enc_tset_shape|done].
  - constructor; [|constructor]. eapply shape_mono; [apply enc_verdict_shape|lia].
Qed.
Lemma enc_state_dec s j : safe_state s -> enc_state s = Ok j ->
  dec_state j = Ok (raw_state s) /\ jvalid j.
Proof.
  unfold enc_state. intros (Hid & Hts & Hve) (tss & H & ->%Ok_inj)%res_bind_Ok.
  apply (res_map_dec _ dec_tset) in H as [Hd Hv].
  2: { intros ts j' Hin He. destruct (Hts _ Hin) as [Hc Ht]. by apply enc_tset_dec. }
  split.
  - unfold dec_state, dec_struct. cbn [app].
    rewrite dec_field_first; [|reflexivity|solve_lacks]. cbn [dec_string res_bind].
    assert (H1 : dec_field "transitionSets" (dec_list dec_tset) []
      ((lit "id", JStr (st_id s)) :: omit (bool_decide (tss = [])) "transitionSets" (JArr tss) ++
        [(lit "verdicts", enc_verdict (st_verdict s))]) = Ok (st_tsets s)).
    { etrans; [apply (dec_field_omit _ _ _ [(lit "id", JStr (st_id s))]); [solve_lacks|reflexivity|solve_lacks]|].
      case_bool_decide as E; [|done]. subst. cbn in Hd. by injection Hd as <-. }
    rewrite H1. cbn [res_bind].
    assert (H2 : dec_field "verdicts" (dec_ptr dec_verdict) None
      ((lit "id", JStr (st_id s)) :: omit (bool_decide (tss = [])) "transitionSets" (JArr tss) ++
        [(lit "verdicts", enc_verdict (st_verdict s))]) = Ok (Some (st_verdict s))).
    { etrans; [apply (dec_field_here _ _ _ ((lit "id", JStr (st_id s)) ::
        omit (bool_decide (tss = [])) "transitionSets" (JArr tss))); [solve_lacks|reflexivity|solve_lacks]|].
      unfold dec_ptr. rewrite dec_enc_verdict; [done|]. intros t o Ho. by apply (Hve t o). }
    rewrite H2. done.
  - apply JObj_valid. constructor; [split; [by apply lit_valid|done]|].
    apply Forall_app_2; [apply omit_valid; [by apply lit_valid|by apply JArr_valid]|].
    constructor; [|constructor]. split; [by apply lit_valid|].
    apply enc_map_valid. intros k o Ho. destruct (Hve _ _ Ho). split; [done|]. by apply outcome_valid.
Qed.

(** Maps with fallible elements. *)
Lemma enc_map_res_ok {A} (enc : gostr -> A -> wres json) (m : gmap gostr A) :
  is_ok (enc_map_res enc m) <-> forall k a, m !! k = Some a -> is_ok (enc k a).
Proof.
  unfold enc_map_res. split.
  - intros [j (l & H & _)%res_bind_Ok] k a Hk.
    match type of H with ?r = _ => assert (Ho : is_ok r) by by eexists end.
    rewrite res_map_ok_iff in Ho. destruct (Ho (k, a)) as [[? j'] (j'' & Hj & _)%res_bind_Ok].
    + by apply range_map_elem.
    + by eexists.
  - intros H.
    assert (Ho : is_ok (res_map (fun kv => res_bind (enc kv.1 kv.2) (fun j => Ok (kv.1, j))) (range_map m))).
    { apply res_map_ok_iff. intros [k a] Hin%range_map_elem. destruct (H _ _ Hin) as [j Hj].
      cbn. rewrite Hj. by eexists. }
    destruct Ho as [l ->]. by eexists.
Qed.
Lemma enc_map_res_F2 {A} (enc : gostr -> A -> wres json) (m : gmap gostr A) j :
  enc_map_res enc m = Ok j -> exists kjs, j = JObj kjs /\
    Forall2 (fun kv kj => kj.1 = kv.1 /\ enc kv.1 kv.2 = Ok kj.2) (range_map m) kjs.
Proof.
  unfold enc_map_res. intros (l & H%res_map_inv & ->%Ok_inj)%res_bind_Ok. exists l. split; [done|].
  eapply Forall2_impl; [exact H|]. intros [k a] [k' j] (j' & Hj & [= <- <-])%res_bind_Ok. done.
Qed.
Lemma enc_map_res_shape {A} (enc : gostr -> A -> wres json) d (m : gmap gostr A) j :
  (forall k a j, enc k a = Ok j -> shape d j) -> enc_map_res enc m = Ok j -> shape (S d) j.
Proof.
  intros He (kjs & -> & H)%enc_map_res_F2. apply JObj_shape. apply Forall_forall. intros kj Hkj.
  apply elem_of_list_lookup in Hkj as [i Hi].
  eapply Forall2_lookup_r in H as (x & _ & _ & Hx); [|done]. by eapply He.
Qed.
Lemma enc_map_res_dec {A B} (enc : gostr -> A -> wres json) (dec : json -> jres B) (g : A -> B)
    (m : gmap gostr A) j :
  (forall k a j, m !! k = Some a -> enc k a = Ok j -> dec j = Ok (g a) /\ jvalid j /\ valid_utf8 k) ->
  enc_map_res enc m = Ok j -> dec_map dec j = Ok (g <$> m) /\ jvalid j.
Proof.
  intros He (kjs & -> & H)%enc_map_res_F2. split.
  - apply dec_map_F2. apply Forall2_same_length_lookup in H as [Hl H].
    apply Forall2_same_length_lookup. split; [done|]. intros i [k a] [k' j] Hx Hy.
    specialize (H i _ _ Hx Hy) as [H1 H2]. cbn in *. split; [done|].
    apply elem_of_list_lookup_2, range_map_elem in Hx. by eapply He.
  - apply JObj_valid. apply Forall_forall. intros [k' j] Hkj.
    apply elem_of_list_lookup in Hkj as [i Hi].
    eapply Forall2_lookup_r in H as ([k a] & Hx & Hk & Hj); [|done]. cbn in *. subst k'.
    apply elem_of_list_lookup_2, range_map_elem in Hx.
    destruct (He _ _ _ Hx Hj) as (_ & ? & ?). done.
Qed.

(** Types. *)
Lemma enc_types_ok ts : is_ok (enc_types ts) <-> forall c t, ts !! c = Some t -> is_Some (ty_string t).
Proof.
  unfold enc_types. rewrite enc_map_res_ok. split; intros H c t Hc; specialize (H c t Hc).
  - destruct (ty_string t); [by eexists|]. by destruct H.
  - destruct H as [s ->]. by eexists.
Qed.
Lemma enc_types_shape ts j : enc_types ts = Ok j -> shape 1 j.
Proof.
  apply enc_map_res_shape. intros _ t j'. destruct (ty_string t); [|done]. intros [= <-]. apply JStr_shape.
Qed.
Lemma type_roundtrip t s : t ∈ basic_types -> ty_string t = Some s -> parse_type s = Some t /\ valid_utf8 s.
Proof.
  intros Ht. unfold basic_types in Ht.
  repeat (apply elem_of_cons in Ht as [->|Ht]);
    [intros [= <-]; split; [reflexivity|by apply lit_valid].. |by apply elem_of_nil in Ht].
Qed.
Lemma enc_types_dec ts j : safe_types ts -> enc_types ts = Ok j ->
  dec_types j = Ok (Some <$> ts) /\ jvalid j.
Proof.
  intros Hs. apply enc_map_res_dec. intros c t j' Hc. destruct (Hs _ _ Hc) as [Hu Ht].
  destruct (ty_string t) as [s|] eqn:E; [|done]. intros [= <-].
  destruct (type_roundtrip _ _ Ht E) as [Hp Hv]. split_and!; [|done|done].
  unfold dec_ptr, dec_text. by rewrite Hp.
Qed.

(** Machines. *)
Lemma enc_stm_ok order m : is_ok (enc_stm order m) <->
  valued_stm m /\ forall c t, m_types m !! c = Some t -> is_Some (ty_string t).
Proof.
  unfold enc_stm. rewrite <- enc_types_ok. split.
  - intros [j (sts & H1 & (tys & H2 & _)%res_bind_Ok)%res_bind_Ok]. split; [|by eexists].
    assert (Ho : is_ok (res_map enc_state (m_states m))) by by eexists.
    rewrite res_map_ok_iff in Ho. intros s ts t Hs Hts Ht.
    specialize (Ho _ Hs). rewrite enc_state_ok in Ho. by eapply Ho.
  - intros [Hv [tys Htys]].
    assert (Ho : is_ok (res_map enc_state (m_states m))).
    { apply res_map_ok_iff. intros s Hs. apply enc_state_ok. intros ts t. by apply Hv. }
    destruct Ho as [sts ->]. cbn. rewrite Htys. by eexists.
Qed.
Lemma enc_stm_shape order m j : enc_stm order m = Ok j -> shape 7 j.
Proof.
  unfold enc_stm. intros (sts & H1 & (tys & H2 & ->%Ok_inj)%res_bind_Ok)%res_bind_Ok.
  apply JObj_shape. repeat apply Forall_cons_2; [..|constructor].
  - apply JArr_shape. eapply res_map_shape; [apply enc_state_shape|done].
  - eapply shape_mono; [by eapply enc_types_shape|lia].
  - apply (strs_shape 5).
Qed.

Lemma res_map_dec_raw {A B} (f : A -> wres json) (dec : json -> jres B) (g : A -> B) l js :
  (forall x j, x ∈ l -> f x = Ok j -> dec j = Ok (g x) /\ jvalid j) ->
  res_map f l = Ok js -> res_map dec js = Ok (map g l) /\ Forall jvalid js.
Proof.
  intros Hf H%res_map_inv. induction H as [|x j l js Hx H IH]; [done|].
  destruct (Hf x j) as [Hd Hv]; [apply elem_of_list_here|done|].
  destruct IH as [IHd IHv]; [intros; apply Hf; [by apply elem_of_list_further|done]|].
  split; [|by constructor]. cbn. by rewrite Hd, IHd.
Qed.

Lemma dec_ptr_ok {A} (dec : json -> jres A) kvs a : dec (JObj kvs) = Ok a -> dec_ptr dec (JObj kvs) = Ok (Some a).
Proof. intros H. unfold dec_ptr. by rewrite H. Qed.

Lemma enc_stm_dec order m j : safe_stm m -> order ≡ₚ elements (m_tests m) -> enc_stm order m = Ok j ->
  dec_ptr dec_stm j = Ok (Some (raw_stm m)) /\ jvalid j.
Proof.
  unfold enc_stm. intros (Hst & Hty & Hte) Hor (sts & H1 & (tys & H2 & ->%Ok_inj)%res_bind_Ok)%res_bind_Ok.
  apply (res_map_dec_raw _ (dec_ptr dec_state) (fun s => Some (raw_state s))) in H1 as [Hd Hv].
  2: { intros s j' Hin He. destruct (enc_state_dec s j') as [Hx Hy]; [by apply Hst|done|].
       split; [|done]. unfold enc_state in He.
       apply res_bind_Ok in He as (? & _ & ->%Ok_inj). by apply dec_ptr_ok. }
  apply enc_types_dec in H2 as [Hdt Hvt]; [|done].
  split.
  - apply dec_ptr_ok. unfold dec_stm, dec_struct.
    rewrite dec_field_first; [|reflexivity|solve_lacks]. cbn [dec_list]. rewrite Hd. cbn [res_bind].
    assert (H2 : forall f dec (zero : gmap gostr (option rstype)) a, fold_key f = fold_key (lit "types") ->
        dec tys = Ok a -> dec_field f dec zero
      [(lit "states", JArr sts); (lit "types", tys); (lit "tests", enc_set order)] = Ok a).
    { intros f dec zero a Hf Ha. etrans; [apply (dec_field_here _ _ _ [(lit "states", JArr sts)])|exact Ha].
      - constructor; [rewrite Hf; vm_compute; discriminate|constructor].
      - by rewrite Hf.
      - constructor; [rewrite Hf; vm_compute; discriminate|constructor]. }
    etrans; [apply (f_equal (fun r => res_bind r _)); apply H2; [reflexivity|exact Hdt]|]. cbn [res_bind].
    etrans; [apply (f_equal (fun r => res_bind r _));
      apply (dec_field_here _ _ _ [(lit "states", JArr sts); (lit "types", tys)]);
        [solve_lacks|reflexivity|solve_lacks]|].
    rewrite dec_enc_set. cbn [res_bind]. unfold raw_stm. do 2 f_equal.
    rewrite Hor. apply list_to_set_elements_L.
  - apply JObj_valid. repeat apply Forall_cons_2; [..|constructor]; (split; [by apply lit_valid|]).
    + by apply JArr_valid.
    + done.
    + apply strs_valid. apply Forall_forall. intros t Ht. apply Hte. rewrite Hor in Ht.
      by apply elem_of_elements.
Qed.

(** Suites. *)
Definition printable_types (s : stm_suite) : Prop :=
  (forall c t, su_types s !! c = Some t -> is_Some (ty_string t)) /\
  (forall k m c t, su_tests s !! k = Some m -> m_types m !! c = Some t -> is_Some (ty_string t)).

Lemma enc_stm_suite_ok orders s : is_ok (enc_stm_suite orders s) <->
  valued_stm_suite s /\ printable_types s.
Proof.
  unfold enc_stm_suite, printable_types, valued_stm_suite. rewrite <- enc_types_ok.
  assert (Hm : is_ok (enc_map_res (fun k m => enc_stm (orders k) m) (su_tests s)) <->
    (forall k m, su_tests s !! k = Some m -> valued_stm m) /\
    (forall k m c t, su_tests s !! k = Some m -> m_types m !! c = Some t -> is_Some (ty_string t))).
  { rewrite enc_map_res_ok. setoid_rewrite enc_stm_ok. naive_solver. }
  split.
  - intros [j (tys & H1 & (ts & H2 & _)%res_bind_Ok)%res_bind_Ok].
    assert (Ho : is_ok (enc_map_res (fun k m => enc_stm (orders k) m) (su_tests s))) by by eexists.
    apply Hm in Ho as [? ?]. split_and!; [done|by eexists|done].
  - intros (H1 & [tys Ht] & H2). destruct (proj2 Hm (conj H1 H2)) as [ts Hts].
    rewrite Ht. cbn [res_bind]. rewrite Hts. by eexists.
Qed.
Lemma enc_stm_suite_shape orders s j : enc_stm_suite orders s = Ok j -> shape 9 j.
Proof.
  unfold enc_stm_suite. intros (tys & H1 & (ts & H2 & ->%Ok_inj)%res_bind_Ok)%res_bind_Ok.
  apply JObj_shape, Forall_app_2; apply omit_shape.
  - eapply shape_mono; [by eapply enc_types_shape|lia].
  - eapply enc_map_res_shape; [|exact H2]. intros k m j. apply enc_stm_shape.
Qed.
Lemma enc_stm_suite_dec orders s j : safe_stm_suite s -> set_orders s orders ->
  enc_stm_suite orders s = Ok j -> dec_stm_suite j = Ok (raw_suite s) /\ jvalid j.
Proof.
  unfold enc_stm_suite. intros [Hty Hte] Hor (tys & H1 & (ts & H2 & ->%Ok_inj)%res_bind_Ok)%res_bind_Ok.
  apply enc_types_dec in H1 as [Hdt Hvt]; [|done].
  apply (enc_map_res_dec _ (dec_ptr dec_stm) (fun m => Some (raw_stm m))) in H2 as [Hdm Hvm].
  2: { intros k m j Hk Hj. destruct (Hte _ _ Hk) as [Hku Hm].
       destruct (enc_stm_dec _ _ _ Hm (Hor _ _ Hk) Hj). done. }
  split.
  - unfold dec_stm_suite, dec_struct.
    assert (Ha : dec_field "types" dec_types ∅ (omit (bool_decide (su_types s = ∅)) "types" tys ++
      omit (bool_decide (su_tests s = ∅)) "tests" ts) = Ok (Some <$> su_types s)).
    { etrans; [apply (dec_field_omit _ _ _ []); [solve_lacks|reflexivity|solve_lacks]|].
      case_bool_decide as E; [|done]. by rewrite E, fmap_empty. }
    rewrite Ha. cbn [res_bind].
    assert (Hb : dec_field "tests" (dec_map (dec_ptr dec_stm)) ∅ (omit (bool_decide (su_types s = ∅)) "types" tys ++
      omit (bool_decide (su_tests s = ∅)) "tests" ts) = Ok ((fun m => Some (raw_stm m)) <$> su_tests s)).
    { clear Ha. rewrite <- (app_nil_r (omit (bool_decide (su_tests s = ∅)) _ _)).
      rewrite dec_field_omit; [|solve_lacks|reflexivity|solve_lacks].
      case_bool_decide as E; [|done]. by rewrite E, fmap_empty. }
    rewrite Hb. done.
  - apply JObj_valid, Forall_app_2; apply omit_valid; try done; by apply lit_valid.
Qed.

Lemma nine_le_max : 9 <= max_depth.
Proof. unfold max_depth. lia. Qed.

Theorem write_stm_suite_ok orders s :
  is_ok (write_stm_suite orders s) <-> valued_stm_suite s /\ printable_types s.
Proof.
  rewrite <- enc_stm_suite_ok with (orders := orders). unfold write_stm_suite.
  destruct (enc_stm_suite orders s) as [j| |] eqn:E; cbn; [|by split; intros [? ?]..].
  split; [by eexists|]. intros _. apply enc_stm_suite_shape in E as [_ E].
  unfold write_doc. rewrite (proj2 (Nat.leb_le _ _)) by (pose proof nine_le_max; lia). by eexists.
Qed.

Theorem stm_suite_roundtrip orders s text :
  safe_stm_suite s -> set_orders s orders -> write_stm_suite orders s = Ok text ->
  read_stm_suite text = Ok (raw_suite s).
Proof.
  unfold write_stm_suite. intros Hs Hor (j & Hj & Hw)%res_bind_Ok.
  destruct (write_doc j) as [t|] eqn:E; [|done]. injection Hw as <-.
  destruct (enc_stm_suite_dec _ _ _ Hs Hor Hj) as [Hd Hv].
  apply enc_stm_suite_shape in Hj as [Hn _].
  unfold read_stm_suite. rewrite (read_write_doc _ _ Hn E), jcoerce_valid by done. by apply m_stm_suite_ok.
Qed.
