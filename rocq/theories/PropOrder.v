(** * Property C79: written files list things in order *)
From Verif Require Export SpecOrder PropJson PropBuild PropHeader.
From Verif Require Export StmProofs.

Lemma str_leb_refl a : str_leb a a = true.
Proof. induction a as [|x a IH]; [done|]. cbn. by rewrite N.ltb_irrefl. Qed.
Lemma str_leb_total a b : str_leb a b = true \/ str_leb b a = true.
Proof.
  revert b. induction a as [|x a IH]; intros [|y b]; cbn; try by (left + right).
  destruct (N.ltb_spec (code x) (code y)); [by left|]. destruct (N.ltb_spec (code y) (code x)); [by right|]. apply IH.
Qed.
Lemma code_inj a b : code a = code b -> a = b.
Proof. unfold code. intros H. apply (f_equal ascii_of_N) in H. by rewrite !ascii_N_embedding in H. Qed.
Lemma str_leb_before a b : str_leb a b = true -> a = b \/ before a b.
Proof.
  revert b. induction a as [|x a IH]; intros [|y b]; cbn; intros H; [by left|right; left; by exists y, b|done|].
  destruct (N.ltb_spec (code x) (code y)) as [Hlt|Hge]; [right; right; by exists [], x, a, y, b|].
  destruct (N.ltb_spec (code y) (code x)) as [Hlt'|Hge']; [done|]. assert (x = y) as <- by (apply code_inj; lia).
  destruct (IH b H) as [->|[(c & r & ->)|(p & u & r & v & t & -> & -> & Hl)]]; [by left|right; left; by exists c, r|right; right; by exists (x :: p), u, r, v, t].
Qed.
Lemma str_leb_trans a b c : str_leb a b = true -> str_leb b c = true -> str_leb a c = true.
Proof.
  revert b c. induction a as [|x a IH]; intros [|y b] [|z c]; cbn; try done.
  destruct (N.ltb_spec (code x) (code y)), (N.ltb_spec (code y) (code z)), (N.ltb_spec (code x) (code z)); try done; try lia;
  destruct (N.ltb_spec (code y) (code x)), (N.ltb_spec (code z) (code y)), (N.ltb_spec (code z) (code x)); try done; try lia. apply IH.
Qed.
Lemma sorted_ascending (l : list gostr) : StronglySorted (fun a b => str_leb a b = true) l -> NoDup l -> ascending l.
Proof.
  intros Hs Hnd i j a b Hij Hi Hj. assert (Hle : str_leb a b = true).
  { revert i j Hij Hi Hj. induction Hs as [|x l Hs IH Hx]; intros i j Hij Hi Hj; [done|]. apply NoDup_cons in Hnd as [_ Hnd].
    destruct j as [|j]; [lia|]. cbn in Hj. destruct i as [|i]; cbn in Hi; [injection Hi as <-; rewrite Forall_forall in Hx; apply Hx; by eapply elem_of_list_lookup_2|].
    eapply (IH Hnd i j); [lia|done|done]. }
  destruct (str_leb_before a b Hle) as [<-|H]; [|done]. pose proof (NoDup_lookup l i j a Hnd Hi Hj). lia.
Qed.
Lemma range_map_ascending {A} (m : gmap gostr A) : ascending (map fst (range_map m)).
Proof.
  apply sorted_ascending; [|apply CodecProofs.range_map_nodup].
  assert (Htr : Transitive (@key_le A)) by (intros x y z; apply str_leb_trans). assert (Hto : Total (@key_le A)) by (intros x y; apply str_leb_total).
  pose proof (StronglySorted_merge_sort (key_le (A := A)) (map_to_list m)) as H. fold (range_map m) in H. clear Htr Hto.
  induction H as [|x l H IH Hx]; cbn; constructor; [done|]. apply List.Forall_forall. intros k (y & <- & Hy)%in_map_iff. apply (proj1 (List.Forall_forall _ _) Hx y Hy).
Qed.
Lemma names_ascending (X : gset gostr) : ascending (sorted_names X).
Proof.
  apply sorted_ascending; [|apply NoDup_sorted_names].
  assert (Htr : Transitive name_le) by (intros x y z; apply str_leb_trans). assert (Hto : Total name_le) by (intros x y; apply str_leb_total).
  exact (StronglySorted_merge_sort name_le (elements X)).
Qed.

(** ** JSON *)
Definition ascending_keys (j : json) : Prop := match j with JObj l => ascending (map fst l) | _ => False end.
Lemma enc_map_ascending {A} (enc : A -> json) m : ascending_keys (enc_map enc m).
Proof. cbn. rewrite map_map. cbn. apply range_map_ascending. Qed.
Lemma enc_map_res_ascending {A} (enc : gostr -> A -> wres json) m j : enc_map_res enc m = Ok j -> ascending_keys j.
Proof.
  intros (l & -> & H)%enc_map_res_F2. cbn. replace (map fst l) with (map fst (range_map m)); [apply range_map_ascending|].
  induction H as [|x y l l' [Hk _] _ IH]; [done|]. cbn. by rewrite Hk, IH.
Qed.
Lemma at_nil j w : at_path j [] w -> w = j.
Proof. inversion 1. done. Qed.
Lemma at_key_inv j k p w : at_path j (Key k :: p) w -> exists l v, j = JObj l /\ (k, v) ∈ l /\ at_path v p w.
Proof. inversion 1; subst. by eexists _, _. Qed.
Lemma at_item_inv j i p w : at_path j (Item i :: p) w -> exists l v, j = JArr l /\ l !! i = Some v /\ at_path v p w.
Proof. inversion 1; subst. by eexists _, _. Qed.
Lemma omit_elem b k v k' v' : (k', v') ∈ omit b k v -> k' = k /\ v' = v.
Proof. unfold omit. destruct b; [intros H; by apply elem_of_nil in H|]. intros H. apply elem_of_list_singleton in H. by injection H as -> ->. Qed.
(** The document that rtcg-read-traces writes lists the tests in order of their names. *)
Theorem C79_tests : forall s text, safe_suite s -> write_suite s = Some text ->
  exists l, read_doc text = Some (JObj l) /\ ascending (map fst l) /\ forall k, k ∈ map fst l <-> k ∈ dom s.
Proof.
  intros s text Hs Hw. assert (Hv : jvalid (enc_map enc_node_ptr s)).
  { apply enc_map_valid. intros k n Hk. destruct (Hs k n Hk) as [? Hn]. split; [done|]. destruct n; [by apply enc_node_valid|done]. }
  assert (Hnn : no_num (enc_map enc_node_ptr s)) by (apply enc_map_no_num; intros [n|]; [apply enc_node_no_num|done]).
  eexists. split; [rewrite (read_write_doc _ _ Hnn Hw), jcoerce_valid by done; reflexivity|]. split; [apply (enc_map_ascending enc_node_ptr s)|].
  intros k. rewrite map_map, elem_of_dom. cbn. rewrite elem_of_list_fmap. split.
  - intros ([k' n] & -> & H). apply CodecProofs.range_map_elem in H. by exists n.
  - intros [n H]. exists (k, n). split; [done|]. by apply CodecProofs.range_map_elem.
Qed.
Print Assumptions C79_tests.
(** The one rtcg-make-stms writes has its tests, types and verdicts in order. *)
Inductive map_path : list step -> Prop :=
  | mp_types : map_path [Key (lit "types")]
  | mp_tests : map_path [Key (lit "tests")]
  | mp_stm_types t : map_path [Key (lit "tests"); Key t; Key (lit "types")]
  | mp_verdicts t i : map_path [Key (lit "tests"); Key t; Key (lit "states"); Item i; Key (lit "verdicts")].
Theorem C79_machines : forall orders s text, safe_stm_suite s -> set_orders s orders -> write_stm_suite orders s = Ok text ->
  exists j, read_doc text = Some j /\ forall p w, map_path p -> at_path j p w -> exists l, w = JObj l /\ ascending (map fst l).
Proof.
  unfold write_stm_suite. intros orders s text Hs Hor (j & Hj & Hw)%res_bind_Ok. destruct (write_doc j) as [t|] eqn:E; [|done]. injection Hw as <-.
  destruct (enc_stm_suite_dec _ _ _ Hs Hor Hj) as [_ Hv]. destruct (enc_stm_suite_shape _ _ _ Hj) as [Hn _].
  exists j. split; [rewrite (read_write_doc _ _ Hn E); by rewrite jcoerce_valid|]. clear Hv Hn E.
  enough (Hall : forall p w, map_path p -> at_path j p w -> ascending_keys w).
  { intros p w Hp Hw. specialize (Hall p w Hp Hw). destruct w; try done. by eexists. }
  unfold enc_stm_suite in Hj. apply res_bind_Ok in Hj as (tys & Hty & (ts & Hts & ->%Ok_inj)%res_bind_Ok).
  assert (Htests : forall v, at_path (JObj (omit (bool_decide (su_types s = ∅)) "types" tys ++ omit (bool_decide (su_tests s = ∅)) "tests" ts)) [Key (lit "tests")] v -> v = ts).
  { intros v (l & v' & [= <-] & Hin & ->%at_nil)%at_key_inv. apply elem_of_app in Hin as [[E _]%omit_elem|[_ ->]%omit_elem]; [discriminate E|done]. }
  assert (Hstm : forall t k w, at_path (JObj (omit (bool_decide (su_types s = ∅)) "types" tys ++ omit (bool_decide (su_tests s = ∅)) "tests" ts)) (Key (lit "tests") :: Key t :: k) w ->
    exists m js, enc_stm (orders t) m = Ok js /\ at_path js k w).
  { intros t' k w (l & v & El & Hin & H)%at_key_inv. assert (v = ts) as -> by (apply Htests; rewrite El; by apply at_key with v; [|constructor]).
    apply at_key_inv in H as (l' & v & -> & Hin' & H). apply enc_map_res_F2 in Hts as (kjs & [= <-] & HF). apply elem_of_list_lookup in Hin' as [i Hi].
    eapply Forall2_lookup_r in HF as ([k0 m] & _ & Hk & He); [|done]. cbn [fst snd] in *. subst k0. by exists m, v. }
  intros p w [| |t'|t' i] Hp.
  - apply at_key_inv in Hp as (l & v & [= <-] & Hin & ->%at_nil). apply elem_of_app in Hin as [[_ ->]%omit_elem|[E _]%omit_elem]; [|discriminate E]. by eapply enc_map_res_ascending.
  - apply Htests in Hp as ->. by eapply enc_map_res_ascending.
  - apply Hstm in Hp as (m & js & He & Hp). unfold enc_stm in He. apply res_bind_Ok in He as (sts & _ & (tys' & Ht & ->%Ok_inj)%res_bind_Ok).
    apply at_key_inv in Hp as (l & v & [= <-] & Hin & ->%at_nil). rewrite !elem_of_cons, elem_of_nil in Hin. destruct Hin as [[= ?]|[[= ->]|[[= ?]|[]]]]. by eapply enc_map_res_ascending.
  - apply Hstm in Hp as (m & js & He & Hp). unfold enc_stm in He. apply res_bind_Ok in He as (sts & Hsts & (tys' & _ & ->%Ok_inj)%res_bind_Ok).
    apply at_key_inv in Hp as (l & v & [= <-] & Hin & Hp). rewrite !elem_of_cons, elem_of_nil in Hin. destruct Hin as [[= ->]|[[= ? ?]|[[= ? ?]|[]]]].
    apply at_item_inv in Hp as (l & st & [= <-] & Hst & Hp). apply res_map_inv in Hsts. eapply Forall2_lookup_r in Hsts as (x & _ & Hx); [|done].
    unfold enc_state in Hx. apply res_bind_Ok in Hx as (tss & _ & ->%Ok_inj). apply at_key_inv in Hp as (l & v & [= <-] & Hin & ->%at_nil).
    rewrite !elem_of_cons, elem_of_app, elem_of_cons, elem_of_nil in Hin. destruct Hin as [[= ? ?]|[[Hk _]%omit_elem|[[= ->]|[]]]]; [discriminate Hk|]. apply enc_map_ascending.
Qed.
Print Assumptions C79_machines.

(** ** Generated files *)
(** The Makefile lists the tests in order of their names. *)
Theorem C79_makefile : forall (tests : gset gostr) conv, (forall t, t ∈ tests -> plain_word t) ->
  exists mf all names, read_makefile (makefile_text tests conv) = Some mf /\ rule_for mf (lit "all") = Some all /\
    ru_prereqs all = lit "mkdir" :: map test_target names /\ ascending names /\ forall t, t ∈ names <-> t ∈ tests.
Proof.
  intros tests conv H. exists (the_makefile conv (sorted_names tests)). eexists _, (sorted_names tests). split; [by apply read_makefile_text|]. split; [reflexivity|]. split; [reflexivity|].
  split; [apply names_ascending|]. intros t. apply elem_of_sorted_names.
Qed.
Print Assumptions C79_makefile.
(** convert.h declares the channels in order of their names. *)
Theorem C79_header : forall v ctx, readable ctx -> exists is names, read_header (convert_text v ctx) = Some is /\
  map fst (macros is) = lit "CONVERT_H_DEFINED" :: map (fun n => upcase_first n ++ lit "Val") names ++ map (fun n => upcase_first n ++ lit "Msg") names /\
  functions is = map (fun n => lit "from" ++ upcase_first n) names ++ map (fun n => lit "to" ++ upcase_first n) names /\
  ascending names /\ forall n, n ∈ names <-> n ∈ dom (cx_types ctx).
Proof.
  intros v ctx Hr. exists (header_items v ctx), (map fst (range_map (cx_types ctx))). split; [by apply header_read, readable_good|]. split_and!.
  - rewrite header_macros. cbn [map]. rewrite map_app, !map_map. done.
  - rewrite header_functions, !map_map. done.
  - apply range_map_ascending.
  - intros n. rewrite elem_of_dom, elem_of_list_fmap. split.
    + intros ([k t] & -> & H). apply CodecProofs.range_map_elem in H. by exists t.
    + intros [t H]. exists (n, t). split; [done|]. by apply CodecProofs.range_map_elem.
Qed.
Print Assumptions C79_header.

(** *** Witnesses *)
Example C79_witness : ascending [lit "B"; lit "a"; lit "a1"; lit "b"] /\ ~ ascending [lit "a"; lit "B"] /\
  write_suite {[ lit "b" := None; lit "a" := None; lit "B" := None ]} = Some (lit "{" ++ [byte 10; byte 9] ++ lit """B"": null," ++ [byte 10; byte 9] ++ lit """a"": null," ++ [byte 10; byte 9] ++ lit """b"": null" ++ [byte 10] ++ lit "}" ++ [byte 10]).
Proof.
  split_and!.
  - apply sorted_ascending; [|refine (bool_decide_eq_true_1 _ _); vm_compute; reflexivity]. repeat constructor.
  - intros H. specialize (H 0 1 _ _ ltac:(lia) eq_refl eq_refl). destruct H as [(c & r & H)|(p & x & r & y & t & H1 & H2 & H3)]; [discriminate H|].
    destruct p as [|? p]; [|destruct p; discriminate H1]. injection H1 as <- _. injection H2 as <- _. vm_compute in H3. discriminate H3.
  - vm_compute. reflexivity.
Qed.
