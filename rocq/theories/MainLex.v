(** * The reader of SpecCxx.v on the text of main.cpp *)
From Verif Require Export MainAst.
From Verif Require Export StmProofs.

(** ** Names *)
Lemma not_reserved (P : gostr -> bool) s : forallb (fun k => negb (P k.1)) keywords = true -> P s = true -> reserved s = false.
Proof.
  intros H Hs. apply not_reserved_by. intros k Hk <-. pose proof (proj1 (forallb_forall _ _) H k) as Hx. cbn in Hx.
  rewrite Hs in Hx. by specialize (Hx (proj1 (elem_of_list_In _ _) Hk)).
Qed.
Definition begins (p s : gostr) : bool := bool_decide (take (length p) s = p).
Definition ends_in (p s : gostr) : bool := bool_decide (drop (length s - length p) s = p).
Lemma begins_app p s : begins p (p ++ s) = true.
Proof. apply bool_decide_eq_true. by rewrite take_app. Qed.
Lemma ends_app p s : ends_in p (s ++ p) = true.
Proof. apply bool_decide_eq_true. rewrite app_length. replace (length s + length p - length p) with (length s) by lia. by rewrite drop_app. Qed.
Definition idchars (s : gostr) : Prop := Forall (fun c => ident_char c = true) s.
Lemma upper_ident c : ident_char c = true -> ident_char (upper_c c) = true /\ is_lower (upper_c c) = false /\ (is_digit c = false -> is_digit (upper_c c) = false).
Proof. destruct c as [[] [] [] [] [] [] [] []]; vm_compute; done. Qed.
Lemma lower_ident c : ident_char c = true -> ident_char (lower_c c) = true /\ (is_digit c = false -> is_digit (lower_c c) = false).
Proof. destruct c as [[] [] [] [] [] [] [] []]; vm_compute; done. Qed.
Lemma idchars_upcase s : idchars s -> idchars (upcase_first s).
Proof. destruct s as [|c s]; [done|]. intros H. inversion H; subst. constructor; [by apply upper_ident|done]. Qed.
Lemma idchars_lower b s : idchars s -> idchars (lower_underscored b s).
Proof.
  revert b. induction s as [|c s IH]; intros b H; [constructor|]. inversion H as [|? ? Hc Hs]; subst. cbn [lower_underscored]. unfold idchars in *.
  destruct (is_upper c && b); [|destruct (Ascii.eqb c "_")]; repeat constructor; try (by apply lower_ident); by apply IH.
Qed.
Lemma ident_app a b : identifier a -> idchars b -> identifier (a ++ b).
Proof. intros [H (c & r & -> & Hc)] Hb. split; [by apply Forall_app|]. by exists c, (r ++ b). Qed.
Lemma ident_upcase_first s : identifier s -> identifier (upcase_first s).
Proof.
  intros [H (c & r & -> & Hc)]. split; [by apply (idchars_upcase (c :: r))|]. exists (upper_c c), r. split; [done|]. apply upper_ident; [by inversion H|done].
Qed.
Lemma ident_idchars s : identifier s -> idchars s.
Proof. by intros [H _]. Qed.
Lemma ident_topic s : identifier s -> identifier (topic_name s).
Proof.
  intros [H (c & r & -> & Hc)]. split; [by apply idchars_lower|]. unfold topic_name, to_lower_underscored. cbn [lower_underscored]. rewrite andb_false_r.
  inversion H; subst. destruct (Ascii.eqb c "_"); eexists _, _; (split; [reflexivity|]); [done|]. by apply lower_ident.
Qed.
Lemma plain_body w : plain_ident w -> body_ok w.
Proof. intros [[H _] _]. split_and!; intros Hin; pose proof (proj1 (Forall_forall _ _) H _ Hin) as Hx; done. Qed.
Lemma ident_body w : identifier w -> body_ok w.
Proof. intros [H _]. split_and!; intros Hin; pose proof (proj1 (Forall_forall _ _) H _ Hin) as Hx; done. Qed.
Lemma plain_state_entry s : identifier s -> plain_ident (state_entry s).
Proof.
  intros H. split; [|by apply (not_reserved (begins (lit "enter"))); [vm_compute|apply begins_app]].
  apply (ident_app (lit "enter")); [|by apply idchars_upcase, ident_idchars]. split; [repeat constructor|]. eexists _, _. by split.
Qed.
Lemma plain_enum_field s : identifier s -> plain_ident (enum_field s).
Proof.
  intros [H (c & r & -> & Hc)]. inversion H as [|? ? Hi Hr]; subst. split; [split|].
  - unfold enum_field, to_upper. apply Forall_map. eapply Forall_impl; [exact H|]. intros x Hx. by apply upper_ident.
  - exists (upper_c c), (map upper_c r). split; [done|]. by apply upper_ident.
  - apply (not_reserved (fun s => match s with c :: _ => negb (is_lower c) | [] => true end)); [by vm_compute|]. cbn. by destruct (upper_ident c Hi) as (_ & -> & _).
Qed.
Lemma plain_callback s : identifier s -> plain_ident (callback_name s).
Proof.
  intros H. split; [|by apply (not_reserved (ends_in (lit "Callback"))); [vm_compute|apply ends_app]]. apply ident_app; [done|repeat constructor].
Qed.
Lemma plain_msg s : identifier s -> plain_ident (channel_msg_type s).
Proof.
  intros H. split; [|by apply (not_reserved (ends_in (lit "Msg"))); [vm_compute|apply ends_app]]. apply ident_app; [by apply ident_upcase_first|repeat constructor].
Qed.
Lemma plain_val s : identifier s -> plain_ident (channel_value_type s).
Proof.
  intros H. split; [|by apply (not_reserved (ends_in (lit "Val"))); [vm_compute|apply ends_app]]. apply ident_app; [by apply ident_upcase_first|repeat constructor].
Qed.
Lemma plain_to s : identifier s -> plain_ident (convert_to s).
Proof.
  intros H. split; [|by apply (not_reserved (begins (lit "to"))); [vm_compute|apply begins_app]].
  apply (ident_app (lit "to")); [|by apply idchars_upcase, ident_idchars]. split; [repeat constructor|]. eexists _, _. by split.
Qed.
Lemma plain_from s : identifier s -> plain_ident (convert_from s).
Proof.
  intros H. split; [|by apply (not_reserved (begins (lit "from"))); [vm_compute|apply begins_app]].
  apply (ident_app (lit "from")); [|by apply idchars_upcase, ident_idchars]. split; [repeat constructor|]. eexists _, _. by split.
Qed.
Lemma plain_pub s : identifier s -> plain_ident (publisher_name s).
Proof.
  intros H. split; [|by apply (not_reserved (ends_in (lit "_pub"))); [vm_compute|apply ends_app]]. apply ident_app; [by apply ident_topic|repeat constructor].
Qed.
Lemma plain_sub s : identifier s -> plain_ident (subscriber_name s).
Proof.
  intros H. split; [|by apply (not_reserved (ends_in (lit "_sub"))); [vm_compute|apply ends_app]]. apply ident_app; [by apply ident_topic|repeat constructor].
Qed.
Lemma topic_body s : identifier s -> body_ok (topic_name s).
Proof. intros H. by apply ident_body, ident_topic. Qed.
Lemma type_name_body ctx c : body_ok (type_name ctx c).
Proof.
  unfold type_name. assert (Hnil : body_ok []) by (split_and!; apply not_elem_of_nil). destruct (cx_types ctx !! c) as [[t o]|]; [|done]. cbn [fst].
  unfold ty_string. repeat match goal with |- context [if ?b then _ else _] => destruct b end; try exact Hnil; split_and!; apply (bool_decide_eq_true_1 (_ ∉ _)); vm_compute; reflexivity.
Qed.
Lemma format_digits n : digits (format_N n).
Proof. destruct (format_N_spec n) as (H1 & H2 & _). by split. Qed.
Lemma digits_body w : digits w -> body_ok w.
Proof. intros [_ H]. split_and!; intros Hin; pose proof (proj1 (Forall_forall _ _) H _ Hin) as Hx; done. Qed.
Lemma body_app a b : body_ok a -> body_ok b -> body_ok (a ++ b).
Proof. intros (H1 & H2 & H3) (H4 & H5 & H6). split_and!; rewrite elem_of_app; tauto. Qed.
Lemma body_lit s : bool_decide (body_ok (lit s)) = true -> body_ok (lit s).
Proof. apply bool_decide_eq_true_1. Qed.
Lemma kind_body k : body_ok (kind_string k).
Proof.
  destruct k; [apply (bool_decide_eq_true_1 _); by vm_compute|apply (bool_decide_eq_true_1 _); by vm_compute|apply (bool_decide_eq_true_1 _); by vm_compute|].
  apply (body_app (lit "Kind(")); [apply (bool_decide_eq_true_1 _); by vm_compute|]. apply body_app; [apply digits_body, format_digits|apply (bool_decide_eq_true_1 _); by vm_compute].
Qed.
Lemma channel_body c : body_ok (ch_name c) -> body_ok (channel_string c).
Proof.
  intros H. unfold channel_string. destruct (ch_name c) as [|x n]; [apply (bool_decide_eq_true_1 _); by vm_compute|]. cbn [join].
  apply body_app; [done|]. apply body_app; [apply (bool_decide_eq_true_1 _); by vm_compute|apply kind_body].
Qed.
(** Values whose text can be put between quotes. *)
Definition text_value (w : value) : Prop := match w with Some (EnumV s) => body_ok s | Some (IntV _) => True | None => False end.
Lemma value_body w : text_value w -> body_ok (value_string_value w).
Proof.
  destruct w as [[z|s]|]; [|done|done]. intros _. cbn. unfold format_int. destruct (z <? 0)%Z; [|apply digits_body, format_digits].
  apply (body_app ["-"%char]); [apply (bool_decide_eq_true_1 _); by vm_compute|apply digits_body, format_digits].
Qed.
Global Hint Resolve plain_body ident_body plain_state_entry plain_enum_field plain_callback plain_msg plain_val plain_to plain_from plain_pub plain_sub topic_body type_name_body
  format_digits digits_body channel_body value_body : names.
Ltac open_lines := unfold log_line, log_open, log_close, info, state_enum, out_params, state_q, a_out_params;
  change (to_upper (lit "info")) with (lit "INFO"); change (to_upper (lit "error")) with (lit "ERROR").
(** Functions that make names are left alone by computations. *)
Ltac abs1 f H := try (match goal with |- context [f] => idtac end; let h := fresh in pose proof H as h; revert h; generalize f; intros ? h).
Ltac abs := abs1 enum_field plain_enum_field; abs1 state_entry plain_state_entry; abs1 callback_name plain_callback; abs1 channel_msg_type plain_msg; abs1 channel_value_type plain_val;
  abs1 convert_to plain_to; abs1 convert_from plain_from; abs1 publisher_name plain_pub; abs1 subscriber_name plain_sub; abs1 topic_name topic_body; abs1 type_name type_name_body;
  abs1 channel_string channel_body; abs1 value_string_value value_body.
Ltac lines := open_lines; abs; block.

Lemma reads_setter v t : plain_ident t -> reads (mn_setter v t) (pr_item (a_setter v t)).
Proof. intros H. destruct v; unfold mn_setter; lines. Qed.

(** Blocks with unknown tokens. *)
Ltac blocke :=
  lazymatch goal with |- reads ?ls _ =>
    let p := rfs ls in
    lazymatch type of p with rfys _ ?A =>
      let r := eval vm_compute in (pls A) in
      lazymatch r with Some ?ts => let H := fresh in assert (H : pls A = Some ts) by (vm_cast_no_check (@eq_refl _ (Some ts))); exact (block_ok _ A ts p H) end
    end
  end.
Ltac rd :=
  lazymatch goal with
  | |- reads (_ ++ _) _ => eapply reads_app; rd
  | |- reads (map _ _) _ => eapply reads_map; intros ? ?; rd
  | |- reads (concat (map _ _)) _ => eapply reads_concat; intros ? ?; rd
  | |- reads [] _ => apply reads_nil
  | |- reads (_ :: _) _ => blocke
  | |- _ => idtac
  end.
Ltac same := repeat progress (cbn [app map concat pr_item pr_stmt pr_member]; rewrite ?map_app, ?concat_app, ?map_map, ?app_nil_r, <- ?app_assoc); vm_compute; reflexivity.
Lemma reads_verdict v tests : Forall plain_ident tests -> reads (mn_verdict v tests) (concat (map pr_item (a_verdict v tests))).
Proof.
  intros H. assert (Hp : forall t, t ∈ tests -> plain_ident t) by (by apply Forall_forall). clear H. unfold mn_verdict, a_verdict. rewrite map_app, concat_app, map_map.
  destruct v; open_lines; (eapply reads_eq; [rd; (apply reads_setter; by apply Hp)|]; unfold a_dump, a_verdict_members; same).
Qed.
Lemma reads_meta states : (forall s, s ∈ states -> identifier (st_id s)) -> reads (mn_meta states) (pr_item (a_enum states) ++ pr_top (TopNs (lit "state") [a_name states])).
Proof.
  intros H. unfold mn_meta, a_enum, a_name, state_q. open_lines. abs. eapply reads_eq; [rd|]. cbn [pr_top]. cbn [pr_item pr_fields]. unfold pr_fields. same.
Qed.

(** ** Lists in a line, with commas *)
Definition emits (ts : list tok) (r : option (list tok)) : option (list tok) := foldr emit r ts.
Lemma emits_app a b r : emits (a ++ b) r = emits a (emits b r).
Proof. unfold emits. by rewrite foldr_app. Qed.
Lemma emits_some ts l : emits ts (Some l) = Some (ts ++ l).
Proof. induction ts as [|t ts IH]; [done|]. cbn. change (foldr emit (Some l) ts) with (emits ts (Some l)). by rewrite IH. Qed.
Section Join.
Context {X : Type} (f : X -> gostr) (F : X -> list atom) (G : X -> list tok) (o c : ascii) (po pc : punct).
Fixpoint J (xs : list X) : list atom :=
  match xs with [] => [] | x :: r => F x ++ match r with [] => [] | _ => C "," :: C " " :: J r end end.
Context (Hg : forall x c' R, c' = ","%char \/ c' = c -> pl QStart (F x ++ C c' :: R) = emits (G x) (pl (QOp c') R)).
Context (Ho : forall x R, pl (QOp o) (F x ++ R) = emit (TP po) (pl QStart (F x ++ R))).
Context (Hc : forall R, pl (QOp o) (C c :: R) = emit (TP po) (pl (QOp c) R)).
Context (Hn : forall x, forallb no_lf (F x) = true).
Lemma J_rfy xs : (forall x, x ∈ xs -> rfy (f x) (F x)) -> rfy (join (lit ", ") (map f xs)) (J xs).
Proof.
  induction xs as [|x xs IH]; intros H; [apply rf_nil|]. cbn [J map]. destruct xs as [|y xs].
  - cbn [map join]. rewrite app_nil_r. apply H, elem_of_list_here.
  - change (join (lit ", ") (f x :: map f (y :: xs))) with (f x ++ lit ", " ++ join (lit ", ") (map f (y :: xs))). apply rf_app; [apply H, elem_of_list_here|].
    do 2 apply rf_cons. apply IH. intros z Hz. by apply H, elem_of_list_further.
Qed.
Lemma J_no_lf xs : forallb no_lf (J xs) = true.
Proof. induction xs as [|x xs IH]; [done|]. cbn [J]. rewrite forallb_app, Hn. destruct xs; [done|]. exact IH. Qed.
Lemma J_run x xs R : pl QStart (J (x :: xs) ++ C c :: R) = emits (G x ++ concat (map (fun y => TP PComma :: G y) xs)) (pl (QOp c) R).
Proof.
  revert x. induction xs as [|y xs IH]; intros x.
  - cbn [J map concat]. rewrite !app_nil_r. apply Hg. by right.
  - change (J (x :: y :: xs)) with (F x ++ C "," :: C " " :: J (y :: xs)). rewrite <- app_assoc. cbn [app]. rewrite Hg by (by left).
    change (pl (QOp ",") (C " " :: J (y :: xs) ++ C c :: R)) with (emit (TP PComma) (pl QStart (J (y :: xs) ++ C c :: R))). rewrite IH.
    rewrite (emits_app (G x)). reflexivity.
Qed.
Lemma J_pl xs R ts : pl (QOp c) R = Some (TP pc :: ts) -> pl (QOp o) (J xs ++ C c :: R) = Some (TP po :: pr_args pc (map G xs) ++ ts).
Proof.
  intros E. destruct xs as [|x xs].
  - cbn [J app map pr_args]. by rewrite Hc, E.
  - assert (pl (QOp o) (J (x :: xs) ++ C c :: R) = emit (TP po) (pl QStart (J (x :: xs) ++ C c :: R))) as ->.
    { cbn [J]. by rewrite <- app_assoc, Ho. }
    rewrite J_run, E, emits_some. cbn [emit map pr_args]. do 2 f_equal. rewrite <- !app_assoc. f_equal. clear. induction xs as [|y xs IH]; [done|]. cbn. rewrite <- !app_assoc. f_equal. f_equal. done.
Qed.
End Join.
Lemma chars_no_lf l : forallb (fun c => negb (Ascii.eqb c (byte 10))) l = true -> forallb no_lf (map C l) = true.
Proof. induction l as [|c l IH]; [done|]. cbn. intros [-> H]%andb_prop. by apply IH. Qed.
Definition pub_F (a : agg) : list atom := map C (lit "ros::Publisher ") ++ [W (publisher_name (agg_name a))].
Definition name_F (a : agg) : list atom := [W (publisher_name (agg_name a))].
Lemma pubs_line (pre post : gostr) (pts ts : list tok) (ins : list agg) :
  (forall a, a ∈ ins -> identifier (agg_name a)) -> (forall R, pl QStart (map C pre ++ R) = emits pts (pl (QOp "(") R)) ->
  pl (QOp ")") (map C post) = Some (TP PRParen :: ts) -> forallb no_lf (map C pre) = true -> forallb no_lf (map C post) = true ->
  reads [pre ++ join (lit ", ") (map (fun a => lit "ros::Publisher " ++ publisher_name (agg_name a)) ins) ++ ")"%char :: post]
    (pts ++ TP PLParen :: pr_params (a_ctor_params VRos ins) ++ ts).
Proof.
  intros Hi Hpre Hpost Hn1 Hn2.
  assert (Hr : rfy (pre ++ join (lit ", ") (map (fun a => lit "ros::Publisher " ++ publisher_name (agg_name a)) ins) ++ ")"%char :: post) (map C pre ++ J pub_F ins ++ C ")" :: map C post)).
  { assert (Hc : forall l, rfy l (map C l)) by (intros l; split; [by rewrite chars_text|induction l; by constructor]).
    apply rf_app; [done|]. apply rf_app; [|by apply rf_cons]. apply J_rfy. intros a Ha. apply rf_app; [apply rf_lit|]. apply rf_W, plain_pub, Hi, Ha. }
  eapply block_ok; [constructor; [exact Hr|constructor]|]. cbn [pls]. rewrite !forallb_app, Hn1. cbn [forallb no_lf]. rewrite Hn2. rewrite J_no_lf by done. cbn [andb negb Ascii.eqb Bool.eqb]. rewrite Hpre.
  erewrite (J_pl pub_F (fun a => pr_param (pub_t, publisher_name (agg_name a))) "(" ")" PLParen PRParen); [| |done|done|exact Hpost].
  - cbn [emits]. rewrite emits_some, app_nil_r. unfold a_ctor_params, pr_params. by rewrite map_map.
  - intros x c' R [->| ->]; reflexivity.
Qed.
Lemma args_line (pre post : gostr) (pts ts : list tok) (ins : list agg) :
  (forall a, a ∈ ins -> identifier (agg_name a)) -> (forall R, pl QStart (map C pre ++ R) = emits pts (pl (QOp "{") R)) ->
  pl (QOp "}") (map C post) = Some (TP PRBrace :: ts) -> forallb no_lf (map C pre) = true -> forallb no_lf (map C post) = true ->
  reads [pre ++ join (lit ", ") (map (fun a => publisher_name (agg_name a)) ins) ++ "}"%char :: post]
    (pts ++ TP PLBrace :: pr_args PRBrace (map pr_expr (a_ctor_args VRos ins)) ++ ts).
Proof.
  intros Hi Hpre Hpost Hn1 Hn2.
  assert (Hr : rfy (pre ++ join (lit ", ") (map (fun a => publisher_name (agg_name a)) ins) ++ "}"%char :: post) (map C pre ++ J name_F ins ++ C "}" :: map C post)).
  { assert (Hc : forall l, rfy l (map C l)) by (intros l; split; [by rewrite chars_text|induction l; by constructor]).
    apply rf_app; [done|]. apply rf_app; [|by apply rf_cons]. apply J_rfy. intros a Ha. apply rf_W, plain_pub, Hi, Ha. }
  eapply block_ok; [constructor; [exact Hr|constructor]|]. cbn [pls]. rewrite !forallb_app, Hn1. cbn [forallb no_lf]. rewrite Hn2. rewrite J_no_lf by done. cbn [andb negb Ascii.eqb Bool.eqb]. rewrite Hpre.
  erewrite (J_pl name_F (fun a => pr_expr (nm (publisher_name (agg_name a)))) "{" "}" PLBrace PRBrace); [| |done|done|exact Hpost].
  - cbn [emits]. rewrite emits_some, app_nil_r. unfold a_ctor_args. by rewrite map_map.
  - intros x c' R [->| ->]; reflexivity.
Qed.
Lemma reads_take n l a b : reads (take n l) a -> reads (drop n l) b -> reads l (a ++ b).
Proof. intros H1 H2. rewrite <- (take_drop n l). by apply reads_app. Qed.

(** ** StateMachine *)
Record tc_ok (tc : tctx) : Prop := TcOk {
  tk_in : forall a, a ∈ tc_in tc -> identifier (agg_name a);
  tk_out : forall a, a ∈ tc_out tc -> identifier (agg_name a);
  tk_merged : forall s ts, (s, ts) ∈ range_map (tc_in_merged tc) -> identifier s /\ forall t, t ∈ ts -> identifier (tr_next t);
  tk_states : forall a s ts, a ∈ tc_out tc -> (s, ts) ∈ range_map (ag_states a) -> identifier s /\ forall t, t ∈ ts -> identifier (tr_next t) /\ text_value (tr_value t);
}.
Ltac rds := rd; eauto with names.
Lemma reads_class v tc s0 states : tc_ok tc -> identifier s0 -> (forall s, s ∈ states -> identifier (st_id s)) ->
  reads (mn_class v tc s0 states) (pr_item (a_class v tc s0 states)).
Proof.
  intros [H1 H2 _ _] Hs0 Hst. unfold mn_class, a_class, a_members. destruct v; cbn [ctor_params timer_args accept_args a_timer_params a_accept_params].
  - destruct (tc_first_state_has_in tc), (tc_has_in tc); (open_lines; abs; eapply reads_eq; [rd|same]).
  - destruct (tc_first_state_has_in tc), (tc_has_in tc);
    (open_lines; set (L := lit "  StateMachine(" ++ _); assert (HL : reads [L] _) by (apply (pubs_line (lit "  StateMachine(") (lit ";") [TId (lit "StateMachine")] [TP PSemi] (tc_in tc)); [done|reflexivity|reflexivity|reflexivity|reflexivity]);
     clearbody L; set (Q := a_ctor_params VRos (tc_in tc)) in *; clearbody Q; abs; eapply reads_eq; [eapply reads_app;
       [eapply (reads_take 5); cbn [take drop]; [rd|]; eapply (reads_take 1); cbn [take drop]; [exact HL|rd]|rd]|same]).
  - destruct (tc_first_state_has_in tc), (tc_has_in tc); (open_lines; abs; eapply reads_eq; [rd|same]).
Qed.

Lemma reads_ctor v tc s0 : tc_ok tc -> identifier s0 -> reads (mn_ctor v tc s0) (pr_item (a_ctor v tc s0)).
Proof.
  intros [H1 _ _ _] Hs0. unfold mn_ctor, a_ctor. destruct v; cbn [ctor_params].
  - destruct (tc_first_state_has_in tc); (open_lines; abs; eapply reads_eq; [rd|same]).
  - destruct (tc_first_state_has_in tc);
    (open_lines; set (L := lit "StateMachine::StateMachine(" ++ _); assert (HL : reads [L] _) by (apply (pubs_line (lit "StateMachine::StateMachine(") [] (pr_name (SMq (lit "StateMachine"))) [] (tc_in tc)); [done|reflexivity|reflexivity|reflexivity|reflexivity]);
     clearbody L; set (Q := a_ctor_params VRos (tc_in tc)) in *; clearbody Q; abs; eapply reads_eq; [eapply reads_app;
       [eapply (reads_take 1); cbn [take drop]; [rd|]; eapply (reads_take 1); cbn [take drop]; [exact HL|rd]|rd]|same]).
  - destruct (tc_first_state_has_in tc); (open_lines; abs; eapply reads_eq; [rd|same]).
Qed.
Lemma reads_methods v : reads (mn_methods v) (concat (map pr_item [a_getVerdict; a_stateName; a_end_fun v])).
Proof. unfold mn_methods. destruct v; open_lines; cbn [app]; block. Qed.
Lemma reads_timers v tc s0 : identifier s0 -> reads (mn_timers v tc s0) (concat (map pr_item ([a_timeout v] ++ if tc_first_state_has_in tc then [a_delay v s0] else []))).
Proof. intros H. unfold mn_timers, a_timeout, a_delay. destruct v, (tc_first_state_has_in tc); open_lines; cbn [app timer_args a_timer_params]; abs; block. Qed.
Lemma reads_accept_case v s next : identifier s -> identifier next ->
  reads (mn_accept_case v s next) (match a_accept_case v s next with (c, b) => pr_label c ++ concat (map pr_stmt b) end).
Proof. intros H1 H2. unfold mn_accept_case, a_accept_case. destruct v; open_lines; abs; block. Qed.
Lemma reads_accept v tc : tc_ok tc -> reads (mn_accept v tc) (concat (map pr_item (if tc_has_in tc then [a_accept v tc] else []))).
Proof.
  intros [_ _ H _]. unfold mn_accept, a_accept. destruct (tc_has_in tc); [|apply reads_nil]. unfold mn_accept_cases, a_accept_cases.
  revert H. generalize (range_map (tc_in_merged tc)). intros l H.
  assert (Hc : reads (concat (map (fun sts => match sts.2 with t :: _ => mn_accept_case v sts.1 (tr_next t) | [] => [] end) l))
                 (pr_cases (concat (map (fun sts => match sts.2 with t :: _ => [a_accept_case v sts.1 (tr_next t)] | [] => [] end) l)))).
  { eapply reads_eq; [apply (reads_concat _ (fun sts => pr_cases (match sts.2 with t :: _ => [a_accept_case v sts.1 (tr_next t)] | [] => [] end)))|].
    - intros [s ts] Hin. destruct (H s ts Hin) as [Hs Ht]. cbn [fst snd]. destruct ts as [|t ts]; [apply reads_nil|]. specialize (Ht t (elem_of_list_here _ _)).
      pose proof (reads_accept_case v s (tr_next t) Hs Ht) as Hr. cbn [map concat]. by rewrite app_nil_r.
    - clear. induction l as [|x l IH]; [done|]. cbn [map concat]. rewrite map_app, concat_app. by rewrite IH. }
  revert Hc. generalize (concat (map (fun sts : gostr * list transition => match sts.2 with t :: _ => mn_accept_case v sts.1 (tr_next t) | [] => [] end) l)).
  generalize (concat (map (fun sts : gostr * list transition => match sts.2 with t :: _ => [a_accept_case v sts.1 (tr_next t)] | [] => [] end) l)).
  clear. intros cs ls Hc. rewrite <- (app_assoc ls) || idtac. 
  destruct v; cbn [accept_args a_accept_params]; (open_lines; eapply reads_eq; [eapply reads_app; [rd|eapply reads_app; [exact Hc|rd]]|]);
  cbn [map concat pr_item pr_stmt]; rewrite ?map_app, ?concat_app; generalize (pr_cases cs); intros T; same.
Qed.
