(** * C85: the conversion functions of convert.h, when called *)
From Verif Require Import PropHeader PropMain PropChain PropProcess CodecProofs.
From Verif Require Export SpecConvert.
From Verif Require Export StmProofs.

(** ** Finding functions and types *)
Lemma find_function_in is ret n pt pn b : NoDup (functions is) -> IFun ret n pt pn b ∈ is -> find_function is n = Some (ret, pt, pn, b).
Proof.
  induction is as [|i is IH]; intros Hnd Hin; [by apply elem_of_nil in Hin|]. apply elem_of_cons in Hin as [<-|Hin].
  - cbn [find_function]. by rewrite decide_True.
  - destruct i as [sy sr|d dv|ret' n' pt' pn' b']; cbn [find_function]; [by apply IH|by apply IH|].
    change (functions (IFun ret' n' pt' pn' b' :: is)) with (n' :: functions is) in Hnd. apply NoDup_cons in Hnd as [Hn Hnd].
    rewrite (decide_False (P := n' = n)); [by apply IH|]. intros ->. destruct Hn. unfold functions. apply elem_of_list_omap. by exists (IFun ret n pt pn b).
Qed.
Lemma macro_value_in ms n x : NoDup (map fst ms) -> (n, x) ∈ ms -> macro_value ms n = Some x.
Proof.
  induction ms as [|[m y] ms IH]; intros Hnd Hin; [by apply elem_of_nil in Hin|]. cbn [map fst] in Hnd. apply NoDup_cons in Hnd as [Hn Hnd]. cbn [macro_value].
  apply elem_of_cons in Hin as [[= <- <-]|Hin]; [by rewrite decide_True|]. rewrite (decide_False (P := m = n)); [by apply IH|].
  intros ->. destruct Hn. apply elem_of_list_In, in_map_iff. exists (n, x). split; [done|]. by apply elem_of_list_In.
Qed.
Lemma macro_value_none ms n : n ∉ map fst ms -> macro_value ms n = None.
Proof.
  induction ms as [|[m y] ms IH]; intros H; [done|]. cbn [macro_value]. cbn [map fst] in H. apply not_elem_of_cons in H as [H1 H2]. rewrite (decide_False (P := m = n)) by congruence. by apply IH.
Qed.
Lemma ident_prefix_app (a b : gostr) : Forall (fun c => ident_char c = true) a -> (forall c r, b = c :: r -> ident_char c = false) -> ident_prefix (a ++ b) = (a, b).
Proof.
  intros Ha Hb. induction Ha as [|c a Hc Ha IH]; cbn [app ident_prefix].
  - destruct b as [|c r]; [done|]. cbn [ident_prefix]. by rewrite (Hb c r eq_refl).
  - by rewrite Hc, IH.
Qed.
Lemma upcase_ident_chars c : identifier c -> Forall (fun x => ident_char x = true) (upcase_first c).
Proof.
  intros H. pose proof H as [Ha _]. destruct (upcase_head c H) as (x & r & E & Hx & _). pose proof E as E'. destruct c as [|y c]; [done|]. cbn [upcase_first] in E. rewrite E'. 
  injection E as _ <-. constructor; [done|]. by inversion Ha.
Qed.
Lemma c_str_id (s : gostr) : byte 0 ∉ (s : list ascii) -> c_str s = s.
Proof.
  induction s as [|c s IH]; intros H; [done|]. apply not_elem_of_cons in H as [H1 H2]. cbn [c_str]. destruct (Ascii.eqb_spec c (byte 0)) as [->|_]; [done|]. by rewrite IH.
Qed.

(** No two channels differ only in the case of their first letter (C74_distinct). *)
Definition apart (ctx : cctx) : Prop := forall a b, a ∈ dom (cx_types ctx) -> b ∈ dom (cx_types ctx) -> upcase_first a = upcase_first b -> a = b.

Section header.
Context (v : variant) (ctx : cctx) (is : list item) (user : gostr -> cval -> option cval).
Context (Hv : valid_variant v) (Hr : readable ctx) (Hread : read_header (convert_text v ctx) = Some is) (Hap : apart ctx).

Lemma hd_is : is = header_items v ctx.
Proof using Hr Hread. pose proof (header_read v ctx (readable_good ctx Hr)) as H. rewrite Hread in H. by injection H. Qed.
Lemma hd_funs ret n pt pn b : IFun ret n pt pn b ∈ is -> find_function is n = Some (ret, pt, pn, b).
Proof using Hr Hread Hap. apply find_function_in. by apply (C74_distinct v ctx is Hr Hread). Qed.
Lemma hd_macro n x : (n, x) ∈ macros is -> macro_value (macros is) n = Some x.
Proof using Hr Hread Hap. apply macro_value_in. by apply (C74_distinct v ctx is Hr Hread). Qed.
Lemma hd_no_macro (n : gostr) : take 3 (reverse n) ∉ [lit "laV"; lit "gsM"; lit "DEN"] -> macro_value (macros is) n = None.
Proof using Hr Hread.
  intros H. apply macro_value_none. intros Hin. destruct H. apply elem_of_list_In, in_map_iff in Hin as ([m x] & <- & Hin%elem_of_list_In). cbn [fst].
  destruct (C74_header v ctx Hr) as (is' & E & _ & H3 & _). rewrite Hread in E. injection E as <-.
  apply H3 in Hin as [[-> _]|(c & t & o & _ & [[-> _]|[-> _]])].
  - do 2 right. left.
  - assert (E : take 3 (reverse (upcase_first c ++ lit "Val")) = lit "laV") by (rewrite reverse_app; reflexivity). rewrite E. left.
  - assert (E : take 3 (reverse (upcase_first c ++ lit "Msg")) = lit "gsM") by (rewrite reverse_app; reflexivity). rewrite E. right. left.
Qed.
Lemma hd_steps c p : cx_types ctx !! c = Some p -> exists k, S (length (macros is)) = S (S (S k)).
Proof using Hr Hread.
  intros H. rewrite hd_is, header_macros. apply (CodecProofs.range_map_elem (cx_types ctx)) in H. cbn [length]. rewrite app_length, !map_length.
  destruct (range_map (cx_types ctx)) as [|x l]; [by apply elem_of_nil in H|]. cbn [length]. eexists. rewrite <- Nat.add_succ_comm. cbn [Nat.add]. reflexivity.
Qed.
Lemma hd_expand (k : nat) (a b x : gostr) : Forall (fun c => ident_char c = true) a -> (forall c r, b = c :: r -> ident_char c = false) -> macro_value (macros is) a = Some x ->
  expand_macros (S k) (macros is) (a ++ b) = expand_macros k (macros is) (x ++ b).
Proof using Type. intros Ha Hb Hm. cbn [expand_macros]. by rewrite (ident_prefix_app a b Ha Hb), Hm. Qed.
Lemma hd_plain k (a b : gostr) : Forall (fun c => ident_char c = true) a -> (forall c r, b = c :: r -> ident_char c = false) -> macro_value (macros is) a = None ->
  expand_macros k (macros is) (a ++ b) = a ++ b.
Proof using Type. intros Ha Hb Hm. destruct k; [done|]. cbn [expand_macros]. by rewrite (ident_prefix_app a b Ha Hb), Hm. Qed.
Lemma hd_std k t : expand_macros k (macros is) (std_type t) = std_type t.
Proof using Hr Hread.
  assert (H : exists a b : gostr, std_type t = a ++ b /\ Forall (fun c => ident_char c = true) a /\ (forall c r, b = c :: r -> ident_char c = false) /\ take 3 (reverse a) ∉ [lit "laV"; lit "gsM"; lit "DEN"]).
  { unfold std_type. destruct (is_enum_ty t); [exists (lit "std"), (lit "::string")|destruct (is_nat_ty t); [exists (lit "unsigned"), (lit " int")|destruct (is_int_ty t); [exists (lit "int"), []|destruct (is_real_ty t); [exists (lit "double"), []|exists (lit "void"), (lit " *")]]]];
      (split; [reflexivity|]; split; [by repeat constructor|]; split; [by intros c r [= <- _] || done|]; apply (bool_decide_unpack _); reflexivity). }
  destruct H as (a & b & -> & Ha & Hb & Hn). apply hd_plain; [done|done|by apply hd_no_macro].
Qed.
Lemma hd_msgs k (b : gostr) : (forall c r, b = c :: r -> ident_char c = false) -> expand_macros k (macros is) (lit "std_msgs" ++ b) = lit "std_msgs" ++ b.
Proof using Hr Hread. intros Hb. apply hd_plain; [by repeat constructor|done|]. apply hd_no_macro. apply (bool_decide_unpack _). reflexivity. Qed.
(** The types of a channel without an override. *)
Definition std_hty (t : rstype) : option hty := if is_enum_ty t then Some TyStr else if is_nat_ty t then Some TyUnsigned else if is_int_ty t then Some TyInt else if is_real_ty t then Some TyDouble else None.
Lemma type_std t : type_of is (std_type t) = std_hty t.
Proof using Hr Hread.
  unfold type_of. rewrite hd_std. unfold std_type, std_hty. destruct (is_enum_ty t); [reflexivity|]. destruct (is_nat_ty t); [reflexivity|]. destruct (is_int_ty t); [reflexivity|]. by destruct (is_real_ty t).
Qed.
Lemma val_chars c : identifier c -> Forall (fun x => ident_char x = true) (channel_value_type c).
Proof using Type. intros H. apply Forall_app. split; [by apply upcase_ident_chars|by repeat constructor]. Qed.
Lemma msg_chars c : identifier c -> Forall (fun x => ident_char x = true) (channel_msg_type c).
Proof using Type. intros H. apply Forall_app. split; [by apply upcase_ident_chars|by repeat constructor]. Qed.
Lemma hd_macros c t : cx_types ctx !! c = Some (t, []) ->
  macro_value (macros is) (channel_value_type c) = Some (cv_type v t) /\ macro_value (macros is) (channel_msg_type c) = Some (cv_msg_type v c).
Proof using Hr Hread Hap.
  intros H. apply (CodecProofs.range_map_elem (cx_types ctx)) in H. split; apply hd_macro; rewrite hd_is, header_macros; right; apply elem_of_app; [left|right];
    apply elem_of_list_In, in_map_iff; exists (c, (t, [])); (split; [reflexivity|]); by apply elem_of_list_In.
Qed.
Lemma type_val c t : cx_types ctx !! c = Some (t, []) -> type_of is (channel_value_type c) = match v with VRos => Some TyMsg | _ => std_hty t end.
Proof using Hr Hread Hap.
  intros H. destruct (hd_steps c _ H) as [k Ek]. unfold type_of. rewrite Ek. destruct (hd_macros c t H) as [Hm _]. pose proof (proj1 (proj1 Hr c t [] H)) as Hid.
  rewrite <- (app_nil_r (channel_value_type c)), (hd_expand _ _ [] _ (val_chars c Hid) ltac:(done) Hm), app_nil_r. clear Ek.
  pose proof (fun k => hd_std k t) as As. pose proof hd_msgs as Bs. pose proof (type_std t) as Ht. unfold type_of in Ht. rewrite As in Ht. clear Hv. destruct v; cbn [cv_type].
  - by rewrite As.
  - change (lit "std_msgs::String") with (lit "std_msgs" ++ lit "::String"). by rewrite Bs by (by intros ? ? [= <- _]).
  - by rewrite As.
Qed.
Lemma type_msg c t : cx_types ctx !! c = Some (t, []) -> type_of is (channel_msg_type c) = match v with VRos => Some TyPtr | _ => std_hty t end.
Proof using Hr Hread Hap.
  intros H. destruct (hd_steps c _ H) as [k Ek]. unfold type_of. rewrite Ek. destruct (hd_macros c t H) as [Hm Hm']. pose proof (proj1 (proj1 Hr c t [] H)) as Hid.
  rewrite <- (app_nil_r (channel_msg_type c)), (hd_expand _ _ [] _ (msg_chars c Hid) ltac:(done) Hm'), app_nil_r. clear Ek.
  assert (Hx : forall b : gostr, (forall c r, b = c :: r -> ident_char c = false) -> expand_macros (S (S k)) (macros is) (channel_value_type c ++ b) = expand_macros (S k) (macros is) (cv_type v t ++ b))
    by (intros b Hb; by apply hd_expand; [apply val_chars| |]).
  pose proof (fun k => hd_std k t) as As. pose proof hd_msgs as Bs. pose proof (type_std t) as Ht. unfold type_of in Ht. rewrite As in Ht. clear Hv. destruct v; cbn [cv_msg_type].
  - rewrite <- (app_nil_r (channel_value_type c)), Hx, app_nil_r by done. cbn [cv_type]. by rewrite As.
  - rewrite Hx by (by intros ? ? [= <- _]). change (cv_type VRos t ++ lit "::ConstPtr&") with (lit "std_msgs" ++ lit "::String::ConstPtr&"). by rewrite Bs by (by intros ? ? [= <- _]).
  - rewrite <- (app_nil_r (channel_value_type c)), Hx, app_nil_r by done. cbn [cv_type]. by rewrite As.
Qed.
Lemma hd_from c t o : cx_types ctx !! c = Some (t, o) -> find_function is (convert_from c) = Some (std_type t, channel_msg_type c, lit "msg", if has_override (t, o) then None else Some (cv_from v t)).
Proof using Hr Hread Hap.
  intros H. apply hd_funs. rewrite hd_is. apply (CodecProofs.range_map_elem (cx_types ctx)) in H. unfold header_items. cbv zeta. right. do 3 (apply elem_of_app; right). apply elem_of_app; left.
  apply elem_of_list_In, in_map_iff. exists (c, (t, o)). split; [reflexivity|]. by apply elem_of_list_In.
Qed.
Lemma hd_to c t o : cx_types ctx !! c = Some (t, o) -> find_function is (convert_to c) = Some (channel_value_type c, std_type t, lit "value", if has_override (t, o) then None else Some (cv_to v t)).
Proof using Hr Hread Hap.
  intros H. apply hd_funs. rewrite hd_is. apply (CodecProofs.range_map_elem (cx_types ctx)) in H. unfold header_items. cbv zeta. right. do 4 (apply elem_of_app; right).
  apply elem_of_list_In, in_map_iff. exists (c, (t, o)). split; [reflexivity|]. by apply elem_of_list_In.
Qed.
End header.

(** ** Running the bodies *)
Lemma into_twice t x y : into t x = Some y -> into t y = Some y.
Proof.
  destruct t, x; cbn [into]; try done; intros H.
  - by injection H as <-.
  - injection H as <-. f_equal. f_equal. by rewrite Zmod_mod.
  - injection H as <-. f_equal. f_equal. rewrite Z.sub_add. by rewrite Zmod_mod.
  - destruct (Z.abs z <=? 2 ^ 53)%Z eqn:E; [|done]. injection H as <-. cbn [into]. by rewrite E.
  - by injection H as <-.
  - by injection H as <-.
Qed.
Lemma pass_into t ty x : std_hty t = Some ty -> exists a, arg_of ty (val x) = Some a /\ (y ← into ty a; result_of y) = val <$> pass_value t x /\ (forall s, into ty a <> Some (HPtr s)).
Proof.
  unfold std_hty, pass_value. intros H. destruct x as [z|s].
  - exists (HInt z). destruct (is_enum_ty t) eqn:E1.
    + injection H as <-. split; [done|]. split; [|done]. unfold is_nat_ty, is_int_ty, is_real_ty, is_arithmos, is_enum_ty in *. apply bool_decide_eq_true in E1. rewrite E1. cbn. done.
    + destruct (is_nat_ty t); [injection H as <-; done|]. destruct (is_int_ty t); [injection H as <-; done|]. destruct (is_real_ty t); [injection H as <-|done].
      split; [done|]. cbn [into]. by destruct (Z.abs z <=? 2 ^ 53)%Z.
  - exists (HStr s). destruct (is_enum_ty t); [injection H as <-; done|]. destruct (is_nat_ty t); [injection H as <-; done|]. destruct (is_int_ty t); [injection H as <-; done|]. by destruct (is_real_ty t); [injection H as <-|].
Qed.
Lemma pass_none t x : std_hty t = None -> pass_value t x = None.
Proof.
  unfold std_hty, pass_value. destruct (is_enum_ty t); [done|]. destruct (is_nat_ty t); [done|]. destruct (is_int_ty t); [done|]. destruct (is_real_ty t); [done|]. by destruct x.
Qed.
Lemma body_back (n : gostr) ts a : ts = [TKw KReturn; TId n; TP PSemi] -> h_body (S (length ts)) [(n, a)] ts = Some a.
Proof. intros ->. cbn -[decide]. rewrite decide_True by done. reflexivity. Qed.

(** ** C85 *)
(** The functions of the header.  With an override they are the user's own.  Without: in the animate variant
    both pass a value on, as C++ passes it to a parameter of the channel's type; with ROS, those of
    enumerations pass the text on up to the first NUL, and those of other channels do not compile. *)
Theorem C85_conversions : forall v ctx is user, valid_variant v -> readable ctx -> read_header (convert_text v ctx) = Some is -> apart ctx ->
  forall c t o, cx_types ctx !! c = Some (t, o) -> forall f, f = lit "to" ++ upcase_first c \/ f = lit "from" ++ upcase_first c ->
  (o <> [] -> forall x, call_conversion is user f x = user f x) /\
  (o = [] -> v = VAnimate -> forall x, call_conversion is user f (val x) = val <$> pass_value t x) /\
  (o = [] -> v = VRos -> t_kind t = TEnum -> forall s, call_conversion is user f (VStr s) = Some (VStr (c_str s))) /\
  (o = [] -> v = VRos -> t_kind t <> TEnum -> forall x, call_conversion is user f x = None).
Proof.
  intros v ctx is user Hv Hr Hread Hap c t o Hc f Hf.
  pose proof (hd_from v ctx is Hr Hread Hap c t o Hc) as Ff. pose proof (hd_to v ctx is Hr Hread Hap c t o Hc) as Ft. split_and!.
  - intros Ho x. rewrite if_override in Ff, Ft by done. unfold call_conversion. destruct Hf as [->| ->]; [unfold convert_to in Ft; by rewrite Ft|unfold convert_from in Ff; by rewrite Ff].
  - intros -> -> x. pose proof (type_val VAnimate ctx is Hr Hread Hap c t Hc) as Tv. pose proof (type_msg VAnimate ctx is Hr Hread Hap c t Hc) as Tm.
    pose proof (type_std VAnimate ctx is Hr Hread t) as Ts. cbn iota in Tv, Tm.
    assert (H : forall ret pt pn b, type_of is ret = std_hty t -> type_of is pt = std_hty t -> lex_lines b = Some [TKw KReturn; TId pn; TP PSemi] -> find_function is f = Some (ret, pt, pn, Some b) ->
      call_conversion is user f (val x) = val <$> pass_value t x).
    { intros ret pt pn b E1 E2 E3 E4. unfold call_conversion. rewrite E4, E1, E2. destruct (std_hty t) as [ty|] eqn:Et; cbn [mbind option_bind]; [|by rewrite (pass_none t x Et)].
      destruct (pass_into t ty x Et) as (a & Ea & Er & _). rewrite Ea. cbn [mbind option_bind]. rewrite <- Er. destruct (into ty a) as [y|] eqn:Ey; cbn [mbind option_bind]; [|done].
      rewrite E3. cbn [mbind option_bind]. rewrite body_back by done. cbn [mbind option_bind]. by rewrite (into_twice _ _ _ Ey). }
    destruct Hf as [->| ->]; [eapply H; [exact Tv|exact Ts| |exact Ft]|eapply H; [exact Ts|exact Tm| |exact Ff]]; reflexivity.
  - intros -> -> Hk s. pose proof (type_val VRos ctx is Hr Hread Hap c t Hc) as Tv. pose proof (type_msg VRos ctx is Hr Hread Hap c t Hc) as Tm.
    pose proof (type_std VRos ctx is Hr Hread t) as Ts. cbn iota in Tv, Tm.
    assert (He : is_enum_ty t = true) by (unfold is_enum_ty; by apply bool_decide_eq_true). unfold std_hty in Ts. rewrite He in Ts. unfold cv_from, cv_to in Ff, Ft. rewrite He in Ff, Ft. cbn iota in Ff, Ft.
    unfold call_conversion. destruct Hf as [->| ->]; [unfold convert_to in Ft; rewrite Ft; cbn [has_override]|unfold convert_from in Ff; rewrite Ff].
    + change (has_override (t, [])) with false. cbv iota. rewrite Tv, Ts. cbn [mbind option_bind arg_of into]. 
      match goal with |- context [lex_lines ?b] => let x := eval vm_compute in (lex_lines b) in change (lex_lines b) with x end. cbn [mbind option_bind]. reflexivity.
    + change (has_override (t, [])) with false. cbv iota. rewrite Tm, Ts. cbn [mbind option_bind arg_of into]. 
      match goal with |- context [lex_lines ?b] => let x := eval vm_compute in (lex_lines b) in change (lex_lines b) with x end. cbn [mbind option_bind]. reflexivity.
  - intros -> -> Hk x. pose proof (type_val VRos ctx is Hr Hread Hap c t Hc) as Tv. pose proof (type_msg VRos ctx is Hr Hread Hap c t Hc) as Tm.
    pose proof (type_std VRos ctx is Hr Hread t) as Ts. cbn iota in Tv, Tm.
    assert (He : is_enum_ty t = false) by (unfold is_enum_ty; by apply bool_decide_eq_false). unfold std_hty in Ts. rewrite He in Ts. unfold cv_from, cv_to in Ff, Ft. rewrite He in Ff, Ft. cbn iota in Ff, Ft.
    unfold call_conversion. destruct Hf as [->| ->]; [unfold convert_to in Ft; rewrite Ft; cbn [has_override]|unfold convert_from in Ff; rewrite Ff].
    + change (has_override (t, [])) with false. cbv iota. rewrite Tv, Ts. 
      match goal with |- context [lex_lines ?b] => let x := eval vm_compute in (lex_lines b) in change (lex_lines b) with x end.
      destruct (is_nat_ty t); [|destruct (is_int_ty t); [|destruct (is_real_ty t); [|done]]]; cbn [mbind option_bind]; destruct x; try done.
      cbn [arg_of mbind option_bind into]. by destruct (Z.abs z <=? 2 ^ 53)%Z.
    + change (has_override (t, [])) with false. cbv iota. rewrite Tm, Ts. 
      match goal with |- context [lex_lines ?b] => let x := eval vm_compute in (lex_lines b) in change (lex_lines b) with x end.
      destruct (is_nat_ty t); [|destruct (is_int_ty t); [|destruct (is_real_ty t); [|done]]]; cbn [mbind option_bind]; destruct x; done.
Qed.
Print Assumptions C85_conversions.

Lemma fits_passed t x : fits_type t x -> pass_value t x = Some x.
Proof.
  destruct x as [z|s]; cbn [fits_type].
  - intros [[-> Hz]|[-> Hz]]; unfold pass_value; cbn; [unfold wrap32; by rewrite Z.mod_small by lia|]. unfold swrap32. rewrite Z.mod_small by lia. f_equal. f_equal. lia.
  - intros [-> _]. done.
Qed.
(** So if the user's functions, and (with ROS) there are some for every channel that is no enumeration, change
    nothing, none of them does: what C77, C82, C83 and C84 ask for. *)
Theorem C85_plain : forall v cc types is user, valid_variant v -> readable (process cc types) -> read_header (convert_text v (process cc types)) = Some is -> apart (process cc types) ->
  plain_user types (fun c => configured cc c <> []) user ->
  (v = VRos -> forall c t, types !! c = Some t -> configured cc c = [] -> t_kind t = TEnum) ->
  plain_conversions types (call_conversion is user).
Proof.
  intros v cc types is user Hv Hr Hread Hap [Pt Pf] Hen.
  destruct (C55_process cc types _ (reflexivity _)) as (_ & _ & _ & Hl & _).
  assert (Hc : forall c t, types !! c = Some t -> cx_types (process cc types) !! c = Some (t, configured cc c)) by (intros c t H; exact (Hl c t H)).
  split.
  - intros c t x y Ht Hx Hp. destruct (C85_conversions v _ is user Hv Hr Hread Hap c t _ (Hc c t Ht) (convert_to c) (or_introl eq_refl)) as (H1 & H2 & H3 & _).
    destruct (decide (configured cc c = [])) as [Ho|Ho]; [|by rewrite H1; [eapply Pt|]].
    destruct Hv as [->| ->]; [by rewrite H2, Hp|]. pose proof (Hen eq_refl c t Ht Ho) as Hk. destruct x as [z|s].
    + exfalso. unfold pass_value, is_nat_ty, is_int_ty, is_real_ty, is_arithmos in Hp. rewrite Hk in Hp. discriminate Hp.
    + cbn [val]. rewrite H3 by done. unfold pass_value in Hp. destruct (is_enum_ty t); [|done]. injection Hp as <-. cbn [val]. by rewrite (c_str_id s Hx).
  - intros c t x Ht Hx. destruct (C85_conversions v _ is user Hv Hr Hread Hap c t _ (Hc c t Ht) (convert_from c) (or_intror eq_refl)) as (H1 & H2 & H3 & _).
    destruct (decide (configured cc c = [])) as [Ho|Ho]; [|by rewrite H1; [eapply Pf|]].
    destruct Hv as [->| ->]; [by rewrite H2, (fits_passed t x Hx)|]. pose proof (Hen eq_refl c t Ht Ho) as Hk. destruct x as [z|s].
    + exfalso. destruct Hx as [[-> _]|[-> _]]; discriminate Hk.
    + cbn [val]. rewrite H3 by done. destruct Hx as [_ Hx]. by rewrite (c_str_id s Hx).
Qed.
Print Assumptions C85_plain.

(** The whole chain, with the convert.h that was written along with the tests: as in C82, but of the
    conversion functions only those that the configuration gives a type for are assumed to change nothing. *)
Theorem C85_exit_codes : forall first second ord o gord text ts names xml e c a cwd f tests_text stms_text,
  any_order ord -> any_orders o -> (forall s, orders s (gord s)) ->
  read_traces text = Ok ts -> testable ts -> named ts names ->
  (forall i t name, ts !! i = Some t -> names !! i = Some name -> trace_names t name) ->
  (forall e1 e2, traces_event ts e1 -> traces_event ts e2 -> upcase_first (ch_name (e_chan e1)) = upcase_first (ch_name (e_chan e2)) -> ch_name (e_chan e1) = ch_name (e_chan e2)) ->
  wf_fs f -> is_dir f cwd -> names_stdin (ga_input a) ->
  fs_files f !! resolve cwd (ga_config a) = Some (Bytes xml) -> document first second xml e -> says_config e c ->
  NoDup (map cc_variant (cf_cpps c)) -> code_dir cwd (ga_config a) c <> resolve cwd (ga_output a) ->
  run_read_traces ord text = Ok tests_text -> run_make_stms o tests_text = Ok stms_text ->
  forall f', run_gen (read_config first second) gen_input gord cwd stms_text a f = (f', None) ->
  forall cc i t name, cc ∈ cf_cpps c -> ts !! i = Some t -> names !! i = Some name ->
  (forall e, traces_event ts e -> macro_text (configured cc (ch_name (e_chan e)))) -> (forall i, i ∈ cc_includes cc -> include_text (in_src i)) ->
  let dir := resolve cwd (ga_output a) ++ [variant_string (cc_variant cc); lit "src"] in
  exists s x h htext is, gen_input stms_text = Some s /\
    fs_files f' !! (dir ++ [name; lit "src"; lit "main.cpp"]) = Some x /\
    fs_files f' !! (dir ++ [lit "convert"; lit "convert.h"]) = Some h /\ content_text h = Some htext /\ read_header htext = Some is /\
    forall user, plain_user (su_types s) (fun c => configured cc c <> []) user ->
    (cc_variant cc = VRos -> forall c t, su_types s !! c = Some t -> configured cc c = [] -> t_kind t = TEnum) ->
    forall date, header_texts name date (cc_includes cc) ->
      (exists txt, file_text date x txt) /\
      forall txt, file_text date x txt ->
        (cc_variant cc = VAnimate -> exists p, read_cpp txt = Some p /\ forall ins script closed depth rounds,
          typed_as (fun c => c ∈ output_names (trace_events t)) (su_types s) ins script closed -> 4 <= depth -> length script < rounds ->
          (exists w, run_main p (call_conversion is user) rounds depth ins = Fine (VInt 1) w) <-> reached t (trace_events t) script) /\
        (cc_variant cc = VRos -> trace_topics t -> exists p, read_cpp txt = Some p /\ forall evs depth rounds, events_fit (expand t name) (su_types s) evs -> acks_expected (expand t name) evs -> 4 <= depth ->
          (exists w, run_main p (call_conversion is user) rounds depth (map ros_in evs) = Fine (VInt 1) w) <-> reached t (trace_events t) (map ros_word evs)).
Proof.
  intros first second ord o gord text ts names xml e c a cwd f tests_text stms_text Ho Hos Hgo Hr Htt Hnam Htn Hapt Hwf Hcwd Hin Hxml Hd Hsc Hnd Hsep H1 H2 f' Hrun cc i t name Hcc Hi Hn Hmac Hinc dir.
  destruct (C82_exit_codes first second ord o gord text ts names xml e c a cwd f tests_text stms_text Ho Hos Hgo Hr Htt Hnam Htn Hwf Hcwd Hin Hxml Hd Hsc Hnd Hsep H1 H2 f' Hrun cc i t name Hcc Hi Hn)
    as (x & s & Hs & Hx & Hprog).
  pose proof (C78_outcome (read_config first second) gen_input gord cwd stms_text a f Hwf Hcwd) as Hout. rewrite Hrun in Hout. cbn [fst snd] in Hout.
  inversion Hout as [| | | |s' f1 c' f2 e' Hs' Hp Hc Hg E1 E2]. subst f2. destruct e' as [e'|]; [discriminate E2|]. clear E2 Hout.
  destruct Hs' as (stext & Hs' & Htext). assert (stext = stms_text) as ->. { destruct Htext as [[_ ?]|[? _]]; done. } clear Htext.
  rewrite Hs in Hs'. injection Hs' as <-.
  destruct (chain_config first second cwd a f f1 c' xml e c Hp Hc Hxml Hd Hsc) as [Hcpps Hdir].
  destruct (C61_pipeline ord o text ts Ho Hos Hr Htt) as (x1 & x2 & s' & names' & A1 & A2 & A3 & Hnam' & _ & Hdom & _).
  rewrite H1 in A1. apply Ok_inj in A1. subst x1. rewrite H2 in A2. apply Ok_inj in A2. subst x2. rewrite Hs in A3. injection A3 as <-.
  assert (names' = names) as -> by (by eapply named_unique).
  assert (Hplain : forall k, k ∈ dom (su_tests s) -> plain_name k).
  { intros k Hk%elem_of_dom%Hdom. apply elem_of_list_lookup in Hk as [j Hj]. destruct (lookup_lt_is_Some_2 ts j) as [u Hu]; [destruct Hnam as [<- _]; by eapply lookup_lt_Some|].
    destruct (Htn j u k Hu Hj) as [[Hk _] _ _]. by apply ident_plain_name. }
  assert (Hsane : sane c' s).
  { split; [rewrite Hcpps; by eapply says_variants|by rewrite Hcpps|done]. }
  assert (Hsep' : separate cwd c' (clean (ga_output a))) by (unfold separate; by rewrite Hdir, resolve_clean).
  destruct (C69_output ord text ts tests_text Ho Hr (tt_safe _ Htt) H1) as (names2 & tests & Hn2 & _ & Ht & Hread & Hss).
  assert (names2 = names) as -> by (by eapply named_unique).
  destruct (C68_output o tests_text tests stms_text Hos Hread Hss H2) as (s2 & Hs2 & Hm2). rewrite Hs in Hs2. injection Hs2 as <-.
  assert (Hchan : forall n, n ∈ dom (su_types s) <-> exists e, traces_event ts e /\ ch_name (e_chan e) = n).
  { intros n. apply (chain_types ts names tests s n Htt); [by destruct Hnam|done|done]. }
  destruct (C55_process cc (su_types s) _ (reflexivity _)) as (_ & Hincs & Hdm & Hl & _). set (ctx := process cc (su_types s)) in *.
  assert (Hread' : readable ctx).
  { split; [|by rewrite Hincs]. intros n ty ov H. assert (Hdn : n ∈ dom (su_types s)) by (rewrite <- Hdm; apply elem_of_dom; by eexists).
    pose proof Hdn as [ty' Hty']%elem_of_dom. pose proof (eq_trans (eq_sym H) (Hl n ty' Hty')) as H'. injection H' as -> ->. apply Hchan in Hdn as (ev & Hev & <-). split; [|by apply Hmac].
    destruct Hev as (u & Hu & Hue). apply elem_of_list_lookup in Hu as [j Hj]. destruct (lookup_lt_is_Some_2 names j) as [nm Hnm]; [destruct Hnam as [-> _]; by eapply lookup_lt_Some|].
    by apply (tn_chans _ _ (Htn j u nm Hj Hnm)). }
  assert (Hap : apart ctx).
  { intros n m Hn' Hm'. rewrite Hdm in Hn', Hm'. apply Hchan in Hn' as (e1 & He1 & <-). apply Hchan in Hm' as (e2 & He2 & <-). by apply Hapt. }
  destruct (C74_header (cc_variant cc) ctx Hread') as (is & His & _).
  exists s, x, (CConvertH (cc_variant cc) ctx), (convert_text (cc_variant cc) ctx), is. unfold dir. rewrite <- !app_assoc. split; [done|]. split; [exact Hx|]. split.
  { destruct (C51_contents cwd c' (clean (ga_output a)) s (gord s) f1 f' cc Hsane Hsep' (Hgo s) Hg) as [Hsh _]; [by rewrite Hcpps|]. cbn zeta in Hsh.
    specialize (Hsh [lit "src"; lit "convert"; lit "convert.h"] (CConvertH (cc_variant cc) ctx)). rewrite <- app_assoc, resolve_clean in Hsh. apply Hsh. unfold shared_files. cbn zeta. apply elem_of_app. left. do 2 right. by left. }
  split; [done|]. split; [done|]. intros user Hu Hen date Hh. destruct (Hprog date Hh) as [Hex Hall]. split; [done|]. intros txt Htxt.
  assert (Hvar : valid_variant (cc_variant cc)) by (by eapply says_variants).
  pose proof (C85_plain (cc_variant cc) cc (su_types s) is user Hvar Hread' His Hap Hu Hen) as Hpl.
  destruct (Hall txt Htxt) as [Ha Hro]. split.
  - intros Ev. destruct (Ha Ev) as (p & Hp' & H). exists p. split; [done|]. intros ins script closed depth rounds. by apply H.
  - intros Ev Htp. destruct (Hro Ev Htp) as (p & Hp' & H). exists p. split; [done|]. intros evs depth rounds. by apply H.
Qed.
Print Assumptions C85_exit_codes.

(** *** Witnesses *)
(** An enumeration and a number over ROS, the number with a type of the user's: the text of a message passes
    (up to a NUL); the user's function is called; without a type for the number it does not compile. *)
Definition cv_ctx (o : gostr) : cctx := Cctx [] (<[lit "mode" := (ty_enum, [])]> (<[lit "pos" := (ty_arithmos DInt, o)]> ∅)) true.
Example C85_witness_ros : exists is is',
  read_header (convert_text VRos (cv_ctx (lit "std_msgs::Int32"))) = Some is /\ read_header (convert_text VRos (cv_ctx [])) = Some is' /\
  (forall user, call_conversion is user (lit "toMode") (VStr (lit "on")) = Some (VStr (lit "on")) /\
    call_conversion is user (lit "fromMode") (VStr (lit "on" ++ [byte 0] ++ lit "x")) = Some (VStr (lit "on")) /\
    call_conversion is user (lit "toPos") (VInt 5) = user (lit "toPos") (VInt 5) /\
    call_conversion is' user (lit "toPos") (VInt 5) = None) /\
  readable (cv_ctx (lit "std_msgs::Int32")) /\ apart (cv_ctx (lit "std_msgs::Int32")).
Proof.
  eexists _, _. split; [vm_compute; reflexivity|]. split; [vm_compute; reflexivity|]. split; [intros user; split_and!; vm_compute; reflexivity|]. split.
  - split; [|by intros i ?%elem_of_nil]. intros c t o H. unfold cv_ctx in H. cbn [cx_types] in H. apply lookup_insert_Some in H as [[<- H]|[_ H]].
    + injection H as <- <-. split; [split; [repeat constructor|by eexists _, _]|]. split_and!; apply not_elem_of_nil.
    + apply lookup_insert_Some in H as [[<- H]|[_ H]]; [|by rewrite lookup_empty in H]. injection H as <- <-. split; [split; [repeat constructor|by eexists _, _]|]. split_and!; by apply lit_not_in.
  - intros a b Ha Hb. unfold cv_ctx in Ha, Hb. cbn [cx_types] in Ha, Hb. rewrite !dom_insert, dom_empty in Ha, Hb. rewrite !elem_of_union, !elem_of_singleton, elem_of_empty in Ha, Hb.
    destruct Ha as [->|[->|[]]], Hb as [->|[->|[]]]; done.
Qed.
(** In the animate variant, the same number wraps around as an int does. *)
Example C85_witness_animate : exists is, read_header (convert_text VAnimate (cv_ctx [])) = Some is /\
  forall user, call_conversion is user (lit "toPos") (VInt (2 ^ 31)) = Some (VInt (- 2 ^ 31)) /\ call_conversion is user (lit "fromMode") (VStr (lit "a b")) = Some (VStr (lit "a b")).
Proof. eexists. split; [vm_compute; reflexivity|]. intros user. split; vm_compute; reflexivity. Qed.
(** The run of C82's witness: c has a type of the user's. *)
Definition same_user (types : type_map) (f : gostr) (x : cval) : option cval :=
  t ← types !! lit "c"; match x with VInt z => val <$> pass_value t (IntV z) | VStr s => val <$> pass_value t (EnumV s) | _ => None end.
Example C85_witness_chain : forall first second, exists stms_text s f' h htext is p,
  run_gen (read_config first second) gen_input run_ord ex_home stms_text chain_act chain_fs = (f', None) /\ gen_input stms_text = Some s /\
  fs_files f' !! [lit "home"; lit "out"; lit "animate"; lit "src"; lit "convert"; lit "convert.h"] = Some h /\ content_text h = Some htext /\ read_header htext = Some is /\
  (exists x txt, fs_files f' !! [lit "home"; lit "out"; lit "animate"; lit "src"; lit "a"; lit "src"; lit "main.cpp"] = Some x /\ file_text (lit "today") x txt /\ read_cpp txt = Some p) /\
  let t := Forbidden (lit "a") [w_ev (lit "c") KIn (Some (IntV 3))] (w_ev (lit "d") KOut (Some (EnumV (lit "on")))) in
  forall ins script closed depth rounds, typed_as (fun c => c ∈ output_names (trace_events t)) (su_types s) ins script closed -> 4 <= depth -> length script < rounds ->
    (exists w, run_main p (call_conversion is (same_user (su_types s))) rounds depth ins = Fine (VInt 1) w) <-> reached t (trace_events t) script.
Proof.
  intros first second. assert (Ho : any_order map_to_list) by (intros m; unfold order_of; done).
  assert (Hgo : forall s, orders s (run_ord s)) by (by intros s i).
  destruct (C82_witness first second) as (x & y & s & f' & H1 & H2 & H3 & Er & _).
  destruct (C61_pipeline map_to_list some_orders w_file w_traces Ho some_orders_any w_file_read w_testable) as (x' & y' & s' & names & H1' & H2' & H3' & Hn & _).
  pose proof (w_names names Hn) as ->. clear x' y' s' H1' H2' H3'.
  assert (Hd : exists e, document first second chain_xml e /\ says_config e chain_conf) by (apply C81_only; vm_compute; reflexivity).
  destruct Hd as (e & Hd & Hs).
  assert (Hcwd : is_dir chain_fs ex_home) by (right; refine (bool_decide_eq_true_1 _ _); vm_compute; reflexivity).
  assert (Hin : names_stdin (ga_input chain_act)) by (by intros here).
  assert (Hnv : NoDup (map cc_variant (cf_cpps chain_conf))) by (apply (bool_decide_eq_true_1 _); vm_compute; reflexivity).
  assert (Hsep : code_dir ex_home (ga_config chain_act) chain_conf <> resolve ex_home (ga_output chain_act)) by (refine (bool_decide_eq_false_1 _ _); vm_compute; reflexivity).
  assert (Hcd : forall e, traces_event w_traces e -> ch_name (e_chan e) = lit "c" \/ ch_name (e_chan e) = lit "d").
  { intros ev (t & Ht & He). apply elem_of_list_In in Ht, He. destruct Ht as [<-|[<-|[]]]; cbn [trace_events app] in He.
    - destruct He as [<-|[<-|[]]]; [by left|by right].
    - destruct He as [<-|[<-|[<-|[]]]]; [by right|by left|by right]. }
  assert (Hapt : forall e1 e2, traces_event w_traces e1 -> traces_event w_traces e2 -> upcase_first (ch_name (e_chan e1)) = upcase_first (ch_name (e_chan e2)) -> ch_name (e_chan e1) = ch_name (e_chan e2)).
  { intros e1 e2 [E1|E1]%Hcd [E2|E2]%Hcd; rewrite E1, E2; done. }
  destruct (C85_exit_codes first second map_to_list some_orders run_ord w_file w_traces [lit "a"; lit "test0"] chain_xml e chain_conf chain_act ex_home chain_fs x y
     Ho some_orders_any Hgo w_file_read w_testable Hn chain_names Hapt chain_wf Hcwd Hin eq_refl Hd Hs Hnv Hsep H1 H2 f' Er
     (CppConfig VAnimate [] [(lit "c", lit "int")] true None) 0 _ (lit "a") ltac:(left) eq_refl eq_refl) as (s' & c & h & htext & is & Hs' & Hc & Hh & Hht & His & Hall).
  { intros ev [->| ->]%Hcd; vm_compute; split_and!; apply (bool_decide_eq_true_1 (_ ∉ _)); vm_compute; reflexivity. }
  { by intros i ?%elem_of_nil. }
  rewrite H3 in Hs'. injection Hs' as <-.
  assert (Hconf : forall n, configured (CppConfig VAnimate [] [(lit "c", lit "int")] true None) n <> [] -> n = lit "c").
  { intros n H. destruct (decide (n = lit "c")) as [|Hne]; [done|]. destruct H. unfold configured, last_override. cbn [cc_channels].
    rewrite filter_cons_False by (cbn [fst]; congruence). reflexivity. }
  assert (Hu : plain_user (su_types s) (fun n => configured (CppConfig VAnimate [] [(lit "c", lit "int")] true None) n <> []) (same_user (su_types s))).
  { split.
    - intros n t v w Ht ->%Hconf _ Hp. unfold same_user. rewrite Ht. cbn [mbind option_bind]. destruct v; cbn [val]; rewrite Hp; reflexivity.
    - intros n t v Ht ->%Hconf Hf. unfold same_user. rewrite Ht. cbn [mbind option_bind]. pose proof (fits_passed t v Hf) as Hp. destruct v; cbn [val]; rewrite Hp; reflexivity. }
  destruct (Hall (same_user (su_types s)) Hu ltac:(discriminate) (lit "today")) as [[txt Htxt] Hall'].
  { split; [by apply safeb_ok| |by intros i ?%elem_of_nil]; apply (bool_decide_eq_true_1 (_ ∉ _)); by vm_compute. }
  destruct (Hall' txt Htxt) as [Ha _]. destruct (Ha eq_refl) as (p & Hp & Hrun).
  exists y, s, f', h, htext, is, p. split; [exact Er|]. split; [exact H3|]. split; [exact Hh|]. split; [exact Hht|]. split; [exact His|].
  split; [exists c, txt; split; [exact Hc|split; [exact Htxt|exact Hp]]|]. exact Hrun.
Qed.
