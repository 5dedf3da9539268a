(** * convert.h: property C74 *)
From Verif Require Export PropXml SpecHeader.
From Verif Require Import PropGen PropConfig PropCmake CodecProofs.
From Verif Require Export StmProofs.

Lemma cut_last_none c (s : gostr) : c ∉ (s : list ascii) -> cut_last c s = None.
Proof.
  induction s as [|x s IH]; intros H; [done|]. apply not_elem_of_cons in H as [Hx H]. cbn. rewrite (IH H). destruct (Ascii.eqb_spec x c) as [->|]; done.
Qed.
Lemma cut_last_app c (a b : gostr) : c ∉ (b : list ascii) -> cut_last c (a ++ c :: b) = Some (a, b).
Proof.
  intros H. induction a as [|x a IH]; cbn; [by rewrite cut_last_none, Ascii.eqb_refl|by rewrite IH].
Qed.
Lemma ident_not_in s c : identifier s -> ident_char c = false -> c ∉ (s : list ascii).
Proof. intros [H _] Hc Hin. rewrite Forall_forall in H. apply H in Hin. by rewrite Hc in Hin. Qed.
Lemma ident_upcase s c : identifier s -> ident_char c = false -> c ∉ (upcase_first s : list ascii).
Proof.
  intros [H (x & r & -> & Hx)] Hc. cbn [upcase_first]. apply Forall_cons in H as [Hx' H]. apply not_elem_of_cons. split.
  - intros ->. revert Hx' Hc. clear. unfold upper_c, ident_char. destruct x as [[] [] [] [] [] [] [] []]; vm_compute; done.
  - intros Hin. rewrite Forall_forall in H. apply H in Hin. by rewrite Hc in Hin.
Qed.
(** The first character of the capitalised name. *)
Lemma upcase_head s : identifier s -> exists c r, upcase_first s = c :: r /\ ident_char c = true /\ is_digit c = false /\ c <> "/"%char /\ c <> "#"%char /\ c <> " "%char /\ c <> "{"%char /\ c <> "}"%char.
Proof.
  intros [H (x & r & -> & Hx)]. apply Forall_cons in H as [Hx' _]. exists (upper_c x), r. split; [done|]. revert Hx' Hx. clear.
  destruct x as [[] [] [] [] [] [] [] []]; vm_compute; (split_and!; done) || done.
Qed.

Definition chan := (gostr * (rstype * gostr))%type.
Definition good_chan (c : chan) : Prop := identifier c.1 /\ macro_text c.2.2.
Lemma std_type_not_in t c : c = "("%char \/ c = ")"%char \/ c = byte 10 -> c ∉ (std_type t : list ascii).
Proof. intros [->|[->| ->]]; unfold std_type; repeat case_match; by apply lit_not_in. Qed.
Definition includes_items (l : list include) : list item := map (fun i => IInclude (in_system i) (in_src i)) l.

(** Lines that are read one by one. *)
Definition simple (l : gostr) (i : option item) : Prop := read_hline l = Some (match i with Some i => HItem i | None => HSkip end).
Lemma read_simple l i ls is : simple l i -> read_hlines ls = Some (Outside, is) -> read_hlines (l :: ls) = Some (Outside, match i with Some i => i :: is | None => is end).
Proof. unfold simple. intros H1 H2. cbn [read_hlines]. rewrite H1, H2. by destruct i. Qed.
Lemma read_simples {A} (f : A -> gostr) (g : A -> item) l ls is : (forall x, x ∈ l -> simple (f x) (Some (g x))) -> read_hlines ls = Some (Outside, is) ->
  read_hlines (map f l ++ ls) = Some (Outside, map g l ++ is).
Proof.
  intros H E. induction l as [|x l IH]; [done|]. cbn [map app]. rewrite (read_simple (f x) (Some (g x)) _ (map g l ++ is)); [done|apply H; left|].
  apply IH. intros y Hy. apply H. by right.
Qed.
Lemma read_skips (sk : list gostr) ls is : Forall (fun l => simple l None) sk -> read_hlines ls = Some (Outside, is) -> read_hlines (sk ++ ls) = Some (Outside, is).
Proof. intros H E. induction H as [|l sk Hl _ IH]; [done|]. cbn [app]. exact (read_simple l None _ _ Hl IH). Qed.

Lemma after_none_lit (p s : gostr) : take (length p) s <> p -> after p s = None.
Proof. intros H. unfold after. by rewrite decide_False. Qed.
Lemma include_simple i : include_text (in_src i) -> simple (cv_include i) (Some (IInclude (in_system i) (in_src i))).
Proof.
  intros (_ & H1 & H2). unfold simple, cv_include. destruct (in_system i).
  - change (lit "#include <" ++ in_src i ++ lit ">") with (lit "#include " ++ "<"%char :: in_src i ++ ">"%char :: []).
    change (read_hline (lit "#include " ++ "<"%char :: in_src i ++ ">"%char :: [])) with (read_include ("<"%char :: in_src i ++ ">"%char :: [])).
    unfold read_include. rewrite decide_True by done. by rewrite cut_app.
  - change (lit "#include """ ++ in_src i ++ lit """") with (lit "#include " ++ byte 34 :: in_src i ++ byte 34 :: []).
    change (read_hline (lit "#include " ++ byte 34 :: in_src i ++ byte 34 :: [])) with (read_include (byte 34 :: in_src i ++ byte 34 :: [])).
    unfold read_include. rewrite decide_False by done. rewrite decide_True by done. by rewrite cut_app.
Qed.
Lemma define_simple (n v : gostr) : " "%char ∉ (n : list ascii) -> simple (lit "#define " ++ n ++ lit " " ++ v) (Some (IDefine n v)).
Proof.
  intros H. unfold simple. change (read_hline (lit "#define " ++ n ++ lit " " ++ v)) with (Some (read_define (n ++ lit " " ++ v))).
  unfold read_define. change (n ++ lit " " ++ v) with (n ++ " "%char :: v). by rewrite cut_app.
Qed.
Lemma read_fun_ok (ret name ptype pname tail : gostr) : "("%char ∉ (ret : list ascii) -> "("%char ∉ (name : list ascii) -> " "%char ∉ (name : list ascii) ->
  ")"%char ∉ (ptype : list ascii) -> ")"%char ∉ (pname : list ascii) -> " "%char ∉ (pname : list ascii) ->
  tail = [] \/ (exists r, tail = ";"%char :: r) ->
  read_fun (ret ++ lit " " ++ name ++ lit "(const " ++ ptype ++ lit " " ++ pname ++ lit ")" ++ tail) = Some (HFun ret name ptype pname (negb (bool_decide (tail = [])))).
Proof.
  intros H1 H2 H3 H4 H5 H6 Ht. unfold read_fun.
  replace (ret ++ lit " " ++ name ++ lit "(const " ++ ptype ++ lit " " ++ pname ++ lit ")" ++ tail) with ((ret ++ " "%char :: name) ++ "("%char :: (lit "const " ++ ptype ++ " "%char :: pname) ++ ")"%char :: tail)
    by (change (lit "(const ") with ("("%char :: lit "const "); change (lit " ") with [" "%char]; change (lit ")") with [")"%char]; repeat (rewrite <- app_assoc || cbn [app]); reflexivity).
  rewrite cut_app by (apply not_in_app; [done|]; apply not_elem_of_cons; done). rewrite cut_last_app by done.
  rewrite cut_app by (apply not_in_app; [by apply lit_not_in|]; apply not_in_app; [done|]; apply not_elem_of_cons; done).
  rewrite after_app, cut_last_app by done. destruct Ht as [->|[r ->]]; reflexivity.
Qed.
Definition fun_item (c : chan) (ret name ptype pname : gostr) (body : list gostr) : item := IFun ret name ptype pname (if has_override c.2 then None else Some body).
Lemma read_bodies b ls is : Forall (fun l => read_hline l = Some (HBody l)) b -> read_hlines ls = Some (Outside, is) -> read_hlines (b ++ lit "}" :: ls) = Some (InBody b, is).
Proof.
  intros H E. induction H as [|l b Hl _ IH]; [cbn [app read_hlines]; by rewrite E|]. cbn [app read_hlines]. by rewrite Hl, IH.
Qed.
Lemma read_cv_fun c ret name ptype pname body ls is :
  (forall tail, read_hline (ret ++ lit " " ++ name ++ lit "(const " ++ ptype ++ lit " " ++ pname ++ lit ")" ++ tail) = read_fun (ret ++ lit " " ++ name ++ lit "(const " ++ ptype ++ lit " " ++ pname ++ lit ")" ++ tail)) ->
  "("%char ∉ (ret : list ascii) -> "("%char ∉ (name : list ascii) -> " "%char ∉ (name : list ascii) ->
  ")"%char ∉ (ptype : list ascii) -> ")"%char ∉ (pname : list ascii) -> " "%char ∉ (pname : list ascii) ->
  Forall (fun l => read_hline l = Some (HBody l)) body -> read_hlines ls = Some (Outside, is) ->
  read_hlines (cv_fun c (ret ++ lit " " ++ name ++ lit "(const " ++ ptype ++ lit " " ++ pname ++ lit ")") body ++ ls) = Some (Outside, fun_item c ret name ptype pname body :: is).
Proof.
  intros Hh H1 H2 H3 H4 H5 H6 Hb E. unfold cv_fun, fun_item. destruct (has_override c.2).
  - cbn [app]. apply (read_simple [] None); [done|]. cbn [read_hlines].
    rewrite <- !app_assoc. rewrite Hh. rewrite read_fun_ok by (done || (right; by eexists)). rewrite E. reflexivity.
  - cbn [app]. apply (read_simple [] None); [done|]. rewrite <- app_assoc. 
    change (lit "}" :: ?x) with ([lit "}"] ++ x). cbn [read_hlines]. cbn [app].
    rewrite (read_bodies body ls is Hb E). specialize (Hh []). rewrite !app_nil_r in Hh. rewrite Hh.
    pose proof (read_fun_ok ret name ptype pname [] H1 H2 H3 H4 H5 H6 ltac:(by left)) as Hf. rewrite !app_nil_r in Hf. rewrite Hf. reflexivity.
Qed.

Lemma read_hline_fun c (r : gostr) : c <> "/"%char -> c <> "#"%char -> c <> " "%char -> c <> "{"%char -> c <> "}"%char -> read_hline (c :: r) = read_fun (c :: r).
Proof.
  intros H1 H2 H3 H4 H5. unfold read_hline. rewrite decide_False by done. rewrite decide_False by done. rewrite decide_False by done.
  rewrite decide_False by (change (lit "{") with ["{"%char]; congruence). rewrite decide_False by (change (lit "}") with ["}"%char]; congruence). done.
Qed.
Lemma app_head c (r s : gostr) : (c :: r) ++ s = c :: (r ++ s).
Proof. done. Qed.
Lemma std_type_head t : exists c r, std_type t = c :: r /\ c <> "/"%char /\ c <> "#"%char /\ c <> " "%char /\ c <> "{"%char /\ c <> "}"%char.
Proof. unfold std_type. repeat case_match; eexists _, _; (split; [reflexivity|]); split_and!; done. Qed.
Lemma cv_bodies v t : Forall (fun l => read_hline l = Some (HBody l)) (cv_from v t) /\ Forall (fun l => read_hline l = Some (HBody l)) (cv_to v t).
Proof. split; unfold cv_from, cv_to; repeat case_match; repeat constructor. Qed.

Definition from_item (v : variant) (c : chan) : item := fun_item c (std_type c.2.1) (convert_from c.1) (channel_msg_type c.1) (lit "msg") (cv_from v c.2.1).
Definition to_item (v : variant) (c : chan) : item := fun_item c (channel_value_type c.1) (convert_to c.1) (std_type c.2.1) (lit "value") (cv_to v c.2.1).
Lemma read_from v c ls is : good_chan c -> read_hlines ls = Some (Outside, is) -> read_hlines (cv_from_fun v c ++ ls) = Some (Outside, from_item v c :: is).
Proof.
  intros [Hi _] E. unfold cv_from_fun, from_item. change (lit " msg)") with (lit " " ++ lit "msg" ++ lit ")"). apply read_cv_fun; try exact E; try (by apply lit_not_in).
  - intros tail. destruct (std_type_head c.2.1) as (x & r & -> & ? & ? & ? & ? & ?). rewrite app_head. by apply read_hline_fun.
  - apply std_type_not_in. auto.
  - unfold convert_from. apply not_in_app; [by apply lit_not_in|]. by apply ident_upcase.
  - unfold convert_from. apply not_in_app; [by apply lit_not_in|]. by apply ident_upcase.
  - unfold channel_msg_type. apply not_in_app; [by apply ident_upcase|by apply lit_not_in].
  - apply cv_bodies.
Qed.
Lemma read_to v c ls is : good_chan c -> read_hlines ls = Some (Outside, is) -> read_hlines (cv_to_fun v c ++ ls) = Some (Outside, to_item v c :: is).
Proof.
  intros [Hi _] E. unfold cv_to_fun, to_item. change (lit " value)") with (lit " " ++ lit "value" ++ lit ")"). apply read_cv_fun; try exact E; try (by apply lit_not_in).
  - intros tail. unfold channel_value_type. destruct (upcase_head c.1 Hi) as (x & r & -> & ? & ? & ? & ? & ? & ? & ?). rewrite <- app_assoc, app_head. by apply read_hline_fun.
  - unfold channel_value_type. apply not_in_app; [by apply ident_upcase|by apply lit_not_in].
  - unfold convert_to. apply not_in_app; [by apply lit_not_in|]. by apply ident_upcase.
  - unfold convert_to. apply not_in_app; [by apply lit_not_in|]. by apply ident_upcase.
  - apply std_type_not_in. auto.
  - apply cv_bodies.
Qed.
Lemma read_funs (f : chan -> list gostr) (g : chan -> item) (l : list chan) ls is :
  (forall c ls is, c ∈ l -> read_hlines ls = Some (Outside, is) -> read_hlines (f c ++ ls) = Some (Outside, g c :: is)) ->
  read_hlines ls = Some (Outside, is) -> read_hlines (concat (map f l) ++ ls) = Some (Outside, map g l ++ is).
Proof.
  induction l as [|c l IH]; intros H E; [done|]. cbn [map concat app]. rewrite <- app_assoc. apply H; [left|]. apply IH; [|done]. intros ? ? ? Hc. apply H. by right.
Qed.

(** What the header of the given channels should have in it. *)
Definition val_item (v : variant) (c : chan) : item := IDefine (channel_value_type c.1) (if has_override c.2 then c.2.2 else cv_type v c.2.1).
Definition msg_item (v : variant) (c : chan) : item := IDefine (channel_msg_type c.1) (cv_msg_type v c.1).
Definition header_items (v : variant) (ctx : cctx) : list item :=
  let chans := range_map (cx_types ctx) in
  IDefine (lit "CONVERT_H_DEFINED") [] :: includes_items (cx_includes ctx) ++ map (val_item v) chans ++ map (msg_item v) chans ++ map (from_item v) chans ++ map (to_item v) chans.
Definition good_ctx (ctx : cctx) : Prop := Forall good_chan (range_map (cx_types ctx)) /\ Forall (fun i => include_text (in_src i)) (cx_includes ctx).

Lemma lines_read v ctx : good_ctx ctx -> read_hlines (convert_lines v ctx) = Some (Outside, header_items v ctx).
Proof.
  intros [Hc0 Hi0]. pose proof (proj1 (Forall_forall _ _) Hc0) as Hc. pose proof (proj1 (Forall_forall _ _) Hi0) as Hi. cbn beta in Hi. unfold convert_lines, header_items. cbv zeta.
  match goal with |- read_hlines (?a ++ _) = _ => change a with ([lit "//"; lit "// Conversion functions"; lit "//"; lit ""; lit "#ifndef CONVERT_H_DEFINED"] ++ [lit "#define CONVERT_H_DEFINED"] ++ [lit ""]) end.
  rewrite <- !app_assoc. apply read_skips; [repeat constructor|].
  apply (read_simple (lit "#define CONVERT_H_DEFINED") (Some (IDefine (lit "CONVERT_H_DEFINED") []))); [done|].
  apply read_skips; [repeat constructor|].
  apply read_simples; [intros i Hin; by apply include_simple, Hi|].
  apply read_skips; [repeat constructor|].
  apply (read_simples (cv_val_define v) (val_item v)).
  { intros c Hin. apply define_simple. destruct (Hc _ Hin). unfold channel_value_type. apply not_in_app; [by apply ident_upcase|by apply lit_not_in]. }
  apply read_skips; [repeat constructor|].
  apply (read_simples (cv_msg_define v) (msg_item v)).
  { intros c Hin. apply define_simple. destruct (Hc _ Hin). unfold channel_msg_type. apply not_in_app; [by apply ident_upcase|by apply lit_not_in]. }
  apply read_skips; [repeat constructor|].
  apply (read_funs (cv_from_fun v) (from_item v)).
  { intros c ls is Hin. by apply read_from, Hc. }
  apply read_skips; [repeat constructor|].
  rewrite <- (app_nil_r (map (to_item v) _)). apply (read_funs (cv_to_fun v) (to_item v)).
  { intros c ls is Hin. by apply read_to, Hc. }
  apply (read_skips [lit ""; lit "#endif // CONVERT_H_DEFINED"; lit ""] [] []); [repeat constructor|done].
Qed.

(** ** No line break in a line *)
Lemma std_type_lf t : byte 10 ∉ (std_type t : list ascii).
Proof. apply std_type_not_in. auto. Qed.
Lemma ident_lf n : identifier n -> byte 10 ∉ (upcase_first n : list ascii).
Proof. intros H. by apply ident_upcase. Qed.
Lemma no_lf_lits (l : list gostr) : forallb (fun a => negb (bool_decide (byte 10 ∈ (a : list ascii)))) l = true -> Forall (fun a : gostr => byte 10 ∉ (a : list ascii)) l.
Proof. rewrite forallb_forall. intros H. apply Forall_forall. intros x Hx%elem_of_list_In. apply H, negb_true_iff in Hx. by apply lit_not_in. Qed.
Lemma no_lf_map {A} (f : A -> gostr) l : (forall x, x ∈ l -> byte 10 ∉ (f x : list ascii)) -> Forall (fun a : gostr => byte 10 ∉ (a : list ascii)) (map f l).
Proof. intros H. apply Forall_forall. intros y Hy. apply elem_of_list_In, in_map_iff in Hy as (x & <- & Hx%elem_of_list_In). by apply H. Qed.
Lemma no_lf_concat {A} (f : A -> list gostr) l : (forall x, x ∈ l -> Forall (fun a : gostr => byte 10 ∉ (a : list ascii)) (f x)) -> Forall (fun a : gostr => byte 10 ∉ (a : list ascii)) (concat (map f l)).
Proof. induction l as [|x l IH]; intros H; [constructor|]. cbn [map concat]. apply Forall_app. split; [apply H; left|]. apply IH. intros y Hy. apply H. by right. Qed.
Lemma no_lf_fun c (head : gostr) body : byte 10 ∉ (head : list ascii) -> Forall (fun a : gostr => byte 10 ∉ (a : list ascii)) body ->
  Forall (fun a : gostr => byte 10 ∉ (a : list ascii)) (cv_fun c head body).
Proof.
  intros H1 H2. unfold cv_fun. constructor; [apply not_elem_of_nil|]. destruct (has_override c.2).
  - repeat constructor. apply not_in_app; [done|by apply lit_not_in].
  - constructor; [done|]. constructor; [by apply lit_not_in|]. apply Forall_app. split; [done|]. by apply no_lf_lits.
Qed.
Lemma no_lf_lines v ctx : good_ctx ctx -> Forall (fun a : gostr => byte 10 ∉ (a : list ascii)) (convert_lines v ctx).
Proof.
  intros [Hc0 Hi0]. pose proof (proj1 (Forall_forall _ _) Hc0) as Hc. pose proof (proj1 (Forall_forall _ _) Hi0) as Hi. cbn beta in Hi.
  unfold convert_lines. cbv zeta. repeat (apply Forall_app; split); try (by apply no_lf_lits).
  - apply no_lf_map. intros i Hin. destruct (Hi i Hin) as (H & _). unfold cv_include. case_match; (apply not_in_app; [by apply lit_not_in|]; apply not_in_app; [done|by apply lit_not_in]).
  - apply no_lf_map. intros c Hin. destruct (Hc c Hin) as [Hid (Hm & _)]. unfold cv_val_define, channel_value_type. apply not_in_app; [by apply lit_not_in|].
    apply not_in_app; [apply not_in_app; [by apply ident_lf|by apply lit_not_in]|]. apply not_in_app; [by apply lit_not_in|]. case_match; [done|]. unfold cv_type. destruct v; try apply std_type_lf. by apply lit_not_in.
  - apply no_lf_map. intros c Hin. destruct (Hc c Hin) as [Hid (Hm & _)]. unfold cv_msg_define, channel_msg_type, cv_msg_type, channel_value_type. apply not_in_app; [by apply lit_not_in|].
    apply not_in_app; [apply not_in_app; [by apply ident_lf|by apply lit_not_in]|]. apply not_in_app; [by apply lit_not_in|].
    destruct v; repeat (apply not_in_app; [first [by apply ident_lf|apply not_in_app; [by apply ident_lf|by apply lit_not_in]]|]); by apply lit_not_in.
  - apply no_lf_concat. intros c Hin. destruct (Hc c Hin) as [Hid _]. apply no_lf_fun.
    + apply not_in_app; [apply std_type_lf|]. apply not_in_app; [by apply lit_not_in|]. unfold convert_from. apply not_in_app; [apply not_in_app; [by apply lit_not_in|by apply ident_lf]|].
      apply not_in_app; [by apply lit_not_in|]. unfold channel_msg_type. apply not_in_app; [apply not_in_app; [by apply ident_lf|by apply lit_not_in]|by apply lit_not_in].
    + unfold cv_from. destruct v; try case_match; by apply no_lf_lits.
  - apply no_lf_concat. intros c Hin. destruct (Hc c Hin) as [Hid _]. apply no_lf_fun.
    + unfold channel_value_type. apply not_in_app; [apply not_in_app; [by apply ident_lf|by apply lit_not_in]|]. apply not_in_app; [by apply lit_not_in|].
      unfold convert_to. apply not_in_app; [apply not_in_app; [by apply lit_not_in|by apply ident_lf]|].
      apply not_in_app; [by apply lit_not_in|]. apply not_in_app; [apply std_type_lf|by apply lit_not_in].
    + unfold cv_to. destruct v; try case_match; by apply no_lf_lits.
Qed.
Lemma header_read v ctx : good_ctx ctx -> read_header (convert_text v ctx) = Some (header_items v ctx).
Proof.
  intros H. unfold read_header, lines_of, convert_text. change newline with [byte 10]. rewrite split_join; [by rewrite lines_read|done|by apply no_lf_lines].
Qed.

(** ** The parts of the header *)
Lemma omap_map {A B C} (f : B -> option C) (g : A -> B) l : omap f (map g l) = omap (fun x => f (g x)) l.
Proof. induction l as [|x l IH]; [done|]. cbn. by rewrite IH. Qed.
Lemma omap_total {A B} (f : A -> option B) (g : A -> B) l : (forall x, f x = Some (g x)) -> omap f l = map g l.
Proof. intros H. induction l as [|x l IH]; [done|]. cbn. by rewrite H, IH. Qed.
Lemma omap_none {A B} (f : A -> option B) l : (forall x, f x = None) -> omap f l = [].
Proof. intros H. induction l as [|x l IH]; [done|]. cbn. by rewrite H. Qed.
Lemma header_includes v ctx : includes_of (header_items v ctx) = map (fun i => (in_system i, in_src i)) (cx_includes ctx).
Proof.
  unfold includes_of, header_items, includes_items. cbv zeta. change (omap ?f (?x :: ?l)) with (omap f l). rewrite !omap_app, !omap_map.
  rewrite (omap_total _ (fun i => (in_system i, in_src i))) by done. rewrite !omap_none by done. by rewrite !app_nil_r.
Qed.
Lemma header_macros v ctx : macros (header_items v ctx) = (lit "CONVERT_H_DEFINED", []) ::
  map (fun c : chan => (channel_value_type c.1, if has_override c.2 then c.2.2 else cv_type v c.2.1)) (range_map (cx_types ctx)) ++
  map (fun c : chan => (channel_msg_type c.1, cv_msg_type v c.1)) (range_map (cx_types ctx)).
Proof.
  unfold macros, header_items, includes_items. cbv zeta. match goal with |- omap ?f (?x :: ?l) = _ => change (omap f (x :: l)) with ((lit "CONVERT_H_DEFINED", []) :: omap f l) end.
  rewrite !omap_app, !omap_map. f_equal.
  rewrite omap_none by done. cbn [app]. rewrite (omap_total _ (fun c : chan => (channel_value_type c.1, if has_override c.2 then c.2.2 else cv_type v c.2.1))) by done.
  rewrite (omap_total _ (fun c : chan => (channel_msg_type c.1, cv_msg_type v c.1))) by done. rewrite !omap_none by done. by rewrite !app_nil_r.
Qed.
Lemma header_functions v ctx : functions (header_items v ctx) = map (fun c : chan => convert_from c.1) (range_map (cx_types ctx)) ++ map (fun c : chan => convert_to c.1) (range_map (cx_types ctx)).
Proof.
  unfold functions, header_items, includes_items. cbv zeta. change (omap ?f (?x :: ?l)) with (omap f l). rewrite !omap_app, !omap_map.
  rewrite (omap_none _ (cx_includes ctx)) by done. rewrite (omap_none (fun x : chan => match val_item v x with IFun _ n _ _ _ => Some n | _ => None end)) by done.
  rewrite (omap_none (fun x : chan => match msg_item v x with IFun _ n _ _ _ => Some n | _ => None end)) by done. cbn [app].
  rewrite (omap_total _ (fun c : chan => convert_from c.1)) by done. by rewrite (omap_total _ (fun c : chan => convert_to c.1)) by done.
Qed.

(** ** C74 *)
Lemma if_override {A} t (o : gostr) (a b : A) : o <> [] -> (if has_override (t, o) then a else b) = a.
Proof. intros H. unfold has_override. cbn [snd]. by rewrite bool_decide_eq_false_2. Qed.
(** Channels with names that are identifiers, overrides of one line, and includes without quotes. *)
Definition readable (ctx : cctx) : Prop :=
  (forall c t o, cx_types ctx !! c = Some (t, o) -> identifier c /\ macro_text o) /\ (forall i, i ∈ cx_includes ctx -> include_text (in_src i)).
Lemma readable_good ctx : readable ctx -> good_ctx ctx.
Proof.
  intros [H1 H2]. split; [|by apply Forall_forall]. apply Forall_forall. intros [c [t o]] Hin. apply (CodecProofs.range_map_elem (cx_types ctx)) in Hin. exact (H1 c t o Hin).
Qed.
(** The header, as a compiler reads it: the configured includes in their order; a value and a message type
    for every channel, the value type being the override if there is one, std_msgs::String for ROS and the
    C++ type otherwise; and for every channel a function each way, without a body exactly if there is an
    override.  There is nothing else in it. *)
Theorem C74_header : forall v ctx, readable ctx -> exists is, read_header (convert_text v ctx) = Some is /\
  includes_of is = map (fun i => (in_system i, in_src i)) (cx_includes ctx) /\
  (forall n x, (n, x) ∈ macros is <-> (n = lit "CONVERT_H_DEFINED" /\ x = []) \/ exists c t o, cx_types ctx !! c = Some (t, o) /\
     ((n = upcase_first c ++ lit "Val" /\ (o <> [] /\ x = o \/ o = [] /\ x = match v with VRos => lit "std_msgs::String" | _ => std_type t end)) \/
      (n = upcase_first c ++ lit "Msg" /\ x = match v with VRos => upcase_first c ++ lit "Val::ConstPtr&" | _ => upcase_first c ++ lit "Val" end))) /\
  (forall ret n pt pn body, IFun ret n pt pn body ∈ is <-> exists c t o, cx_types ctx !! c = Some (t, o) /\
     ((n = lit "from" ++ upcase_first c /\ ret = std_type t /\ pt = upcase_first c ++ lit "Msg" /\ pn = lit "msg" /\
       (o <> [] /\ body = None \/ o = [] /\ exists b, body = Some b /\ b = cv_from v t)) \/
      (n = lit "to" ++ upcase_first c /\ ret = upcase_first c ++ lit "Val" /\ pt = std_type t /\ pn = lit "value" /\
       (o <> [] /\ body = None \/ o = [] /\ exists b, body = Some b /\ b = cv_to v t)))).
Proof.
  intros v ctx Hr. exists (header_items v ctx). split; [by apply header_read, readable_good|]. split; [apply header_includes|].
  assert (Hov : forall t o, has_override (t, o) = true <-> o <> []) by (intros t o; unfold has_override; cbn [snd]; rewrite negb_true_iff; apply bool_decide_eq_false).
  split.
  - intros n x. rewrite header_macros, elem_of_cons, elem_of_app. split.
    + intros [[= -> ->]|[H|H]]; [by left|right|right]; apply elem_of_list_In, in_map_iff in H as ([c [t o]] & [= <- <-] & Hin%elem_of_list_In);
        apply (CodecProofs.range_map_elem (cx_types ctx)) in Hin; exists c, t, o; (split; [done|]).
      * left. split; [done|]. cbn [fst snd]. destruct (has_override (t, o)) eqn:E; [left; split; [by apply Hov in E|done]|]. right. split; [|by destruct v].
        destruct o; [done|]. by rewrite (proj2 (Hov t (a :: o))) in E.
      * right. split; [done|]. destruct v; try done. unfold cv_msg_type, channel_value_type. cbn [fst]. rewrite <- app_assoc. done.
    + intros [[-> ->]|(c & t & o & Hl & H)]; [by left|right]. apply (CodecProofs.range_map_elem (cx_types ctx)) in Hl. destruct H as [[-> H]|[-> ->]]; [left|right].
      * apply elem_of_list_In, in_map_iff. exists (c, (t, o)). split; [|by apply elem_of_list_In]. cbn [fst snd]. unfold channel_value_type. f_equal.
        destruct H as [[Ho ->]|[-> ->]]; [exact (if_override t o _ _ Ho)|]. by destruct v.
      * apply elem_of_list_In, in_map_iff. exists (c, (t, o)). split; [|by apply elem_of_list_In]. cbn [fst snd]. unfold channel_msg_type. f_equal.
        destruct v; try done. unfold cv_msg_type, channel_value_type. rewrite <- app_assoc. done.
  - intros ret n pt pn body. unfold header_items. cbv zeta. rewrite elem_of_cons, !elem_of_app. split.
    + intros [H|[H|[H|[H|[H|H]]]]]; [done| | | | |];
        try (apply elem_of_list_In, in_map_iff in H as (? & H & _); done);
        apply elem_of_list_In, in_map_iff in H as ([c [t o]] & H & Hin%elem_of_list_In); injection H as <- <- <- <- <-;
        apply (CodecProofs.range_map_elem (cx_types ctx)) in Hin; exists c, t, o; (split; [done|]); [left|right]; (do 4 (split; [done|])); cbn [fst snd];
        (destruct (has_override (t, o)) eqn:E; [left; split; [by apply Hov in E|done]|]; right; split; [destruct o; [done|]; by rewrite (proj2 (Hov t (a :: o))) in E|by eexists]).
    + intros (c & t & o & Hl & H). apply (CodecProofs.range_map_elem (cx_types ctx)) in Hl. do 4 right. destruct H as [(-> & -> & -> & -> & H)|(-> & -> & -> & -> & H)]; [left|right].
      * apply elem_of_list_In, in_map_iff. exists (c, (t, o)). split; [|by apply elem_of_list_In]. unfold from_item, fun_item. cbn [fst snd]. f_equal.
        destruct H as [[Ho ->]|[-> (b & -> & ->)]]; [exact (if_override t o _ _ Ho)|done].
      * apply elem_of_list_In, in_map_iff. exists (c, (t, o)). split; [|by apply elem_of_list_In]. unfold to_item, fun_item. cbn [fst snd]. f_equal.
        destruct H as [[Ho ->]|[-> (b & -> & ->)]]; [exact (if_override t o _ _ Ho)|done].
Qed.
Print Assumptions C74_header.
(** The functions written out give back their argument; for ROS they give back the text of a string message, and
    the other way round they give back a string message only for enumerations: for numbers, the bare number,
    which is no string message. *)
Theorem C74_bodies : forall v t, valid_variant v ->
  returned (cv_from v t) = Some (match v with VRos => if decide (t_kind t = TEnum) then lit "std::string(msg->data.c_str())" else lit "msg->data" | _ => lit "msg" end) /\
  returned (cv_to v t) = Some (match v with VRos => if decide (t_kind t = TEnum) then lit "msg" else lit "value" | _ => lit "value" end).
Proof. intros v [[] d] [->| ->]; split; vm_compute; reflexivity. Qed.
Print Assumptions C74_bodies.

Lemma upcase_app_inj (f : gostr -> gostr) (l : list chan) : (forall a b, f a = f b <-> upcase_first a = upcase_first b) -> NoDup (map fst l) ->
  (NoDup (map (fun c : chan => f c.1) l) <-> (forall a b, a ∈ map fst l -> b ∈ map fst l -> upcase_first a = upcase_first b -> a = b)).
Proof.
  intros Hf Hnd. split.
  - intros H a b Ha Hb E. induction l as [|x l IH]; [by apply elem_of_nil in Ha|]. cbn [map] in *. apply NoDup_cons in H as [Hn H]. apply NoDup_cons in Hnd as [Hx Hnd].
    assert (Hin : forall y, y ∈ map fst l -> f y ∈ map (fun c : chan => f c.1) l).
    { intros y Hy. apply elem_of_list_In, in_map_iff in Hy as (c & <- & Hc). apply elem_of_list_In, in_map_iff. by exists c. }
    apply elem_of_cons in Ha as [Ea|Ha]; apply elem_of_cons in Hb as [Eb|Hb]; [congruence|subst a|subst b|by apply IH].
    + destruct Hn. apply Hf in E. rewrite E. by apply Hin.
    + destruct Hn. apply Hf in E. rewrite <- E. by apply Hin.
  - intros H. induction l as [|x l IH]; [constructor|]. cbn [map] in *. apply NoDup_cons in Hnd as [Hx Hnd]. constructor.
    + intros Hin. apply elem_of_list_In, in_map_iff in Hin as (c & E & Hc%elem_of_list_In). apply Hf in E. destruct Hx.
      assert (Hc1 : c.1 ∈ map fst l) by (apply elem_of_list_In, in_map_iff; exists c; split; [done|by apply elem_of_list_In]).
      assert (c.1 = x.1) as <- by (apply H; [by right|left|exact E]). exact Hc1.
    + apply IH; [done|]. intros a b Ha Hb. apply H; by right.
Qed.
(** Nothing is defined twice exactly if no two channels differ only in the case of their first letter. *)
Theorem C74_distinct : forall v ctx is, readable ctx -> read_header (convert_text v ctx) = Some is ->
  let apart := forall a b, a ∈ dom (cx_types ctx) -> b ∈ dom (cx_types ctx) -> upcase_first a = upcase_first b -> a = b in
  (NoDup (functions is) <-> apart) /\ (NoDup (map fst (macros is)) <-> apart).
Proof.
  intros v ctx is Hr E apart. rewrite (header_read v ctx (readable_good ctx Hr)) in E. injection E as <-. rewrite header_functions, header_macros.
  assert (Hnd : NoDup (map fst (range_map (cx_types ctx)))) by apply CodecProofs.range_map_nodup.
  assert (Hdom : forall a, a ∈ map fst (range_map (cx_types ctx)) <-> a ∈ dom (cx_types ctx)).
  { intros a. rewrite elem_of_dom. split.
    - intros H. apply elem_of_list_In, in_map_iff in H as ([c t] & <- & Hc%elem_of_list_In). apply (CodecProofs.range_map_elem (cx_types ctx)) in Hc. by eexists.
    - intros [t H]. apply (CodecProofs.range_map_elem (cx_types ctx)) in H. apply elem_of_list_In, in_map_iff. exists (a, t). split; [done|by apply elem_of_list_In]. }
  assert (Hap : apart <-> (forall a b, a ∈ map fst (range_map (cx_types ctx)) -> b ∈ map fst (range_map (cx_types ctx)) -> upcase_first a = upcase_first b -> a = b)).
  { unfold apart. split; intros H a b Ha Hb; apply H; by apply Hdom. }
  rewrite Hap. clear Hap Hdom. split.
  - rewrite NoDup_app. rewrite (upcase_app_inj convert_from), (upcase_app_inj convert_to) by (done || (intros a b; unfold convert_from, convert_to; split; [apply app_inv_head|by intros ->])).
    split; [by intros [? _]|]. intros H. split; [done|]. split; [|done]. intros x Hx Hy.
    apply elem_of_list_In, in_map_iff in Hx as (c & <- & _). apply elem_of_list_In, in_map_iff in Hy as (d & E & _). discriminate E.
  - cbn [map fst]. rewrite map_app, !map_map. cbn [fst]. rewrite NoDup_cons, NoDup_app.
    rewrite (upcase_app_inj channel_value_type), (upcase_app_inj channel_msg_type) by (done || (intros a b; unfold channel_value_type, channel_msg_type; split; [apply app_inv_tail|by intros ->])).
    split; [by intros (_ & ? & _)|]. intros H. split; [|split; [done|split; [|done]]].
    + rewrite elem_of_app. intros [Hx|Hx]; apply elem_of_list_In, in_map_iff in Hx as (c & E & _); apply (f_equal (@reverse ascii)) in E; unfold channel_value_type, channel_msg_type in E; rewrite reverse_app in E; discriminate E.
    + intros x Hx Hy. apply elem_of_list_In, in_map_iff in Hx as (c & <- & _). apply elem_of_list_In, in_map_iff in Hy as (d & E & _).
      apply (f_equal (@reverse ascii)) in E. unfold channel_value_type, channel_msg_type in E. rewrite !reverse_app in E. discriminate E.
Qed.
Print Assumptions C74_distinct.
(** After a successful run the header is there, and what it has in it is settled by the suite's types and the
    configuration's channels (the last entry of a channel counts, and an empty one counts as none). *)
Definition configured (cc : cpp_config) (n : gostr) : gostr := default [] (last_override cc n).
Theorem C74_generated : forall cwd c out s ord f f' cc,
  sane c s -> separate cwd c out -> orders s ord -> generate cwd c out s ord f = (f', None) -> cc ∈ cf_cpps c ->
  (forall n, n ∈ dom (su_types s) -> identifier n /\ macro_text (configured cc n)) -> (forall i, i ∈ cc_includes cc -> include_text (in_src i)) ->
  exists x text is, fs_files f' !! (resolve cwd out ++ [variant_string (cc_variant cc); lit "src"; lit "convert"; lit "convert.h"]) = Some x /\
    content_text x = Some text /\ read_header text = Some is /\
    includes_of is = map (fun i => (in_system i, in_src i)) (cc_includes cc) /\
    (forall n t, su_types s !! n = Some t ->
       (upcase_first n ++ lit "Val", if decide (configured cc n = []) then match cc_variant cc with VRos => lit "std_msgs::String" | _ => std_type t end else configured cc n) ∈ macros is /\
       upcase_first n ++ lit "Msg" ∈ map fst (macros is)) /\
    (forall g, g ∈ functions is <-> exists n, n ∈ dom (su_types s) /\ (g = lit "from" ++ upcase_first n \/ g = lit "to" ++ upcase_first n)) /\
    (forall g, g ∈ defined is <-> exists n, n ∈ dom (su_types s) /\ configured cc n = [] /\ (g = lit "from" ++ upcase_first n \/ g = lit "to" ++ upcase_first n)).
Proof.
  intros cwd c out s ord f f' cc Hs Hio Ho E Hcc Hch Hin.
  destruct (C55_process cc (su_types s) _ (reflexivity _)) as (_ & Hinc & Hd & Hl & _). set (ctx := process cc (su_types s)) in *.
  assert (Hlk : forall n p, cx_types ctx !! n = Some p <-> exists t, su_types s !! n = Some t /\ p = (t, configured cc n)).
  { intros n p. split.
    - intros H. assert (Hn : n ∈ dom (su_types s)) by (rewrite <- Hd; apply elem_of_dom; by exists p). apply elem_of_dom in Hn as [t Ht].
      exists t. split; [done|]. pose proof (Hl n t Ht) as H'. apply (inj Some). exact (eq_trans (eq_sym H) H').
    - intros (t & Ht & ->). exact (Hl n t Ht). }
  assert (Hr : readable ctx).
  { split; [|by rewrite Hinc]. intros n t o H. apply Hlk in H as (t' & Ht & Hp). injection Hp as -> ->. apply Hch. apply elem_of_dom. by exists t'. }
  destruct (C74_header (cc_variant cc) ctx Hr) as (is & H1 & H2 & H3 & H4).
  destruct (C51_contents cwd c out s ord f f' cc Hs Hio Ho E Hcc) as [Hsh _]. cbn zeta in Hsh.
  exists (CConvertH (cc_variant cc) ctx), (convert_text (cc_variant cc) ctx), is. split.
  { specialize (Hsh [lit "src"; lit "convert"; lit "convert.h"] (CConvertH (cc_variant cc) ctx)). rewrite <- app_assoc in Hsh. apply Hsh. unfold shared_files. cbn zeta. apply elem_of_app. left. do 2 right. by left. }
  split; [done|]. split; [done|]. split; [by rewrite H2, Hinc|].
  assert (Hf : forall g, g ∈ functions is <-> exists ret pt pn b, IFun ret g pt pn b ∈ is).
  { intros g. unfold functions. rewrite elem_of_list_omap. split; [intros ([| |ret n pt pn b] & Hi & [= <-]); by exists ret, pt, pn, b|]. intros (ret & pt & pn & b & Hi). by exists (IFun ret g pt pn b). }
  assert (Hf' : forall g, g ∈ defined is <-> exists ret pt pn b, IFun ret g pt pn (Some b) ∈ is).
  { intros g. unfold defined. rewrite elem_of_list_omap. split; [intros ([| |ret n pt pn [b|]] & Hi & [= <-]); by exists ret, pt, pn, b|]. intros (ret & pt & pn & b & Hi). by exists (IFun ret g pt pn (Some b)). }
  split; [|split].
  - intros n t Ht. assert (Hx : cx_types ctx !! n = Some (t, configured cc n)) by (apply Hlk; by exists t). split.
    + apply H3. right. exists n, t, (configured cc n). split; [done|]. left. split; [done|]. destruct (decide _); [by right|by left].
    + apply elem_of_list_In, in_map_iff. eexists (_, _). split; [|apply elem_of_list_In, H3; right; exists n, t, (configured cc n); split; [exact Hx|]; right; split; reflexivity]. done.
  - intros g. rewrite Hf. split.
    + intros (ret & pt & pn & b & Hi). apply H4 in Hi as (n & t & o & Hx & Hi). apply Hlk in Hx as (t' & Ht & _). exists n. split; [apply elem_of_dom; by exists t'|].
      destruct Hi as [(-> & _)|(-> & _)]; [by left|by right].
    + intros (n & Hn & Hg). apply elem_of_dom in Hn as [t Ht]. assert (Hx : cx_types ctx !! n = Some (t, configured cc n)) by (apply Hlk; by exists t).
      destruct (decide (configured cc n = [])) as [Ho'|Ho'], Hg as [->| ->]; do 3 eexists.
      * eexists. apply H4. exists n, t, (configured cc n). split; [done|]. left. do 4 (split; [reflexivity|]). right. split; [done|]. by eexists.
      * eexists. apply H4. exists n, t, (configured cc n). split; [done|]. right. do 4 (split; [reflexivity|]). right. split; [done|]. by eexists.
      * exists None. apply H4. exists n, t, (configured cc n). split; [done|]. left. do 4 (split; [reflexivity|]). by left.
      * exists None. apply H4. exists n, t, (configured cc n). split; [done|]. right. do 4 (split; [reflexivity|]). by left.
  - intros g. rewrite Hf'. split.
    + intros (ret & pt & pn & b & Hi). apply H4 in Hi as (n & t & o & Hx & Hi). apply Hlk in Hx as (t' & Ht & Hp). injection Hp as -> ->. exists n. split; [apply elem_of_dom; by exists t'|].
      destruct Hi as [(-> & _ & _ & _ & [[_ ?]|[? _]])|(-> & _ & _ & _ & [[_ ?]|[? _]])]; try done; (split; [done|]); [by left|by right].
    + intros (n & Hn & Ho' & Hg). apply elem_of_dom in Hn as [t Ht]. assert (Hx : cx_types ctx !! n = Some (t, configured cc n)) by (apply Hlk; by exists t).
      destruct Hg as [->| ->]; do 4 eexists; apply H4; exists n, t, (configured cc n); (split; [exact Hx|]); [left|right]; do 4 (split; [reflexivity|]); right; (split; [exact Ho'|]); by eexists.
Qed.
Print Assumptions C74_generated.
(** Functions written out are ordinary functions in a header: if a program has two source files that include
    it, it links only if every channel has an override. *)
Definition linked (units : list (list gostr)) : Prop := NoDup (concat units).
Theorem C74_two_units : forall v ctx is a b, readable ctx -> read_header (convert_text v ctx) = Some is ->
  linked [a ++ defined is; b ++ defined is] -> forall c t o, cx_types ctx !! c = Some (t, o) -> o <> [].
Proof.
  intros v ctx is a b Hr E Hl c t o Hc ->. destruct (C74_header v ctx Hr) as (is' & E' & _ & _ & H4). rewrite E in E'. injection E' as <-.
  assert (Hd : lit "from" ++ upcase_first c ∈ defined is).
  { unfold defined. apply elem_of_list_omap. eexists (IFun _ _ _ _ (Some _)). split; [|reflexivity]. apply H4. exists c, t, []. split; [done|]. left. do 4 (split; [reflexivity|]). right. split; [done|]. by eexists. }
  unfold linked in Hl. cbn [concat] in Hl. rewrite app_nil_r in Hl. apply NoDup_app in Hl as (_ & Hl & _). apply (Hl (lit "from" ++ upcase_first c)); apply elem_of_app; by right.
Qed.
Print Assumptions C74_two_units.
(** Witnesses: a header for two channels, one with an override; and the clash. *)
Definition ex_ctx : cctx := Cctx [Include (lit "vector") true; Include (lit "my/types.h") false]
  (<[lit "pos" := (ty_arithmos DReal, [])]> (<[lit "mode" := (ty_enum, lit "my::Mode<int>")]> ∅)) true.
Lemma ex_ctx_readable : readable ex_ctx.
Proof.
  split.
  - intros c t o H. unfold ex_ctx in H. cbn [cx_types] in H. apply lookup_insert_Some in H as [[<- H]|[_ H]].
    + injection H as <- <-. split; [split; [repeat constructor|by eexists _, _]|]. split_and!; apply not_elem_of_nil.
    + apply lookup_insert_Some in H as [[<- H]|[_ H]]; [|by rewrite lookup_empty in H]. injection H as <- <-. split; [split; [repeat constructor|by eexists _, _]|]. split_and!; by apply lit_not_in.
  - intros i H. unfold ex_ctx in H. cbn [cx_includes] in H. rewrite !elem_of_cons, elem_of_nil in H. destruct H as [->|[->|[]]]; split_and!; by apply lit_not_in.
Qed.
Example C74_witness : readable ex_ctx /\
  read_header (convert_text VAnimate ex_ctx) = Some
    [IDefine (lit "CONVERT_H_DEFINED") []; IInclude true (lit "vector"); IInclude false (lit "my/types.h");
     IDefine (lit "ModeVal") (lit "my::Mode<int>"); IDefine (lit "PosVal") (lit "double");
     IDefine (lit "ModeMsg") (lit "ModeVal"); IDefine (lit "PosMsg") (lit "PosVal");
     IFun (lit "std::string") (lit "fromMode") (lit "ModeMsg") (lit "msg") None;
     IFun (lit "double") (lit "fromPos") (lit "PosMsg") (lit "msg") (Some [lit "  return msg;  // No conversion required for animate"]);
     IFun (lit "ModeVal") (lit "toMode") (lit "std::string") (lit "value") None;
     IFun (lit "PosVal") (lit "toPos") (lit "double") (lit "value") (Some [lit "    return value;  // No conversion required for animate"])].
Proof. split; [exact ex_ctx_readable|]. vm_compute. reflexivity. Qed.
Example C74_witness_clash : let ctx := Cctx [] (<[lit "Pos" := (ty_enum, [])]> (<[lit "pos" := (ty_enum, [])]> ∅)) false in
  (functions <$> read_header (convert_text VRos ctx)) = Some [lit "fromPos"; lit "fromPos"; lit "toPos"; lit "toPos"].
Proof. vm_compute. reflexivity. Qed.
Example C74_witness_generated : exists f', sane ex_config ex_suite /\ separate ex_home ex_config (lit "out") /\ orders ex_suite ex_ord /\
  generate ex_home ex_config (lit "out") ex_suite ex_ord ex_fs = (f', None) /\ ex_cpp VRos ∈ cf_cpps ex_config /\
  (forall n, n ∈ dom (su_types ex_suite) -> identifier n /\ macro_text (configured (ex_cpp VRos) n)) /\ lit "c" ∈ dom (su_types ex_suite).
Proof.
  destruct C49_witness as (H1 & H2 & H3 & _). destruct ex_generated as [f' E]. exists f'. split; [exact H1|]. split; [exact H2|]. split; [exact H3|]. split; [exact E|]. split; [right; left|].
  clear E. split; [|vm_compute; reflexivity]. intros n H. apply elem_of_dom in H as [t H]. unfold ex_suite in H. cbn [su_types] in H. apply lookup_singleton_Some in H as [<- _].
  split; [split; [repeat constructor|by eexists _, _]|]. split_and!; by apply lit_not_in.
Qed.
