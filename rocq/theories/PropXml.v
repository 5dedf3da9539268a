(** * package.xml: property C73 *)
From Verif Require Export XmlProofs.
From Verif Require Import PropCmake PropGen PropConfig.
From Verif Require Export StmProofs.

(** A field as it is written: name, attribute, text. *)
Record wfield := WField { wf_name : gostr; wf_attr : option (gostr * gostr); wf_text : gostr }.
Definition attr_text (a : option (gostr * gostr)) : gostr :=
  match a with None => [] | Some (n, v) => lit " " ++ n ++ lit "=""" ++ xml_escape v ++ lit """" end.
Definition open_tag (name : gostr) (a : option (gostr * gostr)) : gostr := name ++ attr_text a.
Definition read_attrs (a : option (gostr * gostr)) : list (gostr * gostr) := match a with None => [] | Some (n, v) => [(n, xml_clean v)] end.
Definition good_name (n : gostr) : Prop := plain_word n.

Lemma after_app p s : after p (p ++ s) = Some s.
Proof. unfold after. rewrite take_app, drop_app. by rewrite decide_True. Qed.
Lemma slash_not n : plain_word n -> forall s, after (lit "/") (n ++ s) = None.
Proof.
  intros [Hne H] s. unfold after. rewrite decide_False; [done|]. destruct n as [|c n]; [done|]. cbn. intros [= ->]. by inversion H.
Qed.
Lemma read_open n a : plain_word n -> (match a with None => True | Some (k, _) => plain_word k end) ->
  read_tag (open_tag n a) = Some (TOpen n (read_attrs a)).
Proof.
  intros Hn Ha. unfold read_tag, open_tag. rewrite slash_not by done. destruct a as [[k v]|]; cbn [attr_text read_attrs].
  - change (n ++ lit " " ++ k ++ lit "=""" ++ xml_escape v ++ lit """") with (n ++ " "%char :: k ++ lit "=""" ++ xml_escape v ++ lit """").
    rewrite cut_app by (by apply plain_not_in). rewrite decide_True by done. unfold read_attr.
    change (k ++ lit "=""" ++ xml_escape v ++ lit """") with (k ++ "="%char :: byte 34 :: xml_escape v ++ byte 34 :: []).
    rewrite cut_app by (by apply plain_not_in). cbn [mbind option_bind].
    change (byte 34 :: xml_escape v ++ [byte 34]) with ([byte 34] ++ xml_escape v ++ byte 34 :: []). rewrite after_app. cbn [mbind option_bind].
    destruct (xml_escape_ok v) as (_ & Hm & Ht). rewrite cut_app by (apply (no_markup_in _ _ Hm); do 2 right; left). cbn [mbind option_bind].
    rewrite decide_True; [by rewrite Ht|]. split; [done|]. split; [done|]. split; apply (no_markup_in _ _ Hm); [do 3 right; left|do 4 right; left].
  - rewrite app_nil_r. rewrite cut_none by (by apply plain_not_in). by rewrite decide_True.
Qed.
Lemma read_close n : plain_word n -> read_tag (lit "/" ++ n) = Some (TClose n).
Proof. intros H. unfold read_tag. rewrite after_app. by rewrite decide_True. Qed.
Lemma read_piece_ok (tag x : gostr) tok text : ">"%char ∉ (tag : list ascii) -> read_tag tag = Some tok -> xml_text x = Some text ->
  read_piece (tag ++ ">"%char :: x) = Some [tok; TText text].
Proof. intros H1 H2 H3. unfold read_piece. rewrite cut_app by done. cbn [mbind option_bind]. rewrite H2. cbn [mbind option_bind]. by rewrite H3. Qed.

Definition wfield_text (f : wfield) : gostr :=
  newline ++ tab ++ lit "<" ++ open_tag (wf_name f) (wf_attr f) ++ lit ">" ++ xml_escape (wf_text f) ++ lit "</" ++ wf_name f ++ lit ">".
Definition good_field (f : wfield) : Prop := plain_word (wf_name f) /\ match wf_attr f with None => True | Some (k, _) => plain_word k end.
Definition indent1 : gostr := newline ++ tab.
Fixpoint field_tokens (root : gostr) (fs : list wfield) : list token :=
  match fs with
  | [] => [TText newline; TClose root; TText []]
  | f :: r => TText indent1 :: TOpen (wf_name f) (read_attrs (wf_attr f)) :: TText (xml_clean (wf_text f)) :: TClose (wf_name f) :: field_tokens root r
  end.
Lemma open_no_lt n a (c : ascii) : plain_word n -> (match a with None => True | Some (k, _) => plain_word k end) -> c ∈ ["<"%char; ">"%char] -> c ∉ (open_tag n a : list ascii).
Proof.
  intros Hn Ha Hc. assert (Hw : word_char c = false) by (rewrite !elem_of_cons, elem_of_nil in Hc; by destruct Hc as [->|[->|[]]]).
  assert (Hl : c ∉ (lit " " : list ascii) /\ c ∉ (lit "=""" : list ascii) /\ c ∉ (lit """" : list ascii)) by (rewrite !elem_of_cons, elem_of_nil in Hc; destruct Hc as [->|[->|[]]]; split_and!; by apply lit_not_in).
  destruct Hl as (L1 & L2 & L3). unfold open_tag. apply not_in_app; [by apply plain_not_in|]. destruct a as [[k v]|]; cbn [attr_text]; [|apply not_elem_of_nil].
  repeat apply not_in_app; [done|by apply plain_not_in|done| |done]. destruct (xml_escape_ok v) as (_ & Hm & _). apply (no_markup_in _ _ Hm).
  rewrite !elem_of_cons, elem_of_nil in Hc. destruct Hc as [->|[->|[]]]; [left|right; left].
Qed.
Lemma field_pieces root fs : plain_word root -> Forall good_field fs -> forall tag tok, "<"%char ∉ (tag : list ascii) -> ">"%char ∉ (tag : list ascii) -> read_tag tag = Some tok ->
  read_pieces (split_all "<" (tag ++ lit ">" ++ mjoin (map wfield_text fs) ++ newline ++ lit "</" ++ root ++ lit ">")) = Some (tok :: field_tokens root fs).
Proof.
  intros Hr H. induction H as [|f fs [Hf1 Hf2] _ IH]; intros tag tok H1 H2 Ht.
  - change (tag ++ lit ">" ++ mjoin (map wfield_text []) ++ newline ++ lit "</" ++ root ++ lit ">") with (tag ++ (lit ">" ++ newline) ++ "<"%char :: (lit "/" ++ root ++ lit ">")).
    rewrite app_assoc. rewrite split_app by (apply not_in_app; [done|by apply lit_not_in]).
    rewrite split_single by (repeat apply not_in_app; [by apply lit_not_in|by apply plain_not_in|by apply lit_not_in]).
    cbn [read_pieces]. change (tag ++ lit ">" ++ newline) with (tag ++ ">"%char :: newline). rewrite (read_piece_ok tag newline tok newline) by done.
    rewrite app_assoc. change ((lit "/" ++ root) ++ lit ">") with ((lit "/" ++ root) ++ ">"%char :: []).
    rewrite (read_piece_ok (lit "/" ++ root) [] (TClose root) []); [reflexivity| |by apply read_close|reflexivity].
    apply not_in_app; [by apply lit_not_in|by apply plain_not_in].
  - change (mjoin (map wfield_text (f :: fs))) with (wfield_text f ++ mjoin (map wfield_text fs)).
    destruct (xml_escape_ok (wf_text f)) as (_ & Hm & Hx).
    set (rest := mjoin (map wfield_text fs) ++ newline ++ lit "</" ++ root ++ lit ">").
    replace (tag ++ lit ">" ++ (wfield_text f ++ mjoin (map wfield_text fs)) ++ newline ++ lit "</" ++ root ++ lit ">") with
      ((tag ++ lit ">" ++ indent1) ++ "<"%char :: (open_tag (wf_name f) (wf_attr f) ++ lit ">" ++ xml_escape (wf_text f)) ++ "<"%char :: ((lit "/" ++ wf_name f) ++ lit ">" ++ rest))
      by (unfold wfield_text, rest, indent1; rewrite <- !app_assoc; reflexivity).
    rewrite split_app by (apply not_in_app; [done|by apply lit_not_in]).
    rewrite split_app by (apply not_in_app; [apply open_no_lt; [done|done|left]|apply not_in_app; [by apply lit_not_in|apply (no_markup_in _ _ Hm); left]]).
    cbn [read_pieces]. unfold rest. rewrite (IH (lit "/" ++ wf_name f) (TClose (wf_name f))).
    + change (tag ++ lit ">" ++ indent1) with (tag ++ ">"%char :: indent1). rewrite (read_piece_ok tag indent1 tok indent1) by done.
      change (open_tag (wf_name f) (wf_attr f) ++ lit ">" ++ xml_escape (wf_text f)) with (open_tag (wf_name f) (wf_attr f) ++ ">"%char :: xml_escape (wf_text f)).
      rewrite (read_piece_ok _ _ (TOpen (wf_name f) (read_attrs (wf_attr f))) (xml_clean (wf_text f))); [reflexivity| |by apply read_open|done].
      apply open_no_lt; [done|done|right; left].
    + apply not_in_app; [by apply lit_not_in|by apply plain_not_in].
    + apply not_in_app; [by apply lit_not_in|by apply plain_not_in].
    + by apply read_close.
Qed.
Definition text_nodes (s : gostr) : list xnode := if decide (s = []) then [] else [XText s].
Fixpoint field_nodes (fs : list wfield) : list xnode :=
  match fs with
  | [] => [XText newline]
  | f :: r => XText indent1 :: XElem (wf_name f) (read_attrs (wf_attr f)) (text_nodes (xml_clean (wf_text f))) :: field_nodes r
  end.
Lemma read_open_step fuel n a r kids r' ks r3 : read_nodes fuel r = Some (kids, TClose n :: r') -> read_nodes fuel r' = Some (ks, r3) ->
  read_nodes (S fuel) (TOpen n a :: r) = Some (XElem n a kids :: ks, r3).
Proof. intros H1 H2. cbn [read_nodes]. rewrite H1. cbn [mbind option_bind]. rewrite decide_True by done. by rewrite H2. Qed.
Lemma read_text_step fuel s r ks r' : read_nodes fuel r = Some (ks, r') -> read_nodes (S fuel) (TText s :: r) = Some (text_nodes s ++ ks, r').
Proof. intros H. cbn [read_nodes]. rewrite H. cbn [mbind option_bind]. unfold text_nodes. by destruct (decide (s = [])). Qed.
Lemma read_close_step fuel n r : read_nodes (S fuel) (TClose n :: r) = Some ([], TClose n :: r).
Proof. done. Qed.
Lemma read_field_nodes root fs : forall fuel, 4 * length fs + 2 <= fuel -> read_nodes fuel (field_tokens root fs) = Some (field_nodes fs, [TClose root; TText []]).
Proof.
  induction fs as [|f fs IH]; intros fuel Hf.
  - do 2 (destruct fuel as [|fuel]; [cbn in Hf; lia|]). reflexivity.
  - do 4 (destruct fuel as [|fuel]; [cbn in Hf; lia|]). cbn [field_tokens field_nodes]. change (XText indent1 :: ?l) with (text_nodes indent1 ++ l).
    apply read_text_step. apply (read_open_step _ _ _ _ _ (field_tokens root fs)); [|apply IH; cbn in Hf; lia].
    rewrite <- (app_nil_r (text_nodes (xml_clean (wf_text f)))). apply read_text_step, read_close_step.
Qed.
(** ** Text that XML can hold is not changed *)
Lemma byte_inj n m : (n < 256)%N -> (m < 256)%N -> byte n = byte m -> n = m.
Proof. intros Hn Hm E. apply (f_equal code) in E. by rewrite !code_byte in E. Qed.
Lemma good_point_not_bad r : xml_point r -> encode_rune r ∉ map encode_rune bad_points.
Proof.
  intros Hr. intros (b & E & Hb)%elem_of_list_In%in_map_iff.
  assert (Hb' : (b < 32 /\ b <> 9 /\ b <> 10 /\ b <> 13)%N \/ b = 65534%N \/ b = 65535%N).
  { apply elem_of_list_In in Hb. change bad_points with (take 29 bad_points ++ [65534; 65535]%N) in Hb. rewrite elem_of_app, !elem_of_cons, elem_of_nil in Hb.
    destruct Hb as [Hb|[->|[->|[]]]]; [left|by right; left|by right; right].
    assert (Hf : Forall (fun b => b < 32 /\ b <> 9 /\ b <> 10 /\ b <> 13)%N (take 29 bad_points)) by (repeat constructor; done).
    rewrite Forall_forall in Hf. by apply Hf. }
  unfold xml_point in Hr.
  destruct (N.ltb_spec r 128) as [H1|H1].
  { assert (Er : encode_rune r = [byte r]) by (unfold encode_rune; apply N.ltb_lt in H1; by rewrite H1).
    rewrite Er in E. destruct Hb' as [(Hb' & Hx)|[->| ->]]; [|done|done].
    assert (Eb : encode_rune b = [byte b]) by (unfold encode_rune; assert (Hlt : (b <? 128)%N = true) by (apply N.ltb_lt; lia); by rewrite Hlt).
    rewrite Eb in E. injection E as E. apply byte_inj in E; lia. }
  assert (Hlen : length (encode_rune r) <> 1).
  { unfold encode_rune. destruct (N.ltb_spec r 128); [lia|]. repeat case_match; cbn; lia. }
  destruct Hb' as [(Hb' & _)|Hb'].
  { apply Hlen. rewrite <- E. unfold encode_rune. assert (Hlt : (b <? 128)%N = true) by (apply N.ltb_lt; lia). by rewrite Hlt. }
  assert (E3 : exists z, (z = 190 \/ z = 191)%N /\ encode_rune r = [byte 239; byte 191; byte z]).
  { destruct Hb' as [->| ->]; [exists 190%N|exists 191%N]; (split; [lia|]); rewrite <- E; reflexivity. }
  clear E Hb Hb' Hlen. destruct E3 as (z & Hz & E). unfold encode_rune in E.
  destruct (N.ltb_spec r 128); [lia|]. destruct (N.ltb_spec r 2048); [done|].
  destruct (N.leb_spec 55296 r), (N.ltb_spec r 57344); cbn [andb] in E; try lia;
    (destruct (N.ltb_spec r 65536); [|destruct (N.ltb_spec r 1114112); [done|lia]]).
  all: injection E as Ea Eb Ec; change (byte (224 + r / 4096) = byte 239) in Ea; change (byte (128 + (r / 64) mod 64) = byte 191) in Eb; assert (r / 4096 < 16)%N by (apply N.div_lt_upper_bound; lia);
    pose proof (N.mod_lt (r / 64) 64 ltac:(lia)); pose proof (N.mod_lt r 64 ltac:(lia));
    apply byte_inj in Ea; [|lia..]; apply byte_inj in Eb; [|lia..]; apply byte_inj in Ec; [|lia..];
    pose proof (N.div_mod r 64 ltac:(lia)); pose proof (N.div_mod (r / 64) 64 ltac:(lia)); rewrite N.div_div in * by lia; change (64 * 64)%N with 4096%N in *; lia.
Qed.
Lemma xml_clean_string s : xml_string s -> xml_clean s = s.
Proof.
  intros (rs & Hrs & ->). unfold xml_clean. rewrite chunks_goods.
  - f_equal. induction Hrs as [|r rs Hr _ IH]; [done|]. cbn [map]. rewrite IH. f_equal. cbn [clean_chunk]. by rewrite decide_False by (by apply good_point_not_bad).
  - apply Forall_forall. intros q (r & <- & Hr)%elem_of_list_In%in_map_iff. apply encode_rune_good.
Qed.
Lemma xml_string_ascii (s : gostr) : forallb (fun c => (32 <=? code c) && (code c <? 128))%N s = true -> xml_string s.
Proof.
  intros H. exists (map code s). split.
  - apply Forall_forall. intros r (c & <- & Hc)%elem_of_list_In%in_map_iff. rewrite forallb_forall in H. apply H in Hc. apply andb_prop in Hc as [H1%N.leb_le H2%N.ltb_lt]. unfold xml_point. lia.
  - induction s as [|c s IH]; [done|]. cbn [forallb] in H. apply andb_prop in H as [Hc H]. apply andb_prop in Hc as [_ H2].
    cbn [map]. change (c :: s = encode_rune (code c) ++ mjoin (map encode_rune (map code s))). rewrite <- (IH H). unfold encode_rune. rewrite H2. unfold byte, code. by rewrite ascii_N_embedding.
Qed.
Lemma xml_string_app a b : xml_string a -> xml_string b -> xml_string (a ++ b).
Proof. intros (ra & Ha & ->) (rb & Hb & ->). exists (ra ++ rb). split; [by apply Forall_app|]. rewrite map_app. symmetry. apply mjoin_app. Qed.
Lemma format_int_ascii z : forallb (fun c => (32 <=? code c) && (code c <? 128))%N (format_int z) = true.
Proof.
  pose proof (format_int_plain z) as H. apply forallb_forall. intros c Hc%elem_of_list_In. rewrite Forall_forall in H. apply H in Hc.
  revert Hc. clear. destruct c as [[] [] [] [] [] [] [] []]; vm_compute; done.
Qed.

(** ** C73 *)
Definition package_fields (p : package) : list wfield :=
  [WField (lit "name") None (pk_name p); WField (lit "version") None (pk_version p); WField (lit "description") None (pk_description p);
   WField (lit "maintainer") (Some (lit "email", pk_email p)) (pk_maintainer p); WField (lit "license") None (pk_license p)]
  ++ map (WField (lit "buildtool_depend") None) (pk_buildtool p) ++ map (WField (lit "depend") None) (pk_depends p).
Definition format_attr (p : package) : option (gostr * gostr) := if decide (pk_format p = 0%Z) then None else Some (lit "format", format_int (pk_format p)).
Lemma plain_lit_word (s : gostr) : s <> [] -> forallb word_char s = true -> plain_word s.
Proof. intros Hn H. split; [done|]. apply Forall_forall. intros c Hc%elem_of_list_In. rewrite forallb_forall in H. by apply H. Qed.
Lemma package_fields_good p : Forall good_field (package_fields p).
Proof.
  unfold package_fields. rewrite !Forall_app. split_and!.
  - repeat (constructor; [split; [by apply plain_lit_word|by try apply plain_lit_word]|]); constructor.
  - apply Forall_forall. intros f (d & -> & _)%elem_of_list_fmap. split; [by apply plain_lit_word|done].
  - apply Forall_forall. intros f (d & -> & _)%elem_of_list_fmap. split; [by apply plain_lit_word|done].
Qed.
Lemma mjoin_fields name l : mjoin (map (xml_field name []) l) = mjoin (map wfield_text (map (WField name None) l)).
Proof. rewrite map_map. f_equal. apply map_ext. intros d. unfold xml_field, wfield_text, open_tag. cbn. by rewrite app_nil_r. Qed.
Lemma package_text_parts p : package_text p =
  lit "<?xml version=""1.0"" encoding=""UTF-8""?>" ++ newline ++ "<"%char :: open_tag (lit "package") (format_attr p) ++ lit ">" ++
  mjoin (map wfield_text (package_fields p)) ++ newline ++ lit "</" ++ lit "package" ++ lit ">".
Proof.
  assert (Ha : forall X : gostr, lit "<package" ++ (if decide (pk_format p = 0%Z) then [] else lit " format=""" ++ xml_escape (format_int (pk_format p)) ++ lit """") ++ X =
     "<"%char :: open_tag (lit "package") (format_attr p) ++ X).
  { intros X. unfold open_tag, format_attr. destruct (decide (pk_format p = 0%Z)); [reflexivity|]. cbn [attr_text]. rewrite <- !app_assoc. reflexivity. }
  assert (Hf : forall n t, xml_field n [] t = wfield_text (WField n None t)) by (intros n t; unfold xml_field, wfield_text, open_tag; cbn [wf_name wf_attr wf_text attr_text]; by rewrite app_nil_r).
  unfold package_text. rewrite Ha. clear Ha. unfold package_fields. rewrite !map_app, !mjoin_fields, !Hf.
  assert (Hm : xml_field (lit "maintainer") (lit " email=""" ++ xml_escape (pk_email p) ++ lit """") (pk_maintainer p) = wfield_text (WField (lit "maintainer") (Some (lit "email", pk_email p)) (pk_maintainer p))).
  { unfold xml_field, wfield_text, open_tag. cbn [wf_name wf_attr wf_text attr_text]. rewrite <- !app_assoc. reflexivity. }
  rewrite Hm. clear Hm Hf.
  set (B := map wfield_text (map (WField (lit "buildtool_depend") None) (pk_buildtool p))). set (D := map wfield_text (map (WField (lit "depend") None) (pk_depends p))).
  rewrite (mjoin_app _ (B ++ D)), (mjoin_app B D). cbn [map].
  change (mjoin [?a; ?b; ?c; ?d; ?e]) with (a ++ b ++ c ++ d ++ e ++ []). rewrite app_nil_r, <- !app_assoc. reflexivity.
Qed.
Lemma read_xml_steps body ts n a k : read_tokens body = Some ts -> read_nodes (S (length ts)) ts = Some ([XText newline; XElem n a k], []) ->
  read_xml (lit "<?xml version=""1.0"" encoding=""UTF-8""?>" ++ body) = Some (XElem n a k).
Proof. intros H1 H2. unfold read_xml. rewrite after_app. cbn [mbind option_bind]. rewrite H1. cbn [mbind option_bind]. rewrite H2. reflexivity. Qed.
Lemma field_tokens_length root fs : length (field_tokens root fs) = 4 * length fs + 3.
Proof. induction fs as [|f fs IH]; [reflexivity|]. cbn [field_tokens length]. rewrite IH. lia. Qed.
Lemma read_root root a fs fuel : 4 * length fs + 4 <= fuel ->
  read_nodes (S (S fuel)) (TText newline :: TOpen root a :: field_tokens root fs) = Some ([XText newline; XElem root a (field_nodes fs)], []).
Proof.
  intros Hf. change [XText newline; XElem root a (field_nodes fs)] with (text_nodes newline ++ [XElem root a (field_nodes fs)]). apply read_text_step.
  apply (read_open_step _ _ _ _ _ [TText []]); [apply read_field_nodes; lia|]. destruct fuel as [|[|fuel]]; [lia|lia|reflexivity].
Qed.
Lemma read_package p : read_xml (package_text p) = Some (XElem (lit "package") (read_attrs (format_attr p)) (field_nodes (package_fields p))).
Proof.
  rewrite package_text_parts.
  assert (Hr : plain_word (lit "package")) by (by apply plain_lit_word).
  assert (Hfa : match format_attr p with None => True | Some (k, _) => plain_word k end).
  { unfold format_attr. destruct (decide (pk_format p = 0%Z)); [done|]. by apply plain_lit_word. }
  apply (read_xml_steps _ (TText newline :: TOpen (lit "package") (read_attrs (format_attr p)) :: field_tokens (lit "package") (package_fields p))).
  { unfold read_tokens. rewrite split_app by (by apply lit_not_in).
    rewrite (field_pieces _ _ Hr (package_fields_good p) _ (TOpen (lit "package") (read_attrs (format_attr p)))); [reflexivity| | |by apply read_open].
    - apply open_no_lt; [done|done|left].
    - apply open_no_lt; [done|done|right; left]. }
  apply read_root. rewrite field_tokens_length. lia.
Qed.
Lemma field_nodes_fields fs : fields_of (field_nodes fs) = Some (map (fun f => Field (wf_name f) (read_attrs (wf_attr f)) (xml_clean (wf_text f))) fs).
Proof.
  induction fs as [|f fs IH]; [reflexivity|]. cbn [field_nodes fields_of]. rewrite decide_True by (by apply (bool_decide_unpack (blank_text indent1))).
  assert (Ht : node_texts (text_nodes (xml_clean (wf_text f))) = Some (if decide (xml_clean (wf_text f) = []) then [] else [xml_clean (wf_text f)])) by (unfold text_nodes; by destruct (decide (xml_clean (wf_text f) = []))).
  rewrite Ht. cbn [mbind option_bind]. rewrite IH. cbn [mbind option_bind map]. do 3 f_equal. destruct (decide (xml_clean (wf_text f) = [])) as [->|]; [done|]. 
  change (mjoin [xml_clean (wf_text f)]) with (xml_clean (wf_text f) ++ []). by rewrite app_nil_r.
Qed.

(** An XML reader reads the file that is written for a package, whatever its fields are, as an element
    "package" whose fields are those of the package, in a fixed order, with the dependencies at the end in
    their order.  Only what XML cannot hold is lost. *)
Theorem C73_reads : forall p, exists attrs kids fs,
  read_xml (package_text p) = Some (XElem (lit "package") attrs kids) /\ fields_of kids = Some fs /\
  attrs = (if decide (pk_format p = 0%Z) then [] else [(lit "format", format_int (pk_format p))]) /\
  fs = [Field (lit "name") [] (xml_clean (pk_name p)); Field (lit "version") [] (xml_clean (pk_version p));
        Field (lit "description") [] (xml_clean (pk_description p));
        Field (lit "maintainer") [(lit "email", xml_clean (pk_email p))] (xml_clean (pk_maintainer p));
        Field (lit "license") [] (xml_clean (pk_license p))]
       ++ map (fun d => Field (lit "buildtool_depend") [] (xml_clean d)) (pk_buildtool p)
       ++ map (fun d => Field (lit "depend") [] (xml_clean d)) (pk_depends p).
Proof.
  intros p. eexists _, _, _. split; [apply read_package|]. split; [apply field_nodes_fields|]. split.
  - unfold format_attr. destruct (decide (pk_format p = 0%Z)); [done|]. cbn [read_attrs]. by rewrite (xml_clean_string (format_int _)) by (apply xml_string_ascii, format_int_ascii).
  - unfold package_fields. rewrite !map_app, !map_map. reflexivity.
Qed.
Print Assumptions C73_reads.
(** Every sequence that is decoded is the encoding of a code point. *)
Lemma byte_code c : byte (code c) = c.
Proof. unfold byte, code. apply ascii_N_embedding. Qed.
Lemma code_lt c : (code c < 256)%N.
Proof. unfold code. apply N_ascii_bounded. Qed.
Lemma in_range_spec lo hi c : in_range lo hi c = true -> (lo <= code c <= hi)%N.
Proof. unfold in_range. intros H. apply andb_prop in H as [H1%N.leb_le H2%N.leb_le]. lia. Qed.
Lemma divmod64 a b : (b < 64)%N -> ((a * 64 + b) / 64 = a)%N /\ ((a * 64 + b) mod 64 = b)%N.
Proof.
  intros H. split.
  - rewrite N.div_add_l by lia. rewrite N.div_small by lia. lia.
  - rewrite N.add_comm, N.mod_add by lia. by apply N.mod_small.
Qed.
Lemma encode2 r : (128 <= r < 2048)%N -> encode_rune r = [byte (192 + r / 64); byte (128 + r mod 64)].
Proof. intros H. unfold encode_rune. destruct (N.ltb_spec r 128); [lia|]. destruct (N.ltb_spec r 2048); [done|lia]. Qed.
Lemma encode3 r : (2048 <= r < 65536)%N -> ~ (55296 <= r < 57344)%N -> encode_rune r = [byte (224 + r / 4096); byte (128 + (r / 64) mod 64); byte (128 + r mod 64)].
Proof.
  intros H Hs. unfold encode_rune. destruct (N.ltb_spec r 128); [lia|]. destruct (N.ltb_spec r 2048); [lia|].
  destruct (N.leb_spec 55296 r), (N.ltb_spec r 57344); cbn [andb]; try lia; (destruct (N.ltb_spec r 65536); [done|lia]).
Qed.
Lemma encode4 r : (65536 <= r < 1114112)%N -> encode_rune r = [byte (240 + r / 262144); byte (128 + (r / 4096) mod 64); byte (128 + (r / 64) mod 64); byte (128 + r mod 64)].
Proof.
  intros H. unfold encode_rune. destruct (N.ltb_spec r 128); [lia|]. destruct (N.ltb_spec r 2048); [lia|].
  destruct (N.leb_spec 55296 r), (N.ltb_spec r 57344); cbn [andb]; try lia; (destruct (N.ltb_spec r 65536); [lia|]; destruct (N.ltb_spec r 1114112); [done|lia]).
Qed.
Lemma rune_encoded s q t : rune_at s = Some (q, t) -> exists r, scalar r /\ q = encode_rune r.
Proof.
  unfold rune_at, scalar. destruct s as [|c0 r0]; [done|]. destruct (N.ltb_spec (code c0) 128) as [H0|H0].
  { intros [= <- <-]. exists (code c0). split; [lia|]. unfold encode_rune. apply N.ltb_lt in H0. rewrite H0. by rewrite byte_code. }
  destruct r0 as [|c1 r1]; [done|]. destruct (in_range 194 223 c0 && in_range 128 191 c1) eqn:E1.
  { apply andb_prop in E1 as [A%in_range_spec B%in_range_spec]. intros [= <- <-].
    destruct (divmod64 (code c0 - 192) (code c1 - 128) ltac:(lia)) as [D M].
    exists ((code c0 - 192) * 64 + (code c1 - 128))%N. split; [lia|]. rewrite encode2 by lia. rewrite D, M.
    replace (192 + (code c0 - 192))%N with (code c0) by lia. replace (128 + (code c1 - 128))%N with (code c1) by lia. by rewrite !byte_code. }
  destruct r1 as [|c2 r2]; [done|]. destruct (_ && in_range 128 191 c2) eqn:E2.
  { apply andb_prop in E2 as [E2 C%in_range_spec]. intros [= <- <-].
    destruct (divmod64 ((code c0 - 224) * 64 + (code c1 - 128)) (code c2 - 128) ltac:(lia)) as [D M].
    set (r := (((code c0 - 224) * 64 + (code c1 - 128)) * 64 + (code c2 - 128))%N) in *.
    assert (Hc : (224 <= code c0 <= 239 /\ 128 <= code c1 <= 191)%N /\ (2048 <= r < 65536)%N /\ ~ (55296 <= r < 57344)%N).
    { unfold r. repeat (apply orb_prop in E2 as [E2|E2]); apply andb_prop in E2 as [A%in_range_spec B%in_range_spec]; lia. }
    destruct Hc as ([A B] & Hr & Hs). destruct (divmod64 (code c0 - 224) (code c1 - 128) ltac:(lia)) as [D2 M2].
    exists r. split; [lia|]. rewrite encode3 by done. replace 4096%N with (64 * 64)%N by done. rewrite <- N.div_div by lia. rewrite D, M, D2, M2.
    replace (224 + (code c0 - 224))%N with (code c0) by lia. replace (128 + (code c1 - 128))%N with (code c1) by lia. replace (128 + (code c2 - 128))%N with (code c2) by lia. by rewrite !byte_code. }
  destruct r2 as [|c3 r3]; [done|]. destruct (_ && in_range 128 191 c3) eqn:E3; [|done].
  apply andb_prop in E3 as [E3 D0%in_range_spec]. apply andb_prop in E3 as [E3 C%in_range_spec]. intros [= <- <-].
  destruct (divmod64 (((code c0 - 240) * 64 + (code c1 - 128)) * 64 + (code c2 - 128)) (code c3 - 128) ltac:(lia)) as [D M].
  set (r := ((((code c0 - 240) * 64 + (code c1 - 128)) * 64 + (code c2 - 128)) * 64 + (code c3 - 128))%N) in *.
  assert (Hc : (240 <= code c0 <= 244 /\ 128 <= code c1 <= 191)%N /\ (65536 <= r < 1114112)%N).
  { unfold r. repeat (apply orb_prop in E3 as [E3|E3]); apply andb_prop in E3 as [A%in_range_spec B%in_range_spec]; lia. }
  destruct Hc as ([A B] & Hr). destruct (divmod64 ((code c0 - 240) * 64 + (code c1 - 128)) (code c2 - 128) ltac:(lia)) as [D2 M2].
  destruct (divmod64 (code c0 - 240) (code c1 - 128) ltac:(lia)) as [D3 M3].
  exists r. split; [lia|]. rewrite encode4 by done. replace 262144%N with (64 * 64 * 64)%N by done. replace 4096%N with (64 * 64)%N by done. rewrite <- !N.div_div by lia. rewrite D, M, D2, M2, D3, M3.
  replace (240 + (code c0 - 240))%N with (code c0) by lia. replace (128 + (code c1 - 128))%N with (code c1) by lia.
  replace (128 + (code c2 - 128))%N with (code c2) by lia. replace (128 + (code c3 - 128))%N with (code c3) by lia. by rewrite !byte_code.
Qed.

(** Nothing is lost of text that XML can hold; and what is read can be held. *)
Theorem C73_exact : forall s, (xml_string s -> xml_clean s = s) /\ (xml_clean s = s -> xml_string s) /\ xml_string (xml_clean s).
Proof.
  assert (Hs : forall s, xml_string (xml_clean s)).
  { intros s. unfold xml_clean. pose proof (chunks_ok s) as H. induction H as [|u us Hu _ IH]; [by exists []|]. cbn [map].
    change (mjoin (clean_chunk u :: map clean_chunk us)) with (clean_chunk u ++ mjoin (map clean_chunk us)). apply xml_string_app; [|done].
    assert (Hrep : xml_string replacement) by (exists [65533%N]; split; [constructor; [unfold xml_point; lia|constructor]|reflexivity]).
    destruct u as [q|c]; [|done]. cbn [clean_chunk]. destruct (decide _) as [|Hn]; [done|].
    destruct (rune_encoded (q ++ []) q [] (rune_at_good q [] Hu)) as (r & Hr & ->). exists [r]. split; [|by change (mjoin (map encode_rune [r])) with (encode_rune r ++ []); rewrite app_nil_r].
    constructor; [|constructor]. destruct (decide (r ∈ bad_points)) as [Hb|Hb]; [exfalso; apply Hn, elem_of_list_fmap; by exists r|]. unfold scalar in Hr. unfold xml_point.
    assert (Hsmall : (r < 32)%N -> r = 9%N \/ r = 10%N \/ r = 13%N).
    { intros Hlt. destruct (decide (r = 9%N \/ r = 10%N \/ r = 13%N)) as [|Hne]; [done|]. exfalso. apply Hb. unfold bad_points. rewrite !elem_of_cons, elem_of_nil. lia. }
    assert (r <> 65534%N /\ r <> 65535%N) by (split; intros ->; apply Hb; refine (bool_decide_unpack _ _); vm_compute; exact I). lia. }
  intros s. split; [apply xml_clean_string|]. split; [|apply Hs]. intros E. rewrite <- E. apply Hs.
Qed.
Print Assumptions C73_exact.
(** After a successful run, every test's directory holds such a file for its package. *)
Theorem C73_generated : forall cwd c out s ord f f' cc p name,
  sane c s -> separate cwd c out -> orders s ord -> generate cwd c out s ord f = (f', None) ->
  cc ∈ cf_cpps c -> cc_catkin cc = Some p -> name ∈ dom (su_tests s) ->
  let pkg := expand_package name (autofill (default empty_package p)) in
  let dir := resolve cwd out ++ [variant_string (cc_variant cc); lit "src"; name] in
  exists x text kids fs, fs_files f' !! (dir ++ [lit "package.xml"]) = Some x /\ content_text x = Some text /\
    read_xml text = Some (XElem (lit "package") [(lit "format", lit "2")] kids) /\ fields_of kids = Some fs /\
    texts_of (lit "name") fs = [xml_clean (pk_name pkg)] /\ texts_of (lit "version") fs = [xml_clean (pk_version pkg)] /\
    texts_of (lit "description") fs = [xml_clean (pk_description pkg)] /\ texts_of (lit "license") fs = [xml_clean (pk_license pkg)] /\
    base.filter (fun f => fd_name f = lit "maintainer") fs = [Field (lit "maintainer") [(lit "email", xml_clean (pk_email pkg))] (xml_clean (pk_maintainer pkg))] /\
    texts_of (lit "buildtool_depend") fs = map xml_clean (pk_buildtool (default empty_package p)) /\
    texts_of (lit "depend") fs = map xml_clean (pk_depends (default empty_package p)).
Proof.
  intros cwd c out s ord f f' cc p name Hs Hio Ho E Hcc Hk Hn pkg dir.
  destruct (C52_package_per_test cwd c out s ord f f' cc p Hs Hio Ho E Hcc Hk name Hn) as [Hx _]. fold pkg dir in Hx.
  destruct (C73_reads pkg) as (attrs & kids & fs & H1 & H2 & H3 & H4).
  exists (CPackage pkg), (package_text pkg), kids, fs. split; [done|]. split; [done|]. split; [rewrite H1, H3; reflexivity|]. split; [done|].
  assert (Hd : pk_buildtool pkg = pk_buildtool (default empty_package p) /\ pk_depends pkg = pk_depends (default empty_package p)) by done.
  destruct Hd as [Hb Hd]. rewrite <- Hb, <- Hd. clear - H4. subst fs.
  assert (Hno : forall (n m : gostr) l, n <> m -> base.filter (fun f => fd_name f = n) (map (fun d => Field m [] (xml_clean d)) l) = []).
  { intros n m l Hne. induction l as [|d l IH]; [done|]. cbn [map]. rewrite filter_cons_False; [done|]. cbn. congruence. }
  assert (Hyes : forall (n : gostr) l, base.filter (fun f => fd_name f = n) (map (fun d => Field n [] (xml_clean d)) l) = map (fun d => Field n [] (xml_clean d)) l).
  { intros n l. induction l as [|d l IH]; [done|]. cbn [map]. rewrite filter_cons_True by done. by rewrite IH. }
  assert (Hte : forall (n : gostr) l, map fd_text (map (fun d => Field n [] (xml_clean d)) l) = map xml_clean l) by (intros n l; by rewrite map_map).
  unfold texts_of. rewrite !filter_app. rewrite !Hyes. rewrite (Hno (lit "buildtool_depend") (lit "depend")), (Hno (lit "depend") (lit "buildtool_depend")) by done.
  rewrite !(Hno (lit "name")), !(Hno (lit "version")), !(Hno (lit "description")), !(Hno (lit "license")), !(Hno (lit "maintainer")) by done.
  rewrite !map_app, !Hte, !app_nil_r. split_and!; reflexivity.
Qed.
Print Assumptions C73_generated.
(** What CMake looks for is declared in package.xml exactly if the configuration lists roscpp and std_msgs
    itself: the generator adds them to one file only. *)
Theorem C73_agreement : forall p, plain_word (pk_name p) -> Forall plain_word (pk_depends p) ->
  exists cs attrs kids fs components, read_cmake (cmake_text p) = Some cs /\ read_xml (package_text p) = Some (XElem (lit "package") attrs kids) /\
    fields_of kids = Some fs /\ args_of (lit "project") cs = [texts_of (lit "name") fs] /\
    args_of (lit "find_package") cs = [[lit "catkin"; lit "REQUIRED"; lit "COMPONENTS"] ++ components] /\
    (forall d, d ∈ texts_of (lit "depend") fs -> d ∈ components) /\
    ((forall d, d ∈ components -> d ∈ texts_of (lit "depend") fs) <-> lit "roscpp" ∈ pk_depends p /\ lit "std_msgs" ∈ pk_depends p).
Proof.
  intros p Hn Hd. destruct (C72_commands p Hn Hd) as (cs & H1 & H2 & H3 & _). destruct (C73_reads p) as (attrs & kids & fs & H4 & H5 & _ & H7).
  exists cs, attrs, kids, fs, ([lit "roscpp"; lit "std_msgs"] ++ pk_depends p). split; [done|]. split; [done|]. split; [done|].
  assert (Hpl : forall w, plain_word w -> xml_clean w = w).
  { intros w [_ Hw]. apply xml_clean_string, xml_string_ascii, forallb_forall. intros c Hc%elem_of_list_In. rewrite Forall_forall in Hw. apply Hw in Hc. revert Hc. clear.
    destruct c as [[] [] [] [] [] [] [] []]; vm_compute; done. }
  assert (Ht1 : texts_of (lit "name") fs = [pk_name p]).
  { subst fs. unfold texts_of. rewrite !filter_app, !map_app.
    assert (Hno : forall (n m : gostr) l, n <> m -> base.filter (fun f => fd_name f = n) (map (fun d => Field m [] (xml_clean d)) l) = []).
    { intros n m l Hne. induction l as [|d l IH]; [done|]. cbn [map]. rewrite filter_cons_False; [done|]. cbn. congruence. }
    rewrite !Hno by done. cbn [map]. rewrite !app_nil_r. change (map fd_text (base.filter (fun f => fd_name f = lit "name") _)) with [xml_clean (pk_name p)] at 1. by rewrite Hpl. }
  assert (Ht2 : texts_of (lit "depend") fs = pk_depends p).
  { subst fs. unfold texts_of. rewrite !filter_app, !map_app.
    assert (Hno : forall (n m : gostr) l, n <> m -> base.filter (fun f => fd_name f = n) (map (fun d => Field m [] (xml_clean d)) l) = []).
    { intros n m l Hne. induction l as [|d l IH]; [done|]. cbn [map]. rewrite filter_cons_False; [done|]. cbn. congruence. }
    rewrite (Hno _ (lit "buildtool_depend")) by done.
    transitivity (map fd_text (base.filter (fun f => fd_name f = lit "depend") (map (fun d => Field (lit "depend") [] (xml_clean d)) (pk_depends p)))); [reflexivity|].
    clear - Hd Hpl. induction Hd as [|d ds Hw _ IH]; [done|]. cbn [map]. rewrite filter_cons_True by done. cbn [map fd_text]. by rewrite IH, Hpl. }
  rewrite Ht1, Ht2. split; [done|]. split; [done|]. split; [intros d Hin; apply elem_of_app; by right|]. split.
  - intros H. split; apply H; [left|right; left].
  - intros [Ha Hb] d [Hin|Hin]%elem_of_app; [|done]. rewrite !elem_of_cons, elem_of_nil in Hin. by destruct Hin as [->|[->|[]]].
Qed.
Print Assumptions C73_agreement.
(** Witnesses: hostile text comes back as it was; text with a control character and a byte that is not
    UTF-8 does not. *)
Example C73_witness : let p := Package 2 (lit "a<b>&""c""") (lit "</version>") [byte 10; byte 9; byte 195; byte 169] (lit "]]>") (lit "x""><evil/>") (lit "it's") [lit "catkin"] [lit "d1"; lit "d2"] in
  Forall xml_string [pk_name p; pk_version p; pk_maintainer p; pk_email p; pk_license p] /\
  match read_xml (package_text p) with Some (XElem _ _ kids) => match fields_of kids with Some fs => map fd_text fs | None => [] end | _ => [] end =
    [pk_name p; pk_version p; pk_description p; pk_maintainer p; pk_license p; lit "catkin"; lit "d1"; lit "d2"].
Proof.
  split; [|vm_compute; reflexivity]. repeat (constructor; [by apply xml_string_ascii|]). constructor.
Qed.
Example C73_witness_lost : xml_clean (byte 1 :: byte 255 :: lit "a") = replacement ++ replacement ++ lit "a" /\ ~ xml_string (byte 1 :: byte 255 :: lit "a").
Proof. split; [vm_compute; reflexivity|]. intros H%xml_clean_string. vm_compute in H. discriminate H. Qed.
Example C73_witness_agreement : let p := autofill empty_package in plain_word (pk_name (expand_package (lit "t") p)) /\ Forall plain_word (pk_depends p) /\ ~ (lit "roscpp" ∈ pk_depends p).
Proof. split; [by apply plain_lit_word|]. split; [constructor|]. apply not_elem_of_nil. Qed.
