(** * Lemmas about the XML reader: elements and documents *)
From Verif Require Export XmlTagProofs.
From Verif Require Export StmProofs.

Section Names.
Context (first second : N -> bool).
Local Notation qname := (qname first second).
Local Notation element_text := (element_text first second).
Local Notation items_text := (items_text first second).
Local Notation document := (document first second).
Local Notation xml_items := (xml_items first second).
Local Notation xml_root := (xml_root first second).
Local Notation token_text := (token_text first second).
Local Notation raw_token := (raw_token first second).

(** An end tag. *)
Definition end_tag (n : gostr * gostr) (t : gostr) : Prop := exists m w, t = lit "</" ++ m ++ w ++ lit ">" /\ qname m n.1 n.2 /\ white w.
Lemma end_tag_head n t : end_tag n t -> head t = Some "<"%char.
Proof. by intros (m & w & -> & _). Qed.
Lemma element_head t e : element_text t e -> head t = Some "<"%char.
Proof. by intros []. Qed.
Lemma head_app (a b : gostr) c : head (a ++ b) = Some c -> a <> [] -> head a = Some c.
Proof. by destruct a. Qed.

Lemma items_step fuel s : xml_items (S fuel) s =
    match raw_token s with
    | None => None
    | Some (TEnd n, rest) => Some ([], n, rest)
    | Some (TMisc, rest) => xml_items fuel rest
    | Some (TChars t, rest) =>
      match xml_items fuel rest with Some (l, n, rest') => Some (Chars t :: l, n, rest') | None => None end
    | Some (TStart n l ends, rest) =>
      let item kids rest :=
        match xml_items fuel rest with
        | Some (its, m, rest') => Some (Child (Elem n.2 (map plain_attr l) kids) :: its, m, rest')
        | None => None
        end in
      if ends : bool then item [] rest
      else match xml_items fuel rest with
           | Some (kids, m, rest') => if decide (m = n) then item kids rest' else None
           | None => None
           end
    end.
Proof. reflexivity. Qed.
Lemma root_step fuel s : xml_root (S fuel) s =
    match raw_token s with
    | Some (TMisc, rest) | Some (TChars _, rest) => xml_root fuel rest
    | Some (TStart n l ends, rest) =>
      if ends : bool then Some (Elem n.2 (map plain_attr l) [])
      else match xml_items (length rest) rest with
           | Some (kids, m, _) => if decide (m = n) then Some (Elem n.2 (map plain_attr l) kids) else None
           | None => None
           end
    | Some (TEnd _, _) | None => None
    end.
Proof. reflexivity. Qed.

(** ** The reader follows the grammar *)
Lemma full_element n p l attrs ats body kids et : qname n p l -> SpecConfigText.attrs_text first second attrs ats -> name_ends (attrs ++ close false) ->
  items_text body kids -> end_tag (p, l) et -> element_text ((lit "<" ++ n ++ attrs ++ close false) ++ body ++ et) (Elem l ats kids).
Proof.
  intros Hn Ha He Hb (m & w & -> & Hm & Hw). cbn [fst snd] in Hm. rewrite (qname_inj _ _ m n p l Hm Hn). rewrite <- !app_assoc. by eapply el_full.
Qed.
Lemma chars_next (s rest body et : gostr) : (rest = [] \/ head rest = Some "<"%char) -> rest = body ++ et ++ s -> body <> [] -> head body = Some "<"%char.
Proof. intros [->|H] E Hb; [symmetry in E; by apply app_eq_nil in E as [? _]|]. rewrite E in H. by apply head_app in H. Qed.
Lemma items_sound fuel : forall s l n rest, xml_items fuel s = Some (l, n, rest) -> exists body et, s = body ++ et ++ rest /\ items_text body l /\ end_tag n et.
Proof.
  induction fuel as [|fuel IH]; intros s l n rest; [done|]. rewrite items_step. destruct (raw_token s) as [[tok r]|] eqn:E; [|done]. apply raw_token_sound in E as (t & -> & Ht).
  destruct tok as [m ats e|m|v|].
  - inversion Ht as [n' p l' attrs ats0 ats' e' rest' Hn Ha He Hm E1 E2 E3| | | |]; subst. cbn zeta. cbn [snd].
    assert (I : forall kids et s', element_text et (Elem l' (map plain_attr ats) kids) -> match xml_items fuel s' with
        | Some (its, m, rest') => Some (Child (Elem l' (map plain_attr ats) kids) :: its, m, rest') | None => None end = Some (l, n, rest) ->
        exists body et', et ++ s' = body ++ et' ++ rest /\ items_text body l /\ end_tag n et').
    { intros kids et s' He'. destruct (xml_items fuel s') as [[[its m'] r']|] eqn:E; [|done]. intros [= <- <- <-]. apply IH in E as (body & et' & -> & Hb & Het).
      exists (et ++ body), et'. split; [by rewrite <- app_assoc|]. split; [by apply it_child|done]. }
    destruct e.
    + apply I. rewrite <- !app_assoc || idtac. eapply el_empty; [exact Hn|exact Ha|]. destruct attrs; done.
    + destruct (xml_items fuel r) as [[[kids m'] r']|] eqn:E; [|done]. destruct (decide (m' = (p, l'))) as [->|]; [|done]. apply IH in E as (body & et & -> & Hb & Het).
      intros H. apply (I kids ((lit "<" ++ n' ++ attrs ++ close false) ++ body ++ et)) in H; [|by eapply full_element]. destruct H as (b & et' & E & H). exists b, et'.
      split; [|done]. rewrite <- E. by rewrite <- !app_assoc.
  - intros [= <- <- <-]. inversion Ht as [|n' p l' w rest' Hn Hw| | |]; subst. exists [], (lit "</" ++ n' ++ w ++ lit ">"). split; [done|]. split; [constructor|]. by exists n', w.
  - destruct (xml_items fuel r) as [[[its m'] r']|] eqn:E; [|done]. intros [= <- <- <-]. apply IH in E as (body & et & Er & Hb & Het).
    exists (t ++ body), et. split; [by rewrite Er, <- app_assoc|]. split; [|done]. inversion Ht as [| |t' v' rest' Hc|t' v' rest' Hc Hr|]; subst.
    + by apply it_cdata.
    + apply it_chars; [done| |done]. intros H. by eapply chars_next.
  - intros E. apply IH in E as (body & et & -> & Hb & Het). exists (t ++ body), et. split; [by rewrite <- app_assoc|]. split; [|done]. apply it_misc; [|done]. by inversion Ht.
Qed.
Lemma root_sound fuel : forall s e, xml_root fuel s = Some e -> document s e.
Proof.
  induction fuel as [|fuel IH]; intros s e; [done|]. rewrite root_step. destruct (raw_token s) as [[tok r]|] eqn:E; [|done]. apply raw_token_sound in E as (t & -> & Ht).
  destruct tok as [m ats e'|m|v|].
  - inversion Ht as [n' p l' attrs ats0 ats' e0 rest' Hn Ha He Hm E1 E2 E3| | | |]; subst. cbn [snd]. destruct e'.
    + intros [= <-]. exists [], [], (lit "<" ++ n' ++ attrs ++ close true), r. split; [done|]. split; [constructor|]. split; [by intros ? ?%elem_of_nil|].
      eapply el_empty; [exact Hn|exact Ha|]. destruct attrs; done.
    + destruct (xml_items (length r) r) as [[[kids m'] r']|] eqn:E; [|done]. destruct (decide (m' = (p, l'))) as [->|]; [|done]. intros [= <-]. apply items_sound in E as (body & et & -> & Hb & Het).
      exists [], [], ((lit "<" ++ n' ++ attrs ++ close false) ++ body ++ et), r'. split; [by rewrite <- !app_assoc|]. split; [constructor|]. split; [by intros ? ?%elem_of_nil|].
      by eapply full_element.
  - done.
  - intros H. apply IH in H as (pre & l & x & rest & -> & Hp & Hn & Hx). exists (t ++ pre), (Chars v :: l), x, rest. split; [by rewrite <- app_assoc|]. split; [|split; [by intros e' [?|?%Hn]%elem_of_cons|done]].
    inversion Ht as [| |t' v' rest' Hc|t' v' rest' Hc Hr|]; subst.
    + by apply it_cdata.
    + apply it_chars; [done| |done]. intros H. by apply (chars_next rest (pre ++ x ++ rest) pre x).
  - intros H. apply IH in H as (pre & l & x & rest & -> & Hp & Hn & Hx). exists (t ++ pre), l, x, rest. split; [by rewrite <- app_assoc|]. split; [|done].
    apply it_misc; [|done]. by inversion Ht.
Qed.

(** ** Everything in the grammar is read *)
(** From any sufficient fuel on. *)
Definition yields (s : gostr) (r : list xml_item * (gostr * gostr) * gostr) : Prop := forall fuel, length s <= fuel -> xml_items fuel s = Some r.
Lemma token_at tok t rest : token_text tok t rest -> (forall n l e, tok <> TStart n l e) -> raw_token (t ++ rest) = Some (tok, rest).
Proof. intros H Hn. destruct (raw_token_complete _ _ _ _ _ H) as [E|(n & l & l' & e & -> & _)]; [done|]. by destruct (Hn n l e). Qed.
Lemma start_at n p l attrs ats e rest : qname n p l -> SpecConfigText.attrs_text first second attrs ats -> name_ends (attrs ++ close e) ->
  exists l', raw_token ((lit "<" ++ n ++ attrs ++ close e) ++ rest) = Some (TStart (p, l) l' e, rest) /\ map plain_attr l' = ats.
Proof.
  intros Hn Ha He.
  assert (Hl : exists l', map plain_attr l' = ats) by (exists (map (fun a => Attr [] a.1 a.2) ats); rewrite map_map; clear; induction ats as [|[x y] ats IH]; [done|]; cbn; by rewrite IH).
  destruct Hl as [l0 Hl0]. destruct (raw_token_complete first second (TStart (p, l) l0 e) (lit "<" ++ n ++ attrs ++ close e) rest) as [E|(n1 & l1 & l1' & e1 & E1 & E2 & E3)].
  - by eapply tt_start.
  - by exists l0.
  - injection E1 as <- <- <-. exists l1'. split; [done|]. by rewrite E2.
Qed.
Lemma fuel_S (s : gostr) fuel : s <> [] -> length s <= fuel -> exists f, fuel = S f /\ length s <= S f.
Proof. intros H Hl. destruct fuel as [|f]; [destruct s; [done|cbn in Hl; lia]|]. by exists f. Qed.
Lemma items_complete_mut : (forall t e, element_text t e -> forall s l n rest, yields s (l, n, rest) -> yields (t ++ s) (Child e :: l, n, rest)) /\
  (forall body l, items_text body l -> forall n et rest, end_tag n et -> yields (body ++ et ++ rest) (l, n, rest)).
Proof.
  apply element_text_ind2.
  - intros n p l attrs ats Hn Ha He s its m rest Hs fuel Hf. change (lit "/>") with (close true) in Hf |- *. destruct fuel as [|fuel]; [cbn in Hf; lia|]. rewrite items_step.
    destruct (start_at n p l attrs ats true s Hn Ha) as (l' & -> & <-); [by destruct attrs|]. cbn zeta. cbn [snd].
    rewrite (Hs fuel); [done|]. rewrite app_length in Hf. cbn in Hf. unfold gostr in *. lia.
  - intros n p l attrs ats body kids w Hn Ha He Hb IH Hw s its m rest Hs fuel Hf. destruct fuel as [|fuel]; [cbn in Hf; lia|].
    replace ((lit "<" ++ n ++ attrs ++ lit ">" ++ body ++ lit "</" ++ n ++ w ++ lit ">") ++ s) with ((lit "<" ++ n ++ attrs ++ close false) ++ body ++ (lit "</" ++ n ++ w ++ lit ">") ++ s) in *
      by (by rewrite <- !app_assoc).
    rewrite items_step. destruct (start_at n p l attrs ats false (body ++ (lit "</" ++ n ++ w ++ lit ">") ++ s) Hn Ha) as (l' & -> & <-); [done|]. cbn zeta. cbn [snd].
    assert (Ht : end_tag (p, l) (lit "</" ++ n ++ w ++ lit ">")) by (by exists n, w).
    rewrite app_length in Hf. assert (L1 : 1 <= length (lit "<" ++ n ++ attrs ++ close false)) by (cbn; lia).
    rewrite (IH (p, l) _ s Ht fuel) by (unfold gostr in *; lia). rewrite decide_True by done. rewrite (Hs fuel); [done|].
    rewrite (app_length body), (app_length (lit "</" ++ n ++ w ++ lit ">")) in Hf. unfold gostr in *. lia.
  - intros n et rest (m & w & -> & Hm & Hw) fuel Hf. cbn [app] in *. destruct n as [p l]. destruct fuel as [|fuel]; [cbn in Hf; lia|]. rewrite items_step.
    rewrite (token_at (TEnd (p, l)) (lit "</" ++ m ++ w ++ lit ">") rest); [done| |done]. by constructor.
  - intros raw v rest l Hc Hh Hl IH n et r Het fuel Hf. rewrite <- app_assoc in Hf |- *. pose proof Hc as [H0 _]. destruct fuel as [|fuel]; [destruct raw; [done|cbn in Hf; lia]|]. rewrite items_step.
    rewrite (token_at (TChars v) raw (rest ++ et ++ r)); [|apply tt_chars; [done|]|done].
    + rewrite (IH n et r Het fuel); [done|]. destruct raw; [done|]. cbn in Hf. rewrite app_length in Hf. unfold gostr in *. lia.
    + right. destruct rest as [|c rest]; [|by apply Hh]. cbn [app]. apply end_tag_head in Het. by destruct et.
  - intros t v rest l Hc Hl IH n et r Het fuel Hf. rewrite <- app_assoc in Hf |- *. assert (H0 : t <> []) by (by destruct Hc as (raw & -> & _)).
    destruct fuel as [|fuel]; [destruct t; [done|cbn in Hf; lia]|]. rewrite items_step. rewrite (token_at (TChars v) t (rest ++ et ++ r)); [|by apply tt_cdata|done].
    rewrite (IH n et r Het fuel); [done|]. destruct t; [done|]. cbn in Hf. rewrite app_length in Hf. unfold gostr in *. lia.
  - intros t rest l Hm Hl IH n et r Het fuel Hf. rewrite <- app_assoc in Hf |- *. assert (H0 : t <> []) by (by destruct Hm).
    destruct fuel as [|fuel]; [destruct t; [done|cbn in Hf; lia]|]. rewrite items_step. rewrite (token_at TMisc t (rest ++ et ++ r)); [|by apply tt_misc|done].
    rewrite (IH n et r Het fuel); [done|]. destruct t; [done|]. cbn in Hf. rewrite app_length in Hf. unfold gostr in *. lia.
  - intros t e rest l He IHe Hl IH n et r Het. rewrite <- app_assoc. apply IHe. by apply IH.
Qed.
Lemma items_complete body l n et rest : items_text body l -> end_tag n et -> yields (body ++ et ++ rest) (l, n, rest).
Proof. intros H Ht. by apply items_complete_mut. Qed.
Lemma root_element t e rest : element_text t e -> forall fuel, length (t ++ rest) <= fuel -> xml_root fuel (t ++ rest) = Some e.
Proof.
  intros [n p l attrs ats Hn Ha He|n p l attrs ats body kids w Hn Ha He Hb Hw] fuel Hf; (destruct fuel as [|fuel]; [cbn in Hf; lia|]); rewrite root_step.
  - change (lit "/>") with (close true). destruct (start_at n p l attrs ats true rest Hn Ha) as (l' & -> & <-); [by destruct attrs|]. done.
  - replace ((lit "<" ++ n ++ attrs ++ lit ">" ++ body ++ lit "</" ++ n ++ w ++ lit ">") ++ rest) with ((lit "<" ++ n ++ attrs ++ close false) ++ body ++ (lit "</" ++ n ++ w ++ lit ">") ++ rest) in *
      by (by rewrite <- !app_assoc).
    destruct (start_at n p l attrs ats false (body ++ (lit "</" ++ n ++ w ++ lit ">") ++ rest) Hn Ha) as (l' & -> & <-); [done|]. cbn [snd].
    assert (Ht : end_tag (p, l) (lit "</" ++ n ++ w ++ lit ">")) by (by exists n, w). rewrite (items_complete body kids (p, l) _ rest Hb Ht) by done. by rewrite decide_True by done.
Qed.
Lemma root_complete s e : document s e -> forall fuel, length s <= fuel -> xml_root fuel s = Some e.
Proof.
  intros (pre & l & t & rest & -> & Hp & Hn & Ht). pose proof (root_element t e rest Ht) as R. pose proof (element_head t e Ht) as Hh. remember (t ++ rest) as s eqn:Es.
  assert (Hs : head s = Some "<"%char) by (subst s; by destruct t). clear Es Hh Ht.
  induction Hp as [|raw v r l Hc Hr Hl IH|x v r l Hc Hl IH|m r l Hm Hl IH|x e' r l He Hl IH] ; intros fuel Hf.
  - by apply R.
  - rewrite <- app_assoc in Hf |- *. pose proof Hc as [H0 _]. destruct fuel as [|fuel]; [destruct raw; [done|cbn in Hf; lia]|]. rewrite root_step.
    rewrite (token_at (TChars v) raw (r ++ s)); [|apply tt_chars; [done|]|done].
    + apply IH; [intros e'' ?; apply (Hn e''); by right|]. destruct raw; [done|]. cbn in Hf. rewrite app_length in Hf. unfold gostr in *. lia.
    + right. destruct r as [|c r]; [done|]. by apply Hr.
  - rewrite <- app_assoc in Hf |- *. assert (H0 : x <> []) by (by destruct Hc as (raw & -> & _)). destruct fuel as [|fuel]; [destruct x; [done|cbn in Hf; lia]|]. rewrite root_step.
    rewrite (token_at (TChars v) x (r ++ s)); [|by apply tt_cdata|done]. apply IH; [intros e'' ?; apply (Hn e''); by right|]. destruct x; [done|]. cbn in Hf. rewrite app_length in Hf. unfold gostr in *. lia.
  - rewrite <- app_assoc in Hf |- *. assert (H0 : m <> []) by (by destruct Hm). destruct fuel as [|fuel]; [destruct m; [done|cbn in Hf; lia]|]. rewrite root_step.
    rewrite (token_at TMisc m (r ++ s)); [|by apply tt_misc|done]. apply IH; [done|]. destruct m; [done|]. cbn in Hf. rewrite app_length in Hf. unfold gostr in *. lia.
  - exfalso. apply (Hn e'). by left.
Qed.
Theorem read_iff s c : read_config first second s = Some c <-> exists e, document s e /\ says_config e c.
Proof.
  unfold read_config. split.
  - destruct (xml_root (length s) s) as [e|] eqn:E; [|done]. intros H. exists e. split; [by eapply root_sound|by apply config_iff].
  - intros (e & Hd & Hs). rewrite (root_complete s e Hd (length s)) by done. by apply config_iff.
Qed.
Lemma document_unique s e e' : document s e -> document s e' -> e = e'.
Proof. intros H H'. pose proof (root_complete s e H (length s) (le_n _)) as E. rewrite (root_complete s e' H' (length s)) in E by done. by injection E. Qed.
End Names.
