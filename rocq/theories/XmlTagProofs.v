(** * Lemmas about the XML reader: tags, comments, processing instructions, directives, tokens *)
From Verif Require Export XmlTextProofs.
From Verif Require Export StmProofs.

(** ** Blanks *)
Lemma white_ends w c r : white w -> name_byte c = false -> name_ends (w ++ c :: r).
Proof.
  intros Hw Hc. apply name_ends_iff. destruct Hw as [|x w Hx Hw]; [by exists c, r|]. exists x, (w ++ c :: r). split; [done|].
  apply not_true_is_false. rewrite name_byte_iff. unfold letter. lia.
Qed.
Lemma name_byte_black c : name_byte c = true -> is_ws c = false.
Proof. intros H%name_byte_iff. apply not_true_is_false. rewrite is_ws_iff. unfold letter in H. lia. Qed.
Lemma skip_black w c r : white w -> is_ws c = false -> skip_ws (w ++ c :: r) = c :: r.
Proof. intros Hw Hc. rewrite skip_white by done. by apply skip_ws_nows. Qed.
Lemma skip_ws_cons s c r : skip_ws s = c :: r -> exists w, s = w ++ c :: r /\ white w /\ is_ws c = false.
Proof.
  intros E. destruct (skip_ws_split s) as (w & Es & Hw). rewrite E in Es. exists w. split; [done|]. split; [done|].
  destruct (is_ws c) eqn:Ec; [|done]. pose proof (skip_ws_idemp s) as X. rewrite E in X. cbn [skip_ws] in X. rewrite Ec in X. exfalso.
  apply (f_equal length) in X. destruct (skip_ws_split r) as (w' & Er & _). apply (f_equal length) in Er. rewrite app_length in Er. cbn in X. unfold gostr in *. lia.
Qed.

(** ** First occurrences *)
Lemma seek_iff sep s a b : seek sep s = Some (a, b) <-> s = a ++ sep ++ b /\ forall a' b', s = a' ++ sep ++ b' -> length a <= length a'.
Proof.
  revert a b. induction s as [|c s IH]; intros a b; cbn [seek].
  - destruct (strip_prefix sep []) as [r|] eqn:E.
    + apply strip_prefix_Some in E. symmetry in E. apply app_eq_nil in E as [-> ->]. split.
      * intros [= <- <-]. split; [done|]. intros. cbn. lia.
      * intros [E _]. destruct a; [|done]. cbn in E. by subst b.
    + apply strip_prefix_None in E. split; [done|]. intros [H _]. exfalso. apply E. symmetry in H. apply app_eq_nil in H as [_ H]. by exists b.
  - destruct (strip_prefix sep (c :: s)) as [r|] eqn:E.
    + apply strip_prefix_Some in E. rewrite E. split.
      * intros [= <- <-]. split; [done|]. intros. cbn. lia.
      * intros [H1 H2]. specialize (H2 [] r eq_refl). destruct a; [|cbn in H2; lia]. cbn in H1. by apply app_inv_head in H1 as ->.
    + apply strip_prefix_None in E. split.
      * destruct (seek sep s) as [[a0 b0]|] eqn:E0; [|done]. intros [= <- <-]. destruct (proj1 (IH a0 b0) eq_refl) as [-> H]. split; [done|]. intros a' b' E1. destruct a' as [|x a'].
        -- exfalso. apply E. by exists b'.
        -- injection E1 as _ E1. apply H in E1. cbn. lia.
      * intros [H1 H2]. destruct a as [|x a]; [exfalso; apply E; by exists b|]. injection H1 as <- H1.
        assert (E0 : seek sep s = Some (a, b)); [|by rewrite E0]. apply IH. split; [done|]. intros a' b' E1. specialize (H2 (c :: a') b'). rewrite E1 in H2. specialize (H2 eq_refl). cbn in H2. lia.
Qed.
Lemma first_iff sep c a b : (forall a' b', a ++ (sep ++ [c]) ++ b = a' ++ (sep ++ [c]) ++ b' -> length a <= length a') <-> ~ occurs (sep ++ [c]) (a ++ sep).
Proof.
  split.
  - intros H (x & y & E). specialize (H x (y ++ c :: b)). apply (f_equal (fun l => l ++ c :: b)) in E. rewrite <- !app_assoc in E. cbn [app] in E.
    rewrite <- !app_assoc in H. cbn [app] in H. specialize (H E). apply (f_equal length) in E. rewrite !app_length in E. cbn in E. rewrite app_length in E. cbn in E.
    unfold gostr in *. lia.
  - intros H a' b' E. apply Nat.nlt_ge. intros Hl. apply H. exists a'.
    assert (P : a' ++ (sep ++ [c]) `prefix_of` a ++ sep).
    {
      assert (P1 : a' ++ (sep ++ [c]) `prefix_of` a ++ (sep ++ [c]) ++ b) by (exists b'; rewrite E; apply app_assoc).
      assert (P2 : a ++ sep `prefix_of` a ++ (sep ++ [c]) ++ b) by (exists (c :: b); rewrite <- !app_assoc; reflexivity).
      destruct (prefix_weak_total _ _ _ P1 P2) as [P|P]; [done|]. exfalso. apply prefix_length in P. rewrite !app_length in P. cbn in P. unfold gostr in *.
      destruct (decide (length a' + 1 = length a)) as [D|D]; [|lia].
      assert (Q : a ++ sep = a' ++ sep ++ [c]); [|apply H; exists a', []; by rewrite app_nil_r].
      destruct P1 as [y1 P1], P2 as [y2 P2]. rewrite P1 in P2. symmetry. apply (app_inj_1 _ _ y1 y2); [|done]. rewrite !app_length. cbn. lia. }
    destruct P as [y P]. exists y. by rewrite P, <- app_assoc.
Qed.

(** ** Declarations *)
Lemma proc_inst_parameter name data v : parameter name data v -> proc_inst name data = v.
Proof.
  intros (a & q & b & E & Hq & Hv & Hf). unfold proc_inst. assert (F : seek (name ++ lit "=") data = Some (a, [q] ++ v ++ [q] ++ b)).
  { apply seek_iff. split; [rewrite <- app_assoc; exact E|]. intros a' b' E'. apply (Hf a' b'). rewrite <- app_assoc in E'. exact E'. }
  rewrite F. cbn [app]. rewrite decide_True by done. assert (F2 : seek [q] (v ++ q :: b) = Some (v, b)); [|by rewrite F2].
  apply seek_iff. split; [done|]. intros a' b' E'. apply Nat.nlt_ge. intros Hl. apply Hv. change ([q] ++ b') with (q :: b') in E'.
  assert (P : a' ++ [q] `prefix_of` v).
  { assert (P1 : a' ++ [q] `prefix_of` v ++ q :: b) by (exists b'; by rewrite E', <- app_assoc). assert (P2 : v `prefix_of` v ++ q :: b) by (by exists (q :: b)).
    destruct (prefix_weak_total _ _ _ P1 P2) as [P|P]; [done|]. destruct P as [y P]. destruct y as [|z y]; [rewrite app_nil_r in P; rewrite P; done|].
    exfalso. apply (f_equal length) in P. rewrite !app_length in P. cbn in P. unfold gostr in *. lia. }
  destruct P as [y ->]. set_solver.
Qed.
Lemma proc_inst_found name data : proc_inst name data <> [] -> parameter name data (proc_inst name data).
Proof.
  unfold proc_inst. destruct (seek (name ++ lit "=") data) as [[a [|q v]]|] eqn:E; [done| |done]. destruct (decide _) as [Hq|]; [|done].
  destruct (seek [q] v) as [[x y]|] eqn:E2; [|done]. intros _. apply seek_iff in E as [E Hf]. apply seek_iff in E2 as [-> Hf2]. exists a, q, y.
  split; [rewrite E, <- app_assoc; done|]. split; [done|]. split.
  - intros (a' & b' & ->)%elem_of_list_split. specialize (Hf2 a' (b' ++ [q] ++ y)). rewrite <- app_assoc in Hf2. cbn [app] in Hf2. specialize (Hf2 eq_refl). rewrite app_length in Hf2. cbn in Hf2. unfold gostr in *. lia.
  - intros a' b' E'. apply (Hf a' b'). rewrite <- app_assoc. done.
Qed.
Lemma lower_utf v : map lower_c v = lit "utf-8" <-> same_but_case v (lit "utf-8").
Proof.
  unfold same_but_case. change (lit "utf-8") with (map lower_c (lit "utf-8")) at 1. generalize (lit "utf-8"). intros u. revert u. induction v as [|c v IH]; intros [|d u]; cbn [map].
  - split; [constructor|done].
  - split; [done|]. intros H. inversion H.
  - split; [done|]. intros H. inversion H.
  - split.
    + intros [= H1 H2]. constructor; [done|by apply IH].
    + intros H. inversion H as [|? ? ? ? H1 H2]; subst. f_equal; [done|by apply IH].
Qed.
Lemma decl_ok_iff data : decl_ok data = true <-> declaration_ok data.
Proof.
  unfold decl_ok, declaration_ok. rewrite andb_true_iff, !orb_true_iff, !bool_decide_eq_true, lower_utf. split.
  - intros [H1 H2]. split; intros v <-%proc_inst_parameter; done.
  - intros [H1 H2]. split.
    + destruct (decide (proc_inst (lit "version") data = [])) as [|N]; [by left|]. by apply H1, proc_inst_found.
    + destruct (decide (proc_inst (lit "encoding") data = [])) as [|N]; [by left|]. by apply H2, proc_inst_found.
Qed.

(** ** Directives *)
Lemma directive_fuel f1 : forall f2 d q s, length s <= f1 -> length s <= f2 -> xml_directive f1 d q s = xml_directive f2 d q s.
Proof.
  assert (L : forall sep s a b, seek sep s = Some (a, b) -> length b <= length s).
  { intros sep s a b [-> _]%seek_iff. rewrite !app_length. lia. }
  assert (L' : forall p s b, strip_prefix p s = Some b -> length b <= length s).
  { intros p s b ->%strip_prefix_Some. rewrite app_length. lia. }
  induction f1 as [|f1 IH]; intros [|f2] d q s H1 H2; try (destruct s; [done|cbn in *; lia]). cbn [xml_directive]. destruct s as [|b r]; [done|]. cbn in H1, H2.
  destruct q as [q|]; [apply IH; lia|]. destruct (decide (b = ">"%char)); [destruct d; [done|apply IH; lia]|]. destruct (decide _); [apply IH; lia|].
  destruct (decide _); [|apply IH; lia]. destruct (strip_prefix _ r) as [r'|] eqn:E; [|apply IH; lia]. apply L' in E. destruct (seek _ r') as [[x y]|] eqn:E2; [|done]. apply L in E2. unfold gostr in *. apply IH; lia.
Qed.
Definition dir_at (d : nat) (q : option ascii) (s : gostr) : option gostr := xml_directive (length s) d q s.
Lemma dir_cons d q b r : dir_at d q (b :: r) =
      match q with
      | Some q' => dir_at d (if decide (b = q') then None else q) r
      | None =>
        if decide (b = ">"%char) then
          match d with O => Some r | S d => dir_at d None r end
        else if decide (b = """"%char \/ b = "'"%char) then dir_at d (Some b) r
        else if decide (b = "<"%char) then
          match strip_prefix (lit "!--") r with
          | Some r' => match seek (lit "-->") r' with Some (_, rest) => dir_at d None rest | None => None end
          | None => dir_at (S d) None r
          end
        else dir_at d None r
      end.
Proof.
  unfold dir_at. cbn [length xml_directive]. destruct q as [q|]; [done|]. destruct (decide _); [done|]. destruct (decide _); [done|]. destruct (decide _); [|done].
  destruct (strip_prefix _ r) as [r'|] eqn:E; [|done]. destruct (seek _ r') as [[x y]|] eqn:E2; [|done]. apply directive_fuel; [|done].
  apply strip_prefix_Some in E as ->. apply seek_iff in E2 as [-> _]. rewrite !app_length. lia.
Qed.
(** [d] open brackets: directives one after the other. *)
Fixpoint dirs (d : nat) (s : gostr) : Prop := match d with O => directive s | S d => exists x y, s = x ++ ">"%char :: y /\ directive x /\ dirs d y end.
Lemma dirs_grow (f : gostr -> gostr) : (forall x, directive x -> directive (f x)) -> (forall x y, f (x ++ y) = f x ++ y) -> forall d s, dirs d s -> dirs d (f s).
Proof. intros Hf Ha [|d] s; cbn [dirs]; [apply Hf|]. intros (x & y & -> & Hx & Hy). exists (f x), y. rewrite Ha. split; [done|]. split; [by apply Hf|done]. Qed.
Lemma dir_sound s : forall d rest, (dir_at d None s = Some rest -> exists x, s = x ++ ">"%char :: rest /\ dirs d x) /\
  (forall q, dir_at d (Some q) s = Some rest -> exists x y, s = x ++ q :: y ++ ">"%char :: rest /\ q ∉ x /\ dirs d y).
Proof.
  induction s as [s IHs] using (induction_ltof1 _ (@length ascii)). unfold ltof in IHs. intros d rest. destruct s as [|b r]; [done|].
  assert (IH : forall d rest, (dir_at d None r = Some rest -> exists x, r = x ++ ">"%char :: rest /\ dirs d x) /\
    (forall q, dir_at d (Some q) r = Some rest -> exists x y, r = x ++ q :: y ++ ">"%char :: rest /\ q ∉ x /\ dirs d y)) by (apply IHs; cbn; lia).
  split.
  2: { intros q. rewrite dir_cons. destruct (decide (b = q)) as [->|N].
       - intros H. apply IH in H as (x & -> & Hx). exists [], x. split; [done|]. split; [by intros ?%elem_of_nil|done].
       - intros H. apply IH in H as (x & y & -> & Hx & Hy). exists (b :: x), y. split; [done|]. split; [by intros [?|?]%elem_of_cons|done]. }
  rewrite dir_cons. destruct (decide (b = ">"%char)) as [->|N1]; [|destruct (decide (b = """"%char \/ b = "'"%char)) as [Hq|N2]; [|destruct (decide (b = "<"%char)) as [->|N3]]].
  - destruct d as [|d].
    + intros [= <-]. exists []. split; [done|]. constructor.
    + intros H. apply IH in H as (x & -> & Hx). exists (">"%char :: x). split; [done|]. exists [], x. split; [done|]. split; [constructor|done].
  - intros H. apply IH in H as (x & y & -> & Hx & Hy). exists (b :: x ++ b :: y). split; [cbn [app]; by rewrite <- app_assoc|].
    apply (dirs_grow (fun z => b :: x ++ b :: z)); [|intros; cbn [app]; by rewrite <- app_assoc|done]. intros z Hz. apply (dir_quoted b x z); done.
  - destruct (strip_prefix (lit "!--") r) as [r'|] eqn:E.
    + apply strip_prefix_Some in E as ->. destruct (seek (lit "-->") r') as [[x y]|] eqn:E2; [|done]. apply seek_iff in E2 as [-> Hf].
      change (lit "-->") with (lit "--" ++ [">"%char]) in Hf. rewrite first_iff in Hf. intros H. apply IHs in H as (z & -> & Hz).
      2: { cbn. rewrite !app_length. unfold gostr in *. cbn. lia. }
      exists (lit "<!--" ++ x ++ lit "-->" ++ z). split; [by rewrite <- !app_assoc|].
      apply (dirs_grow (fun z => lit "<!--" ++ x ++ lit "-->" ++ z)); [|intros; by rewrite <- !app_assoc|done]. intros u Hu. by apply dir_comment.
    + apply strip_prefix_None in E. intros H. apply IH in H as (x & -> & (u & v & -> & Hu & Hv)). exists (lit "<" ++ u ++ lit ">" ++ v). split; [by rewrite <- !app_assoc; cbn [app lit]; rewrite <- ?app_assoc|].
      apply (dirs_grow (fun z => lit "<" ++ u ++ lit ">" ++ z)); [|intros; by rewrite <- !app_assoc|done]. intros z Hz. apply dir_nested; [|done|done].
      intros [k ->]. apply E. exists (k ++ ">"%char :: v ++ ">"%char :: rest). by rewrite <- !app_assoc.
  - intros H. apply IH in H as (x & -> & Hx). exists (b :: x). split; [done|]. apply (dirs_grow (fun z => b :: z)); [|done|done]. intros z Hz. apply dir_byte; [|done].
    rewrite !elem_of_cons, elem_of_nil. tauto.
Qed.
Lemma dir_complete x : directive x -> forall d y, dir_at d None (x ++ y) = dir_at d None y.
Proof.
  induction 1 as [|c s Hc Hs IH|q x s Hq Hx Hs IH|x s Hx Hs IH|x s Hn Hx IHx Hs IH]; intros d y.
  - done.
  - cbn [app]. rewrite dir_cons. rewrite !elem_of_cons, elem_of_nil in Hc. rewrite !decide_False by tauto. apply IH.
  - rewrite <- !app_assoc. cbn [app]. rewrite dir_cons. rewrite decide_False by (destruct Hq as [->| ->]; done). rewrite decide_True by done.
    induction x as [|c x IHx]; cbn [app]; rewrite dir_cons.
    + rewrite decide_True by done. apply IH.
    + apply not_elem_of_cons in Hx as [Hc Hx]. rewrite decide_False by congruence. by apply IHx.
  - rewrite <- !app_assoc. change (lit "<!--" ++ x ++ lit "-->" ++ s ++ y) with ("<"%char :: lit "!--" ++ x ++ lit "-->" ++ s ++ y). rewrite dir_cons.
    rewrite (decide_False (P := "<"%char = ">"%char)) by done. rewrite (decide_False (P := _ \/ _)) by (intros [?|?]; done). rewrite (decide_True (P := "<"%char = "<"%char)) by done.
    assert (E1 : strip_prefix (lit "!--") (lit "!--" ++ x ++ lit "-->" ++ s ++ y) = Some (x ++ lit "-->" ++ s ++ y)) by (by apply strip_prefix_Some). rewrite E1.
    assert (E2 : seek (lit "-->") (x ++ lit "-->" ++ s ++ y) = Some (x, s ++ y)); [|rewrite E2; apply IH]. apply seek_iff. split; [done|].
    change (lit "-->") with (lit "--" ++ [">"%char]). by apply first_iff.
  - rewrite <- !app_assoc. change (lit "<" ++ x ++ lit ">" ++ s ++ y) with ("<"%char :: x ++ lit ">" ++ s ++ y). rewrite dir_cons.
    rewrite (decide_False (P := "<"%char = ">"%char)) by done. rewrite (decide_False (P := _ \/ _)) by (intros [?|?]; done). rewrite (decide_True (P := "<"%char = "<"%char)) by done.
    assert (E1 : strip_prefix (lit "!--") (x ++ lit ">" ++ s ++ y) = None).
    { apply strip_prefix_None. intros [k E]. apply Hn. destruct x as [|a [|b [|c x]]]; try discriminate E. injection E as -> -> -> _. by exists x. }
    rewrite E1, IHx. change (lit ">" ++ s ++ y) with (">"%char :: s ++ y). rewrite dir_cons. rewrite decide_True by done. apply IH.
Qed.

Section Names.
Context (first second : N -> bool).
Local Notation xml_name := (xml_name first second).
Local Notation qname := (qname first second).
Local Notation misc := (misc first second).
Local Notation attr_text := (attr_text first second).
Local Notation attrs_text := (attrs_text first second).

(** ** Attributes *)
Lemma xml_attr_sound s a rest : xml_attr first second s = Some (a, rest) -> rest <> [] -> exists t, s = t ++ rest /\ attr_text t (plain_attr a).
Proof.
  unfold xml_attr. destruct (nsname first second s) as [[[p l] r]|] eqn:E; [|done]. apply nsname_iff in E as (n & -> & Hn & Hr).
  destruct (skip_ws r) as [|e r1] eqn:E1; [done|]. apply skip_ws_cons in E1 as (w1 & -> & Hw1 & _). destruct (decide _) as [->|]; [|done].
  destruct (skip_ws r1) as [|q r2] eqn:E2; [done|]. apply skip_ws_cons in E2 as (w2 & -> & Hw2 & _). destruct (decide _) as [Hq|]; [|done].
  destruct (XmlRead.xml_text (InQuotes q) r2) as [[v r3]|] eqn:E3; [|done]. intros [= <- <-] H0. apply quoted_iff in E3 as (raw & [->|[_ ?]] & Hv & Hl); [|done|done].
  exists (n ++ w1 ++ lit "=" ++ w2 ++ [q] ++ raw ++ [q]). split; [by rewrite <- !app_assoc; cbn [app lit]; rewrite <- ?app_assoc; cbn [app]; rewrite <- ?app_assoc|].
  by exists n, p, w1, w2, q, raw.
Qed.
Lemma xml_attr_complete t l v rest : attr_text t (l, v) -> exists p, xml_attr first second (t ++ rest) = Some (Attr p l v, rest).
Proof.
  intros (n & p & w1 & w2 & q & raw & -> & Hn & Hw1 & Hw2 & Hq & Hv & Hl). exists p. cbn [fst snd] in *. unfold xml_attr.
  assert (E : nsname first second ((n ++ w1 ++ lit "=" ++ w2 ++ [q] ++ raw ++ [q]) ++ rest) = Some ((p, l), w1 ++ "="%char :: w2 ++ q :: raw ++ q :: rest)).
  { apply nsname_iff. exists n. split; [rewrite <- !app_assoc; cbn [app lit]; rewrite <- ?app_assoc; cbn [app]; by rewrite <- ?app_assoc|]. split; [done|]. by apply white_ends. }
  rewrite E, skip_black by done. rewrite (decide_True (P := "="%char = "="%char)) by done. rewrite skip_black; [|done|by destruct Hq as [->| ->]]. rewrite decide_True by done.
  assert (E2 : XmlRead.xml_text (InQuotes q) (raw ++ q :: rest) = Some (v, rest)); [|by rewrite E2]. apply quoted_iff; [done|]. exists raw. split; [by left|done].
Qed.
Definition close (e : bool) : gostr := if e then lit "/>" else lit ">".
Lemma xml_attrs_sound fuel s l e rest : xml_attrs first second fuel s = Some (l, e, rest) -> exists t, s = t ++ close e ++ rest /\ attrs_text t (map plain_attr l).
Proof.
  revert s l. induction fuel as [|fuel IH]; intros s l; cbn [xml_attrs]; [done|]. destruct (skip_ws s) as [|b r] eqn:E; [done|]. apply skip_ws_cons in E as (w & -> & Hw & _).
  destruct (decide (b = "/"%char)) as [->|N1]; [|destruct (decide (b = ">"%char)) as [->|N2]].
  - destruct r as [|x r]; [done|]. destruct (decide _) as [->|]; [|done]. intros [= <- <- <-]. exists w. split; [done|]. by constructor.
  - intros [= <- <- <-]. exists w. split; [done|]. by constructor.
  - destruct (xml_attr first second (b :: r)) as [[a r1]|] eqn:E; [|done]. destruct (xml_attrs first second fuel r1) as [[[l1 e1] r2]|] eqn:E1; [|done].
    intros [= <- <- <-]. apply xml_attr_sound in E as (t & -> & Ht); [|intros ->; by destruct fuel]. apply IH in E1 as (t1 & -> & Ht1).
    exists (w ++ t ++ t1). split; [by rewrite <- !app_assoc|]. cbn [map]. by constructor.
Qed.
Lemma attr_head t a : attr_text t a -> exists c r, t = c :: r /\ name_byte c = true.
Proof. intros (n & p & w1 & w2 & q & raw & -> & Hn & _). apply qname_head in Hn as (c & r & -> & Hc). eexists c, _. split; [reflexivity|done]. Qed.
Lemma xml_attrs_complete t l e rest : attrs_text t l -> forall fuel, length t < fuel -> exists l', xml_attrs first second fuel (t ++ close e ++ rest) = Some (l', e, rest) /\ map plain_attr l' = l.
Proof.
  induction 1 as [w Hw|w t [k v] r l Hw Ht Hr IH]; intros fuel Hf; (destruct fuel as [|fuel]; [lia|]); cbn [xml_attrs].
  - exists []. split; [|done]. destruct e.
    + change (close true ++ rest) with ("/"%char :: ">"%char :: rest). by rewrite skip_black.
    + change (close false ++ rest) with (">"%char :: rest). by rewrite skip_black.
  - rewrite <- !app_assoc, skip_white by done. pose proof Ht as Ht'. apply attr_head in Ht' as (c & t0 & -> & Hc). cbn [app]. rewrite skip_ws_nows by (by apply name_byte_black).
    rewrite decide_False by (intros ->; done). rewrite decide_False by (intros ->; done).
    destruct (xml_attr_complete (c :: t0) k v (r ++ close e ++ rest) Ht) as (p & E). cbn [app] in E. rewrite E.
    destruct (IH fuel) as (l' & E' & Hl'); [rewrite !app_length in Hf; cbn in Hf; unfold gostr in *; lia|]. rewrite E'. eexists. split; [reflexivity|]. cbn [map]. by rewrite Hl'.
Qed.

(** ** Tokens *)
Inductive token_text : XmlRead.token -> gostr -> gostr -> Prop :=
  | tt_start n p l attrs ats ats' e rest : qname n p l -> attrs_text attrs ats -> name_ends (attrs ++ close e) -> map plain_attr ats' = ats ->
      token_text (TStart (p, l) ats' e) (lit "<" ++ n ++ attrs ++ close e) rest
  | tt_end n p l w rest : qname n p l -> white w -> token_text (TEnd (p, l)) (lit "</" ++ n ++ w ++ lit ">") rest
  | tt_cdata t v rest : cdata_text t v -> token_text (TChars v) t rest
  | tt_chars t v rest : chars_text t v -> (rest = [] \/ head rest = Some "<"%char) -> token_text (TChars v) t rest
  | tt_misc m rest : misc m -> token_text TMisc m rest.
Lemma xml_pi_iff s rest : xml_pi first second s = Some rest <-> exists target w data, s = target ++ w ++ data ++ lit "?>" ++ rest /\
    xml_name target /\ white w /\ ~ occurs (lit "?>") (data ++ lit "?") /\ name_ends (w ++ data ++ lit "?>") /\ (forall c, head data = Some c -> ~ white [c]) /\
    (target = lit "xml" -> declaration_ok data).
Proof.
  unfold xml_pi. split.
  - destruct (xname first second s) as [[target r]|] eqn:E; [|done]. apply xname_iff in E as (-> & Ht & He). destruct (seek (lit "?>") (skip_ws r)) as [[data rest']|] eqn:E; [|done].
    apply seek_iff in E as [E Hf]. change (lit "?>") with (lit "?" ++ [">"%char]) in Hf. rewrite E in Hf. change (lit "?>") with (lit "?" ++ [">"%char]) in Hf. rewrite first_iff in Hf.
    destruct (_ && _) eqn:D; [done|]. intros [= <-]. destruct (skip_ws_split r) as (w & Er & Hw). rewrite E in Er. exists target, w, data. split; [by rewrite Er|]. split; [done|]. split; [done|].
    split; [done|]. rewrite Er in He. split; [|split].
    + destruct w as [|c w]; [|done]. by destruct data.
    + intros c Hc Hw'. destruct data as [|x data]; [done|]. injection Hc as ->. cbn [app] in E. apply skip_ws_cons in E as (_ & _ & _ & E). inversion Hw' as [|? ? X]; subst. apply is_ws_iff in X. rewrite E in X. discriminate X.
    + intros ->. apply decl_ok_iff. rewrite bool_decide_eq_true_2 in D by done. cbn in D. by apply negb_false_iff in D.
  - intros (target & w & data & -> & Ht & Hw & Ho & He & Hh & Hd). assert (E : xname first second (target ++ w ++ data ++ lit "?>" ++ rest) = Some (target, w ++ data ++ lit "?>" ++ rest)).
    { apply xname_iff. split; [done|]. split; [done|]. destruct w as [|c w]; [|done]. by destruct data. }
    rewrite E, skip_white by done. assert (E1 : skip_ws (data ++ lit "?>" ++ rest) = data ++ lit "?>" ++ rest).
    { destruct data as [|x data]; [done|]. cbn [app]. apply skip_ws_nows. apply not_true_is_false. rewrite is_ws_iff. intros H. apply (Hh x eq_refl). constructor; [done|constructor]. }
    rewrite E1. assert (E2 : seek (lit "?>") (data ++ lit "?>" ++ rest) = Some (data, rest)).
    { apply seek_iff. split; [done|]. change (lit "?>") with (lit "?" ++ [">"%char]). by apply first_iff. }
    rewrite E2. destruct (decide (target = lit "xml")) as [->|N]; [|by rewrite bool_decide_eq_false_2].
    rewrite (proj2 (decl_ok_iff data) (Hd eq_refl)). cbn [negb]. by rewrite andb_false_r.
Qed.
Lemma xml_comment_iff s rest : xml_comment s = Some rest <-> exists x, s = x ++ lit "-->" ++ rest /\ ~ occurs (lit "--") (x ++ lit "-").
Proof.
  unfold xml_comment. split.
  - destruct (seek (lit "--") s) as [[x [|c y]]|] eqn:E; [done| |done]. apply seek_iff in E as [-> Hf]. change (lit "--") with (lit "-" ++ ["-"%char]) in Hf. rewrite first_iff in Hf.
    destruct (decide _) as [->|]; [|done]. intros [= <-]. by exists x.
  - intros (x & -> & Ho). assert (E : seek (lit "--") (x ++ lit "-->" ++ rest) = Some (x, ">"%char :: rest)); [|by rewrite E]. apply seek_iff. split; [done|].
    change (lit "-->" ++ rest) with ((lit "-" ++ ["-"%char]) ++ ">"%char :: rest). change (lit "--") with (lit "-" ++ ["-"%char]). by apply first_iff.
Qed.
Lemma raw_token_sound s tok rest : raw_token first second s = Some (tok, rest) -> exists t, s = t ++ rest /\ token_text tok t rest.
Proof.
  unfold raw_token. destruct s as [|b r]; [done|]. destruct (decide (b = "<"%char)) as [->|Nb].
  2: { destruct (XmlRead.xml_text InContent (b :: r)) as [[v r1]|] eqn:E; [|done]. intros [= <- <-]. apply content_iff in E as (raw & E & Hr & Hv & Hc & Hl).
       exists raw. split; [done|]. apply tt_chars; [|done]. split; [|done]. intros ->. cbn in E. subst r1. destruct Hr as [?|[= ?]]; done. }
  destruct r as [|c r1]; [done|]. destruct (decide (c = "/"%char)) as [->|N1]; [|destruct (decide (c = "?"%char)) as [->|N2]; [|destruct (decide (c = "!"%char)) as [->|N3]]].
  - destruct (nsname first second r1) as [[[p l] r2]|] eqn:E; [|done]. apply nsname_iff in E as (n & -> & Hn & _). destruct (skip_ws r2) as [|e r3] eqn:E; [done|].
    apply skip_ws_cons in E as (w & -> & Hw & _). destruct (decide _) as [->|]; [|done]. intros [= <- <-]. exists (lit "</" ++ n ++ w ++ lit ">"). split; [by rewrite <- !app_assoc|]. by constructor.
  - destruct (xml_pi first second r1) as [r2|] eqn:E; [|done]. intros [= <- <-]. apply xml_pi_iff in E as (target & w & data & -> & H). exists (lit "<?" ++ target ++ w ++ data ++ lit "?>").
    split; [by rewrite <- !app_assoc|]. constructor. apply misc_pi; tauto.
  - destruct r1 as [|d r2]; [done|]. destruct (decide (d = "-"%char)) as [->|M1]; [|destruct (decide (d = "["%char)) as [->|M2]].
    + destruct r2 as [|e r3]; [done|]. destruct (decide _) as [->|]; [|done]. destruct (xml_comment r3) as [r4|] eqn:E; [|done]. intros [= <- <-]. apply xml_comment_iff in E as (x & -> & Hx).
      exists (lit "<!--" ++ x ++ lit "-->"). split; [by rewrite <- !app_assoc|]. constructor. by constructor.
    + destruct (strip_prefix (lit "CDATA[") r2) as [r3|] eqn:E; [|done]. apply strip_prefix_Some in E as ->. destruct (XmlRead.xml_text InCData r3) as [[v r4]|] eqn:E; [|done].
      intros [= <- <-]. apply cdata_iff in E as (raw & -> & Ho & Hv & Hl). exists (lit "<![CDATA[" ++ raw ++ lit "]]>"). split; [by rewrite <- !app_assoc|]. apply tt_cdata. by exists raw.
    + destruct (xml_directive (length r2) 0 None r2) as [r3|] eqn:E; [|done]. intros [= <- <-]. apply dir_sound in E as (x & -> & Hx). exists (lit "<!" ++ [d] ++ x ++ lit ">").
      split; [by rewrite <- !app_assoc|]. constructor. by apply misc_directive.
  - destruct (nsname first second (c :: r1)) as [[[p l] r2]|] eqn:E; [|done]. apply nsname_iff in E as (n & -> & Hn & He).
    destruct (xml_attrs first second (length r2) r2) as [[[ats e] r3]|] eqn:E; [|done]. intros [= <- <-]. apply xml_attrs_sound in E as (t & -> & Ht).
    exists (lit "<" ++ n ++ t ++ close e). split; [by rewrite <- !app_assoc|]. eapply tt_start; [done|done| |done]. rewrite app_assoc in He. rewrite name_ends_app in He; [done|]. by destruct t, e.
Qed.
Lemma close_ends e r : exists c y, close e ++ r = c :: y /\ name_byte c = false.
Proof. destruct e; by eexists _, _. Qed.
Lemma raw_token_complete tok t rest : token_text tok t rest -> raw_token first second (t ++ rest) = Some (tok, rest) \/
  exists n l l' e, tok = TStart n l e /\ map plain_attr l' = map plain_attr l /\ raw_token first second (t ++ rest) = Some (TStart n l' e, rest).
Proof.
  intros [n p l attrs ats ats' e r Hn Ha He Hm|n p l w r Hn Hw|x v r Hx|x v r Hx Hr|m r Hm].
  - right. destruct (xml_attrs_complete attrs ats e r Ha (length (attrs ++ close e ++ r))) as (l' & E & Hl').
    { rewrite !app_length. destruct e; cbn; lia. }
    exists (p, l), ats', l', e. split; [done|]. split; [by rewrite Hl', Hm|]. rewrite <- !app_assoc. pose proof Hn as Hn'. apply qname_head in Hn' as (c & n0 & En & Hc).
    assert (E1 : nsname first second (n ++ attrs ++ close e ++ r) = Some ((p, l), attrs ++ close e ++ r)).
    { apply nsname_iff. exists n. split; [done|]. split; [done|]. rewrite app_assoc. apply name_ends_app; [|done]. by destruct attrs, e. }
    rewrite En in E1 |- *. cbn [app] in E1. change (lit "<" ++ (c :: n0) ++ attrs ++ close e ++ r) with ("<"%char :: c :: n0 ++ attrs ++ close e ++ r). unfold raw_token. rewrite (decide_True (P := "<"%char = "<"%char)) by done. rewrite decide_False by (intros ->; done).
    rewrite decide_False by (intros ->; done). rewrite decide_False by (intros ->; done). rewrite E1. by rewrite E.
  - left. rewrite <- !app_assoc. change (lit "</" ++ n ++ w ++ lit ">" ++ r) with ("<"%char :: "/"%char :: n ++ w ++ ">"%char :: r). unfold raw_token. rewrite !decide_True by done.
    assert (E1 : nsname first second (n ++ w ++ ">"%char :: r) = Some ((p, l), w ++ ">"%char :: r)).
    { apply nsname_iff. exists n. split; [done|]. split; [done|]. by apply white_ends. }
    rewrite E1, skip_black by done. by rewrite decide_True by done.
  - left. destruct Hx as (raw & -> & Ho & Hv & Hl). rewrite <- !app_assoc. change (lit "<![CDATA[" ++ raw ++ lit "]]>" ++ r) with ("<"%char :: "!"%char :: "["%char :: lit "CDATA[" ++ raw ++ lit "]]>" ++ r).
    unfold raw_token. rewrite (decide_True (P := "<"%char = "<"%char)) by done. rewrite (decide_False (P := "!"%char = "/"%char)) by done. rewrite (decide_False (P := "!"%char = "?"%char)) by done.
    rewrite (decide_True (P := "!"%char = "!"%char)) by done. rewrite (decide_False (P := "["%char = "-"%char)) by done. rewrite (decide_True (P := "["%char = "["%char)) by done.
    assert (E1 : strip_prefix (lit "CDATA[") (lit "CDATA[" ++ raw ++ lit "]]>" ++ r) = Some (raw ++ lit "]]>" ++ r)) by (by apply strip_prefix_Some). rewrite E1.
    assert (E2 : XmlRead.xml_text InCData (raw ++ lit "]]>" ++ r) = Some (v, r)); [|by rewrite E2]. apply cdata_iff. by exists raw.
  - left. destruct Hx as (H0 & Hv & Ho & Hl). destruct x as [|c x]; [done|]. cbn [app]. unfold raw_token. rewrite decide_False.
    2: { intros ->. inversion Hv as [|? ? ? H1 ? ? ? E| | |t0 ? ? ? ? Ht ? E]; subst; [apply H1; by left|]. apply ref_text_shape in Ht as (? & -> & _). discriminate E. }
    assert (E : XmlRead.xml_text InContent ((c :: x) ++ r) = Some (v, r)); [|cbn [app] in E; by rewrite E]. apply content_iff. by exists (c :: x).
  - left. destruct Hm as [x Hx|target w data H1 H2 H3 H4 H5 H6|c x H1 H2 H3]; rewrite <- !app_assoc.
    + change (lit "<!--" ++ x ++ lit "-->" ++ r) with ("<"%char :: "!"%char :: "-"%char :: "-"%char :: x ++ lit "-->" ++ r). unfold raw_token.
      rewrite (decide_True (P := "<"%char = "<"%char)) by done. rewrite (decide_False (P := "!"%char = "/"%char)) by done. rewrite (decide_False (P := "!"%char = "?"%char)) by done.
      rewrite (decide_True (P := "!"%char = "!"%char)) by done. rewrite (decide_True (P := "-"%char = "-"%char)) by done.
      assert (E : xml_comment (x ++ lit "-->" ++ r) = Some r); [|by rewrite E]. apply xml_comment_iff. by exists x.
    + change (lit "<?" ++ target ++ w ++ data ++ lit "?>" ++ r) with ("<"%char :: "?"%char :: target ++ w ++ data ++ lit "?>" ++ r). unfold raw_token.
      rewrite (decide_True (P := "<"%char = "<"%char)) by done. rewrite (decide_False (P := "?"%char = "/"%char)) by done. rewrite (decide_True (P := "?"%char = "?"%char)) by done.
      assert (E : xml_pi first second (target ++ w ++ data ++ lit "?>" ++ r) = Some r); [|by rewrite E]. apply xml_pi_iff. by exists target, w, data.
    + change (lit "<!" ++ [c] ++ x ++ lit ">" ++ r) with ("<"%char :: "!"%char :: c :: x ++ lit ">" ++ r). unfold raw_token.
      rewrite (decide_True (P := "<"%char = "<"%char)) by done. rewrite (decide_False (P := "!"%char = "/"%char)) by done. rewrite (decide_False (P := "!"%char = "?"%char)) by done.
      rewrite (decide_True (P := "!"%char = "!"%char)) by done. rewrite (decide_False (P := c = "-"%char)) by done. rewrite (decide_False (P := c = "["%char)) by done.
      change (xml_directive (length (x ++ lit ">" ++ r)) 0 None (x ++ lit ">" ++ r)) with (dir_at 0 None (x ++ lit ">" ++ r)). rewrite dir_complete by done.
      change (lit ">" ++ r) with (">"%char :: r). rewrite dir_cons. done.
Qed.
Lemma token_nonempty tok t rest : token_text tok t rest -> t <> [].
Proof. intros [n p l attrs ats ats' e r Hn Ha He Hm|n p l w r Hn Hw|x v r (raw & -> & _)|x v r [Hx _] Hr|m r []]; done. Qed.
End Names.
