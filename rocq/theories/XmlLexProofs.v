(** * Lemmas about the XML reader: names, text, attributes *)
From Verif Require Export FillProofs JsonTextProofs.
From Verif Require Export StmProofs.

(** ** Characters *)
Lemma rune_code_utf8 n q : utf8 n q -> rune_code q = n.
Proof.
  intros [[H ->]|[(a & b & H1 & H2 & H3 & ->)|[(a & b & c & H1 & H2 & H3 & H4 & H5 & ->)|(a & b & c & d & H1 & H2 & H3 & H4 & H5 & ->)]]]; cbn [rune_code].
  all: rewrite !code_byte by lia; lia.
Qed.
Lemma utf8_nonempty n q : utf8 n q -> q <> [].
Proof. intros [[H ->]|[(a & b & H1 & H2 & H3 & ->)|[(a & b & c & H1 & H2 & H3 & H4 & H5 & ->)|(a & b & c & d & H1 & H2 & H3 & H4 & H5 & ->)]]]; done. Qed.
(** The bytes: the character itself, or all above ASCII. *)
Lemma utf8_bytes n q : utf8 n q -> (n < 128)%N /\ q = [byte n] \/ (128 <= n)%N /\ Forall (fun c => (128 <= code c)%N) q.
Proof.
  intros [[H ->]|[(a & b & H1 & H2 & H3 & ->)|[(a & b & c & H1 & H2 & H3 & H4 & H5 & ->)|(a & b & c & d & H1 & H2 & H3 & H4 & H5 & ->)]]]; [by left|right..].
  all: (split; [lia|]); repeat (constructor; [rewrite code_byte by lia; lia|]); constructor.
Qed.
Lemma chars_in_iff (P Q : N -> Prop) s : (forall n, P n <-> Q n) -> chars_in P s <-> chars_in Q s.
Proof. intros H. split; (induction 1; [constructor|econstructor; [eassumption|by apply H|done]]). Qed.
Lemma chars_in_app P a b : chars_in P a -> chars_in P b -> chars_in P (a ++ b).
Proof. intros Ha Hb. induction Ha as [|n q s Hq Hn Hs IH]; [done|]. rewrite <- app_assoc. by econstructor. Qed.
Lemma chunks_chars (P : N -> bool) s :
  forallb (fun u => match u with Good q => P (rune_code q) | Bad _ => false end) (chunks s) = true <-> chars_in (fun n => P n = true) s.
Proof.
  unfold chunks. cut (forall fuel, length s <= fuel ->
    forallb (fun u => match u with Good q => P (rune_code q) | Bad _ => false end) (chunk_loop fuel s) = true <-> chars_in (fun n => P n = true) s).
  { intros H. apply H. done. }
  intros fuel. revert s. induction fuel as [|fuel IH]; intros s Hl.
  - destruct s; [|cbn in Hl; lia]. split; [constructor|done].
  - cbn [chunk_loop]. destruct s as [|c r]; [split; [constructor|done]|]. destruct (rune_at (c :: r)) as [[q t]|] eqn:E.
    + pose proof E as E'. apply utf8_rune_at in E' as [Es (n & Hn & _)]. cbn [forallb]. rewrite andb_true_iff, (rune_code_utf8 n q Hn), IH.
      2: { pose proof (utf8_nonempty _ _ Hn). apply (f_equal length) in Es. rewrite app_length in Es. destruct q; [done|]. cbn in Es, Hl. unfold gostr in *. lia. }
      split.
      * intros [H1 H2]. rewrite Es. by econstructor.
      * intros H. inversion H as [E2|n' q' s' Hq' Hn' Hs' E2]. assert (Eq : rune_at (c :: r) = Some (q', s')) by (rewrite <- E2; by eapply rune_at_utf8).
        pose proof (eq_trans (eq_sym E) Eq) as X. injection X as X1 X2. subst q' s'. split; [|done]. by rewrite (utf8_inj n n' q).
    + cbn. split; [done|]. intros H. inversion H as [E2|n' q' s' Hq' Hn' Hs' E2]. assert (Eq : rune_at (c :: r) = Some (q', s')) by (rewrite <- E2; by eapply rune_at_utf8).
      pose proof (eq_trans (eq_sym E) Eq) as X. discriminate X.
Qed.
Lemma xml_legal_iff s : xml_legal s = true <-> legal s.
Proof.
  unfold xml_legal, legal. rewrite chunks_chars. apply chars_in_iff. intros n. unfold xml_char, xml_point.
  rewrite !orb_true_iff, !andb_true_iff, !N.eqb_eq, !N.leb_le. lia.
Qed.

(** ** Names *)
Lemma name_byte_iff c : name_byte c = true <-> (letter (code c) \/ 48 <= code c <= 57 \/ code c = 95 \/ code c = 58 \/ code c = 46 \/ code c = 45 \/ 128 <= code c)%N.
Proof. unfold name_byte, letter. rewrite !orb_true_iff, !andb_true_iff, !N.eqb_eq, !N.leb_le. lia. Qed.
Lemma name_ends_iff rest : name_ends rest <-> exists c r, rest = c :: r /\ name_byte c = false.
Proof.
  destruct rest as [|c r]; cbn [name_ends]; [split; [done|by intros (? & ? & ? & _)]|]. split.
  - intros H. exists c, r. split; [done|]. apply not_true_is_false. rewrite name_byte_iff. unfold letter in *. lia.
  - intros (? & ? & [= <- <-] & H). apply not_true_iff_false in H. rewrite name_byte_iff in H. unfold letter in *. lia.
Qed.
Lemma name_run_sound s n rest : name_run s = (n, rest) -> s = n ++ rest /\ Forall (fun c => name_byte c = true) n /\ (rest = [] \/ name_ends rest).
Proof.
  revert n rest. induction s as [|c s IH]; intros n rest; cbn [name_run].
  - intros [= <- <-]. split; [done|]. split; [constructor|by left].
  - destruct (name_byte c) eqn:E.
    + destruct (name_run s) as [n' rest'] eqn:E'. intros [= <- <-]. destruct (IH n' rest' eq_refl) as (-> & H1 & H2). split; [done|]. split; [by constructor|done].
    + intros [= <- <-]. split; [done|]. split; [constructor|]. right. apply name_ends_iff. by exists c, s.
Qed.
Lemma name_run_complete n rest : Forall (fun c => name_byte c = true) n -> name_ends rest -> name_run (n ++ rest) = (n, rest).
Proof.
  intros H (c & r & -> & Hc)%name_ends_iff. induction H as [|x n Hx Hn IH]; cbn [app name_run]; [by rewrite Hc|]. by rewrite Hx, IH.
Qed.
Lemma name_ends_app a b : a <> [] -> name_ends (a ++ b) <-> name_ends a.
Proof. by destruct a. Qed.

Section Names.
Context (first second : N -> bool).
Local Notation xml_name := (xml_name first second).
Local Notation is_name := (is_name first second).
Local Notation qname := (qname first second).

Lemma first_rune_iff n : first_rune first n = true <-> starts_name first n.
Proof.
  unfold first_rune, starts_name, letter. destruct (N.ltb_spec n 128) as [H|H].
  - rewrite !orb_true_iff, !andb_true_iff, !N.eqb_eq, !N.leb_le. lia.
  - split; [intros E; right; right; right; done|]. intros [?|[?|[?|[_ E]]]]; [lia|lia|lia|done].
Qed.
Lemma rune_iff n : first_rune first n || second_rune second n = true <-> continues_name first second n.
Proof.
  rewrite orb_true_iff, first_rune_iff. unfold second_rune, continues_name. destruct (N.ltb_spec n 128) as [H|H].
  - rewrite !orb_true_iff, !andb_true_iff, !N.eqb_eq, !N.leb_le. split; [|].
    + intros [?|[[?|?]|?]]; tauto.
    + intros [?|[?|[?|[?|[? _]]]]]; [tauto|tauto|tauto|tauto|lia].
  - split.
    + intros [?|E]; [by left|]. right. right. right. right. done.
    + intros [?|[?|[?|[?|[_ E]]]]]; [by left|lia|lia|lia|by right].
Qed.
Lemma is_name_iff s : is_name s = true <-> xml_name s.
Proof.
  unfold XmlRead.is_name, SpecConfigText.xml_name. destruct s as [|c r].
  { split; [done|]. intros (n & q & r & E & Hq & _). apply utf8_nonempty in Hq. by destruct q. }
  destruct (rune_at (c :: r)) as [[q t]|] eqn:E.
  - pose proof E as E'. apply utf8_rune_at in E' as [Es (n & Hn & _)].
    assert (Ec : exists us, chunks (c :: r) = Good q :: us /\ forall P : N -> bool,
      forallb (fun u => match u with Good q => P (rune_code q) | Bad _ => false end) us = true <-> chars_in (fun n => P n = true) t).
    { assert (L : length t <= length r) by (pose proof (utf8_nonempty _ _ Hn); apply (f_equal length) in Es; rewrite app_length in Es; destruct q; [done|]; cbn in Es; unfold gostr in *; lia).
      exists (chunk_loop (length r) t). split; [unfold chunks; cbn [length chunk_loop]; by rewrite E|]. intros P. rewrite <- chunks_chars. unfold chunks.
      assert (G : forall f1 f2 (x : gostr), length x <= f1 -> length x <= f2 -> chunk_loop f1 x = chunk_loop f2 x); [|by rewrite (G (length r) (length t))].
      clear. induction f1 as [|f1 IH]; intros [|f2] x H1 H2; try (destruct x; [done|cbn in *; lia]). cbn [chunk_loop]. destruct x as [|a x]; [done|].
      destruct (rune_at (a :: x)) as [[q y]|] eqn:E.
      - f_equal. pose proof E as E'. apply utf8_rune_at in E' as [Es (n & Hn & _)]. pose proof (utf8_nonempty _ _ Hn). apply (f_equal length) in Es. rewrite app_length in Es. destruct q; [done|].
        cbn in *. unfold gostr in *. apply IH; lia.
      - f_equal. cbn in *. unfold gostr in *. apply IH; lia. }
    destruct Ec as (us & -> & Hus). rewrite andb_true_iff, (rune_code_utf8 n q Hn), first_rune_iff, (Hus (fun n => first_rune first n || second_rune second n)).
    rewrite (chars_in_iff _ (continues_name first second)) by (intros; apply rune_iff). split.
    + intros [H1 H2]. by exists n, q, t.
    + intros (n' & q' & r' & E2 & Hq' & H1 & H2). assert (Eq : rune_at (c :: r) = Some (q', r')) by (rewrite E2; by eapply rune_at_utf8).
      pose proof (eq_trans (eq_sym E) Eq) as X. injection X as X1 X2. subst q' r'. by rewrite (utf8_inj n n' q).
  - unfold chunks. cbn [length chunk_loop]. rewrite E. split; [done|]. intros (n' & q' & r' & E2 & Hq' & _).
    assert (Eq : rune_at (c :: r) = Some (q', r')) by (rewrite E2; by eapply rune_at_utf8). pose proof (eq_trans (eq_sym E) Eq) as X. discriminate X.
Qed.
Lemma char_name_bytes n q : utf8 n q -> continues_name first second n -> Forall (fun c => name_byte c = true) q.
Proof.
  intros H Hn. apply utf8_bytes in H as [[Hl ->]|[Hl H]].
  - constructor; [|constructor]. rewrite name_byte_iff, code_byte by lia. unfold continues_name, starts_name, letter in *. lia.
  - eapply Forall_impl; [exact H|]. cbn beta. intros c Hc. rewrite name_byte_iff. by do 6 right.
Qed.
Lemma xml_name_bytes n : xml_name n -> n <> [] /\ Forall (fun c => name_byte c = true) n.
Proof.
  intros (k & q & r & -> & Hq & Hk & Hr). split; [apply utf8_nonempty in Hq; by destruct q|]. apply Forall_app. split; [eapply char_name_bytes; [exact Hq|by left]|].
  induction Hr as [|m q' s Hq' Hm Hs IH]; [constructor|]. apply Forall_app. split; [by eapply char_name_bytes|done].
Qed.
Lemma xname_iff s n rest : xname first second s = Some (n, rest) <-> s = n ++ rest /\ xml_name n /\ name_ends rest.
Proof.
  unfold xname. destruct (name_run s) as [n' rest'] eqn:E. split.
  - apply name_run_sound in E as (-> & Hn & Hr). destruct Hr as [->|Hr]; [done|]. destruct rest' as [|c r]; [done|]. destruct (is_name n') eqn:E; [|done].
    intros [= <- <-]. split; [done|]. split; [by apply is_name_iff|done].
  - intros (-> & Hn & Hr). rewrite (name_run_complete n rest) in E; [|by apply xml_name_bytes|done]. injection E as <- <-. destruct rest; [done|].
    by rewrite (proj2 (is_name_iff n) Hn).
Qed.
Lemma split_name_iff n p l : xml_name n -> split_name n = Some (p, l) <-> qname n p l.
Proof.
  intros Hn. unfold split_name. destruct (cut ":" n) as [[p' l']|] eqn:E.
  - apply cut_Some in E as [-> Hp]. destruct (cut ":" l') as [[x y]|] eqn:E.
    + apply cut_Some in E as [-> Hx]. split; [done|]. intros H. exfalso. inversion H as [n' H1 H2 E1|p1 l1 H1 H2 H3 H4 H5 E1|p1 l1 H1 H2 H3 H4 E1]; subst.
      * apply H2. set_solver.
      * change (p ++ ":"%char :: l = p' ++ ":"%char :: x ++ ":"%char :: y) in E1. apply (cut_app ":" p l) in H2 as H2'. rewrite E1, cut_app in H2' by done.
        injection H2' as <- <-. apply H3. set_solver.
      * change (p1 ++ ":"%char :: l1 = p' ++ ":"%char :: x ++ ":"%char :: y) in E1. apply (cut_app ":" p1 l1) in H2 as H2'. rewrite E1, cut_app in H2' by done.
        injection H2' as <- <-. apply H3. set_solver.
    + apply cut_None in E. change (p' ++ ":"%char :: l') with (p' ++ lit ":" ++ l') in *. destruct (decide (p' = [] \/ l' = [])) as [D|D].
      * split; [intros [= <- <-]; by apply q_colon|]. intros H. inversion H as [n' H1 H2 E1|p1 l1 H1 H2 H3 H4 H5 E1|p1 l1 H1 H2 H3 H4 E1]; subst.
        -- exfalso. apply H2. set_solver.
        -- change (p ++ ":"%char :: l = p' ++ ":"%char :: l') in E1. apply (cut_app ":" p l) in H2 as H2'. rewrite E1, cut_app in H2' by done. injection H2' as <- <-. tauto.
        -- f_equal; f_equal; symmetry; exact E1.
      * split; [intros [= <- <-]; apply q_prefixed; tauto|]. intros H. inversion H as [n' H1 H2 E1|p1 l1 H1 H2 H3 H4 H5 E1|p1 l1 H1 H2 H3 H4 E1]; subst.
        -- exfalso. apply H2. set_solver.
        -- change (p ++ ":"%char :: l = p' ++ ":"%char :: l') in E1. apply (cut_app ":" p l) in H2 as H2'. rewrite E1, cut_app in H2' by done. injection H2' as <- <-. done.
        -- change (p1 ++ ":"%char :: l1 = p' ++ ":"%char :: l') in E1. apply (cut_app ":" p1 l1) in H2 as H2'. rewrite E1, cut_app in H2' by done. injection H2' as <- <-. tauto.
  - apply cut_None in E. split; [intros [= <- <-]; by apply q_plain|]. intros H. inversion H as [n' H1 H2 E1|p1 l1 H1 H2 H3 H4 H5 E1|p1 l1 H1 H2 H3 H4 E1]; subst; [done|..].
    all: exfalso; apply E; set_solver.
Qed.
Lemma qname_name n p l : qname n p l -> xml_name n.
Proof. by intros []. Qed.
Lemma nsname_iff s p l rest : nsname first second s = Some ((p, l), rest) <-> exists n, s = n ++ rest /\ qname n p l /\ name_ends rest.
Proof.
  unfold nsname. destruct (xname first second s) as [[n r]|] eqn:E.
  - apply xname_iff in E as (-> & Hn & Hr). split.
    + destruct (split_name n) as [[p' l']|] eqn:E; [|done]. intros [= <- <- <-]. exists n. split; [done|]. split; [by apply split_name_iff|done].
    + intros (n' & E & Hq & Hr'). assert (X : xname first second (n ++ r) = Some (n', rest)) by (apply xname_iff; split; [done|]; split; [by eapply qname_name|done]).
      assert (Y : xname first second (n ++ r) = Some (n, r)) by (by apply xname_iff). rewrite X in Y. injection Y as -> ->.
      by rewrite (proj2 (split_name_iff n p l Hn) Hq).
  - split; [done|]. intros (n' & E' & Hq & Hr'). assert (X : xname first second s = Some (n', rest)) by (apply xname_iff; split; [done|]; split; [by eapply qname_name|done]).
    rewrite X in E. discriminate E.
Qed.
Lemma qname_inj n n' p l : qname n p l -> qname n' p l -> n = n'.
Proof.
  intros H H'. inversion H as [m H1 H2 E1|p1 l1 H1 H2 H3 H4 H5 E1|p1 l1 H1 H2 H3 H4 E1]; subst;
    inversion H' as [m' H1' H2' E1'|p1' l1' H1' H2' H3' H4' H5' E1'|p1' l1' H1' H2' H3' H4' E1']; subst; try done.
  all: exfalso; set_solver.
Qed.
Lemma qname_head n p l : qname n p l -> exists c r, n = c :: r /\ name_byte c = true.
Proof. intros H%qname_name%xml_name_bytes. destruct H as [H1 H2]. destruct n as [|c r]; [done|]. exists c, r. split; [done|]. by inversion H2. Qed.
End Names.
