(** * Lemmas about the XML reader: references and text *)
From Verif Require Export XmlLexProofs.
From Verif Require Export StmProofs.

(** ** References *)
Lemma ref_digit_iff base c v : ref_digit base c = Some v <-> hex_char c v /\ (v < base)%N.
Proof.
  unfold ref_digit. rewrite hex_char_val. destruct (hex_val c) as [w|]; [|naive_solver]. destruct (N.ltb_spec w base) as [H|H]; [naive_solver|].
  split; [done|]. intros [[= ->] ?]. lia.
Qed.
Definition is_ref_digit (base : N) (c : ascii) : Prop := exists v, ref_digit base c = Some v.
Lemma ref_digits_sound base s d rest : ref_digits base s = (d, rest) -> s = d ++ rest /\ Forall (is_ref_digit base) d.
Proof.
  revert d rest. induction s as [|c s IH]; intros d rest; cbn [ref_digits].
  - intros [= <- <-]. split; [done|constructor].
  - destruct (ref_digit base c) as [v|] eqn:E.
    + destruct (ref_digits base s) as [d' r'] eqn:E'. intros [= <- <-]. destruct (IH d' r' eq_refl) as [-> H]. split; [done|]. constructor; [by exists v|done].
    + intros [= <- <-]. split; [done|constructor].
Qed.
Lemma ref_digits_complete base d c rest : Forall (is_ref_digit base) d -> ref_digit base c = None -> ref_digits base (d ++ c :: rest) = (d, c :: rest).
Proof.
  intros H Hc. induction H as [|x d [v Hx] Hd IH]; cbn [app ref_digits]; [by rewrite Hc|]. by rewrite Hx, IH.
Qed.
Lemma digits_value_iff base d n : digits_value base d n <-> d <> [] /\ Forall (is_ref_digit base) d /\ n = ref_number base d.
Proof.
  split.
  - induction 1 as [c v Hc Hv|s n c v Hs IH Hc Hv].
    + assert (E : ref_digit base c = Some v) by (by apply ref_digit_iff). split; [done|]. split; [constructor; [by exists v|constructor]|]. unfold ref_number. cbn [fold_left]. rewrite E. lia.
    + destruct IH as (H1 & H2 & ->). assert (E : ref_digit base c = Some v) by (by apply ref_digit_iff). split; [by destruct s|].
      split; [apply Forall_app; split; [done|]; constructor; [by exists v|constructor]|]. unfold ref_number at 2. rewrite fold_left_app. cbn [fold_left]. rewrite E. done.
  - intros (H1 & H2 & ->). induction d as [|c d IH] using rev_ind; [done|]. apply Forall_app in H2 as [H2 Hc]. apply Forall_singleton in Hc as [v Hc].
    unfold ref_number. rewrite fold_left_app. cbn [fold_left]. rewrite Hc. apply ref_digit_iff in Hc as [Hc Hv]. destruct d as [|x d].
    + cbn. by constructor.
    + constructor; [|done|done]. by apply IH.
Qed.
Lemma char_value_iff n v : (n <= 1114111)%N -> char_value n v <-> v = encode_rune n.
Proof.
  intros Hn. unfold char_value. destruct (decide (55296 <= n < 57344)%N) as [D|D].
  - assert (E : encode_rune n = replacement).
    { unfold encode_rune. rewrite (proj2 (N.ltb_ge n 128)), (proj2 (N.ltb_ge n 2048)) by lia. by rewrite (proj2 (N.leb_le 55296 n)), (proj2 (N.ltb_lt n 57344)) by lia. }
    rewrite E, <- fffd_iff. split; [|by right]. intros [[H _]%utf8_scalar|[_ H]]; [unfold scalar in H; lia|done].
  - split; [|].
    + intros [[_ H]%utf8_scalar|[? _]]; [done|lia].
    + intros ->. left. apply utf8_rune. unfold scalar. lia.
Qed.
Lemma entity_sound n t : entity n = Some t -> ref_text ("&"%char :: n ++ lit ";") t.
Proof.
  unfold entity. repeat (destruct (decide _) as [->|]; [intros [= <-]; constructor|]). done.
Qed.
Lemma reference_sound s x rest : reference_at s = Some (x, rest) -> exists t, "&"%char :: s = t ++ rest /\ ref_text t x.
Proof.
  unfold reference_at. destruct s as [|c r]; [done|]. destruct (decide (c = "#"%char)) as [->|Hc].
  - assert (G : forall base r1 x rest, (let '(d, rest) := ref_digits base r1 in
      match d, rest with
      | _ :: _, e :: rest' => if decide (e = ";"%char) then if (ref_number base d <=? 1114111)%N then Some (encode_rune (ref_number base d), rest') else None else None
      | _, _ => None
      end) = Some (x, rest) -> exists d, r1 = d ++ lit ";" ++ rest /\ digits_value base d (ref_number base d) /\ (ref_number base d <= 1114111)%N /\ char_value (ref_number base d) x).
    { clear. intros base r1 x rest. destruct (ref_digits base r1) as [d r2] eqn:E. apply ref_digits_sound in E as [-> Hd]. destruct d as [|d0 d]; [done|]. destruct r2 as [|e r2]; [done|].
      destruct (decide _) as [->|]; [|done]. destruct (N.leb_spec (ref_number base (d0 :: d)) 1114111) as [H|]; [|done]. intros [= <- <-]. exists (d0 :: d).
      split; [done|]. split; [by apply digits_value_iff|]. split; [done|]. by apply char_value_iff. }
    destruct r as [|y r].
    + intros H. apply G in H as (d & E & Hd & _). apply digits_value_iff in Hd as (? & _). by destruct d.
    + destruct (decide (y = "x"%char)) as [->|Hy].
      * intros H. apply G in H as (d & -> & Hd & Hn & Hv). exists (lit "&#x" ++ d ++ lit ";"). split; [by rewrite <- !app_assoc|]. by eapply ref_hex.
      * intros H. apply G in H as (d & E & Hd & Hn & Hv). exists (lit "&#" ++ d ++ lit ";"). split; [rewrite <- !app_assoc, E; done|]. by eapply ref_dec.
  - destruct (name_run (c :: r)) as [n r1] eqn:E. apply name_run_sound in E as (E & Hn & _). destruct r1 as [|e r1]; [done|]. destruct (decide _) as [->|]; [|done].
    destruct (entity n) as [t|] eqn:En; [|done]. intros [= <- <-]. apply entity_sound in En. eexists. split; [|exact En]. rewrite E. cbn [app]. by rewrite <- app_assoc.
Qed.
Lemma semi_ends r : name_ends (lit ";" ++ r).
Proof. apply name_ends_iff. eexists _, _. split; [reflexivity|reflexivity]. Qed.
Lemma reference_complete t x rest : ref_text t x -> exists s, t = "&"%char :: s /\ reference_at (s ++ rest) = Some (x, rest).
Proof.
  assert (D : forall base d, Forall (is_ref_digit base) d -> d <> [] -> (base <= 16)%N -> (ref_number base d <= 1114111)%N ->
    (let '(d, rest) := ref_digits base (d ++ lit ";" ++ rest) in
      match d, rest with
      | _ :: _, e :: rest' => if decide (e = ";"%char) then if (ref_number base d <=? 1114111)%N then Some (encode_rune (ref_number base d), rest') else None else None
      | _, _ => None
      end) = Some (encode_rune (ref_number base d), rest)).
  { intros base d Hd H0 Hb Hn. change (lit ";" ++ rest) with (";"%char :: rest). rewrite ref_digits_complete; [|done|done]. destruct d as [|d0 d]; [done|]. rewrite decide_True by done.
    by rewrite (proj2 (N.leb_le _ _) Hn). }
  intros [| | | | |ds n v Hd Hn Hv|ds n v Hd Hn Hv].
  1-5: eexists; (split; [reflexivity|]); reflexivity.
  - apply digits_value_iff in Hd as (H0 & Hd & ->). apply char_value_iff in Hv as ->; [|done]. exists ("#"%char :: ds ++ lit ";"). split; [done|].
    cbn [app]. rewrite <- app_assoc. unfold reference_at. rewrite decide_True by done. rewrite <- (D 10%N ds); [|done|done|done|done]. destruct ds as [|y ds]; [done|]. cbn [app].
    destruct (decide (y = "x"%char)) as [->|]; [|done]. apply Forall_inv in Hd as [w Hw]. discriminate Hw.
  - apply digits_value_iff in Hd as (H0 & Hd & ->). apply char_value_iff in Hv as ->; [|done]. exists ("#"%char :: "x"%char :: ds ++ lit ";"). split; [done|].
    cbn [app]. rewrite <- app_assoc. unfold reference_at. rewrite !decide_True by done. apply (D 16%N ds); done.
Qed.
(** References are in ASCII without brackets, and end with a semicolon. *)
Definition tame (c : ascii) : Prop := c <> ">"%char /\ c <> byte 10 /\ c <> byte 13.
Lemma ref_digit_tame base c : is_ref_digit base c -> tame c.
Proof. intros [v Hv]. unfold tame. split_and!; intros ->; discriminate Hv. Qed.
Lemma ref_text_shape t x : ref_text t x -> exists s, t = "&"%char :: s ++ [";"%char] /\ Forall tame s.
Proof.
  assert (T : forall s : gostr, forallb (fun c => negb (bool_decide (c = ">"%char \/ c = byte 10 \/ c = byte 13))) s = true -> Forall tame s).
  { intros s H. apply Forall_forall. intros c Hc%elem_of_list_In. rewrite forallb_forall in H. apply H in Hc. apply negb_true_iff, bool_decide_eq_false in Hc. unfold tame. tauto. }
  intros [| | | | |ds n v Hd Hn Hv|ds n v Hd Hn Hv].
  - exists (lit "lt"). split; [done|]. by apply T.
  - exists (lit "gt"). split; [done|]. by apply T.
  - exists (lit "amp"). split; [done|]. by apply T.
  - exists (lit "apos"). split; [done|]. by apply T.
  - exists (lit "quot"). split; [done|]. by apply T.
  - exists (lit "#" ++ ds). split; [by rewrite <- app_assoc|]. apply digits_value_iff in Hd as (H0 & Hd & ->). apply Forall_app. split; [by apply T|]. eapply Forall_impl; [exact Hd|]. apply ref_digit_tame.
  - exists (lit "#x" ++ ds). split; [by rewrite <- app_assoc|]. apply digits_value_iff in Hd as (H0 & Hd & ->). apply Forall_app. split; [by apply T|]. eapply Forall_impl; [exact Hd|]. apply ref_digit_tame.
Qed.

(** ** The end of a CDATA section *)
Definition shuts (b0 b1 b : ascii) : Prop := b0 = "]"%char /\ b1 = "]"%char /\ b = ">"%char.
Fixpoint closes (b0 b1 : ascii) (s : gostr) : Prop := match s with [] => False | b :: r => shuts b0 b1 b \/ closes b1 b r end.
Lemma closes_occurs b0 b1 s : closes b0 b1 s <-> occurs (lit "]]>") (b0 :: b1 :: s).
Proof.
  revert b0 b1. induction s as [|b s IH]; intros b0 b1; cbn [closes].
  - split; [done|]. intros (a & r & E). destruct a as [|x [|y [|z a]]]; discriminate E.
  - rewrite IH. split.
    + intros [(-> & -> & ->)|(a & r & E)]; [by exists [], s|]. exists (b0 :: a), r. cbn [app]. by rewrite E.
    + intros (a & r & E). destruct a as [|x a].
      * left. injection E as -> -> -> _. done.
      * right. injection E as _ E. by exists a, r.
Qed.
Lemma closes_fresh b0 b1 s : b1 <> "]"%char -> closes b0 b1 s <-> closes zero zero s.
Proof.
  intros H. destruct s as [|b [|c s]]; cbn [closes]; unfold shuts; [done|..].
  - split; [intros [(_ & ? & _)|[]]; done|]. by intros [(? & _)|[]].
  - split; [intros [(_ & ? & _)|[(? & _)|?]]; [done|done|tauto]|]. intros [(? & _)|[(? & _)|?]]; [done|done|tauto].
Qed.
Lemma closes_zero s : closes zero zero s <-> occurs (lit "]]>") s.
Proof.
  rewrite closes_occurs. split.
  - intros (a & r & E). destruct a as [|x [|y a]]; [discriminate E|discriminate E|]. injection E as _ _ E. by exists a, r.
  - intros (a & r & ->). by exists (zero :: zero :: a), r.
Qed.
Lemma closes_ref t x b0 b1 s : ref_text t x -> closes b0 b1 (t ++ s) <-> closes zero zero s.
Proof.
  intros H. apply ref_text_shape in H as (u & -> & Hu). rewrite app_comm_cons, <- app_assoc. assert (Hu' : Forall tame ("&"%char :: u)) by (by constructor).
  remember ("&"%char :: u) as w. clear Heqw. revert b0 b1. induction Hu' as [|c w Hc Hw IH]; intros b0 b1; cbn [app closes].
  - rewrite closes_fresh by done. split; [|by right]. by intros [(_ & _ & ?)|?].
  - rewrite IH. split; [|by right]. intros [(_ & _ & ->)|?]; [|done]. by destruct Hc.
Qed.

(** ** Line ends *)
Section Expands.
Context (refs : bool) (stop : list ascii).
(** After a carriage return a line feed counts for nothing. *)
Definition after (b : ascii) (raw v : gostr) : Prop :=
  (exists raw', b = byte 13 /\ raw = byte 10 :: raw' /\ expands refs stop raw' v) \/ ~ (b = byte 13 /\ head raw = Some (byte 10)) /\ expands refs stop raw v.
Lemma after_plain b raw v : b <> byte 13 -> after b raw v <-> expands refs stop raw v.
Proof. intros H. split; [intros [(? & ? & _)|[_ ?]]; done|]. intros H'. right. split; [|done]. by intros [? _]. Qed.
Lemma amp_codes : byte 13 <> "&"%char /\ byte 10 <> "&"%char /\ byte 10 <> byte 13.
Proof. done. Qed.
Lemma expands_nil v : expands refs stop [] v <-> v = [].
Proof.
  split; [|intros ->; constructor]. intros H. inversion H as [| | |? ? H1 H2 E|t x raw v' Hr Ht Hv E]; [done|]. apply ref_text_shape in Ht as (s & -> & _). discriminate E.
Qed.
Lemma after_nil b v : after b [] v <-> v = [].
Proof. unfold after. rewrite expands_nil. split; [intros [(? & _ & ? & _)|[_ ?]]; done|]. intros ->. right. split; [|done]. by intros [_ ?]. Qed.
Lemma after_cr b raw v : after b (byte 13 :: raw) v <-> exists v', v = byte 10 :: v' /\ after (byte 13) raw v'.
Proof.
  unfold after at 1. split.
  - intros [(raw' & _ & E & _)|[_ H]]; [discriminate E|]. inversion H as [|c raw' v' H1 H2 H3 H4 E|raw' v' H1 E|raw' v' H1 H2 E|t x raw' v' Hr Ht Hv E].
    + done.
    + subst. exists v'. split; [done|]. left. by exists raw'.
    + subst. exists v'. split; [done|]. right. split; [|done]. by intros [_ ?].
    + apply ref_text_shape in Ht as (s & -> & _). discriminate E.
  - intros (v' & -> & [(raw' & _ & -> & H)|[H1 H2]]); right; (split; [by intros [_ ?]|]).
    + by apply ex_crlf.
    + apply ex_cr; [|done]. intros E. by apply H1.
Qed.
Lemma after_lf raw v : after (byte 13) (byte 10 :: raw) v <-> after (byte 10) raw v.
Proof.
  rewrite (after_plain (byte 10)) by done. split.
  - intros [(raw' & _ & [= <-] & H)|[H _]]; [done|]. by destruct H.
  - intros H. left. by exists raw.
Qed.
Lemma after_byte b c raw v : c <> byte 13 -> ~ (b = byte 13 /\ c = byte 10) -> ~ (refs = true /\ c = "&"%char) ->
  after b (c :: raw) v <-> c ∉ stop /\ exists v', v = c :: v' /\ after c raw v'.
Proof.
  intros H1 H2 H3. setoid_rewrite (after_plain c raw); [|done]. unfold after. split.
  - intros [(raw' & ? & [= ? _] & _)|[_ H]]; [by destruct H2|]. inversion H as [|c' raw' v' H1' H2' H3' H4' E|raw' v' H1' E|raw' v' H1' H2' E|t x raw' v' Hr Ht Hv E]; subst; try done.
    + split; [done|]. by exists v'.
    + apply ref_text_shape in Ht as (s & -> & _). injection E as E _. exfalso. by apply H3.
  - intros (Hs & v' & -> & Hv). right. split; [|by constructor]. cbn. intros [? [= ?]]. by apply H2.
Qed.
Lemma after_ref b s v : refs = true -> after b ("&"%char :: s) v <-> exists t x raw v', "&"%char :: s = t ++ raw /\ ref_text t x /\ v = x ++ v' /\ after zero raw v'.
Proof.
  intros Hr. setoid_rewrite (after_plain zero); [|done]. unfold after. split.
  - intros [(raw' & ? & [= ? _] & _)|[_ H]]. inversion H as [|c' raw' v' H1' H2' H3' H4' E|raw' v' H1' E|raw' v' H1' H2' E|t x raw' v' Hr' Ht Hv E]; subst.
    + by destruct H3'.
    + by exists t, x, raw', v'.
  - intros (t & x & raw & v' & -> & Ht & -> & Hv). right. split; [|by apply ex_ref]. apply ref_text_shape in Ht as (u & -> & _). by intros [_ [= ?]].
Qed.
End Expands.

(** ** The loop over text *)
Definition refs_of (k : text_kind) : bool := match k with InCData => false | _ => true end.
Definition stop_of (k : text_kind) : list ascii := match k with InQuotes q => ["<"%char; q] | InContent => ["<"%char] | InCData => [] end.
Definition kind_ok (k : text_kind) : Prop := match k with InQuotes q => q = """"%char \/ q = "'"%char | _ => True end.
(** [raw] has been read after [b0] and [b1], [s'] is left: the text ends here. *)
Definition halts (k : text_kind) (b0 b1 : ascii) (raw s' rest : gostr) : Prop :=
  match k with
  | InQuotes q => s' = q :: rest \/ s' = [] /\ rest = []
  | InContent => s' = rest /\ (rest = [] \/ head rest = Some "<"%char) /\ ~ closes b0 b1 raw
  | InCData => s' = ">"%char :: rest /\ ~ closes b0 b1 raw /\ exists a, b0 :: b1 :: raw = a ++ lit "]]"
  end.
Definition open_at (k : text_kind) (b0 b1 b : ascii) : Prop := match k with InQuotes _ => True | _ => ~ shuts b0 b1 b end.
Lemma halts_cons k b0 b1 b raw s' rest : halts k b0 b1 (b :: raw) s' rest <-> open_at k b0 b1 b /\ halts k b1 b raw s' rest.
Proof.
  destruct k as [q| |]; cbn [halts open_at closes]; [tauto|tauto|]. split.
  - intros (H1 & H2 & (a & E)). split; [tauto|]. split; [done|]. split; [tauto|]. destruct a as [|x a]; [discriminate E|]. injection E as _ E. by exists a.
  - intros (H1 & H2 & H3 & (a & E)). split; [done|]. split; [tauto|]. exists (b0 :: a). cbn [app]. by rewrite E.
Qed.
Lemma halts_ref k b0 b1 t x raw s' rest : refs_of k = true -> ref_text t x -> halts k b0 b1 (t ++ raw) s' rest <-> halts k zero zero raw s' rest.
Proof. intros Hk Ht. destruct k as [q| |]; cbn [halts]; [done| |done]. by rewrite (closes_ref t x b0 b1 raw Ht). Qed.
Lemma text_step k b0 b1 fuel b r :
  text_loop (S fuel) k b0 b1 (b :: r) =
      (let go out b0 b1 r := match text_loop fuel k b0 b1 r with Some (t, rest) => Some (out ++ t, rest) | None => None end in
      let plain := if decide (b = byte 13) then go [byte 10] b1 b r
                   else if decide (b1 = byte 13 /\ b = byte 10) then go [] b1 b r
                   else go [b] b1 b r in
      let marked := if decide (b = "&"%char) then
                      match reference_at r with Some (t, r') => go t zero zero r' | None => None end
                    else plain in
      match k with
      | InQuotes q => if decide (b = "<"%char) then None else if decide (b = q) then Some ([], r) else marked
      | InContent => if decide (b0 = "]"%char /\ b1 = "]"%char /\ b = ">"%char) then None
                     else if decide (b = "<"%char) then Some ([], b :: r) else marked
      | InCData => if decide (b0 = "]"%char /\ b1 = "]"%char /\ b = ">"%char) then Some ([], r) else plain
      end).
Proof. reflexivity. Qed.
Lemma text_loop_iff fuel : forall k b0 b1 s t rest, kind_ok k -> length s < fuel ->
  text_loop fuel k b0 b1 s = Some (t, rest) <-> exists raw s', s = raw ++ s' /\ after (refs_of k) (stop_of k) b1 raw t /\ halts k b0 b1 raw s' rest.
Proof.
  induction fuel as [|fuel IH]; intros k b0 b1 s t rest Hk Hl; [lia|]. destruct s as [|b r].
  { cbn [text_loop]. split.
    - intros H. exists [], []. split; [done|]. destruct k as [q| |]; [injection H as <- <-..|discriminate H]; (split; [by apply after_nil|]); cbn; tauto.
    - intros (raw & s' & E & Hv & Hh). symmetry in E. apply app_eq_nil in E as [-> ->]. apply after_nil in Hv as ->. destruct k as [q| |]; cbn in Hh.
      + destruct Hh as [?|[_ ->]]; done.
      + by destruct Hh as [<- _].
      + by destruct Hh as [? _]. }
  assert (Hl' : length r < fuel) by (cbn in Hl; lia). clear Hl.
  (* one plain byte *)
  assert (P : open_at k b0 b1 b -> b ∉ stop_of k -> ~ (refs_of k = true /\ b = "&"%char) -> (forall s' : gostr, ~ halts k b0 b1 [] (b :: s') rest) ->
    (let go out b0 b1 r := match text_loop fuel k b0 b1 r with Some (t, rest) => Some (out ++ t, rest) | None => None end in
     if decide (b = byte 13) then go [byte 10] b1 b r
     else if decide (b1 = byte 13 /\ b = byte 10) then go [] b1 b r else go [b] b1 b r) = Some (t, rest) <->
    exists raw s', b :: r = raw ++ s' /\ after (refs_of k) (stop_of k) b1 raw t /\ halts k b0 b1 raw s' rest).
  { intros Ho Hs Hr Hn. cbn zeta.
    assert (Q : (exists raw s', b :: r = raw ++ s' /\ after (refs_of k) (stop_of k) b1 raw t /\ halts k b0 b1 raw s' rest) <->
      exists raw s', r = raw ++ s' /\ after (refs_of k) (stop_of k) b1 (b :: raw) t /\ halts k b1 b raw s' rest).
    { split.
      - intros (raw & s' & E & Hv & Hh). destruct raw as [|c raw]; [cbn in E; subst s'; by destruct (Hn r)|]. injection E as <- E. apply halts_cons in Hh as [_ Hh]. by exists raw, s'.
      - intros (raw & s' & -> & Hv & Hh). exists (b :: raw), s'. split; [done|]. split; [done|]. by apply halts_cons. }
    rewrite Q. clear Q.
    assert (G : forall out, match text_loop fuel k b1 b r with Some (t, rest) => Some (out ++ t, rest) | None => None end = Some (t, rest) <->
      exists t' raw s', t = out ++ t' /\ r = raw ++ s' /\ after (refs_of k) (stop_of k) b raw t' /\ halts k b1 b raw s' rest).
    { intros out. split.
      - destruct (text_loop fuel k b1 b r) as [[t1 r1]|] eqn:E; [|done]. intros [= <- <-]. apply IH in E as (raw & s' & H1 & H2 & H3); [|done|done]. by exists t1, raw, s'.
      - intros (t' & raw & s' & -> & H). assert (E : text_loop fuel k b1 b r = Some (t', rest)) by (apply IH; [done|done|by exists raw, s']). by rewrite E. }
    destruct (decide (b = byte 13)) as [->|N1]; [|destruct (decide (b1 = byte 13 /\ b = byte 10)) as [[-> ->]|N2]].
    - rewrite (G [byte 10]). setoid_rewrite after_cr. split.
      + intros (t' & raw & s' & -> & H1 & H2 & H3). exists raw, s'. split; [done|]. split; [by exists t'|done].
      + intros (raw & s' & H1 & (t' & -> & H2) & H3). by exists t', raw, s'.
    - rewrite (G []). setoid_rewrite after_lf. split.
      + intros (t' & raw & s' & -> & H1 & H2 & H3). by exists raw, s'.
      + intros (raw & s' & H1 & H2 & H3). by exists t, raw, s'.
    - rewrite (G [b]). split.
      + intros (t' & raw & s' & -> & H1 & H2 & H3). exists raw, s'. split; [done|]. split; [apply after_byte; [done..|]; split; [done|]; by exists t'|done].
      + intros (raw & s' & H1 & H2 & H3). apply after_byte in H2 as (_ & t' & -> & H2); [|done..]. by exists t', raw, s'. }
  (* possibly a reference *)
  assert (M : refs_of k = true -> open_at k b0 b1 b -> b ∉ stop_of k -> (forall s' : gostr, ~ halts k b0 b1 [] (b :: s') rest) ->
    (let go out b0 b1 r := match text_loop fuel k b0 b1 r with Some (t, rest) => Some (out ++ t, rest) | None => None end in
     let plain := if decide (b = byte 13) then go [byte 10] b1 b r
                  else if decide (b1 = byte 13 /\ b = byte 10) then go [] b1 b r else go [b] b1 b r in
     if decide (b = "&"%char) then match reference_at r with Some (t, r') => go t zero zero r' | None => None end else plain) = Some (t, rest) <->
    exists raw s', b :: r = raw ++ s' /\ after (refs_of k) (stop_of k) b1 raw t /\ halts k b0 b1 raw s' rest).
  { intros Hr Ho Hs Hn. cbn zeta. destruct (decide (b = "&"%char)) as [->|Nb]; [|apply P; [done|done|by intros [_ ?]|done]]. clear P. split.
    - destruct (reference_at r) as [[x r1]|] eqn:E; [|done]. apply reference_sound in E as (u & E & Hu).
      destruct (text_loop fuel k zero zero r1) as [[t1 r2]|] eqn:E1; [|done]. intros [= <- <-].
      apply IH in E1 as (raw & s' & -> & H2 & H3); [|done|].
      2: { apply ref_text_shape in Hu as (w & -> & _). apply (f_equal length) in E. rewrite app_length in E. cbn in E. unfold gostr in *. rewrite app_length in E. cbn in E. lia. }
      exists (u ++ raw), s'. split; [by rewrite E, app_assoc|]. split; [|by eapply halts_ref].
      pose proof Hu as Hu'. apply ref_text_shape in Hu' as (w & -> & _). cbn [app]. apply after_ref; [done|]. by exists ("&"%char :: w ++ [";"%char]), x, raw, t1.
    - intros (raw & s' & E & Hv & Hh). destruct raw as [|c raw]; [cbn in E; subst s'; by destruct (Hn r)|]. injection E as <- E.
      apply after_ref in Hv as (u & x & raw' & v' & E1 & Hu & -> & Hv); [|done]. destruct (reference_complete u x (raw' ++ s') Hu) as (w & -> & Ew).
      injection E1 as ->. rewrite E, <- app_assoc, Ew. change ("&"%char :: w ++ raw') with (("&"%char :: w) ++ raw') in Hh. rewrite (halts_ref k b0 b1 _ x) in Hh by done.
      assert (E2 : text_loop fuel k zero zero (raw' ++ s') = Some (v', rest)).
      { apply IH; [done| |by exists raw', s']. subst r. unfold gostr in *. rewrite !app_length in Hl'. rewrite app_length. lia. }
      by rewrite E2. }
  rewrite text_step. cbn zeta. cbn zeta in P, M. destruct k as [q| |].
  - destruct (decide (b = "<"%char)) as [->|N1]; [|destruct (decide (b = q)) as [->|N2]].
    + split; [done|]. intros (raw & s' & E & Hv & Hh). exfalso. cbn in Hk. destruct raw as [|c raw].
      * cbn in E. subst s'. cbn in Hh. destruct Hh as [[= ? _]|[? _]]; [|done]. subst q. by destruct Hk.
      * injection E as <- E. apply after_byte in Hv as [Hv _]; [|done|by intros [_ ?]|by intros [_ ?]]. apply Hv. by left.
    + split.
      * intros [= <- <-]. exists [], (q :: r). split; [done|]. split; [by apply after_nil|]. by left.
      * intros (raw & s' & E & Hv & Hh). cbn in Hk. destruct raw as [|c raw].
        -- apply after_nil in Hv as ->. cbn in E. subst s'. cbn in Hh. destruct Hh as [[= ->]|[? _]]; done.
        -- exfalso. injection E as <- E. apply after_byte in Hv as [Hv _]; [|destruct Hk as [->| ->]; done|intros [_ ->]; by destruct Hk|intros [_ ->]; by destruct Hk]. apply Hv. cbn. right. by left.
    + apply M; [done|done| |].
      * cbn. rewrite !elem_of_cons, elem_of_nil. tauto.
      * cbn. intros s' [[= ? _]|[? _]]; done.
  - destruct (decide (b0 = _ /\ _)) as [D|D]; [|destruct (decide (b = "<"%char)) as [->|N1]].
    + split; [done|]. intros (raw & s' & E & Hv & Hh). exfalso. destruct raw as [|c raw].
      * cbn in E. subst s'. cbn in Hh. destruct Hh as (<- & [?|[= ?]] & _); [done|]. subst b. by destruct D as (_ & _ & ?).
      * injection E as <- E. apply halts_cons in Hh as [Hh _]. by apply Hh.
    + split.
      * intros [= <- <-]. exists [], ("<"%char :: r). split; [done|]. split; [by apply after_nil|]. cbn. tauto.
      * intros (raw & s' & E & Hv & Hh). destruct raw as [|c raw].
        -- apply after_nil in Hv as ->. cbn in E. subst s'. cbn in Hh. destruct Hh as [<- _]. done.
        -- exfalso. injection E as <- E. apply after_byte in Hv as [Hv _]; [|done|by intros [_ ?]|by intros [_ ?]]. apply Hv. by left.
    + apply M; [done|exact D| |].
      * cbn. rewrite elem_of_cons, elem_of_nil. tauto.
      * cbn. intros s' (<- & [?|[= ?]] & _); done.
  - destruct (decide (b0 = _ /\ _)) as [D|D].
    + destruct D as (-> & -> & ->). split.
      * intros [= <- <-]. exists [], (">"%char :: r). split; [done|]. split; [by apply after_nil|]. cbn. split; [done|]. split; [tauto|]. by exists [].
      * intros (raw & s' & E & Hv & Hh). destruct raw as [|c raw].
        -- apply after_nil in Hv as ->. cbn in E. subst s'. cbn in Hh. destruct Hh as [[= <-] _]. done.
        -- exfalso. injection E as <- E. apply halts_cons in Hh as [Hh _]. by apply Hh.
    + apply P; [exact D|by intros ?%elem_of_nil|by intros [? _]|]. cbn. intros s' ([= -> ->] & _ & (a & E)). destruct a as [|? a]; [|apply (f_equal length) in E; cbn in E; rewrite app_length in E; cbn in E; lia].
      injection E as -> ->. by apply D.
Qed.

(** ** Decoder.text *)
Lemma expands_app refs stop a v b w : expands refs stop a v -> expands refs stop b w -> head b <> Some (byte 10) -> expands refs stop (a ++ b) (v ++ w).
Proof.
  intros Ha Hb Hh. induction Ha as [|c a v H1 H2 H3 Ha IH|a v Ha IH|a v H1 Ha IH|t x a v Hr Ht Ha IH]; cbn [app]; [done|by constructor|by constructor|..].
  - apply ex_cr; [|done]. by destruct a.
  - rewrite <- !app_assoc. by constructor.
Qed.
Lemma expands_snoc stop a c v : expands false stop (a ++ [c]) v -> c <> byte 13 -> c <> byte 10 -> exists v', v = v' ++ [c] /\ expands false stop a v'.
Proof.
  intros H Hc1 Hc2. remember (a ++ [c]) as s eqn:E. revert a E. induction H as [|x s v H1 H2 H3 H IH|s v H IH|s v H1 H IH|t x s v Hr Ht H IH]; intros a E.
  - by destruct a.
  - destruct a as [|y a]; injection E as -> E.
    + subst s. apply expands_nil in H as ->. exists []. split; [done|constructor].
    + destruct (IH a E) as (v' & -> & H'). exists (y :: v'). split; [done|by constructor].
  - destruct a as [|y [|z a]]; [by injection E as E _|by injection E as _ E _|]. injection E as <- <- E. destruct (IH a E) as (v' & -> & H'). exists (byte 10 :: v'). split; [done|by constructor].
  - destruct a as [|y a]; [by injection E as E _|]. injection E as <- E. destruct (IH a E) as (v' & -> & H'). exists (byte 10 :: v'). split; [done|]. apply ex_cr; [|done]. subst s. by destruct a.
  - done.
Qed.
Lemma after_zero refs stop raw v : after refs stop zero raw v <-> expands refs stop raw v.
Proof. by apply after_plain. Qed.
Lemma quoted_iff q s v rest : q = """"%char \/ q = "'"%char ->
  XmlRead.xml_text (InQuotes q) s = Some (v, rest) <-> exists raw, (s = raw ++ q :: rest \/ s = raw /\ rest = []) /\ expands true ["<"%char; q] raw v /\ legal v.
Proof.
  intros Hq. unfold XmlRead.xml_text. split.
  - destruct (text_loop _ _ _ _ s) as [[t r]|] eqn:E; [|done]. destruct (xml_legal t) eqn:El; [|done]. intros [= <- <-]. apply xml_legal_iff in El.
    apply text_loop_iff in E as (raw & s' & -> & Hv & Hh); [|done|lia]. apply after_zero in Hv. exists raw. split; [|done]. cbn in Hh. destruct Hh as [->|[-> ->]]; [by left|]. rewrite app_nil_r. by right.
  - intros (raw & Hs & Hv & Hl). assert (E : text_loop (S (length s)) (InQuotes q) zero zero s = Some (v, rest)).
    { apply text_loop_iff; [done|lia|]. destruct Hs as [->|[-> ->]].
      - exists raw, (q :: rest). split; [done|]. split; [by apply after_zero|]. by left.
      - exists raw, []. split; [by rewrite app_nil_r|]. split; [by apply after_zero|]. by right. }
    by rewrite E, (proj2 (xml_legal_iff v) Hl).
Qed.
Lemma content_iff s v rest : XmlRead.xml_text InContent s = Some (v, rest) <->
  exists raw, s = raw ++ rest /\ (rest = [] \/ head rest = Some "<"%char) /\ expands true ["<"%char] raw v /\ ~ occurs (lit "]]>") raw /\ legal v.
Proof.
  unfold XmlRead.xml_text. split.
  - destruct (text_loop _ _ _ _ s) as [[t r]|] eqn:E; [|done]. destruct (xml_legal t) eqn:El; [|done]. intros [= <- <-]. apply xml_legal_iff in El.
    apply text_loop_iff in E as (raw & s' & -> & Hv & Hh); [|done|lia]. apply after_zero in Hv. cbn in Hh. destruct Hh as (-> & Hr & Hc). rewrite closes_zero in Hc. by exists raw.
  - intros (raw & Hs & Hr & Hv & Hc & Hl). assert (E : text_loop (S (length s)) InContent zero zero s = Some (v, rest)).
    { apply text_loop_iff; [done|lia|]. exists raw, rest. split; [done|]. split; [by apply after_zero|]. cbn. rewrite closes_zero. done. }
    by rewrite E, (proj2 (xml_legal_iff v) Hl).
Qed.
Lemma cdata_iff s v rest : XmlRead.xml_text InCData s = Some (v, rest) <->
  exists raw, s = raw ++ lit "]]>" ++ rest /\ ~ occurs (lit "]]>") (raw ++ lit "]]") /\ expands false [] raw v /\ legal v.
Proof.
  unfold XmlRead.xml_text. split.
  - destruct (text_loop _ _ _ _ s) as [[t r]|] eqn:E; [|done]. destruct (xml_legal _) eqn:El; [|done]. intros [= <- <-]. apply xml_legal_iff in El.
    apply text_loop_iff in E as (raw & s' & -> & Hv & Hh); [|done|lia]. apply after_zero in Hv. cbn in Hh. destruct Hh as (-> & Hc & (a & Ea)). rewrite closes_zero in Hc.
    destruct a as [|? [|? a]]; [discriminate Ea|discriminate Ea|]. injection Ea as _ _ ->. assert (Hv' : expands false [] ((a ++ ["]"%char]) ++ ["]"%char]) t) by (by rewrite <- app_assoc). clear Hv. rename Hv' into Hv.
    apply expands_snoc in Hv as (v1 & -> & Hv); [|done|done]. apply expands_snoc in Hv as (v2 & -> & Hv); [|done|done].
    assert (Et : take (length ((v2 ++ ["]"%char]) ++ ["]"%char]) - 2) ((v2 ++ ["]"%char]) ++ ["]"%char]) = v2).
    { rewrite <- app_assoc. rewrite app_length. cbn [length app]. replace (length v2 + 2 - 2) with (length v2) by lia. apply take_app. }
    rewrite Et in El |- *.
    exists a. split; [by rewrite <- app_assoc|]. done.
  - intros (raw & -> & Hc & Hv & Hl). assert (E : text_loop (S (length (raw ++ lit "]]>" ++ rest))) InCData zero zero (raw ++ lit "]]>" ++ rest) = Some (v ++ lit "]]", rest)).
    { apply text_loop_iff; [done|lia|]. exists (raw ++ lit "]]"), (">"%char :: rest). split; [by rewrite <- app_assoc|]. split.
      - apply after_zero. apply expands_app; [done| |done]. constructor; [by intros ?%elem_of_nil|done|by intros [? _]|]. constructor; [by intros ?%elem_of_nil|done|by intros [? _]|constructor].
      - cbn. rewrite closes_zero. split; [done|]. split; [done|]. by exists (zero :: zero :: raw). }
    assert (Et : take (length (v ++ lit "]]") - 2) (v ++ lit "]]") = v).
    { rewrite app_length. change (length (lit "]]")) with 2. replace (length v + 2 - 2) with (length v) by lia. apply take_app. }
    rewrite E, Et. by rewrite (proj2 (xml_legal_iff v) Hl).
Qed.
