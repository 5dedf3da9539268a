(** * Lemmas about JSON texts *)
From Verif Require Export SpecJsonText JsonProofs.
From Verif Require Export StmProofs.

(** ** UTF-8 *)
Lemma byte_code c : byte (code c) = c.
Proof. unfold byte, code. apply ascii_N_embedding. Qed.
Lemma code_lt c : (code c < 256)%N.
Proof. unfold code. apply N_ascii_bounded. Qed.
Lemma byte_eq n c : n = code c -> byte n = c.
Proof. intros ->. apply byte_code. Qed.
Lemma utf8_rune n : scalar n -> utf8 n (encode_rune n).
Proof.
  intros Hs. unfold encode_rune, utf8. unfold scalar in Hs.
  destruct (N.ltb_spec n 128); [by left|]. right. destruct (N.ltb_spec n 2048).
  { left. exists (n / 64)%N, (n mod 64)%N. split_and!; [lia|lia|apply N.mod_lt; lia|pose proof (N.div_mod n 64); lia|done]. }
  right. destruct (N.leb_spec 55296 n), (N.ltb_spec n 57344); cbn [andb]; try lia.
  all: destruct (N.ltb_spec n 65536).
  all: try (left; exists (n / 4096)%N, ((n / 64) mod 64)%N, (n mod 64)%N; split_and!; [lia|lia|lia|apply N.mod_lt; lia|apply N.mod_lt; lia| |done];
    zify; Z.to_euclidean_division_equations; lia).
  all: right; destruct (N.ltb_spec n 1114112); [|lia]; exists (n / 262144)%N, ((n / 4096) mod 64)%N, ((n / 64) mod 64)%N, (n mod 64)%N;
    split_and!; [lia|lia|apply N.mod_lt; lia|apply N.mod_lt; lia|apply N.mod_lt; lia| |done]; zify; Z.to_euclidean_division_equations; lia.
Qed.
Lemma utf8_scalar n q : utf8 n q -> scalar n /\ q = encode_rune n.
Proof.
  unfold scalar, encode_rune. intros [[H ->]|[(a & b & H1 & H2 & H3 & ->)|[(a & b & c & H1 & H2 & H3 & H4 & H5 & ->)|(a & b & c & d & H1 & H2 & H3 & H4 & H5 & ->)]]].
  - split; [lia|]. by rewrite (proj2 (N.ltb_lt n 128)).
  - split; [lia|]. rewrite (proj2 (N.ltb_ge n 128)), (proj2 (N.ltb_lt n 2048)) by lia.
    assert (a = n / 64 /\ b = n mod 64)%N as [-> ->]; [|done]. zify. Z.to_euclidean_division_equations. lia.
  - split; [lia|]. rewrite (proj2 (N.ltb_ge n 128)), (proj2 (N.ltb_ge n 2048)), (proj2 (N.ltb_lt n 65536)) by lia.
    assert ((55296 <=? n)%N && (n <? 57344)%N = false) as -> by (apply andb_false_iff; rewrite N.leb_gt, N.ltb_ge; lia).
    assert (a = n / 4096 /\ b = (n / 64) mod 64 /\ c = n mod 64)%N as (-> & -> & ->); [|done]. zify. Z.to_euclidean_division_equations. lia.
  - split; [lia|]. rewrite (proj2 (N.ltb_ge n 128)), (proj2 (N.ltb_ge n 2048)), (proj2 (N.ltb_ge n 65536)), (proj2 (N.ltb_lt n 1114112)) by lia.
    assert ((55296 <=? n)%N && (n <? 57344)%N = false) as -> by (apply andb_false_iff; rewrite N.leb_gt, N.ltb_ge; lia).
    assert (a = n / 262144 /\ b = (n / 4096) mod 64 /\ c = (n / 64) mod 64 /\ d = n mod 64)%N as (-> & -> & -> & ->); [|done]. zify. Z.to_euclidean_division_equations. lia.
Qed.
Lemma rune_at_utf8 n q t : utf8 n q -> rune_at (q ++ t) = Some (q, t).
Proof. intros H. apply utf8_scalar in H as [_ ->]. apply rune_at_good, encode_rune_good. Qed.
Lemma in_range_iff lo hi c : in_range lo hi c = true <-> (lo <= code c <= hi)%N.
Proof. unfold in_range. rewrite andb_true_iff, !N.leb_le. done. Qed.
Lemma utf8_rune_at s q t : rune_at s = Some (q, t) -> s = q ++ t /\ exists n, utf8 n q /\ ((code (hd zero s) < 128)%N -> n = code (hd zero s)) /\ ((128 <= code (hd zero s))%N -> (128 <= n)%N).
Proof.
  intros H. split; [by apply rune_at_ok in H as [? _]|]. revert H. unfold rune_at. destruct s as [|c0 r0]; [done|]. cbn [hd].
  destruct (N.ltb_spec (code c0) 128) as [H0|H0].
  { intros [= <- <-]. exists (code c0). split; [left; split; [done|by rewrite byte_code]|]. split; [done|lia]. }
  destruct r0 as [|c1 r1]; [done|]. destruct (_ && _) eqn:E1.
  { intros [= <- <-]. rewrite andb_true_iff, !in_range_iff in E1. exists ((code c0 - 192) * 64 + (code c1 - 128))%N. split; [|lia]. right. left.
    exists (code c0 - 192)%N, (code c1 - 128)%N. split_and!; try lia. f_equal; [|f_equal]; symmetry; apply byte_eq; lia. }
  destruct r1 as [|c2 r2]; [done|]. destruct (_ && in_range 128 191 c2) eqn:E2.
  { intros [= <- <-]. clear E1. rewrite !andb_true_iff, !orb_true_iff, !andb_true_iff, !in_range_iff in E2.
    exists (((code c0 - 224) * 64 + (code c1 - 128)) * 64 + (code c2 - 128))%N. split; [|lia]. right. right. left.
    exists (code c0 - 224)%N, (code c1 - 128)%N, (code c2 - 128)%N. split_and!; try lia. f_equal; [|f_equal; [|f_equal]]; symmetry; apply byte_eq; lia. }
  destruct r2 as [|c3 r3]; [done|]. destruct (_ && in_range 128 191 c3) eqn:E3; [|done].
  intros [= <- <-]. clear E1 E2. rewrite !andb_true_iff, !orb_true_iff, !andb_true_iff, !in_range_iff in E3.
  exists ((((code c0 - 240) * 64 + (code c1 - 128)) * 64 + (code c2 - 128)) * 64 + (code c3 - 128))%N. split; [|lia]. right. right. right.
  exists (code c0 - 240)%N, (code c1 - 128)%N, (code c2 - 128)%N, (code c3 - 128)%N. split_and!; try lia. f_equal; [|f_equal; [|f_equal; [|f_equal]]]; symmetry; apply byte_eq; lia.
Qed.
Lemma rune_at_none c rest : (128 <= code c)%N -> rune_at (c :: rest) = None <-> forall n q r, utf8 n q -> c :: rest <> q ++ r.
Proof.
  intros Hc. split.
  - intros H n q r Hq E. rewrite E, (rune_at_utf8 n q r Hq) in H. discriminate H.
  - intros H. destruct (rune_at (c :: rest)) as [[q t]|] eqn:E; [|done]. apply utf8_rune_at in E as [E (n & Hq & _)]. by destruct (H n q t Hq).
Qed.
Lemma fffd_iff v : fffd v <-> v = replacement.
Proof.
  unfold fffd. split; [by intros [_ ->]%utf8_scalar|]. intros ->. change replacement with (encode_rune 65533). apply utf8_rune. right. lia.
Qed.

Lemma byte_inj m n : (m < 256)%N -> (n < 256)%N -> byte m = byte n -> m = n.
Proof. intros Hm Hn E. apply (f_equal code) in E. by rewrite !code_byte in E. Qed.
Lemma utf8_inj n n' q : utf8 n q -> utf8 n' q -> n = n'.
Proof.
  intros [[H ->]|[(a & b & H1 & H2 & H3 & ->)|[(a & b & c & H1 & H2 & H3 & H4 & H5 & ->)|(a & b & c & d & H1 & H2 & H3 & H4 & H5 & ->)]]]
    [[H' E]|[(a' & b' & H1' & H2' & H3' & E)|[(a' & b' & c' & H1' & H2' & H3' & H4' & H5' & E)|(a' & b' & c' & d' & H1' & H2' & H3' & H4' & H5' & E)]]];
    try (apply (f_equal length) in E; discriminate E).
  - injection E as E. apply byte_inj in E; lia.
  - injection E as E0 E1. apply byte_inj in E0; [|lia..]. apply byte_inj in E1; lia.
  - injection E as E0 E1 E2. apply byte_inj in E0; [|lia..]. apply byte_inj in E1; [|lia..]. apply byte_inj in E2; lia.
  - injection E as E0 E1 E2 E3. apply byte_inj in E0; [|lia..]. apply byte_inj in E1; [|lia..]. apply byte_inj in E2; [|lia..]. apply byte_inj in E3; lia.
Qed.

(** ** Hexadecimal *)
Lemma hex_char_val c v : hex_char c v <-> hex_val c = Some v.
Proof.
  split.
  - intros [d H|d H|d H].
    + assert (d = 0 \/ d = 1 \/ d = 2 \/ d = 3 \/ d = 4 \/ d = 5 \/ d = 6 \/ d = 7 \/ d = 8 \/ d = 9)%N as Hd by lia. clear H.
      repeat destruct Hd as [->|Hd]; [reflexivity..|subst; reflexivity].
    + assert (d = 0 \/ d = 1 \/ d = 2 \/ d = 3 \/ d = 4 \/ d = 5)%N as Hd by lia. clear H.
      repeat destruct Hd as [->|Hd]; [reflexivity..|subst; reflexivity].
    + assert (d = 0 \/ d = 1 \/ d = 2 \/ d = 3 \/ d = 4 \/ d = 5)%N as Hd by lia. clear H.
      repeat destruct Hd as [->|Hd]; [reflexivity..|subst; reflexivity].
  - unfold hex_val, is_digit. destruct (_ && _) eqn:E; [|destruct (in_range 97 102 c) eqn:E2; [|destruct (in_range 65 70 c) eqn:E3; [|done]]].
    + intros [= <-]. rewrite andb_true_iff, !N.leb_le in E. rewrite <- (byte_eq (48 + (code c - 48)) c) at 1 by lia. constructor. lia.
    + intros [= <-]. apply in_range_iff in E2. rewrite <- (byte_eq (97 + (code c - 97)) c) at 1 by lia.
      replace (code c - 87)%N with (10 + (code c - 97))%N by lia. constructor. lia.
    + intros [= <-]. apply in_range_iff in E3. rewrite <- (byte_eq (65 + (code c - 65)) c) at 1 by lia.
      replace (code c - 55)%N with (10 + (code c - 65))%N by lia. constructor. lia.
Qed.
Lemma u_escape_hex4 t n r : u_escape t n -> exists q, t = lit "\u" ++ q /\ hex4 (q ++ r) = Some (n, r).
Proof.
  intros (a & b & c & d & va & vb & vc & vd & -> & Ha%hex_char_val & Hb%hex_char_val & Hc%hex_char_val & Hd%hex_char_val & ->).
  exists [a; b; c; d]. split; [done|]. cbn [app hex4]. rewrite Ha, Hb, Hc, Hd. do 2 f_equal. lia.
Qed.
Lemma hex4_u_escape s n r : hex4 s = Some (n, r) -> exists q, s = q ++ r /\ u_escape (lit "\u" ++ q) n.
Proof.
  unfold hex4. destruct s as [|a [|b [|c [|d s]]]]; try done.
  destruct (hex_val a) as [va|] eqn:Ha; [|done]. destruct (hex_val b) as [vb|] eqn:Hb; [|done].
  destruct (hex_val c) as [vc|] eqn:Hc; [|done]. destruct (hex_val d) as [vd|] eqn:Hd; [|done].
  intros [= <- <-]. exists [a; b; c; d]. split; [done|]. exists a, b, c, d, va, vb, vc, vd. rewrite !hex_char_val. split_and!; try done. lia.
Qed.
Lemma hex_char_lt c v : hex_char c v -> (v < 16)%N.
Proof. intros [d H|d H|d H]; lia. Qed.
Lemma u_escape_lt t n : u_escape t n -> (n < 65536)%N.
Proof. intros (a & b & c & d & va & vb & vc & vd & -> & Ha%hex_char_lt & Hb%hex_char_lt & Hc%hex_char_lt & Hd%hex_char_lt & ->). lia. Qed.
Lemma u_escape_fun q n n' r r' q' : u_escape q n -> u_escape q' n' -> q ++ r = q' ++ r' -> n = n' /\ r = r'.
Proof.
  intros H H' E. apply (u_escape_hex4 _ _ r) in H as (x & -> & Hx). apply (u_escape_hex4 _ _ r') in H' as (x' & -> & Hx').
  rewrite <- !app_assoc in E. apply app_inv_head in E. rewrite E, Hx' in Hx. by injection Hx as -> ->.
Qed.
Lemma no_half n : (55296 <=? n)%N && (n <? 57344)%N = false <-> ~ (high_half n \/ low_half n).
Proof. unfold high_half, low_half. rewrite andb_false_iff, N.leb_gt, N.ltb_ge. lia. Qed.
Lemma is_half n : (55296 <=? n)%N && (n <? 57344)%N = true <-> (high_half n \/ low_half n).
Proof. unfold high_half, low_half. rewrite andb_true_iff, N.leb_le, N.ltb_lt. lia. Qed.

(** ** One character *)
Lemma unescape_sound s v rest : unescape_u s = Some (v, rest) -> exists t, s = t ++ rest /\ lit_char rest (lit "\u" ++ t) v.
Proof.
  unfold unescape_u. destruct (hex4 s) as [[n r]|] eqn:E; [|done]. apply hex4_u_escape in E as (q & -> & Hq).
  destruct (_ && _) eqn:Eh.
  2: { intros [= <- <-]. exists q. split; [done|]. apply no_half in Eh. eapply char_u; [exact Hq|]. apply utf8_rune.
       pose proof (u_escape_lt _ _ Hq). unfold scalar. unfold high_half, low_half in Eh. lia. }
  apply is_half in Eh. destruct (strip_prefix _ r) as [r1|] eqn:Es.
  2: { intros [= <- <-]. exists q. split; [done|]. destruct Eh as [Eh|Eh].
       - eapply char_lone_high; [exact Hq|done| |by apply fffd_iff]. intros t2 n2 r2 -> H2. apply (u_escape_hex4 _ _ r2) in H2 as (q2 & -> & _).
         apply strip_prefix_None in Es. destruct Es. exists (q2 ++ r2). by rewrite <- app_assoc.
       - eapply char_lone_low; [exact Hq|done|]. by apply fffd_iff. }
  apply strip_prefix_Some in Es as ->. destruct (hex4 r1) as [[n2 r2]|] eqn:E2.
  2: { intros [= <- <-]. exists q. split; [done|]. destruct Eh as [Eh|Eh].
       - eapply char_lone_high; [exact Hq|done| |by apply fffd_iff]. intros t2 n2 r2 Ex H2. apply (u_escape_hex4 _ _ r2) in H2 as (q2 & -> & H2).
         rewrite <- app_assoc in Ex. apply (app_inv_head (lit "\u")) in Ex as ->. rewrite H2 in E2. discriminate E2.
       - eapply char_lone_low; [exact Hq|done|]. by apply fffd_iff. }
  apply hex4_u_escape in E2 as (q2 & -> & Hq2). destruct ((n <? 56320)%N && _ && _) eqn:E3.
  - rewrite !andb_true_iff, !N.ltb_lt, N.leb_le in E3. intros [= <- <-]. exists (q ++ lit "\u" ++ q2). split; [by rewrite <- !app_assoc|].
    assert (Hh : high_half n) by (unfold high_half, low_half in *; lia). assert (Hl : low_half n2) by (unfold low_half; lia).
    rewrite app_assoc. eapply char_pair; [exact Hq|exact Hq2|done..|]. apply utf8_rune. unfold scalar. unfold high_half, low_half in *. lia.
  - intros [= <- <-]. exists q. split; [done|]. destruct Eh as [Eh|Eh].
    + eapply char_lone_high; [exact Hq|done| |by apply fffd_iff]. intros t2 n3 r3 Ex H3 Hl. change ((lit "\u" ++ q2) ++ r2 = t2 ++ r3) in Ex.
      apply (u_escape_fun _ _ _ _ _ _ Hq2 H3) in Ex as [-> _]. unfold high_half, low_half in *.
      rewrite !andb_false_iff, !N.ltb_ge, N.leb_gt in E3. lia.
    + eapply char_lone_low; [exact Hq|done|]. by apply fffd_iff.
Qed.
Definition dq : ascii := """"%char.
Lemma str_step_sound s v rest : str_step s = Some (v, rest) -> hd zero s <> dq -> exists t, t <> [] /\ s = t ++ rest /\ lit_char rest t v.
Proof.
  unfold str_step. destruct s as [|c r]; [done|]. cbn [hd]. destruct (N.ltb_spec (code c) 32) as [|Hc]; [done|]. destruct (decide (c = byte 92)) as [->|Hb].
  - intros H _. destruct r as [|e r']; [done|]. revert H.
    assert (Hsh : forall e n, (e, n) ∈ short_escapes -> Some ([byte n], r') = Some (v, rest) ->
      exists t, t <> [] /\ byte 92 :: e :: r' = t ++ rest /\ lit_char rest t v).
    { intros e0 n0 He E. assert (v = [byte n0]) as -> by congruence. assert (rest = r') as -> by congruence.
      exists [byte 92; e0]. split; [done|]. split; [done|]. by apply char_short. }
    destruct (decide (e = "b"%char)) as [->|_]; [apply (Hsh _ 8%N); unfold short_escapes; set_solver|].
    destruct (decide (e = "f"%char)) as [->|_]; [apply (Hsh _ 12%N); unfold short_escapes; set_solver|].
    destruct (decide (e = "n"%char)) as [->|_]; [apply (Hsh _ 10%N); unfold short_escapes; set_solver|].
    destruct (decide (e = "r"%char)) as [->|_]; [apply (Hsh _ 13%N); unfold short_escapes; set_solver|].
    destruct (decide (e = "t"%char)) as [->|_]; [apply (Hsh _ 9%N); unfold short_escapes; set_solver|].
    destruct (decide (e = byte 92)) as [->|_]; [apply (Hsh _ 92%N); unfold short_escapes; set_solver|].
    destruct (decide (e = "/"%char)) as [->|_]; [apply (Hsh _ 47%N); unfold short_escapes; set_solver|].
    destruct (decide (e = """"%char)) as [->|_]; [apply (Hsh _ 34%N); unfold short_escapes; set_solver|].
    destruct (decide (e = "u"%char)) as [->|_]; [|done]. intros H. apply unescape_sound in H as (t & -> & Ht).
    exists (lit "\u" ++ t). split; [discriminate|]. split; [reflexivity|exact Ht].
  - intros H Hq. destruct (rune_at (c :: r)) as [[q rest']|] eqn:E.
    + injection H as <- <-. apply utf8_rune_at in E as [E (n & Hn & H1 & H2)]. cbn [hd] in H1, H2. exists q. split; [|split; [done|]].
      { destruct Hn as [[_ ->]|[(? & ? & _ & _ & _ & ->)|[(? & ? & ? & _ & _ & _ & _ & _ & ->)|(? & ? & ? & ? & _ & _ & _ & _ & _ & ->)]]]; done. }
      eapply char_plain; [exact Hn|..].
      * destruct (N.ltb_spec (code c) 128); lia.
      * intros ->. apply Hq. rewrite <- (byte_code c). destruct (N.ltb_spec (code c) 128) as [Hl|Hl]; [by rewrite <- H1|]. specialize (H2 Hl). lia.
      * intros ->. apply Hb. rewrite <- (byte_code c). destruct (N.ltb_spec (code c) 128) as [Hl|Hl]; [by rewrite <- H1|]. specialize (H2 Hl). lia.
    + injection H as <- <-. exists [c]. split; [done|]. split; [done|].
      assert (Hc' : (128 <= code c)%N). { unfold rune_at in E. destruct (N.ltb_spec (code c) 128); [done|lia]. }
      apply char_bad; [done|by apply rune_at_none|by apply fffd_iff].
Qed.
Lemma unescape_none_pair t1 n1 rest : u_escape t1 n1 -> high_half n1 -> (forall t2 n2 r, rest = t2 ++ r -> u_escape t2 n2 -> ~ low_half n2) ->
  exists q, t1 = lit "\u" ++ q /\ unescape_u (q ++ rest) = Some (replacement, rest).
Proof.
  intros H Hh Hn. apply (u_escape_hex4 _ _ rest) in H as (q & -> & Hq). exists q. split; [done|]. unfold unescape_u. rewrite Hq.
  rewrite (proj2 (is_half n1)) by tauto. destruct (strip_prefix _ rest) as [r1|] eqn:Es; [|done]. apply strip_prefix_Some in Es as ->.
  destruct (hex4 r1) as [[n2 r2]|] eqn:E2; [|done]. apply hex4_u_escape in E2 as (q2 & -> & Hq2). 
  specialize (Hn (lit "\u" ++ q2) n2 r2 eq_refl Hq2). unfold low_half in Hn. destruct ((n1 <? 56320)%N && _ && _) eqn:E3; [|done].
  rewrite !andb_true_iff, !N.ltb_lt, N.leb_le in E3. lia.
Qed.
Lemma str_step_u q s : str_step (lit "\u" ++ q ++ s) = unescape_u (q ++ s).
Proof. done. Qed.
Lemma str_step_complete rest t v : lit_char rest t v -> str_step (t ++ rest) = Some (v, rest) /\ exists c r, t = c :: r /\ c <> dq.
Proof.
  intros [n q Hn H1 H2 H3|e n He|t' n v' Hu Hv|t1 n1 t2 n2 v' Hu1 Hu2 Hh Hl Hv|t' n v' Hu Hl Hv|t' n v' Hu Hh Hr Hv|c v' Hc Hr Hv].
  - pose proof (rune_at_utf8 n q rest Hn) as Hr. destruct q as [|c q'].
    { destruct Hn as [[_ ?]|[(? & ? & _ & _ & _ & ?)|[(? & ? & ? & _ & _ & _ & _ & _ & ?)|(? & ? & ? & ? & _ & _ & _ & _ & _ & ?)]]]; discriminate. }
    pose proof (utf8_rune_at _ _ _ Hr) as [_ (n' & Hn' & E1 & E2)]. cbn [app hd] in E1, E2.
    assert (n' = n) as ->.
    { by eapply utf8_inj. }
    assert (Hcs : (32 <= code c)%N /\ c <> dq /\ c <> byte 92).
    { destruct (N.ltb_spec (code c) 128) as [Hl|Hl]; [rewrite (E1 Hl) in *; split; [done|]; split; intros ->; by first [apply H2|apply H3]|].
      split; [lia|]. split; intros ->; vm_compute in Hl; by apply Hl. }
    destruct Hcs as (Hc1 & Hc2 & Hc3). split; [|by eexists _, _]. unfold str_step. cbn [app]. rewrite (proj2 (N.ltb_ge _ _) Hc1).
    destruct (decide _); [done|]. cbn [app] in Hr. by rewrite Hr.
  - split; [|by eexists _, _]. unfold short_escapes in He. rewrite !elem_of_cons in He.
    repeat destruct He as [[= -> ->]|He]; try reflexivity. by apply elem_of_nil in He.
  - apply (u_escape_hex4 _ _ rest) in Hu as (q & -> & Hq). split; [|by eexists _, _]. rewrite <- app_assoc, str_step_u. unfold unescape_u. rewrite Hq.
    apply utf8_scalar in Hv as [Hs ->]. rewrite (proj2 (no_half n)); [done|]. unfold scalar, high_half, low_half in *. lia.
  - apply (u_escape_hex4 _ _ (t2 ++ rest)) in Hu1 as (q & -> & Hq). apply (u_escape_hex4 _ _ rest) in Hu2 as (q2 & -> & Hq2).
    split; [|by eexists _, _]. rewrite <- app_assoc. rewrite <- app_assoc. rewrite str_step_u. unfold unescape_u. rewrite Hq.
    rewrite (proj2 (is_half n1)) by tauto. rewrite <- app_assoc. rewrite (proj2 (strip_prefix_Some (lit "\u") _ (q2 ++ rest))) by done. rewrite Hq2.
    assert ((n1 <? 56320)%N && (56320 <=? n2)%N && (n2 <? 57344)%N = true) as ->.
    { unfold high_half, low_half in *. rewrite !andb_true_iff, !N.ltb_lt, N.leb_le. lia. }
    apply utf8_scalar in Hv as [_ ->]. done.
  - apply fffd_iff in Hv as ->. apply (u_escape_hex4 _ _ rest) in Hu as (q & -> & Hq). split; [|by eexists _, _].
    rewrite <- app_assoc, str_step_u. unfold unescape_u. rewrite Hq. rewrite (proj2 (is_half n)) by tauto.
    destruct (strip_prefix _ rest) as [r1|] eqn:Es; [|done]. apply strip_prefix_Some in Es as ->. destruct (hex4 r1) as [[n2 r2]|]; [|done].
    assert ((n <? 56320)%N && (56320 <=? n2)%N && (n2 <? 57344)%N = false) as ->; [|done].
    unfold low_half in Hl. rewrite !andb_false_iff, N.ltb_ge. lia.
  - apply fffd_iff in Hv as ->. apply (unescape_none_pair _ _ _ Hu Hh) in Hr as (q & -> & Hq). split; [|by eexists _, _].
    rewrite <- app_assoc, str_step_u. done.
  - apply fffd_iff in Hv as ->. apply (rune_at_none c rest Hc) in Hr. split.
    + unfold str_step. cbn [app]. destruct (N.ltb_spec (code c) 32); [lia|]. destruct (decide _) as [->|_]; [vm_compute in Hc; by destruct Hc|]. by rewrite Hr.
    + eexists _, _. split; [done|]. intros ->. vm_compute in Hc. by destruct Hc.
Qed.

(** ** String literals *)
Lemma lit_char_cut a b t v : lit_char (a ++ b) t v -> lit_char a t v.
Proof.
  intros [n q Hn H1 H2 H3|e n He|t' n v' Hu Hv|t1 n1 t2 n2 v' Hu1 Hu2 Hh Hl Hv|t' n v' Hu Hl Hv|t' n v' Hu Hh Hr Hv|c v' Hc Hr Hv].
  - by eapply char_plain. - by apply char_short. - by eapply char_u. - by eapply char_pair. - by eapply char_lone_low.
  - eapply char_lone_high; [done..| |done]. intros t2 n2 r ->. apply (Hr t2 n2 (r ++ b)). by rewrite app_assoc.
  - apply char_bad; [done| |done]. intros n q r Hq E. apply (Hr n q (r ++ b) Hq). rewrite app_assoc, <- E. done.
Qed.
Lemma prefix_before (a b q r : gostr) : a ++ dq :: b = q ++ r -> dq ∉ q -> exists r', a = q ++ r'.
Proof.
  revert a. induction q as [|x q IH]; intros a E Hq; [by exists a|]. destruct a as [|y a].
  - cbn in E. injection E as E _. destruct Hq. rewrite <- E. constructor.
  - cbn in E. injection E as -> E. apply not_elem_of_cons in Hq as [_ Hq]. destruct (IH a E Hq) as [r' ->]. by exists r'.
Qed.
Lemma dq_hex c v : hex_char c v -> c <> dq.
Proof. intros H%hex_char_val ->. discriminate H. Qed.
Lemma dq_u_escape t n : u_escape t n -> dq ∉ t.
Proof.
  intros (a & b & c & d & va & vb & vc & vd & -> & Ha%dq_hex & Hb%dq_hex & Hc%dq_hex & Hd%dq_hex & _).
  change (lit "\u" ++ [a; b; c; d]) with [byte 92; "u"%char; a; b; c; d]. rewrite !not_elem_of_cons. split_and!; try done. apply not_elem_of_nil.
Qed.
Lemma high_byte_dq n : (128 <= n < 256)%N -> dq <> byte n.
Proof. intros H E. apply (f_equal code) in E. rewrite code_byte in E by lia. change (code dq) with 34%N in E. lia. Qed.
Lemma dq_utf8 n q : utf8 n q -> (128 <= code (hd zero q))%N -> dq ∉ q.
Proof.
  intros [[H ->]|[(a & b & H1 & H2 & H3 & ->)|[(a & b & c & H1 & H2 & H3 & H4 & H5 & ->)|(a & b & c & d & H1 & H2 & H3 & H4 & H5 & ->)]]] Hc;
    rewrite !not_elem_of_cons.
  - cbn [hd] in Hc. rewrite code_byte in Hc by lia. lia.
  - split_and!; [apply high_byte_dq; lia..|apply not_elem_of_nil].
  - split_and!; [apply high_byte_dq; lia..|apply not_elem_of_nil].
  - split_and!; [apply high_byte_dq; lia..|apply not_elem_of_nil].
Qed.
Lemma lit_char_more a b t v : lit_char a t v -> lit_char (a ++ dq :: b) t v.
Proof.
  intros [n q Hn H1 H2 H3|e n He|t' n v' Hu Hv|t1 n1 t2 n2 v' Hu1 Hu2 Hh Hl Hv|t' n v' Hu Hl Hv|t' n v' Hu Hh Hr Hv|c v' Hc Hr Hv].
  - by eapply char_plain. - by apply char_short. - by eapply char_u. - by eapply char_pair. - by eapply char_lone_low.
  - eapply char_lone_high; [done..| |done]. intros t2 n2 r E Hu2. apply prefix_before in E as [r' ->]; [|by eapply dq_u_escape]. by eapply Hr.
  - apply char_bad; [done| |done]. intros n q r Hq E. change (c :: a ++ dq :: b) with ((c :: a) ++ dq :: b) in E.
    apply prefix_before in E as [r' E']; [by apply (Hr n q r')|]. eapply dq_utf8; [done|].
    destruct q as [|x q]; [|cbn in E; injection E as <- _; done].
    destruct Hq as [[_ ?]|[(? & ? & _ & _ & _ & ?)|[(? & ? & ? & _ & _ & _ & _ & _ & ?)|(? & ? & ? & ? & _ & _ & _ & _ & _ & ?)]]]; discriminate.
Qed.
Lemma parse_str_sound fuel s v rest : parse_str fuel s = Some (v, rest) -> exists body, s = body ++ dq :: rest /\ lit_body body v.
Proof.
  revert s v. induction fuel as [|fuel IH]; [done|]. intros s v. cbn [parse_str]. destruct s as [|c r]; [done|].
  destruct (decide _) as [->|Hc]. { intros [= <- <-]. exists []. split; [done|constructor]. }
  destruct (str_step (c :: r)) as [[out rest1]|] eqn:E; [|done]. apply str_step_sound in E as (t & Ht & -> & Hl); [|done].
  destruct (parse_str fuel rest1) as [[v1 rest2]|] eqn:E2; [|done]. intros [= <- <-]. apply IH in E2 as (body & -> & Hb).
  exists (t ++ body). split; [by rewrite app_assoc|]. constructor; [by eapply lit_char_cut|done].
Qed.
Lemma parse_str_complete body v rest fuel : lit_body body v -> length body < fuel -> parse_str fuel (body ++ dq :: rest) = Some (v, rest).
Proof.
  intros H. revert fuel. induction H as [|t v text value Hc Hb IH]; intros fuel Hf.
  { destruct fuel; [cbn in Hf; lia|]. done. }
  apply (lit_char_more _ rest) in Hc. apply str_step_complete in Hc as (Hs & c & r & -> & Hq). rewrite <- app_assoc.
  cbn [app] in *. destruct fuel as [|fuel]; [lia|]. cbn [parse_str]. destruct (decide _); [done|]. rewrite Hs, IH; [done|].
  cbn [length] in Hf. rewrite app_length in Hf. lia.
Qed.

(** ** Numbers *)
Definition no_digit (s : gostr) : Prop := match s with [] => True | c :: _ => is_digit c = false end.
Lemma digits_sound s d rest : digits s = (d, rest) -> s = d ++ rest /\ Forall (fun c => is_digit c = true) d /\ no_digit rest.
Proof.
  revert d rest. induction s as [|c s IH]; intros d rest; cbn [digits].
  - intros [= <- <-]. done.
  - destruct (is_digit c) eqn:E.
    + destruct (digits s) as [d' r'] eqn:Ed. intros [= <- <-]. destruct (IH _ _ eq_refl) as (-> & H1 & H2). split; [done|]. split; [by constructor|done].
    + intros [= <- <-]. done.
Qed.
Lemma digits_complete d rest : Forall (fun c => is_digit c = true) d -> no_digit rest -> digits (d ++ rest) = (d, rest).
Proof.
  intros H Hr. induction H as [|c d Hc Hd IH]; cbn [app digits].
  - destruct rest as [|c r]; [done|]. cbn in Hr |- *. by rewrite Hr.
  - by rewrite Hc, IH.
Qed.
Lemma parse_num_sound s t rest : parse_num s = Some (t, rest) -> s = t ++ rest /\ number_text t.
Proof.
  unfold parse_num. destruct (match s with [] => _ | c :: r => _ end) as [sign s1] eqn:Es.
  assert (Hs : s = sign ++ s1 /\ (sign = [] \/ sign = lit "-")).
  { destruct s as [|c r]; [by injection Es as <- <-; auto|]. destruct (decide _) as [->|_]; injection Es as <- <-; auto. }
  destruct Hs as [-> Hsign]. clear Es. destruct (match s1 with [] => _ | c :: r => _ end) as [[ip s2]|] eqn:Ei; [|done].
  assert (Hi : s1 = ip ++ s2 /\ (ip = lit "0" \/ digit_run ip /\ head ip <> Some "0"%char)).
  { destruct s1 as [|c r]; [done|]. destruct (decide _) as [->|Hn]; [injection Ei as <- <-; auto|]. destruct (is_digit c) eqn:Ed; [|done].
    assert (Ed' : digits (c :: r) = (ip, s2)) by (revert Ei; generalize (digits (c :: r)); congruence).
    clear Ei. apply digits_sound in Ed' as (E & H1 & H2). split; [done|]. right. destruct ip as [|x ip].
    - cbn in E. subst s2. cbn in H2. congruence.
    - cbn in E. injection E as <- _. split; [done|]. cbn. congruence. }
  destruct Hi as [-> Hi]. clear Ei. destruct (match s2 with [] => _ | c :: r => _ end) as [[fp s3]|] eqn:Ef; [|done].
  assert (Hf : s2 = fp ++ s3 /\ (fp = [] \/ exists d, fp = lit "." ++ d /\ digit_run d)).
  { destruct s2 as [|c r]; [by injection Ef as <- <-; auto|]. destruct (decide _) as [->|Hn]; [|injection Ef as <- <-; auto].
    destruct (digits r) as [d r'] eqn:Ed. apply digits_sound in Ed as (-> & H1 & H2). destruct d as [|x d]; [done|]. injection Ef as <- <-.
    split; [done|]. right. exists (x :: d). split; [reflexivity|]. split; [discriminate|exact H1]. }
  destruct Hf as [-> Hf]. clear Ef. destruct (match s3 with [] => _ | c :: r => _ end) as [[ep s4]|] eqn:Ee; [|done]. intros [= <- <-].
  assert (He : s3 = ep ++ s4 /\ (ep = [] \/ exists e s d, ep = e ++ s ++ d /\ (e = lit "e" \/ e = lit "E") /\ (s = [] \/ s = lit "+" \/ s = lit "-") /\ digit_run d)).
  { destruct s3 as [|c r]; [by injection Ee as <- <-; auto|]. destruct (decide _) as [Hc|Hn]; [|injection Ee as <- <-; auto].
    destruct (match r with [] => _ | x :: r' => _ end) as [sg r1] eqn:Es.
    assert (Hs : r = sg ++ r1 /\ (sg = [] \/ sg = lit "+" \/ sg = lit "-")).
    { destruct r as [|x r']; [by injection Es as <- <-; auto|]. destruct (decide _) as [[-> | ->]|_]; injection Es as <- <-; auto. }
    destruct Hs as [-> Hs]. clear Es. destruct (digits r1) as [d r'] eqn:Ed. apply digits_sound in Ed as (-> & H1 & H2). destruct d as [|x d]; [done|].
    injection Ee as <- <-. split; [by cbn [app]; rewrite <- app_assoc|]. right. exists [c], sg, (x :: d). split; [done|].
    split; [destruct Hc as [-> | ->]; auto|]. split; [done|]. split; [discriminate|exact H1]. }
  destruct He as [-> He]. split; [by rewrite <- !app_assoc|]. by exists sign, ip, fp, ep.
Qed.
Lemma no_digit_app a s : a <> [] -> no_digit (a ++ s) <-> no_digit a.
Proof. by destruct a. Qed.
Lemma number_ends_no_digit rest : number_ends rest -> no_digit rest.
Proof. destruct rest; [done|]. by intros [? _]. Qed.
Lemma parse_num_complete t rest : number_text t -> number_ends rest -> parse_num (t ++ rest) = Some (t, rest).
Proof.
  intros (sign & ip & fp & ep & -> & Hs & Hi & Hf & He) Hr.
  (* the exponent *)
  assert (Hee : match ep ++ rest with
        | c :: r =>
          if decide (c = "e"%char ∨ c = "E"%char) then
            let '(sg, r1) := match r with
                             | x :: r' => if decide (x = "+"%char ∨ x = "-"%char)
                                          then ([x], r') else ([], r)
                             | [] => ([], r)
                             end in
            match digits r1 with ([], _) => None | (d, r') => Some (c :: sg ++ d, r') end
          else Some ([], ep ++ rest)
        | [] => Some ([], ep ++ rest)
        end = Some (ep, rest)).
  { destruct He as [->|(e & s & d & -> & He & Hsg & Hd & HD)].
    - cbn [app]. destruct rest as [|c r]; [done|]. destruct Hr as (_ & _ & H1 & H2). by rewrite decide_False by tauto.
    - assert (Hdr : digits (d ++ rest) = (d, rest)) by (apply digits_complete; [done|by apply number_ends_no_digit]).
      assert (Hcase : forall c : ascii, (c = "e"%char \/ c = "E"%char) -> match [c] ++ s ++ d ++ rest with
        | c :: r =>
          if decide (c = "e"%char ∨ c = "E"%char) then
            let '(sg, r1) := match r with
                             | x :: r' => if decide (x = "+"%char ∨ x = "-"%char)
                                          then ([x], r') else ([], r)
                             | [] => ([], r)
                             end in
            match digits r1 with ([], _) => None | (d, r') => Some (c :: sg ++ d, r') end
          else Some ([], (([c] ++ s ++ d) ++ rest))
        | [] => Some ([], (([c] ++ s ++ d) ++ rest))
        end = Some ([c] ++ s ++ d, rest)).
      { intros c Hc. cbn [app]. rewrite decide_True by done. destruct d as [|x d]; [done|].
        destruct Hsg as [->|[-> | ->]].
        - cbn [app] in *. apply Forall_cons in HD as [Hx _]. rewrite decide_False by (intros [-> | ->]; discriminate Hx). by rewrite Hdr.
        - change (lit "+" ++ (x :: d) ++ rest) with ("+"%char :: (x :: d) ++ rest). cbv iota. rewrite decide_True by auto. by rewrite Hdr.
        - change (lit "-" ++ (x :: d) ++ rest) with ("-"%char :: (x :: d) ++ rest). cbv iota. rewrite decide_True by auto. by rewrite Hdr. }
      destruct He as [-> | ->].
      + specialize (Hcase "e"%char (or_introl eq_refl)). rewrite <- !app_assoc. rewrite <- !app_assoc in Hcase. exact Hcase.
      + specialize (Hcase "E"%char (or_intror eq_refl)). rewrite <- !app_assoc. rewrite <- !app_assoc in Hcase. exact Hcase. }
  assert (Hes : number_ends (ep ++ rest) \/ exists c r, ep ++ rest = c :: r /\ (c = "e"%char \/ c = "E"%char)).
  { destruct He as [->|(e & s & d & -> & [-> | ->] & _)]; [by left|right..]; eexists _, _; (split; [reflexivity|]); auto. }
  assert (Hnd : no_digit (ep ++ rest) /\ head (ep ++ rest) <> Some "."%char).
  { destruct Hes as [H|(c & r & -> & [-> | ->])]; [|done..]. split; [by apply number_ends_no_digit|]. destruct (ep ++ rest); [done|]. destruct H as (_ & H & _). cbn. congruence. }
  destruct Hnd as [Hnd Hdot].
  assert (Hff : match fp ++ ep ++ rest with
      | c :: r => if decide (c = "."%char) then
                    match digits r with ([], _) => None | (d, r') => Some (c :: d, r') end
                  else Some ([], fp ++ ep ++ rest)
      | [] => Some ([], fp ++ ep ++ rest)
      end = Some (fp, ep ++ rest)).
  { destruct Hf as [->|(d & -> & Hd & HD)].
    - cbn [app]. destruct (ep ++ rest) as [|c r]; [done|]. rewrite decide_False; [done|]. intros ->. by apply Hdot.
    - rewrite <- app_assoc. change (lit "." ++ d ++ ep ++ rest) with ("."%char :: d ++ ep ++ rest). cbv iota. rewrite decide_True by done.
      rewrite (digits_complete d _ HD Hnd). by destruct d. }
  assert (Hnd2 : no_digit (fp ++ ep ++ rest)).
  { destruct Hf as [->|(d & -> & _)]; [exact Hnd|done]. }
  assert (Hii : match ip ++ fp ++ ep ++ rest with
    | c :: r => if decide (c = "0"%char) then Some ([c], r)
                else if is_digit c then Some (digits (ip ++ fp ++ ep ++ rest)) else None
    | [] => None
    end = Some (ip, fp ++ ep ++ rest) /\ head (ip ++ fp ++ ep ++ rest) <> Some "-"%char).
  { destruct Hi as [->|[[Hn HD] H0]]; [done|]. rewrite (digits_complete ip _ HD Hnd2). destruct ip as [|c ip]; [done|]. cbn [app head] in *.
    apply Forall_cons in HD as [Hc _]. rewrite decide_False by congruence. rewrite Hc. split; [done|]. intros [= ->]. discriminate Hc. }
  destruct Hii as [Hii Hm]. rewrite <- !app_assoc.
  assert (Hss : match sign ++ ip ++ fp ++ ep ++ rest with
                     | c :: r => if decide (c = "-"%char) then ([c], r) else ([], sign ++ ip ++ fp ++ ep ++ rest)
                     | [] => ([], sign ++ ip ++ fp ++ ep ++ rest)
                     end = (sign, ip ++ fp ++ ep ++ rest)).
  { destruct Hs as [-> | ->]; [|done]. cbn [app]. destruct (ip ++ fp ++ ep ++ rest) as [|c r]; [done|]. rewrite decide_False; [done|]. intros ->. by apply Hm. }
  unfold parse_num.
  match goal with |- (let '(_, _) := ?m in _) = _ => destruct m as [a1 a2] eqn:E1 end. pose proof (eq_trans (eq_sym Hss) E1) as X. injection X as <- <-. clear E1.
  match goal with |- match ?m with _ => _ end = _ => destruct m as [[a1 a2]|] eqn:E1 end; [|try rewrite E1 in Hii; discriminate Hii].
  try rewrite E1 in Hii. injection Hii as -> ->. clear E1.
  match goal with |- match ?m with _ => _ end = _ => destruct m as [[a1 a2]|] eqn:E1 end; [|try rewrite E1 in Hff; discriminate Hff].
  try rewrite E1 in Hff. injection Hff as -> ->. clear E1.
  match goal with |- match ?m with _ => _ end = _ => destruct m as [[a1 a2]|] eqn:E1 end; [|try rewrite E1 in Hee; discriminate Hee].
  try rewrite E1 in Hee. injection Hee as -> ->. done.
Qed.

(** ** White space *)
Lemma is_ws_iff c : is_ws c = true <-> (code c = 32 \/ code c = 9 \/ code c = 10 \/ code c = 13)%N.
Proof.
  unfold is_ws. rewrite bool_decide_eq_true. split.
  - by intros [-> |[-> |[-> | ->]]]; vm_compute; auto.
  - intros [H|[H|[H|H]]]; rewrite <- (byte_code c), H; auto.
Qed.
Lemma skip_white w s : white w -> skip_ws (w ++ s) = skip_ws s.
Proof. induction 1 as [|c w Hc Hw IH]; [done|]. cbn [app skip_ws]. by rewrite (proj2 (is_ws_iff c) Hc). Qed.
Lemma skip_ws_split s : exists w, s = w ++ skip_ws s /\ white w.
Proof.
  induction s as [|c s [w [E Hw]]]; [exists []; split; [done|constructor]|]. cbn [skip_ws]. destruct (is_ws c) eqn:Ec; [|exists []; split; [done|constructor]].
  exists (c :: w). split; [cbn; by rewrite <- E|]. constructor; [by apply is_ws_iff|done].
Qed.

(** ** Values *)
Definition opener (c : ascii) : Prop := is_ws c = false /\ c <> "]"%char /\ c <> "}"%char.
Lemma digit_opener c : is_digit c = true -> opener c.
Proof.
  intros H. assert (H1 : (48 <= code c <= 57)%N) by (unfold is_digit in H; rewrite andb_true_iff, !N.leb_le in H; lia).
  split; [|split; intros ->; discriminate H]. apply not_true_is_false. rewrite is_ws_iff. lia.
Qed.
Lemma number_head t : number_text t -> exists c r, t = c :: r /\ (c = "-"%char \/ is_digit c = true).
Proof.
  intros (sign & ip & fp & ep & -> & [-> | ->] & Hi & _); [|by eexists _, _; split; [reflexivity|left]]. cbn [app].
  destruct Hi as [->|[[Hn HD] _]]; [by eexists _, _; split; [reflexivity|right]|]. destruct ip as [|c ip]; [done|]. apply Forall_cons in HD as [Hc _].
  eexists _, _; split; [reflexivity|by right].
Qed.
Lemma denotes_head t j : denotes t j -> exists c r, t = c :: r /\ opener c.
Proof.
  intros [| | |t' H|t' v [b [-> _]]| | | |]; try (eexists _, _; split; [reflexivity|]; split; [reflexivity|]; split; discriminate).
  apply number_head in H as (c & r & -> & [-> |H]); eexists _, _; (split; [reflexivity|]); [by split|by apply digit_opener].
Qed.
Lemma parse_value_eq d s : parse_value d s =
  match skip_ws s with
  | [] => None
  | c :: r =>
    if decide (c = "{"%char) then
      match d with
      | O => None
      | S d =>
        match skip_ws r with
        | c' :: r' => if decide (c' = "}"%char) then Some (JObj [], r')
                      else match parse_members (parse_value d) (length r) r with Some (l, rest) => Some (JObj l, rest) | None => None end
        | [] => None
        end
      end
    else if decide (c = "["%char) then
      match d with
      | O => None
      | S d =>
        match skip_ws r with
        | c' :: r' => if decide (c' = "]"%char) then Some (JArr [], r')
                      else match parse_elems (parse_value d) (length r) r with Some (l, rest) => Some (JArr l, rest) | None => None end
        | [] => None
        end
      end
    else if decide (c = """"%char) then
      match parse_str (length r) r with Some (t, rest) => Some (JStr t, rest) | None => None end
    else match strip_prefix (lit "null") (c :: r) with
    | Some rest => Some (JNull, rest)
    | None =>
      match strip_prefix (lit "true") (c :: r) with
      | Some rest => Some (JBool true, rest)
      | None =>
        match strip_prefix (lit "false") (c :: r) with
        | Some rest => Some (JBool false, rest)
        | None => match parse_num (c :: r) with Some (t, rest) => Some (JNum t, rest) | None => None end
        end
      end
    end
  end.
Proof. by destruct d. Qed.
Lemma number_not_word t rest w c r : number_text t -> w = c :: r -> c <> "-"%char -> is_digit c = false -> strip_prefix w (t ++ rest) = None.
Proof.
  intros H -> Hc Hd. apply number_head in H as (c' & r' & -> & Hc'). apply strip_prefix_None. intros [x E]. cbn in E. injection E as -> _.
  destruct Hc' as [-> |Hc']; congruence.
Qed.
Definition is_num (j : json) : Prop := match j with JNum _ => True | _ => False end.
Lemma skip_opener w t rest c r : white w -> t = c :: r -> opener c -> skip_ws (w ++ t ++ rest) = t ++ rest.
Proof. intros Hw -> [Hc _]. rewrite skip_white by done. cbn [app]. by apply skip_ws_nows. Qed.
Lemma white_ends w rest c : white w -> opener c \/ c = ","%char \/ c = "]"%char \/ c = "}"%char -> is_digit c = false -> c <> "."%char -> c <> "e"%char -> c <> "E"%char ->
  number_ends (w ++ c :: rest).
Proof.
  intros Hw _ H1 H2 H3 H4. destruct Hw as [|x w Hx Hw]; [done|]. cbn. apply is_ws_iff in Hx.
  assert (x = byte 32 \/ x = byte 9 \/ x = byte 13 \/ x = byte 10) as [-> |[-> |[-> | ->]]] by (unfold is_ws in Hx; by apply bool_decide_eq_true in Hx); done.
Qed.
Lemma items_head t l : items t l -> exists w c r, white w /\ t = w ++ c :: r /\ opener c.
Proof.
  intros [w1 t' w2 j Hw Hd _|w1 t' w2 j rest l' Hw Hd _ _]; apply denotes_head in Hd as (c & r & -> & Hc); by eexists w1, c, _.
Qed.
Lemma members_head t l : members t l -> exists w c r, white w /\ t = w ++ c :: r /\ opener c.
Proof.
  intros [w1 kt k w2 w3 t' w4 j Hw (b & -> & _) _|w1 kt k w2 w3 t' w4 j rest l' Hw (b & -> & _) _]; by eexists w1, dq, _.
Qed.
Lemma items_len t l : items t l -> length l <= length t.
Proof.
  induction 1 as [w1 t' w2 j Hw Hd _|w1 t' w2 j rest l' Hw Hd _ _ IH]; apply denotes_head in Hd as (c & r & -> & Hc); rewrite !app_length; cbn [length app]; rewrite ?app_length; cbn [length]; lia.
Qed.
Lemma members_len t l : members t l -> length l <= length t.
Proof.
  induction 1 as [w1 kt k w2 w3 t' w4 j Hw (b & -> & _) _|w1 kt k w2 w3 t' w4 j rest l' Hw (b & -> & _) _ _ _ _ _ IH]; rewrite !app_length; cbn [length app]; rewrite ?app_length; cbn [length SpecJsonText.dquote lit]; change (length (lit ",")) with 1; change (length SpecJsonText.dquote) with 1; lia.
Qed.
Lemma parse_complete :
  (forall t j, denotes t j -> forall d rest, jdepth j <= d -> (is_num j -> number_ends rest) -> parse_value d (t ++ rest) = Some (j, rest)) /\
  (forall t l, items t l -> forall d fuel rest, Forall (fun j => jdepth j <= d) l -> length l <= fuel ->
     parse_elems (parse_value d) fuel (t ++ "]"%char :: rest) = Some (l, rest)) /\
  (forall t l, members t l -> forall d fuel rest, Forall (fun kv => jdepth kv.2 <= d) l -> length l <= fuel ->
     parse_members (parse_value d) fuel (t ++ "}"%char :: rest) = Some (l, rest)).
Proof.
  apply denotes_ind3.
  - intros d rest _ _. by rewrite parse_value_eq.
  - intros d rest _ _. by rewrite parse_value_eq.
  - intros d rest _ _. by rewrite parse_value_eq.
  - intros t Ht d rest _ Hr. specialize (Hr I). rewrite parse_value_eq. destruct (number_head _ Ht) as (c & r & E & Hc).
    assert (Ho : opener c) by (destruct Hc as [-> |Hc]; [done|by apply digit_opener]).
    assert (Hsk : skip_ws (t ++ rest) = c :: r ++ rest) by (rewrite E; cbn [app]; apply skip_ws_nows, Ho). rewrite Hsk.
    rewrite !decide_False by (intros ->; destruct Hc as [Hc|Hc]; discriminate Hc).
    change (c :: r ++ rest) with ((c :: r) ++ rest). rewrite <- E.
    rewrite (number_not_word t rest _ "n"%char (lit "ull")) by done. rewrite (number_not_word t rest _ "t"%char (lit "rue")) by done.
    rewrite (number_not_word t rest _ "f"%char (lit "alse")) by done. by rewrite (parse_num_complete t rest Ht Hr).
  - intros t v (b & -> & Hb) d rest _ _. rewrite parse_value_eq. cbn [app SpecJsonText.dquote].
    change (SpecJsonText.dquote ++ b ++ SpecJsonText.dquote) with (dq :: b ++ [dq]). cbn [app]. rewrite skip_ws_nows by done. rewrite !decide_False by done. rewrite decide_True by done.
    rewrite <- app_assoc. cbn [app]. rewrite (parse_str_complete b v rest); [done|done|]. rewrite app_length. cbn. lia.
  - intros w Hw d rest Hd _. cbn in Hd. destruct d as [|d]; [lia|]. rewrite parse_value_eq.
    rewrite <- app_assoc. change (lit "[" ++ (w ++ lit "]") ++ rest) with ("["%char :: (w ++ lit "]") ++ rest). rewrite skip_ws_nows by done. rewrite decide_False by done.
    rewrite decide_True by done. rewrite <- app_assoc, skip_white by done. done.
  - intros t l Ht IH d rest Hd _. cbn [jdepth] in Hd. destruct d as [|d]; [lia|]. rewrite parse_value_eq. rewrite <- app_assoc.
    change (lit "[" ++ (t ++ lit "]") ++ rest) with ("["%char :: (t ++ lit "]") ++ rest). rewrite skip_ws_nows by done. rewrite decide_False by done.
    rewrite decide_True by done. rewrite <- app_assoc. destruct (items_head _ _ Ht) as (w & c & r & Hw & E & Hc). rewrite E at 1. rewrite <- app_assoc, skip_white by done.
    cbn [app]. rewrite skip_ws_nows by apply Hc. rewrite decide_False by apply Hc. change (lit "]" ++ rest) with ("]"%char :: rest).
    rewrite IH; [done| |]. { apply List.Forall_forall. intros x Hx. eapply list_max_elem; [by apply in_map|lia]. }
    rewrite app_length. pose proof (items_len _ _ Ht). lia.
  - intros w Hw d rest Hd _. cbn in Hd. destruct d as [|d]; [lia|]. rewrite parse_value_eq.
    rewrite <- app_assoc. change (lit "{" ++ (w ++ lit "}") ++ rest) with ("{"%char :: (w ++ lit "}") ++ rest). rewrite skip_ws_nows by done.
    rewrite decide_True by done. rewrite <- app_assoc, skip_white by done. done.
  - intros t l Ht IH d rest Hd _. cbn [jdepth] in Hd. destruct d as [|d]; [lia|]. rewrite parse_value_eq. rewrite <- app_assoc.
    change (lit "{" ++ (t ++ lit "}") ++ rest) with ("{"%char :: (t ++ lit "}") ++ rest). rewrite skip_ws_nows by done.
    rewrite decide_True by done. rewrite <- app_assoc. destruct (members_head _ _ Ht) as (w & c & r & Hw & E & Hc). rewrite E at 1. rewrite <- app_assoc, skip_white by done.
    cbn [app]. rewrite skip_ws_nows by apply Hc. rewrite decide_False by apply Hc. change (lit "}" ++ rest) with ("}"%char :: rest).
    rewrite IH; [done| |]. { apply List.Forall_forall. intros x Hx. eapply list_max_elem; [exact (in_map (fun kv => jdepth kv.2) _ _ Hx)|lia]. }
    rewrite app_length. pose proof (members_len _ _ Ht). lia.
  - intros w1 t w2 j Hw1 Ht IH Hw2 d fuel rest HF Hl. apply Forall_cons in HF as [Hj _]. destruct fuel as [|fuel]; [cbn in Hl; lia|]. cbn [parse_elems].
    rewrite (parse_value_ws d _ (t ++ w2 ++ "]"%char :: rest)) by (rewrite <- !app_assoc; by apply skip_white).
    rewrite IH; [|done|]. 2: { intros _. apply white_ends; auto; discriminate. }
    rewrite skip_white by done. rewrite skip_ws_nows by done. done.
  - intros w1 t w2 j rest' l Hw1 Ht IH Hw2 Hi IHl d fuel rest HF Hl. apply Forall_cons in HF as [Hj HF]. destruct fuel as [|fuel]; [cbn in Hl; lia|]. cbn [parse_elems].
    rewrite (parse_value_ws d _ (t ++ w2 ++ ","%char :: rest' ++ "]"%char :: rest)) by (rewrite <- !app_assoc; by apply skip_white).
    rewrite IH; [|done|]. 2: { intros _. apply white_ends; auto; discriminate. }
    rewrite skip_white by done. rewrite skip_ws_nows by done. rewrite decide_True by done. rewrite IHl; [done|done|cbn in Hl; lia].
  - intros w1 kt k w2 w3 t w4 j Hw1 (b & -> & Hb) Hw2 Hw3 Ht IH Hw4 d fuel rest HF Hl. apply Forall_cons in HF as [Hj _]. destruct fuel as [|fuel]; [cbn in Hl; lia|]. cbn [parse_members].
    rewrite <- app_assoc. rewrite skip_white by done. change (SpecJsonText.dquote ++ b ++ SpecJsonText.dquote) with (dq :: b ++ [dq]). cbn [app].
    rewrite skip_ws_nows by done. rewrite decide_True by done. rewrite <- !app_assoc. cbn [app].
    rewrite (parse_str_complete b k); [|done|rewrite !app_length; cbn; lia]. rewrite skip_white by done.
    change (lit ":" ++ w3 ++ t ++ w4 ++ "}"%char :: rest) with (":"%char :: w3 ++ t ++ w4 ++ "}"%char :: rest). rewrite skip_ws_nows by done. rewrite decide_True by done.
    rewrite (parse_value_ws d _ (t ++ w4 ++ "}"%char :: rest)) by (by apply skip_white).
    rewrite IH; [|done|]. 2: { intros _. apply white_ends; auto; discriminate. }
    rewrite skip_white by done. rewrite skip_ws_nows by done. done.
  - intros w1 kt k w2 w3 t w4 j rest' l Hw1 (b & -> & Hb) Hw2 Hw3 Ht IH Hw4 Hm IHl d fuel rest HF Hl. apply Forall_cons in HF as [Hj HF]. destruct fuel as [|fuel]; [cbn in Hl; lia|]. cbn [parse_members].
    rewrite <- app_assoc. rewrite skip_white by done. change (SpecJsonText.dquote ++ b ++ SpecJsonText.dquote) with (dq :: b ++ [dq]). cbn [app].
    rewrite skip_ws_nows by done. rewrite decide_True by done. rewrite <- !app_assoc. cbn [app].
    rewrite (parse_str_complete b k); [|done|rewrite !app_length; cbn; lia]. rewrite skip_white by done.
    change (lit ":" ++ w3 ++ t ++ w4 ++ lit "," ++ rest' ++ "}"%char :: rest) with (":"%char :: w3 ++ t ++ w4 ++ ","%char :: rest' ++ "}"%char :: rest). rewrite skip_ws_nows by done. rewrite decide_True by done.
    rewrite (parse_value_ws d _ (t ++ w4 ++ ","%char :: rest' ++ "}"%char :: rest)) by (by apply skip_white).
    rewrite IH; [|done|]. 2: { intros _. apply white_ends; auto; discriminate. }
    rewrite skip_white by done. rewrite skip_ws_nows by done. rewrite decide_True by done. rewrite IHl; [done|done|cbn in Hl; lia].
Qed.
Section sound.
  Context (d : nat) (IH : forall s j rest, parse_value d s = Some (j, rest) -> exists w t, s = w ++ t ++ rest /\ white w /\ denotes t j /\ jdepth j <= d).
  Lemma elems_sound fuel s l rest : parse_elems (parse_value d) fuel s = Some (l, rest) ->
    exists t, s = t ++ "]"%char :: rest /\ items t l /\ Forall (fun j => jdepth j <= d) l.
  Proof using IH.
    revert s l. induction fuel as [|fuel IHf]; [done|]. intros s l. cbn [parse_elems].
    destruct (parse_value d s) as [[j r]|] eqn:E; [|done]. apply IH in E as (w & t & -> & Hw & Ht & Hj).
    destruct (skip_ws_split r) as (w2 & Er & Hw2). destruct (skip_ws r) as [|c r']; [done|]. subst r.
    destruct (decide _) as [->|_].
    - destruct (parse_elems (parse_value d) fuel r') as [[l' rest']|] eqn:E2; [|done]. intros [= <- <-]. apply IHf in E2 as (t2 & -> & Hi & HF).
      exists (w ++ t ++ w2 ++ lit "," ++ t2). split; [by rewrite <- !app_assoc|]. split; [by constructor|by constructor].
    - destruct (decide _) as [->|_]; [|done]. intros [= <- <-]. exists (w ++ t ++ w2). split; [by rewrite <- !app_assoc|].
      split; [by constructor|]. by repeat constructor.
  Qed.
  Lemma members_sound fuel s l rest : parse_members (parse_value d) fuel s = Some (l, rest) ->
    exists t, s = t ++ "}"%char :: rest /\ members t l /\ Forall (fun kv => jdepth kv.2 <= d) l.
  Proof using IH.
    revert s l. induction fuel as [|fuel IHf]; [done|]. intros s l. cbn [parse_members].
    destruct (skip_ws_split s) as (w1 & Es & Hw1). destruct (skip_ws s) as [|c r]; [done|]. subst s. destruct (decide _) as [->|_]; [|done].
    destruct (parse_str (length r) r) as [[k r1]|] eqn:Ek; [|done]. apply parse_str_sound in Ek as (b & -> & Hb).
    destruct (skip_ws_split r1) as (w2 & Er & Hw2). destruct (skip_ws r1) as [|c r2]; [done|]. subst r1. destruct (decide _) as [->|_]; [|done].
    destruct (parse_value d r2) as [[j r3]|] eqn:E; [|done]. apply IH in E as (w3 & t & -> & Hw3 & Ht & Hj).
    destruct (skip_ws_split r3) as (w4 & Er & Hw4). destruct (skip_ws r3) as [|c r4]; [done|]. subst r3.
    assert (Hk : string_text (SpecJsonText.dquote ++ b ++ SpecJsonText.dquote) k) by (by exists b).
    destruct (decide _) as [->|_].
    - destruct (parse_members (parse_value d) fuel r4) as [[l' rest']|] eqn:E2; [|done]. intros [= <- <-]. apply IHf in E2 as (t2 & -> & Hi & HF).
      exists (w1 ++ (SpecJsonText.dquote ++ b ++ SpecJsonText.dquote) ++ w2 ++ lit ":" ++ w3 ++ t ++ w4 ++ lit "," ++ t2).
      split; [by rewrite <- !app_assoc|]. split; [by constructor|by constructor].
    - destruct (decide _) as [->|_]; [|done]. intros [= <- <-].
      exists (w1 ++ (SpecJsonText.dquote ++ b ++ SpecJsonText.dquote) ++ w2 ++ lit ":" ++ w3 ++ t ++ w4).
      split; [by rewrite <- !app_assoc|]. split; [by constructor|by repeat constructor].
  Qed.
End sound.
Lemma max_of_Forall {A} (f : A -> nat) (l : list A) n : Forall (fun x => f x <= n) l -> list_max (map f l) <= n.
Proof. intros H. apply list_max_le. rewrite List.Forall_map. exact H. Qed.
Lemma parse_sound d s j rest : parse_value d s = Some (j, rest) -> exists w t, s = w ++ t ++ rest /\ white w /\ denotes t j /\ jdepth j <= d.
Proof.
  revert s j rest. induction (lt_wf d) as [d _ IHd]. intros s j rest. rewrite parse_value_eq.
  destruct (skip_ws_split s) as (w & Es & Hw). destruct (skip_ws s) as [|c r] eqn:Esk; [done|]. clear Esk. subst s.
  destruct (decide _) as [->|_].
  { destruct d as [|d]; [done|]. destruct (skip_ws_split r) as (w2 & Er & Hw2). destruct (skip_ws r) as [|c r']; [done|]. destruct (decide _) as [->|_].
    - subst r. intros [= <- <-]. exists w, (lit "{" ++ w2 ++ lit "}"). split; [by rewrite <- !app_assoc|]. split; [done|]. split; [by constructor|cbn; lia].
    - clear Er. destruct (parse_members _ _ r) as [[l r2]|] eqn:E; [|done]. intros [= <- <-].
      apply members_sound in E as (t & -> & Ht & HF); [|apply IHd; lia]. exists w, (lit "{" ++ t ++ lit "}"). split; [by rewrite <- !app_assoc|].
      split; [done|]. split; [by constructor|]. cbn [jdepth]. apply le_n_S. by apply (max_of_Forall (fun kv : gostr * json => jdepth kv.2)). }
  destruct (decide _) as [->|_].
  { destruct d as [|d]; [done|]. destruct (skip_ws_split r) as (w2 & Er & Hw2). destruct (skip_ws r) as [|c r']; [done|]. destruct (decide _) as [->|_].
    - subst r. intros [= <- <-]. exists w, (lit "[" ++ w2 ++ lit "]"). split; [by rewrite <- !app_assoc|]. split; [done|]. split; [by constructor|cbn; lia].
    - clear Er. destruct (parse_elems _ _ r) as [[l r2]|] eqn:E; [|done]. intros [= <- <-].
      apply elems_sound in E as (t & -> & Ht & HF); [|apply IHd; lia]. exists w, (lit "[" ++ t ++ lit "]"). split; [by rewrite <- !app_assoc|].
      split; [done|]. split; [by constructor|]. cbn [jdepth]. apply le_n_S. by apply max_of_Forall. }
  destruct (decide _) as [->|_].
  { destruct (parse_str _ r) as [[v r2]|] eqn:E; [|done]. intros [= <- <-]. apply parse_str_sound in E as (b & -> & Hb).
    exists w, (SpecJsonText.dquote ++ b ++ SpecJsonText.dquote). split; [by rewrite <- !app_assoc|]. split; [done|]. split; [constructor; by exists b|cbn; lia]. }
  destruct (strip_prefix (lit "null") _) as [r2|] eqn:E1.
  { intros [= <- <-]. apply strip_prefix_Some in E1. exists w, (lit "null"). rewrite E1. split; [done|]. split; [done|]. split; [constructor|cbn; lia]. }
  destruct (strip_prefix (lit "true") _) as [r2|] eqn:E2.
  { intros [= <- <-]. apply strip_prefix_Some in E2. exists w, (lit "true"). rewrite E2. split; [done|]. split; [done|]. split; [constructor|cbn; lia]. }
  destruct (strip_prefix (lit "false") _) as [r2|] eqn:E3.
  { intros [= <- <-]. apply strip_prefix_Some in E3. exists w, (lit "false"). rewrite E3. split; [done|]. split; [done|]. split; [constructor|cbn; lia]. }
  destruct (parse_num (c :: r)) as [[t r2]|] eqn:E; [|done]. intros [= <- <-]. apply parse_num_sound in E as [-> Ht].
  exists w, t. split; [done|]. split; [done|]. split; [by constructor|cbn; lia].
Qed.

(** ** Nesting *)
Lemma elems_mono (pv pv' : gostr -> option (json * gostr)) : (forall s x, pv s = Some x -> pv' s = Some x) ->
  forall fuel s y, parse_elems pv fuel s = Some y -> parse_elems pv' fuel s = Some y.
Proof.
  intros H fuel. induction fuel as [|fuel IH]; [done|]. intros s y. cbn [parse_elems]. destruct (pv s) as [[v r]|] eqn:E; [|done].
  rewrite (H _ _ E). destruct (skip_ws r) as [|c r']; [done|]. destruct (decide _); [|done].
  destruct (parse_elems pv fuel r') as [[l rest]|] eqn:E2; [|done]. by rewrite (IH _ _ E2).
Qed.
Lemma members_mono (pv pv' : gostr -> option (json * gostr)) : (forall s x, pv s = Some x -> pv' s = Some x) ->
  forall fuel s y, parse_members pv fuel s = Some y -> parse_members pv' fuel s = Some y.
Proof.
  intros H fuel. induction fuel as [|fuel IH]; [done|]. intros s y. cbn [parse_members]. destruct (skip_ws s) as [|c r]; [done|]. destruct (decide _); [|done].
  destruct (parse_str _ r) as [[k r1]|]; [|done]. destruct (skip_ws r1) as [|c1 r2]; [done|]. destruct (decide _); [|done].
  destruct (pv r2) as [[v r3]|] eqn:E; [|done]. rewrite (H _ _ E). destruct (skip_ws r3) as [|c3 r4]; [done|]. destruct (decide _); [|done].
  destruct (parse_members pv fuel r4) as [[l rest]|] eqn:E2; [|done]. by rewrite (IH _ _ E2).
Qed.
Lemma parse_mono d d' s x : d <= d' -> parse_value d s = Some x -> parse_value d' s = Some x.
Proof.
  revert d' s x. induction d as [|d IH]; intros d' s x Hd; rewrite !parse_value_eq; destruct (skip_ws s) as [|c r]; try done.
  - destruct (decide _); [done|]. destruct (decide _); done.
  - destruct d' as [|d']; [lia|]. destruct (decide _); [|destruct (decide _); [|done]].
    + destruct (skip_ws r) as [|c' r']; [done|]. destruct (decide _); [done|].
      destruct (parse_members (parse_value d) _ r) as [[l rest]|] eqn:E; [|done]. rewrite (members_mono _ (parse_value d') ltac:(intros; apply IH; [lia|done]) _ _ _ E). done.
    + destruct (skip_ws r) as [|c' r']; [done|]. destruct (decide _); [done|].
      destruct (parse_elems (parse_value d) _ r) as [[l rest]|] eqn:E; [|done]. rewrite (elems_mono _ (parse_value d') ltac:(intros; apply IH; [lia|done]) _ _ _ E). done.
Qed.
