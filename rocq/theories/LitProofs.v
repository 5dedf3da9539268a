(** * C++ literals *)
From Verif Require Export GoStrProofs SpecCpp.

(** Decimal numerals have no leading zero, unless they are a single digit. *)
Lemma digit_nonzero d : (0 < d < 10)%N -> digit d <> "0"%char.
Proof.
  intros H E. destruct (is_digit_digit d) as [_ Hv]; [lia|]. rewrite E in Hv. cbv in Hv. lia.
Qed.
Lemma fmt_loop_head fuel : forall n acc, (n < 2 ^ N.of_nat fuel)%N -> (0 < n)%N ->
  exists c r, fmt_loop fuel n acc = c :: r /\ c <> "0"%char.
Proof.
  induction fuel as [|fuel IH]; intros n acc Hlt Hpos; [simpl in Hlt; lia|]. cbn [fmt_loop].
  destruct (n <? 10)%N eqn:E.
  - eexists _, _. split; [done|]. apply N.ltb_lt in E. rewrite N.mod_small by done. by apply digit_nonzero.
  - apply N.ltb_ge in E. apply IH.
    + rewrite Nat2N.inj_succ, N.pow_succ_r' in Hlt. apply N.div_lt_upper_bound; lia.
    + apply N.div_str_pos. lia.
Qed.
Lemma format_N_head n : (0 < n)%N -> exists c r, format_N n = c :: r /\ c <> "0"%char.
Proof.
  intros H. apply fmt_loop_head; [|done]. rewrite Nat2N.inj_succ, N.pow_succ_r'. pose proof (size_nat_bound n). lia.
Qed.
Lemma nat_lit_format n : (n < 2 ^ 63)%N -> nat_lit (format_N n) = Some n.
Proof.
  intros Hn. destruct (format_N_spec n) as (H1 & H2 & H3).
  assert (Hp : parse_digits (format_N n) = Some n) by (apply parse_digits_Some; done).
  destruct (decide (n = 0%N)) as [->|H0]; [reflexivity|]. destruct (format_N_head n) as (c & r & E & Hc); [lia|].
  unfold nat_lit. rewrite E in Hp |- *. destruct r as [|d r]; [done|]. apply aeqb_neq in Hc. rewrite Hc, Hp.
  assert (n <? int64_cutoff = true)%N as ->; [|done]. apply N.ltb_lt. unfold int64_cutoff. lia.
Qed.
Lemma digit_not_special n c r : format_N n = c :: r -> Ascii.eqb c (byte 34) = false /\ Ascii.eqb c "-" = false.
Proof.
  intros E. destruct (format_N_spec n) as (_ & H & _). rewrite E in H. apply Forall_cons in H as [H _]. unfold is_digit in H.
  apply andb_prop in H as [H4 H5]. apply N.leb_le in H4, H5.
  split; apply aeqb_neq; intros ->; cbv in H4, H5; contradiction.
Qed.
Lemma cpp_lit_int z : (Z.abs z < 2 ^ 63)%Z -> cpp_lit (format_int z) = Some (IntV z).
Proof.
  intros H. unfold format_int. destruct (z <? 0)%Z eqn:E.
  - apply Z.ltb_lt in E. cbn [cpp_lit]. change (Ascii.eqb "-" (byte 34)) with false. change (Ascii.eqb "-" "-") with true. cbn iota.
    rewrite nat_lit_format by lia. cbn. do 2 f_equal. lia.
  - apply Z.ltb_ge in E. pose proof (nat_lit_format (Z.to_N z) ltac:(lia)) as Hl.
    destruct (format_N_spec (Z.to_N z)) as (H1 & _). destruct (format_N (Z.to_N z)) as [|c r] eqn:Ef; [done|].
    destruct (digit_not_special _ _ _ Ef) as [E1 E2]. unfold cpp_lit. rewrite E1, E2, Hl. cbn. do 2 f_equal. lia.
Qed.
Lemma str_body_safe s : cpp_safe s -> str_body (s ++ lit """") = Some s.
Proof.
  induction s as [|c s IH]; intros (H1 & H2 & H3 & H4 & H5); [reflexivity|].
  apply not_elem_of_cons in H1 as [N1 H1], H2 as [N2 H2], H3 as [N3 H3], H4 as [N4 H4], H5 as [N5 H5].
  assert (forall x, x <> c -> Ascii.eqb c x = false) as Hne by (intros x Hx; apply aeqb_neq; congruence).
  cbn [app str_body]. rewrite !Hne by done. cbn [orb]. rewrite IH by done. done.
Qed.
Lemma cpp_lit_str s : cpp_safe s -> cpp_lit ((lit """" ++ s) ++ lit """") = Some (EnumV s).
Proof.
  intros H. transitivity (EnumV <$> str_body (s ++ lit """")); [reflexivity|]. by rewrite str_body_safe.
Qed.
Lemma cpp_lit_value t x : expressible t (Some x) -> cpp_lit (cpp_value (Some x)) = Some x.
Proof.
  destruct x as [z|s]; cbn [expressible].
  - intros [_ H]. unfold cpp_value. assert (is_enum_ty (value_type (Some (IntV z))) = false) as -> by (cbn; by destruct (0 <=? z)%Z).
    by apply cpp_lit_int.
  - intros [_ H]. unfold cpp_value. cbn [value_type]. change (is_enum_ty ty_enum) with true. cbn iota. by apply cpp_lit_str.
Qed.
Lemma eval_gen_guard t v w : expressible t v -> eval_guard (gen_guard v) w = bool_decide (v = Some w).
Proof.
  intros H. destruct v as [x|]; [|done]. pose proof (cpp_lit_value t x H) as Hl.
  assert (eval_guard (gen_guard (Some x)) w = bool_decide (cpp_lit (cpp_value (Some x)) = Some w)) as ->; [|by rewrite Hl].
  unfold gen_guard, cpp_value, eval_guard. by destruct (is_enum_ty (value_type (Some x))).
Qed.
(** Passing a literal to the channel's conversion function. *)
Lemma pass_expressible (types : type_map) ch t x : types !! ch = Some t -> expressible t (Some x) ->
  exists w, pass_value t x = Some w /\ passed types (ch, Some x) (ch, w).
Proof.
  intros Ht He. destruct x as [z|s]; cbn [expressible] in He.
  - destruct He as [[[-> _] | ->] _]; unfold pass_value.
    + exists (IntV (wrap32 z)). split; [done|]. split; [done|]. cbn. split.
      * intros _. unfold wrap32. split; [apply Z.mod_pos_bound; lia|]. by rewrite Z.mod_mod by lia.
      * intros E. rewrite Ht in E. discriminate.
    + exists (IntV (swrap32 z)). split; [done|]. split; [done|]. cbn. split; [intros E; rewrite Ht in E; discriminate|].
      intros _. unfold swrap32. split.
      * pose proof (Z.mod_pos_bound (z + 2 ^ 31) (2 ^ 32) ltac:(lia)). lia.
      * rewrite Zminus_mod_idemp_l. f_equal. lia.
  - destruct He as [-> _]. exists (EnumV s). done.
Qed.
(** A value that fits is passed unchanged. *)
Lemma passed_fits (types : type_map) ch t x w : types !! ch = Some t -> expressible t (Some x) -> fits32 t (Some x) ->
  passed types (ch, Some x) (ch, w) -> w = x.
Proof.
  intros Ht He Hf [_ Hp]. cbn in Hp. destruct x as [z|s], w as [z'|s']; try done; [|congruence].
  cbn in He, Hf. destruct Hf as [Hf1 Hf2], Hp as [Hp1 Hp2]. destruct He as [[[-> _] | ->] _].
  - destruct (Hp1 Ht) as [Hb Hm]. specialize (Hf1 eq_refl). rewrite !Z.mod_small in Hm by lia. congruence.
  - destruct (Hp2 Ht) as [Hb Hm]. specialize (Hf2 eq_refl). f_equal.
    assert ((z' + 2 ^ 31) mod 2 ^ 32 = (z + 2 ^ 31) mod 2 ^ 32)%Z as Hq.
    { rewrite <- (Zplus_mod_idemp_l z'), Hm, Zplus_mod_idemp_l. done. }
    rewrite !Z.mod_small in Hq by lia. lia.
Qed.
