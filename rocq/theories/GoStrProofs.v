(** * Lemmas about the string functions of GoStr.v *)
From Verif Require Export GoStr Spec.
From Coq Require Import ZifyBool ZifyNat ZifyN.
Ltac Zify.zify_post_hook ::= Z.div_mod_to_equations.

Lemma lit_inj a b : lit a = lit b -> a = b.
Proof.
  unfold lit. intros H.
  rewrite <- (string_of_list_ascii_of_string a), <- (string_of_list_ascii_of_string b).
  by rewrite H.
Qed.

Lemma code_byte n : (n < 256)%N -> code (byte n) = n.
Proof. intros H. unfold code, byte. by rewrite N_ascii_embedding. Qed.
Lemma byte_code c : byte (code c) = c.
Proof. unfold code, byte. apply ascii_N_embedding. Qed.
Lemma code_lt c : (code c < 256)%N.
Proof. unfold code. apply N_ascii_bounded. Qed.
Lemma code_inj a b : code a = code b -> a = b.
Proof. intros H. rewrite <- (byte_code a), <- (byte_code b). by rewrite H. Qed.

Lemma aeqb_spec a b : Ascii.eqb a b = true <-> a = b.
Proof. apply Ascii.eqb_eq. Qed.
Lemma aeqb_refl a : Ascii.eqb a a = true.
Proof. apply Ascii.eqb_refl. Qed.
Lemma aeqb_neq a b : Ascii.eqb a b = false <-> a <> b.
Proof. apply Ascii.eqb_neq. Qed.

(** ** strip_prefix and trimming *)

Lemma strip_prefix_Some p s r : strip_prefix p s = Some r <-> s = p ++ r.
Proof.
  revert s. induction p as [|a p IH]; intros s; simpl.
  - split; [intros [= ->]; reflexivity | intros ->; reflexivity].
  - destruct s as [|b s]; [split; discriminate|].
    destruct (Ascii.eqb a b) eqn:E.
    + apply aeqb_spec in E as ->. rewrite IH. split; [intros ->; done | intros [= ->]; done].
    + apply aeqb_neq in E. split; [discriminate | intros [= -> _]; congruence].
Qed.
Lemma strip_prefix_None p s : strip_prefix p s = None <-> ~ p `prefix_of` s.
Proof.
  split.
  - intros H [r ->]. assert (strip_prefix p (p ++ r) = Some r) by (by apply strip_prefix_Some).
    congruence.
  - intros H. destruct (strip_prefix p s) as [r|] eqn:E; [|done].
    apply strip_prefix_Some in E. destruct H. by exists r.
Qed.

Lemma strip_one_Some seqs s r :
  strip_one seqs s = Some r -> exists w, w ∈ seqs /\ s = w ++ r.
Proof.
  induction seqs as [|w seqs IH]; simpl; [discriminate|].
  destruct (strip_prefix w s) as [x|] eqn:E.
  - intros [= ->]. apply strip_prefix_Some in E. exists w. split; [left|done].
  - intros H. destruct (IH H) as (w' & Hin & ->). exists w'. split; [by right|done].
Qed.
Lemma strip_one_None seqs s :
  strip_one seqs s = None <-> forall w, w ∈ seqs -> ~ w `prefix_of` s.
Proof.
  induction seqs as [|w seqs IH]; simpl.
  - split; [intros _ w Hw; by apply elem_of_nil in Hw | done].
  - destruct (strip_prefix w s) as [x|] eqn:E.
    + split; [discriminate|]. intros H. exfalso. apply (H w); [left|].
      apply strip_prefix_Some in E. by exists x.
    + apply strip_prefix_None in E. rewrite IH. split.
      * intros H w' Hw'. apply elem_of_cons in Hw' as [->|]; eauto.
      * intros H w' Hw'. apply H. by right.
Qed.

(** [s] starts with a white-space character. *)
Definition starts_in (seqs : list gostr) (s : gostr) : Prop :=
  exists w, w ∈ seqs /\ w `prefix_of` s.

Lemma strip_all_spec seqs fuel s :
  Forall (fun w => w <> []) seqs -> length s <= fuel ->
  exists ws, Forall (fun w => w ∈ seqs) ws /\ s = concat ws ++ strip_all seqs fuel s /\
             ~ starts_in seqs (strip_all seqs fuel s).
Proof.
  intros Hne. revert s. induction fuel as [|fuel IH]; intros s Hlen; simpl.
  - destruct s; simpl in Hlen; [|lia]. exists []. split; [done|]. split; [done|].
    intros (w & Hw & [r Hr]). rewrite Forall_forall in Hne. apply (Hne w Hw).
    by destruct w.
  - destruct (strip_one seqs s) as [r|] eqn:E.
    + apply strip_one_Some in E as (w & Hw & ->).
      assert (w <> []) by (rewrite Forall_forall in Hne; by apply Hne).
      destruct (IH r) as (ws & Hws & Hr & Hno).
      { rewrite app_length in Hlen. destruct w; simpl in *; [done|lia]. }
      exists (w :: ws). split; [by constructor|]. split; [|done].
      simpl. rewrite <- (assoc_L (++)). by rewrite <- Hr.
    + exists []. split; [done|]. split; [done|].
      intros (w & Hw & Hp). by apply (proj1 (strip_one_None seqs s) E w).
Qed.

Lemma strip_all_id seqs fuel s : ~ starts_in seqs s -> strip_all seqs fuel s = s.
Proof.
  intros H. destruct fuel as [|fuel]; [done|]. simpl.
  destruct (strip_one seqs s) as [r|] eqn:E; [|done].
  apply strip_one_Some in E as (w & Hw & ->). destruct H. exists w. split; [done|]. by exists r.
Qed.

Lemma space_seqs_ne : Forall (fun w : gostr => w <> []) space_seqs.
Proof. unfold space_seqs. repeat constructor; discriminate. Qed.
Lemma space_seqs_rev_ne : Forall (fun w : gostr => w <> []) (map (@rev ascii) space_seqs).
Proof. unfold space_seqs. simpl. repeat constructor; discriminate. Qed.


Lemma ends_space_rev s : ends_space s <-> starts_in (map (@rev ascii) space_seqs) (rev s).
Proof.
  unfold ends_space, starts_in. split.
  - intros (w & Hw & [r ->]). exists (rev w). split; [by apply elem_of_list_fmap_1|].
    exists (rev r). by rewrite rev_app_distr.
  - intros (w & Hw & [r Hr]). apply elem_of_list_fmap in Hw as (w' & -> & Hw').
    exists w'. split; [done|]. exists (rev r).
    apply (f_equal (@rev ascii)) in Hr. rewrite rev_app_distr, !rev_involutive in Hr. done.
Qed.

Lemma trim_left_spec s :
  exists a, all_space a /\ s = a ++ trim_left s /\ ~ starts_space (trim_left s).
Proof.
  unfold trim_left. destruct (strip_all_spec space_seqs (length s) s space_seqs_ne) as (ws & H1 & H2 & H3); [lia|].
  exists (concat ws). split; [by exists ws|]. split; done.
Qed.
Lemma trim_left_id s : ~ starts_space s -> trim_left s = s.
Proof. intros H. by apply strip_all_id. Qed.

Lemma concat_rev (ws : list gostr) : rev (concat ws) = concat (rev (map (@rev ascii) ws)).
Proof.
  induction ws as [|w ws IH]; [done|]. simpl. rewrite rev_app_distr, IH, concat_app.
  simpl. by rewrite app_nil_r.
Qed.

Lemma trim_right_spec s :
  exists b, all_space b /\ s = trim_right s ++ b /\ ~ ends_space (trim_right s).
Proof.
  unfold trim_right.
  destruct (strip_all_spec (map (@rev ascii) space_seqs) (length s) (rev s) space_seqs_rev_ne)
    as (ws & H1 & H2 & H3); [rewrite rev_length; lia|].
  exists (rev (concat ws)). split.
  { rewrite concat_rev. eexists. split; [|done].
    apply Forall_rev. apply Forall_map. eapply Forall_impl; [exact H1|].
    intros w Hw. cbn beta. apply elem_of_list_fmap in Hw as (w' & -> & Hw').
    by rewrite rev_involutive. }
  split.
  - rewrite <- rev_app_distr. rewrite <- H2. by rewrite rev_involutive.
  - rewrite ends_space_rev, rev_involutive. done.
Qed.
Lemma trim_right_id s : ~ ends_space s -> trim_right s = s.
Proof.
  intros H. unfold trim_right. rewrite strip_all_id; [apply rev_involutive|].
  by rewrite <- ends_space_rev.
Qed.

Lemma starts_space_app s t : starts_space s -> starts_space (s ++ t).
Proof. intros (w & Hw & [r ->]). exists w. split; [done|]. exists (r ++ t). by rewrite (assoc_L (++)). Qed.

Lemma trim_space_spec s :
  exists a b, all_space a /\ all_space b /\ s = a ++ trim_space s ++ b /\
              ~ starts_space (trim_space s) /\ ~ ends_space (trim_space s).
Proof.
  unfold trim_space.
  destruct (trim_left_spec s) as (a & Ha & Hs & Hl).
  destruct (trim_right_spec (trim_left s)) as (b & Hb & Hs' & Hr).
  exists a, b. split; [done|]. split; [done|]. split; [by rewrite <- Hs'|]. split; [|done].
  intros Hst. apply Hl. rewrite Hs'. by apply starts_space_app.
Qed.

Lemma trim_space_id s : ~ starts_space s -> ~ ends_space s -> trim_space s = s.
Proof. intros H1 H2. unfold trim_space. rewrite trim_left_id by done. by apply trim_right_id. Qed.

Lemma trim_space_fix s : trim_space s = s <-> ~ starts_space s /\ ~ ends_space s.
Proof.
  split; [|intros []; by apply trim_space_id].
  intros H. destruct (trim_space_spec s) as (a & b & _ & _ & _ & H1 & H2). by rewrite H in H1, H2.
Qed.
Lemma trim_space_idem s : trim_space (trim_space s) = trim_space s.
Proof. apply trim_space_fix. destruct (trim_space_spec s) as (a & b & _ & _ & _ & H1 & H2). done. Qed.

Lemma trim_space_nil : trim_space [] = [].
Proof. reflexivity. Qed.

(** A non-empty string whose first and last bytes are ASCII non-space is not trimmed.  We use
    it for numbers and keywords through a computable sufficient condition. *)
Definition plain_byte (c : ascii) : bool := (33 <=? code c)%N && (code c <=? 126)%N.

Lemma space_first_byte w : w ∈ space_seqs -> exists c r, w = c :: r /\ plain_byte c = false.
Proof.
  unfold space_seqs. intros H.
  repeat (apply elem_of_cons in H as [->|H]; [eexists _, _; split; [reflexivity|reflexivity]|]).
  by apply elem_of_nil in H.
Qed.
Lemma space_last_byte w : w ∈ space_seqs -> exists c r, w = r ++ [c] /\ plain_byte c = false.
Proof.
  unfold space_seqs. intros H.
  repeat (apply elem_of_cons in H as [->|H];
    [first [ eexists _, []; split; [reflexivity|reflexivity]
           | eexists _, [_]; split; [reflexivity|reflexivity]
           | eexists _, [_;_]; split; [reflexivity|reflexivity] ]|]).
  by apply elem_of_nil in H.
Qed.

Lemma not_starts_space c r : plain_byte c = true -> ~ starts_space (c :: r).
Proof.
  intros Hc (w & Hw & [t Ht]). destruct (space_first_byte w Hw) as (c' & r' & -> & Hc').
  injection Ht as -> _. congruence.
Qed.
Lemma not_ends_space c r : plain_byte c = true -> ~ ends_space (r ++ [c]).
Proof.
  intros Hc (w & Hw & [t Ht]). destruct (space_last_byte w Hw) as (c' & r' & -> & Hc').
  rewrite (assoc_L (++)) in Ht. apply app_inj_tail in Ht as [_ ->]. congruence.
Qed.
Lemma trim_space_plain s : Forall (fun c => plain_byte c = true) s -> trim_space s = s.
Proof.
  intros H. destruct s as [|c r]; [done|]. apply trim_space_id.
  - apply not_starts_space. apply Forall_cons in H as [H _]. done.
  - destruct (exists_last (l:=c :: r)) as (r' & c' & Heq); [done|]. rewrite Heq in *.
    apply not_ends_space. apply Forall_app in H as [_ H]. apply Forall_cons in H as [H _]. done.
Qed.

(** ** cut, split, join *)

Lemma cut_Some c s a b : cut c s = Some (a, b) <-> s = a ++ c :: b /\ c ∉ a.
Proof.
  revert a b. induction s as [|x s IH]; intros a b; simpl.
  - split; [discriminate|]. intros [H _]. by destruct a.
  - destruct (Ascii.eqb x c) eqn:E.
    + apply aeqb_spec in E as ->. split.
      * intros [= <- <-]. split; [done|]. by apply not_elem_of_nil.
      * intros [H Hn]. destruct a as [|y a]; simpl in H; [by injection H as ->|].
        injection H as -> _. exfalso. apply Hn. left.
    + apply aeqb_neq in E. destruct (cut c s) as [[u v]|] eqn:F.
      * split.
        -- intros [= <- <-]. destruct (proj1 (IH u v) eq_refl) as [-> Hn]. split; [done|].
           apply not_elem_of_cons. split; [congruence|done].
        -- intros [H Hn]. destruct a as [|y a]; simpl in H; [injection H as -> _; congruence|].
           injection H as -> H. apply not_elem_of_cons in Hn as [_ Hn].
           assert (Some (u, v) = Some (a, b)) as [= -> ->] by (by apply IH). done.
      * split; [discriminate|]. intros [H Hn].
        destruct a as [|y a]; simpl in H; [injection H as -> _; congruence|].
        injection H as -> H. apply not_elem_of_cons in Hn as [_ Hn].
        assert (None = Some (a, b)) by (by apply IH). discriminate.
Qed.
Lemma cut_None c s : cut c s = None <-> c ∉ s.
Proof.
  split.
  - intros H Hin. apply elem_of_list_split_l in Hin as (a & b & -> & Hn).
    assert (cut c (a ++ c :: b) = Some (a, b)) by (apply cut_Some; done). congruence.
  - intros H. destruct (cut c s) as [[a b]|] eqn:E; [|done]. apply cut_Some in E as [-> _].
    exfalso. apply H. apply elem_of_app. right. left.
Qed.
Lemma cut_app c a b : c ∉ a -> cut c (a ++ c :: b) = Some (a, b).
Proof. intros H. by apply cut_Some. Qed.

(** ** Decimal numbers *)

Lemma is_digit_digit d : (d < 10)%N -> is_digit (digit d) = true /\ digit_val (digit d) = d.
Proof.
  intros H. unfold is_digit, digit_val, digit. rewrite code_byte by lia. lia.
Qed.
Lemma digit_plain c : is_digit c = true -> plain_byte c = true.
Proof. unfold is_digit, plain_byte. lia. Qed.
Lemma digit_of_is_digit c : is_digit c = true -> c = digit (digit_val c) /\ (digit_val c < 10)%N.
Proof.
  unfold is_digit, digit, digit_val. intros H. split; [|lia].
  apply code_inj. rewrite code_byte by lia. lia.
Qed.


Lemma parse_digits_acc_Some acc s n :
  parse_digits_acc acc s = Some n <->
  all_digits s /\ n = fold_left (fun a c => a * 10 + digit_val c)%N s acc.
Proof.
  revert acc. induction s as [|c s IH]; intros acc; simpl.
  - split; [intros [= ->]; split; [constructor|done] | intros [_ ->]; done].
  - destruct (is_digit c) eqn:E.
    + rewrite IH. unfold all_digits. rewrite Forall_cons. naive_solver.
    + unfold all_digits. rewrite Forall_cons. split; [discriminate|]. intros [[H _] _]. congruence.
Qed.
Lemma parse_digits_Some s n :
  parse_digits s = Some n <-> s <> [] /\ all_digits s /\ n = dec_value s.
Proof.
  unfold parse_digits. destruct s as [|c s]; [naive_solver|].
  rewrite parse_digits_acc_Some. unfold dec_value. naive_solver.
Qed.

Lemma dec_value_app a b :
  dec_value (a ++ b) = (dec_value a * 10 ^ N.of_nat (length b) + dec_value b)%N.
Proof.
  unfold dec_value. rewrite fold_left_app.
  generalize (fold_left (fun a c => a * 10 + digit_val c)%N a 0%N) as x.
  induction b as [|c b IH] using rev_ind; intros x; simpl; [lia|].
  rewrite !fold_left_app. simpl. rewrite IH. rewrite app_length. simpl.
  replace (N.of_nat (length b + 1)) with (N.of_nat (length b) + 1)%N by lia.
  rewrite N.pow_add_r. rewrite N.pow_1_r. lia.
Qed.
Lemma dec_value_cons c s :
  dec_value (c :: s) = (digit_val c * 10 ^ N.of_nat (length s) + dec_value s)%N.
Proof. change (c :: s) with ([c] ++ s). rewrite dec_value_app. unfold dec_value at 1. simpl. lia. Qed.

Lemma size_nat_bound n : (n < 2 ^ N.of_nat (N.size_nat n))%N.
Proof.
  destruct (decide (n = 0%N)) as [->|Hn]; [cbv; done|].
  assert (N.of_nat (N.size_nat n) = N.size n) as ->.
  { destruct n as [|p]; [done|]. simpl. induction p; simpl in *; try rewrite Nat2N.inj_succ; try rewrite IHp; simpl; lia. }
  apply N.size_gt.
Qed.

Lemma fmt_loop_spec fuel n acc :
  (n < 2 ^ N.of_nat fuel)%N -> n <> 0%N \/ fuel <> 0 ->
  exists ds, fmt_loop fuel n acc = ds ++ acc /\ ds <> [] /\ all_digits ds /\ dec_value ds = n.
Proof.
  revert n acc. induction fuel as [|fuel IH]; intros n acc Hlt Hne.
  { simpl in Hlt. lia. }
  cbn [fmt_loop].
  destruct (is_digit_digit (n mod 10)) as [Hd1 Hd2]; [apply N.mod_lt; lia|].
  destruct (n <? 10)%N eqn:E.
  - exists [digit (n mod 10)]. split; [done|]. split; [done|]. split; [repeat constructor; done|].
    unfold dec_value. simpl. rewrite Hd2. rewrite N.mod_small by lia. lia.
  - destruct (IH (n / 10)%N (digit (n mod 10) :: acc)) as (ds & -> & Hds & Had & Hv).
    + rewrite Nat2N.inj_succ in Hlt. rewrite N.pow_succ_r' in Hlt.
      apply N.div_lt_upper_bound; lia.
    + left. apply N.ltb_ge in E. intros H0.
      assert (n / 10 * 10 <= n < (n / 10 + 1) * 10)%N; [|lia].
      pose proof (N.div_mod n 10). pose proof (N.mod_lt n 10). lia.
    + exists (ds ++ [digit (n mod 10)]). rewrite <- (assoc_L (++)). split; [done|].
      split; [by destruct ds|]. split.
      * apply Forall_app. split; [done|]. repeat constructor; done.
      * rewrite dec_value_app, Hv. unfold dec_value. simpl. rewrite Hd2.
        pose proof (N.div_mod n 10). lia.
Qed.

Lemma format_N_spec n : format_N n <> [] /\ all_digits (format_N n) /\ dec_value (format_N n) = n.
Proof.
  unfold format_N. destruct (fmt_loop_spec (S (N.size_nat n)) n []) as (ds & -> & H1 & H2 & H3).
  - rewrite Nat2N.inj_succ, N.pow_succ_r'. pose proof (size_nat_bound n). lia.
  - by right.
  - rewrite app_nil_r. done.
Qed.
Lemma format_N_inj a b : format_N a = format_N b -> a = b.
Proof.
  intros H. destruct (format_N_spec a) as (_ & _ & <-). rewrite H. by destruct (format_N_spec b) as (_ & _ & ->).
Qed.
Lemma format_N_plain n : Forall (fun c => plain_byte c = true) (format_N n).
Proof.
  destruct (format_N_spec n) as (_ & H & _). eapply Forall_impl; [exact H|].
  intros c Hc. by apply digit_plain.
Qed.


Lemma parse_int_Some s z : parse_int s = Some z <-> int_syntax s z /\ int64 z.
Proof.
  unfold parse_int.
  assert (Hcut : int64_cutoff = 9223372036854775808%N) by done.
  destruct s as [|c r].
  { simpl. split; [discriminate|]. intros [H _]. inversion H; done. }
  destruct (Ascii.eqb c "+") eqn:Ep; [apply aeqb_spec in Ep as ->|].
  { destruct (parse_digits r) as [n|] eqn:E.
    - apply parse_digits_Some in E as (H1 & H2 & ->).
      cbn [negb andb]. rewrite Hcut. destruct (9223372036854775808 <=? dec_value r)%N eqn:L.
      + split; [discriminate|]. intros [Hs Hi]. inversion Hs; subst; unfold int64 in Hi;
          try (inversion H0; subst; discriminate); try lia.
      + split; [intros [= <-]; split; [by constructor|unfold int64; lia]|].
        intros [Hs _]. inversion Hs; subst; [|done].
        apply Forall_cons in H0 as [Hx _]. discriminate Hx.
    - split; [discriminate|]. intros [Hs _]. inversion Hs; subst.
      + apply Forall_cons in H0 as [Hx _]. discriminate Hx.
      + assert (parse_digits r = Some (dec_value r)) by (by apply parse_digits_Some). congruence. }
  destruct (Ascii.eqb c "-") eqn:Em; [apply aeqb_spec in Em as ->|].
  { destruct (parse_digits r) as [n|] eqn:E.
    - apply parse_digits_Some in E as (H1 & H2 & ->).
      cbn [negb andb]. rewrite Hcut. destruct (9223372036854775808 <? dec_value r)%N eqn:L.
      + split; [discriminate|]. intros [Hs Hi]. inversion Hs; subst; unfold int64 in Hi;
          try (inversion H0; subst; discriminate); try lia.
      + split; [intros [= <-]; split; [by constructor|unfold int64; lia]|].
        intros [Hs _]. inversion Hs; subst; [|done].
        apply Forall_cons in H0 as [Hx _]. discriminate Hx.
    - split; [discriminate|]. intros [Hs _]. inversion Hs; subst.
      + apply Forall_cons in H0 as [Hx _]. discriminate Hx.
      + assert (parse_digits r = Some (dec_value r)) by (by apply parse_digits_Some). congruence. }
  apply aeqb_neq in Ep. apply aeqb_neq in Em.
  destruct (parse_digits (c :: r)) as [n|] eqn:E.
  - apply parse_digits_Some in E as (H1 & H2 & ->).
    cbn [negb andb]. rewrite Hcut. destruct (9223372036854775808 <=? dec_value (c :: r))%N eqn:L.
    + split; [discriminate|]. intros [Hs Hi]. inversion Hs; subst; unfold int64 in Hi; try done; lia.
    + split; [intros [= <-]; split; [by constructor|unfold int64; lia]|].
      intros [Hs _]. inversion Hs; subst; done.
  - split; [discriminate|]. intros [Hs _]. inversion Hs; subst; try done.
    assert (parse_digits (c :: r) = Some (dec_value (c :: r))) by (by apply parse_digits_Some). congruence.
Qed.

Lemma format_int_syntax z : int_syntax (format_int z) z.
Proof.
  unfold format_int. destruct (z <? 0)%Z eqn:E.
  - destruct (format_N_spec (Z.abs_N z)) as (H1 & H2 & H3).
    assert (int_syntax ("-"%char :: format_N (Z.abs_N z)) (- Z.of_N (dec_value (format_N (Z.abs_N z))))) as H by (by constructor).
    rewrite H3 in H. replace (- Z.of_N (Z.abs_N z))%Z with z in H by lia. done.
  - destruct (format_N_spec (Z.to_N z)) as (H1 & H2 & H3).
    assert (int_syntax (format_N (Z.to_N z)) (Z.of_N (dec_value (format_N (Z.to_N z))))) as H by (by constructor).
    rewrite H3 in H. replace (Z.of_N (Z.to_N z)) with z in H by lia. done.
Qed.
Lemma parse_format_int z : int64 z -> parse_int (format_int z) = Some z.
Proof. intros H. apply parse_int_Some. split; [apply format_int_syntax|done]. Qed.
Lemma format_int_plain z : Forall (fun c => plain_byte c = true) (format_int z).
Proof.
  unfold format_int. destruct (z <? 0)%Z; [constructor; [done|]|]; apply format_N_plain.
Qed.
Lemma int_syntax_plain s z : int_syntax s z -> Forall (fun c => plain_byte c = true) s.
Proof.
  intros H. assert (forall ds, all_digits ds -> Forall (fun c => plain_byte c = true) ds).
  { intros ds Hds. eapply Forall_impl; [exact Hds|]. intros c Hc. by apply digit_plain. }
  inversion H; subst; eauto; constructor; eauto.
Qed.
Lemma int_syntax_det s z1 z2 : int_syntax s z1 -> int_syntax s z2 -> z1 = z2.
Proof.
  intros H1 H2. inversion H1; subst; inversion H2; subst; try done;
  match goal with H : all_digits (_ :: _) |- _ => apply Forall_cons in H as [Hx _]; discriminate Hx end.
Qed.

(** ** trim_space computes the specified trimming *)

Lemma strip_one_space w r : w ∈ space_seqs -> strip_one space_seqs (w ++ r) = Some r.
Proof.
  unfold space_seqs at 1. intros H.
  repeat (apply elem_of_cons in H as [->|H]; [reflexivity|]).
  by apply elem_of_nil in H.
Qed.
Lemma strip_one_space_rev w r :
  w ∈ space_seqs -> strip_one (map (@rev ascii) space_seqs) (rev w ++ r) = Some r.
Proof.
  unfold space_seqs at 1. intros H.
  repeat (apply elem_of_cons in H as [->|H]; [reflexivity|]).
  by apply elem_of_nil in H.
Qed.

Lemma trim_left_app a x : all_space a -> ~ starts_space x -> trim_left (a ++ x) = x.
Proof.
  intros (ws & Hws & ->) Hx. unfold trim_left.
  assert (H : forall fuel, length (concat ws ++ x) <= fuel ->
              strip_all space_seqs fuel (concat ws ++ x) = x); [|by apply H].
  induction Hws as [|w ws Hw Hws IH]; intros fuel Hf; simpl.
  - by apply strip_all_id.
  - destruct (space_first_byte w Hw) as (c & r & Hc & _).
    simpl in Hf. rewrite !app_length in Hf. subst w. simpl in Hf.
    destruct fuel as [|fuel]; [lia|]. cbn [strip_all].
    rewrite <- (assoc_L (++)), strip_one_space by done.
    apply IH. rewrite app_length. lia.
Qed.

Lemma trim_right_app x b : all_space b -> ~ ends_space x -> trim_right (x ++ b) = x.
Proof.
  intros (ws & Hws & ->) Hx. unfold trim_right.
  transitivity (rev (rev x)); [|apply rev_involutive]. f_equal.
  rewrite rev_app_distr, concat_rev.
  rewrite ends_space_rev in Hx.
  assert (H : forall ws, Forall (fun w => w ∈ space_seqs) ws -> forall fuel,
    length (concat (map (@rev ascii) ws) ++ rev x) <= fuel ->
    strip_all (map (@rev ascii) space_seqs) fuel (concat (map (@rev ascii) ws) ++ rev x) = rev x).
  { clear ws Hws. intros ws Hws. induction Hws as [|w ws Hw Hws IH]; intros fuel Hf; simpl.
    - by apply strip_all_id.
    - simpl in Hf. rewrite !app_length, rev_length in Hf.
      assert (w <> []) by (pose proof space_seqs_ne as Hn; rewrite Forall_forall in Hn; by apply Hn).
      destruct fuel as [|fuel]; [destruct w; simpl in Hf; [done|lia]|]. cbn [strip_all].
      rewrite <- (assoc_L (++)), strip_one_space_rev by done.
      apply IH. rewrite app_length. destruct w; simpl in Hf; [done|lia]. }
  rewrite <- map_rev. apply H; [by apply Forall_rev|].
  rewrite !app_length, map_rev, <- concat_rev, !rev_length. lia.
Qed.

(** The first byte of a white-space character is never inside another one. *)
Definition cont_byte (c : ascii) : bool := (128 <=? code c)%N && (code c <? 192)%N.
Lemma space_cont w : w ∈ space_seqs ->
  exists c r, w = c :: r /\ cont_byte c = false /\ Forall (fun x => cont_byte x = true) r.
Proof.
  unfold space_seqs. intros H.
  repeat (apply elem_of_cons in H as [->|H];
          [eexists _, _; split; [reflexivity|]; split; [reflexivity|]; repeat constructor|]).
  by apply elem_of_nil in H.
Qed.

Lemma not_starts_space_app t b :
  t <> [] -> ~ starts_space t -> all_space b -> ~ starts_space (t ++ b).
Proof.
  intros Hne Ht (ws & Hws & ->) (w & Hw & [r Hr]).
  destruct (app_eq_inv _ _ _ _ Hr) as [(k & -> & Hk)|(k & -> & Hk)].
  - apply Ht. exists w. split; [done|]. by exists k.
  - destruct ws as [|w1 ws].
    + simpl in Hk. symmetry in Hk. apply app_eq_nil in Hk as [-> ->].
      apply Ht. exists t. rewrite app_nil_r in Hw. split; [done|]. done.
    + apply Forall_cons in Hws as [Hw1 _].
      destruct (space_cont w1 Hw1) as (c1 & r1 & -> & Hc1 & _).
      destruct k as [|k0 k]; [apply Ht; exists t; rewrite app_nil_r in Hw; done|].
      simpl in Hk. injection Hk as <- _.
      destruct (space_cont _ Hw) as (c & r2 & Heq & _ & Hr2).
      destruct t as [|t0 t]; [done|]. simpl in Heq. injection Heq as -> <-.
      apply Forall_app in Hr2 as [_ Hr2]. apply Forall_cons in Hr2 as [Hx _]. congruence.
Qed.

Lemma all_space_app a b : all_space a -> all_space b -> all_space (a ++ b).
Proof.
  intros (x & Hx & ->) (y & Hy & ->). exists (x ++ y). rewrite concat_app. split; [|done].
  apply Forall_app. done.
Qed.
Lemma not_starts_space_nil : ~ starts_space [].
Proof.
  intros (w & Hw & [r Hr]). destruct (space_first_byte w Hw) as (c & x & -> & _). discriminate.
Qed.
Lemma not_ends_space_nil : ~ ends_space [].
Proof.
  intros (w & Hw & [r Hr]). destruct (space_first_byte w Hw) as (c & x & -> & _).
  by destruct r.
Qed.

Lemma trimmed_iff s t : trimmed s t <-> trim_space s = t.
Proof.
  split.
  - intros (a & b & Ha & Hb & -> & H1 & H2). unfold trim_space.
    destruct (decide (t = [])) as [->|Hne].
    + simpl. rewrite <- (app_nil_r (a ++ b)).
      rewrite trim_left_app; [done| |apply not_starts_space_nil]. by apply all_space_app.
    + rewrite trim_left_app; [|done|by apply not_starts_space_app].
      by apply trim_right_app.
  - intros <-. destruct (trim_space_spec s) as (a & b & Ha & Hb & Hs & H1 & H2).
    exists a, b. done.
Qed.
Lemma no_outer_space_iff s : no_outer_space s <-> trim_space s = s.
Proof. rewrite trim_space_fix. done. Qed.

Lemma trim_space_elem c s : c ∈ trim_space s -> c ∈ s.
Proof.
  intros H. destruct (trim_space_spec s) as (a & b & _ & _ & -> & _).
  apply elem_of_app. right. apply elem_of_app. by left.
Qed.

(** ** Letter case *)

Lemma lower_c_ascii c : (code c < 128)%N -> (code (lower_c c) < 128)%N.
Proof.
  unfold lower_c, is_upper. intros H. destruct ((65 <=? code c)%N && (code c <=? 90)%N) eqn:E; [|done].
  rewrite code_byte by lia. lia.
Qed.
Lemma lower_c_idem c : lower_c (lower_c c) = lower_c c.
Proof.
  unfold lower_c at 2 3. destruct (is_upper c) eqn:E; [|unfold lower_c; by rewrite E].
  unfold is_upper in E. unfold lower_c, is_upper. rewrite code_byte by lia.
  destruct ((65 <=? code c + 32)%N && (code c + 32 <=? 90)%N) eqn:F; [lia|done].
Qed.

(** On ASCII text, lower-casing is bytewise. *)
Lemma to_lower_ascii s : Forall (fun c => is_ascii c = true) s -> to_lower s = map lower_c s.
Proof.
  induction s as [|c s IH]; intros H; [done|]. apply Forall_cons in H as [Hc H].
  specialize (IH H). cbn [to_lower map]. unfold is_ascii in Hc.
  destruct s as [|d s]; [done|].
  destruct (Ascii.eqb c (byte 196)) eqn:E1.
  { apply aeqb_spec in E1 as ->. rewrite code_byte in Hc by lia. lia. }
  cbn [andb]. destruct s as [|e s].
  { done. }
  destruct (Ascii.eqb c (byte 226)) eqn:E2.
  { apply aeqb_spec in E2 as ->. rewrite code_byte in Hc by lia. lia. }
  cbn [andb]. f_equal. exact IH.
Qed.

Lemma same_but_case_ascii a b :
  same_but_case a b -> Forall (fun c => is_ascii c = true) b -> Forall (fun c => is_ascii c = true) a.
Proof.
  induction 1 as [|x y a b Hxy _ IH]; intros Hb; [done|]. apply Forall_cons in Hb as [Hy Hb].
  constructor; [|by apply IH]. unfold is_ascii in *.
  assert (code (lower_c y) < 128)%N as Hl by (apply lower_c_ascii; lia). rewrite <- Hxy in Hl.
  unfold lower_c, is_upper in Hl. destruct ((65 <=? code x)%N && (code x <=? 90)%N) eqn:E; lia.
Qed.
Lemma to_lower_same a b :
  same_but_case a b -> Forall (fun c => is_ascii c = true) b -> to_lower a = to_lower b.
Proof.
  intros H Hb. rewrite !to_lower_ascii; [|done|by eapply same_but_case_ascii].
  clear Hb. induction H as [|x y a b Hxy _ IH]; simpl; [done|]. by rewrite Hxy, IH.
Qed.
