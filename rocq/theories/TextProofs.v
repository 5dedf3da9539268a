(** * Lemmas about build files *)
From Verif Require Export Text Xml SpecText.
From Verif Require Export StmProofs.

Lemma split_app (c : ascii) (a b : gostr) : c ∉ (a : list ascii) -> split_all c (a ++ c :: b) = a :: split_all c b.
Proof.
  induction a as [|x a IH]; intros H; cbn.
  - by rewrite Ascii.eqb_refl.
  - apply not_elem_of_cons in H as [Hx H]. destruct (Ascii.eqb_spec x c) as [->|]; [done|]. by rewrite (IH H).
Qed.
Lemma split_single (c : ascii) (a : gostr) : c ∉ (a : list ascii) -> split_all c a = [a].
Proof.
  induction a as [|x a IH]; intros H; cbn; [done|]. apply not_elem_of_cons in H as [Hx H].
  destruct (Ascii.eqb_spec x c) as [->|]; [done|]. by rewrite (IH H).
Qed.
Lemma split_join (c : ascii) (l : list gostr) : l <> [] -> Forall (fun a : gostr => c ∉ (a : list ascii)) l -> split_all c (join [c] l) = l.
Proof.
  induction l as [|a l IH]; intros Hne H; [done|]. inversion H as [|? ? Ha Hl]; subst. destruct l as [|b l].
  - by apply split_single.
  - change (split_all c (a ++ c :: join [c] (b :: l)) = a :: b :: l). rewrite split_app by done. f_equal. by apply IH.
Qed.
Lemma cut_app (c : ascii) (a b : gostr) : c ∉ (a : list ascii) -> cut c (a ++ c :: b) = Some (a, b).
Proof.
  induction a as [|x a IH]; intros H; cbn.
  - by rewrite Ascii.eqb_refl.
  - apply not_elem_of_cons in H as [Hx H]. destruct (Ascii.eqb_spec x c) as [->|]; [done|]. by rewrite (IH H).
Qed.
Lemma cut_none (c : ascii) (a : gostr) : c ∉ (a : list ascii) -> cut c a = None.
Proof.
  induction a as [|x a IH]; intros H; cbn; [done|]. apply not_elem_of_cons in H as [Hx H].
  destruct (Ascii.eqb_spec x c) as [->|]; [done|]. by rewrite (IH H).
Qed.

(** ** Words *)
Definition solid (w : gostr) : Prop := w <> [] /\ " "%char ∉ (w : list ascii).
Lemma words_nil : words_of [] = [].
Proof. reflexivity. Qed.
Lemma words_skip s : words_of (" "%char :: s) = words_of s.
Proof. unfold words_of. change (split_all " " (" "%char :: s)) with ([] :: split_all " " s). by rewrite filter_cons_False by auto. Qed.
Lemma words_cons w s : solid w -> words_of (w ++ " "%char :: s) = w :: words_of s.
Proof. intros [Hne Hsp]. unfold words_of. rewrite split_app by done. by rewrite filter_cons_True. Qed.
Lemma words_one w : solid w -> words_of w = [w].
Proof. intros [Hne Hsp]. unfold words_of. rewrite split_single by done. by rewrite filter_cons_True. Qed.
Lemma words_join (ws : list gostr) : Forall solid ws -> words_of (join [" "%char] ws) = ws.
Proof.
  induction ws as [|w ws IH]; intros H; [done|]. inversion H; subst. destruct ws as [|w' ws].
  - by apply words_one.
  - change (words_of (w ++ " "%char :: join [" "%char] (w' :: ws)) = w :: w' :: ws). rewrite words_cons by done. f_equal. by apply IH.
Qed.
Lemma words_lead (ws : list gostr) : Forall solid ws -> words_of (concat (map (fun w => " "%char :: w) ws)) = ws.
Proof.
  intros H. destruct ws as [|w ws]; [done|]. inversion H as [|? ? Hw Hws]; subst. cbn [map concat app]. rewrite words_skip.
  clear H. revert w Hw. induction ws as [|v ws IH]; intros w Hw.
  - cbn. rewrite app_nil_r. by apply words_one.
  - inversion Hws; subst. cbn [map concat app]. rewrite words_cons by done. f_equal. by apply IH.
Qed.

(** ** Characters *)
Lemma word_char_not (c d : ascii) : word_char c = true -> word_char d = false -> c <> d.
Proof. by intros H1 H2 ->; rewrite H2 in H1. Qed.
Lemma plain_not_in (s : gostr) (d : ascii) : plain_word s -> word_char d = false -> d ∉ (s : list ascii).
Proof. intros [_ H] Hd Hin. rewrite Forall_forall in H. apply H in Hin. by rewrite Hd in Hin. Qed.
Lemma plain_make (s : gostr) : plain_word s -> forallb make_char s = true.
Proof. intros [_ H]. apply forallb_forall. intros c Hc%elem_of_list_In. rewrite Forall_forall in H. unfold make_char. by rewrite (H c Hc). Qed.
Lemma not_in_app (c : ascii) (a b : gostr) : c ∉ (a : list ascii) -> c ∉ (b : list ascii) -> c ∉ (a ++ b : list ascii).
Proof. intros Ha Hb [H|H]%elem_of_app; tauto. Qed.
Lemma lit_not_in (c : ascii) (s : gostr) : bool_decide (c ∈ (s : list ascii)) = false -> c ∉ (s : list ascii).
Proof. by rewrite bool_decide_eq_false. Qed.

(** ** The order of names *)
Global Instance name_le_total : Total name_le.
Proof.
  intros a b. unfold name_le. revert b. induction a as [|x a IH]; intros [|y b]; cbn; [by left|by left|by right|].
  destruct (N.ltb_spec (code x) (code y)); [by left|]. destruct (N.ltb_spec (code y) (code x)); [by right|]. apply IH.
Qed.
Lemma sorted_names_perm X : sorted_names X ≡ₚ elements X.
Proof. apply merge_sort_Permutation. Qed.
Lemma elem_of_sorted_names X t : t ∈ sorted_names X <-> t ∈ X.
Proof. rewrite sorted_names_perm. apply elem_of_elements. Qed.
Lemma NoDup_sorted_names X : NoDup (sorted_names X).
Proof. rewrite sorted_names_perm. apply NoDup_elements. Qed.
