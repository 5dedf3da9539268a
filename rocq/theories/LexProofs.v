(** * Tokens of a text with unknown names in it *)
From Verif Require Export MainText CxxProofs.
From Verif Require Export StmProofs.

(** Parts of a line: characters, names, texts inside a string literal, digits. *)
Inductive atom := C (c : ascii) | W (w : gostr) | B (w : gostr) | D (w : gostr).
Definition atom_text (a : atom) : gostr := match a with C c => [c] | W w | B w | D w => w end.
Definition text_of (l : list atom) : gostr := concat (map atom_text l).
(** Texts that can stand between quotes as they are. *)
Definition body_ok (w : gostr) : Prop := byte 34 ∉ (w : list ascii) /\ byte 92 ∉ (w : list ascii) /\ byte 10 ∉ (w : list ascii).
Definition digits (s : gostr) : Prop := s <> [] /\ Forall (fun c => is_digit c = true) s.
Definition atom_ok (a : atom) : Prop := match a with C _ => True | W w => plain_ident w | B w => body_ok w | D s => digits s end.

Inductive pst := QStart | QWord (acc : gostr) | QSym (w : gostr) | QSym_ (w : gostr) | QNum (acc : gostr)
  | QStr (k : gostr -> gostr) (last : option gostr) | QEsc (k : gostr -> gostr) | QOp (c : ascii).
Definition close (k : gostr -> gostr) (last : option gostr) : gostr := match last with Some w => k w | None => k [] end.
Definition pushed (k : gostr -> gostr) (last : option gostr) : gostr -> gostr := match last with Some w => fun x => k (w ++ x) | None => k end.
Definition pflush (st : pst) (r : option (list tok)) : option (list tok) :=
  match st with
  | QStart => r
  | QWord acc => emit (word acc) r
  | QSym w => emit (TId w) r
  | QSym_ w => emit (TId (w ++ ["_"%char])) r
  | QNum acc => emit (TNum acc) r
  | QOp c => match punct1 c with Some p => emit (TP p) r | None => None end
  | QStr _ _ | QEsc _ => None
  end.
Definition pbegin (c : ascii) : pst :=
  if Ascii.eqb c " " then QStart
  else if Ascii.eqb c (byte 34) then QStr (fun x => x) None
  else if is_digit c then QNum [c]
  else if ident_char c then QWord [c]
  else QOp c.
Fixpoint pl (st : pst) (l : list atom) : option (list tok) :=
  match l with
  | [] => pflush st (Some [])
  | C c :: r =>
    match st with
    | QStart => pl (pbegin c) r
    | QWord acc => if ident_char c then pl (QWord (acc ++ [c])) r else pflush st (pl (pbegin c) r)
    | QSym w => if Ascii.eqb c "_" then pl (QSym_ w) r else if ident_char c then None else pflush st (pl (pbegin c) r)
    | QSym_ w => if ident_char c then None else pflush st (pl (pbegin c) r)
    | QNum acc => if ident_char c then pl (QNum (acc ++ [c])) r else pflush st (pl (pbegin c) r)
    | QStr k last => if Ascii.eqb c (byte 34) then emit (TStr (close k last)) (pl QStart r)
                     else if Ascii.eqb c (byte 92) then pl (QEsc (fun x => pushed k last (c :: x))) r
                     else pl (QStr (fun x => pushed k last (c :: x)) None) r
    | QEsc k => pl (QStr (fun x => k (c :: x)) None) r
    | QOp d =>
      if Ascii.eqb d "/" then (if Ascii.eqb c "/" then Some [] else None)
      else match punct2 d c with
           | Some p => emit (TP p) (pl QStart r)
           | None => pflush st (pl (pbegin c) r)
           end
    end
  | W w :: r =>
    match st with
    | QStart => pl (QSym w) r
    | QOp d => if Ascii.eqb d "/" then None else pflush st (pl (QSym w) r)
    | _ => None
    end
  | B w :: r => match st with QStr k last => pl (QStr (pushed k last) (Some w)) r | _ => None end
  | D w :: r =>
    match st with
    | QStart => pl (QNum w) r
    | QOp d => if Ascii.eqb d "/" then None else pflush st (pl (QNum w) r)
    | _ => None
    end
  end.

Definition conc (st : pst) : lstate :=
  match st with
  | QStart => LStart | QWord acc => LWord acc | QSym w => LWord w | QSym_ w => LWord (w ++ ["_"%char]) | QNum acc => LNum acc
  | QStr k last => LStr (close k last) | QEsc k => LEsc (k []) | QOp c => LOp c
  end.
Definition appends (k : gostr -> gostr) : Prop := forall x, k x = k [] ++ x.
Definition pinv (st : pst) : Prop :=
  match st with QSym w | QSym_ w => plain_ident w | QStr k _ | QEsc k => appends k | _ => True end.

(** ** Names *)
Lemma find_kw_reserved s : reserved s = false -> find_kw keywords s = None.
Proof.
  unfold reserved. induction keywords as [|[n k] l IH]; [done|]. cbn. intros [H1 H2]%orb_false_elim. rewrite H1. by apply IH.
Qed.
Lemma word_plain s : plain_ident s -> word s = TId s.
Proof. intros [_ H]. unfold word. by rewrite find_kw_reserved. Qed.
(** No keyword ends in an underscore. *)
Lemma kw_last : forall k, k ∈ keywords -> last (k.1 : list ascii) <> Some "_"%char.
Proof. apply Forall_forall. unfold keywords. repeat (apply Forall_cons; split; [vm_compute; discriminate|]). by apply Forall_nil. Qed.
Lemma reserved_elem s : reserved s = true -> exists k, k ∈ keywords /\ k.1 = s.
Proof. unfold reserved. intros (k & Hk & He)%existsb_exists. exists k. split; [by apply elem_of_list_In|]. by apply bool_decide_eq_true in He. Qed.
Lemma not_reserved_by s : (forall k, k ∈ keywords -> k.1 <> s) -> reserved s = false.
Proof. intros H. destruct (reserved s) eqn:E; [|done]. apply reserved_elem in E as (k & Hk & He). by destruct (H k Hk). Qed.
Lemma plain_underscore w : plain_ident w -> plain_ident (w ++ ["_"%char]).
Proof.
  intros [[Hf (c & r & -> & Hc)] _]. split; [split|].
  - apply Forall_app. split; [done|]. by constructor.
  - by exists c, (r ++ ["_"%char]).
  - apply not_reserved_by. intros k Hk He. apply (kw_last k Hk). transitivity (last (((c :: r) ++ ["_"%char]) : list ascii)); [by f_equal|apply last_snoc].
Qed.
Lemma ident_plain_head w : identifier w -> exists c r, w = c :: r /\ ident_char c = true /\ is_digit c = false.
Proof. intros [Hf (c & r & -> & Hc)]. exists c, r. split; [done|]. split; [by inversion Hf|done]. Qed.

(** ** The lexer on parts *)
Lemma lex_word_run acc w r : Forall (fun c => ident_char c = true) w -> lex (LWord acc) (w ++ r) = lex (LWord (acc ++ w)) r.
Proof.
  revert acc. induction w as [|c w IH]; intros acc H; [by rewrite app_nil_r|]. inversion H as [|? ? Hc Hw]; subst. cbn [app lex]. rewrite Hc, IH by done. by rewrite <- app_assoc.
Qed.
Lemma digit_ident c : is_digit c = true -> ident_char c = true.
Proof. intros H. unfold ident_char. rewrite H. by rewrite ?orb_true_r, ?orb_true_l. Qed.
Lemma lex_num_run acc w r : Forall (fun c => is_digit c = true) w -> lex (LNum acc) (w ++ r) = lex (LNum (acc ++ w)) r.
Proof.
  revert acc. induction w as [|c w IH]; intros acc H; [by rewrite app_nil_r|]. inversion H as [|? ? Hc Hw]; subst. cbn [app lex].
  rewrite (digit_ident c Hc), IH by done. by rewrite <- app_assoc.
Qed.
Lemma lex_str_run acc w r : body_ok w -> lex (LStr acc) (w ++ r) = lex (LStr (acc ++ w)) r.
Proof.
  intros (H1 & H2 & _). revert acc H1 H2. induction w as [|c w IH]; intros acc H1 H2; [by rewrite app_nil_r|]. cbn [app lex].
  apply not_elem_of_cons in H1 as [H1 H1']. apply not_elem_of_cons in H2 as [H2 H2'].
  destruct (Ascii.eqb_spec c (byte 34)) as [->|_]; [done|]. destruct (Ascii.eqb_spec c (byte 92)) as [->|_]; [done|]. rewrite IH by done. by rewrite <- app_assoc.
Qed.
Lemma begin_word c : ident_char c = true -> is_digit c = false -> begin c = LWord [c].
Proof.
  intros H1 H2. unfold begin. destruct (Ascii.eqb_spec c " ") as [->|_]; [done|]. destruct (Ascii.eqb_spec c (byte 34)) as [->|_]; [done|]. by rewrite H1, H2.
Qed.
Lemma begin_num c : is_digit c = true -> begin c = LNum [c].
Proof.
  intros H1. unfold begin. destruct (Ascii.eqb_spec c " ") as [->|_]; [done|]. destruct (Ascii.eqb_spec c (byte 34)) as [->|_]; [done|]. by rewrite H1.
Qed.
Lemma ident_punct2 d c : ident_char c = true -> punct2 d c = None.
Proof.
  intros H. unfold punct2. destruct (Ascii.eqb_spec c ":") as [->|_]; [done|]. destruct (Ascii.eqb_spec c "=") as [->|_]; [done|]. destruct (Ascii.eqb_spec c "&") as [->|_]; [done|].
  destruct (Ascii.eqb_spec c "<") as [->|_]; [done|]. destruct (Ascii.eqb_spec c ">") as [->|_]; [done|]. by rewrite !andb_false_r.
Qed.
Lemma conc_begin c : conc (pbegin c) = begin c.
Proof. unfold pbegin, begin. destruct (Ascii.eqb c " "); [done|]. destruct (Ascii.eqb c (byte 34)); [done|]. destruct (is_digit c); [done|]. by destruct (ident_char c). Qed.
Lemma inv_begin c : pinv (pbegin c).
Proof. unfold pbegin. destruct (Ascii.eqb c " "); [done|]. destruct (Ascii.eqb c (byte 34)); [done|]. destruct (is_digit c); [done|]. by destruct (ident_char c). Qed.
Lemma flush_conc st r : pinv st -> pflush st r = flush (conc st) r.
Proof. destruct st; cbn; intros H; try done; by rewrite word_plain by (done || by apply plain_underscore). Qed.
Lemma pushed_appends k last : appends k -> appends (pushed k last).
Proof.
  intros H x. destruct last as [w|]; cbn; [|by rewrite H]. rewrite H, (H (w ++ [])). by rewrite app_nil_r, <- app_assoc.
Qed.
Lemma close_pushed k last : appends k -> close k last = pushed k last [].
Proof. intros H. destruct last as [w|]; cbn; [by rewrite app_nil_r|done]. Qed.

Lemma emit_some t r ts : emit t r = Some ts -> exists l, r = Some l /\ ts = t :: l.
Proof. destruct r; [|done]. cbn. intros [= <-]. by eexists. Qed.
Lemma flush_some st r ts : flush st r = Some ts -> exists l, r = Some l.
Proof. destruct st as [|acc|acc|acc|acc|c]; cbn; try done; [by eexists|by intros (l & -> & _)%emit_some; eexists|by intros (l & -> & _)%emit_some; eexists|]. destruct (punct1 c); [|done]. by intros (l & -> & _)%emit_some; eexists. Qed.

Theorem pl_ok l : forall st ts, pl st l = Some ts -> Forall atom_ok l -> pinv st -> lex (conc st) (text_of l) = Some ts.
Proof.
  induction l as [|a l IH]; intros st ts E Hok Hst.
  - cbn in E |- *. by rewrite <- flush_conc.
  - inversion Hok as [|? ? Ha Hl]; subst. change (text_of (a :: l)) with (atom_text a ++ text_of l).
    assert (Hbegin : forall c st ts, pflush st (pl (pbegin c) l) = Some ts -> pinv st -> flush (conc st) (lex (begin c) (text_of l)) = Some ts).
    { intros c st' ts' E' Hi. rewrite flush_conc in E' by done. destruct (flush_some _ _ _ E') as [r Er]. rewrite Er in E'.
      apply IH in Er; [|done|apply inv_begin]. rewrite conc_begin in Er. by rewrite Er. }
    destruct a as [c|w|w|w]; cbn [atom_text atom_ok] in *.
    + cbn [app lex]. destruct st as [|acc|w|w|acc|k last|k|d]; cbn [pl conc] in *.
      * rewrite <- conc_begin. apply IH; [done|done|apply inv_begin].
      * destruct (ident_char c) eqn:Ec; [by apply (IH (QWord (acc ++ [c])))|]. by apply (Hbegin c (QWord acc)).
      * destruct (Ascii.eqb_spec c "_") as [->|Hc].
        -- change (ident_char "_") with true. cbv iota. by apply (IH (QSym_ w)).
        -- destruct (ident_char c) eqn:Ec; [done|]. by apply (Hbegin c (QSym w)).
      * destruct (ident_char c) eqn:Ec; [done|]. by apply (Hbegin c (QSym_ w)).
      * destruct (ident_char c) eqn:Ec; [by apply (IH (QNum (acc ++ [c])))|]. by apply (Hbegin c (QNum acc)).
      * destruct (Ascii.eqb c (byte 34)).
        -- apply emit_some in E as (r & Er & ->). apply (IH QStart) in Er; [|done|done]. cbn in Er. by rewrite Er.
        -- pose proof (pushed_appends k last Hst) as Hp.
           assert (Hk : close k last ++ [c] = pushed k last [c]) by (rewrite (close_pushed k last Hst); by rewrite (Hp [c])).
           assert (Hq : appends (fun x => pushed k last (c :: x))) by (intros x; rewrite (Hp (c :: x)), (Hp [c]); by rewrite <- app_assoc).
           destruct (Ascii.eqb c (byte 92)); rewrite Hk.
           ++ by apply (IH (QEsc (fun x => pushed k last (c :: x)))).
           ++ by apply (IH (QStr (fun x => pushed k last (c :: x)) None)).
      * assert (Hq : appends (fun x => k (c :: x))) by (intros x; rewrite (Hst (c :: x)), (Hst [c]); by rewrite <- app_assoc).
        rewrite <- (Hst [c]). by apply (IH (QStr (fun x => k (c :: x)) None)).
      * destruct (Ascii.eqb d "/"); [done|]. destruct (punct2 d c) as [p|].
        -- apply emit_some in E as (r & Er & ->). apply (IH QStart) in Er; [|done|done]. cbn in Er. by rewrite Er.
        -- by apply (Hbegin c (QOp d)).
    + destruct (ident_plain_head w (proj1 Ha)) as (c & r & Ew & Hc & Hd). assert (Hr : Forall (fun c => ident_char c = true) r).
      { destruct Ha as [[Hf _] _]. rewrite Ew in Hf. by inversion Hf. }
      destruct st as [|acc|w'|w'|acc|k last|k|d]; cbn [pl conc] in *; try done; rewrite Ew; cbn [app lex].
      * rewrite begin_word, lex_word_run by done. apply (IH (QSym w)) in E; [|done|done]. cbn [conc] in E. by rewrite Ew in E.
      * destruct (Ascii.eqb d "/"); [done|]. rewrite ident_punct2 by done. rewrite begin_word, lex_word_run by done.
        rewrite flush_conc in E by done. destruct (flush_some _ _ _ E) as [ts' Er]. rewrite Er in E. apply (IH (QSym w)) in Er; [|done|done]. cbn [conc] in Er. rewrite Ew in Er. cbn [app]. cbn [app] in Er. rewrite Er. exact E.
    + destruct st as [|acc|w'|w'|acc|k last|k|d]; cbn [pl conc] in *; try done. rewrite lex_str_run by done.
      assert (Hk : close k last ++ w = pushed k last w) by (rewrite (close_pushed k last Hst); by rewrite (pushed_appends k last Hst w)).
      rewrite Hk. apply (IH (QStr (pushed k last) (Some w))); [done|done|by apply pushed_appends].
    + destruct Ha as [Hne Hf]. destruct w as [|c w]; [done|]. inversion Hf as [|? ? Hc Hw]; subst.
      destruct st as [|acc|w'|w'|acc|k last|k|d]; cbn [pl conc] in *; try done; cbn [app lex].
      * rewrite begin_num, lex_num_run by done. by apply (IH (QNum (c :: w))) in E.
      * destruct (Ascii.eqb d "/"); [done|]. rewrite ident_punct2 by (by apply digit_ident). rewrite begin_num, lex_num_run by done.
        rewrite flush_conc in E by done. destruct (flush_some _ _ _ E) as [ts' Er]. rewrite Er in E. apply (IH (QNum (c :: w))) in Er; [|done|done]. cbn [conc] in Er. cbn [app]. rewrite Er. exact E.
Qed.
Lemma lex_hash r : lex LStart ("#"%char :: r) = None.
Proof. destruct r as [|c r]; [done|]. cbn [lex]. change (begin "#") with (LOp "#"). cbn [lex Ascii.eqb]. by destruct (lex (begin c) r). Qed.
Lemma line_ok l ts : pl QStart l = Some ts -> Forall atom_ok l -> lex_line (text_of l) = Some ts.
Proof.
  intros E Hok. apply pl_ok in E; [|done|done]. cbn [conc] in E. unfold lex_line. destruct (text_of l) as [|c r]; [done|].
  destruct (Ascii.eqb_spec c "#") as [->|_]; [|done]. by rewrite lex_hash in E.
Qed.

(** ** Blocks of lines *)
Definition reads (ls : list gostr) (ts : list tok) : Prop := lex_lines ls = Some ts /\ Forall (fun l : gostr => byte 10 ∉ (l : list ascii)) ls.
Definition no_lf (a : atom) : bool := match a with C c => negb (Ascii.eqb c (byte 10)) | _ => true end.
Fixpoint pls (A : list (list atom)) : option (list tok) :=
  match A with
  | [] => Some []
  | a :: r => if forallb no_lf a then match pl QStart a, pls r with Some x, Some y => Some (x ++ y) | _, _ => None end else None
  end.
(** A text made of parts. *)
Definition rfy (t : gostr) (A : list atom) : Prop := t = text_of A /\ Forall atom_ok A.
Lemma ident_no_lf w : identifier w -> byte 10 ∉ (w : list ascii).
Proof. intros [H _] Hin. pose proof (proj1 (Forall_forall _ _) H _ Hin) as Hx. done. Qed.
Lemma atoms_no_lf A : Forall atom_ok A -> forallb no_lf A = true -> byte 10 ∉ (text_of A : list ascii).
Proof.
  induction A as [|a A IH]; intros HA Hn Hin; [by apply elem_of_nil in Hin|]. inversion HA as [|? ? Ha Hr]; subst.
  cbn [forallb] in Hn. apply andb_prop in Hn as [Hna Hnr]. change (text_of (a :: A)) with (atom_text a ++ text_of A) in Hin. apply elem_of_app in Hin as [Hin|Hin]; [|by apply IH].
  destruct a as [c|w|w|w]; cbn in *.
  - apply elem_of_list_singleton in Hin. subst c. done.
  - destruct Ha as [Ha _]. by apply (ident_no_lf w Ha).
  - by destruct Ha as (_ & _ & Ha).
  - destruct Ha as [_ Ha]. pose proof (proj1 (Forall_forall _ _) Ha _ Hin) as Hx. done.
Qed.
Inductive rfys : list gostr -> list (list atom) -> Prop :=
| rfys_nil : rfys [] []
| rfys_cons l ls A AS : rfy l A -> rfys ls AS -> rfys (l :: ls) (A :: AS).
Lemma block_ok ls A ts : rfys ls A -> pls A = Some ts -> reads ls ts.
Proof.
  intros H. revert ts. induction H as [|l ls A AS [-> Ha] _ IH]; intros ts E; cbn [pls] in E.
  - injection E as <-. split; [done|constructor].
  - destruct (forallb no_lf A) eqn:En; [|done]. destruct (pl QStart A) as [x|] eqn:Ex; [|done]. destruct (pls AS) as [y|] eqn:Ey; [|done]. injection E as <-.
    destruct (IH y eq_refl) as [E1 E2]. split; [|constructor; [by apply atoms_no_lf|done]]. cbn [lex_lines]. by rewrite (line_ok _ _ Ex Ha), E1.
Qed.
Lemma rf_app a b A B : rfy a A -> rfy b B -> rfy (a ++ b) (A ++ B).
Proof. intros [-> HA] [-> HB]. split; [|by apply Forall_app]. unfold text_of. by rewrite map_app, concat_app. Qed.
Lemma chars_text l : text_of (map C l) = l.
Proof. unfold text_of. induction l as [|c l IH]; [done|]. cbn. by rewrite IH. Qed.
Lemma rf_lit s : rfy (lit s) (map C (lit s)).
Proof. split; [by rewrite chars_text|]. induction (lit s) as [|c l IH]; constructor; done. Qed.
Lemma rf_nil : rfy [] [].
Proof. split; [done|constructor]. Qed.
Lemma rf_cons c a A : rfy a A -> rfy (c :: a) (C c :: A).
Proof. intros [-> HA]. split; [done|by constructor]. Qed.
Lemma rf_quoted a A : rfy a A -> rfy (quoted a) (C (byte 34) :: A ++ [C (byte 34)]).
Proof. intros H. unfold quoted. apply rf_cons, rf_app; [done|]. apply rf_cons, rf_nil. Qed.
Lemma rf_W w : plain_ident w -> rfy w [W w].
Proof. intros H. split; [cbn; by rewrite app_nil_r|by constructor]. Qed.
Lemma rf_B w : body_ok w -> rfy w [B w].
Proof. intros H. split; [cbn; by rewrite app_nil_r|by constructor]. Qed.
Lemma rf_D w : digits w -> rfy w [D w].
Proof. intros H. split; [cbn; by rewrite app_nil_r|by constructor]. Qed.

Lemma reads_nil : reads [] [].
Proof. split; [done|constructor]. Qed.
Lemma reads_app a b s t : reads a s -> reads b t -> reads (a ++ b) (s ++ t).
Proof.
  intros [H1 H2] [H3 H4]. split; [|by apply Forall_app]. clear H2 H4. revert s H1. induction a as [|l a IH]; intros s H1; cbn in *; [by injection H1 as <-|].
  destruct (lex_line l) as [x|]; [|done]. destruct (lex_lines a) as [y|]; [|done]. injection H1 as <-. rewrite (IH y eq_refl). by rewrite app_assoc.
Qed.
Lemma reads_concat {X} (f : X -> list gostr) (g : X -> list tok) (xs : list X) : (forall x, x ∈ xs -> reads (f x) (g x)) -> reads (concat (map f xs)) (concat (map g xs)).
Proof.
  induction xs as [|x xs IH]; intros H; [apply reads_nil|]. cbn [map concat]. apply reads_app; [apply H, elem_of_list_here|]. apply IH. intros y Hy. by apply H, elem_of_list_further.
Qed.
Lemma map_singles {X Y} (f : X -> Y) (xs : list X) : map f xs = concat (map (fun x => [f x]) xs).
Proof. induction xs as [|x xs IH]; [done|]. cbn. by rewrite <- IH. Qed.
Lemma reads_map {X} (f : X -> gostr) (g : X -> list tok) (xs : list X) : (forall x, x ∈ xs -> reads [f x] (g x)) -> reads (map f xs) (concat (map g xs)).
Proof. intros H. rewrite map_singles. by apply reads_concat. Qed.
Lemma reads_eq ls ts ts' : reads ls ts -> ts = ts' -> reads ls ts'.
Proof. by intros H <-. Qed.
Lemma reads_pre l : byte 10 ∉ (l : list ascii) -> reads ["#"%char :: l] [TPre ("#"%char :: l)].
Proof. intros H. split; [done|]. constructor; [|constructor]. apply not_elem_of_cons. done. Qed.
Lemma reads_comment l : byte 10 ∉ (l : list ascii) -> reads [lit "//" ++ l] [].
Proof. intros H. split; [done|]. constructor; [|constructor]. change (lit "//" ++ l) with ("/"%char :: "/"%char :: l). rewrite !not_elem_of_cons. done. Qed.

(** The parts of a line, from its text; [q]: between quotes. *)
Create HintDb names.
Ltac rf q t :=
  lazymatch t with
  | app ?a ?b => let pa := rf q a in let pb := rf q b in constr:(rf_app _ _ _ _ pa pb)
  | quoted ?a => let pa := rf true a in constr:(rf_quoted _ _ pa)
  | lit ?s => constr:(rf_lit s)
  | cons ?c ?r => let pr := rf q r in constr:(rf_cons c _ _ pr)
  | nil => constr:(rf_nil)
  | format_N ?n => lazymatch q with true => constr:(rf_B t ltac:(solve [eauto with names])) | _ => constr:(rf_D t ltac:(solve [eauto with names])) end
  | _ => lazymatch q with
         | true => constr:(rf_B t ltac:(solve [eauto with names]))
         | _ => match goal with H : digits t |- _ => constr:(rf_D t H) | _ => constr:(rf_W t ltac:(solve [eauto with names])) end
         end
  end.
Ltac rfs ls :=
  lazymatch ls with
  | nil => constr:(rfys_nil)
  | cons ?l ?r => let p := rf false l in let pr := rfs r in constr:(rfys_cons _ _ _ _ p pr)
  end.
Ltac block := lazymatch goal with |- reads ?ls _ => let p := rfs ls in refine (block_ok _ _ _ p _); vm_compute; reflexivity end.
