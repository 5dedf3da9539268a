(** * Lemmas about reading trace files *)
From Verif Require Export SpecCsv NamingProofs.

(** ** Plain bytes and white space *)
Lemma space_no_plain w c : w ∈ space_seqs -> plain_byte c = true -> c ∉ w.
Proof.
  intros H Hc. unfold space_seqs in H.
  repeat (apply elem_of_cons in H as [->|H];
    [intros Hin; repeat (apply elem_of_cons in Hin as [->|Hin]; [discriminate Hc|]); by apply elem_of_nil in Hin|]).
  by apply elem_of_nil in H.
Qed.
Lemma not_starts_space_plain t p z : plain_byte p = true -> ~ starts_space t -> ~ starts_space (t ++ p :: z).
Proof.
  intros Hp Ht (w & Hw & r & Hr). 
  destruct (app_eq_inv _ _ _ _ Hr) as [(k & -> & Hk)|(k & -> & Hk)].
  - apply Ht. exists w. split; [done|]. by exists k.
  - destruct k as [|x k]; cbn in Hk.
    + apply Ht. exists t. rewrite app_nil_r in Hw. split; [done|]. exists []. by rewrite app_nil_r.
    + injection Hk as <- _. eapply space_no_plain; [exact Hw|exact Hp|]. apply elem_of_app. right. left.
Qed.
Lemma not_ends_space_plain x p v : plain_byte p = true -> ~ ends_space v -> ~ ends_space (x ++ p :: v).
Proof.
  intros Hp Hv (w & Hw & r & Hr). symmetry in Hr.
  destruct (app_eq_inv _ _ _ _ Hr) as [(k & -> & Hk)|(k & -> & Hk)].
  - destruct k as [|y k]; cbn in Hk.
    + subst w. eapply space_no_plain; [exact Hw|exact Hp|]. left.
    + injection Hk as -> ->. apply Hv. exists w. split; [done|]. by exists k.
  - subst w. eapply space_no_plain; [exact Hw|exact Hp|]. apply elem_of_app. right. left.
Qed.
Lemma trim_left_plain x p z : plain_byte p = true -> trim_left (x ++ p :: z) = trim_left x ++ p :: z.
Proof.
  intros Hp. destruct (trim_left_spec x) as (a & Ha & Hx & Hns).
  rewrite Hx at 1. rewrite <- (assoc_L (++)). apply trim_left_app; [done|].
  by apply not_starts_space_plain.
Qed.
Lemma trim_left_elem c s : c ∈ trim_left s -> c ∈ s.
Proof. destruct (trim_left_spec s) as (a & _ & H & _). intros Hc. rewrite H. apply elem_of_app. by right. Qed.

(** ** Splitting *)
Lemma split_all_cut c s : split_all c s =
  match cut c s with Some (a, b) => a :: split_all c b | None => [s] end.
Proof.
  induction s as [|x s IH]; [done|]. cbn. destruct (Ascii.eqb x c); [done|].
  rewrite IH. by destruct (cut c s) as [[a b]|].
Qed.
Lemma split_all_free c s : c ∉ s -> split_all c s = [s].
Proof. intros H. rewrite split_all_cut. by rewrite (proj2 (cut_None c s) H). Qed.
Lemma split_all_app c a b : split_all c (a ++ c :: b) = split_all c a ++ split_all c b.
Proof.
  induction a as [|x a IH]; cbn.
  - by rewrite aeqb_refl.
  - destruct (Ascii.eqb x c) eqn:E; [by rewrite IH|]. rewrite IH.
    destruct (split_all c a) as [|y l] eqn:Ea; [|done]. 
    rewrite split_all_cut in Ea. by destruct (cut c a) as [[? ?]|].
Qed.
Lemma split_all_elem c s x y : x ∈ split_all c s -> y ∈ x -> y ∈ s /\ y <> c.
Proof.
  revert x. induction s as [|a s IH]; intros x; cbn.
  - intros Hx. apply elem_of_list_singleton in Hx as ->. intros Hy. by apply elem_of_nil in Hy.
  - destruct (Ascii.eqb a c) eqn:E.
    + intros Hx Hy. apply elem_of_cons in Hx as [->|Hx]; [by apply elem_of_nil in Hy|].
      destruct (IH _ Hx Hy). split; [by right|done].
    + destruct (split_all c s) as [|z l] eqn:Es.
      * intros Hx Hy. apply elem_of_list_singleton in Hx as ->. apply elem_of_list_singleton in Hy as ->.
        split; [left|]. by apply aeqb_neq.
      * intros Hx Hy. apply elem_of_cons in Hx as [->|Hx].
        -- apply elem_of_cons in Hy as [->|Hy]; [split; [left|by apply aeqb_neq]|].
           destruct (IH z) as [? ?]; [left|done|]. split; [by right|done].
        -- destruct (IH x) as [? ?]; [by right|done|]. split; [by right|done].
Qed.
Lemma split_all_join c l : l <> [] -> Forall (fun s => c ∉ s) l -> split_all c (join [c] l) = l.
Proof.
  intros Hne H. induction H as [|s l Hs H IH]; [done|]. destruct l as [|s' l].
  - cbn. by apply split_all_free.
  - change (join [c] (s :: s' :: l)) with (s ++ c :: join [c] (s' :: l)).
    rewrite split_all_app. rewrite IH by done. by rewrite split_all_free.
Qed.

(** ** Lines *)
Lemma read_slice_cut s : read_slice s =
  match cut nl s with Some (a, b) => (a ++ [nl], b, true) | None => (s, [], false) end.
Proof.
  induction s as [|x s IH]; [done|]. cbn [read_slice cut].
  destruct (Ascii.eqb x nl) eqn:E; [by apply aeqb_spec in E as ->|].
  rewrite IH. by destruct (cut nl s) as [[a b]|].
Qed.
Lemma drop_last_if_elem c s x : x ∈ drop_last_if c s -> x ∈ s.
Proof.
  unfold drop_last_if. destruct (rev s) as [|y r] eqn:E; [done|]. destruct (Ascii.eqb y c); [|done].
  intros H. assert (s = rev r ++ [y]) as -> by (rewrite <- (rev_involutive s), E; done).
  apply elem_of_app. by left.
Qed.
Lemma drop_last_if_length c s : length (drop_last_if c s) <= length s.
Proof.
  unfold drop_last_if. destruct (rev s) as [|y r] eqn:E; [done|]. destruct (Ascii.eqb y c); [|done].
  assert (s = rev r ++ [y]) as -> by (rewrite <- (rev_involutive s), E; done).
  rewrite app_length. cbn. lia.
Qed.
Lemma drop_last_if_snoc c s : drop_last_if c (s ++ [c]) = s.
Proof. unfold drop_last_if. rewrite rev_app_distr. cbn. by rewrite aeqb_refl, rev_involutive. Qed.
Lemma drop_last_if_free c s : c ∉ s -> drop_last_if c s = s.
Proof.
  intros H. unfold drop_last_if. destruct (rev s) as [|y r] eqn:E; [done|].
  destruct (Ascii.eqb y c) eqn:Ey; [|done]. apply aeqb_spec in Ey as ->.
  assert (s = rev r ++ [c]) as -> by (rewrite <- (rev_involutive s), E; done).
  destruct H. apply elem_of_app. right. left.
Qed.
Lemma drop_last_if_snoc_ne c s x : x <> c -> drop_last_if c (s ++ [x]) = s ++ [x].
Proof. intros H. unfold drop_last_if. rewrite rev_app_distr. cbn. apply aeqb_neq in H. by rewrite H. Qed.

Lemma read_line_cut s : s <> [] -> read_line s =
  match cut nl s with
  | Some (a, b) => Some (drop_last_if cr a ++ [nl], b)
  | None => Some (drop_last_if cr s, [])
  end.
Proof.
  intros Hs. unfold read_line. destruct s as [|x s]; [done|]. rewrite read_slice_cut.
  destruct (cut nl (x :: s)) as [[a b]|]; [|done].
  rewrite rev_app_distr. cbn [rev app]. unfold drop_last_if.
  destruct (rev a) as [|y r] eqn:E.
  - cbn. by destruct a.
  - cbn [app]. destruct (Ascii.eqb y cr); done.
Qed.
Lemma read_line_cases s : 
  (s = [] /\ read_line s = None) \/
  exists c eol rest, read_line s = Some (c ++ eol, rest) /\ nl ∉ c /\
    (eol = [nl] \/ (eol = [] /\ rest = [])) /\
    file_lines s = c :: match eol with [] => [] | _ => file_lines rest end /\
    length c + length rest + length eol <= length s /\ length rest < length s /\
    (forall x, x ∈ c \/ x ∈ rest -> x ∈ s).
Proof.
  destruct (decide (s = [])) as [->|Hne]; [by left|]. right.
  rewrite read_line_cut by done. unfold file_lines. rewrite split_all_cut.
  destruct (cut nl s) as [[a b]|] eqn:E.
  - apply cut_Some in E as [-> Ha]. exists (drop_last_if cr a), [nl], b. split; [done|].
    split; [intros H; by apply drop_last_if_elem in H|]. split; [by left|]. split; [done|].
    pose proof (drop_last_if_length cr a). rewrite app_length. cbn [length]. split; [lia|]. split; [lia|].
    intros x [Hx|Hx]; apply elem_of_app; [left; by apply drop_last_if_elem in Hx|right; by right].
  - apply cut_None in E. exists (drop_last_if cr s), [], []. rewrite app_nil_r. split; [done|].
    split; [intros H; by apply drop_last_if_elem in H|]. split; [by right|]. split; [done|].
    pose proof (drop_last_if_length cr s). cbn [length]. split; [lia|]. split; [destruct s; [done|cbn; lia]|].
    intros x [Hx|Hx]; [by apply drop_last_if_elem in Hx|by apply elem_of_nil in Hx].
Qed.
Lemma read_line_length s line rest : read_line s = Some (line, rest) ->
  length line + length rest <= length s /\ length rest < length s.
Proof.
  intros H. destruct (read_line_cases s) as [[-> H']|(c & eol & r & H' & _ & _ & _ & Hl & Hr & _)].
  - congruence.
  - rewrite H' in H. injection H as <- <-. rewrite app_length. lia.
Qed.

Definition eol_ok (eol : gostr) : Prop := eol = [nl] \/ eol = [].
Lemma length_nl_free c : nl ∉ c -> length_nl c = 0.
Proof.
  intros H. unfold length_nl. destruct (rev c) as [|x r] eqn:E; [done|].
  destruct (Ascii.eqb x nl) eqn:Ex; [|done]. apply aeqb_spec in Ex as ->. destruct H.
  apply elem_of_list_In, in_rev. rewrite E. by left.
Qed.
Lemma length_nl_snoc c : length_nl (c ++ [nl]) = 1.
Proof. unfold length_nl. rewrite rev_app_distr. done. Qed.
Lemma skip_kept c eol : nl ∉ c -> eol_ok eol ->
  (match c ++ eol with
   | x :: _ => if Ascii.eqb x hash then true else length (c ++ eol) =? length_nl (c ++ eol)
   | [] => true
   end) = negb (bool_decide (kept_line c)).
Proof.
  intros Hc He. destruct c as [|x c].
  - cbn [app]. destruct He as [->| ->]; done.
  - cbn [app kept_line]. destruct (Ascii.eqb x hash) eqn:Ex.
    + apply aeqb_spec in Ex as ->. by rewrite bool_decide_false by tauto.
    + apply aeqb_neq in Ex. rewrite bool_decide_true by done. cbn [negb].
      destruct He as [->| ->].
      * change (x :: c ++ [nl]) with ((x :: c) ++ [nl]). rewrite length_nl_snoc, app_length. cbn.
        apply Nat.eqb_neq. lia.
      * rewrite app_nil_r. by rewrite length_nl_free.
Qed.

Lemma filter_file_lines_nil : filter kept_line (file_lines []) = [].
Proof. reflexivity. Qed.
Lemma skip_lines_spec fuel s : length s < fuel ->
  match skip_lines fuel s with
  | None => filter kept_line (file_lines s) = []
  | Some (line, rest) => exists c eol, line = c ++ eol /\ eol_ok eol /\ nl ∉ c /\ kept_line c /\
      filter kept_line (file_lines s) = c :: filter kept_line (file_lines rest) /\
      length line + length rest <= length s /\ length rest < length s /\ (forall x, x ∈ c \/ x ∈ rest -> x ∈ s)
  end.
Proof.
  revert s. induction fuel as [|fuel IH]; intros s Hf; [lia|]. cbn [skip_lines].
  destruct (read_line_cases s) as [[-> ->]|(c & eol & r & -> & Hc & He & Hfl & Hl & Hr & Hin)]; [done|].
  assert (He' : eol_ok eol) by (destruct He as [?|[? ?]]; [by left|by right]).
  pose proof (skip_kept c eol Hc He') as Hskip.
  rewrite Hfl.
  assert (Hif : forall (X : Type) (a b : X),
    match c ++ eol with
    | x :: _ => if Ascii.eqb x hash then a else if length (c ++ eol) =? length_nl (c ++ eol) then a else b
    | [] => a
    end = if bool_decide (kept_line c) then b else a).
  { intros X a b. destruct (c ++ eol) as [|x l]; [by destruct (bool_decide (kept_line c))|].
    destruct (Ascii.eqb x hash); [by destruct (bool_decide (kept_line c))|].
    rewrite Hskip. by destruct (bool_decide (kept_line c)). }
  rewrite Hif. case_bool_decide as Hk.
  - exists c, eol. split; [done|]. split; [done|]. split; [done|]. split; [done|].
    rewrite filter_cons, decide_True by done. split; [by destruct He as [->|[-> ->]]|]. rewrite app_length.
    split; [lia|]. done.
  - rewrite filter_cons, decide_False by done.
    destruct He as [->|[-> ->]]; [|by destruct fuel].
    specialize (IH r ltac:(lia)). destruct (skip_lines fuel r) as [[line rest]|]; [|done].
    destruct IH as (c' & eol' & H1 & H2 & H3 & H4 & H5 & H6 & H7 & H8).
    exists c', eol'. split; [done|]. split; [done|]. split; [done|]. split; [done|]. split; [done|].
    split; [lia|]. split; [lia|]. intros x Hx. apply Hin. right. by apply H8.
Qed.

(** ** Fields of an unquoted line *)
Lemma last_field c eol : nl ∉ c -> eol_ok eol -> chop_nl (trim_left (c ++ eol)) = trim_left c.
Proof.
  intros Hc He. destruct He as [->| ->].
  - destruct (trim_left_spec c) as (a & Ha & Hx & Hns).
    assert (all_space [nl]) as Hnl.
    { exists [[nl]]. split; [|done]. repeat constructor. }
    destruct (decide (trim_left c = [])) as [E|E].
    + rewrite E in *. rewrite app_nil_r in Hx. subst c.
      rewrite <- (app_nil_r (a ++ [nl])), trim_left_app; [done| |done]. by apply all_space_app.
    + rewrite Hx at 1. rewrite <- (assoc_L (++)). rewrite trim_left_app; [|done|by apply not_starts_space_app].
      apply drop_last_if_snoc.
  - rewrite app_nil_r. apply drop_last_if_free. intros H. by apply trim_left_elem in H.
Qed.
Lemma parse_fields_plain fuel c eol rest acc :
  nl ∉ c -> dquote ∉ c -> eol_ok eol -> 2 * length (c ++ eol) + 2 <= fuel ->
  parse_fields fuel (c ++ eol) rest acc = Ok (acc ++ map trim_left (split_all comma c), rest).
Proof.
  revert c acc. induction fuel as [fuel IH] using lt_wf_ind. intros c acc Hnl Hq He Hf.
  destruct fuel as [|[|fuel]]; [lia|lia|]. cbn [parse_fields].
  assert (Hhead : forall X (a b : X), match trim_left (c ++ eol) with
     | q :: _ => if Ascii.eqb q dquote then a else b | [] => b end = b).
  { intros X a b. destruct (trim_left (c ++ eol)) as [|q l] eqn:E; [done|].
    destruct (Ascii.eqb q dquote) eqn:Eq; [|done]. apply aeqb_spec in Eq as ->. exfalso.
    assert (dquote ∈ c ++ eol) as Hin by (apply trim_left_elem; rewrite E; left).
    apply elem_of_app in Hin as [Hin|Hin]; [done|]. destruct He as [->| ->].
    - apply elem_of_list_singleton in Hin. discriminate.
    - by apply elem_of_nil in Hin. }
  assert (Hplain : parse_plain (S fuel) (trim_left (c ++ eol)) rest acc =
                   Ok (acc ++ map trim_left (split_all comma c), rest)).
  { cbn [parse_plain]. rewrite split_all_cut.
    destruct (cut comma c) as [[x y]|] eqn:Ec.
    - apply cut_Some in Ec as [-> Hx]. rewrite <- (assoc_L (++)). cbn [app].
      rewrite trim_left_plain by done.
      assert (comma ∉ trim_left x) as Hcx by (intros H; by apply trim_left_elem in H).
      rewrite cut_app by done.
      assert (cut dquote (trim_left x) = None) as ->.
      { apply cut_None. intros H. apply trim_left_elem in H. apply Hq. apply elem_of_app. by left. }
      rewrite IH.
      + cbn [map]. by rewrite <- (assoc_L (++)).
      + lia.
      + intros H. apply Hnl. apply elem_of_app. right. by right.
      + intros H. apply Hq. apply elem_of_app. right. by right.
      + done.
      + rewrite <- (assoc_L (++)) in Hf. rewrite app_length in Hf. cbn in Hf. lia.
    - apply cut_None in Ec.
      assert (cut comma (trim_left (c ++ eol)) = None) as ->.
      { apply cut_None. intros H. apply trim_left_elem in H. apply elem_of_app in H as [H|H]; [done|].
        destruct He as [->| ->]; [apply elem_of_list_singleton in H; discriminate|by apply elem_of_nil in H]. }
      rewrite last_field by done.
      assert (cut dquote (trim_left c) = None) as ->.
      { apply cut_None. intros H. by apply trim_left_elem in H. }
      done. }
  destruct (trim_left (c ++ eol)) as [|q l] eqn:E; [exact Hplain|].
  specialize (Hhead bool true false). destruct (Ascii.eqb q dquote); [done|]. exact Hplain.
Qed.

(** ** Fuel *)
Lemma parse_total fuel :
  (forall line rest acc, 2 * (length line + length rest) + 2 <= fuel ->
     parse_fields fuel line rest acc <> Panic /\
     forall row r, parse_fields fuel line rest acc = Ok (row, r) -> length r <= length rest) /\
  (forall line rest acc, 2 * (length line + length rest) + 1 <= fuel ->
     parse_plain fuel line rest acc <> Panic /\
     forall row r, parse_plain fuel line rest acc = Ok (row, r) -> length r <= length rest) /\
  (forall line rest buf acc, 2 * (length line + length rest) + 1 <= fuel ->
     parse_quoted fuel line rest buf acc <> Panic /\
     forall row r, parse_quoted fuel line rest buf acc = Ok (row, r) -> length r <= length rest).
Proof.
  induction fuel as [|fuel (IHf & IHp & IHq)]; [repeat split; lia|].
  split; [|split].
  - intros line rest acc Hf. cbn [parse_fields].
    assert (length (trim_left line) <= length line) as Hl.
    { destruct (trim_left_spec line) as (a & _ & E & _). rewrite E at 2. rewrite app_length. lia. }
    destruct (trim_left line) as [|q l] eqn:E.
    + apply IHp. cbn in *. lia.
    + destruct (Ascii.eqb q dquote).
      * apply IHq. cbn in Hl. lia.
      * apply IHp. lia.
  - intros line rest acc Hf. cbn [parse_plain].
    destruct (cut comma line) as [[x y]|] eqn:E.
    + apply cut_Some in E as [-> _]. rewrite app_length in Hf. cbn in Hf.
      destruct (cut dquote x); [split; [done|intros; discriminate]|]. apply IHf. lia.
    + destruct (cut dquote (chop_nl line)); [split; [done|intros; discriminate]|].
      split; [done|]. intros row r [= _ <-]. done.
  - intros line rest buf acc Hf. cbn [parse_quoted].
    destruct (cut dquote line) as [[x y]|] eqn:E.
    + apply cut_Some in E as [-> _]. rewrite app_length in Hf. cbn in Hf.
      destruct y as [|c y]; [split; [done|intros row r [= _ <-]; done]|]. cbn in Hf.
      destruct (Ascii.eqb c dquote); [apply IHq; lia|].
      destruct (Ascii.eqb c comma); [apply IHf; lia|].
      destruct (length_nl (c :: y) =? length (c :: y)).
      * split; [done|intros row r [= _ <-]; done].
      * split; [done|intros; discriminate].
    + destruct line as [|c line]; [split; [done|intros; discriminate]|]. cbn in Hf.
      destruct (read_line rest) as [[l2 r2]|] eqn:Er.
      * apply read_line_length in Er as [H1 H2].
        destruct (IHq l2 r2 (buf ++ c :: line) acc) as [A B]; [lia|]. split; [done|].
        intros row r H. apply B in H. lia.
      * destruct (IHq [] [] (buf ++ c :: line) acc) as [A B]; [cbn; lia|]. split; [done|].
        intros row r H. apply B in H. cbn in H. lia.
Qed.
Lemma read_record_total s :
  read_record s <> Some Panic /\
  forall row rest, read_record s = Some (Ok (row, rest)) -> length rest < length s.
Proof.
  unfold read_record. pose proof (skip_lines_spec (S (length s)) s ltac:(lia)) as H.
  destruct (skip_lines (S (length s)) s) as [[line rest]|]; [|done].
  destruct H as (c & eol & _ & _ & _ & _ & _ & _ & Hr & _).
  destruct (parse_total (rec_fuel line rest)) as (Hp & _ & _).
  destruct (Hp line rest []) as [A B]; [unfold rec_fuel; lia|]. split; [congruence|].
  intros row r [= E]. apply B in E. lia.
Qed.

(** ** Rows *)
Lemma select_events_snoc name es f : select_events name (es ++ [f]) = Some (Forbidden name es f).
Proof.
  unfold select_events. rewrite app_length. cbn [length]. rewrite Nat.add_sub.
  rewrite lookup_app_r, Nat.sub_diag by done. cbn. by rewrite take_app.
Qed.
Lemma parse_cells_spec cells es :
  parse_cells cells = Ok es <-> Forall2 (fun c e => event_unmarshal zero_event c = Ok e) cells es.
Proof.
  revert es. induction cells as [|c cells IH]; intros es; cbn.
  - split; [intros [= <-]; constructor|]. intros H. by inversion H.
  - destruct (event_unmarshal zero_event c) as [e|x|] eqn:E.
    + destruct (parse_cells cells) as [es'|x|] eqn:E'.
      * split.
        -- intros [= <-]. constructor; [done|]. by apply IH.
        -- intros H. inversion H as [|? e' ? es'' H1 H2]; subst. apply IH in H2. congruence.
      * split; [done|]. intros H. inversion H as [|? e' ? es'' H1 H2]; subst. apply IH in H2. congruence.
      * split; [done|]. intros H. inversion H as [|? e' ? es'' H1 H2]; subst. apply IH in H2. congruence.
    + split; [done|]. intros H. inversion H; subst. congruence.
    + split; [done|]. intros H. inversion H; subst. congruence.
Qed.
Lemma parse_cells_no_panic cells : parse_cells cells <> Panic.
Proof.
  induction cells as [|c cells IH]; cbn; [done|].
  destruct (event_unmarshal zero_event c) eqn:E; [|done|by apply event_unmarshal_no_panic in E].
  by destruct (parse_cells cells).
Qed.
Lemma try_parse_name_spec cell name body :
  try_parse_name cell = (name, body) <-> cell_name cell name body.
Proof.
  unfold try_parse_name. split.
  - destruct (cut ":" cell) as [[a b]|] eqn:E.
    + apply cut_Some in E as [-> Ha]. intros [= <- <-]. constructor; [done| |]; by apply trimmed_iff.
    + apply cut_None in E. intros [= <- <-]. by constructor.
  - intros H. destruct H as [cell H|a b name body H1 H2 H3].
    + by rewrite (proj2 (cut_None _ _) H).
    + rewrite cut_app by done. apply trimmed_iff in H2 as <-. apply trimmed_iff in H3 as <-. done.
Qed.
Lemma parse_row_no_panic row : parse_row row <> Panic.
Proof.
  unfold parse_row. destruct row as [|cell cells]; [done|].
  destruct (try_parse_name cell) as [name body].
  destruct (parse_cells (body :: cells)) as [es|e|] eqn:E; [|done|by apply parse_cells_no_panic in E].
  apply parse_cells_spec in E. destruct (exists_last (l:=es)) as (es' & f & ->).
  { intros ->. inversion E. }
  by rewrite select_events_snoc.
Qed.
Lemma parse_row_spec row t :
  parse_row row = Ok t <->
  exists cell cells body, row = cell :: cells /\ cell_name cell (f_name t) body /\
    Forall2 (fun c e => event_unmarshal zero_event c = Ok e) (body :: cells) (f_prefix t ++ [f_forbid t]).
Proof.
  unfold parse_row. destruct row as [|cell cells].
  { split; [done|]. intros (? & ? & ? & ? & _). done. }
  destruct (try_parse_name cell) as [name body] eqn:En.
  destruct (parse_cells (body :: cells)) as [es|e|] eqn:E.
  - apply parse_cells_spec in E. destruct (exists_last (l:=es)) as (es' & f & ->).
    { intros ->. inversion E. }
    rewrite select_events_snoc. split.
    + intros [= <-]. exists cell, cells, body. split; [done|]. split; [by apply try_parse_name_spec|done].
    + intros (cell' & cells' & body' & [= <- <-] & Hn & Hf). apply try_parse_name_spec in Hn.
      rewrite En in Hn. injection Hn as -> <-. apply parse_cells_spec in Hf. apply parse_cells_spec in E.
      rewrite E in Hf. injection Hf as Hf. apply app_inj_tail in Hf as [-> ->]. by destruct t.
  - split; [done|]. intros (cell' & cells' & body' & [= <- <-] & Hn & Hf). apply try_parse_name_spec in Hn.
    rewrite En in Hn. injection Hn as -> <-. apply parse_cells_spec in Hf. congruence.
  - by apply parse_cells_no_panic in E.
Qed.

(** ** Whole files *)
Lemma csv_file_exists s : exists l, csv_file s l.
Proof.
  remember (length s) as n eqn:Hn. revert s Hn. induction n as [n IH] using lt_wf_ind. intros s Hn.
  destruct (read_record_total s) as [Hp Hl].
  destruct (read_record s) as [[[row rest]|e|]|] eqn:E.
  - destruct (IH (length rest)) with (s := rest) as [l H]; [|done|].
    + specialize (Hl _ _ eq_refl). lia.
    + exists (Ok row :: l). by econstructor.
  - exists [Err e]. by constructor.
  - done.
  - exists []. by constructor.
Qed.
Lemma csv_file_unique s l l' : csv_file s l -> csv_file s l' -> l = l'.
Proof.
  intros H. revert l'. induction H; intros l' H'; inversion H'; subst; try congruence.
  assert (rest0 = rest) as -> by congruence. f_equal; [congruence|by apply IHcsv_file].
Qed.

Fixpoint run_records (l : list (res csv_err (list gostr))) : res read_err (list forbidden) :=
  match l with
  | [] => Ok []
  | r :: rest => match record_trace r with
                 | Ok t => match run_records rest with Ok ts => Ok (t :: ts) | Err e => Err e | Panic => Panic end
                 | Err e => Err e
                 | Panic => Panic
                 end
  end.
Lemma read_loop_spec s l : csv_file s l -> forall fuel acc, length s < fuel ->
  read_loop fuel s acc = match run_records l with Ok ts => Ok (acc ++ ts) | Err e => Err e | Panic => Panic end.
Proof.
  induction 1 as [s H|s row rest l H Hf IH|s e H]; intros fuel acc Hfu;
    (destruct fuel as [|fuel]; [lia|]); cbn [read_loop]; rewrite H; cbn [run_records record_trace].
  - by rewrite app_nil_r.
  - destruct (read_record_total s) as [_ Hl]. specialize (Hl _ _ H).
    destruct (parse_row row) as [t|e|]; [|done|done]. rewrite IH by lia.
    destruct (run_records l); [|done|done]. by rewrite <- (assoc_L (++)).
  - done.
Qed.
Lemma read_traces_run s l : csv_file s l -> read_traces s = run_records l.
Proof.
  intros H. unfold read_traces. rewrite (read_loop_spec s l H) by lia. by destruct (run_records l).
Qed.
Lemma record_trace_no_panic s l r : csv_file s l -> r ∈ l -> record_trace r <> Panic.
Proof.
  induction 1 as [s H|s row rest l H Hf IH|s e H]; intros Hr.
  - by apply elem_of_nil in Hr.
  - apply elem_of_cons in Hr as [->|Hr]; [apply parse_row_no_panic|by apply IH].
  - apply elem_of_list_singleton in Hr as ->. done.
Qed.
Lemma run_records_ok l ts : run_records l = Ok ts <-> Forall2 (fun r t => record_trace r = Ok t) l ts.
Proof.
  revert ts. induction l as [|r l IH]; intros ts; cbn.
  - split; [intros [= <-]; constructor|]. intros H. by inversion H.
  - destruct (record_trace r) as [t|e|] eqn:E.
    + destruct (run_records l) as [ts'|e|] eqn:E'.
      * split.
        -- intros [= <-]. constructor; [done|]. by apply IH.
        -- intros H. inversion H as [|? t' ? ts'' H1 H2]; subst. apply IH in H2. congruence.
      * split; [done|]. intros H. inversion H as [|? t' ? ts'' H1 H2]; subst. apply IH in H2. congruence.
      * split; [done|]. intros H. inversion H as [|? t' ? ts'' H1 H2]; subst. apply IH in H2. congruence.
    + split; [done|]. intros H. inversion H; subst. congruence.
    + split; [done|]. intros H. inversion H; subst. congruence.
Qed.
Lemma run_records_err l e : run_records l = Err e <->
  exists l1 r l2, l = l1 ++ r :: l2 /\ Forall (fun r => is_ok (record_trace r)) l1 /\ record_trace r = Err e.
Proof.
  induction l as [|r l IH]; cbn.
  - split; [done|]. intros (l1 & r & l2 & H & _). by destruct l1.
  - destruct (record_trace r) as [t|e'|] eqn:E.
    + assert ((match run_records l with Ok ts => Ok (t :: ts) | Err e => Err e | Panic => Panic end) = Err e
              <-> run_records l = Err e) as -> by (destruct (run_records l); naive_solver).
      rewrite IH. split.
      * intros (l1 & r' & l2 & -> & H1 & H2). exists (r :: l1), r', l2. split; [done|]. split; [|done].
        constructor; [by exists t|done].
      * intros (l1 & r' & l2 & H & H1 & H2). destruct l1 as [|x l1]; cbn in H; simplify_eq; [congruence|].
        apply Forall_cons in H1 as [_ H1]. by exists l1, r', l2.
    + split.
      * intros [= ->]. exists [], r, l. done.
      * intros (l1 & r' & l2 & H & H1 & H2). destruct l1 as [|x l1]; cbn in H; simplify_eq; [congruence|].
        apply Forall_cons in H1 as [[t Ht] _]. congruence.
    + split; [done|]. intros (l1 & r' & l2 & H & H1 & H2). destruct l1 as [|x l1]; cbn in H; simplify_eq; [congruence|].
      apply Forall_cons in H1 as [[t Ht] _]. congruence.
Qed.
Lemma read_traces_no_panic s : read_traces s <> Panic.
Proof.
  destruct (csv_file_exists s) as [l H]. rewrite (read_traces_run s l H).
  assert (Hnp : forall r, r ∈ l -> record_trace r <> Panic) by (intros r; by apply (record_trace_no_panic s)).
  clear H. induction l as [|r l IH]; cbn; [done|].
  destruct (record_trace r) eqn:E; [|done|exfalso; eapply Hnp; [left|exact E]].
  specialize (IH ltac:(intros; apply Hnp; by right)). by destruct (run_records l).
Qed.

(** ** Plain files *)
Lemma plain_file s l : dquote ∉ s -> csv_file s l -> l = map Ok (plain_rows s).
Proof.
  intros Hq H. revert Hq. induction H as [s H|s row rest l H Hf IH|s e H]; intros Hq; unfold read_record in H;
    pose proof (skip_lines_spec (S (length s)) s ltac:(lia)) as Hs; unfold plain_rows in *;
    (destruct (skip_lines (S (length s)) s) as [[line rest']|]; [|try done]).
  - done.
  - by rewrite Hs.
  - destruct Hs as (c & eol & -> & He & Hnl & Hk & Hfl & _ & _ & Hin).
    rewrite parse_fields_plain in H; [|done| |done|unfold rec_fuel; lia].
    2:{ intros Hd. apply Hq, Hin. by left. }
    injection H as <- <-. rewrite Hfl. cbn [map]. f_equal. apply IH.
    intros Hd. apply Hq, Hin. by right.
  - destruct Hs as (c & eol & -> & He & Hnl & Hk & Hfl & _ & _ & Hin).
    rewrite parse_fields_plain in H; [done|done| |done|unfold rec_fuel; lia].
    intros Hd. apply Hq, Hin. by left.
Qed.
Lemma run_records_map rows : run_records (map Ok rows) = parse_rows rows.
Proof. induction rows as [|r rows IH]; [done|]. cbn. by rewrite IH. Qed.
Lemma read_plain s : dquote ∉ s -> read_traces s = parse_rows (plain_rows s).
Proof.
  intros Hq. destruct (csv_file_exists s) as [l H]. rewrite (read_traces_run s l H).
  rewrite (plain_file s l Hq H). apply run_records_map.
Qed.

(** Comments and blank lines. *)
Definition ignorable (l : gostr) : Prop := l = [] \/ l = [cr] \/ exists x, l = hash :: x.
Lemma ignorable_not_kept l : ignorable l -> ~ kept_line (drop_last_if cr l).
Proof.
  intros [->|[->|[x ->]]]; [cbn; tauto|cbn; tauto|].
  unfold drop_last_if. destruct (rev (hash :: x)) as [|y r] eqn:E; [cbn; tauto|].
  destruct (Ascii.eqb y cr) eqn:Ey; [|cbn; tauto].
  assert (hash :: x = rev r ++ [y]) as Hr by (rewrite <- (rev_involutive (hash :: x)), E; done).
  destruct (rev r) as [|z r']; [cbn; tauto|]. injection Hr as <- _. cbn. tauto.
Qed.
Lemma plain_rows_app a b : (a = [] \/ exists a', a = a' ++ [nl]) ->
  filter kept_line (file_lines (a ++ b)) = filter kept_line (file_lines a) ++ filter kept_line (file_lines b).
Proof.
  intros [->|[a' ->]]; [done|]. rewrite <- (assoc_L (++)). cbn [app]. unfold file_lines.
  rewrite !split_all_app, !map_app, !filter_app. f_equal. cbn. by rewrite app_nil_r.
Qed.
Lemma ignorable_lines a l b :
  (a = [] \/ exists a', a = a' ++ [nl]) -> ignorable l -> nl ∉ l ->
  plain_rows (a ++ l ++ nl :: b) = plain_rows (a ++ b).
Proof.
  intros Ha Hl Hnl. unfold plain_rows. f_equal.
  rewrite (plain_rows_app a b), (plain_rows_app a (l ++ nl :: b)) by done. f_equal.
  unfold file_lines. rewrite split_all_app, map_app, filter_app. rewrite split_all_free by done.
  cbn [map]. rewrite filter_cons, decide_False by (by apply ignorable_not_kept). done.
Qed.
Lemma ignorable_last a l :
  (a = [] \/ exists a', a = a' ++ [nl]) -> ignorable l -> nl ∉ l ->
  plain_rows (a ++ l) = plain_rows a.
Proof.
  intros Ha Hl Hnl. unfold plain_rows. f_equal. rewrite plain_rows_app by done.
  unfold file_lines at 2. rewrite split_all_free by done. cbn [map].
  rewrite filter_cons, decide_False by (by apply ignorable_not_kept). by rewrite app_nil_r.
Qed.
Lemma parse_rows_app_bad r1 r r2 : ~ is_ok (parse_row r) -> ~ is_ok (parse_rows (r1 ++ r :: r2)).
Proof.
  intros Hr. induction r1 as [|x r1 IH]; cbn; intros [ts H].
  - destruct (parse_row r) as [t| |]; [|done|done]. apply Hr. by exists t.
  - destruct (parse_row x) as [t| |]; [|done|done].
    destruct (parse_rows (r1 ++ r :: r2)) as [ts'| |]; [|done|done]. apply IH. by exists ts'.
Qed.
Lemma blank_row_bad : ~ is_ok (parse_row [[]]).
Proof. intros [t H]. vm_compute in H. discriminate. Qed.
Lemma trim_left_spaces n : trim_left (replicate n " "%char) = [].
Proof.
  rewrite <- (app_nil_r (replicate n _)). apply trim_left_app; [|apply not_starts_space_nil].
  exists (replicate n [" "%char]). split.
  - apply Forall_replicate. unfold space_seqs. do 5 right. left.
  - induction n as [|n IH]; [done|]. cbn. by rewrite <- IH.
Qed.
Lemma spaces_line a n b : dquote ∉ a -> dquote ∉ b ->
  (a = [] \/ exists a', a = a' ++ [nl]) ->
  ~ is_ok (read_traces (a ++ replicate (S n) " "%char ++ nl :: b)).
Proof.
  intros Hqa Hqb Ha.
  assert (Hsp : forall c, c ∈ replicate (S n) " "%char -> c = " "%char).
  { intros c Hc. by apply elem_of_replicate in Hc as [? _]. }
  rewrite read_plain.
  2:{ rewrite !elem_of_app, elem_of_cons. intros [H|[H|[H|H]]]; try done. by apply Hsp in H. }
  unfold plain_rows. rewrite plain_rows_app by done.
  assert (Hfl : file_lines (replicate (S n) " "%char ++ nl :: b) = replicate (S n) " "%char :: file_lines b).
  { unfold file_lines. rewrite split_all_app, map_app.
    rewrite split_all_free by (intros H; by apply Hsp in H). cbn [map].
    by rewrite drop_last_if_free by (intros H; by apply Hsp in H). }
  rewrite Hfl.
  rewrite filter_cons, decide_True by done.
  rewrite map_app, map_cons.
  rewrite split_all_free by (intros H; by apply Hsp in H).
  change (map trim_left [replicate (S n) " "%char]) with [trim_left (replicate (S n) " "%char)].
  rewrite trim_left_spaces. apply parse_rows_app_bad. apply blank_row_bad.
Qed.

(** ** Writing and reading back *)
Lemma event_text_ends e : writable_event e -> no_outer_space (event_marshal e) /\ event_marshal e <> [].
Proof.
  intros (Hk & (Hne & _ & Hs & _) & Hv & _). rewrite event_marshal_ne by done. split; [split|].
  - by apply not_starts_space_plain.
  - destruct (e_value e) as [v|].
    + rewrite app_comm_cons, (assoc_L (++)). apply not_ends_space_plain; [done|].
      destruct v as [z|s]; cbn in *; [|by destruct Hv as [[_ ?] _]].
      pose proof (trim_space_plain _ (format_int_plain z)) as H. by apply trim_space_fix in H as [_ ?].
    + rewrite app_nil_r. apply not_ends_space_plain; [done|].
      pose proof (trim_space_plain _ (kind_string_plain _ Hk)) as H. by apply trim_space_fix in H as [_ ?].
  - by destruct (ch_name (e_chan e)).
Qed.
Lemma trace_events_cons t : exists e es, trace_events t = e :: es.
Proof. unfold trace_events. destruct (f_prefix t); cbn; eauto. Qed.
Definition cell_prefix (t : forbidden) : gostr := if decide (f_name t = []) then [] else f_name t ++ [":"%char].
Lemma writable_cells t : writable t -> exists e es,
  trace_events t = e :: es /\
  trace_cells t = (cell_prefix t ++ event_marshal e) :: map event_marshal es /\
  Forall cell_safe (trace_cells t) /\ map trim_left (trace_cells t) = trace_cells t /\
  not_comment (cell_prefix t ++ event_marshal e) /\ cell_prefix t ++ event_marshal e <> [] /\
  cell_name (cell_prefix t ++ event_marshal e) (f_name t) (event_marshal e).
Proof.
  intros (Hev & Hns & Hnsp & Hnc & Hnh & Hun).
  destruct (trace_events_cons t) as (e & es & He). exists e, es. split; [done|].
  unfold trace_cells. rewrite He. cbn [map]. fold (cell_prefix t). split; [done|].
  rewrite He in Hev. apply Forall_cons in Hev as [Hwe Hwes].
  destruct (event_text_ends e Hwe) as [[Hss Hes] Hne].
  assert (Hsafe_e : cell_safe (event_marshal e)) by (by destruct Hwe as (_ & _ & _ & ?)).
  split; [|split; [|split; [|split]]].
  - constructor.
    + unfold cell_prefix. destruct (decide (f_name t = [])); [done|].
      unfold cell_safe in *. rewrite !elem_of_app, !elem_of_list_singleton.
      destruct Hns as (? & ? & ?), Hsafe_e as (? & ? & ?).
      repeat split; intros [[?|?]|?]; done.
    + apply Forall_fmap. eapply Forall_impl; [exact Hwes|]. intros x (_ & _ & _ & ?). done.
  - cbn [map]. f_equal.
    + apply trim_left_id. unfold cell_prefix. destruct (decide (f_name t = [])); [done|].
      rewrite <- (assoc_L (++)). apply not_starts_space_plain; [done|]. by destruct Hnsp.
    + clear He. induction Hwes as [|x es Hx Hes' IH]; [done|]. cbn. f_equal; [|done].
      apply trim_left_id. by destruct (event_text_ends x Hx) as [[? _] _].
  - unfold cell_prefix. destruct (decide (f_name t = [])) as [Hn|Hn].
    + apply (Hun Hn e). by rewrite He.
    + destruct (f_name t) as [|c n]; [done|]. exact Hnh.
  - unfold cell_prefix. destruct (decide (f_name t = [])); [done|]. by destruct (f_name t).
  - unfold cell_prefix. destruct (decide (f_name t = [])) as [Hn|Hn].
    + rewrite Hn. constructor. apply (Hun Hn e). by rewrite He.
    + rewrite <- (assoc_L (++)). constructor; [done| |]; apply trimmed_iff, no_outer_space_iff; done.
Qed.
Lemma writable_line t : writable t ->
  nl ∉ trace_line t /\ dquote ∉ trace_line t /\ kept_line (trace_line t) /\
  drop_last_if cr (trace_line t) = trace_line t /\ split_all comma (trace_line t) = trace_cells t.
Proof.
  intros Hw. destruct (writable_cells t Hw) as (e & es & He & Hc & Hsafe & _ & Hnc & Hne & _).
  assert (Hjoin : forall x l, x <> comma -> Forall (fun s => x ∉ s) l -> x ∉ join [comma] l).
  { intros x l Hx Hl. induction Hl as [|s l Hs Hl IH]; [apply not_elem_of_nil|].
    destruct l as [|s' l]; [done|].
    change (join [comma] (s :: s' :: l)) with (s ++ comma :: join [comma] (s' :: l)).
    rewrite elem_of_app, elem_of_cons. intros [?|[?|?]]; done. }
  unfold trace_line. split; [|split; [|split; [|split]]].
  - apply Hjoin; [done|]. eapply Forall_impl; [exact Hsafe|]. by intros s (_ & _ & ?).
  - apply Hjoin; [done|]. eapply Forall_impl; [exact Hsafe|]. by intros s (_ & ? & _).
  - rewrite Hc. destruct (map event_marshal es) as [|c' cs]; cbn.
    + by destruct (cell_prefix t ++ event_marshal e).
    + by destruct (cell_prefix t ++ event_marshal e).
  - assert (Hlast : forall l, ~ ends_space (List.last l []) -> ~ ends_space (join [comma] l)).
    { induction l as [|s l IH]; [done|]. destruct l as [|s' l]; [done|]. intros H.
      change (join [comma] (s :: s' :: l)) with (s ++ comma :: join [comma] (s' :: l)).
      apply not_ends_space_plain; [done|]. by apply IH. }
    assert (~ ends_space (join [comma] (trace_cells t))) as Hes.
    { apply Hlast. rewrite Hc. destruct Hw as [Hev _]. rewrite He in Hev.
      destruct es as [|x es].
      - cbn. apply Forall_cons in Hev as [Hwe _]. destruct (event_text_ends e Hwe) as [[_ ?] Hne'].
        unfold cell_prefix. destruct (decide _); [done|]. rewrite <- (assoc_L (++)).
        by apply not_ends_space_plain.
      - apply Forall_cons in Hev as [_ Hev].
        assert (Hl : forall l c, l <> [] -> Forall writable_event l ->
                  ~ ends_space (List.last (c :: map event_marshal l) [])).
        { clear. induction l as [|y l IH]; intros c Hl Hf; [done|].
          apply Forall_cons in Hf as [Hy Hf]. destruct l as [|z l].
          - cbn. by destruct (event_text_ends y Hy) as [[_ ?] _].
          - exact (IH (event_marshal y) ltac:(done) Hf). }
        by apply (Hl (x :: es)). }
    unfold drop_last_if. destruct (rev (join [comma] (trace_cells t))) as [|y r] eqn:E; [done|].
    destruct (Ascii.eqb y cr) eqn:Ey; [|done]. apply aeqb_spec in Ey as ->. exfalso. apply Hes.
    assert (join [comma] (trace_cells t) = rev r ++ [cr]) as ->
      by (rewrite <- (rev_involutive (join _ _)), E; done).
    exists [cr]. split; [|by exists (rev r)]. unfold space_seqs. do 4 right. left.
  - apply split_all_join; [by rewrite Hc|]. eapply Forall_impl; [exact Hsafe|]. by intros s (? & _).
Qed.
Lemma plain_rows_text ts : Forall writable ts -> plain_rows (trace_text ts) = map trace_cells ts.
Proof.
  intros H. unfold plain_rows, trace_text. induction H as [|t ts Ht H IH]; [done|].
  destruct (writable_line t Ht) as (Hnl & Hq & Hk & Hd & Hs). cbn [map concat].
  rewrite <- (assoc_L (++)). cbn [app]. unfold file_lines. rewrite split_all_app, map_app, filter_app.
  rewrite split_all_free by done. cbn [map]. rewrite Hd. rewrite filter_cons, decide_True, filter_nil by done.
  cbn [app map]. rewrite Hs. f_equal.
  - by destruct (writable_cells t Ht) as (e & es & _ & _ & _ & ? & _).
  - exact IH.
Qed.
Lemma parse_rows_written ts : Forall writable ts -> parse_rows (map trace_cells ts) = Ok ts.
Proof.
  intros H. induction H as [|t ts Ht H IH]; [done|]. cbn.
  assert (parse_row (trace_cells t) = Ok t) as ->; [|by rewrite IH].
  destruct (writable_cells t Ht) as (e & es & He & Hc & _ & _ & _ & _ & Hn).
  apply parse_row_spec. rewrite Hc. eexists _, _, _. split; [done|]. split; [exact Hn|].
  fold (trace_events t). destruct Ht as [Hev _]. rewrite He in *.
  change (event_marshal e :: map event_marshal es) with (event_marshal <$> (e :: es)).
  apply Forall2_fmap_l. apply Forall_Forall2_diag. eapply Forall_impl; [exact Hev|].
  intros x (H1 & H2 & H3 & _). by apply event_roundtrip.
Qed.
Lemma read_written ts : Forall writable ts -> read_traces (trace_text ts) = Ok ts.
Proof.
  intros H. rewrite read_plain.
  - rewrite plain_rows_text by done. by apply parse_rows_written.
  - unfold trace_text. induction H as [|t ts Ht H IH]; cbn; [apply not_elem_of_nil|].
    destruct (writable_line t Ht) as (_ & Hq & _). rewrite !elem_of_app, elem_of_list_singleton.
    intros [[?|?]|?]; done.
Qed.
