(** * Lemmas about package.xml *)
From Verif Require Export Xml SpecXml TextProofs JsonProofs.
From Verif Require Export StmProofs.

(** ** Characters *)
Lemma rune_high s q r : rune_at s = Some (q, r) -> (exists c, q = [c] /\ (code c < 128)%N) \/ Forall (fun c => (128 <= code c)%N) q.
Proof.
  unfold rune_at. destruct s as [|c0 r0]; [done|]. destruct (code c0 <? 128)%N eqn:E0.
  { intros [= <- <-]. left. exists c0. split; [done|]. by apply N.ltb_lt. }
  apply N.ltb_ge in E0 as H0. destruct r0 as [|c1 r1]; [done|].
  assert (Hr : forall c lo hi, (128 <= lo)%N -> in_range lo hi c = true -> (128 <= code c)%N).
  { intros c lo hi Hlo H. unfold in_range in H. apply andb_prop in H as [H%N.leb_le _]. lia. }
  destruct (in_range 194 223 c0 && in_range 128 191 c1) eqn:E1.
  { apply andb_prop in E1 as [? ?]. intros [= <- <-]. right. constructor; [done|]. constructor; [by eapply (Hr c1 128%N 191%N)|constructor]. }
  destruct r1 as [|c2 r2]; [done|].
  destruct (_ && in_range 128 191 c2) eqn:E2.
  { apply andb_prop in E2 as [E2 ?]. intros [= <- <-]. right. constructor; [done|]. constructor; [|constructor; [by eapply (Hr c2 128%N 191%N)|constructor]].
    repeat (apply orb_prop in E2 as [E2|E2]); apply andb_prop in E2 as [_ E2]; (eapply Hr; [|exact E2]); done. }
  destruct r2 as [|c3 r3]; [done|].
  destruct (_ && in_range 128 191 c3) eqn:E3; [|done].
  apply andb_prop in E3 as [E3 ?]. apply andb_prop in E3 as [E3 ?]. intros [= <- <-]. right. constructor; [done|]. constructor; [|constructor; [by eapply (Hr c2 128%N 191%N)|constructor; [by eapply (Hr c3 128%N 191%N)|constructor]]].
  repeat (apply orb_prop in E3 as [E3|E3]); apply andb_prop in E3 as [_ E3]; (eapply Hr; [|exact E3]); done.
Qed.
Lemma ok_high q : ok_chunk (Good q) -> (exists c, q = [c] /\ (code c < 128)%N) \/ Forall (fun c => (128 <= code c)%N) q.
Proof. intros H. apply (rune_high (q ++ []) q []). by apply rune_at_good. Qed.
Lemma chunks_ok s : Forall ok_chunk (chunks s).
Proof. apply chunk_loop_ok. Qed.
Lemma chunks_goods (qs : list gostr) : Forall (fun q => ok_chunk (Good q)) qs -> chunks (mjoin qs) = map Good qs.
Proof. intros H. unfold chunks. by apply chunk_loop_goods. Qed.

(** Text made of legal characters. *)
Definition legal (s : gostr) : Prop := exists qs : list gostr, Forall (fun q => ok_chunk (Good q) /\ legal_chunk (Good q) = true) qs /\ s = mjoin qs.
Lemma mjoin_app (a b : list gostr) : mjoin (a ++ b) = mjoin a ++ mjoin b.
Proof. induction a as [|x a IH]; [done|]. change (x ++ mjoin (a ++ b) = (x ++ mjoin a) ++ mjoin b). by rewrite IH, <- app_assoc. Qed.
Lemma legal_app a b : legal a -> legal b -> legal (a ++ b).
Proof. intros (qa & Ha & ->) (qb & Hb & ->). exists (qa ++ qb). split; [by apply Forall_app|]. symmetry. apply mjoin_app. Qed.
Lemma legal_nil : legal [].
Proof. by exists []. Qed.
Definition legal_ascii (c : ascii) : bool := (code c <? 128)%N && legal_chunk (Good [c]).
Lemma legal_lit (s : gostr) : forallb legal_ascii s = true -> legal s.
Proof.
  intros H. exists (map (fun c => [c]) s). split.
  - apply Forall_forall. intros q (c & -> & Hc)%elem_of_list_fmap. rewrite forallb_forall in H. apply elem_of_list_In, H in Hc. apply andb_prop in Hc as [H1 H2].
    split; [|done]. left. exists c. split; [done|]. by apply N.ltb_lt.
  - clear H. induction s as [|c s IH]; [done|]. cbn [map]. change (c :: s = [c] ++ mjoin (map (fun c => [c]) s)). by rewrite <- IH.
Qed.
Lemma legal_check s : legal s -> forallb legal_chunk (chunks s) = true.
Proof.
  intros (qs & H & ->). rewrite chunks_goods; [|eapply Forall_impl; [exact H|]; by intros q []].
  apply forallb_forall. intros u Hu%elem_of_list_In. apply elem_of_list_fmap in Hu as (q & -> & Hq). rewrite Forall_forall in H. by apply H.
Qed.
Lemma legal_replacement : legal replacement.
Proof.
  exists [replacement]. split; [|by rewrite <- (app_nil_r replacement) at 1]. constructor; [|constructor]. split; [|reflexivity]. right. exists (byte 239), (byte 191), [byte 189]. split; [done|]. split; [vm_compute; discriminate|]. reflexivity.
Qed.

(** ** References *)
Definition decode (s : gostr) : option gostr :=
  match split_all "&" s with [] => None | first :: rest => match after_amps rest with Some t => Some (first ++ t) | None => None end end.
Lemma split_cons_app (c : ascii) (a s : gostr) : c ∉ (a : list ascii) -> forall x xs, split_all c s = x :: xs -> split_all c (a ++ s) = (a ++ x) :: xs.
Proof.
  intros H. induction a as [|y a IH]; intros x xs E; [done|]. apply not_elem_of_cons in H as [Hy H]. cbn [app split_all].
  destruct (Ascii.eqb_spec y c) as [->|]; [done|]. by rewrite (IH H _ _ E).
Qed.
Lemma split_ne c s : exists x xs, split_all c s = x :: xs.
Proof.
  induction s as [|y s (x & xs & IH)]; cbn; [exists [], []; reflexivity|]. rewrite IH. destruct (Ascii.eqb y c); eexists _, _; reflexivity.
Qed.
Lemma decode_plain (a s t : gostr) : "&"%char ∉ (a : list ascii) -> decode s = Some t -> decode (a ++ s) = Some (a ++ t).
Proof.
  unfold decode. intros Ha. destruct (split_ne "&" s) as (x & xs & E). rewrite E, (split_cons_app "&" a s Ha _ _ E).
  destruct (after_amps xs) as [ts|]; [|done]. intros [= <-]. by rewrite <- app_assoc.
Qed.
Lemma decode_ref (r c s t : gostr) : "&"%char ∉ (r : list ascii) -> ";"%char ∉ (r : list ascii) -> reference r = Some c ->
  decode s = Some t -> decode ("&"%char :: r ++ ";"%char :: s) = Some (c ++ t).
Proof.
  unfold decode. intros Hr Hs Hc. destruct (split_ne "&" s) as (x & xs & E). rewrite E.
  assert (E2 : split_all "&" (r ++ ";"%char :: s) = ((r ++ [";"%char]) ++ x) :: xs).
  { change (r ++ ";"%char :: s) with (r ++ [";"%char] ++ s). rewrite app_assoc. apply split_cons_app; [|done]. apply not_in_app; [done|by apply lit_not_in]. }
  cbn [split_all]. rewrite Ascii.eqb_refl. rewrite E2. destruct (after_amps xs) as [ts|] eqn:Et; [|done].
  intros [= <-]. cbn [after_amps]. rewrite Et. unfold after_amp. rewrite <- app_assoc. cbn [app]. rewrite cut_app by done. cbn [mbind option_bind]. rewrite Hc. cbn.
  by rewrite <- !app_assoc.
Qed.

(** ** Escaping *)
Definition no_markup (s : gostr) : Prop := Forall (fun c => c ∉ ["<"%char; ">"%char; byte 34; byte 9; byte 10]) s.
Lemma high_not (c : ascii) (d : ascii) : (128 <= code c)%N -> (code d < 128)%N -> c <> d.
Proof. intros H1 H2 ->. lia. Qed.
Lemma no_markup_lit (s : gostr) : forallb (fun c => negb (bool_decide (c ∈ ["<"%char; ">"%char; byte 34; byte 9; byte 10]))) s = true -> no_markup s.
Proof. intros H. apply Forall_forall. intros c Hc%elem_of_list_In. rewrite forallb_forall in H. apply H in Hc. by apply negb_true_iff, bool_decide_eq_false in Hc. Qed.
Lemma bad_ascii c : (code c < 128)%N -> ([c] ∈ map encode_rune bad_points <-> (code c < 32)%N /\ c <> byte 9 /\ c <> byte 10 /\ c <> byte 13).
Proof.
  intros _. rewrite <- (bool_decide_spec ([c] ∈ map encode_rune bad_points)). rewrite <- (bool_decide_spec ((code c < 32)%N /\ c <> byte 9 /\ c <> byte 10 /\ c <> byte 13)).
  destruct c as [[] [] [] [] [] [] [] []]; vm_compute; done.
Qed.
Lemma xml_chunk_ok u : ok_chunk u -> legal (xml_chunk u) /\ no_markup (xml_chunk u) /\
  forall s t, decode s = Some t -> decode (xml_chunk u ++ s) = Some (clean_chunk u ++ t).
Proof.
  intros H. assert (Hrep : no_markup replacement) by (by apply no_markup_lit).
  assert (Hrepd : forall s t, decode s = Some t -> decode (replacement ++ s) = Some (replacement ++ t)).
  { intros s t Hd. apply decode_plain; [by apply lit_not_in|done]. }
  destruct u as [q|c]; [|split_and!; [apply legal_replacement|done|exact Hrepd]].
  destruct (ok_high q H) as [(c & -> & Hc)|Hh].
  - cbn [xml_chunk clean_chunk]. unfold xml_ascii.
    assert (Hlit : forall c r, (code c < 128)%N -> [c] ∉ map encode_rune bad_points -> forallb legal_ascii ("&"%char :: r ++ lit ";") = true -> 
              "&"%char ∉ (r : list ascii) -> ";"%char ∉ (r : list ascii) -> forallb (fun c => negb (bool_decide (c ∈ ["<"%char; ">"%char; byte 34; byte 9; byte 10]))) ("&"%char :: r ++ lit ";") = true -> reference r = Some [c] ->
              legal ("&"%char :: r ++ lit ";") /\ no_markup ("&"%char :: r ++ lit ";") /\
              forall s t, decode s = Some t -> decode (("&"%char :: r ++ lit ";") ++ s) = Some ((if decide ([c] ∈ map encode_rune bad_points) then replacement else [c]) ++ t)).
    { clear. intros c r Hc Hb H1 H2 H3 H4 H5. split_and!; [by apply legal_lit|by apply no_markup_lit|]. intros s t Hd. rewrite decide_False by done.
      change (("&"%char :: r ++ lit ";") ++ s) with ("&"%char :: (r ++ lit ";") ++ s). rewrite <- app_assoc. by apply decode_ref. }
    destruct (decide (c = byte 34)) as [->|N1]; [apply (Hlit _ (lit "#34")); first [by apply lit_not_in|reflexivity|(refine (bool_decide_eq_false_1 _ _); vm_compute; reflexivity)]|].
    destruct (decide (c = byte 39)) as [->|N2]; [apply (Hlit _ (lit "#39")); first [by apply lit_not_in|reflexivity|(refine (bool_decide_eq_false_1 _ _); vm_compute; reflexivity)]|].
    destruct (decide (c = "&"%char)) as [->|N3]; [apply (Hlit _ (lit "amp")); first [by apply lit_not_in|reflexivity|(refine (bool_decide_eq_false_1 _ _); vm_compute; reflexivity)]|].
    destruct (decide (c = "<"%char)) as [->|N4]; [apply (Hlit _ (lit "lt")); first [by apply lit_not_in|reflexivity|(refine (bool_decide_eq_false_1 _ _); vm_compute; reflexivity)]|].
    destruct (decide (c = ">"%char)) as [->|N5]; [apply (Hlit _ (lit "gt")); first [by apply lit_not_in|reflexivity|(refine (bool_decide_eq_false_1 _ _); vm_compute; reflexivity)]|].
    destruct (decide (c = byte 9)) as [->|N6]; [apply (Hlit _ (lit "#x9")); first [by apply lit_not_in|reflexivity|(refine (bool_decide_eq_false_1 _ _); vm_compute; reflexivity)]|].
    destruct (decide (c = byte 10)) as [->|N7]; [apply (Hlit _ (lit "#xA")); first [by apply lit_not_in|reflexivity|(refine (bool_decide_eq_false_1 _ _); vm_compute; reflexivity)]|].
    destruct (decide (c = byte 13)) as [->|N8]; [apply (Hlit _ (lit "#xD")); first [by apply lit_not_in|reflexivity|(refine (bool_decide_eq_false_1 _ _); vm_compute; reflexivity)]|].
    destruct (N.ltb_spec (code c) 32) as [Hlt|Hge].
    + rewrite decide_True by (by apply bad_ascii). split_and!; [apply legal_replacement|done|exact Hrepd].
    + rewrite decide_False by (rewrite bad_ascii by done; lia). split_and!.
      * apply legal_lit. cbn [forallb]. unfold legal_ascii. cbn [legal_chunk]. apply N.ltb_lt in Hc. rewrite Hc. apply N.leb_le in Hge. by rewrite Hge.
      * constructor; [|constructor]. rewrite !elem_of_cons, elem_of_nil. naive_solver.
      * intros s t Hd. apply decode_plain; [|done]. intros E%elem_of_list_singleton. congruence.
  - assert (Hlen : exists c0 c1 q', q = c0 :: c1 :: q').
    { destruct H as [(c & -> & Hc)|(c0 & c1 & q' & -> & _)]; [inversion Hh; lia|by eexists _, _, _]. }
    assert (Hx : xml_chunk (Good q) = if decide (q = [byte 239; byte 191; byte 190] \/ q = [byte 239; byte 191; byte 191]) then replacement else q) by (destruct Hlen as (c0 & c1 & q' & ->); reflexivity).
    assert (Hb : q ∈ map encode_rune bad_points <-> q = [byte 239; byte 191; byte 190] \/ q = [byte 239; byte 191; byte 191]).
    { change (map encode_rune bad_points) with (map encode_rune (take 29 bad_points) ++ [[byte 239; byte 191; byte 190]; [byte 239; byte 191; byte 191]]).
      rewrite elem_of_app, !elem_of_cons, elem_of_nil. split; [|tauto]. intros [Hin|?]; [|tauto]. exfalso.
      destruct Hlen as (c0 & c1 & q' & ->). apply elem_of_list_In, in_map_iff in Hin as (r & Hr & Hin).
      assert (Hl : (r < 128)%N). { assert (Hf : Forall (fun r => r < 128)%N (take 29 bad_points)) by (by repeat constructor). rewrite Forall_forall in Hf. apply Hf. by apply elem_of_list_In. }
      unfold encode_rune in Hr. apply N.ltb_lt in Hl. rewrite Hl in Hr. done. }
    rewrite Hx. cbn [clean_chunk]. destruct (decide (q = _ \/ q = _)) as [Hq|Hq].
    + rewrite decide_True by (by apply Hb). split_and!; [apply legal_replacement|done|exact Hrepd].
    + rewrite decide_False by (by rewrite Hb). split_and!.
      * exists [q]. split; [|by change (mjoin [q]) with (q ++ []); rewrite app_nil_r]. constructor; [|constructor]. split; [done|].
        destruct Hlen as (c0 & c1 & q' & ->). cbn [legal_chunk]. apply negb_true_iff, bool_decide_eq_false. exact Hq.
      * eapply Forall_impl; [exact Hh|]. intros c Hc. cbn beta in Hc. rewrite !elem_of_cons, elem_of_nil. intros Hin.
        assert (code c < 128)%N by (destruct Hin as [->|[->|[->|[->|[->|[]]]]]]; vm_compute; reflexivity). lia.
      * intros s t Hd. apply decode_plain; [|done]. intros Hin. rewrite Forall_forall in Hh. apply Hh in Hin. vm_compute in Hin. by apply Hin.
Qed.
Lemma xml_escape_ok s : legal (xml_escape s) /\ no_markup (xml_escape s) /\ xml_text (xml_escape s) = Some (xml_clean s).
Proof.
  assert (H : legal (xml_escape s) /\ no_markup (xml_escape s) /\ decode (xml_escape s) = Some (xml_clean s)).
  { unfold xml_escape, xml_clean. pose proof (chunks_ok s) as H. induction H as [|u us Hu _ IH]; [split_and!; [apply legal_nil|constructor|reflexivity]|].
    destruct IH as (I1 & I2 & I3). destruct (xml_chunk_ok u Hu) as (U1 & U2 & U3). cbn [map].
    change (mjoin (xml_chunk u :: map xml_chunk us)) with (xml_chunk u ++ mjoin (map xml_chunk us)).
    change (mjoin (clean_chunk u :: map clean_chunk us)) with (clean_chunk u ++ mjoin (map clean_chunk us)).
    split_and!; [by apply legal_app|by apply Forall_app|by apply U3]. }
  destruct H as (H1 & H2 & H3). split_and!; [done|done|]. unfold xml_text. rewrite legal_check by done. exact H3.
Qed.
Lemma no_markup_in s c : no_markup s -> c ∈ ["<"%char; ">"%char; byte 34; byte 9; byte 10] -> c ∉ (s : list ascii).
Proof. intros H Hc Hin. unfold no_markup in H. rewrite Forall_forall in H. by apply H in Hin. Qed.
Lemma xml_text_plain s : legal s -> "&"%char ∉ (s : list ascii) -> xml_text s = Some s.
Proof. intros Hl H. unfold xml_text. rewrite legal_check by done. rewrite split_single by done. cbn [after_amps]. by rewrite app_nil_r. Qed.
