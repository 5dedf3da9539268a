(** * Properties C38 (variants), C53-C57: configuration and command lines *)
From Verif Require Export SpecGen.
From Verif Require PathProofs.
From Verif Require Export StmProofs.

(** ** C38, continued: the C++ variants *)
Lemma variant_value_Some s v : variant_value s = Some v <-> valid_variant v /\ s = variant_string v.
Proof.
  unfold variant_value, valid_variant. destruct (decide (s = lit "animate")) as [->|E1].
  - split; [intros [= <-]; split; [by left|done]|]. intros [[->| ->] H]; done.
  - destruct (decide (s = lit "ros")) as [->|E2].
    + split; [intros [= <-]; split; [by right|done]|]. intros [[->| ->] H]; done.
    + split; [done|]. intros [[->| ->] H]; done.
Qed.
Lemma parse_variant_Some s v : parse_variant s = Some v <-> valid_variant v /\ to_lower s = variant_string v.
Proof.
  unfold parse_variant. destruct (variant_value s) as [w|] eqn:E; [|apply variant_value_Some].
  apply variant_value_Some in E as [Hv ->]. assert (Hl : to_lower (variant_string w) = variant_string w) by (by destruct Hv as [->| ->]).
  rewrite Hl. split; [intros [= ->]; done|]. intros [Hv' H]. destruct Hv as [->| ->], Hv' as [->| ->]; done.
Qed.
Theorem C38_variant_names :
  (forall s v, parse_variant s = Some v <-> valid_variant v /\ to_lower s = variant_string v) /\
  (forall s v, valid_variant v -> same_but_case s (variant_string v) -> parse_variant s = Some v) /\
  (forall v v', valid_variant v -> valid_variant v' -> variant_string v = variant_string v' -> v = v') /\
  (forall n, parse_variant (variant_string (VBad n)) = None) /\
  map variant_string [VAnimate; VRos] = [lit "animate"; lit "ros"].
Proof.
  split; [exact parse_variant_Some|]. split; [|split; [|split; [|done]]].
  - intros s v Hv Hs. apply parse_variant_Some. split; [done|]. rewrite (to_lower_same _ _ Hs); [by destruct Hv as [->| ->]|].
    destruct Hv as [->| ->]; repeat constructor.
  - intros v v' [->| ->] [->| ->]; done.
  - intros n. destruct (parse_variant (variant_string (VBad n))) as [k|] eqn:E; [|done]. apply parse_variant_Some in E as [Hv H]. exfalso.
    destruct (to_lower_head "V"%char (lit "ariant(" ++ format_N n ++ lit ")")) as [r Hr]; [done|].
    change (variant_string (VBad n)) with ("V"%char :: (lit "ariant(" ++ format_N n ++ lit ")")) in H.
    rewrite Hr in H. destruct Hv as [->| ->]; discriminate.
Qed.
Print Assumptions C38_variant_names.

(** ** C53: autofill only fills gaps *)
Theorem C53_autofill : forall p,
  let q := autofill p in
  pk_format q = 2%Z /\
  (forall get def, (get, def) ∈ [(pk_name, lit "${NAME}"); (pk_version, lit "0.1.0"); (pk_description, lit "Package for ${NAME}");
                                 (pk_maintainer, lit "${NAME} Maintainers"); (pk_email, lit "email@example.com"); (pk_license, lit "Proprietary")] ->
     (get p <> [] -> get q = get p) /\ (get p = [] -> get q = def)) /\
  pk_buildtool q = pk_buildtool p /\ pk_depends q = pk_depends p /\ autofill q = q.
Proof.
  intros p. cbn zeta. split; [done|]. split; [|split; [done|split; [done|]]].
  - intros get def H. repeat (apply elem_of_cons in H as [H|H]; [injection H as -> ->; unfold autofill, autofill_one; cbn; split; intros E; case_decide; done|]).
    by apply elem_of_nil in H.
  - unfold autofill, autofill_one. cbn. f_equal; repeat case_decide; done.
Qed.
Print Assumptions C53_autofill.
Example C53_witness : autofill (Package 1 [] (lit "2") [] (lit "me") [] [] [] [lit "d"]) =
  Package 2 (lit "${NAME}") (lit "2") (lit "Package for ${NAME}") (lit "me") (lit "email@example.com") (lit "Proprietary") [] [lit "d"].
Proof. reflexivity. Qed.

(** ** C54: expansion *)
Lemma join_cons_ne sep (a : gostr) l : l <> [] -> join sep (a :: l) = a ++ sep ++ join sep l.
Proof. by destruct l. Qed.
Lemma cut_exists s : forall fuel name, length s <= fuel ->
  exists l, cut_at_placeholders s l /\ replace_loop fuel placeholder name s = join name l.
Proof.
  intros fuel. revert s. induction fuel as [|fuel IH]; intros s name Hf.
  - destruct s; [|cbn in Hf; lia]. exists [[]]. split; [|done]. split; [done|]. split; [done|]. constructor; [|done]. intros (u & v & H). by destruct u.
  - destruct s as [|c r]; [exists [[]]; split; [|done]; split; [done|]; split; [done|]; constructor; [|done]; intros (u & v & H); by destruct u|].
    cbn [replace_loop]. destruct (strip_prefix placeholder (c :: r)) as [rest|] eqn:E.
    + apply strip_prefix_Some in E. destruct (IH rest name) as (l & (Hne & Hl & Hp) & Hr).
      { apply (f_equal length) in E. rewrite app_length in E. cbn in *. lia. }
      exists ([] :: l). split; [|by rewrite join_cons_ne, Hr]. split; [done|]. split; [by rewrite join_cons_ne, <- Hl|].
      constructor; [|done]. intros (u & v & H). by destruct u.
    + apply strip_prefix_None in E. destruct (IH r name) as (l & (Hne & Hl & Hp) & Hr); [cbn in Hf; lia|].
      destruct l as [|p l]; [done|]. exists ((c :: p) :: l). split; [|rewrite Hr; by destruct l].
      split; [done|]. split; [rewrite Hl at 1; by destruct l|]. apply Forall_cons in Hp as [Hp1 Hp2]. constructor; [|done].
      intros (u & v & H). destruct u as [|x u].
      * change (c :: p = placeholder ++ v) in H. apply E. assert (Hc : exists w, (c :: r) = (c :: p) ++ w) by (rewrite Hl; destruct l; [exists []; cbn; by rewrite app_nil_r|by eexists]).
        destruct Hc as [w Hw]. rewrite Hw, H. exists (v ++ w). by rewrite <- app_assoc.
      * injection H as -> H. apply Hp1. by exists u, v.
Qed.
Lemma dollar_once (i : nat) : (placeholder : list ascii) !! i = Some "$"%char -> i = 0.
Proof. intros H. do 7 (destruct i as [|i]; [by first [reflexivity|discriminate H]|]). done. Qed.
Lemma cut_replace l : forall fuel s name, length s <= fuel -> cut_at_placeholders s l -> replace_loop fuel placeholder name s = join name l.
Proof.
  (* skipping a piece *)
  assert (Hskip : forall p fuel name rest, length p + length rest <= fuel -> ~ occurs placeholder p ->
            (rest = [] \/ exists r, rest = placeholder ++ r) ->
            replace_loop fuel placeholder name (p ++ rest) = p ++ replace_loop (fuel - length p) placeholder name rest).
  { induction p as [|c p IH]; intros fuel name rest Hf Hp Hr; [cbn; by rewrite Nat.sub_0_r|].
    destruct fuel as [|fuel]; [cbn in Hf; lia|]. cbn [app replace_loop length Nat.sub]. 
    destruct (strip_prefix placeholder (c :: p ++ rest)) as [x|] eqn:E.
    - exfalso. apply strip_prefix_Some in E. destruct (decide (length placeholder <= length (c :: p))) as [Hl|Hl].
      + apply Hp. exists []. pose proof (f_equal (take (length (c :: p))) E) as E'. change (c :: p ++ rest) with ((c :: p) ++ rest) in E'.
        rewrite take_app in E'. rewrite take_app_ge in E' by done. eexists. exact E'.
      + destruct Hr as [->|[r ->]].
        * apply (f_equal length) in E. rewrite app_nil_r, app_length in E. cbn in *. lia.
        * assert (Hd : (placeholder : list ascii) !! length (c :: p) = Some "$"%char).
          { pose proof (f_equal (fun z : list ascii => z !! length (c :: p)) E) as E'. cbn beta in E'. change (c :: p ++ placeholder ++ r) with ((c :: p) ++ placeholder ++ r) in E'.
            rewrite lookup_app_r in E' by done. rewrite Nat.sub_diag in E'. rewrite (lookup_app_l placeholder x) in E' by lia. by rewrite <- E'. }
          apply dollar_once in Hd. done.
    - f_equal. apply IH; [cbn in Hf; lia| |done]. intros (u & v & ->). apply Hp. by exists (c :: u), v. }
  induction l as [|p l IH]; intros fuel s name Hf (Hne & -> & Hp); [done|]. inversion Hp as [|?? Hp1 Hp2]; subst.
  destruct l as [|q l].
  - cbn [join] in *. pose proof (Hskip p fuel name [] ltac:(cbn; lia) Hp1 ltac:(by left)) as H. rewrite app_nil_r in H. rewrite H. destruct (fuel - _); cbn; by rewrite app_nil_r.
  - rewrite join_cons_ne in Hf by done. rewrite (join_cons_ne placeholder p), (join_cons_ne name p) by done. rewrite !app_length in Hf. rewrite Hskip; [|rewrite app_length; lia|done|right; by eexists].
    f_equal. destruct (fuel - length p) as [|fuel'] eqn:Ef; [change (length placeholder) with 7 in Hf; lia|].
    assert (Hs : exists x y, placeholder ++ join placeholder (q :: l) = x :: y) by (by eexists _, _). destruct Hs as (x & y & Hs).
    cbn [replace_loop]. rewrite Hs. assert (E : strip_prefix placeholder (x :: y) = Some (join placeholder (q :: l))) by (by apply strip_prefix_Some).
    rewrite E. f_equal. apply IH; [change (length placeholder) with 7 in Hf; lia|]. split; [done|]. split; [done|done].
Qed.
Lemma expand_one_cut template name l : cut_at_placeholders template l -> expand_one template name = join name l.
Proof. intros H. unfold expand_one, replace_all. by apply cut_replace. Qed.
Lemma cut_total template : exists l, cut_at_placeholders template l.
Proof. destruct (cut_exists template (length template) [] ltac:(done)) as (l & H & _). by exists l. Qed.
(** Each text field is cut at the placeholders and put together again with the name; the rest
    of the package is untouched. *)
Theorem C54_expand : forall name p,
  let q := expand_package name p in
  (forall get, get ∈ [pk_name; pk_description; pk_maintainer; pk_email; pk_license] ->
     (exists l, cut_at_placeholders (get p) l) /\ (forall l, cut_at_placeholders (get p) l -> get q = join name l)) /\
  pk_format q = pk_format p /\ pk_version q = pk_version p /\ pk_buildtool q = pk_buildtool p /\ pk_depends q = pk_depends p.
Proof.
  intros name p. cbn zeta. split; [|done]. intros get H. split; [apply cut_total|]. intros l Hl.
  repeat (apply elem_of_cons in H as [->|H]; [by apply expand_one_cut|]). by apply elem_of_nil in H.
Qed.
Print Assumptions C54_expand.
(** No placeholder remains if the name has no $ and no } and is not itself part of the
    placeholder, ... *)
Lemma no_placeholder_join name l : "$"%char ∉ (name : list ascii) -> "}"%char ∉ (name : list ascii) -> ~ occurs name placeholder ->
  Forall (fun p => ~ occurs placeholder p) l -> l <> [] -> ~ occurs placeholder (join name l).
Proof.
  intros Hd Hb Hn Hl. induction Hl as [|p l Hp Hl IH]; [done|]. intros _. destruct l as [|q l]; [done|]. rewrite join_cons_ne by done.
  set (rest := join name (q :: l)) in *. specialize (IH ltac:(done)). intros (u & v & E).
  assert (Hlook : forall i, i < 7 -> (p ++ name ++ rest : list ascii) !! (length u + i) = (placeholder : list ascii) !! i).
  { intros i Hi. rewrite E. rewrite lookup_app_r by lia. replace (length u + i - length u) with i by lia. by rewrite lookup_app_l by (cbn; lia). }
  assert (Hname : forall i, length p <= length u + i -> length u + i < length p + length name -> i < 7 -> exists c, (placeholder : list ascii) !! i = Some c /\ c ∈ (name : list ascii)).
  { intros i H1 H2 H3. rewrite <- Hlook by done. rewrite lookup_app_r by done. rewrite lookup_app_l by lia.
    destruct (lookup_lt_is_Some_2 (name : list ascii) (length u + i - length p)) as [c Hc]; [lia|]. exists c. split; [done|]. by eapply elem_of_list_lookup_2. }
  destruct (decide (length u + 7 <= length p)) as [H1|H1].
  { apply Hp. exists u, (drop (length u + 7) p). pose proof (f_equal (take (length p)) E) as E'. rewrite take_app in E'.
    rewrite E' at 1. rewrite take_app_ge by lia. f_equal. rewrite take_app_ge by (cbn; lia). f_equal.
    pose proof (f_equal (drop (length u + 7)) E) as E2. rewrite drop_app_le in E2 by lia.
    assert (E3 : drop (length u + 7) (u ++ placeholder ++ v) = v).
    { rewrite drop_app_ge by lia. replace (length u + 7 - length u) with 7 by lia. done. }
    rewrite E3 in E2. rewrite <- E2. rewrite take_app_alt; [done|]. rewrite drop_length. cbn [length placeholder]. change (length placeholder) with 7. lia. }
  destruct (decide (length p + length name <= length u)) as [H2|H2].
  { apply IH. exists (drop (length p + length name) u), v. pose proof (f_equal (drop (length p + length name)) E) as E'.
    rewrite (drop_app_le u) in E' by done. rewrite <- E'. rewrite <- drop_drop, drop_app, drop_app. done. }
  destruct (decide (length p <= length u)) as [H3|H3].
  { destruct (Hname 0 ltac:(lia) ltac:(lia) ltac:(lia)) as (c & Hc & Hin). cbn in Hc. injection Hc as <-. done. }
  destruct (decide (length u + 6 < length p + length name)) as [H4|H4].
  { destruct (Hname 6 ltac:(lia) ltac:(lia) ltac:(lia)) as (c & Hc & Hin). cbn in Hc. injection Hc as <-. done. }
  apply Hn. exists (take (length p - length u) placeholder), (drop (length p - length u + length name) placeholder).
  apply (list_eq (A := ascii)). intros i. destruct (decide (i < length p - length u)) as [H5|H5].
  { rewrite lookup_app_l by (rewrite firstn_length; cbn [length placeholder]; change (length placeholder) with 7; lia). by rewrite lookup_take. }
  assert (Ht : length (take (length p - length u) placeholder) = length p - length u) by (rewrite firstn_length; change (length placeholder) with 7; lia).
  rewrite lookup_app_r by lia. rewrite Ht. destruct (decide (i < length p - length u + length name)) as [H6|H6].
  { rewrite lookup_app_l by lia. rewrite <- Hlook by lia. rewrite lookup_app_r by lia. rewrite lookup_app_l by lia. f_equal. lia. }
  rewrite lookup_app_r by lia. rewrite lookup_drop. f_equal. lia.
Qed.
Theorem C54_no_placeholder_left : forall name template,
  "$"%char ∉ (name : list ascii) -> "}"%char ∉ (name : list ascii) -> ~ occurs name (lit "{NAME") ->
  ~ occurs placeholder (expand_one template name).
Proof.
  intros name template Hd Hb Hn. destruct (cut_total template) as [l Hl]. rewrite (expand_one_cut _ _ _ Hl). destruct Hl as (Hne & _ & Hp).
  apply no_placeholder_join; try done. intros (u & v & E).
  assert (Hu : u <> [] \/ name = []). { destruct u; [|by left]. right. destruct name as [|c name]; [done|]. exfalso. injection E as <- E. apply Hd. left. }
  assert (Hv : v <> [] \/ name = []).
  { destruct v as [|x v _] using rev_ind; [|left; by destruct v]. right. destruct name as [|y name _] using rev_ind; [done|]. exfalso. apply Hb.
    rewrite app_nil_r, app_assoc in E. change placeholder with (lit "${NAME" ++ ["}"%char]) in E. apply app_inj_tail in E as [_ <-]. apply elem_of_app. right. left. }
  apply Hn. destruct (decide (name = [])) as [->|He]; [by exists [], (lit "{NAME")|].
  destruct Hu as [Hu|?]; [|done]. destruct Hv as [Hv|?]; [|done]. destruct u as [|a u]; [done|]. destruct v as [|b v _] using rev_ind; [done|].
  exists u, v. change placeholder with ("$"%char :: (lit "{NAME" ++ ["}"%char])) in E. injection E as _ E. rewrite !app_assoc in E.
  change (lit "{NAME" ++ ["}"%char] = ((u ++ name) ++ v) ++ [b]) in E. apply app_inj_tail in E as [E _]. rewrite E. by rewrite <- app_assoc.
Qed.
Print Assumptions C54_no_placeholder_left.
(** ... and only then: the name N can complete one, as can the empty name. *)
Theorem C54_placeholder_left_refuted :
  expand_one (lit "${${NAME}AME}") (lit "N") = placeholder /\ expand_one (lit "${N${NAME}AME}") [] = placeholder.
Proof. split; vm_compute; reflexivity. Qed.
Example C54_witness : cut_at_placeholders (lit "x${NAME}${NAME}$") [lit "x"; []; lit "$"] /\ ~ occurs (lit "test1") (lit "{NAME") /\
  expand_one (lit "x${NAME}${NAME}$") (lit "test1") = lit "xtest1test1$".
Proof.
  split; [split; [done|]; split; [done|]|split; [|done]].
  - assert (H : forall s, length s < 7 -> ~ occurs placeholder s).
    { intros s Hs (u & v & ->). rewrite !app_length in Hs. change (length placeholder) with 7 in Hs. lia. }
    repeat constructor; apply H; cbn; lia.
  - intros (u & v & E). apply (f_equal (fun l => bool_decide ("t"%char ∈ l))) in E. rewrite bool_decide_eq_false_2 in E.
    + symmetry in E. apply bool_decide_eq_false in E. apply E. apply elem_of_app. right. apply elem_of_app. left. left.
    + apply (bool_decide_eq_false_1 ("t"%char ∈ (lit "{NAME" : list ascii))). vm_compute. done.
Qed.

(** ** C55: channel type overrides *)
(** The type given by the last entry for a channel, if any. *)
Definition last_override (c : cpp_config) (name : gostr) : option gostr :=
  snd <$> last (filter (fun o => o.1 = name) (cc_channels c)).
Lemma channel_map_spec c name : channel_map c !! name = last_override c name.
Proof.
  unfold channel_map, last_override. induction (cc_channels c) as [|[n t] l IH] using rev_ind; [done|].
  rewrite fold_left_app, filter_app. cbn [fold_left]. destruct (decide (n = name)) as [->|Hn].
  - rewrite lookup_insert. rewrite filter_cons_True by done. cbn [filter list_filter]. by rewrite last_snoc.
  - rewrite lookup_insert_ne by done. rewrite filter_cons_False by done. by rewrite app_nil_r.
Qed.
Lemma process_in_spec c order : NoDup order.*1 -> 
  cx_includes (process_in c order) = cc_includes c /\
  (forall n, cx_types (process_in c order) !! n = (fun t => (t, default [] (last_override c n))) <$> ((list_to_map order : type_map) !! n)) /\
  (cx_conv (process_in c order) = true <-> exists n, n ∈ order.*1 /\ is_Some (last_override c n)).
Proof.
  intros Hnd. unfold process_in. induction order as [|[n t] order IH] using rev_ind.
  - cbn. split; [done|]. split; [intros n; by rewrite !lookup_empty|]. split; [done|]. intros (n & H & _). by apply elem_of_nil in H.
  - rewrite fmap_app in Hnd. apply NoDup_app in Hnd as (Hnd & Hdis & _). destruct (IH Hnd) as (H1 & H2 & H3). clear IH.
    rewrite fold_left_app. cbn [fold_left]. cbn [cx_includes cx_types cx_conv fst snd]. split; [done|]. split.
    + intros k. rewrite channel_map_spec. assert (Hn : (list_to_map order : type_map) !! n = None).
      { apply not_elem_of_list_to_map_1. intros Hin. apply (Hdis n Hin). cbn. left. }
      rewrite list_to_map_app. cbn [list_to_map foldr]. destruct (decide (n = k)) as [->|Hk].
      * rewrite lookup_insert. rewrite lookup_union_r by done. cbn. rewrite lookup_insert. done.
      * rewrite lookup_insert_ne by done. rewrite H2. f_equal. rewrite lookup_union. cbn. rewrite lookup_insert_ne by done. rewrite lookup_empty. by destruct (_ !! k).
    + rewrite orb_true_iff, H3, bool_decide_eq_true, channel_map_spec. rewrite fmap_app. split.
      * intros [(m & Hm & Ho)|Ho]; [exists m|exists n]; (split; [apply elem_of_app|done]); [by left|right; cbn; left].
      * intros (m & Hm & Ho). apply elem_of_app in Hm as [Hm|Hm]; [left; by exists m|right]. cbn in Hm. apply elem_of_list_singleton in Hm as ->. done.
Qed.
Theorem C55_process : forall c types order, order ≡ₚ map_to_list types ->
  process_in c order = process c types /\ cx_includes (process c types) = cc_includes c /\
  dom (cx_types (process c types)) = dom types /\
  (forall n t, types !! n = Some t -> cx_types (process c types) !! n = Some (t, default [] (last_override c n))) /\
  (cx_conv (process c types) = true <-> exists n, n ∈ dom types /\ is_Some (last_override c n)).
Proof.
  intros c types order Hp. assert (Hnd : NoDup order.*1) by (rewrite Hp; apply NoDup_fst_map_to_list).
  assert (Hmap : (list_to_map order : type_map) = types) by (rewrite <- (list_to_map_to_list types); by apply list_to_map_proper).
  assert (Hdom : forall n, n ∈ order.*1 <-> n ∈ dom types).
  { intros n. rewrite <- Hmap. rewrite elem_of_dom. split.
    - intros Hn. apply elem_of_list_fmap in Hn as ((m & t) & -> & Hin). exists t. by apply elem_of_list_to_map_1.
    - intros [t Ht]. apply elem_of_list_to_map_2 in Ht. apply elem_of_list_fmap. by exists (n, t). }
  destruct (process_in_spec c order Hnd) as (H1 & H2 & H3).
  destruct (process_in_spec c (map_to_list types) (NoDup_fst_map_to_list types)) as (J1 & J2 & J3).
  rewrite list_to_map_to_list in J2. rewrite Hmap in H2. change (process_in c (map_to_list types)) with (process c types) in *.
  split_and!.
  - destruct (process_in c order) as [a b d], (process c types) as [a' b' d']. cbn in *. subst a a'.
    assert (b = b') as -> by (apply map_eq; intros n; by rewrite H2, J2). f_equal. apply eq_true_iff_eq. rewrite H3, J3. by setoid_rewrite Hp.
  - done.
  - apply set_eq. intros n. rewrite !elem_of_dom, J2. destruct (types !! n); cbn; split; intros [? ?]; try done; by eexists.
  - intros n t Ht. by rewrite J2, Ht.
  - rewrite J3. by setoid_rewrite <- Hp; setoid_rewrite Hdom.
Qed.
Print Assumptions C55_process.
Definition two_overrides : cpp_config :=
  CppConfig VAnimate [] [(lit "c", lit "A"); (lit "x", lit "X"); (lit "c", lit "B")] false None.
Example C55_witness : last_override two_overrides (lit "c") = Some (lit "B") /\ last_override two_overrides (lit "d") = None /\ cx_conv (process two_overrides {[ lit "c" := ty_enum; lit "d" := ty_enum ]}) = true /\
  cx_conv (process two_overrides {[ lit "d" := ty_enum ]}) = false.
Proof. split_and!; vm_compute; reflexivity. Qed.
(** An override with an empty type counts as an override for the conversion code, but not as
    one where the code that would use it is generated. *)
Theorem C55_empty_override_refuted : exists c types,
  cx_conv (process c types) = true /\ forall n t, cx_types (process c types) !! n = Some t -> has_override t = false.
Proof.
  exists (CppConfig VAnimate [] [(lit "c", [])] false None), {[ lit "c" := ty_enum ]}. split; [vm_compute; reflexivity|].
  intros n t H. destruct (C55_process (CppConfig VAnimate [] [(lit "c", [])] false None) {[ lit "c" := ty_enum ]} _ (reflexivity _)) as (_ & _ & Hd & Hl & _).
  assert (Hn : n ∈ dom ({[ lit "c" := ty_enum ]} : type_map)) by (rewrite <- Hd; apply elem_of_dom; by eexists).
  apply elem_of_dom in Hn as [ty Hty]. pose proof (eq_trans (eq_sym H) (Hl n ty Hty)) as E. injection E as ->. apply lookup_singleton_Some in Hty as [<- _]. reflexivity.
Qed.

(** ** C57: command-line arguments *)
Theorem C57_gen_args : forall argv,
  parse_gen_args argv = match argv with
                        | [c] => GenArgs c (lit "-")
                        | [c; i] => GenArgs c i
                        | _ => GenBadArgs
                        end.
Proof. intros [|c [|i [|x l]]]; try reflexivity. unfold parse_gen_args, parse_file_argument. cbn [length]. rewrite !decide_False by lia. done. Qed.
Theorem C57_tool_args : forall prog args,
  parse_tool_args (prog :: args) = match args with [] => ArgOk (lit "-") | [f] => ArgOk f | _ => ErrBadArgs end.
Proof. intros prog [|f [|x l]]; try reflexivity. unfold parse_tool_args, parse_file_argument. cbn [length]. rewrite !decide_False by lia. done. Qed.
Theorem C57_file_argument : forall args max, 1 <= max ->
  parse_file_argument args max <> ArgPanic /\ (forall s, parse_file_argument args max = ArgOk s <->
     (length args = max /\ last args = Some s) \/ (length args + 1 = max /\ s = lit "-")).
Proof.
  intros args max Hm. unfold parse_file_argument. destruct (decide (length args = max)) as [E|E].
  - destruct max as [|i]; [lia|]. assert (Hll : args !! i = last args) by (rewrite last_lookup, E; done). rewrite Hll. destruct (last args) as [a|] eqn:El.
    + split; [done|]. intros s. split; [intros [= ->]; by left|]. intros [[_ H]|[H _]]; [by injection H as ->|lia].
    + apply last_None in El as ->. done.
  - destruct (decide _) as [E2|E2].
    + split; [done|]. intros s. split; [intros [= <-]; right; split; [lia|done]|]. intros [[H _]|[_ ->]]; [lia|done].
    + split; [done|]. intros s. split; [done|]. intros [[H _]|[H _]]; lia.
Qed.
