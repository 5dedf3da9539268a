(** * Build files: properties C71, C72 *)
From Verif Require Export TextProofs.
From Verif Require Import PropGen.
From Verif Require Export StmProofs.

(** ** C71: the Makefile *)

Lemma read_head (t p : gostr) : t <> [] -> head (t : list ascii) <> Some (byte 9) ->
  forallb make_char t = true -> forallb make_char p = true ->
  "="%char ∉ (t : list ascii) -> "="%char ∉ (p : list ascii) -> ":"%char ∉ (t : list ascii) ->
  read_make_line (t ++ ":"%char :: p) = Some (MkHead (words_of t) (words_of p)).
Proof.
  intros Hne Htab Ht Hp He1 He2 Hc. unfold read_make_line.
  destruct (t ++ ":"%char :: p) as [|c r] eqn:E; [by destruct t|].
  assert (c <> byte 9) by (destruct t as [|x t]; [done|]; injection E as <- _; intros ->; by apply Htab).
  rewrite decide_False by done. rewrite <- E. rewrite forallb_app. cbn [forallb]. rewrite Ht, Hp.
  change (negb (true && (make_char ":" && true))) with false. cbn match.
  rewrite cut_none by (apply not_in_app; [done|]; apply not_elem_of_cons; split; [done|done]).
  by rewrite cut_app.
Qed.
Lemma solid_app (a b : gostr) : solid a -> " "%char ∉ (b : list ascii) -> solid (a ++ b).
Proof. intros [Hn Hs] Hb. split; [by destruct a|by apply not_in_app]. Qed.
Lemma solid_plain t : plain_word t -> solid t.
Proof. intros H. split; [by destruct H|by apply plain_not_in]. Qed.
Lemma make_chars_app (a b : gostr) : forallb make_char a = true -> forallb make_char b = true -> forallb make_char (a ++ b) = true.
Proof. intros Ha Hb. by rewrite forallb_app, Ha, Hb. Qed.
Ltac nin := repeat first [apply not_in_app | by (apply plain_not_in; [assumption|reflexivity]) | by (apply lit_not_in; reflexivity)].

Lemma sources_words conv t : plain_word t -> words_of (" "%char :: mk_inputs t ++ mk_convert conv) = test_sources conv t.
Proof.
  intros Ht. rewrite words_skip. unfold mk_inputs, test_sources. rewrite <- !app_assoc.
  replace (lit "src/" ++ t ++ lit "/src/main.cpp src/rtcg/rtcg.cpp" ++ mk_convert conv)
    with ((lit "src/" ++ t ++ lit "/src/main.cpp") ++ " "%char :: lit "src/rtcg/rtcg.cpp" ++ mk_convert conv)
    by (rewrite <- !app_assoc; reflexivity).
  rewrite words_cons by (split; [done|nin]). cbn [app]. f_equal. by destruct conv.
Qed.
Lemma read_test_head conv t : plain_word t ->
  read_make_line (mk_output t ++ lit ": " ++ mk_inputs t ++ mk_convert conv) = Some (MkHead [test_target t] (test_sources conv t)).
Proof.
  intros Ht. change (lit ": " ++ mk_inputs t ++ mk_convert conv) with (":"%char :: " "%char :: mk_inputs t ++ mk_convert conv).
  assert (Hm : forallb make_char (mk_convert conv) = true) by (by destruct conv).
  assert (He : "="%char ∉ (mk_convert conv : list ascii)) by (destruct conv; nin).
  rewrite read_head.
  - f_equal. f_equal; [|by apply sources_words]. apply words_one. split; [done|]. unfold mk_output. nin.
  - done.
  - done.
  - unfold mk_output. apply make_chars_app; [reflexivity|by apply plain_make].
  - change (forallb make_char ([" "%char] ++ (lit "src/" ++ t ++ lit "/src/main.cpp src/rtcg/rtcg.cpp") ++ mk_convert conv) = true).
    repeat apply make_chars_app; try reflexivity; [by apply plain_make|done].
  - unfold mk_output. nin.
  - apply not_elem_of_cons. split; [done|]. unfold mk_inputs. nin. done.
  - unfold mk_output. nin.
Qed.
Lemma read_command_line (c : gostr) : read_make_line (tab ++ c) = Some (MkCommand c).
Proof. reflexivity. Qed.
Definition test_command (conv : bool) (k : gostr) : gostr :=
  lit "$(CXX) $(CXXFLAGS) -o $@ -Isrc/" ++ k ++ lit "/include -Isrc/rtcg" ++ mk_iconvert conv ++ lit " " ++ mk_inputs k ++ mk_convert conv.
Lemma test_command_compiles conv t : plain_word t -> compiles (test_command conv t) (test_includes conv t) (test_sources conv t).
Proof.
  intros Ht.
  exists ([lit "-Isrc/" ++ t ++ lit "/include"; lit "-Isrc/rtcg"] ++ (if conv then [lit "-Isrc/convert"] else []) ++ test_sources conv t).
  assert (Hs : forall o, head (lit "src/" ++ o : list ascii) <> Some "-"%char) by done.
  split_and!.
  - rewrite <- (sources_words conv t Ht). unfold test_command.
    replace (lit "$(CXX) $(CXXFLAGS) -o $@ -Isrc/" ++ t ++ lit "/include -Isrc/rtcg" ++ mk_iconvert conv ++ lit " " ++ mk_inputs t ++ mk_convert conv)
      with (lit "$(CXX)" ++ " "%char :: lit "$(CXXFLAGS)" ++ " "%char :: lit "-o" ++ " "%char :: lit "$@" ++ " "%char ::
            (lit "-Isrc/" ++ t ++ lit "/include") ++ " "%char :: lit "-Isrc/rtcg" ++ mk_iconvert conv ++ " "%char :: mk_inputs t ++ mk_convert conv)
      by (rewrite <- !app_assoc; reflexivity).
    do 4 (rewrite words_cons by (split; [done|nin])). rewrite words_cons by (split; [done|nin]).
    cbn [app]. do 5 f_equal. destruct conv; cbn [mk_iconvert].
    + change (lit "-Isrc/rtcg" ++ lit " -Isrc/convert" ++ " "%char :: mk_inputs t ++ mk_convert true)
        with (lit "-Isrc/rtcg" ++ " "%char :: lit "-Isrc/convert" ++ " "%char :: mk_inputs t ++ mk_convert true).
      do 2 (rewrite words_cons by (split; [done|nin])). by rewrite words_skip.
    + cbn [app]. rewrite words_cons by (split; [done|nin]). by rewrite words_skip.
  - unfold include_dirs, test_sources, test_includes. by destruct conv.
  - unfold test_sources. by destruct conv.
Qed.

Definition expected_rules (conv : bool) (names : list gostr) : list rule :=
  [Rule [lit ".POSIX"] [] []; Rule [lit ".PHONY"] [lit "all"; lit "mkdir"] [];
   Rule [lit "all"] (lit "mkdir" :: map test_target names) []; Rule [lit "mkdir"] [] [lit "mkdir -p bin"]]
  ++ map (fun t => Rule [test_target t] (test_sources conv t) [test_command conv t]) names.

Lemma rl_blank rest : read_make_lines (lit "" :: rest) = read_make_lines rest.
Proof. reflexivity. Qed.
Lemma rl_head l t p rest pend ms rs : read_make_line l = Some (MkHead t p) -> read_make_lines rest = Some (pend, Makefile ms rs) ->
  read_make_lines (l :: rest) = Some ([], Makefile ms (Rule t p pend :: rs)).
Proof. intros H1 H2. cbn [read_make_lines]. by rewrite H1, H2. Qed.
Lemma rl_macro l n v rest ms rs : read_make_line l = Some (MkMacro n v) -> read_make_lines rest = Some ([], Makefile ms rs) ->
  read_make_lines (l :: rest) = Some ([], Makefile ((n, v) :: ms) rs).
Proof. intros H1 H2. cbn [read_make_lines]. by rewrite H1, H2. Qed.
Lemma rl_command l c rest pend mf : read_make_line l = Some (MkCommand c) -> read_make_lines rest = Some (pend, mf) ->
  read_make_lines (l :: rest) = Some (c :: pend, mf).
Proof. intros H1 H2. cbn [read_make_lines]. by rewrite H1, H2. Qed.
Lemma read_tests conv names : Forall plain_word names ->
  read_make_lines (concat (map (mk_test conv) names) ++ [lit ""]) =
  Some ([], Makefile [] (map (fun t => Rule [test_target t] (test_sources conv t) [test_command conv t]) names)).
Proof.
  induction 1 as [|t names Ht _ IH]; [reflexivity|]. cbn [map concat]. unfold mk_test at 1. cbn [app].
  cbn [read_make_lines]. rewrite read_test_head by done.
  cbn [read_make_lines]. 
  match goal with |- context [read_make_line ?l] => change (read_make_line l) with (Some (MkCommand (test_command conv t))) end.
  rewrite IH. reflexivity.
Qed.

Lemma read_all_line names : Forall plain_word names ->
  read_make_line (lit "all: mkdir" ++ concat (map (fun k => lit " " ++ mk_output k) names)) = Some (MkHead [lit "all"] (lit "mkdir" :: map test_target names)).
Proof.
  intros H.
  assert (Hb : forall d : ascii, d <> " "%char -> word_char d = false -> bool_decide (d ∈ (lit "bin/" : list ascii)) = false -> d ∉ (concat (map (fun k => lit " " ++ mk_output k) names) : list ascii)).
  { intros d H1 H2 H3. induction H as [|t names Ht _ IH]; [apply not_elem_of_nil|]. cbn [map concat]. apply not_in_app; [|done].
    change (lit " " ++ mk_output t) with (" "%char :: lit "bin/" ++ t). apply not_elem_of_cons. split; [done|]. apply not_in_app; [by apply lit_not_in|by apply plain_not_in]. }
  change (lit "all: mkdir" ++ concat (map (fun k => lit " " ++ mk_output k) names)) with
    (lit "all" ++ ":"%char :: lit " mkdir" ++ concat (map (fun k => lit " " ++ mk_output k) names)).
  rewrite read_head; [|done|done|reflexivity| |nin| |nin].
  - f_equal. f_equal. change (lit " mkdir" ++ concat (map (fun k => lit " " ++ mk_output k) names))
      with (concat (map (fun w => " "%char :: w) [lit "mkdir"]) ++ concat (map (fun k => lit " " ++ mk_output k) names)).
    replace (concat (map (fun k => lit " " ++ mk_output k) names)) with (concat (map (fun w => " "%char :: w) (map test_target names))) by (by rewrite map_map).
    rewrite <- concat_app, <- map_app. apply words_lead. apply Forall_cons. split.
    + split; [done|nin].
    + apply Forall_forall. intros w (t & -> & Ht)%elem_of_list_fmap. rewrite Forall_forall in H. split; [done|]. specialize (H t Ht). unfold test_target. nin.
  - apply make_chars_app; [reflexivity|]. clear Hb. induction H as [|t names Ht _ IH]; [done|]. cbn [map concat]. apply make_chars_app; [|done].
    change (forallb make_char (lit " bin/" ++ t) = true). apply make_chars_app; [reflexivity|by apply plain_make].
  - apply not_in_app; [nin|]. by apply Hb.
Qed.
Lemma no_newline_lines conv names : Forall plain_word names -> Forall (fun a : gostr => byte 10 ∉ (a : list ascii)) (makefile_lines names conv).
Proof.
  intros H. unfold makefile_lines. apply Forall_app. split.
  - repeat (apply Forall_cons; split; [try (by apply lit_not_in; reflexivity)|]); [|apply Forall_nil; done].
    apply not_in_app; [nin|]. induction H as [|t names Ht _ IH]; [apply not_elem_of_nil|]. cbn [map concat]. apply not_in_app; [|done]. unfold mk_output. nin.
  - apply Forall_app. split; [|repeat constructor; apply not_elem_of_nil].
    induction H as [|t names Ht _ IH]; [constructor|]. cbn [map concat]. apply Forall_app. split; [|done].
    assert (byte 10 ∉ (mk_convert conv : list ascii)) by (destruct conv; nin). assert (byte 10 ∉ (mk_iconvert conv : list ascii)) by (destruct conv; nin).
    unfold mk_test, mk_output, mk_inputs. repeat constructor; nin; done.
Qed.
(** How make reads the Makefile: the macro, and a rule per test between the fixed ones. *)
Lemma read_makefile_text conv (tests : gset gostr) : (forall t, t ∈ tests -> plain_word t) ->
  read_makefile (makefile_text tests conv) =
  Some (Makefile [([lit "CXXFLAGS"], [lit "-std=c++11"; lit "-Wall"; lit "-Wextra"])] (expected_rules conv (sorted_names tests))).
Proof.
  intros H. assert (Hs : Forall plain_word (sorted_names tests)). { apply Forall_forall. intros t Ht%elem_of_sorted_names. by apply H. }
  unfold read_makefile, makefile_text, lines_of. change newline with [byte 10]. rewrite split_join by (done || by apply no_newline_lines).
  assert (Hr : read_make_lines (makefile_lines (sorted_names tests) conv) =
     Some ([], Makefile [([lit "CXXFLAGS"], [lit "-std=c++11"; lit "-Wall"; lit "-Wextra"])] (expected_rules conv (sorted_names tests)))); [|by rewrite Hr].
  unfold makefile_lines. cbn [app].
  unfold expected_rules. cbn [app].
  eapply rl_head; [reflexivity|]. rewrite rl_blank. eapply rl_macro; [reflexivity|]. rewrite rl_blank.
  eapply rl_head; [reflexivity|]. rewrite rl_blank. eapply rl_head; [by apply read_all_line|]. rewrite rl_blank.
  eapply rl_head; [reflexivity|]. eapply rl_command; [reflexivity|]. rewrite rl_blank. by apply read_tests.
Qed.

Section Rules.
Context (conv : bool) (names : list gostr).
Definition the_makefile : makefile := Makefile [([lit "CXXFLAGS"], [lit "-std=c++11"; lit "-Wall"; lit "-Wextra"])] (expected_rules conv names).
Let rule_t t := Rule [test_target t] (test_sources conv t) [test_command conv t].
Lemma target_inj t u : test_target t = test_target u -> t = u.
Proof. apply (app_inv_head (lit "bin/")). Qed.
Lemma rule_all : rule_for the_makefile (lit "all") = Some (Rule [lit "all"] (lit "mkdir" :: map test_target names) []).
Proof. reflexivity. Qed.
Lemma rule_mkdir : rule_for the_makefile (lit "mkdir") = Some (Rule [lit "mkdir"] [] [lit "mkdir -p bin"]).
Proof. reflexivity. Qed.
Lemma rules_skip g (l : list rule) r : g ∉ ru_targets r -> base.filter (fun r => g ∈ ru_targets r) (r :: l) = base.filter (fun r => g ∈ ru_targets r) l.
Proof. intros H. by rewrite filter_cons_False. Qed.
Lemma rule_fixed g : g <> lit ".POSIX" -> g <> lit ".PHONY" -> g <> lit "all" -> g <> lit "mkdir" ->
  rule_for the_makefile g = head (base.filter (fun r => g ∈ ru_targets r) (map rule_t names)).
Proof.
  intros H1 H2 H3 H4. unfold rule_for, the_makefile, expected_rules, mf_rules. cbn [app].
  do 4 (rewrite rules_skip by (intros E%elem_of_list_singleton; congruence)). done.
Qed.
Lemma find_test (l : list gostr) t : t ∈ l -> head (base.filter (fun r => test_target t ∈ ru_targets r) (map rule_t l)) = Some (rule_t t).
Proof.
  induction l as [|u l IH]; intros Ht; [by apply elem_of_nil in Ht|]. cbn [map]. destruct (decide (t = u)) as [<-|Hne].
  - by rewrite filter_cons_True by (apply elem_of_list_singleton; done).
  - rewrite rules_skip by (intros E%elem_of_list_singleton%target_inj; done). apply IH. by apply elem_of_cons in Ht as [?|?].
Qed.
Lemma find_none (l : list gostr) g : (forall t, g <> test_target t) -> head (base.filter (fun r => g ∈ ru_targets r) (map rule_t l)) = None.
Proof.
  intros H. induction l as [|u l IH]; [done|]. cbn [map]. rewrite rules_skip; [done|]. intros E%elem_of_list_singleton. by apply (H u).
Qed.
Lemma rule_test t : t ∈ names -> rule_for the_makefile (test_target t) = Some (rule_t t).
Proof. intros Ht. rewrite rule_fixed by done. by apply find_test. Qed.
Lemma source_no_rule t p : p ∈ test_sources conv t -> rule_for the_makefile p = None.
Proof.
  intros Hp. assert (Hs : exists r, p = lit "src/" ++ r).
  { unfold test_sources in Hp. rewrite elem_of_app, !elem_of_cons, elem_of_nil in Hp. destruct Hp as [[->|[->|[]]]|Hp].
    - by eexists.
    - by exists (lit "rtcg/rtcg.cpp").
    - destruct conv; [|by apply elem_of_nil in Hp]. apply elem_of_list_singleton in Hp as ->. by exists (lit "convert/convert.cpp"). }
  destruct Hs as [r ->]. rewrite rule_fixed by done. by apply find_none.
Qed.
(** What all needs. *)
Lemma needed_all g : needed the_makefile (lit "all") g <->
  g = lit "all" \/ g = lit "mkdir" \/ (exists t, t ∈ names /\ (g = test_target t \/ g ∈ test_sources conv t)).
Proof.
  split.
  - induction 1 as [|t r p _ IH Hr Hp]; [by left|]. right. destruct IH as [->|[->|(u & Hu & [->|Hs])]].
    + rewrite rule_all in Hr. injection Hr as <-. cbn [ru_prereqs] in Hp. apply elem_of_cons in Hp as [->|(u & -> & Hu)%elem_of_list_fmap]; [by left|]. right. exists u. auto.
    + rewrite rule_mkdir in Hr. injection Hr as <-. by apply elem_of_nil in Hp.
    + rewrite rule_test in Hr by done. injection Hr as <-. right. exists u. auto.
    + by rewrite (source_no_rule _ _ Hs) in Hr.
  - assert (Hall : needed the_makefile (lit "all") (lit "all")) by constructor.
    assert (Ht : forall t, t ∈ names -> needed the_makefile (lit "all") (test_target t)).
    { intros t Hn. eapply needed_prereq; [exact Hall|exact rule_all|]. right. apply elem_of_list_fmap. by exists t. }
    intros [->|[->|(t & Hn & [->|Hs])]]; [done| |by apply Ht|].
    + eapply needed_prereq; [exact Hall|exact rule_all|left].
    + eapply needed_prereq; [exact (Ht t Hn)|by apply rule_test|done].
Qed.
Lemma scheduled_all ex order : schedule the_makefile ex (lit "all") order ->
  forall g, g ∈ order <-> g ∈ lit "mkdir" :: map test_target names ++ [lit "all"].
Proof.
  intros H g. rewrite (sch_needed _ _ _ _ H), needed_all, elem_of_cons, elem_of_app, elem_of_list_singleton. split.
  - intros [[->|[->|(t & Ht & [->|Hs])]] [r Hr]]; [by right; right|by left| |].
    + right. left. apply elem_of_list_fmap. by exists t.
    + by rewrite (source_no_rule _ _ Hs) in Hr.
  - intros [->|[(t & -> & Ht)%elem_of_list_fmap| ->]].
    + split; [auto|by eexists].
    + split; [right; right; exists t; auto|]. rewrite rule_test by done. by eexists.
    + split; [auto|by eexists].
Qed.
Lemma order_all_NoDup : NoDup names -> NoDup (lit "mkdir" :: map test_target names ++ [lit "all"]).
Proof.
  intros Hnd. constructor.
  - rewrite elem_of_app, elem_of_list_singleton. intros [(t & E & _)%elem_of_list_fmap|E]; discriminate E.
  - apply NoDup_app. split_and!.
    + apply NoDup_map_inj; [exact target_inj|done].
    + intros g (t & -> & _)%elem_of_list_fmap E%elem_of_list_singleton. discriminate E.
    + apply NoDup_singleton.
Qed.
(** Any arrangement of the targets with all at the end is a schedule, if the sources exist. *)
Lemma any_schedule (ex : gostr -> Prop) pre : NoDup names -> pre ≡ₚ lit "mkdir" :: map test_target names ->
  (forall t p, t ∈ names -> p ∈ test_sources conv t -> ex p) ->
  schedule the_makefile ex (lit "all") (pre ++ [lit "all"]).
Proof.
  intros Hnd Hp Hex. assert (Hperm : pre ++ [lit "all"] ≡ₚ lit "mkdir" :: map test_target names ++ [lit "all"]) by (rewrite Hp; done).
  split.
  - rewrite Hperm. by apply order_all_NoDup.
  - intros g. rewrite Hperm, needed_all, elem_of_cons, elem_of_app, elem_of_list_singleton. split.
    + intros [->|[(t & -> & Ht)%elem_of_list_fmap| ->]].
      * split; [auto|by eexists].
      * split; [right; right; exists t; auto|]. rewrite rule_test by done. by eexists.
      * split; [auto|by eexists].
    + intros [[->|[->|(t & Ht & [->|Hs])]] [r Hr]]; [by right; right|by left| |].
      * right. left. apply elem_of_list_fmap. by exists t.
      * by rewrite (source_no_rule _ _ Hs) in Hr.
  - intros g [->|[->|(t & Ht & [->|Hs])]]%needed_all Hr; [by rewrite rule_all in Hr|by rewrite rule_mkdir in Hr|by rewrite rule_test in Hr by done|by eapply Hex].
  - intros i g r p Hi Hr Hpr [q Hq]. assert (Hin : g ∈ pre ++ [lit "all"]) by (by eapply elem_of_list_lookup_2). rewrite Hperm in Hin.
    apply elem_of_cons in Hin as [->|[(t & -> & Ht)%elem_of_list_fmap| ->%elem_of_list_singleton]%elem_of_app].
    + rewrite rule_mkdir in Hr. injection Hr as <-. by apply elem_of_nil in Hpr.
    + rewrite rule_test in Hr by done. injection Hr as <-. cbn [ru_prereqs] in Hpr. by rewrite (source_no_rule _ _ Hpr) in Hq.
    + rewrite rule_all in Hr. injection Hr as <-. cbn [ru_prereqs] in Hpr. rewrite <- Hp in Hpr. apply elem_of_list_lookup in Hpr as [j Hj].
      assert (Hi' : i = length pre).
      { assert (Hnd' : NoDup (pre ++ [lit "all"])) by (rewrite Hperm; by apply order_all_NoDup). eapply NoDup_lookup; [exact Hnd'|exact Hi|]. by rewrite list_lookup_middle. }
      pose proof (lookup_lt_Some _ _ _ Hj) as Hlt. exists j. split; [by rewrite Hi'|]. by rewrite lookup_app_l.
Qed.
End Rules.

Lemma default_all conv names : default_goal (the_makefile conv names) = Some (lit "all").
Proof. reflexivity. Qed.
Lemma serial_norule mf goals : forall fuel done, (forall g, g ∈ goals -> rule_for mf g = None) -> serial fuel mf done goals = done.
Proof.
  induction goals as [|g goals IH]; intros [|fuel] done H; try reflexivity. cbn [serial].
  assert (Hs : serial fuel mf done goals = done) by (apply IH; intros h Hh; apply H; by right).
  rewrite (H g) by left. by destruct (decide (g ∈ done)).
Qed.
Lemma serial_tests conv names (l : list gostr) : forall fuel done, NoDup l -> (forall t, t ∈ l -> t ∈ names) -> (forall t, t ∈ l -> test_target t ∉ done) ->
  length l < fuel -> serial fuel (the_makefile conv names) done (map test_target l) = done ++ map test_target l.
Proof.
  induction l as [|t l IH]; intros fuel dn Hnd Hin Hdone Hf; (destruct fuel as [|fuel]; [cbn in Hf; lia|]).
  - by rewrite app_nil_r.
  - cbn [map serial]. apply NoDup_cons in Hnd as [Ht Hnd]. rewrite decide_False by (apply Hdone; left). rewrite rule_test by (apply Hin; left). cbn [ru_prereqs].
    rewrite (serial_norule _ (test_sources conv t)) by (intros g; apply source_no_rule). cbn zeta.
    rewrite decide_False by (apply Hdone; left). rewrite IH; [by rewrite <- app_assoc|done|intros u Hu; apply Hin; by right| |cbn in Hf; lia].
    intros u Hu [H|H%elem_of_list_singleton%target_inj]%elem_of_app; [apply (Hdone u); [by right|done]|by subst].
Qed.
Lemma serial_all conv names fuel : NoDup names -> length names + 3 <= fuel ->
  serial fuel (the_makefile conv names) [] [lit "all"] = lit "mkdir" :: map test_target names ++ [lit "all"].
Proof.
  intros Hnd Hf. do 3 (destruct fuel as [|fuel]; [lia|]).
  assert (E1 : serial (S (S fuel)) (the_makefile conv names) [] (lit "mkdir" :: map test_target names) = lit "mkdir" :: map test_target names).
  { change (serial (S (S fuel)) (the_makefile conv names) [] (lit "mkdir" :: map test_target names)) with (serial (S fuel) (the_makefile conv names) [lit "mkdir"] (map test_target names)).
    rewrite serial_tests; [done|done|done| |lia]. intros t Ht E%elem_of_list_singleton. discriminate E. }
  change (serial (S (S (S fuel))) (the_makefile conv names) [] [lit "all"]) with
    (let d := serial (S (S fuel)) (the_makefile conv names) [] (lit "mkdir" :: map test_target names) in
     serial (S (S fuel)) (the_makefile conv names) (if decide (lit "all" ∈ d) then d else d ++ [lit "all"]) []).
  rewrite E1. cbn zeta. rewrite decide_False; [done|]. intros [E|(t & E & _)%elem_of_list_fmap]%elem_of_cons; discriminate E.
Qed.

(** make reads the Makefile as: a default goal that needs every test's program; and for every test
    a rule from its sources to its program, whose only command compiles exactly these sources. *)
Theorem C71_rules : forall (tests : gset gostr) conv, (forall t, t ∈ tests -> plain_word t) ->
  exists mf all, read_makefile (makefile_text tests conv) = Some mf /\ default_goal mf = Some (lit "all") /\
    rule_for mf (lit "all") = Some all /\
    (forall g, g ∈ ru_prereqs all <-> g = lit "mkdir" \/ exists t, t ∈ tests /\ g = test_target t) /\
    rule_for mf (lit "mkdir") = Some (Rule [lit "mkdir"] [] [lit "mkdir -p bin"]) /\
    (forall t, t ∈ tests -> exists cmd,
       rule_for mf (test_target t) = Some (Rule [test_target t] (test_sources conv t) [cmd]) /\
       compiles cmd (test_includes conv t) (test_sources conv t)).
Proof.
  intros tests conv H. exists (the_makefile conv (sorted_names tests)). eexists. split; [by apply read_makefile_text|]. split; [reflexivity|].
  split; [reflexivity|]. split.
  - intros g. cbn [ru_prereqs]. rewrite elem_of_cons, elem_of_list_fmap. setoid_rewrite elem_of_sorted_names. naive_solver.
  - split; [reflexivity|]. intros t Ht. exists (test_command conv t). split; [|by apply test_command_compiles; apply H].
    apply rule_test. by apply elem_of_sorted_names.
Qed.
Print Assumptions C71_rules.
(** Whatever the order in which make runs commands, it makes every program, the directory and the
    goal once each, and nothing else. *)
Theorem C71_every_schedule : forall (tests : gset gostr) conv mf ex order, (forall t, t ∈ tests -> plain_word t) ->
  read_makefile (makefile_text tests conv) = Some mf -> schedule mf ex (lit "all") order ->
  order ≡ₚ lit "mkdir" :: lit "all" :: map test_target (elements tests).
Proof.
  intros tests conv mf ex order H E Hs. rewrite (read_makefile_text conv tests H) in E. injection E as <-.
  transitivity (lit "mkdir" :: map test_target (sorted_names tests) ++ [lit "all"]).
  - apply NoDup_Permutation; [by destruct Hs|apply order_all_NoDup, NoDup_sorted_names|]. exact (scheduled_all conv _ ex order Hs).
  - rewrite sorted_names_perm. constructor. rewrite Permutation_app_comm. done.
Qed.
Print Assumptions C71_every_schedule.
(** A make that does one thing at a time makes the directory first. *)
Theorem C71_serial : forall (tests : gset gostr) conv mf (ex : gostr -> Prop), (forall t, t ∈ tests -> plain_word t) ->
  read_makefile (makefile_text tests conv) = Some mf -> (forall t p, t ∈ tests -> p ∈ test_sources conv t -> ex p) ->
  exists order, schedule mf ex (lit "all") order /\ head order = Some (lit "mkdir") /\ last order = Some (lit "all") /\
    forall fuel, size tests + 3 <= fuel -> serial fuel mf [] [lit "all"] = order.
Proof.
  intros tests conv mf ex H E Hex. rewrite (read_makefile_text conv tests H) in E. injection E as <-.
  exists ((lit "mkdir" :: map test_target (sorted_names tests)) ++ [lit "all"]). split_and!.
  - apply any_schedule; [apply NoDup_sorted_names|done|]. intros t p Ht%elem_of_sorted_names. by apply Hex.
  - done.
  - apply last_snoc.
  - intros fuel Hf. apply serial_all; [apply NoDup_sorted_names|]. rewrite sorted_names_perm. exact Hf.
Qed.
Print Assumptions C71_serial.
(** But nothing makes a program wait for the directory it goes into: with parallel jobs, the compiler
    may be run before bin exists. *)
Theorem C71_parallel_refuted : forall (tests : gset gostr) conv mf (ex : gostr -> Prop) t, (forall t, t ∈ tests -> plain_word t) ->
  read_makefile (makefile_text tests conv) = Some mf -> (forall t p, t ∈ tests -> p ∈ test_sources conv t -> ex p) -> t ∈ tests ->
  exists order i j, schedule mf ex (lit "all") order /\ order !! i = Some (test_target t) /\ order !! j = Some (lit "mkdir") /\ i < j.
Proof.
  intros tests conv mf ex t H E Hex Ht. rewrite (read_makefile_text conv tests H) in E. injection E as <-.
  apply elem_of_sorted_names in Ht as Ht'. apply (elem_of_list_fmap_1 test_target), elem_of_list_lookup in Ht' as [i Hi].
  exists ((map test_target (sorted_names tests) ++ [lit "mkdir"]) ++ [lit "all"]), i, (length (map test_target (sorted_names tests))).
  pose proof (lookup_lt_Some _ _ _ Hi) as Hlt. split_and!; [| | |exact Hlt].
  - apply any_schedule; [apply NoDup_sorted_names|by rewrite Permutation_app_comm|]. intros u p Hu%elem_of_sorted_names. by apply Hex.
  - rewrite <- app_assoc. by rewrite lookup_app_l.
  - rewrite <- app_assoc. cbn [app]. by apply list_lookup_middle.
Qed.
Print Assumptions C71_parallel_refuted.

(** After a successful run, the Makefile can be used: every source file named in it is there, and the
    compiler finds rtcg.h.  It finds convert.h exactly if some channel has an override.  (Every main.cpp
    includes both, includes.cpp.tmpl:18-19.) *)
Section Found.
Context (base : fpath).
Lemma resolve_src (t : gostr) rest : plain_name t -> Forall plain_name rest ->
  resolve base (join (lit "/") (lit "src" :: t :: rest)) = base ++ lit "src" :: t :: rest.
Proof.
  intros Ht Hr. unfold resolve. change (is_rooted (join (lit "/") (lit "src" :: t :: rest))) with false. cbn match.
  rewrite (split_join "/") by (done || (repeat constructor; [by apply lit_not_in|by destruct Ht as (_ & _ & _ & ?)|]; eapply Forall_impl; [exact Hr|]; by intros x (_ & _ & _ & ?))).
  cbn [fold_left]. assert (Hw : forall b c, plain_name c -> walk_comp b c = b ++ [c]).
  { intros b c (H1 & H2 & H3 & _). unfold walk_comp. by rewrite !decide_False. }
  rewrite !Hw by (done || (split_and!; [done|done|done|by apply lit_not_in])).
  replace (base ++ lit "src" :: t :: rest) with (((base ++ [lit "src"]) ++ [t]) ++ rest) by (by rewrite <- !app_assoc).
  generalize ((base ++ [lit "src"]) ++ [t]) as b. induction Hr as [|x rest Hx Hr IH]; intros b; cbn [fold_left]; [by rewrite app_nil_r|].
  rewrite Hw by done. rewrite IH. by rewrite <- app_assoc.
Qed.
End Found.

Lemma plain_lit (s : gostr) : bool_decide (plain_name s) = true -> plain_name s.
Proof. apply bool_decide_eq_true. Qed.
Theorem C71_generated : forall cwd c out s ord f f' cc,
  sane c s -> separate cwd c out -> orders s ord -> generate cwd c out s ord f = (f', None) ->
  cc ∈ cf_cpps c -> cc_makefile cc = true -> (forall name, name ∈ dom (su_tests s) -> plain_word name) ->
  let dir := resolve cwd out ++ [variant_string (cc_variant cc)] in
  let exists_file p := has_file f' (resolve dir p) in
  exists x text mf, fs_files f' !! (dir ++ [lit "Makefile"]) = Some x /\ content_text x = Some text /\ read_makefile text = Some mf /\
    (exists order, schedule mf exists_file (lit "all") order) /\
    (forall name, name ∈ dom (su_tests s) -> exists cmd dirs sources,
       rule_for mf (test_target name) = Some (Rule [test_target name] sources [cmd]) /\ compiles cmd dirs sources /\
       (lit "src/" ++ name ++ lit "/src/main.cpp") ∈ sources /\
       (forall p, p ∈ sources -> exists_file p) /\ found_in exists_file dirs (lit "rtcg.h") /\
       (overridden cc s -> found_in exists_file dirs (lit "convert.h")) /\
       (unused f (resolve cwd out) -> found_in exists_file dirs (lit "convert.h") -> overridden cc s)).
Proof.
  intros cwd c out s ord f f' cc Hs Hio Ho E Hcc Hmk Hpw dir ex.
  pose proof (C49_success_files cwd c out s ord f f' Hs Hio Ho E) as Hfiles.
  destruct (C51_contents cwd c out s ord f f' cc Hs Hio Ho E Hcc) as [Hsh Hte]. cbn zeta in Hsh, Hte. fold dir in Hsh, Hte.
  set (conv := cx_conv (process cc (su_types s))).
  assert (Hconv : conv = true <-> overridden cc s) by apply conv_iff.
  assert (Hnp : forall n, n ∈ dom (su_tests s) -> plain_name n) by apply Hs.
  assert (Hsrc : forall t p, t ∈ dom (su_tests s) -> p ∈ test_sources conv t -> ex p).
  { intros t p Ht Hp. unfold test_sources in Hp. rewrite elem_of_app, !elem_of_cons, elem_of_nil in Hp. unfold ex, has_file. destruct Hp as [[->|[->|[]]]|Hp].
    - apply elem_of_dom in Ht as Ht'. destruct Ht' as [m Hm]. eexists.
      change (lit "src/" ++ t ++ lit "/src/main.cpp") with (join (lit "/") [lit "src"; t; lit "src"; lit "main.cpp"]).
      rewrite resolve_src; [|by apply Hnp|by repeat constructor; try (by apply lit_not_in)]. eapply Hte; [exact Hm|]. unfold test_files. apply elem_of_app. left. by left.
    - eexists. change (lit "src/rtcg/rtcg.cpp") with (join (lit "/") [lit "src"; lit "rtcg"; lit "rtcg.cpp"]).
      rewrite resolve_src; [|by apply plain_lit|by repeat constructor; try (by apply lit_not_in)]. eapply Hsh. unfold shared_files. cbn zeta. apply elem_of_app. left. by left.
    - destruct conv eqn:Ec; [|by apply elem_of_nil in Hp]. apply elem_of_list_singleton in Hp as ->.
      change (lit "src/convert/convert.cpp") with (join (lit "/") [lit "src"; lit "convert"; lit "convert.cpp"]).
      rewrite resolve_src; [|by apply plain_lit|by repeat constructor; try (by apply lit_not_in)].
      assert (Hov : overridden cc s) by (by apply Hconv).
      assert (Hw : is_Some (fs_files f !! conv_source cwd c cc)).
      { destruct Hs as [Hv Hnd Hp]. destruct (generate_result cwd c out s Hv Hp Hnd Hio ord f Ho) as (f1 & e & E1 & He & _). rewrite E in E1. injection E1 as <- <-.
        destruct (proj1 He eq_refl) as [_ Hok]. destruct (Hok (vbase cwd out cc ++ [lit "src"; lit "convert"; lit "convert.cpp"], fs_files f !! conv_source cwd c cc)) as [_ H]; [|done].
        exists cc. split; [done|]. apply elem_under. eexists. split; [done|]. apply rel_cases. cbn zeta. do 2 right. left. split; [done|]. split; [by apply conv_iff|done]. }
      destruct Hw as [x Hx]. exists x. apply Hfiles. left. exists cc. eexists. split; [done|]. split; [unfold dir; by rewrite <- app_assoc|]. right. right. done. }
  exists (CMakefile (dom (su_tests s)) conv), (makefile_text (dom (su_tests s)) conv), (the_makefile conv (sorted_names (dom (su_tests s)))). split_and!.
  - apply Hsh. unfold shared_files. cbn zeta. apply elem_of_app. right. rewrite Hmk. by left.
  - done.
  - by apply read_makefile_text.
  - eexists. apply any_schedule; [apply NoDup_sorted_names|reflexivity|]. intros t p Ht%elem_of_sorted_names. by apply Hsrc.
  - intros n Hn. exists (test_command conv n), (test_includes conv n), (test_sources conv n). split_and!.
    + apply rule_test. by apply elem_of_sorted_names.
    + apply test_command_compiles. by apply Hpw.
    + apply elem_of_app. left. by left.
    + intros p. by apply Hsrc.
    + exists (lit "src/rtcg"). split; [apply elem_of_app; left; right; by left|]. unfold ex.
      change (lit "src/rtcg" ++ lit "/" ++ lit "rtcg.h") with (join (lit "/") [lit "src"; lit "rtcg"; lit "rtcg.h"]).
      rewrite resolve_src; [|by apply plain_lit|by repeat constructor; try (by apply lit_not_in)]. eexists. apply Hsh. unfold shared_files. cbn zeta. apply elem_of_app. left. right. by left.
    + intros Hov%Hconv. exists (lit "src/convert"). split; [apply elem_of_app; right; rewrite Hov; by left|]. unfold ex.
      change (lit "src/convert" ++ lit "/" ++ lit "convert.h") with (join (lit "/") [lit "src"; lit "convert"; lit "convert.h"]).
      rewrite resolve_src; [|by apply plain_lit|by repeat constructor; try (by apply lit_not_in)]. eexists. apply Hsh. unfold shared_files. cbn zeta. apply elem_of_app. left. do 2 right. by left.
    + intros Hun (d & Hd & x & Hx). apply Hconv. destruct conv eqn:Ec; [done|]. exfalso.
      assert (Hp : exists a b, resolve dir (d ++ lit "/" ++ lit "convert.h") = dir ++ lit "src" :: a :: b /\ (b = [lit "include"; lit "convert.h"] \/ a = lit "rtcg" /\ b = [lit "convert.h"])).
      { unfold test_includes in Hd. rewrite app_nil_r in Hd. apply elem_of_cons in Hd as [->| ->%elem_of_list_singleton].
        - exists n, [lit "include"; lit "convert.h"]. split; [|by left].
          replace ((lit "src/" ++ n ++ lit "/include") ++ lit "/" ++ lit "convert.h") with (join (lit "/") [lit "src"; n; lit "include"; lit "convert.h"]) by (change (join (lit "/") [lit "src"; n; lit "include"; lit "convert.h"]) with (lit "src/" ++ n ++ lit "/include/convert.h"); rewrite <- !app_assoc; reflexivity).
          apply resolve_src; [by apply Hnp|by repeat constructor; try (by apply lit_not_in)].
        - exists (lit "rtcg"), [lit "convert.h"]. split; [|by right].
          change (lit "src/rtcg" ++ lit "/" ++ lit "convert.h") with (join (lit "/") [lit "src"; lit "rtcg"; lit "convert.h"]).
          apply resolve_src; [by apply plain_lit|by repeat constructor; try (by apply lit_not_in)]. }
      destruct Hp as (a & b & Hp & Hb). rewrite Hp in Hx. apply Hfiles in Hx as [(cc' & r & Hcc' & Hr & Hex)|[_ Hx]].
      * unfold dir in Hr. rewrite <- app_assoc in Hr. apply app_inv_head in Hr. injection Hr as _ <-.
        destruct Hex as [Hex|[(n' & m' & _ & Hex)|(_ & Hex & _)]].
        -- unfold shared_files in Hex. cbn zeta in Hex. rewrite elem_of_app, !elem_of_cons, elem_of_nil in Hex. rewrite !pair_equal_spec in Hex.
           destruct Hex as [[[Hq _]|[[Hq _]|[[Hq _]|[]]]]|Hex]; [..|destruct (cc_makefile cc'); [|by apply elem_of_nil in Hex]; apply elem_of_list_singleton in Hex; injection Hex as Hq _; discriminate Hq];
             injection Hq as Ha Hb'; destruct Hb as [->|[-> ->]]; discriminate.
        -- unfold test_files in Hex. rewrite elem_of_app, elem_of_list_singleton in Hex. destruct Hex as [Hq|Hex].
           ++ injection Hq as _ Hb' _. destruct Hb as [->|[_ ->]]; discriminate.
           ++ destruct (cc_catkin cc'); [|by apply elem_of_nil in Hex]. cbn zeta in Hex. rewrite !elem_of_cons, elem_of_nil in Hex. destruct Hex as [Hq|[Hq|[]]]; injection Hq as _ Hb' _; destruct Hb as [->|[_ ->]]; discriminate.
        -- injection Hex as Ha Hb'. destruct Hb as [->|[-> ->]]; discriminate.
      * destruct Hun as [Hun _]. apply Hun in Hx as [Hx _]. apply Hx. unfold dir. rewrite <- app_assoc. by eexists.
Qed.
Print Assumptions C71_generated.
