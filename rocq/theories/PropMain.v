(** * main.cpp: properties C75-C77 *)
From Verif Require Export RunOk.
From Verif Require Import PropConfig.
From Verif Require Export StmProofs.

Lemma safe_body s : cpp_safe s -> body_ok s.
Proof. intros (H1 & H2 & H3 & _). by split_and!. Qed.
Lemma topic_safe s : identifier s -> cpp_safe (topic_name s).
Proof. intros H. by apply ident_safe, ident_topic. Qed.
Lemma tests_plain b root b' tests : good_tree root -> build b root = Ok b' -> lists_tests (b_stm b') tests -> spellable root -> Forall plain_ident tests.
Proof.
  intros Hg Hb [_ Hl] [_ H _]. apply Forall_forall. intros t Ht. apply Hl in Ht. apply (proj1 (C28_recorded_tests b root b' Hg Hb)) in Ht as (p & n & _ & Hn & Ht).
  by apply (H p n).
Qed.

(** What C75-C77 assume of a test: its names, and the texts in the file. *)
Section Text.
  Context (b : builder) (root : node) (b' : builder) (types : type_map) (cfg : cpp_config) (name date : gostr) (tests : list gostr) (v : variant).
  Context (Hg : good_tree root) (Hb : build b root = Ok b') (Hs : supported types root) (Hl : lists_tests (b_stm b') tests).
  Context (Hsp : spellable root) (Hu : unambiguous root tests) (Hh : header_texts name date (cc_includes cfg)).
  Notation T := (apply_writes (b_writes b') root).
  Notation m := (b_stm b').
  Notation ctx := (process cfg types).
  Notation items := (main_items v name m ctx tests).

  Lemma text_reads : read_cpp (main_text v name date m ctx tests) = Some items.
  Proof.
    destruct (supported_gen_ok b root b' types Hg Hb Hs) as [Hok He]. destruct Hh as [H1 H2 H3].
    destruct (C55_process cfg types (map_to_list types) ltac:(done)) as (_ & Ei & _ & Ec & _).
    apply read_main. apply (built_main_ok T m types); [done|by apply (spellable_spelled b root b')| |by apply safe_body|done| |by apply (tests_plain b root b')].
    - intros c t Hc. eexists. exact (Ec c t Hc).
    - by rewrite Ei.
  Qed.
  Lemma text_nodup : NoDup (fun_names items).
  Proof.
    destruct (supported_gen_ok b root b' types Hg Hb Hs) as [Hok He]. destruct (gen_prog T m types tests Hok) as (P & HP & Hprog). destruct Hl as [Hnd Hin].
    apply (built_fun_names T m types tests P); [done|done|done|done| |by apply (unambiguous_distinct b root b')].
    intros s t H1 H2. apply Hin. by apply (proj2 (C28_recorded_tests b root b' Hg Hb) s t).
  Qed.
  Lemma text_machine P : gen_program m types tests = Some P -> machine_ok v m types tests P.
  Proof.
    intros HP. destruct (supported_gen_ok b root b' types Hg Hb Hs) as [Hok He]. destruct (gen_prog T m types tests Hok) as (P' & HP' & Hprog). destruct Hl as [Hnd Hin].
    assert (P' = P) as -> by congruence. apply (built_machine_ok T m types tests P); try done.
    - intros s t H1 H2. apply Hin. by apply (proj2 (C28_recorded_tests b root b' Hg Hb) s t).
    - by apply (spellable_spelled b root b').
    - by apply (tests_plain b root b').
    - by apply (unambiguous_distinct b root b').
  Qed.
  Lemma text_ctx c t : types !! c = Some t -> exists o, cx_types ctx !! c = Some (t, o).
  Proof. intros Hc. destruct (C55_process cfg types (map_to_list types) ltac:(done)) as (_ & _ & _ & Ec & _). eexists. exact (Ec c t Hc). Qed.
  Lemma out_names_agg c : c ∈ out_names root <-> c ∈ map agg_name (tc_out (make_transitions m)).
  Proof.
    destruct (supported_gen_ok b root b' types Hg Hb Hs) as [Hok He]. rewrite <- (same_out_names _ _ He). split.
    - intros Hc. destruct (out_agg_exists T m types c Hok Hc) as (a & Ha & <-). apply elem_of_list_fmap. by exists a.
    - intros Hc. apply elem_of_list_fmap in Hc as (a & -> & Ha). by apply (out_agg_name T m types).
  Qed.
  Lemma text_words : no_reserved root -> forall a, a ∈ tc_out (make_transitions m) -> not_words (agg_name a).
  Proof.
    intros (R1 & R2 & R3) a Ha. assert (Hc : agg_name a ∈ out_names root) by (apply out_names_agg, elem_of_list_fmap; by exists a).
    unfold not_words. rewrite !elem_of_cons, elem_of_nil. intros [E|[E|[E|[]]]]; rewrite E in Hc; done.
  Qed.
  Lemma text_length : 2 <= length items.
  Proof. rewrite main_items_eq, !app_length. cbn [length]. lia. Qed.
  Lemma text_main : exists body, find_fun items [lit "main"] = Some (a_main_params v, body).
  Proof. eexists. eapply (find_fun_in _ _ _ _ _ text_nodup). apply (in_main v name m ctx tests). Qed.
  Lemma shows_result o c r : shows root types tests o c ->
    (exists w', if is_running (c_status c) then r = Waits w' /\ filter (fun e => input_effect v e = true) (w_out w') = map (sent_effect v) (c_sent c)
      else r = Fine (VInt (exit_code (c_status c))) w' /\ done_with v name tests c w') -> run_shows v name root types tests o r.
  Proof.
    intros [S1 S2 S3] (w' & H). rewrite S1 in H. destruct (is_running (obs_status root o)) eqn:Er; destruct H as [-> H].
    - split; [done|]. intros w [[= <-]|[x ?]]; [|done]. by exists (c_sent c).
    - destruct H as [H (before & E)]. split.
      + split; [done|]. split; [done|]. exists before. rewrite E. f_equal. unfold finished, dumped, final_lines. rewrite S1. cbn [app]. f_equal. f_equal.
        apply map_ext_in. intros t Ht. apply elem_of_list_In in Ht. unfold outcome_line, outcome_in. do 4 f_equal. exact (f_equal (default []) (S2 t Ht)).
      + intros w [?|[x E']]; [done|]. injection E' as _ <-. by exists (c_sent c).
  Qed.
End Text.

(** ** C76: the text of the animate test runs as the tree says *)
Lemma typed_as_ext (o1 o2 : gostr -> Prop) types ins script e : (forall w, o1 w <-> o2 w) -> typed_as o1 types ins script e -> typed_as o2 types ins script e.
Proof.
  intros Ho. induction 1 as [|r|y x r script e Hno H IH|y Hy|y s r script e Hy Ht Hs H IH|y r Hy Ht|y t u s z rest r script e Hy Ht Hu Hrd H IH].
  - constructor.
  - constructor.
  - constructor; [by rewrite <- Ho|done].
  - constructor. by apply Ho.
  - constructor; [by apply Ho|done..].
  - constructor; [by apply Ho|done].
  - eapply ta_number; [by apply Ho|done..].
Qed.
Lemma leading_digits_all ds : all_digits ds -> leading_digits ds = (ds, []).
Proof. induction 1 as [|c ds Hc _ IH]; [done|]. cbn. by rewrite Hc, IH. Qed.
Lemma digits_no_sign ds : all_digits ds -> sign_of ds = (false, ds).
Proof.
  destruct 1 as [|c ds Hc _]; [done|]. unfold sign_of. destruct (Ascii.eqb_spec c "-"); [by subst|]. by destruct (Ascii.eqb_spec c "+"); [subst|].
Qed.
Lemma read_digits (u neg : bool) s ds : ds <> [] -> sign_of s = (neg, ds) -> all_digits ds -> read_number u s =
  (if u then if Z.of_N (Spec.dec_value ds) <? 2 ^ 32 then ((if neg then (- Z.of_N (Spec.dec_value ds)) mod 2 ^ 32 else Z.of_N (Spec.dec_value ds)), Some []) else (2 ^ 32 - 1, None)
   else if (if neg then - Z.of_N (Spec.dec_value ds) else Z.of_N (Spec.dec_value ds)) <? - 2 ^ 31 then (- 2 ^ 31, None)
        else if (if neg then - Z.of_N (Spec.dec_value ds) else Z.of_N (Spec.dec_value ds)) <? 2 ^ 31 then ((if neg then - Z.of_N (Spec.dec_value ds) else Z.of_N (Spec.dec_value ds)), Some []) else (2 ^ 31 - 1, None))%Z.
Proof.
  intros Hne Es Hd. unfold read_number. destruct (sign_of s) as [neg' t] eqn:E1. assert (neg' = neg) as -> by congruence. assert (t = ds) as -> by congruence. clear E1 Es.
  destruct (leading_digits ds) as [d r] eqn:E2. rewrite (leading_digits_all ds Hd) in E2. assert (d = ds) as -> by congruence. assert (r = []) as -> by congruence.
  by rewrite bool_decide_eq_false_2.
Qed.
Lemma read_format (u : bool) (z : Z) : (if u then 0 <= z < 2 ^ 32 else - 2 ^ 31 <= z < 2 ^ 31)%Z -> read_number u (format_int z) = (z, Some []).
Proof.
  intros Hz. unfold format_int. destruct (Z.ltb_spec z 0) as [Hn|Hn].
  - destruct (format_N_spec (Z.abs_N z)) as (H1 & H2 & H3). rewrite (read_digits u true ("-"%char :: format_N (Z.abs_N z)) (format_N (Z.abs_N z)) H1 eq_refl H2).
    rewrite H3. destruct u; [lia|]. replace (- Z.of_N (Z.abs_N z))%Z with z by lia. rewrite (proj2 (Z.ltb_ge _ _)) by lia. by rewrite (proj2 (Z.ltb_lt _ _)) by lia.
  - destruct (format_N_spec (Z.to_N z)) as (H1 & H2 & H3). rewrite (read_digits u false _ (format_N (Z.to_N z)) H1 (digits_no_sign _ H2) H2).
    rewrite H3, Z2N.id by lia. destruct u; [by rewrite (proj2 (Z.ltb_lt _ _)) by lia|]. rewrite (proj2 (Z.ltb_ge _ _)) by lia. by rewrite (proj2 (Z.ltb_lt _ _)) by lia.
Qed.
(** What is typed for a script is read as it. *)
Lemma typed_in_as root types script : script_fits root types script -> typed_as (fun c => c ∈ out_names root) types (typed_in root script) script false.
Proof.
  unfold typed_in. induction script as [|[w x] script IH]; intros Hf; [constructor|]. cbn [map concat]. unfold typed_words at 1. cbn [fst snd].
  assert (IH' : typed_as (fun c => c ∈ out_names root) types (concat (map (typed_words root) script)) script false) by (apply IH; intros w' x' H; apply Hf; by right). clear IH.
  destruct (decide (w ∈ out_names root)) as [Hw|Hw].
  - rewrite bool_decide_eq_true_2 by done. cbn [app]. destruct (Hf w x ltac:(left) Hw) as (t & Ht & Hx). destruct x as [z|s].
    + cbn [fits_type shown] in *. destruct Hx as [[-> Hz]|[-> Hz]].
      * eapply (ta_number _ _ w _ true); [done|exact Ht|done|by apply read_format|exact IH'].
      * eapply (ta_number _ _ w _ false); [done|exact Ht|done|by apply read_format|exact IH'].
    + destruct Hx as [-> Hs]. by constructor.
  - rewrite bool_decide_eq_false_2 by done. cbn [app]. by constructor.
Qed.
(** The run of the text on anything that is typed. *)
Lemma animate_follows : forall b root b' types cfg name date tests conv,
  good_tree root -> build b root = Ok b' -> supported types root -> no_reserved root -> lists_tests (b_stm b') tests ->
  spellable root -> unambiguous root tests -> header_texts name date (cc_includes cfg) -> plain_conversions types conv ->
  exists p, read_cpp (main_text VAnimate name date (b_stm b') (process cfg types) tests) = Some p /\
    forall ins script e depth rounds, typed_as (fun c => c ∈ out_names root) types ins script e -> 4 <= depth -> length script < rounds ->
      if e && is_running (obs_status root (obs_run root script))
      then run_spins VAnimate root types (obs_run root script) (rounds - length script) (run_main p conv rounds depth ins)
      else run_shows VAnimate name root types tests (obs_run root script) (run_main p conv rounds depth ins).
Proof.
  intros b root b' types cfg name date tests conv Hg Hb Hs Hr Hl Hsp Hu Hh Hc.
  exists (main_items VAnimate name (b_stm b') (process cfg types) tests). split; [by apply (text_reads b root)|]. intros ins script e depth rounds Hfit Hd Hro.
  destruct (C48_follows_tree b root b' types tests Hg Hb Hs Hr) as (P & HP & H). destruct (H script) as (c & Ha & Hsh & _). clear H.
  do 4 (destruct depth as [|depth]; [lia|]).
  destruct (text_main b root b' types cfg name tests VAnimate Hg Hb Hs Hl Hu) as (body & Em).
  unfold run_main. rewrite Em. cbn [a_main_params]. change (World ∅ [] ?i [] [] [] false) with (at_start i).
  destruct (supported_gen_ok b root b' types Hg Hb Hs) as [Hok He].
  assert (Hout : forall a, a ∈ tc_out (make_transitions (b_stm b')) -> exists ev, tree_event root ev /\ ch_name (e_chan ev) = agg_name a).
  { intros a Hin. destruct (agg_event _ _ _ Hok a ltac:(by right)) as (ev & He' & Ec). exists ev. split; [by apply (erase_tree_event _ _ _ He)|]. unfold agg_name. by rewrite <- Ec. }
  assert (Hmain : exists w', if is_running (c_status c) then
        (if e then run_call (main_items VAnimate name (b_stm b') (process cfg types) tests) conv rounds (S (S (S (S depth)))) None [lit "main"] [] (at_start ins) = Busy w' /\ rounds - length script <= sorries (w_out w')
         else run_call (main_items VAnimate name (b_stm b') (process cfg types) tests) conv rounds (S (S (S (S depth)))) None [lit "main"] [] (at_start ins) = Waits w') /\
        filter (fun e => input_effect VAnimate e = true) (w_out w') = map (sent_effect VAnimate) (c_sent c)
      else run_call (main_items VAnimate name (b_stm b') (process cfg types) tests) conv rounds (S (S (S (S depth)))) None [lit "main"] [] (at_start ins) = Fine (VInt (exit_code (c_status c))) w' /\ done_with VAnimate name tests c w').
  { eapply (animate_main VAnimate name (b_stm b') (process cfg types) tests types P _ conv rounds); [..|exact Ha].
    - apply main_declares. by apply (text_nodup b root).
    - by apply (text_machine b root b' types tests VAnimate).
    - done.
    - intros ch t. apply text_ctx.
    - by apply (text_words b root b' types).
    - intros a Hin E. destruct (Hout a Hin) as (ev & Hev & En). destruct (sl_chans _ Hsp ev Hev) as (_ & k & r & Ek & _). rewrite En, E in Ek. discriminate Ek.
    - intros a Hin. destruct (Hout a Hin) as (ev & Hev & En). rewrite <- En. destruct (sp_typed _ _ Hs ev Hev) as (t & Ht & _). by exists t.
    - apply text_length.
    - apply Hh.
    - done.
    - eapply typed_as_ext; [|exact Hfit]. intros w. apply (out_names_agg b root b' types Hg Hb Hs).
    - done. }
  pose proof Hsh as [S1 S2 S3]. destruct Hmain as (w' & Hm). destruct e; cbn [andb].
  - rewrite <- S1. destruct (is_running (c_status c)) eqn:Er.
    + split; [by rewrite <- S1|]. destruct Hm as [[-> Hso] Hsent]. exists w', (c_sent c). done.
    + apply (shows_result root types name tests VAnimate _ c); [done|]. exists w'. by rewrite Er.
  - apply (shows_result root types name tests VAnimate _ c); [done|]. exists w'. by destruct (is_running (c_status c)).
Qed.
Theorem C76_animate_follows_tree : forall b root b' types cfg name date tests conv,
  good_tree root -> build b root = Ok b' -> supported types root -> no_reserved root -> lists_tests (b_stm b') tests ->
  spellable root -> unambiguous root tests -> header_texts name date (cc_includes cfg) -> plain_conversions types conv ->
  exists p, read_cpp (main_text VAnimate name date (b_stm b') (process cfg types) tests) = Some p /\
    forall script depth rounds, script_fits root types script -> 4 <= depth -> length script < rounds ->
      run_shows VAnimate name root types tests (obs_run root script) (run_main p conv rounds depth (typed_in root script)).
Proof.
  intros b root b' types cfg name date tests conv Hg Hb Hs Hr Hl Hsp Hu Hh Hc.
  destruct (animate_follows b root b' types cfg name date tests conv Hg Hb Hs Hr Hl Hsp Hu Hh Hc) as (p & Hp & H). exists p. split; [done|].
  intros script depth rounds Hfit Hd Hro. exact (H _ _ _ depth rounds (typed_in_as root types script Hfit) Hd Hro).
Qed.
Print Assumptions C76_animate_follows_tree.
Theorem C76_ros_follows_tree : forall b root b' types cfg name date tests conv,
  good_tree root -> build b root = Ok b' -> supported types root -> lists_tests (b_stm b') tests ->
  spellable root -> unambiguous root tests -> topics_distinct root -> header_texts name date (cc_includes cfg) -> plain_conversions types conv ->
  exists p, read_cpp (main_text VRos name date (b_stm b') (process cfg types) tests) = Some p /\
    forall evs depth rounds, events_fit root types evs -> no_early_ack root evs -> 4 <= depth ->
      run_shows VRos name root types tests (ros_obs_run root evs) (run_main p conv rounds depth (map ros_in evs)).
Proof.
  intros b root b' types cfg name date tests conv Hg Hb Hs Hl Hsp Hu Htd Hh Hc.
  exists (main_items VRos name (b_stm b') (process cfg types) tests). split; [by apply (text_reads b root)|]. intros evs depth rounds Hfit Hack Hd.
  destruct (C63_ros_follows_tree b root b' types tests Hg Hb Hs) as (P & HP & H). destruct (H evs Hack) as (c & Ha & Hsh). clear H.
  apply (shows_result root types name tests VRos _ c); [done|]. do 4 (destruct depth as [|depth]; [lia|]).
  assert (Et : map ros_in evs = map ros_input evs) by (apply map_ext; by intros []).
  destruct (text_main b root b' types cfg name tests VRos Hg Hb Hs Hl Hu) as (body & Em).
  unfold run_main. rewrite Em. cbn [a_main_params]. rewrite Et. change (World ∅ [] ?i [] [] [] false) with (at_start i).
  destruct (supported_gen_ok b root b' types Hg Hb Hs) as [Hok He].
  assert (Hout : forall a, a ∈ tc_out (make_transitions (b_stm b')) -> agg_name a ∈ out_names root).
  { intros a Ha'. apply (out_names_agg b root b' types Hg Hb Hs), elem_of_list_fmap. by exists a. }
  eapply (ros_main VRos name (b_stm b') (process cfg types) tests types P _ conv rounds); [..|exact Ha].
  - apply main_declares. by apply (text_nodup b root).
  - by apply (text_machine b root b' types tests VRos).
  - done.
  - intros ch t. apply text_ctx.
  - apply text_length.
  - apply Hh.
  - intros a Hin. destruct (agg_event _ _ _ Hok a Hin) as (e & He' & Ec). unfold agg_name. rewrite <- Ec. apply topic_safe.
    apply (sl_chans _ Hsp). by apply (erase_tree_event _ _ _ He).
  - apply NoDup_map_2.
    + destruct (C35_context_split (b_stm b')) as (_ & _ & _ & E & _). cbn zeta in E. rewrite E. apply NoDup_filter. eapply (NoDup_fmap_1 ag_chan).
      change (ag_chan <$> ?l) with (map ag_chan l). rewrite transition_sets_chans. apply firsts_NoDup.
    + intros x y Hx Hy E. apply (out_agg_unique _ _ _ Hok); [done|done|]. apply (td_inj _ Htd); [by apply Hout..|done].
  - intros Hin. apply elem_of_list_fmap in Hin as (a & E & Ha'). by apply (td_ack _ Htd (agg_name a) (Hout a Ha')).
  - done.
  - apply Forall_forall. intros [| | |ch x] Hin; try done. destruct (Hfit ch x Hin) as [H1 H2]. split; [|done]. by apply (out_names_agg b root b' types Hg Hb Hs).
Qed.
Print Assumptions C76_ros_follows_tree.

(** ** C77: the exit code of the text of a forbidden trace's test *)
Lemma step_entry_not_callback k c : callback_name c <> state_entry (lit "step" ++ format_N k).
Proof.
  intros E. unfold callback_name, state_entry in E. destruct (format_N_spec k) as (Hne & Hd & _).
  destruct (format_N k) as [|x l] eqn:Ek using rev_ind; [done|]. clear IHl.
  change (lit "Callback") with (lit "Callbac" ++ ["k"%char]) in E. cbn [app] in E.
  assert (E2 : (c ++ lit "Callbac") ++ ["k"%char] = (lit "enter" ++ lit "Step" ++ l) ++ [x]).
  { rewrite <- !app_assoc. etransitivity; [exact E|]. reflexivity. }
  apply app_inj_tail in E2 as [_ <-]. unfold all_digits in Hd. apply Forall_app in Hd as [_ Hd]. apply Forall_inv in Hd. discriminate Hd.
Qed.
Lemma trace_spellable t name : trace_names t name -> spellable (expand t name) /\ unambiguous (expand t name) [name].
Proof.
  intros [(N1 & N2 & N3) N4 N5]. split.
  - split.
    + intros p n _ Hn Hne. by destruct (expand_any t name p n Hn) as [E _].
    + intros p n x Hn Hx. rewrite (expand_tags t name p n Hn) in Hx. by apply elem_of_list_singleton in Hx as ->.
    + intros e He. apply N4. by apply (expand_event t name).
  - split.
    + rewrite !elem_of_list_singleton. by split; intros E; [apply N2|apply N3].
    + intros x ->%elem_of_list_singleton. rewrite elem_of_list_singleton. intros E. apply (f_equal length) in E. rewrite app_length in E. cbn in E. lia.
    + rewrite !(expand_out_names t name). split_and!; intros Hc; destruct (N5 _ Hc) as (? & ? & ? & _); done.
    + intros c Hc id [->|[[k ->]|(p & n & _ & Hn & <- & Hne)]].
      * intros E. not_callback (eq_sym E).
      * apply step_entry_not_callback.
      * by destruct (expand_any t name p n Hn) as [E _].
    + intros c e Hc He. apply (expand_out_names t name) in Hc. apply (expand_event t name) in He. by apply (N5 c Hc).
Qed.
Lemma ends_one v name root types tests o r : run_shows v name root types tests o r -> (exists w, r = Fine (VInt 1) w) <-> obs_status root o = FAIL.
Proof.
  intros [H _]. split.
  - intros (w & ->). destruct H as (H1 & H2 & _). injection H2 as H2. destruct (obs_status root o); done.
  - intros E. rewrite E in H. destruct r as [x w|w|w|]; [|done|done|done]. destruct H as (_ & -> & _). by exists w.
Qed.

Theorem C77_animate_exit_code : forall b t name b' types cfg title date conv,
  build b (expand t name) = Ok b' -> trace_ok types t -> trace_names t name -> header_texts title date (cc_includes cfg) -> plain_conversions types conv ->
  exists p, read_cpp (main_text VAnimate title date (b_stm b') (process cfg types) [name]) = Some p /\
    forall script depth rounds, script_fits (expand t name) types script -> 4 <= depth -> length script < rounds ->
      (exists w, run_main p conv rounds depth (typed_in (expand t name) script) = Fine (VInt 1) w) <-> reached t (trace_events t) script.
Proof.
  intros b t name b' types cfg title date conv Hb Hok Hn Hh Hc. destruct (expand_supported types t name Hok) as [Hs Hr]. destruct (trace_spellable t name Hn) as [Hsp Hu].
  destruct (C76_animate_follows_tree b (expand t name) b' types cfg title date [name] conv (expand_good t name) Hb Hs Hr (trace_lists b t name b' Hb) Hsp Hu Hh Hc) as (p & Hp & H).
  exists p. split; [done|]. intros script depth rounds H1 H2 H3. rewrite (ends_one _ _ _ _ _ _ _ (H script depth rounds H1 H2 H3)).
  destruct (C48_follows_tree b (expand t name) b' types [name] (expand_good t name) Hb Hs Hr) as (P & HP & HF).
  destruct (C40_fails_iff_observed b t name b' types [name] Hb Hok) as (P' & HP' & HF'). assert (P' = P) as -> by congruence.
  destruct (HF script) as (c & Hc1 & [Hst _ _] & _), (HF' script) as (c' & Hc2 & Hf & _). assert (c' = c) as -> by congruence. by rewrite <- Hst.
Qed.
Print Assumptions C77_animate_exit_code.
Theorem C77_ros_exit_code : forall b t name b' types cfg title date conv,
  build b (expand t name) = Ok b' -> trace_ok types t -> trace_names t name -> header_texts title date (cc_includes cfg) -> plain_conversions types conv ->
  (forall c d, c ∈ output_names (trace_events t) -> d ∈ output_names (trace_events t) -> topic_name c = topic_name d -> c = d) ->
  (forall c, c ∈ output_names (trace_events t) -> topic_name c <> lit "input_accepted") ->
  exists p, read_cpp (main_text VRos title date (b_stm b') (process cfg types) [name]) = Some p /\
    forall evs depth rounds, events_fit (expand t name) types evs -> acks_expected (expand t name) evs -> 4 <= depth ->
      (exists w, run_main p conv rounds depth (map ros_in evs) = Fine (VInt 1) w) <-> reached t (trace_events t) (map ros_word evs).
Proof.
  intros b t name b' types cfg title date conv Hb Hok Hn Hh Hc Ht1 Ht2. destruct (expand_supported types t name Hok) as [Hs Hr]. destruct (trace_spellable t name Hn) as [Hsp Hu].
  assert (Htd : topics_distinct (expand t name)).
  { split; [intros c d H1 H2|intros c H1]; rewrite ?(expand_out_names t name) in *; [by apply Ht1|by apply Ht2]. }
  destruct (C76_ros_follows_tree b (expand t name) b' types cfg title date [name] conv (expand_good t name) Hb Hs (trace_lists b t name b' Hb) Hsp Hu Htd Hh Hc) as (p & Hp & H).
  exists p. split; [done|]. intros evs depth rounds H1 H2 H3.
  assert (Hack : no_early_ack (expand t name) evs).
  { apply expected_not_early; try done; [|apply next_input_event]. intros w x Hin. by apply (H1 w x). }
  rewrite (ends_one _ _ _ _ _ _ _ (H evs depth rounds H1 Hack H3)).
  destruct (C63_ros_follows_tree b (expand t name) b' types [name] (expand_good t name) Hb Hs) as (P & HP & HF).
  destruct (C63_ros_fails_iff_observed b t name b' types [name] Hb Hok) as (P' & HP' & HF'). assert (P' = P) as -> by congruence.
  destruct (HF evs Hack) as (c & Hc1 & [Hst _ _]).
  destruct (HF' evs H2) as (c' & Hc2 & Hf). { intros w x Hin. apply (expand_out_names t name). by apply (H1 w x). }
  assert (c' = c) as -> by congruence. by rewrite <- Hst.
Qed.
Print Assumptions C77_ros_exit_code.

(** *** Concrete cases *)
Definition plain_identb (s : gostr) : bool :=
  forallb ident_char s && match s with c :: _ => negb (is_digit c) | [] => false end && negb (reserved s).
Lemma plain_identb_ok s : plain_identb s = true -> plain_ident s.
Proof.
  unfold plain_identb. intros H. apply andb_true_iff in H as [H H3]. apply andb_true_iff in H as [H1 H2]. split.
  - split; [apply Forall_forall; intros c Hc; apply (proj1 (forallb_forall _ _) H1); by apply elem_of_list_In|].
    destruct s as [|c r]; [done|]. exists c, r. split; [done|]. by destruct (is_digit c).
  - by apply negb_true_iff in H3.
Qed.
Lemma branching_spellable : spellable branching.
Proof.
  split.
  - intros p n _ Hn Hne. exfalso. apply all_nodes_at in Hn. revert n Hn Hne. apply (proj1 (Forall_forall (fun n : node => ~ n_id n <> []) _)). repeat constructor; intros H; by apply H.
  - intros p n t Hn Ht. apply plain_identb_ok. apply all_nodes_at in Hn. revert t Ht. apply (proj1 (Forall_forall (fun t => plain_identb t = true) _)).
    revert n Hn. apply (proj1 (Forall_forall (fun n : node => Forall (fun t => plain_identb t = true) (n_tests n)) _)). repeat constructor.
  - intros e He. apply all_events_of in He. apply plain_identb_ok. revert e He. apply (proj1 (Forall_forall (fun e => plain_identb (ch_name (e_chan e)) = true) _)). repeat constructor.
Qed.
Lemma branching_outs c : c ∈ out_names branching -> c = lit "d".
Proof. change (out_names branching) with [lit "d"; lit "d"]. rewrite !elem_of_cons, elem_of_nil. tauto. Qed.
Lemma branching_unambiguous : unambiguous branching [lit "t"; lit "u"].
Proof.
  split.
  - split; apply (bool_decide_eq_true_1 _); by vm_compute.
  - intros t. rewrite !elem_of_cons, elem_of_nil. intros [->|[->|[]]]; apply (bool_decide_eq_true_1 (_ ∉ _)); by vm_compute.
  - split_and!; intros H%branching_outs; discriminate H.
  - intros c ->%branching_outs id [->|[[k ->]|(p & n & Hp & Hn & <- & Hne)]]; [done|apply step_entry_not_callback|].
    exfalso. apply all_nodes_at in Hn. revert n Hn Hne. apply (proj1 (Forall_forall (fun n : node => ~ n_id n <> []) _)). repeat constructor; intros H; by apply H.
  - intros c e ->%branching_outs He. apply all_events_of in He. revert e He.
    apply (proj1 (Forall_forall (fun e => callback_name (lit "d") <> convert_to (ch_name (e_chan e)) /\ callback_name (lit "d") <> convert_from (ch_name (e_chan e))) _)). repeat constructor; done.
Qed.
Lemma branching_topics : topics_distinct branching.
Proof. split; [by intros c d ->%branching_outs ->%branching_outs|by intros c ->%branching_outs]. Qed.
(** Conversion functions that pass their argument as an unsigned int or a string. *)
Definition identity_conv (f : gostr) (x : cval) : option cval := match x with VInt z => Some (VInt (z mod 2 ^ 32)) | _ => Some x end.
Lemma identity_plain : plain_conversions branching_types identity_conv.
Proof.
  assert (A : forall c t, branching_types !! c = Some t -> t = ty_arithmos DNat \/ t = ty_enum).
  { intros c t. unfold branching_types. rewrite lookup_insert_Some, lookup_singleton_Some. intros [[_ <-]|[_ [_ <-]]]; [by left|by right]. }
  split.
  - intros c t x y Ht _ Hp. apply A in Ht. destruct x as [z|s]; cbn in Hp.
    + destruct Ht as [->| ->]; [|done]. injection Hp as <-. done.
    + destruct Ht as [->| ->]; [done|]. injection Hp as <-. done.
  - intros c t x Ht Hf. destruct x as [z|s]; [|done]. destruct Hf as [[_ H]|[-> _]]; [cbn; by rewrite Z.mod_small|]. apply A in Ht. by destruct Ht.
Qed.
Definition demo_config : cpp_config := CppConfig VAnimate [Include (lit "vector") true] [] false None.
Definition demo_text (v : variant) : gostr :=
  match build new_builder branching with
  | Ok b => main_text v (lit "test") (lit "today") (b_stm b) (process demo_config branching_types) [lit "t"; lit "u"]
  | _ => []
  end.
(** The last lines of the log after running the text. *)
Definition demo_lines (v : variant) (ins : list input) : option (option cval * list effect) :=
  match read_cpp (demo_text v) with
  | Some p => match run_main p identity_conv 20 4 ins with
              | Fine x w => Some (Some x, drop (length (w_out w) - 2) (w_out w))
              | Waits w => Some (None, filter (fun e => input_effect v e = true) (w_out w))
              | Busy _ | Fault => None
              end
  | None => None
  end.

Lemma branching_lists : exists b', build new_builder branching = Ok b' /\ lists_tests (b_stm b') [lit "t"; lit "u"].
Proof.
  assert (exists b', build new_builder branching = Ok b') as [b' Hb] by (eexists; vm_compute; reflexivity). exists b'. split; [done|].
  split; [apply (bool_decide_eq_true_1 _); by vm_compute|]. intros t.
  assert (Hg : good_tree branching) by (apply full_iff; vm_compute; done). rewrite (proj1 (C28_recorded_tests _ _ _ Hg Hb) t). split.
  - rewrite !elem_of_cons, elem_of_nil. intros [->|[->|[]]]; (eexists [0], _; split; [done|]; split; [reflexivity|]).
    + left.
    + right; left.
  - intros (p & n & _ & Hn & Ht). apply all_nodes_at in Hn. revert t Ht. apply (proj1 (Forall_forall (fun t => t ∈ [lit "t"; lit "u"]) _)). revert n Hn.
    apply (proj1 (Forall_forall (fun n : node => Forall (fun t => t ∈ [lit "t"; lit "u"]) (n_tests n)) _)). repeat constructor.
Qed.
Example C76_witness :
  good_tree branching /\ (exists b', build new_builder branching = Ok b' /\ lists_tests (b_stm b') [lit "t"; lit "u"]) /\ supported branching_types branching /\
  no_reserved branching /\ spellable branching /\ unambiguous branching [lit "t"; lit "u"] /\ topics_distinct branching /\
  header_texts (lit "test") (lit "today") (cc_includes demo_config) /\ plain_conversions branching_types identity_conv /\
  demo_lines VAnimate (typed_in branching [(lit "ready", no_value); (lit "accept", no_value); (lit "d", EnumV (lit "on"))]) =
    Some (Some (VInt 1), [info_line VAnimate [VStr (lit "  t = "); v_outcome (lit "FAIL")]; info_line VAnimate [VStr (lit "  u = "); v_outcome (lit "INC")]]) /\
  demo_lines VAnimate (typed_in branching [(lit "ready", no_value); (lit "accept", no_value); (lit "d", EnumV (lit "off"))]) =
    Some (None, [sent_effect VAnimate (lit "c", IntV 3); sent_effect VAnimate (lit "c", IntV 4)]) /\
  demo_lines VRos (map ros_in [RDelay; RAccept; ROut (lit "d") (EnumV (lit "on"))]) =
    Some (Some (VInt 1), [info_line VRos [VStr (lit "  t = "); v_outcome (lit "FAIL")]; info_line VRos [VStr (lit "  u = "); v_outcome (lit "INC")]]) /\
  demo_lines VRos (map ros_in [RDelay; RAccept; ROut (lit "d") (EnumV (lit "off"))]) =
    Some (None, [FPublish (lit "c") (VInt 3); FPublish (lit "c") (VInt 4)]).
Proof.
  split; [apply full_iff; vm_compute; done|].
  split; [apply branching_lists|].
  split; [apply supportedb_ok; vm_compute; done|]. split; [apply no_reservedb_ok; vm_compute; done|].
  split; [apply branching_spellable|]. split; [apply branching_unambiguous|]. split; [apply branching_topics|]. split.
  { split; [by apply safeb_ok| |intros i ->%elem_of_list_singleton]; apply (bool_decide_eq_true_1 (_ ∉ _)); by vm_compute. }
  split; [apply identity_plain|]. split; [vm_compute; reflexivity|]. split; [vm_compute; reflexivity|]. split; vm_compute; reflexivity.
Qed.

Definition demo_main (v : variant) (ins : list input) : option cval :=
  match read_cpp (main_text v (lit "demo") (lit "today") (b_stm demo_built) (process demo_config branching_types) [lit "t"]) with
  | Some p => match run_main p identity_conv 20 4 ins with Fine x w => Some x | _ => None end
  | None => None
  end.
Example C77_witness :
  build new_builder (expand demo_trace (lit "t")) = Ok demo_built /\ trace_ok branching_types demo_trace /\ trace_names demo_trace (lit "t") /\
  header_texts (lit "demo") (lit "today") (cc_includes demo_config) /\ plain_conversions branching_types identity_conv /\
  script_fits (expand demo_trace (lit "t")) branching_types (demo_script ++ [(lit "d", EnumV (lit "off"))]) /\
  demo_main VAnimate (typed_in (expand demo_trace (lit "t")) (demo_script ++ [(lit "d", EnumV (lit "off"))])) = Some (VInt 1) /\
  demo_main VAnimate (typed_in (expand demo_trace (lit "t")) (demo_script ++ [(lit "d", EnumV (lit "on"))])) = Some (VInt 0) /\
  demo_main VRos (map ros_in [RDelay; RAccept; ROut (lit "d") (EnumV (lit "on")); ROut (lit "d") (EnumV (lit "off"))]) = Some (VInt 1).
Proof.
  split; [exact demo_builds|]. split; [exact demo_ok|]. split.
  { split.
    - split; [by apply plain_identb_ok|done].
    - intros e He. apply (proj1 (plain_identb_ok _ ltac:(revert e He; apply (proj1 (Forall_forall (fun e => plain_identb (ch_name (e_chan e)) = true) _)); repeat constructor))).
    - intros c Hc. assert (c = lit "d") as ->. { revert Hc. change (output_names (trace_events demo_trace)) with [lit "d"; lit "d"]. rewrite !elem_of_cons, elem_of_nil. tauto. }
      split; [done|]. split; [done|]. split; [done|]. apply (proj1 (Forall_forall (fun e => callback_name (lit "d") <> convert_to (ch_name (e_chan e)) /\ callback_name (lit "d") <> convert_from (ch_name (e_chan e))) _)).
      repeat constructor; done. }
  split. { split; [by apply safeb_ok| |intros i ->%elem_of_list_singleton]; apply (bool_decide_eq_true_1 (_ ∉ _)); by vm_compute. }
  split; [apply identity_plain|]. split.
  { intros w x Hw Ho. assert (w = lit "d") as ->. { revert Ho. change (out_names (expand demo_trace (lit "t"))) with [lit "d"; lit "d"]. rewrite !elem_of_cons, elem_of_nil. tauto. }
    exists ty_enum. split; [reflexivity|]. revert x Hw. assert (H : Forall (fun wx => wx.1 = lit "d" -> fits_type ty_enum wx.2) (demo_script ++ [(lit "d", EnumV (lit "off"))])).
    { repeat first [apply List.Forall_nil|apply List.Forall_cons]; intros H; try discriminate H; (split; [done|apply (bool_decide_eq_true_1 (_ ∉ _)); by vm_compute]). } intros x Hw. by apply (proj1 (Forall_forall _ _) H (lit "d", x) Hw). }
  split; [vm_compute; reflexivity|]. split; vm_compute; reflexivity.
Qed.
