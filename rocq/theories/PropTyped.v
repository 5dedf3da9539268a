(** * main.cpp: whatever is typed into it: property C88 *)
From Verif Require Export PropMain.
From Verif Require Export StmProofs.

(** ** Any words have a reading *)
Definition size_of (ins : list input) : nat := list_sum (map (fun i => match i with IWord s => S (length s) | _ => 1 end) ins).
Lemma size_word s r : size_of (IWord s :: r) = S (length s) + size_of r.
Proof. done. Qed.
Lemma leading_digits_split s ds r : leading_digits s = (ds, r) -> s = ds ++ r.
Proof.
  revert ds r. induction s as [|c s IH]; intros ds r; cbn; [by intros [= <- <-]|]. destruct (is_digit c); [|by intros [= <- <-]].
  destruct (leading_digits s) as [d t] eqn:E. intros [= <- <-]. cbn. f_equal. by apply IH.
Qed.
Lemma read_number_rest (u : bool) s z rest : read_number u s = (z, Some rest) -> length rest < length s /\ forall c, c ∈ (rest : list ascii) -> c ∈ (s : list ascii).
Proof.
  unfold read_number. destruct (sign_of s) as [neg t] eqn:E1. destruct (leading_digits t) as [ds r] eqn:E2. case_bool_decide as Hd; [done|].
  intros H. assert (r = rest) as ->. { revert H. cbv zeta. repeat match goal with |- context [if ?x then _ else _] => destruct x end; intros [=]; done. } clear H.
  apply leading_digits_split in E2. subst t.
  assert (E : s = ds ++ rest \/ exists c, s = c :: ds ++ rest).
  { destruct s as [|c s]; [injection E1 as _ E1; by left|]. unfold sign_of in E1. destruct (Ascii.eqb c "-"); [right; exists c; injection E1 as _ E1; by subst|].
    destruct (Ascii.eqb c "+"); [right; exists c; injection E1 as _ E1; by subst|]. left. by injection E1 as _ E1. }
  assert (1 <= length ds) by (destruct ds; cbn; [done|lia]).
  destruct E as [->|[c ->]]; cbn [length]; rewrite app_length; (split; [lia|]); intros x Hx; [|right]; apply elem_of_app; by right.
Qed.
(** The words and the ends of input that are typed, without NUL. *)
Definition keyed (i : input) : Prop := match i with IWord s => byte 0 ∉ (s : list ascii) | IClosed => True | _ => False end.
Section Total.
  Context (outs : gostr -> Prop) (types : type_map).
  Context (Hdec : forall w, outs w \/ ~ outs w).
  Context (Hty : forall w, outs w -> exists t, types !! w = Some t /\ (t = ty_enum \/ exists u, reads_unsigned t u)).
  Lemma words_read n ins : size_of ins <= n -> Forall (fun i => exists s, i = IWord s /\ byte 0 ∉ (s : list ascii)) ins -> exists script e, typed_as outs types ins script e.
  Proof using Hdec Hty.
    revert ins. induction n as [|n IH]; intros ins Hn Hw.
    { destruct Hw as [|i r (w & -> & Hw) Hr]; [|rewrite size_word in Hn; lia]. exists [], false. constructor. }
    destruct Hw as [|i r (w & -> & Hw) Hr]; [exists [], false; constructor|]. rewrite size_word in Hn.
    destruct (Hdec w) as [Ho|Ho].
    - destruct Hr as [|i r (s & -> & Hs) Hr]; [exists [], false; by constructor|]. rewrite size_word in Hn.
      destruct (Hty w Ho) as (t & Ht & [->|[u Hu]]).
      + destruct (IH r ltac:(lia) Hr) as (script & e & H). exists ((w, EnumV s) :: script), e. by constructor.
      + destruct (read_number u s) as [z [rest|]] eqn:E.
        * destruct (read_number_rest u s z rest E) as [Hlen Hsub].
          destruct (IH (after_number (Some rest) r)) as (script & e & H).
          -- destruct rest as [|c rest]; cbn [after_number]; [lia|]. rewrite size_word. lia.
          -- destruct rest as [|c rest]; cbn [after_number]; [done|]. constructor; [|done]. exists (c :: rest). split; [done|]. intros H. by apply Hs, Hsub.
          -- exists ((w, IntV z) :: script), e. by eapply ta_number.
        * exists [(w, IntV z)], true. eapply ta_number; [done|done|done|done|]. constructor.
    - destruct (IH r ltac:(lia) Hr) as (script & e & H). exists ((w, IntV 0) :: script), e. by constructor.
  Qed.
End Total.
Lemma out_typed types root w : supported types root -> w ∈ out_names root -> exists t, types !! w = Some t /\ (t = ty_enum \/ exists u, reads_unsigned t u).
Proof.
  intros Hs Hw. apply out_names_elem in Hw as (p & k & e & _ & Hk & Ek & _ & <-).
  assert (He : tree_event root e) by (exists p, k; split; [apply Hk|exact Ek]). destruct (sp_typed _ _ Hs e He) as (t & Ht & Hx). exists t. split; [done|].
  destruct (e_value e) as [[z|s]|]; [|left; apply Hx|done]. destruct Hx as [[[-> _]| ->] _]; right; [by exists true|by exists false].
Qed.
(** Words after which the input ends. *)
Lemma typed_in_closed root types script rest : script_fits root types script -> typed_as (fun c => c ∈ out_names root) types (typed_in root script ++ IClosed :: rest) script true.
Proof.
  unfold typed_in. induction script as [|[w x] script IH]; intros Hf; [constructor|]. cbn [map concat]. unfold typed_words at 1. cbn [fst snd].
  assert (IH' : typed_as (fun c => c ∈ out_names root) types (concat (map (typed_words root) script) ++ IClosed :: rest) script true) by (apply IH; intros w' x' H; apply Hf; by right). clear IH.
  destruct (decide (w ∈ out_names root)) as [Hw|Hw].
  - rewrite bool_decide_eq_true_2 by done. cbn [app]. destruct (Hf w x ltac:(left) Hw) as (t & Ht & Hx). destruct x as [z|s].
    + cbn [fits_type shown] in *. destruct Hx as [[-> Hz]|[-> Hz]].
      * eapply (ta_number _ _ w _ true); [done|exact Ht|done|by apply read_format|exact IH'].
      * eapply (ta_number _ _ w _ false); [done|exact Ht|done|by apply read_format|exact IH'].
    + destruct Hx as [-> Hs]. by constructor.
  - rewrite bool_decide_eq_false_2 by done. cbn [app]. by constructor.
Qed.
(** Words after which something that is no number is typed for one. *)
Lemma not_number (u : bool) s : Forall (fun c => is_digit c = false) s -> read_number u s = (0%Z, None).
Proof.
  intros H. unfold read_number. destruct (sign_of s) as [neg t] eqn:E.
  assert (Ht : Forall (fun c => is_digit c = false) t).
  { destruct H as [|c s Hc H]; [by injection E as _ <-|]. unfold sign_of in E. destruct (Ascii.eqb c "-"); [by injection E as _ <-|]. destruct (Ascii.eqb c "+"); [by injection E as _ <-|].
    injection E as _ <-. by constructor. }
  assert (El : leading_digits t = ([], t)) by (destruct Ht as [|c t Hc Ht]; [done|]; cbn; by rewrite Hc).
  destruct (leading_digits t) as [ds r]. injection El as -> _. by rewrite bool_decide_eq_true_2.
Qed.
Lemma typed_in_garbage root types script w t (u : bool) s rest : script_fits root types script -> w ∈ out_names root -> types !! w = Some t -> reads_unsigned t u ->
  Forall (fun c => is_digit c = false) s ->
  typed_as (fun c => c ∈ out_names root) types (typed_in root script ++ IWord w :: IWord s :: rest) (script ++ [(w, IntV 0)]) true.
Proof.
  unfold typed_in. intros Hf Ho Hwt Hu Hs. induction script as [|[y x] script IH].
  { cbn [map concat app]. eapply ta_number; [done|exact Hwt|exact Hu|by apply not_number|constructor]. }
  cbn [map concat]. unfold typed_words at 1. cbn [fst snd].
  assert (IH' : typed_as (fun c => c ∈ out_names root) types (concat (map (typed_words root) script) ++ IWord w :: IWord s :: rest) (script ++ [(w, IntV 0)]) true) by (apply IH; intros w' x' H; apply Hf; by right). clear IH.
  destruct (decide (y ∈ out_names root)) as [Hy|Hy].
  - rewrite bool_decide_eq_true_2 by done. cbn [app]. destruct (Hf y x ltac:(left) Hy) as (t' & Ht & Hx). destruct x as [z|s'].
    + cbn [fits_type shown] in *. destruct Hx as [[-> Hz]|[-> Hz]].
      * eapply (ta_number _ _ y _ true); [done|exact Ht|done|by apply read_format|exact IH'].
      * eapply (ta_number _ _ y _ false); [done|exact Ht|done|by apply read_format|exact IH'].
    + destruct Hx as [-> Hs']. by constructor.
  - rewrite bool_decide_eq_false_2 by done. cbn [app]. by constructor.
Qed.

(** ** C88 *)
Theorem C88_any_typing : forall b root b' types cfg name date tests conv,
  good_tree root -> build b root = Ok b' -> supported types root -> no_reserved root -> lists_tests (b_stm b') tests ->
  spellable root -> unambiguous root tests -> header_texts name date (cc_includes cfg) -> plain_conversions types conv ->
  exists p, read_cpp (main_text VAnimate name date (b_stm b') (process cfg types) tests) = Some p /\
    forall ins script closed depth rounds, typed_as (fun c => c ∈ out_names root) types ins script closed -> 4 <= depth -> length script < rounds ->
      if closed && is_running (obs_status root (obs_run root script))
      then run_spins VAnimate root types (obs_run root script) (rounds - length script) (run_main p conv rounds depth ins)
      else run_shows VAnimate name root types tests (obs_run root script) (run_main p conv rounds depth ins).
Proof. exact animate_follows. Qed.
Print Assumptions C88_any_typing.
(** Every list of words (without NUL) means something. *)
Theorem C88_words_mean : forall types root words, supported types root -> Forall (fun s => byte 0 ∉ (s : list ascii)) words ->
  exists script closed, typed_as (fun c => c ∈ out_names root) types (map IWord words) script closed.
Proof.
  intros types root words Hs Hw. apply (words_read _ types) with (n := size_of (map IWord words)).
  - intros w. destruct (decide (w ∈ out_names root)); tauto.
  - intros w. by apply out_typed.
  - done.
  - apply Forall_map. eapply Forall_impl; [exact Hw|]. intros s H. by exists s.
Qed.
Print Assumptions C88_words_mean.
(** The input ends: so does the test if it is over; otherwise it never does. *)
Theorem C88_closed_input : forall b root b' types cfg name date tests conv,
  good_tree root -> build b root = Ok b' -> supported types root -> no_reserved root -> lists_tests (b_stm b') tests ->
  spellable root -> unambiguous root tests -> header_texts name date (cc_includes cfg) -> plain_conversions types conv ->
  exists p, read_cpp (main_text VAnimate name date (b_stm b') (process cfg types) tests) = Some p /\
    forall script depth rounds, script_fits root types script -> 4 <= depth -> length script < rounds ->
      (is_running (obs_status root (obs_run root script)) = true ->
       exists w, run_main p conv rounds depth (typed_in root script ++ [IClosed]) = Busy w /\ rounds - length script <= sorries (w_out w)) /\
      (is_running (obs_status root (obs_run root script)) = false ->
       run_shows VAnimate name root types tests (obs_run root script) (run_main p conv rounds depth (typed_in root script ++ [IClosed]))).
Proof.
  intros b root b' types cfg name date tests conv Hg Hb Hs Hr Hl Hsp Hu Hh Hc.
  destruct (animate_follows b root b' types cfg name date tests conv Hg Hb Hs Hr Hl Hsp Hu Hh Hc) as (p & Hp & H). exists p. split; [done|].
  intros script depth rounds Hf Hd Hro. specialize (H _ _ _ depth rounds (typed_in_closed root types script [] Hf) Hd Hro). cbn [andb] in H.
  split; intros E; rewrite E in H; [|done]. destruct H as [_ (w & sent & H1 & H2 & _)]. by exists w.
Qed.
Print Assumptions C88_closed_input.
(** What is no number at all counts as the observation of 0, after which nothing is read any more. *)
Theorem C88_not_a_number : forall b root b' types cfg name date tests conv,
  good_tree root -> build b root = Ok b' -> supported types root -> no_reserved root -> lists_tests (b_stm b') tests ->
  spellable root -> unambiguous root tests -> header_texts name date (cc_includes cfg) -> plain_conversions types conv ->
  exists p, read_cpp (main_text VAnimate name date (b_stm b') (process cfg types) tests) = Some p /\
    forall script c s rest depth rounds, script_fits root types script -> c ∈ out_names root -> types !! c <> Some ty_enum -> Forall (fun k => is_digit k = false) s ->
      4 <= depth -> S (length script) < rounds ->
      let r := run_main p conv rounds depth (typed_in root script ++ IWord c :: IWord s :: rest) in
      if is_running (obs_status root (obs_run root (script ++ [(c, IntV 0)]))) then exists w, r = Busy w /\ rounds - S (length script) <= sorries (w_out w)
      else run_shows VAnimate name root types tests (obs_run root (script ++ [(c, IntV 0)])) r.
Proof.
  intros b root b' types cfg name date tests conv Hg Hb Hs Hr Hl Hsp Hu Hh Hc.
  destruct (animate_follows b root b' types cfg name date tests conv Hg Hb Hs Hr Hl Hsp Hu Hh Hc) as (p & Hp & H). exists p. split; [done|].
  intros script c s rest depth rounds Hf Ho Hne Hd4 Hd Hro. destruct (out_typed types root c Hs Ho) as (t & Ht & [->|[u Htu]]); [done|].
  assert (El : length (script ++ [(c, IntV 0)]) = S (length script)) by (rewrite app_length; cbn; lia).
  specialize (H _ _ _ depth rounds (typed_in_garbage root types script c t u s rest Hf Ho Ht Htu Hd4) Hd ltac:(rewrite El; done)). rewrite El in H. cbn [andb] in H.
  cbv zeta. destruct (is_running _); [|done]. destruct H as [_ (w & sent & H1 & H2 & _)]. by exists w.
Qed.
Print Assumptions C88_not_a_number.
(** The exit code of the test of a forbidden trace, whatever is typed. *)
Theorem C88_exit_code : forall b t name b' types cfg title date conv,
  build b (expand t name) = Ok b' -> trace_ok types t -> trace_names t name -> header_texts title date (cc_includes cfg) -> plain_conversions types conv ->
  exists p, read_cpp (main_text VAnimate title date (b_stm b') (process cfg types) [name]) = Some p /\
    forall ins script closed depth rounds, typed_as (fun c => c ∈ output_names (trace_events t)) types ins script closed -> 4 <= depth -> length script < rounds ->
      (exists w, run_main p conv rounds depth ins = Fine (VInt 1) w) <-> reached t (trace_events t) script.
Proof.
  intros b t name b' types cfg title date conv Hb Hok Hn Hh Hc. destruct (expand_supported types t name Hok) as [Hs Hr]. destruct (trace_spellable t name Hn) as [Hsp Hu].
  destruct (animate_follows b (expand t name) b' types cfg title date [name] conv (expand_good t name) Hb Hs Hr (trace_lists b t name b' Hb) Hsp Hu Hh Hc) as (p & Hp & H).
  exists p. split; [done|]. intros ins script closed depth rounds H1 H2 H3.
  assert (H1' : typed_as (fun c => c ∈ out_names (expand t name)) types ins script closed) by (eapply typed_as_ext; [|exact H1]; intros w; by rewrite (expand_out_names t name)).
  specialize (H ins script closed depth rounds H1' H2 H3).
  destruct (C48_follows_tree b (expand t name) b' types [name] (expand_good t name) Hb Hs Hr) as (P & HP & HF).
  destruct (C40_fails_iff_observed b t name b' types [name] Hb Hok) as (P' & HP' & HF'). assert (P' = P) as -> by congruence.
  destruct (HF script) as (c & Hc1 & [Hst _ _] & _), (HF' script) as (c' & Hc2 & Hf & _). assert (c' = c) as -> by congruence. rewrite <- Hf, Hst.
  destruct (closed && is_running (obs_status (expand t name) (obs_run (expand t name) script))) eqn:Er.
  - apply andb_true_iff in Er as [_ Er]. destruct H as [_ (w & sent & E & _)]. rewrite E. split; [by intros [? ?]|]. intros E'. by rewrite E' in Er.
  - exact (ends_one _ _ _ _ _ _ _ H).
Qed.
Print Assumptions C88_exit_code.

(** *** Concrete cases *)
(** A trace whose outputs are numbers, and the run of its test on some input. *)
Definition number_types : type_map := {[ lit "c" := ty_arithmos DNat; lit "d" := ty_arithmos DInt ]}.
Definition number_trace : forbidden :=
  Forbidden [] [Event (Channel (lit "c") KIn) (Some (IntV 3)); Event (Channel (lit "d") KOut) (Some (IntV (-12)))] (Event (Channel (lit "d") KOut) (Some (IntV 0))).
Definition number_built : builder := Eval vm_compute in
  match build new_builder (expand number_trace (lit "t")) with Ok b => b | _ => new_builder end.
Definition number_conv (f : gostr) (x : cval) : option cval :=
  match x with VInt z => Some (VInt (if str_eqb f (convert_to (lit "c")) then z mod 2 ^ 32 else if str_eqb f (convert_to (lit "d")) then (z + 2 ^ 31) mod 2 ^ 32 - 2 ^ 31 else z)) | _ => Some x end.
Definition number_run (ins : list input) : option (option cval * nat) :=
  match read_cpp (main_text VAnimate (lit "demo") (lit "today") (b_stm number_built) (process demo_config number_types) [lit "t"]) with
  | Some p => match run_main p number_conv 20 4 ins with Fine x w => Some (Some x, sorries (w_out w)) | Busy w | Waits w => Some (None, sorries (w_out w)) | Fault => None end
  | None => None
  end.
Definition typed_line (l : list string) : list input := map (fun s => IWord (lit s)) l.
Lemma number_plain : plain_conversions number_types number_conv.
Proof.
  assert (A : forall c t, number_types !! c = Some t -> (c = lit "c" /\ t = ty_arithmos DNat) \/ (c = lit "d" /\ t = ty_arithmos DInt)).
  { intros c t. unfold number_types. rewrite lookup_insert_Some, lookup_singleton_Some. intros [[<- <-]|[_ [<- <-]]]; [by left|by right]. }
  split.
  - intros c t x y Ht _ Hp. apply A in Ht as [[-> ->]|[-> ->]]; destruct x as [z|s]; cbn in Hp; try done; injection Hp as <-; done.
  - intros c t x Ht Hf. apply A in Ht as [[-> ->]|[-> ->]]; destruct x as [z|s]; done.
Qed.
Example C88_witness :
  build new_builder (expand number_trace (lit "t")) = Ok number_built /\ trace_ok number_types number_trace /\ trace_names number_trace (lit "t") /\
  header_texts (lit "demo") (lit "today") (cc_includes demo_config) /\ plain_conversions number_types number_conv /\
  typed_as (fun c => c ∈ output_names (trace_events number_trace)) number_types (typed_line ["hello"; "ready"; "accept"; "d"; "-12d"; "zero"; "timeout"]%string)
    [(lit "hello", no_value); (lit "ready", no_value); (lit "accept", no_value); (lit "d", IntV (-12)); (lit "d", IntV 0)] true /\
  number_run (typed_line ["hello"; "ready"; "accept"; "d"; "-12d"; "zero"; "timeout"]%string) = Some (Some (VInt 1), 1) /\
  number_run (typed_line ["ready"; "accept"; "d"; "+0"]%string) = Some (Some (VInt 0), 0) /\
  number_run (typed_line ["ready"; "accept"]%string ++ [IClosed]) = Some (None, 18) /\
  number_run (typed_line ["ready"; "accept"; "d"]%string) = Some (None, 0) /\
  number_run (typed_line ["ready"; "accept"; "d"]%string ++ [IClosed]) = None.
Proof.
  split; [vm_compute; reflexivity|]. split; [apply trace_okb_ok; vm_compute; done|]. split.
  { split.
    - split; [by apply plain_identb_ok|done].
    - intros e He. apply (proj1 (plain_identb_ok _ ltac:(revert e He; apply (proj1 (Forall_forall (fun e => plain_identb (ch_name (e_chan e)) = true) _)); repeat constructor))).
    - intros c Hc. assert (c = lit "d") as ->. { revert Hc. change (output_names (trace_events number_trace)) with [lit "d"; lit "d"]. rewrite !elem_of_cons, elem_of_nil. tauto. }
      split; [done|]. split; [done|]. split; [done|]. apply (proj1 (Forall_forall (fun e => callback_name (lit "d") <> convert_to (ch_name (e_chan e)) /\ callback_name (lit "d") <> convert_from (ch_name (e_chan e))) _)).
      repeat constructor; done. }
  split. { split; [by apply safeb_ok| |intros i ->%elem_of_list_singleton]; apply (bool_decide_eq_true_1 (_ ∉ _)); by vm_compute. }
  split; [apply number_plain|]. split.
  { change (output_names (trace_events number_trace)) with [lit "d"; lit "d"].
    do 3 (apply ta_word; [by apply (bool_decide_eq_true_1 (_ ∉ _))|]).
    eapply (ta_number _ _ (lit "d") _ false _ _ (Some (lit "d"))); [left|reflexivity|reflexivity|vm_compute; reflexivity|]. change (after_number (Some (lit "d")) ?r) with (IWord (lit "d") :: r).
    eapply (ta_number _ _ (lit "d") _ false _ _ None); [left|reflexivity|reflexivity|vm_compute; reflexivity|]. constructor. }
  split; [vm_compute; reflexivity|]. split; [vm_compute; reflexivity|]. split; [vm_compute; reflexivity|]. split; vm_compute; reflexivity.
Qed.
