(** * C83: command lines and exit codes; C84: rtcg.sh *)
From Verif Require Export SpecProcess PropChain PropNulls.
From Verif Require Export StmProofs.

(** ** Flags *)
Lemma says_bool_iff s b : parse_bool s = Some b <-> says_bool s b.
Proof.
  unfold parse_bool, says_bool. destruct (bool_decide_reflect (s ∈ [lit "1"; lit "t"; lit "T"; lit "TRUE"; lit "true"; lit "True"])) as [H|H].
  - destruct b; [done|]. split; [done|]. intros H'. exfalso. rewrite !elem_of_cons, elem_of_nil in H, H'.
    repeat (destruct H as [->|H]; [repeat (destruct H' as [H'|H']; [discriminate H'|]); done|]). done.
  - destruct (bool_decide_reflect (s ∈ [lit "0"; lit "f"; lit "F"; lit "FALSE"; lit "false"; lit "False"])); destruct b; done.
Qed.
(** The part of parse_flags after the dashes. *)
Definition flag_body (body : gostr) (rest : list gostr) (fl : gen_flags) : flag_result :=
  let '(name, value) := flag_split body in
  if decide (name = lit "clean") then
    match value with
    | None => parse_flags rest (GenFlags true (gf_output fl))
    | Some v => match parse_bool v with Some b => parse_flags rest (GenFlags b (gf_output fl)) | None => FlagBad end
    end
  else if decide (name = lit "output") then
    match value with
    | Some v => parse_flags rest (GenFlags (gf_clean fl) v)
    | None => match rest with v :: rest' => parse_flags rest' (GenFlags (gf_clean fl) v) | [] => FlagBad end
    end
  else if decide (name = lit "help" \/ name = lit "h") then FlagHelp
  else FlagBad.
Definition body_start (body : gostr) : Prop := exists b r, body = b :: r /\ b <> "-"%char /\ b <> "="%char.
Lemma parse_plain s rest fl : not_flag s -> parse_flags (s :: rest) fl = FlagsOk fl (s :: rest).
Proof.
  intros [->|H]; [done|]. destruct s as [|c0 [|c1 r]]; [done|done|]. cbn [parse_flags]. rewrite decide_False; [done|]. intros ->. by apply H.
Qed.
Lemma parse_dashes rest fl : parse_flags (lit "--" :: rest) fl = FlagsOk fl rest.
Proof. reflexivity. Qed.
Lemma parse_flag d body rest fl : dashes d -> body_start body -> parse_flags ((d ++ body) :: rest) fl = flag_body body rest fl.
Proof.
  intros Hd (b & r & -> & N1 & N2). destruct Hd.
  - change (lit "-" ++ b :: r) with ("-"%char :: b :: r). cbn [parse_flags]. rewrite decide_True by done. rewrite decide_False by (by intros [? _]).
    rewrite (decide_False (P := b = "-"%char)) by done. rewrite decide_False by tauto. reflexivity.
  - change (lit "--" ++ b :: r) with ("-"%char :: "-"%char :: b :: r). cbn [parse_flags]. rewrite decide_True by done. rewrite decide_False by (by intros [_ ?]).
    rewrite (decide_True (P := "-"%char = "-"%char)) by done. rewrite decide_False by tauto. reflexivity.
Qed.
Lemma first_arg s : not_flag s \/ s = lit "--" \/ (exists d body, dashes d /\ body_start body /\ s = d ++ body) \/ (forall rest fl, parse_flags (s :: rest) fl = FlagBad).
Proof.
  destruct s as [|c0 [|c1 r]]; [left; by right| |].
  - left. destruct (decide (c0 = "-"%char)) as [->|N]; [by left|]. right. cbn. congruence.
  - destruct (decide (c0 = "-"%char)) as [->|N]; [|left; right; cbn; congruence]. right.
    destruct (decide (c1 = "-"%char)) as [->|N1].
    + destruct r as [|b r]; [by left|]. right. destruct (decide (b = "-"%char \/ b = "="%char)) as [E|E].
      * right. intros rest fl. cbn [parse_flags]. rewrite decide_True by done. rewrite decide_False by (by intros [_ ?]). rewrite (decide_True (P := "-"%char = "-"%char)) by done. by rewrite decide_True.
      * left. exists (lit "--"), (b :: r). split; [constructor|]. split; [|done]. exists b, r. tauto.
    + right. destruct (decide (c1 = "="%char)) as [->|N2].
      * right. intros rest fl. cbn [parse_flags]. rewrite decide_True by done. rewrite decide_False by (by intros [? _]). rewrite (decide_False (P := "="%char = "-"%char)) by done. rewrite decide_True by (by right). done.
      * left. exists (lit "-"), (c1 :: r). split; [constructor|]. split; [|done]. by exists c1, r.
Qed.
Lemma flag_split_spec body n v : body <> [] -> flag_split body = (n, v) ->
  match v with Some v => body = n ++ lit "=" ++ v | None => body = n end.
Proof.
  destruct body as [|c r]; [done|]. intros _. cbn [flag_split]. destruct (cut "=" r) as [[a b]|] eqn:E; intros [= <- <-]; [|done].
  apply cut_Some in E as [-> _]. done.
Qed.
Lemma flag_args_step a fl fl' rest : flag_args a fl fl' -> parse_flags (a ++ rest) fl = parse_flags rest fl'.
Proof.
  intros H. destruct H as [d c o Hd|d v b c o Hd Hv|d v c o Hd|d v c o Hd]; cbn [app].
  - rewrite parse_flag by (done || by eexists _, _). reflexivity.
  - rewrite parse_flag by (done || by eexists _, _). apply says_bool_iff in Hv. unfold flag_body. change (flag_split (lit "clean=" ++ v)) with (lit "clean", Some v). cbv beta iota.
    rewrite decide_True by done. by rewrite Hv.
  - rewrite parse_flag by (done || by eexists _, _). reflexivity.
  - rewrite parse_flag by (done || by eexists _, _). reflexivity.
Qed.
Lemma flags_args_step a fl fl' rest : flags_args a fl fl' -> parse_flags (a ++ rest) fl = parse_flags rest fl'.
Proof. induction 1 as [fl|a b fl fl' fl'' Ha _ IH]; [done|]. rewrite <- app_assoc, (flag_args_step a fl fl') by done. done. Qed.
(** Every command line is some flags followed by something that ends them. *)
Lemma flags_end args : forall fl, exists a fl' rest, args = a ++ rest /\ flags_args a fl fl' /\
  (rest = [] \/ exists s r, rest = s :: r /\ (not_flag s \/ s = lit "--" \/ (exists d n v, dashes d /\ body_start (n ++ v) /\ (v = [] \/ exists w, v = lit "=" ++ w) /\ s = d ++ n ++ v /\ (n = lit "h" \/ n = lit "help")) \/
     parse_flags rest fl' = FlagBad)).
Proof.
  remember (length args) as k eqn:Ek. assert (Hk : length args <= k) by lia. clear Ek. revert args Hk. induction k as [|k IH]; intros args Hk fl.
  { destruct args; [|cbn in Hk; lia]. exists [], fl, []. split; [done|]. split; [constructor|by left]. }
  destruct args as [|s r]; [exists [], fl, []; split; [done|]; split; [constructor|by left]|]. cbn in Hk.
  assert (Hstop : (not_flag s \/ s = lit "--" \/ (exists d n v, dashes d /\ body_start (n ++ v) /\ (v = [] \/ exists w, v = lit "=" ++ w) /\ s = d ++ n ++ v /\ (n = lit "h" \/ n = lit "help")) \/ parse_flags (s :: r) fl = FlagBad) ->
    exists a fl' rest, s :: r = a ++ rest /\ flags_args a fl fl' /\
      (rest = [] \/ exists s r, rest = s :: r /\ (not_flag s \/ s = lit "--" \/ (exists d n v, dashes d /\ body_start (n ++ v) /\ (v = [] \/ exists w, v = lit "=" ++ w) /\ s = d ++ n ++ v /\ (n = lit "h" \/ n = lit "help")) \/ parse_flags rest fl' = FlagBad))).
  { intros H. exists [], fl, (s :: r). split; [done|]. split; [constructor|]. right. by exists s, r. }
  assert (Hgo : forall a fl1 r', s :: r = a ++ r' -> flag_args a fl fl1 -> length r' <= k ->
    exists a fl' rest, s :: r = a ++ rest /\ flags_args a fl fl' /\
      (rest = [] \/ exists s r, rest = s :: r /\ (not_flag s \/ s = lit "--" \/ (exists d n v, dashes d /\ body_start (n ++ v) /\ (v = [] \/ exists w, v = lit "=" ++ w) /\ s = d ++ n ++ v /\ (n = lit "h" \/ n = lit "help")) \/ parse_flags rest fl' = FlagBad))).
  { intros a fl1 r' E Ha Hl. destruct (IH r' Hl fl1) as (a' & fl' & rest & -> & Ha' & Hr). exists (a ++ a'), fl', rest. split; [by rewrite E, app_assoc|]. split; [by econstructor|done]. }
  destruct fl as [c o].
  destruct (first_arg s) as [H|[H|[(d & body & Hd & Hb & E)|H]]]; [apply Hstop; by left|apply Hstop; by right; left| |apply Hstop; do 3 right; apply H].
  pose proof (parse_flag d body r (GenFlags c o) Hd Hb) as Ep. rewrite <- E in Ep. unfold flag_body in Ep.
  assert (Hne : body <> []) by (destruct Hb as (b & q & -> & _); done).
  destruct (flag_split body) as [n v] eqn:Es. pose proof (flag_split_spec body n v Hne Es) as Hs. clear Es.
  destruct (decide (n = lit "clean")) as [->|N1].
  { destruct v as [v|].
    - destruct (parse_bool v) as [b|] eqn:Eb; [|apply Hstop; by do 3 right]. apply says_bool_iff in Eb.
      apply (Hgo [s] (GenFlags b o) r); [done| |lia]. rewrite E, Hs. by constructor.
    - apply (Hgo [s] (GenFlags true o) r); [done| |lia]. rewrite E, Hs. by constructor. }
  destruct (decide (n = lit "output")) as [->|N2].
  { destruct v as [v|].
    - apply (Hgo [s] (GenFlags c v) r); [done| |lia]. rewrite E, Hs. by constructor.
    - destruct r as [|v r]; [apply Hstop; by do 3 right|]. apply (Hgo [s; v] (GenFlags c v) r); [done| |cbn in Hk; lia]. rewrite E, Hs. by constructor. }
  destruct (decide (n = lit "help" \/ n = lit "h")) as [Hn|N3]; [|apply Hstop; by do 3 right].
  apply Hstop. right. right. left. destruct v as [v|].
  - exists d, n, (lit "=" ++ v). split; [done|]. rewrite <- Hs. split; [done|]. split; [right; by exists v|]. split; [done|tauto].
  - exists d, n, []. split; [done|]. rewrite app_nil_r, <- Hs. split; [done|]. split; [by left|]. split; [done|]. rewrite Hs. tauto.
Qed.
Lemma parse_help s rest fl : help_name s -> parse_flags (s :: rest) fl = FlagHelp.
Proof.
  intros (d & n & v & Hd & Hn & Hv & ->). rewrite parse_flag; [|done|].
  - unfold flag_body. destruct Hv as [->|[w ->]]; destruct Hn as [->| ->]; reflexivity.
  - destruct Hn as [->| ->]; eexists _, _; (split; [reflexivity|done]).
Qed.
(** What rtcg-gen makes of its arguments. *)
Theorem C83_flags : forall args fl rest, parse_flags args default_flags = FlagsOk fl rest <-> command_line args fl rest.
Proof.
  intros args fl rest. split.
  - intros H. destruct (flags_end args default_flags) as (a & fl' & r & -> & Ha & Hr). rewrite (flags_args_step _ _ _ _ Ha) in H.
    destruct Hr as [->|(s & r' & -> & [Hs|[->|[(d & n & v & Hd & Hb & Hv & -> & Hn)|Hs]]])].
    + injection H as -> <-. by constructor.
    + rewrite parse_plain in H by done. injection H as -> <-. constructor; [done|]. by intros s' [= ->].
    + injection H as -> ->. by constructor.
    + rewrite parse_help in H; [done|]. by exists d, n, v.
    + by rewrite Hs in H.
  - intros [a fl' r Ha Hr|a fl' r Ha]; rewrite (flags_args_step _ _ _ _ Ha); [|done]. destruct r as [|s r]; [done|]. apply parse_plain. by apply Hr.
Qed.
Theorem C83_help : forall args, parse_flags args default_flags = FlagHelp <-> help_line args.
Proof.
  intros args. split.
  - intros H. destruct (flags_end args default_flags) as (a & fl' & r & -> & Ha & Hr). rewrite (flags_args_step _ _ _ _ Ha) in H.
    destruct Hr as [->|(s & r' & -> & [Hs|[->|[(d & n & v & Hd & Hb & Hv & -> & Hn)|Hs]]])]; [done| | |..].
    + by rewrite parse_plain in H.
    + done.
    + exists a, fl', (d ++ n ++ v), r'. split; [done|]. split; [|done]. exists d, n, v. done.
    + by rewrite Hs in H.
  - intros (a & fl & s & rest & Ha & Hs & ->). rewrite (flags_args_step _ _ _ _ Ha). by apply parse_help.
Qed.

(** ** Files by name *)
Lemma walk_path_iff f comps : forall cur q, walk_path f cur comps = Some q <->
  q = fold_left walk_comp comps cur /\ forall l r, comps = l ++ r -> r <> [] -> is_dir f (fold_left walk_comp l cur).
Proof.
  induction comps as [|c r IH]; intros cur q; cbn [walk_path fold_left].
  { split; [intros [= <-]; split; [done|]|by intros [-> _]]. intros l r E Hr. symmetry in E. by apply app_eq_nil in E as [-> ->]. }
  destruct (bool_decide_reflect (cur = [] \/ cur ∈ fs_dirs f)) as [H|H].
  - rewrite IH. apply and_iff_compat_l. split.
    + intros Hd [|x l] r' E Hr; [done|]. injection E as <- ->. cbn. by eapply Hd.
    + intros Hd l r' -> Hr. by apply (Hd (c :: l) r').
  - split; [done|]. intros [_ Hd]. exfalso. apply H. by apply (Hd [] (c :: r)).
Qed.
Lemma split_all_parts s : forall l r, split_all "/" s = l ++ r -> l <> [] -> r <> [] ->
  exists a b, s = a ++ "/"%char :: b /\ split_all "/" a = l /\ split_all "/" b = r.
Proof.
  induction s as [|c s IH]; intros l r E Hl Hr.
  { cbn in E. destruct l as [|x [|y l]]; [done| |discriminate E]. injection E as _ E. symmetry in E. done. }
  cbn [split_all] in E. destruct (Ascii.eqb_spec c "/") as [->|N].
  - destruct l as [|x l]; [done|]. injection E as <- E. destruct l as [|y l].
    + exists [], s. by cbn in E.
    + destruct (IH (y :: l) r E) as (a & b & -> & Ha & Hb); [done|done|]. exists ("/"%char :: a), b. split; [done|]. split; [|done]. cbn. by rewrite Ha.
  - destruct (split_all "/" s) as [|x xs] eqn:Es; [by apply PathProofs.split_all_ne in Es|]. destruct l as [|y l]; [done|]. injection E as <- E.
    destruct l as [|z l].
    + cbn in E. subst xs. destruct (IH [x] r) as (a & b & -> & Ha & Hb); [done|done|done|]. exists (c :: a), b. split; [done|]. split; [|done].
      cbn [split_all]. rewrite (proj2 (Ascii.eqb_neq c "/")) by done. by rewrite Ha.
    + destruct (IH (x :: z :: l) r) as (a & b & -> & Ha & Hb); [cbn; by rewrite E|done|done|]. exists (c :: a), b. split; [done|]. split; [|done].
      cbn [split_all]. rewrite (proj2 (Ascii.eqb_neq c "/")) by done. by rewrite Ha.
Qed.
Theorem C83_open : forall cwd f p text, is_dir f cwd -> open_path cwd f p = Some text <-> opens cwd f p text.
Proof.
  intros cwd f p text Hcwd. unfold open_path, opens. destruct (decide (p = [])) as [->|Hne]; [split; [done|by intros [? _]]|].
  assert (Hfb : forall q, file_bytes f q = Some text <-> fs_files f !! q = Some (Bytes text)).
  { intros q. unfold file_bytes. destruct (fs_files f !! q) as [[]|]; split; intros E; try discriminate E; by injection E as ->. }
  assert (Hst : is_dir f (if is_rooted p then [] else cwd)) by (destruct (is_rooted p); [by left|done]).
  set (st := if is_rooted p then [] else cwd) in *.
  assert (Hpre : (forall l r, split_all "/" p = l ++ r -> r <> [] -> is_dir f (fold_left walk_comp l st)) <-> (forall a r, p = a ++ "/"%char :: r -> a <> [] -> is_dir f (resolve cwd a))).
  { split.
    - intros H a r -> Ha. unfold resolve. assert (is_rooted a = is_rooted (a ++ "/"%char :: r)) as -> by (by destruct a). apply (H _ (split_all "/" r)); [apply PathProofs.split_all_app|apply PathProofs.split_all_ne].
    - intros H l r E Hr. destruct l as [|x l]; [done|]. destruct (split_all_parts p (x :: l) r E) as (a & b & -> & Ha & Hb); [done|done|].
      destruct a as [|c a].
      { cbn in Ha. injection Ha as <- <-. by left. }
      specialize (H (c :: a) b eq_refl ltac:(done)). unfold resolve in H. rewrite Ha in H. exact H. }
  destruct (walk_path f st (split_all "/" p)) as [q|] eqn:Ew.
  - apply walk_path_iff in Ew as [-> Hd]. rewrite Hfb. split.
    + intros H. split; [done|]. split; [exact H|]. by apply Hpre.
    + by intros (_ & H & _).
  - split; [done|]. intros (_ & _ & H). rewrite (proj2 (walk_path_iff _ _ _ _) (conj eq_refl (proj2 Hpre H))) in Ew. done.
Qed.
(** A path that is already as short as it can be needs nothing else: what is before a file is a directory
    (so rtcg-gen, which shortens its paths first, opens whatever they name). *)
Lemma walk_up f k : forall cur r, wf_fs f -> is_dir f cur -> walk_path f cur (repeat (lit "..") k ++ r) = walk_path f (fold_left walk_comp (repeat (lit "..") k) cur) r.
Proof.
  induction k as [|k IH]; intros cur r Hwf Hd; [done|]. cbn [repeat app walk_path fold_left]. rewrite bool_decide_eq_true_2 by exact Hd. rewrite walk_dots.
  assert (Hp : removelast cur `prefix_of` cur). { destruct cur as [|c l] using rev_ind; [done|]. rewrite removelast_last. by exists [c]. }
  apply IH; [done|]. by eapply (wf_dirs _ Hwf).
Qed.
Lemma walk_down f ns : forall cur, wf_fs f -> Forall normal ns -> is_dir f (removelast (cur ++ ns)) -> ns <> [] -> walk_path f cur ns = Some (cur ++ ns).
Proof.
  intros cur Hwf Hn Hd Hne. apply walk_path_iff. split.
  - clear Hd Hne. revert cur. induction Hn as [|c ns Hc Hn IH]; intros cur; [by rewrite app_nil_r|]. cbn [fold_left]. rewrite walk_normal by done. rewrite <- IH. by rewrite <- app_assoc.
  - intros l r -> Hr. apply Forall_app in Hn as [Hl _]. assert (Hw : forall cur, fold_left walk_comp l cur = cur ++ l).
    { clear Hd Hne. induction Hl as [|c ns Hc Hl IH]; intros x; [by rewrite app_nil_r|]. cbn [fold_left]. rewrite walk_normal by done. rewrite IH. by rewrite <- app_assoc. }
    rewrite Hw. destruct (exists_last Hr) as (r' & x & ->). rewrite !app_assoc, removelast_last in Hd. eapply (wf_dirs _ Hwf); [|exact Hd]. by eexists.
Qed.
Lemma rooted_clean p : is_rooted (clean p) = is_rooted p.
Proof.
  destruct (clean_comps_of p) as (k & ns & E & Ec & Hn & Hk & _). rewrite E. pose proof (clean_comps_no_slash p) as Hsl. rewrite Ec in Hsl.
  unfold render_path. destruct (is_rooted p); [done|]. destruct (join "/" (repeat (lit "..") k ++ ns)) as [|a r] eqn:Ej; [done|]. rewrite <- Ej. apply join_rooted; [done|by apply comps_nonempty].
Qed.
Theorem C83_clean_paths : forall cwd f p text, wf_fs f -> is_dir f cwd ->
  open_path cwd f (clean p) = Some text <-> fs_files f !! resolve cwd p = Some (Bytes text).
Proof.
  intros cwd f p text Hwf Hcwd. split; [intros H; apply C83_open in H as (_ & H & _); [by rewrite resolve_clean in H|done]|].
  intros Hx. unfold open_path. rewrite decide_False by apply clean_ne.
  assert (walk_path f (if is_rooted (clean p) then [] else cwd) (split_all "/" (clean p)) = Some (resolve cwd p)) as ->; [|unfold file_bytes; by rewrite Hx].
  rewrite rooted_clean, split_clean. destruct (clean_comps_of p) as (k & ns & _ & Ec & Hn & Hk & Hp). rewrite Ec in *. rewrite Hp in *.
  destruct (decide (ns = [])) as [->|Hne].
  { exfalso. apply (wf_disjoint _ Hwf _ _ Hx). rewrite app_nil_r. destruct (is_rooted p); [by left|]. eapply (wf_dirs _ Hwf); [|exact Hcwd]. exists (drop (length cwd - k) cwd). symmetry. apply take_drop. }
  rewrite decide_False by (intros [_ ?]%app_eq_nil; done). destruct (is_rooted p) eqn:Er.
  - rewrite (Hk eq_refl). cbn [repeat app]. cbn [walk_path]. rewrite bool_decide_eq_true_2 by (by left). change (walk_comp [] []) with (@nil gostr). apply walk_down; [done|done| |done]. apply (wf_files _ Hwf _ _ Hx).
  - cbn [app]. rewrite walk_up by done. rewrite repeat_dots. apply walk_down; [done|done| |done]. apply (wf_files _ Hwf _ _ Hx).
Qed.

(** ** Exit codes of the tools *)
Lemma tool_open cwd f stdin name args : is_dir f cwd ->
  (exists p, parse_tool_args (name :: args) = ArgOk p /\ forall text, open_input cwd stdin f p = Some text <-> tool_reads cwd f stdin args text) \/
  (parse_tool_args (name :: args) = ErrBadArgs /\ forall text, ~ tool_reads cwd f stdin args text).
Proof.
  intros Hcwd. unfold parse_tool_args, parse_file_argument, open_input. destruct args as [|p [|q args]]; cbn [length].
  - left. exists stdin_path. split; [done|]. intros text. rewrite decide_True by done. split; [intros [= ->]; constructor|by inversion 1].
  - left. exists p. split; [done|]. intros text. destruct (decide (p = stdin_path)) as [->|Hp].
    + split; [intros [= ->]; constructor|]. inversion 1; [done|]. by subst.
    + rewrite C83_open by done. split; [by constructor|]. inversion 1; subst; [by destruct Hp|done].
  - right. split; [|by inversion 1]. rewrite !decide_False by lia. done.
Qed.
Theorem C83_read_traces : forall ord cwd f stdin args code out, is_dir f cwd -> proc_read_traces ord cwd f stdin args = (code, out) ->
  (code = 0%N /\ exists text, tool_reads cwd f stdin args text /\ run_read_traces ord text = Ok out) \/
  (code = 1%N /\ out = [] /\ forall text, tool_reads cwd f stdin args text -> exists e, run_read_traces ord text = Err e) \/
  (code = 2%N /\ out = [] /\ exists text, tool_reads cwd f stdin args text /\ run_read_traces ord text = Panic).
Proof.
  intros ord cwd f stdin args code out Hcwd. unfold proc_read_traces.
  destruct (tool_open cwd f stdin (lit "rtcg-read-traces") args Hcwd) as [(p & -> & Ho)|[-> Ho]].
  - destruct (open_input cwd stdin f p) as [text|] eqn:E.
    + pose proof (proj1 (Ho text) eq_refl) as Ht. assert (Hu : forall t, tool_reads cwd f stdin args t -> t = text) by (intros t Hx%Ho; congruence).
      destruct (run_read_traces ord text) as [x|e|] eqn:Er; intros [= <- <-].
      * left. split; [done|]. by exists text.
      * right. left. do 2 (split; [done|]). intros t ->%Hu. by exists e.
      * right. right. do 2 (split; [done|]). by exists text.
    + intros [= <- <-]. right. left. do 2 (split; [done|]). by intros t Hx%Ho.
  - intros [= <- <-]. right. left. do 2 (split; [done|]). by intros t Hx%Ho.
Qed.
Theorem C83_make_stms : forall o cwd f stdin args code out, is_dir f cwd -> proc_make_stms o cwd f stdin args = (code, out) ->
  (code = 0%N /\ exists text, tool_reads cwd f stdin args text /\ run_make_stms o text = Ok out) \/
  (code = 1%N /\ out = [] /\ forall text, tool_reads cwd f stdin args text -> exists e, run_make_stms o text = Err e) \/
  (code = 2%N /\ out = [] /\ exists text, tool_reads cwd f stdin args text /\ run_make_stms o text = Panic).
Proof.
  intros o cwd f stdin args code out Hcwd. unfold proc_make_stms.
  destruct (tool_open cwd f stdin (lit "rtcg-make-stms") args Hcwd) as [(p & -> & Ho)|[-> Ho]].
  - destruct (open_input cwd stdin f p) as [text|] eqn:E.
    + pose proof (proj1 (Ho text) eq_refl) as Ht. assert (Hu : forall t, tool_reads cwd f stdin args t -> t = text) by (intros t Hx%Ho; congruence).
      destruct (run_make_stms o text) as [x|e|] eqn:Er; intros [= <- <-].
      * left. split; [done|]. by exists text.
      * right. left. do 2 (split; [done|]). intros t ->%Hu. by exists e.
      * right. right. do 2 (split; [done|]). by exists text.
    + intros [= <- <-]. right. left. do 2 (split; [done|]). by intros t Hx%Ho.
  - intros [= <- <-]. right. left. do 2 (split; [done|]). by intros t Hx%Ho.
Qed.
Theorem C83_gen : forall xml ord cwd f stdin args f' code, wf_fs f -> is_dir f cwd -> proc_gen xml ord cwd f stdin args = (f', code) ->
  gen_process xml ord cwd f stdin args f' code.
Proof.
  intros xml ord cwd f stdin args f' code Hwf Hcwd. unfold proc_gen. destruct (parse_flags args default_flags) as [fl argv| |] eqn:Ep.
  - apply C83_flags in Ep. destruct argv as [|c [|i [|x argv]]].
    + intros [= <- <-]. by eapply gp_bad_args.
    + change (parse_gen_args [c]) with (GenArgs c (lit "-")). cbv beta iota. destruct (run_gen_nulls _ _ _ _ _ _) as [f1 e] eqn:Er. pose proof (C90_outcome xml ord cwd stdin (GenAction (gf_clean fl) (gf_output fl) c (lit "-")) f Hwf Hcwd) as H. rewrite Er in H. cbn [fst snd] in H.
      intros [= <- <-]. eapply (gp_run _ _ _ _ _ _ _ _ _ _ _ e); [exact Ep|by left|exact H].
    + change (parse_gen_args [c; i]) with (GenArgs c i). cbv beta iota. destruct (run_gen_nulls _ _ _ _ _ _) as [f1 e] eqn:Er. pose proof (C90_outcome xml ord cwd stdin (GenAction (gf_clean fl) (gf_output fl) c i) f Hwf Hcwd) as H. rewrite Er in H. cbn [fst snd] in H.
      intros [= <- <-]. eapply (gp_run _ _ _ _ _ _ _ _ _ _ _ e); [exact Ep|by right|exact H].
    + unfold parse_gen_args, parse_file_argument. rewrite !decide_False by (cbn [length]; lia). intros [= <- <-]. eapply gp_bad_args; [exact Ep|..]; cbn [length]; lia.
  - intros [= <- <-]. apply gp_help. by apply C83_help.
  - intros [= <- <-]. apply gp_bad_flags.
    + intros H%C83_help. congruence.
    + intros fl rest H%C83_flags. congruence.
Qed.

(** ** rtcg.sh *)
Definition sh_action (conf : gostr) : gen_action := GenAction false (lit "out") conf (lit "-").
Lemma proc_gen_plain xml ord cwd f stdin conf : not_flag conf -> no_nulls stdin ->
  proc_gen xml ord cwd f stdin [conf; lit "-"] = match run_gen xml gen_input ord cwd stdin (sh_action conf) f with (f', None) => (f', 0%N) | (f', Some _) => (f', 1%N) end.
Proof.
  intros H Hn. unfold proc_gen. rewrite parse_plain by done. change (parse_gen_args [conf; lit "-"]) with (GenArgs conf (lit "-")). cbv beta iota.
  change (GenAction (gf_clean default_flags) (gf_output default_flags) conf (lit "-")) with (sh_action conf). rewrite C90_agrees.
  - by destruct (run_gen _ _ _ _ _ _ _) as [f' [e|]].
  - intros text E. change (Some stdin = Some text) in E. injection E as <-. exact Hn.
Qed.
Lemma no_text_no_nulls : no_nulls [].
Proof. assert (E : read_stm_suite [] = Err JSyntax) by (vm_compute; reflexivity). intros r Hr. pose proof (eq_trans (eq_sym E) Hr) as H. discriminate H. Qed.
Lemma run_make_stms_no_nulls o text out : run_make_stms o text = Ok out -> no_nulls out.
Proof.
  unfold run_make_stms. destruct (read_suite text) as [s| |]; [|discriminate..]. destruct (full_suite _) as [vs| |]; [|discriminate..]. destruct (build_suite _ _ _) as [stms| |]; [|discriminate..].
  destruct (write_stm_suite _ _) as [x| |] eqn:Ew; [|discriminate..]. intros [= <-]. exact (C90_tools _ _ _ Ew).
Qed.
Lemma make_stms_no_nulls o cwd f stdin args code out : proc_make_stms o cwd f stdin args = (code, out) -> no_nulls out.
Proof.
  unfold proc_make_stms. destruct (parse_tool_args _) as [p| |]; [|intros [= _ <-]; exact no_text_no_nulls..]. destruct (open_input cwd stdin f p) as [text|]; [|intros [= _ <-]; exact no_text_no_nulls].
  destruct (run_make_stms o text) as [t|e|] eqn:E; cbn [finish]; intros [= _ <-]; [|exact no_text_no_nulls..]. exact (run_make_stms_no_nulls _ _ _ E).
Qed.
Lemma gen_no_input xml ord cwd f conf : run_gen xml gen_input ord cwd [] (sh_action conf) f = (f, Some ReadSuiteErr).
Proof. reflexivity. Qed.
(** The traces are looked for where rtcg-read-traces looks. *)
Lemma sh_traces_arg xml o cwd f stdin args conf targs : sh_args args conf targs ->
  exists code out code2 out2, proc_read_traces (sh_traces o) cwd f stdin targs = (code, out) /\
    proc_make_stms (sh_stms o) cwd f out [lit "-"] = (code2, out2) /\
    rtcg_sh xml o cwd f stdin args = proc_gen xml (sh_gen o) cwd f out2 [conf; lit "-"].
Proof.
  intros H. assert (E : exists t, rtcg_sh xml o cwd f stdin args = sh_pipe xml o cwd f stdin conf t /\ proc_read_traces (sh_traces o) cwd f stdin [t] = proc_read_traces (sh_traces o) cwd f stdin targs).
  { destruct H as [conf|conf t]; [exists (lit "-")|exists t]; done. }
  destruct E as (t & -> & <-). unfold sh_pipe. destruct (proc_read_traces _ _ _ _ _) as [code out] eqn:E1.
  destruct (proc_make_stms _ _ _ _ _) as [code2 out2] eqn:E2. by exists code, out, code2, out2.
Qed.
(** rtcg.sh hides no failure: its exit code is 0 exactly if all three tools succeed, and 1 otherwise; and
    nothing is written or deleted unless there are machines to generate from. *)
Theorem C84_no_hidden_failure : forall xml o cwd f stdin args conf targs f' code, is_dir f cwd ->
  sh_args args conf targs -> not_flag conf -> rtcg_sh xml o cwd f stdin args = (f', code) ->
  (code = 0%N \/ code = 1%N) /\ nothing_deleted f f' /\
  (code = 0%N <-> exists text tests stms, tool_reads cwd f stdin targs text /\ run_read_traces (sh_traces o) text = Ok tests /\
    run_make_stms (sh_stms o) tests = Ok stms /\ run_gen xml gen_input (sh_gen o) cwd stms (sh_action conf) f = (f', None)) /\
  ((forall text tests stms, tool_reads cwd f stdin targs text -> run_read_traces (sh_traces o) text = Ok tests -> run_make_stms (sh_stms o) tests <> Ok stms) -> f' = f /\ code = 1%N).
Proof.
  intros xml o cwd f stdin args conf targs f' code Hcwd Ha Hnf Hrun.
  destruct (sh_traces_arg xml o cwd f stdin args conf targs Ha) as (c1 & out & c2 & out2 & E1 & E2 & E3). rewrite E3 in Hrun. rewrite proc_gen_plain in Hrun by first [exact Hnf|exact (make_stms_no_nulls _ _ _ _ _ _ _ E2)].
  assert (Hrun2 : exists e, run_gen xml gen_input (sh_gen o) cwd out2 (sh_action conf) f = (f', e) /\ code = if e then 1%N else 0%N).
  { destruct (run_gen _ _ _ _ _ _ _) as [f1 e]. exists e. destruct e; injection Hrun as -> <-; done. }
  clear Hrun E3. destruct Hrun2 as (e & Hrun & Hcode).
  assert (Hdel : nothing_deleted f f') by (pose proof (C56_no_clean_no_deletion xml gen_input (sh_gen o) cwd out2 (sh_action conf) f eq_refl) as H; by rewrite Hrun in H).
  assert (Hempty : out2 = [] -> f' = f /\ e = Some ReadSuiteErr) by (intros ->; rewrite gen_no_input in Hrun; by injection Hrun as -> ->).
  split; [destruct e; subst; tauto|]. split; [exact Hdel|].
  assert (Hcase : (exists text tests stms, tool_reads cwd f stdin targs text /\ run_read_traces (sh_traces o) text = Ok tests /\ run_make_stms (sh_stms o) tests = Ok stms /\ out2 = stms) \/ 
     (out2 = [] /\ forall text tests stms, tool_reads cwd f stdin targs text -> run_read_traces (sh_traces o) text = Ok tests -> run_make_stms (sh_stms o) tests <> Ok stms)).
  { assert (Htu : forall t1 t2, tool_reads cwd f stdin targs t1 -> tool_reads cwd f stdin targs t2 -> t1 = t2).
    { intros t1 t2 H1 H2. destruct (tool_open cwd f stdin (lit "rtcg-read-traces") targs Hcwd) as [(p & _ & Ho)|[_ Ho]]; [|by apply Ho in H1]. apply Ho in H1, H2. congruence. }
    destruct (C83_read_traces (sh_traces o) cwd f stdin targs c1 out Hcwd E1) as [(-> & text & Ht & Hr)|[(-> & -> & Hr)|(_ & _ & text & _ & Hr)]].
    - destruct (C83_make_stms (sh_stms o) cwd f out [lit "-"] c2 out2 Hcwd E2) as [(-> & t2 & Ht2 & Hr2)|[(-> & -> & Hr2)|(_ & -> & t2 & Ht2 & Hr2)]].
      + left. exists text, out, out2. assert (t2 = out) as ->; [|done]. inversion Ht2; [done|]. by subst.
      + right. split; [done|]. intros t x stms H1 H2 H3. assert (x = out) as ->. { rewrite (Htu t text H1 Ht), Hr in H2. by apply Ok_inj in H2. }
        destruct (Hr2 out) as [er Her]; [constructor|]. rewrite H3 in Her. discriminate Her.
      + right. split; [done|]. intros t x stms H1 H2 H3. assert (x = out) as ->. { rewrite (Htu t text H1 Ht), Hr in H2. by apply Ok_inj in H2. }
        assert (t2 = out) as ->; [inversion Ht2; [done|]; by subst|]. rewrite H3 in Hr2. discriminate Hr2.
    - right. split.
      + change (proc_make_stms (sh_stms o) cwd f [] [lit "-"]) with (1%N, @nil ascii) in E2. by injection E2.
      + intros t x stms H1 H2 H3. destruct (Hr t H1) as [er Her]. rewrite H2 in Her. discriminate Her.
    - exfalso. by apply (C69_never_crashes (sh_traces o) text). }
  split.
  - split.
    + intros ->. destruct e; [discriminate Hcode|]. destruct Hcase as [(text & tests & stms & H1 & H2 & H3 & ->)|[Ho2 _]]; [|by destruct (Hempty Ho2)]. by exists text, tests, stms.
    + intros (text & tests & stms & H1 & H2 & H3 & H4). destruct Hcase as [(text' & tests' & stms' & H1' & H2' & H3' & ->)|[_ Hno]]; [|by destruct (Hno text tests stms H1 H2)].
      assert (text' = text) as ->.
      { destruct (tool_open cwd f stdin (lit "rtcg-read-traces") targs Hcwd) as [(p & _ & Ho)|[_ Ho]]; [|by apply Ho in H1]. apply Ho in H1, H1'. congruence. }
      rewrite H2 in H2'. apply Ok_inj in H2'. subst tests'. rewrite H3 in H3'. apply Ok_inj in H3'. subst stms'. rewrite H4 in Hrun. injection Hrun as <-. exact Hcode.
  - intros Hno. destruct Hcase as [(text & tests & stms & H1 & H2 & H3 & ->)|[Ho2 _]]; [by destruct (Hno text tests stms H1 H2)|]. destruct (Hempty Ho2) as [-> ->]. done.
Qed.
Theorem C84_usage : forall xml o cwd f stdin args, (forall conf targs, ~ sh_args args conf targs) -> rtcg_sh xml o cwd f stdin args = (f, 1%N).
Proof. intros xml o cwd f stdin [|a [|b [|c l]]] H; [done| | |done]; exfalso; eapply H; constructor. Qed.
(** The first argument is a directory, going by the usage line; but with one nothing is ever generated. *)
Theorem C84_directory : forall xml o cwd f stdin args conf targs, wf_fs f -> is_dir f cwd -> sh_args args conf targs -> not_flag conf ->
  is_dir f (resolve cwd conf) -> rtcg_sh xml o cwd f stdin args = (f, 1%N).
Proof.
  intros xml o cwd f stdin args conf targs Hwf Hcwd Ha Hnf Hd.
  destruct (sh_traces_arg xml o cwd f stdin args conf targs Ha) as (c1 & out & c2 & out2 & E1 & E2 & ->). rewrite proc_gen_plain by first [exact Hnf|exact (make_stms_no_nulls _ _ _ _ _ _ _ E2)].
  destruct (run_gen xml gen_input (sh_gen o) cwd out2 (sh_action conf) f) as [f' e] eqn:Er.
  pose proof (C78_outcome xml gen_input (sh_gen o) cwd out2 (sh_action conf) f Hwf Hcwd) as H. rewrite Er in H. cbn [fst snd] in H.
  assert (Hnc : forall c f1, prepared cwd (sh_action conf) f f1 -> f1 = f /\ ~ reads_config xml cwd f1 (ga_config (sh_action conf)) c).
  { intros c f1 Hp. inversion Hp as [_ E|? HC]; [|discriminate HC]. subst f1. split; [done|]. intros (text & c0 & Hx & _). by apply (wf_disjoint _ Hwf _ _ Hx). }
  inversion H as [|s Hs Hc|s f1 Hs Hc|s f1 Hs Hp Hc|s f1 c f2 e' Hs Hp Hc]; subst.
  - reflexivity.
  - discriminate Hc.
  - discriminate Hc.
  - destruct (Hnc (Config [] []) f' Hp) as [-> _]. reflexivity.
  - destruct (Hnc c f1 Hp) as [_ []]. exact Hc.
Qed.

(** Without -clean rtcg.sh cannot delete anything; but a configuration file whose name looks like a flag
    is taken for one, and the old output goes. *)
Theorem C84_flag_refuted : exists xml o cwd f stdin args p, wf_fs f /\ is_dir f cwd /\ any_sh_orders o /\ has_file f p /\
  ~ has_file (rtcg_sh xml o cwd f stdin args).1 p.
Proof.
  assert (Ho : any_order map_to_list) by (intros m; unfold order_of; done).
  destruct (C61_pipeline map_to_list some_orders w_file w_traces Ho some_orders_any w_file_read w_testable) as (x & y & s & names & H1 & H2 & H3 & _).
  exists (fun _ => None), (ShOrders map_to_list some_orders run_ord), ex_home, chain_fs, w_file, [lit "-clean"], [lit "home"; lit "out"; lit "old"].
  split; [exact chain_wf|]. split; [right; refine (bool_decide_eq_true_1 _ _); vm_compute; reflexivity|].
  split; [split; [exact Ho|split; [exact some_orders_any|by intros s' i]]|]. split; [eexists; vm_compute; reflexivity|].
  unfold rtcg_sh, sh_pipe. 
  change (proc_read_traces (sh_traces (ShOrders map_to_list some_orders run_ord)) ex_home chain_fs w_file [lit "-"]) with (finish (run_read_traces map_to_list w_file)).
  rewrite H1. cbn [finish].
  change (proc_make_stms (sh_stms (ShOrders map_to_list some_orders run_ord)) ex_home chain_fs x [lit "-"]) with (finish (run_make_stms some_orders x)).
  rewrite H2. cbn [finish].
  unfold proc_gen. change (parse_flags [lit "-clean"; lit "-"] default_flags) with (FlagsOk (GenFlags true (lit "out")) [lit "-"]). cbv beta iota.
  change (parse_gen_args [lit "-"]) with (GenArgs (lit "-") (lit "-")). cbv beta iota. cbn [gf_clean gf_output sh_gen].
  rewrite C90_agrees by (intros text E; change (Some y = Some text) in E; injection E as <-; exact (run_make_stms_no_nulls _ _ _ H2)).
  assert (Hrun : run_gen (fun _ => None) gen_input run_ord ex_home y (GenAction true (lit "out") (lit "-") (lit "-")) chain_fs = (remove_below [lit "home"; lit "out"] chain_fs, Some ConfigErr)).
  { unfold run_gen. change (read_input ex_home y chain_fs (clean (ga_input (GenAction true (lit "out") (lit "-") (lit "-"))))) with (Some y). cbn [option_bind mbind]. rewrite H3. reflexivity. }
  unfold same_run.
  rewrite Hrun. cbn [fst]. intros [z Hz]. vm_compute in Hz. discriminate Hz.
Qed.

Lemma make_stms_stdin o cwd f x : proc_make_stms o cwd f x [lit "-"] = finish (run_make_stms o x).
Proof. reflexivity. Qed.
(** From a file of traces and a configuration file to exit codes, with rtcg.sh. *)
Theorem C84_exit_codes : forall first second o text ts names xml e c args conf targs cwd f stdin f' code,
  any_sh_orders o -> sh_args args conf targs -> not_flag conf ->
  wf_fs f -> is_dir f cwd -> tool_reads cwd f stdin targs text ->
  read_traces text = Ok ts -> testable ts -> named ts names ->
  (forall i t name, ts !! i = Some t -> names !! i = Some name -> trace_names t name) ->
  fs_files f !! resolve cwd conf = Some (Bytes xml) -> document first second xml e -> says_config e c ->
  NoDup (map cc_variant (cf_cpps c)) -> code_dir cwd conf c <> cwd ++ [lit "out"] -> unused f (cwd ++ [lit "out"]) ->
  rtcg_sh (read_config first second) o cwd f stdin args = (f', code) ->
  (code = 0%N <-> forall cc, cc ∈ cf_cpps c ->
     (chain_overrides ts cc \/ lit "convert" ∈ names) /\
     (chain_overrides ts cc -> has_file f (code_dir cwd conf c ++ [variant_string (cc_variant cc); lit "src"; lit "convert"; lit "convert.cpp"]))) /\
  (code = 0%N -> exists tests stms s, run_read_traces (sh_traces o) text = Ok tests /\ run_make_stms (sh_stms o) tests = Ok stms /\ gen_input stms = Some s /\
     forall cc i t name, cc ∈ cf_cpps c -> ts !! i = Some t -> names !! i = Some name ->
       exists x, fs_files f' !! (cwd ++ [lit "out"; variant_string (cc_variant cc); lit "src"; name; lit "src"; lit "main.cpp"]) = Some x /\
       forall date, header_texts name date (cc_includes cc) ->
         (exists txt, file_text date x txt) /\
         forall txt, file_text date x txt ->
           (cc_variant cc = VAnimate -> animate_tests t (su_types s) txt) /\
           (cc_variant cc = VRos -> trace_topics t -> ros_tests t name (su_types s) txt)).
Proof.
  intros first second o text ts names xml e c args conf targs cwd f stdin f' code (Ho & Hos & Hgo) Ha Hnf Hwf Hcwd Htr Hr Htt Hnam Htn Hxml Hd Hsc Hnd Hsep Hun Hrun.
  destruct (C61_pipeline (sh_traces o) (sh_stms o) text ts Ho Hos Hr Htt) as (x1 & x2 & s & _ & H1 & H2 & H3 & _).
  destruct (C84_no_hidden_failure (read_config first second) o cwd f stdin args conf targs f' code Hcwd Ha Hnf Hrun) as (Hcode & _ & H0 & _).
  assert (Hout : resolve cwd (ga_output (sh_action conf)) = cwd ++ [lit "out"]) by reflexivity.
  assert (Hin : names_stdin (ga_input (sh_action conf))) by (by intros here).
  assert (Hpl : Forall plain_name names).
  { apply Forall_forall. intros k Hk. apply elem_of_list_lookup in Hk as [j Hj]. destruct (lookup_lt_is_Some_2 ts j) as [u Hu]; [destruct Hnam as [<- _]; by eapply lookup_lt_Some|].
    destruct (Htn j u k Hu Hj) as [[Hk _] _ _]. by apply ident_plain_name. }
  assert (Htu : forall t1, tool_reads cwd f stdin targs t1 -> t1 = text).
  { intros t1 Ht1. destruct (tool_open cwd f stdin (lit "rtcg-read-traces") targs Hcwd) as [(p & _ & Hop)|[_ Hop]]; [|by apply Hop in Ht1]. apply Hop in Ht1, Htr. congruence. }
  assert (Hgen : exists err, run_gen (read_config first second) gen_input (sh_gen o) cwd x2 (sh_action conf) f = (f', err) /\ (code = 0%N <-> err = None)).
  { destruct (run_gen (read_config first second) gen_input (sh_gen o) cwd x2 (sh_action conf) f) as [f2 err] eqn:Er.
    destruct (sh_traces_arg (read_config first second) o cwd f stdin args conf targs Ha) as (c1 & out & c2 & out2 & E1 & E2 & E3). rewrite E3 in Hrun. rewrite proc_gen_plain in Hrun by first [exact Hnf|exact (make_stms_no_nulls _ _ _ _ _ _ _ E2)].
    assert (out = x1) as ->.
    { destruct (C83_read_traces _ _ _ _ _ _ _ Hcwd E1) as [(_ & t & Ht & Hx)|[(_ & _ & Hx)|(_ & _ & t & Ht & Hx)]].
      - apply Htu in Ht. subst t. rewrite H1 in Hx. apply Ok_inj in Hx. exact Hx.
      - destruct (Hx text Htr) as [er Her]. rewrite H1 in Her. discriminate Her.
      - apply Htu in Ht. subst t. rewrite H1 in Hx. discriminate Hx. }
    assert (out2 = x2) as ->.
    { rewrite make_stms_stdin, H2 in E2. cbn [finish] in E2. by injection E2. }
    rewrite Er in Hrun. exists err. destruct err; injection Hrun as -> <-; done. }
  destruct Hgen as (err & Hgen & Herr).
  assert (Hunf : ga_clean (sh_action conf) = false -> unused f (resolve cwd (ga_output (sh_action conf)))) by (intros _; rewrite Hout; exact Hun).
  split.
  - rewrite Herr. apply (C82_succeeds first second (sh_traces o) (sh_stms o) (sh_gen o) text ts names xml e c (sh_action conf) cwd f f x1 x2 f' err); try assumption.
    + by constructor.
    + intros HC. discriminate HC.
  - intros E. apply Herr in E. subst err. exists x1, x2, s. split; [exact H1|]. split; [exact H2|]. split; [exact H3|]. intros cc i t name Hcc Hi Hn.
    destruct (C82_exit_codes first second (sh_traces o) (sh_stms o) (sh_gen o) text ts names xml e c (sh_action conf) cwd f x1 x2 Ho Hos Hgo Hr Htt Hnam Htn Hwf Hcwd Hin Hxml Hd Hsc Hnd Hsep H1 H2 f' Hgen cc i t name Hcc Hi Hn) as (x & s' & Hs' & Hx & Hrest).
    rewrite H3 in Hs'. injection Hs' as <-. exists x. rewrite Hout, <- app_assoc in Hx. split; [exact Hx|exact Hrest].
Qed.

(** *** Witnesses *)
Example C83_flags_witness :
  parse_flags [lit "--clean=F"; lit "-output"; lit "x=y"; lit "-clean"; lit "c.xml"; lit "-h"] default_flags = FlagsOk (GenFlags true (lit "x=y")) [lit "c.xml"; lit "-h"] /\
  parse_flags [lit "-output=-"; lit "--"; lit "-clean"] default_flags = FlagsOk (GenFlags false (lit "-")) [lit "-clean"] /\
  parse_flags [lit "-clean"; lit "-help=3"] default_flags = FlagHelp /\ parse_flags [lit "-clean"; lit "---h"] default_flags = FlagBad /\
  parse_flags [lit "-output"] default_flags = FlagBad /\ parse_flags [lit "-clean=yes"] default_flags = FlagBad.
Proof. split_and!; vm_compute; reflexivity. Qed.
(** A slash after the name of a file: rtcg-read-traces and rtcg-make-stms do not find it; and ./- is a
    file for them, but the standard input for rtcg-gen. *)
Definition proc_fs : fs := list_fs [[lit "home"]] [([lit "home"; lit "t.csv"], Bytes w_file); ([lit "home"; lit "-"], Bytes (lit "dash"))].
Example C83_open_witness : wf_fs proc_fs /\ is_dir proc_fs ex_home /\
  open_path ex_home proc_fs (lit "../home/t.csv") = Some w_file /\ open_path ex_home proc_fs (lit "t.csv/") = None /\
  open_path ex_home proc_fs (lit "x/../t.csv") = None /\ open_path ex_home proc_fs (clean (lit "x/../t.csv/")) = Some w_file /\
  open_input ex_home [] proc_fs (lit "./-") = Some (lit "dash") /\ read_input ex_home [] proc_fs (clean (lit "./-")) = Some [].
Proof.
  split; [apply wf_listb_ok; vm_compute; reflexivity|]. split; [right; refine (bool_decide_eq_true_1 _ _); vm_compute; reflexivity|]. split_and!; vm_compute; reflexivity.
Qed.
Definition sh_ord : sh_orders := ShOrders map_to_list some_orders run_ord.
(** rtcg.sh on the traces of C61 and the configuration of C82, with nothing in the output directory. *)
Definition sh_files : list (fpath * content) :=
  [(ex_source (lit "animate"), Bytes (lit "A")); (ex_source (lit "ros"), Bytes (lit "R")); ([lit "home"; lit "in"; lit "rtcg.xml"], Bytes chain_xml); ([lit "home"; lit "in"; lit "t.csv"], Bytes w_file)].
Definition sh_dirs : list fpath := List.filter (fun p => negb (bool_decide ([lit "home"; lit "out"] `prefix_of` p))) run_dirs.
Definition sh_fs : fs := list_fs sh_dirs sh_files.
Example C84_witness : forall first second, exists f', rtcg_sh (read_config first second) sh_ord ex_home sh_fs [] [lit "in/rtcg.xml"; lit "./in/t.csv"] = (f', 0%N).
Proof.
  intros first second. destruct (rtcg_sh (read_config first second) sh_ord ex_home sh_fs [] [lit "in/rtcg.xml"; lit "./in/t.csv"]) as [f' code] eqn:Er. exists f'. f_equal.
  assert (Ho : any_order map_to_list) by (intros m; unfold order_of; done).
  assert (Hd : exists e, document first second chain_xml e /\ says_config e chain_conf) by (apply C81_only; vm_compute; reflexivity).
  destruct Hd as (e & Hd & Hs).
  assert (Hwf : wf_fs sh_fs) by (apply wf_listb_ok; vm_compute; reflexivity).
  assert (Hcwd : is_dir sh_fs ex_home) by (right; refine (bool_decide_eq_true_1 _ _); vm_compute; reflexivity).
  destruct (C61_pipeline map_to_list some_orders w_file w_traces Ho some_orders_any w_file_read w_testable) as (x & y & s & names & _ & _ & _ & Hn & _).
  pose proof (w_names names Hn) as ->.
  apply (C84_exit_codes first second sh_ord w_file w_traces [lit "a"; lit "test0"] chain_xml e chain_conf [lit "in/rtcg.xml"; lit "./in/t.csv"] (lit "in/rtcg.xml") [lit "./in/t.csv"] ex_home sh_fs [] f' code).
  - split; [exact Ho|]. split; [exact some_orders_any|]. by intros s' i.
  - constructor.
  - right. discriminate.
  - exact Hwf.
  - exact Hcwd.
  - constructor; [discriminate|]. apply C83_open; [exact Hcwd|]. vm_compute. reflexivity.
  - exact w_file_read.
  - exact w_testable.
  - exact Hn.
  - exact chain_names.
  - vm_compute. reflexivity.
  - exact Hd.
  - exact Hs.
  - apply (bool_decide_eq_true_1 _); vm_compute; reflexivity.
  - refine (bool_decide_eq_false_1 _ _); vm_compute; reflexivity.
  - split.
    + intros p z H. unfold sh_fs, list_fs in H. cbn [fs_files] in H. apply elem_of_list_to_map_2 in H.
      assert (Hall : Forall (fun kv : fpath * content => ~ [lit "home"; lit "out"] `prefix_of` kv.1 /\ ~ kv.1 `prefix_of` [lit "home"; lit "out"]) sh_files) by (repeat constructor; refine (bool_decide_eq_false_1 _ _); vm_compute; reflexivity).
      rewrite List.Forall_forall in Hall. apply elem_of_list_In in H. exact (Hall _ H).
    + intros p H Hpre. exfalso. revert H Hpre. unfold sh_fs, list_fs. cbn [fs_dirs]. rewrite elem_of_list_to_set. intros Hin.
      assert (Hall : Forall (fun p => ~ [lit "home"; lit "out"] `prefix_of` p) sh_dirs) by (refine (bool_decide_eq_true_1 _ _); vm_compute; reflexivity).
      rewrite Forall_forall in Hall. by apply Hall.
  - exact Er.
  - intros cc Hcc. apply elem_of_list_In in Hcc. assert (Ht0 : Forbidden (lit "a") [w_ev (lit "c") KIn (Some (IntV 3))] (w_ev (lit "d") KOut (Some (EnumV (lit "on")))) ∈ w_traces) by left.
    destruct Hcc as [<-|[<-|[]]]; (split; [left|intros _; eexists; vm_compute; reflexivity]).
    + exists (w_ev (lit "c") KIn (Some (IntV 3))). split; [|left]. eexists. split; [exact Ht0|]. left.
    + exists (w_ev (lit "d") KOut (Some (EnumV (lit "on")))). split; [|left]. eexists. split; [exact Ht0|]. right. left.
Qed.
Print Assumptions C83_flags.
Print Assumptions C83_help.
Print Assumptions C83_open.
Print Assumptions C83_clean_paths.
Print Assumptions C83_read_traces.
Print Assumptions C83_make_stms.
Print Assumptions C83_gen.
Print Assumptions C84_no_hidden_failure.
Print Assumptions C84_usage.
Print Assumptions C84_directory.
Print Assumptions C84_flag_refuted.
Print Assumptions C84_exit_codes.
