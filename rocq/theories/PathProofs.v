(** * Lemmas about paths *)
From Verif Require Export SpecGen.
From Verif Require Export StmProofs.

Lemma split_all_ne c s : split_all c s <> [].
Proof. destruct s as [|a r]; [done|]. cbn. destruct (Ascii.eqb a c); [done|]. by destruct (split_all c r). Qed.
Lemma split_all_app c a b : split_all c (a ++ c :: b) = split_all c a ++ split_all c b.
Proof.
  induction a as [|x a IH]; cbn.
  - by rewrite Ascii.eqb_refl.
  - destruct (Ascii.eqb x c); [by rewrite IH|]. rewrite IH. destruct (split_all c a) eqn:E; [|done]. by apply split_all_ne in E.
Qed.
Lemma split_all_join l : l <> [] -> split_all "/" (join "/" l) = concat (map (split_all "/") l).
Proof.
  induction l as [|a l IH]; [done|]. intros _. destruct l as [|b l]; [cbn; by rewrite app_nil_r|].
  change (join "/" (a :: b :: l)) with (a ++ "/"%char :: join "/" (b :: l)). rewrite split_all_app, IH by done. done.
Qed.
Definition no_slash (s : gostr) : Prop := "/"%char ∉ (s : list ascii).
Lemma split_all_plain s : no_slash s -> split_all "/" s = [s].
Proof.
  induction s as [|a s IH]; [done|]. intros H. cbn. destruct (Ascii.eqb_spec a "/") as [->|Ha]; [exfalso; apply H; left|].
  rewrite IH; [done|]. intros Hs. apply H. by right.
Qed.
Lemma split_all_no_slash s : Forall no_slash (split_all "/" s).
Proof.
  induction s as [|a s IH]; cbn.
  - constructor; [|done]. intros H. by apply elem_of_nil in H.
  - destruct (Ascii.eqb_spec a "/") as [->|Ha].
    + constructor; [|done]. intros H. by apply elem_of_nil in H.
    + destruct (split_all "/" s) as [|x xs] eqn:E; [by apply split_all_ne in E|].
      inversion IH as [|?? Hx Hxs]; subst. constructor; [|done]. intros H. apply elem_of_cons in H as [H|H]; [congruence|by apply Hx].
Qed.
Lemma split_join_plain l : l <> [] -> Forall no_slash l -> split_all "/" (join "/" l) = l.
Proof.
  intros Hne Hl. rewrite split_all_join by done. clear Hne. induction Hl as [|a l Ha Hl IH]; [done|]. cbn. rewrite split_all_plain by done. cbn. by rewrite IH.
Qed.

Lemma rev_rep {A} (x : A) k : rev (repeat x k) = repeat x k.
Proof.
  assert (Hs : forall k, repeat x k ++ [x] = x :: repeat x k) by (intros j; induction j as [|j IH]; [done|]; cbn; by rewrite IH).
  induction k as [|k IH]; [done|]. cbn. by rewrite IH, Hs.
Qed.
(** Normal components. *)
Definition normal (c : gostr) : Prop := c <> [] /\ c <> lit "." /\ c <> lit "..".
Lemma walk_normal b c : normal c -> walk_comp b c = b ++ [c].
Proof. intros (H1 & H2 & H3). unfold walk_comp. by rewrite !decide_False. Qed.
Lemma walk_dots b : walk_comp b (lit "..") = removelast b.
Proof. reflexivity. Qed.
Notation walk_to := (fold_left walk_comp).

(** Cleaning. *)
Definition canonical (rooted : bool) (rout : list gostr) : Prop :=
  exists k ns, rout = rev ns ++ repeat (lit "..") k /\ Forall normal ns /\ (rooted = true -> k = 0).
Lemma clean_step_ok rooted rout c base : canonical rooted rout -> (rooted = true -> base = []) ->
  canonical rooted (clean_step rooted rout c) /\
  walk_to (rev (clean_step rooted rout c)) base = walk_comp (walk_to (rev rout) base) c.
Proof.
  intros (k & ns & -> & Hns & Hr) Hb. unfold clean_step.
  destruct (decide (c = [])) as [E1|E1]; [subst c; split; [by exists k, ns|done]|].
  change (list_ascii_of_string ".") with (lit "."). change (list_ascii_of_string "..") with (lit "..").
  destruct (decide (c = lit ".")) as [E2|E2]; [subst c; split; [by exists k, ns|done]|].
  destruct (decide (c = lit "..")) as [E3|E3].
  - subst c. destruct ns as [|n ns _] using rev_ind.
    + cbn [rev app]. destruct k as [|k]; cbn [repeat].
      * destruct rooted; cbn.
        -- split; [by exists 0, []|by rewrite (Hb eq_refl)].
        -- split; [exists 1, []; done|done].
      * rewrite decide_True by done. split; [exists (S (S k)), []; split; [done|split; [done|intros H; by specialize (Hr H)]]|].
        change (lit ".." :: lit ".." :: repeat (lit "..") k) with ([lit ".."] ++ (lit ".." :: repeat (lit "..") k)).
        rewrite rev_app_distr, fold_left_app. done.
    + rewrite rev_app_distr. cbn [rev app]. apply Forall_app in Hns as [Hns Hn]. inversion Hn as [|?? Hnn _]; subst.
      rewrite decide_False by (by destruct Hnn as (_ & _ & ?)). split; [by exists k, ns|].
      cbn [rev]. rewrite fold_left_app. cbn [fold_left]. rewrite (walk_normal _ n) by done. by rewrite walk_dots, removelast_last.
  - split.
    + exists k, (ns ++ [c]). rewrite rev_app_distr. split; [done|]. split; [apply Forall_app; split; [done|by repeat constructor]|done].
    + cbn [rev]. by rewrite fold_left_app.
Qed.
Lemma clean_fold_ok rooted l : forall rout base, canonical rooted rout -> (rooted = true -> base = []) ->
  canonical rooted (fold_left (clean_step rooted) l rout) /\
  walk_to (rev (fold_left (clean_step rooted) l rout)) base = walk_to l (walk_to (rev rout) base).
Proof.
  induction l as [|c l IH]; intros rout base Hc Hb; [done|]. cbn [fold_left].
  destruct (clean_step_ok rooted rout c base Hc Hb) as [H1 H2]. destruct (IH _ base H1 Hb) as [H3 H4]. split; [done|]. by rewrite H4, H2.
Qed.
Lemma clean_comps_ok p base : (is_rooted p = true -> base = []) ->
  (exists k ns, clean_comps p = repeat (lit "..") k ++ ns /\ Forall normal ns /\ (is_rooted p = true -> k = 0)) /\
  walk_to (clean_comps p) base = walk_to (split_all "/" p) base.
Proof.
  intros Hb. unfold clean_comps. destruct (clean_fold_ok (is_rooted p) (split_all "/" p) [] base) as [(k & ns & E & Hns & Hk) H2].
  - by exists 0, [].
  - done.
  - split; [|done]. exists k, ns. split; [|done]. rewrite E, rev_app_distr, rev_involutive. f_equal. apply rev_rep.
Qed.
Lemma clean_comps_no_slash p : Forall no_slash (clean_comps p).
Proof.
  unfold clean_comps. apply Forall_rev. pose proof (split_all_no_slash p) as H. revert H. generalize (split_all "/" p). generalize (is_rooted p). intros r l.
  assert (H0 : Forall no_slash (@nil gostr)) by constructor. revert H0. generalize (@nil gostr). induction l as [|c l IH]; intros out Ho Hl; [done|].
  inversion Hl as [|?? Hc Hl']; subst. cbn. apply IH; [|done]. unfold clean_step.
  destruct (decide (c = [])); [done|]. destruct (decide _); [done|]. destruct (decide _).
  - destruct out as [|t out]; [destruct r; [done|by constructor]|]. destruct (decide _); [by constructor|by inversion Ho].
  - by constructor.
Qed.
Lemma join_rooted l : Forall no_slash l -> Forall (fun c => c <> []) l -> is_rooted (join "/" l) = false.
Proof.
  intros H1 H2. destruct l as [|a l]; [done|]. inversion H1 as [|?? Ha _]; inversion H2 as [|?? Hb _]; subst.
  destruct a as [|x a]; [done|]. assert (Hx : x <> "/"%char) by (intros ->; apply Ha; left).
  destruct l; cbn; apply Ascii.eqb_neq; done.
Qed.
Lemma join_nil l : Forall (fun c => c <> []) l -> join "/" l = [] -> l = [].
Proof. destruct l as [|a [|b l]]; [done| |]; intros H; inversion H as [|?? Ha _]; subst; cbn; destruct a; done. Qed.
Lemma comps_nonempty k ns : Forall normal ns -> Forall (fun c : gostr => c <> []) (repeat (lit "..") k ++ ns).
Proof. intros H. apply Forall_app. split; [by apply Forall_forall; intros x Hx%elem_of_list_In%repeat_spec; subst|]. eapply Forall_impl; [done|]. by intros x [? _]. Qed.

(** The cleaned path denotes the same file. *)
Lemma resolve_clean cwd p : resolve cwd (clean p) = resolve cwd p.
Proof.
  destruct p as [|c p]; [done|]. set (q := c :: p). unfold clean. fold q. change (match q with [] => _ | _ => render_path (is_rooted q) (clean_comps q) end) with (render_path (is_rooted q) (clean_comps q)).
  destruct (clean_comps_ok q (if is_rooted q then [] else cwd)) as [(k & ns & E & Hns & Hk) Hw]; [by intros ->|].
  pose proof (clean_comps_no_slash q) as Hsl. pose proof (comps_nonempty k ns Hns) as Hne. rewrite <- E in Hne.
  unfold resolve. rewrite <- Hw. unfold render_path. destruct (is_rooted q) eqn:Er.
  - cbn [is_rooted]. rewrite Ascii.eqb_refl. destruct (clean_comps q) as [|x l] eqn:El; [done|].
    change (split_all "/" ("/"%char :: join "/" (x :: l))) with ([] :: split_all "/" (join "/" (x :: l))).
    rewrite split_join_plain by done. done.
  - destruct (join "/" (clean_comps q)) as [|a r] eqn:Ej.
    + apply join_nil in Ej; [|done]. rewrite Ej. done.
    + rewrite <- Ej, join_rooted by done. rewrite split_join_plain; [done| |done]. intros El. by rewrite El in Ej.
Qed.

(** Joining: each element is followed from where the previous ones lead. *)
Lemma resolve_join cwd e es : e <> [] ->
  resolve cwd (path_join (e :: es)) = fold_left (fun b x => walk_to (split_all "/" x) b) es (resolve cwd e).
Proof.
  intros He. cbn [path_join]. rewrite decide_False by done. rewrite resolve_clean. unfold resolve.
  assert (Hr : is_rooted (join "/" (e :: es)) = is_rooted e) by (destruct e; [done|]; by destruct es).
  rewrite Hr, split_all_join by done. cbn [map concat]. rewrite fold_left_app. generalize (walk_to (split_all "/" e) (if is_rooted e then [] else cwd)).
  intros b. clear Hr. revert b. induction es as [|x es IH]; intros b; [done|]. cbn [map concat fold_left]. by rewrite fold_left_app, IH.
Qed.
Lemma clean_ne p : clean p <> [].
Proof. unfold clean, render_path. destruct p as [|c p]; [done|]. by destruct (is_rooted (c :: p)); destruct (join _ _). Qed.
Lemma path_join_ne e es : e <> [] -> path_join (e :: es) <> [].
Proof.
  intros He. cbn. rewrite decide_False by done. apply clean_ne.
Qed.
Lemma walk_plain b s : plain_name s -> walk_to (split_all "/" s) b = b ++ [s].
Proof. intros (H1 & H2 & H3 & H4). rewrite split_all_plain by done. cbn. by apply walk_normal. Qed.
Lemma resolve_join_plain cwd e es : e <> [] -> Forall plain_name es -> resolve cwd (path_join (e :: es)) = resolve cwd e ++ es.
Proof.
  intros He Hes. rewrite resolve_join by done. generalize (resolve cwd e). induction Hes as [|x es Hx Hes IH]; intros b; [by rewrite app_nil_r|].
  cbn [fold_left]. rewrite walk_plain by done. rewrite IH. by rewrite <- app_assoc.
Qed.
Lemma resolve_join_plain' cwd e es : Forall plain_name es -> resolve cwd (path_join (e :: es)) = resolve cwd e ++ es.
Proof.
  intros Hes. destruct (decide (e = [])) as [->|He]; [|by apply resolve_join_plain].
  destruct es as [|x es]; [by rewrite app_nil_r|]. apply Forall_cons in Hes as [Hx Hes]. change (path_join ([] :: x :: es)) with (path_join (x :: es)).
  rewrite resolve_join_plain; [|by destruct Hx|done]. pose proof (walk_plain cwd x Hx) as Hw. unfold resolve at 1.
  assert (is_rooted x = false) as ->.
  { destruct Hx as (_ & _ & _ & Hs). destruct x as [|a x]; [done|]. cbn. apply Ascii.eqb_neq. intros ->. apply Hs. left. }
  rewrite Hw. change (resolve cwd []) with cwd. by rewrite <- app_assoc.
Qed.
Lemma path_join_ne' e x es : x <> [] -> path_join (e :: x :: es) <> [].
Proof. intros Hx. destruct (decide (e = [])) as [->|He]; [|by apply path_join_ne]. change (path_join ([] :: x :: es)) with (path_join (x :: es)). by apply path_join_ne. Qed.
(** Names without .. stay inside. *)
Lemma walk_inside b l : lit ".." ∉ l -> b `prefix_of` walk_to l b.
Proof.
  revert b. induction l as [|c l IH]; intros b Hl; [done|]. cbn. etransitivity; [|apply IH; intros H; apply Hl; by right].
  unfold walk_comp. destruct (decide (c = [])); [done|]. destruct (decide (c = lit ".")); [done|].
  rewrite decide_False by (intros ->; apply Hl; left). by apply prefix_app_r.
Qed.

(** The current directory. *)
Lemma repeat_dots k b : walk_to (repeat (lit "..") k) b = take (length b - k) b.
Proof.
  revert b. induction k as [|k IH]; intros b; cbn [repeat fold_left].
  - by rewrite Nat.sub_0_r, firstn_all.
  - rewrite walk_dots, IH. destruct b as [|x b _] using rev_ind; [done|]. rewrite removelast_last, app_length. cbn.
    replace (length b + 1 - S k) with (length b - k) by lia. rewrite take_app_le by lia. done.
Qed.
Lemma walk_normals ns b : Forall normal ns -> walk_to ns b = b ++ ns.
Proof.
  intros H. revert b. induction H as [|x ns Hx Hns IH]; intros b; [by rewrite app_nil_r|]. cbn. rewrite walk_normal, IH by done. by rewrite <- app_assoc.
Qed.
Lemma clean_dot p : clean p = lit "." <-> forall cwd, resolve cwd p = cwd.
Proof.
  split; [intros H cwd; by rewrite <- resolve_clean, H|]. intros H. destruct p as [|c p]; [done|]. set (q := c :: p) in *.
  destruct (is_rooted q) eqn:Er.
  - pose proof (H []) as H1. pose proof (H [[]]) as H2. unfold resolve in *. rewrite Er in *. congruence.
  - destruct (clean_comps_ok q [] ltac:(by rewrite Er)) as [(k & ns & E & Hns & _) _].
    assert (Hw : forall cwd, walk_to (clean_comps q) cwd = cwd).
    { intros cwd. rewrite <- (H cwd) at 2. unfold resolve. rewrite Er. apply (clean_comps_ok q cwd). by rewrite Er. }
    rewrite E in Hw. 
    assert (Hns0 : ns = []).
    { specialize (Hw []). rewrite fold_left_app, repeat_dots, walk_normals in Hw by done. cbn in Hw. by destruct k. }
    subst ns. rewrite app_nil_r in *. specialize (Hw (repeat [] k)). rewrite repeat_dots, repeat_length, Nat.sub_diag in Hw.
    destruct k as [|k]; [|done]. change (render_path (is_rooted q) (clean_comps q) = lit "."). by rewrite Er, E.
Qed.

(** Two paths have the same clean form exactly if they denote the same place from everywhere. *)
Lemma clean_comps_of p : exists k ns, clean p = render_path (is_rooted p) (repeat (lit "..") k ++ ns) /\ clean_comps p = repeat (lit "..") k ++ ns /\
  Forall normal ns /\ (is_rooted p = true -> k = 0) /\
  (forall cwd, resolve cwd p = (if is_rooted p then [] else take (length cwd - k) cwd) ++ ns).
Proof.
  destruct (clean_comps_ok p [] ltac:(done)) as [(k & ns & E & Hns & Hk) _]. exists k, ns. split_and!; try done.
  - destruct p as [|c p]; [|unfold clean; by rewrite E]. cbn in *. destruct k; [|done]. by destruct ns.
  - intros cwd. unfold resolve. destruct (clean_comps_ok p (if is_rooted p then [] else cwd)) as [_ <-]; [by intros ->|].
    rewrite E, fold_left_app, repeat_dots, walk_normals by done. destruct (is_rooted p); [|done]. done.
Qed.
Lemma clean_canonical p q : clean p = clean q <-> forall cwd, resolve cwd p = resolve cwd q.
Proof.
  split; [intros H cwd; by rewrite <- (resolve_clean cwd p), H, resolve_clean|]. intros H.
  destruct (clean_comps_of p) as (k & ns & -> & _ & Hn & Hk & Hp). destruct (clean_comps_of q) as (k' & ns' & -> & _ & Hn' & Hk' & Hq).
  assert (Hall : forall cwd, (if is_rooted p then [] else take (length cwd - k) cwd) ++ ns = (if is_rooted q then [] else take (length cwd - k') cwd) ++ ns').
  { intros cwd. by rewrite <- Hp, <- Hq. }
  destruct (is_rooted p) eqn:Ep, (is_rooted q) eqn:Eq.
  - specialize (Hall []). cbn in Hall. by rewrite Hall, Hk, Hk'.
  - exfalso. pose proof (Hall (repeat [] (S k'))) as H1. pose proof (Hall []) as H2. rewrite repeat_length in H1. rewrite H2 in H1. rewrite take_nil in H1.
    apply (f_equal length) in H1. rewrite !app_length, firstn_length, repeat_length in H1. cbn [length] in H1. lia.
  - exfalso. pose proof (Hall (repeat [] (S k))) as H1. pose proof (Hall []) as H2. rewrite repeat_length in H1. cbn in H2. rewrite <- H2 in H1.
    rewrite take_nil in H1. apply (f_equal length) in H1. rewrite !app_length, firstn_length, repeat_length in H1. replace (S k - k) with 1 in H1 by lia. cbn [length Nat.min] in H1. lia.
  - pose proof (Hall []) as H2. rewrite !take_nil in H2. cbn in H2. subst ns'. f_equal. f_equal. f_equal. specialize (Hall (repeat [] (k + k'))).
    apply (f_equal length) in Hall. rewrite !app_length, !firstn_length, !repeat_length in Hall. lia.
Qed.
