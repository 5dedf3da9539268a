(** * Filling in the configuration: the decoder's updates and what the elements say *)
From Verif Require Export SpecConfigText PropConfig.
From Verif Require Export StmProofs.

(** ** Last values *)
Lemma last_or_cons {A} (d x : A) l : last_or d (x :: l) = last_or x l.
Proof. unfold last_or. rewrite last_cons. by destruct (last l). Qed.
Lemma last_or_app {A} (d : A) l l' : last_or d (l ++ l') = last_or (last_or d l) l'.
Proof. revert d. induction l as [|x l IH]; intros d; [done|]. cbn [app]. by rewrite !last_or_cons. Qed.
Lemma last_means_nil {A} (m : gostr -> A -> Prop) d x : last_means m d [] x <-> x = d.
Proof. split; [intros (xs & H & ->); inversion H; by subst|]. intros ->. by exists []. Qed.
Lemma last_means_cons {A} (m : gostr -> A -> Prop) d s l x : last_means m d (s :: l) x <-> exists y, m s y /\ last_means m y l x.
Proof.
  split.
  - intros (xs & H & ->). inversion H as [|? y ? ys Hy Hys]; subst. exists y. split; [done|]. exists ys. split; [done|apply last_or_cons].
  - intros (y & Hy & ys & Hys & ->). exists (y :: ys). split; [by constructor|by rewrite last_or_cons].
Qed.
Lemma last_means_app {A} (m : gostr -> A -> Prop) d l l' x : last_means m d (l ++ l') x <-> exists y, last_means m d l y /\ last_means m y l' x.
Proof.
  revert d. induction l as [|s l IH]; intros d; cbn [app].
  - setoid_rewrite last_means_nil. split; [intros H; by exists d|by intros (y & -> & H)].
  - rewrite last_means_cons. setoid_rewrite last_means_cons. setoid_rewrite IH. naive_solver.
Qed.

(** ** Values *)
Lemma parse_bool_Some t b : parse_bool t = Some b <->
  if b then t ∈ [lit "1"; lit "t"; lit "T"; lit "TRUE"; lit "true"; lit "True"] else t ∈ [lit "0"; lit "f"; lit "F"; lit "FALSE"; lit "false"; lit "False"].
Proof.
  unfold parse_bool. destruct (bool_decide_reflect (t ∈ [lit "1"; lit "t"; lit "T"; lit "TRUE"; lit "true"; lit "True"])) as [H|H].
  - destruct b; [done|]. split; [done|]. intros H'. exfalso. rewrite !elem_of_cons, elem_of_nil in H.
    repeat destruct H as [->|H]; try done; (apply (proj2 (bool_decide_eq_true _)) in H'; vm_compute in H'; discriminate H').
  - destruct (bool_decide_reflect (t ∈ [lit "0"; lit "f"; lit "F"; lit "FALSE"; lit "false"; lit "False"])) as [H'|H']; destruct b; try done. 
Qed.
Lemma bool_means_iff s b : bool_means s b <-> copy_bool s = Some b.
Proof.
  unfold bool_means, copy_bool. destruct (decide (s = [])) as [->|Hs].
  - split; [intros [[_ ->]|[? _]]; done|]. intros [= <-]. by left.
  - rewrite parse_bool_Some. split.
    + intros [[? _]|(_ & t & Ht%trimmed_iff & H)]; [done|]. by subst t.
    + intros H. right. split; [done|]. exists (trim_space s). split; [by apply trimmed_iff|exact H].
Qed.
Lemma int_means_iff s z : int_means s z <-> copy_int s = Some z.
Proof.
  unfold int_means, copy_int. destruct (decide (s = [])) as [->|Hs].
  - split; [intros [[_ ->]|[? _]]; done|]. intros [= <-]. by left.
  - rewrite parse_int_Some. split.
    + intros [[? _]|(_ & t & Ht%trimmed_iff & H)]; [done|]. by subst t.
    + intros H. right. split; [done|]. exists (trim_space s). split; [by apply trimmed_iff|exact H].
Qed.
Lemma variant_means_iff s v : variant_means s v <-> parse_variant s = Some v.
Proof. by rewrite parse_variant_Some. Qed.

(** ** Attributes and children *)
Definition named (n : gostr) (ats : list (gostr * gostr)) : list gostr := map snd (base.filter (fun a => a.1 = n) ats).
Lemma named_cons n k v ats : named n ((k, v) :: ats) = (if decide (k = n) then [v] else []) ++ named n ats.
Proof. unfold named. rewrite filter_cons. cbn [fst]. by destruct (decide (k = n)). Qed.
Lemma vals_one n m ats kids : vals n [Elem m ats kids] = named n ats.
Proof. unfold vals. cbn. by rewrite app_nil_r. Qed.
Lemma mjoin_app2 {A} (l l' : list (list A)) : mjoin (l ++ l') = mjoin l ++ mjoin l'.
Proof. induction l as [|x l IH]; [done|]. cbn. rewrite <- app_assoc. f_equal. exact IH. Qed.
Lemma vals_app n es es' : vals n (es ++ es') = vals n es ++ vals n es'.
Proof. unfold vals. by rewrite map_app, mjoin_app2. Qed.
Lemma sub_one n m ats kids : sub n [Elem m ats kids] = kids_named n kids.
Proof. unfold sub. cbn. by rewrite app_nil_r. Qed.
Lemma sub_app n es es' : sub n (es ++ es') = sub n es ++ sub n es'.
Proof. unfold sub. by rewrite map_app, mjoin_app2. Qed.
Lemma own_text_eq e : elem_text e = own_text e.
Proof. destruct e as [n a k]. cbn. induction k as [|[t|e] k IH]; cbn; [done|by rewrite IH|done]. Qed.
Lemma fold_kids_id {A} l (x : A) : fold_kids (fun _ _ y => Some y) l x = Some x.
Proof. induction l as [|[t|[n a k]] l IH]; cbn; done. Qed.
Lemma fold_attrs_id {A} l (x : A) : fold_attrs (fun _ _ y => Some y) l x = Some x.
Proof. induction l as [|[n v] l IH]; cbn; done. Qed.
Lemma kids_named_child n m a k r : kids_named n (Child (Elem m a k) :: r) = (if decide (m = n) then [Elem m a k] else []) ++ kids_named n r.
Proof. done. Qed.

(** ** Includes and channels *)
Lemma include_iff e i : fill_include e = Some i <-> says_include e i.
Proof.
  destruct e as [m ats kids]. unfold fill_include, says_include, fill. rewrite !vals_one. generalize (lit "src") (lit "system") (eq_refl : bool_decide (lit "src" = lit "system") = false).
  intros src sys Hne%bool_decide_eq_false. match goal with |- context [fold_attrs ?F ats _] => set (f := F) end.
  cut (forall i0, match fold_attrs f ats i0 with Some y => fold_kids (fun (_ : gostr) (_ : xml) (i : include) => Some i) kids y | None => None end = Some i <->
    in_src i = last_or (in_src i0) (named src ats) /\ last_means bool_means (in_system i0) (named sys ats) (in_system i)); [intros H; exact (H (Include [] false))|].
  induction ats as [|[k v] ats IH]; intros i0; cbn [fold_attrs]; [|unfold f at 1].
  - rewrite fold_kids_id. cbn. rewrite last_means_nil. destruct i as [a b], i0 as [a0 b0]. cbn. split; [by intros [= -> ->]|by intros [-> ->]].
  - rewrite !named_cons. destruct (decide (k = src)) as [->|H1].
    + rewrite (decide_False (P := src = sys)) by done. rewrite IH. cbn [app in_src in_system]. by rewrite last_or_cons.
    + cbn [app]. destruct (decide (k = sys)) as [->|H2]; [|by rewrite IH]. cbn [app]. rewrite last_means_cons.
      setoid_rewrite bool_means_iff. destruct (copy_bool v) as [b|].
      * rewrite IH. cbn [in_src in_system]. naive_solver.
      * naive_solver.
Qed.
Lemma channel_iff e c : fill_channel e = Some c <-> says_channel e c.
Proof.
  destruct e as [m ats kids]. unfold fill_channel, says_channel, fill. rewrite !vals_one. generalize (lit "name") (lit "type") (eq_refl : bool_decide (lit "name" = lit "type") = false).
  intros src sys Hne%bool_decide_eq_false. cut (forall a b : gostr, match fold_attrs (fun n v c => if decide (n = src) then Some (v, c.2) else if decide (n = sys) then Some (c.1, v) else Some c) ats (a, b) with
    Some y => fold_kids (fun (_ : gostr) (_ : xml) (c0 : gostr * gostr) => Some c0) kids y | None => None end = Some c <-> c.1 = last_or a (named src ats) /\ c.2 = last_or b (named sys ats)); [intros H; apply H|].
  induction ats as [|[k v] ats IH]; intros a b; cbn [fold_attrs].
  - rewrite fold_kids_id. cbn. destruct c as [c1 c2]. cbn. split; [by intros [= -> ->]|by intros [-> ->]].
  - rewrite !named_cons. destruct (decide (k = src)) as [->|H1].
    + rewrite (decide_False (P := src = sys)) by done. cbn [fst snd app]. rewrite IH. by rewrite last_or_cons.
    + cbn [app]. destruct (decide (k = sys)) as [->|H2]; [|by rewrite IH]. cbn [fst snd app]. rewrite IH. by rewrite last_or_cons.
Qed.

(** ** Packages *)
Definition pkg_from (p0 : package) (es : list xml) (p : package) : Prop :=
  last_means int_means (pk_format p0) (vals (lit "format") es) (pk_format p) /\
  p = Package (pk_format p) (last_or (pk_name p0) (map own_text (sub (lit "name") es)))
        (last_or (pk_version p0) (map own_text (sub (lit "version") es)))
        (last_or (pk_description p0) (map own_text (sub (lit "description") es)))
        (last_or (pk_maintainer p0) (map own_text (sub (lit "maintainer") es)))
        (last_or (pk_email p0) (vals (lit "email") (sub (lit "maintainer") es)))
        (last_or (pk_license p0) (map own_text (sub (lit "license") es)))
        (pk_buildtool p0 ++ map own_text (sub (lit "buildtool_depend") es))
        (pk_depends p0 ++ map own_text (sub (lit "depend") es)).
Lemma pkg_from_nil p0 p : pkg_from p0 [] p <-> p = p0.
Proof.
  unfold pkg_from. change (vals (lit "format") []) with ([] : list gostr). rewrite last_means_nil. destruct p, p0. cbn. rewrite !app_nil_r.
  split; [intros [-> [= -> -> -> -> -> -> -> ->]]; done|]. by intros [= -> -> -> -> -> -> -> -> ->].
Qed.
Lemma pkg_from_app p0 es es' p : pkg_from p0 (es ++ es') p <-> exists p1, pkg_from p0 es p1 /\ pkg_from p1 es' p.
Proof.
  unfold pkg_from. rewrite vals_app, last_means_app, !sub_app, vals_app, !map_app, !last_or_app. split.
  - intros [(z & H1 & H2) E]. eexists (Package z _ _ _ _ _ _ _ _). cbn [pk_format pk_name pk_version pk_description pk_maintainer pk_email pk_license pk_buildtool pk_depends].
    split; [split; [exact H1|reflexivity]|]. split; [exact H2|]. rewrite E at 1. rewrite <- !app_assoc. reflexivity.
  - intros (p1 & [H1 E1] & [H2 E2]). split; [by exists (pk_format p1)|]. rewrite E2 at 1. rewrite E1. cbn [pk_format pk_name pk_version pk_description pk_maintainer pk_email pk_license pk_buildtool pk_depends].
    rewrite <- !app_assoc. reflexivity.
Qed.
Lemma maintainer_eq k p : fill_maintainer k p = Some (Package (pk_format p) (pk_name p) (pk_version p) (pk_description p) (own_text k)
  (last_or (pk_email p) (vals (lit "email") [k])) (pk_license p) (pk_buildtool p) (pk_depends p)).
Proof.
  unfold fill_maintainer. rewrite own_text_eq. destruct k as [m ats kids]. rewrite vals_one. unfold fill.
  assert (H : forall e0 : gostr, fold_attrs (fun n v (email : gostr) => if decide (n = lit "email") then Some v else Some email) ats e0 = Some (last_or e0 (named (lit "email") ats))).
  { induction ats as [|[n v] ats IH]; intros e0; cbn [fold_attrs]; [done|]. rewrite named_cons. destruct (decide _); rewrite IH; [by cbn [app]; rewrite last_or_cons|done]. }
  by rewrite H, fold_kids_id.
Qed.
Definition kids_from (p0 : package) (kids : list xml_item) : package :=
  Package (pk_format p0) (last_or (pk_name p0) (map own_text (kids_named (lit "name") kids)))
        (last_or (pk_version p0) (map own_text (kids_named (lit "version") kids)))
        (last_or (pk_description p0) (map own_text (kids_named (lit "description") kids)))
        (last_or (pk_maintainer p0) (map own_text (kids_named (lit "maintainer") kids)))
        (last_or (pk_email p0) (vals (lit "email") (kids_named (lit "maintainer") kids)))
        (last_or (pk_license p0) (map own_text (kids_named (lit "license") kids)))
        (pk_buildtool p0 ++ map own_text (kids_named (lit "buildtool_depend") kids))
        (pk_depends p0 ++ map own_text (kids_named (lit "depend") kids)).
Lemma kids_named_other n m a k r : m <> n -> kids_named n (Child (Elem m a k) :: r) = kids_named n r.
Proof. intros H. rewrite kids_named_child. by rewrite decide_False. Qed.
Lemma kids_named_same n a k r : kids_named n (Child (Elem n a k) :: r) = Elem n a k :: kids_named n r.
Proof. rewrite kids_named_child. by rewrite decide_True. Qed.
Lemma package_iff e p0 p : fill_package e p0 = Some p <-> pkg_from p0 [e] p.
Proof.
  destruct e as [m ats kids]. unfold fill_package, fill, pkg_from. rewrite !sub_one, vals_one.
  match goal with |- context [fold_kids ?F kids _] => set (fk := F) end.
  assert (Hk : forall p0, fold_kids fk kids p0 = Some (kids_from p0 kids)).
  { clear p0 p. induction kids as [|[t|[n a k]] kids IH]; intros p0.
    - destruct p0. cbn. unfold kids_from. cbn. by rewrite !app_nil_r.
    - cbn [fold_kids]. rewrite IH. done.
    - cbn [fold_kids]. unfold fk at 1. destruct p0 as [fm nm ver desc mt em lic bt dp].
      destruct (decide (n = lit "name")) as [->|N1]; [|destruct (decide (n = lit "version")) as [->|N2]; [|destruct (decide (n = lit "description")) as [->|N3];
        [|destruct (decide (n = lit "maintainer")) as [->|N4]; [|destruct (decide (n = lit "license")) as [->|N5]; [|destruct (decide (n = lit "buildtool_depend")) as [->|N6];
        [|destruct (decide (n = lit "depend")) as [->|N7]]]]]]].
      all: rewrite ?maintainer_eq, IH, ?own_text_eq; unfold kids_from; cbn [pk_format pk_name pk_version pk_description pk_maintainer pk_email pk_license pk_buildtool pk_depends].
      all: rewrite ?kids_named_same; repeat rewrite kids_named_other by done; cbn [map]; rewrite ?last_or_cons.
      all: try done.
      + change (Elem (lit "maintainer") a k :: kids_named (lit "maintainer") kids) with ([Elem (lit "maintainer") a k] ++ kids_named (lit "maintainer") kids).
        by rewrite vals_app, last_or_app.
      + by rewrite <- app_assoc.
      + by rewrite <- app_assoc. }
  match goal with |- context [fold_attrs ?F ats _] => set (fa := F) end.
  assert (Ha : forall p0, match fold_attrs fa ats p0 with Some y => fold_kids fk kids y | None => None end = Some p <->
    last_means int_means (pk_format p0) (named (lit "format") ats) (pk_format p) /\ p = kids_from (Package (pk_format p) (pk_name p0) (pk_version p0) (pk_description p0) (pk_maintainer p0) (pk_email p0) (pk_license p0) (pk_buildtool p0) (pk_depends p0)) kids).
  { clear p0. induction ats as [|[n v] ats IH]; intros p0; cbn [fold_attrs].
    - rewrite Hk. change (named (lit "format") []) with ([] : list gostr). rewrite last_means_nil. split.
      + intros [= <-]. cbn [pk_format kids_from]. split; [done|]. by destruct p0.
      + intros [E1 E2]. rewrite E1 in E2. rewrite E2. by destruct p0.
    - unfold fa at 1. destruct p0 as [fm nm ver desc mt em lic bt dp]. rewrite named_cons. destruct (decide (n = lit "format")) as [->|N]; [|by rewrite IH].
      cbn [app]. rewrite last_means_cons. setoid_rewrite int_means_iff. destruct (copy_int v) as [z|].
      + rewrite IH. cbn [pk_format pk_name pk_version pk_description pk_maintainer pk_email pk_license pk_buildtool pk_depends]. naive_solver.
      + naive_solver. }
  rewrite Ha. done.
Qed.

(** ** Catkin *)
Definition catkin_from (c0 : option package) (es : list xml) (c : option package) : Prop :=
  sub (lit "package") es = [] /\ c = c0 \/
  sub (lit "package") es <> [] /\ exists p, c = Some p /\ pkg_from (default empty_package c0) (sub (lit "package") es) p.
Lemma catkin_iff e c0 c : fill_catkin e c0 = Some c <-> catkin_from c0 [e] c.
Proof.
  destruct e as [m ats kids]. unfold fill_catkin, fill, catkin_from. rewrite sub_one, fold_attrs_id. revert c0.
  induction kids as [|[t|[n a k]] kids IH]; intros c0; cbn [fold_kids].
  - cbn. split; [intros [= <-]; by left|]. intros [[_ ->]|[? _]]; done.
  - apply IH.
  - destruct (decide (n = lit "package")) as [->|N]; [|rewrite kids_named_other by done; apply IH]. rewrite kids_named_same.
    change (match c0 with Some p => p | None => empty_package end) with (default empty_package c0).
    change (Elem (lit "package") a k :: kids_named (lit "package") kids) with ([Elem (lit "package") a k] ++ kids_named (lit "package") kids).
    setoid_rewrite pkg_from_app. setoid_rewrite <- package_iff. destruct (fill_package _ _) as [p1|].
    + rewrite IH. split.
      * intros [[-> ->]|[Hn (p & -> & Hp)]]; right; (split; [done|]).
        -- exists p1. split; [done|]. exists p1. split; [done|]. by apply pkg_from_nil.
        -- exists p. split; [done|]. by exists p1.
      * intros [[? _]|[_ (p & -> & p1' & [= ->] & Hp)]]; [done|]. cbn [default]. destruct (decide (kids_named (lit "package") kids = [])) as [E|E].
        -- left. rewrite E in Hp. apply pkg_from_nil in Hp. by subst.
        -- right. split; [done|]. by exists p.
    + split; [done|]. intros [[? _]|[_ (p & _ & p1' & ? & _)]]; done.
Qed.
Lemma sub_cons n e es : sub n (e :: es) = sub n [e] ++ sub n es.
Proof. apply (sub_app n [e] es). Qed.
Lemma catkin_from_cons c0 e es c : catkin_from c0 (e :: es) c <-> exists c1, catkin_from c0 [e] c1 /\ catkin_from c1 es c.
Proof.
  unfold catkin_from. rewrite (sub_cons _ e es). generalize (sub (lit "package") [e]) (sub (lit "package") es). intros l l'. setoid_rewrite pkg_from_app. split.
  - intros [[[-> ->]%app_nil ->]|[Hn (p & -> & p1 & H1 & H2)]].
    + exists c0. split; by left.
    + destruct l as [|x l].
      * apply pkg_from_nil in H1 as ->. exists c0. split; [by left|]. right. split; [done|]. by exists p.
      * exists (Some p1). split; [right; split; [done|]; by exists p1|]. destruct l' as [|y l'].
        -- apply pkg_from_nil in H2 as ->. by left.
        -- right. split; [done|]. by exists p.
  - intros (c1 & [[-> ->]|[Hn (p1 & -> & H1)]] & [[-> ->]|[Hn' (p & -> & H2)]]).
    + by left.
    + right. split; [done|]. exists p. split; [done|]. eexists. split; [by apply pkg_from_nil|done].
    + right. split; [by rewrite app_nil_r|]. exists p1. split; [done|]. exists p1. split; [done|by apply pkg_from_nil].
    + right. split; [intros [? _]%app_nil; done|]. exists p. split; [done|]. by exists p1.
Qed.
Definition cat_from (ck : option (option package)) (es : list xml) (r : option (option package)) : Prop :=
  es = [] /\ r = ck \/ es <> [] /\ exists c, r = Some c /\ catkin_from (default None ck) es c.
Lemma catkin_from_nil c0 c : catkin_from c0 [] c <-> c = c0.
Proof. unfold catkin_from. cbn. split; [intros [[_ ->]|[? _]]; done|]. intros ->. by left. Qed.
Lemma cat_from_cons ck e es r : cat_from ck (e :: es) r <-> exists c, fill_catkin e (default None ck) = Some c /\ cat_from (Some c) es r.
Proof.
  unfold cat_from. setoid_rewrite catkin_from_cons. setoid_rewrite <- catkin_iff. cbn [default]. split.
  - intros [[? _]|[_ (c & -> & c1 & H1 & H2)]]; [done|]. exists c1. split; [done|]. destruct es as [|x es].
    + left. apply catkin_from_nil in H2 as ->. done.
    + right. split; [done|]. by exists c.
  - intros (c & H1 & [[-> ->]|[Hn (c' & -> & H2)]]); right; (split; [done|]).
    + exists c. split; [done|]. exists c. split; [done|]. by apply catkin_from_nil.
    + exists c'. split; [done|]. by exists c.
Qed.
Lemma cat_from_says es r : cat_from None es r <-> says_catkin es r.
Proof.
  unfold cat_from, catkin_from. cbn [default]. split.
  - intros [[-> ->]|[Hn (c & -> & [[H ->]|[H (p & -> & Hp)]])]]; [by constructor|by constructor|]. constructor; [done|].
    destruct Hp as [H1 E]. split; [exact H1|..]; rewrite E; done.
  - intros [->|Hn H|p H Hp]; [by left|right; split; [done|]; exists None; split; [done|by left]|]. right. split; [by intros ->|].
    exists (Some p). split; [done|]. right. split; [done|]. exists p. split; [done|]. destruct Hp as [H1 H2 H3 H4 H5 H6 H7 H8 H9]. split; [done|].
    destruct p. cbn in *. by subst.
Qed.

(** ** C++ *)
Definition cpp_from (c0 : cpp_config) (kids : list xml_item) (c : cpp_config) : Prop :=
  cc_variant c = cc_variant c0 /\
  (exists is, Forall2 says_include (kids_named (lit "include") kids) is /\ cc_includes c = cc_includes c0 ++ is) /\
  (exists cs, Forall2 says_channel (kids_named (lit "channel") kids) cs /\ cc_channels c = cc_channels c0 ++ cs) /\
  cc_makefile c = (cc_makefile c0 || negb (bool_decide (kids_named (lit "makefile") kids = []))) /\
  cat_from (cc_catkin c0) (kids_named (lit "catkin") kids) (cc_catkin c).
Lemma cpp_from_iff kids c :
  forall c0, fold_kids (fun n k '(CppConfig va ins chs mk ck) =>
          if decide (n = lit "include") then match fill_include k with Some i => Some (CppConfig va (ins ++ [i]) chs mk ck) | None => None end
          else if decide (n = lit "channel") then match fill_channel k with Some c => Some (CppConfig va ins (chs ++ [c]) mk ck) | None => None end
          else if decide (n = lit "makefile") then Some (CppConfig va ins chs true ck)
          else if decide (n = lit "catkin")
          then match fill_catkin k (match ck with Some c => c | None => None end) with Some c => Some (CppConfig va ins chs mk (Some c)) | None => None end
          else Some (CppConfig va ins chs mk ck)) kids c0 = Some c <-> cpp_from c0 kids c.
Proof.
  match goal with |- forall c0, fold_kids ?F _ _ = _ <-> _ => set (fk := F) end.
  induction kids as [|[t|[n a k]] kids IH]; intros c0; cbn [fold_kids].
  - unfold cpp_from. destruct c as [v i h m ck], c0 as [v0 i0 h0 m0 ck0]. cbn [cc_variant cc_includes cc_channels cc_makefile cc_catkin kids_named]. split.
    + intros [= -> -> -> -> ->]. split; [done|]. split; [exists []; split; [constructor|by rewrite app_nil_r]|]. split; [exists []; split; [constructor|by rewrite app_nil_r]|].
      split; [by rewrite orb_false_r|by left].
    + intros (-> & (is & Hi & ->) & (cs & Hc & ->) & -> & [[_ ->]|[? _]]); [|done]. inversion Hi; inversion Hc; subst. by rewrite !app_nil_r, orb_false_r.
  - apply IH.
  - unfold fk at 1. destruct c0 as [v0 i0 h0 m0 ck0].
    destruct (decide (n = lit "include")) as [->|N1]; [|destruct (decide (n = lit "channel")) as [->|N2]; [|destruct (decide (n = lit "makefile")) as [->|N3]; [|destruct (decide (n = lit "catkin")) as [->|N4]]]].
    all: unfold cpp_from; cbn [cc_variant cc_includes cc_channels cc_makefile cc_catkin]; rewrite ?kids_named_same; repeat rewrite kids_named_other by done.
    + destruct (fill_include _) as [i1|] eqn:E.
      * rewrite IH. unfold cpp_from. cbn [cc_variant cc_includes cc_channels cc_makefile cc_catkin]. apply include_iff in E.
        split; intros (H1 & (is & H2 & H3) & H4); (split; [done|]); (split; [|done]).
        -- exists (i1 :: is). split; [by constructor|]. by rewrite H3, <- app_assoc.
        -- inversion H2 as [|? i2 ? is' Hi2 His']; subst. exists is'. split; [done|]. rewrite H3, <- app_assoc. cbn [app].
           apply include_iff in Hi2. apply include_iff in E. pose proof (eq_trans (eq_sym E) Hi2) as X. injection X as X. by rewrite X.
      * split; [done|]. intros (_ & (is & H2 & _) & _). inversion H2 as [|? i2 ? is' Hi2 His']; subst. apply include_iff in Hi2. pose proof (eq_trans (eq_sym E) Hi2) as X. discriminate X.
    + destruct (fill_channel _) as [i1|] eqn:E.
      * rewrite IH. unfold cpp_from. cbn [cc_variant cc_includes cc_channels cc_makefile cc_catkin]. apply channel_iff in E.
        split; intros (H1 & H0 & (is & H2 & H3) & H4); (split; [done|]); (split; [done|]); (split; [|done]).
        -- exists (i1 :: is). split; [by constructor|]. by rewrite H3, <- app_assoc.
        -- inversion H2 as [|? i2 ? is' Hi2 His']; subst. exists is'. split; [done|]. rewrite H3, <- app_assoc. cbn [app].
           apply channel_iff in Hi2. apply channel_iff in E. pose proof (eq_trans (eq_sym E) Hi2) as X. injection X as X. by rewrite X.
      * split; [done|]. intros (_ & _ & (is & H2 & _) & _). inversion H2 as [|? i2 ? is' Hi2 His']; subst. apply channel_iff in Hi2. pose proof (eq_trans (eq_sym E) Hi2) as X. discriminate X.
    + rewrite IH. unfold cpp_from. cbn [cc_variant cc_includes cc_channels cc_makefile cc_catkin]. rewrite (bool_decide_eq_false_2 (_ :: _ = [])) by done. by rewrite orb_true_r.
    + rewrite cat_from_cons. change (match ck0 with Some c0 => c0 | None => None end) with (default None ck0). destruct (fill_catkin _ _) as [c1|].
      * rewrite IH. unfold cpp_from. cbn [cc_variant cc_includes cc_channels cc_makefile cc_catkin].
        split; intros (H1 & H2 & H3 & H4 & H5); (split_and!; [done..|]); [by exists c1|]. by destruct H5 as (? & [= ->] & H5).
      * split; [done|]. by intros (H1 & H2 & H3 & H4 & ? & ? & _).
    + apply IH.
Qed.
Lemma cpp_iff e c : fill_cpp e = Some c <-> says_cpp e c.
Proof.
  destruct e as [m ats kids]. unfold fill_cpp, fill.
  match goal with |- context [fold_kids ?F _ _] => set (fk := F) end. match goal with |- context [fold_attrs ?F _ _] => set (fa := F) end.
  cut (forall v0, match fold_attrs fa ats (CppConfig v0 [] [] false None) with Some y => fold_kids fk kids y | None => None end = Some c <->
    exists v, last_means variant_means v0 (named (lit "variant") ats) v /\ cpp_from (CppConfig v [] [] false None) kids c).
  { intros H. rewrite H. clear H. unfold cpp_from. cbn [cc_variant cc_includes cc_channels cc_makefile cc_catkin app orb]. split.
    - intros (v & Hv & <- & (is & Hi & <-) & (cs & Hc & <-) & Hm & Hk%cat_from_says). split; rewrite ?vals_one, ?sub_one; [exact Hv|exact Hi|exact Hc| |exact Hk].
      rewrite Hm. by rewrite negb_true_iff, bool_decide_eq_false.
    - intros [H1 H2 H3 H4 H5]. rewrite ?vals_one, ?sub_one in *. exists (cc_variant c). split; [done|]. split; [done|]. split; [by eexists|]. split; [by eexists|].
      split; [|by apply cat_from_says]. destruct (cc_makefile c), (bool_decide_reflect (kids_named (lit "makefile") kids = [])) as [E|E]; try done; cbn.
      + exfalso. by apply H4.
      + apply H4 in E. done. }
  induction ats as [|[n v] ats IH]; intros v0; cbn [fold_attrs].
  - unfold fk. rewrite cpp_from_iff. change (named (lit "variant") []) with ([] : list gostr). setoid_rewrite last_means_nil.
    split; [intros H; by exists v0|by intros (? & -> & H)].
  - unfold fa at 1. rewrite named_cons. destruct (decide _) as [->|N]; [|by rewrite IH]. cbn [app]. setoid_rewrite last_means_cons. setoid_rewrite variant_means_iff.
    destruct (parse_variant v) as [w|].
    + rewrite IH. naive_solver.
    + naive_solver.
Qed.

(** ** The whole configuration *)
Theorem config_iff e c : fill_config e = Some c <-> says_config e c.
Proof.
  destruct e as [m ats kids]. unfold fill_config, fill. rewrite fold_attrs_id. destruct (decide (m = lit "rtcg-gen")) as [->|N].
  2: { split; [done|]. intros [H _ _]. done. }
  match goal with |- context [fold_kids ?F _ _] => set (fk := F) end.
  cut (forall l0 d0, fold_kids fk kids (Config l0 d0) = Some c <->
    (exists l, Forall2 says_cpp (kids_named (lit "cpp") kids) l /\ cf_cpps c = l0 ++ l) /\ cf_dir c = last_or d0 (map own_text (kids_named (lit "directory") kids))).
  { intros H. rewrite H. split.
    - intros [(l & Hl & E) Hd]. split; [done|..]; rewrite sub_one; [by rewrite E|done].
    - intros [_ H1 H2]. rewrite sub_one in *. split; [by exists (cf_cpps c)|done]. }
  induction kids as [|[t|[n a k]] kids IH]; intros l0 d0; cbn [fold_kids].
  - destruct c as [l d]. cbn [cf_cpps cf_dir kids_named map]. change (last_or d0 []) with d0. split.
    + intros [= -> ->]. split; [|done]. exists []. split; [constructor|by rewrite app_nil_r].
    + intros [(l' & Hl & ->) ->]. inversion Hl; subst. by rewrite app_nil_r.
  - apply IH.
  - unfold fk at 1. destruct (decide (n = lit "cpp")) as [->|N1]; [|destruct (decide (n = lit "directory")) as [->|N2]]; rewrite ?kids_named_same; repeat rewrite kids_named_other by done.
    + destruct (fill_cpp _) as [c1|] eqn:E.
      * rewrite IH. split; intros [(l & Hl & El) Hd]; (split; [|done]).
        -- exists (c1 :: l). split; [constructor; [by apply cpp_iff|done]|]. by rewrite El, <- app_assoc.
        -- inversion Hl as [|? c2 ? l2 H2 Hl2]; subst. apply cpp_iff in H2. exists l2. split; [done|]. rewrite El, <- app_assoc. cbn [app]. pose proof (eq_trans (eq_sym E) H2) as X. injection X as X. by rewrite X.
      * split; [done|]. intros [(l & Hl & El) Hd]. inversion Hl as [|? c2 ? l2 H2 Hl2]; subst. apply cpp_iff in H2. pose proof (eq_trans (eq_sym E) H2) as X. discriminate X.
    + rewrite IH. cbn [map]. by rewrite last_or_cons, own_text_eq.
    + apply IH.
Qed.
