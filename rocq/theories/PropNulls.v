(** * C90: machine files with null in them *)
From Verif Require Export SpecNulls PropGenRun PropTools SpecChain.
From Verif Require Export StmProofs.

(** ** Filling in *)
Lemma fill_types_filled m : filled_types m (fill_types m).
Proof. unfold filled_types, fill_types. split; [by rewrite dom_fmap_L|]. intros ch ty H. by rewrite lookup_fmap, H. Qed.
Lemma fill_state_filled s : filled_state s (fill_state s).
Proof. destruct s as [[i ts [v|]]|]; constructor. Qed.
Lemma nil_states m : existsb is_nil (rm_states m) = true <-> None ∈ rm_states m.
Proof.
  rewrite existsb_exists. split.
  - intros (x & Hx & E). destruct x; [done|]. by apply elem_of_list_In.
  - intros H. exists None. split; [by apply elem_of_list_In|done].
Qed.
Lemma fill_stm_filled m : None ∉ rm_states m -> filled_stm m (fill_stm (Some m)).
Proof.
  intros H. cbn. destruct (existsb _ _) eqn:E; [by apply nil_states in E|]. constructor; cbn; [|apply fill_types_filled|done].
  clear. induction (rm_states m) as [|s l IH]; constructor; [apply fill_state_filled|done].
Qed.
Lemma fill_filled r : usable r -> filled r (fill_suite r).
Proof.
  intros [_ H _ _]. constructor; cbn; [apply fill_types_filled|by rewrite dom_fmap_L|]. intros name m Hm. exists (fill_stm (Some m)). rewrite lookup_fmap, Hm. split; [done|].
  apply fill_stm_filled. intros HC. apply (H name). by exists m.
Qed.

(** ** Nulls, as seen by the generator *)
Lemma derefs_iff r name : default false (derefs_nil <$> ru_tests r !! name) = true <-> null_machine r name \/ null_state r name.
Proof.
  unfold null_machine, null_state. destruct (ru_tests r !! name) as [[m|]|]; cbn [option_fmap option_map fmap default id].
  - unfold derefs_nil. rewrite existsb_exists. split.
    + intros (x & Hx & E). destruct x; [done|]. right. exists m. split; [done|]. by apply elem_of_list_In.
    + intros [E|(m' & [= <-] & H)]; [done|]. exists None. split; [by apply elem_of_list_In|done].
  - split; [by left|done].
  - split; [done|]. by intros [?|(? & ? & _)].
Qed.
Lemma ranges_iff r name : default false (ranges_nil <$> ru_tests r !! name) = true <-> null_verdict r name.
Proof.
  unfold null_verdict. destruct (ru_tests r !! name) as [[m|]|]; cbn [option_fmap option_map fmap default id].
  - unfold ranges_nil. rewrite existsb_exists. split.
    + intros (x & Hx & E). destruct x as [s|]; [|done]. exists m, s. split; [done|]. split; [by apply elem_of_list_In|]. by destruct (rs_verdict s).
    + intros (m' & s & [= <-] & H & E). exists (Some s). split; [by apply elem_of_list_In|by rewrite E].
  - split; [done|]. by intros (? & ? & ? & _).
  - split; [done|]. by intros (? & ? & ? & _).
Qed.
Lemma types_iff r : map_Forall (fun _ t => is_Some t) (ru_types r) <-> forall ch, ~ null_type r ch.
Proof.
  unfold null_type. split.
  - intros H ch E. destruct (H ch None E) as [? ?]. done.
  - intros H ch [t|] E; [by eexists|]. by destruct (H ch).
Qed.

(** ** Operations with and without nulls *)
Definition like (o : op) (g : gop) : Prop :=
  g = GOp o \/ exists p x, o = OpWrite p x /\ (g = GCrash \/ g = GOp (OpWrite p None)).
Lemma like_refl l : Forall2 like l (map GOp l).
Proof. induction l; constructor; [by left|done]. Qed.
Lemma sub_like r order g : Forall2 like (sub_ops (fill_suite r) order g) (sub_gops r order g).
Proof.
  destruct g as [c d|p d|c out]; cbn [sub_ops sub_gops]; [|apply like_refl..]. rewrite !map_app. rewrite <- !app_assoc.
  apply Forall2_app; [apply like_refl|]. apply Forall2_app; [apply like_refl|]. apply Forall2_app.
  - constructor; [|constructor]. destruct (bool_decide _); [by left|]. right. do 2 eexists. split; [reflexivity|by right].
  - induction order as [|t l IH]; constructor; [|done]. unfold test_gop. destruct (default false (derefs_nil <$> _)); [right; do 2 eexists; split; [reflexivity|by left]|].
    destruct (default false (ranges_nil <$> _)); cbn [negb andb]; [right; do 2 eexists; split; [reflexivity|by right]|by left].
Qed.
Lemma concat_mapi_like {A} (f : nat -> A -> list op) (g : nat -> A -> list gop) i l : (forall i x, Forall2 like (f i x) (g i x)) ->
  Forall2 like (concat (mapi_from f i l)) (concat (mapi_from g i l)).
Proof. intros H. revert i. induction l as [|x l IH]; intros i; cbn [mapi_from concat]; [constructor|]. apply Forall2_app; [apply H|apply IH]. Qed.
Lemma gen_like r ord gs : Forall2 like (gen_ops (fill_suite r) ord gs) (gen_gops r ord gs).
Proof.
  unfold gen_ops, gen_gops. apply Forall2_app; apply concat_mapi_like; [|intros i g; apply sub_like].
  intros i g. rewrite <- (map_map OpMkdir GOp). apply like_refl.
Qed.
Lemma exec_map_gop cwd ops f : exec_gops cwd (map GOp ops) f = match exec_all cwd ops f with (f', None) => (f', GDone) | (f', Some e) => (f', GFailed e) end.
Proof. revert f. induction ops as [|o l IH]; intros f; cbn; [done|]. destruct (exec cwd o f) as [f' [e|]]; [done|]. by rewrite IH. Qed.

(** ** No nulls that matter *)
Lemma sub_gops_usable r order g : usable r -> sub_gops r order g = map GOp (sub_ops (fill_suite r) order g).
Proof.
  intros [H1 H2 H3 H4]. destruct g as [c d|p d|c out]; [|done..]. cbn [sub_ops sub_gops]. rewrite bool_decide_eq_true_2 by (by apply types_iff).
  rewrite !map_app, <- !app_assoc. do 3 f_equal. rewrite map_map. apply map_ext. intros t. unfold test_gop.
  destruct (default false (derefs_nil <$> _)) eqn:E; [apply derefs_iff in E as [E|E]; [by destruct (H1 _ E)|by destruct (H2 _ E)]|].
  destruct (default false (ranges_nil <$> _)) eqn:E2; [apply ranges_iff in E2; by destruct (H3 _ E2)|]. done.
Qed.
Lemma concat_mapi_map {A} (f : nat -> A -> list op) (g : nat -> A -> list gop) i l : (forall i x, g i x = map GOp (f i x)) ->
  concat (mapi_from g i l) = map GOp (concat (mapi_from f i l)).
Proof. intros H. revert i. induction l as [|x l IH]; intros i; cbn [mapi_from concat]; [done|]. by rewrite H, IH, map_app. Qed.
Lemma gen_gops_usable r ord gs : usable r -> gen_gops r ord gs = map GOp (gen_ops (fill_suite r) ord gs).
Proof.
  intros H. unfold gen_gops, gen_ops. rewrite map_app. f_equal; apply concat_mapi_map; intros i g; [by rewrite map_map|by apply sub_gops_usable].
Qed.
(** C90: nulls in the types of single machines do not matter: what is generated is what would be with
    something else in their place. *)
Theorem C90_usable : forall r, usable r -> exists s, filled r s /\
  forall cwd c out ord f, generate_nulls cwd c out r ord f =
    match generate cwd c out s (ord s) f with (f', None) => (f', GDone) | (f', Some e) => (f', GFailed e) end.
Proof.
  intros r H. exists (fill_suite r). split; [by apply fill_filled|]. intros cwd c out ord f. unfold generate_nulls, generate. by rewrite gen_gops_usable, exec_map_gop.
Qed.

(** ** Nulls that matter *)
Lemma exec_done cwd gops f f' g : exec_gops cwd gops f = (f', GDone) -> g ∈ gops -> g <> GCrash /\ forall p, g <> GOp (OpWrite p None).
Proof.
  revert f. induction gops as [|g0 l IH]; intros f E Hin; [by apply elem_of_nil in Hin|]. destruct g0 as [o|]; [|done]. cbn [exec_gops] in E.
  destruct (exec cwd o f) as [f1 [e|]] eqn:Eo; [done|]. apply elem_of_cons in Hin as [->|Hin]; [|by eapply IH]. split; [done|]. intros p [= ->]. cbn in Eo.
  by destruct (creatable f (resolve cwd p)).
Qed.
Lemma exec_crash cwd gops f f' : exec_gops cwd gops f = (f', GCrashed) -> exists a b, gops = map GOp a ++ GCrash :: b /\ exec_all cwd a f = (f', None).
Proof.
  revert f. induction gops as [|g0 l IH]; intros f E; [done|]. destruct g0 as [o|].
  - cbn [exec_gops] in E. destruct (exec cwd o f) as [f1 [e|]] eqn:Eo; [done|]. destruct (IH f1 E) as (a & b & -> & Ha). exists (o :: a), b. split; [done|]. cbn. by rewrite Eo.
  - injection E as <-. by exists [], l.
Qed.
Lemma gen_new_first c out cc rest : cf_cpps c = cc :: rest -> exists d gs, gen_new c out = SCpp cc d :: gs.
Proof. intros E. unfold gen_new. rewrite E. cbn [map concat init_variant app]. by do 2 eexists. Qed.
Lemma gops_first r ord g gs x : x ∈ sub_gops r (ord (S (length gs))) g -> x ∈ gen_gops r ord (g :: gs).
Proof.
  intros H. unfold gen_gops. apply elem_of_app. right. cbn [mapi_from concat]. apply elem_of_app. left. by rewrite Nat.add_0_r.
Qed.
Lemma order_names r ord name m : (forall s, orders s (ord s)) -> ru_tests r !! name = Some m -> forall i, (name, fill_stm m) ∈ ord (fill_suite r) i.
Proof. intros Ho H i. rewrite (Ho _ i). apply elem_of_map_to_list. cbn. by rewrite lookup_fmap, H. Qed.
(** C90: with a variant configured, nothing is generated successfully from machines with null. *)
Theorem C90_never_succeeds : forall cwd c out r ord f f', (forall s, orders s (ord s)) -> cf_cpps c <> [] ->
  generate_nulls cwd c out r ord f = (f', GDone) -> usable r.
Proof.
  intros cwd c out r ord f f' Ho Hne E. destruct (cf_cpps c) as [|cc rest] eqn:Ec; [done|]. destruct (gen_new_first c out cc rest Ec) as (d & gs & Eg).
  unfold generate_nulls in E. rewrite Eg in E.
  assert (Hin : forall x, x ∈ sub_gops r (ord (fill_suite r) (S (length gs))) (SCpp cc d) -> x <> GCrash /\ forall p, x <> GOp (OpWrite p None)).
  { intros x Hx. eapply exec_done; [exact E|]. by apply gops_first. }
  assert (Ht : forall name m, ru_tests r !! name = Some m -> 
    let x := test_gop r (cc_variant cc) (process cc (su_types (fill_suite r))) (d) (name, fill_stm m) in x <> GCrash /\ forall p, x <> GOp (OpWrite p None)).
  { intros name m Hm. apply Hin. cbn [sub_gops]. apply elem_of_app. right. apply elem_of_list_fmap. exists (name, fill_stm m). split; [done|]. by apply order_names. }
  assert (Hnc : forall name, ~ (null_machine r name \/ null_state r name)).
  { intros name H. assert (Hm : exists m, ru_tests r !! name = Some m) by (destruct H as [H|(m & H & _)]; by eexists). destruct Hm as [m Hm].
    destruct (Ht name m Hm) as [Hx _]. apply Hx. unfold test_gop. cbn [fst]. by rewrite (proj2 (derefs_iff r name) H). }
  constructor.
  - intros name H. apply (Hnc name). by left.
  - intros name H. apply (Hnc name). by right.
  - intros name H. assert (Hm : exists m, ru_tests r !! name = Some m) by (destruct H as (m & s & H & _); by eexists). destruct Hm as [m Hm].
    destruct (Ht name m Hm) as [_ Hx]. eapply Hx. unfold test_gop. cbn [fst]. destruct (default false (derefs_nil <$> _)) eqn:Ed; [apply derefs_iff in Ed; by destruct (Hnc name)|].
    rewrite (proj2 (ranges_iff r name) H). reflexivity.
  - apply types_iff. destruct (bool_decide (map_Forall (fun _ t => is_Some t) (ru_types r))) eqn:Eb; [by apply bool_decide_eq_true in Eb|]. exfalso.
    destruct (Hin (GOp (OpWrite (path_join [ds_out d; lit "convert"; lit "convert.h"]) None))) as [_ Hx]; [|by eapply Hx].
    cbn [sub_gops]. rewrite Eb. apply elem_of_app. left. rewrite !map_app. apply elem_of_app. right. apply elem_of_app. right. by left.
Qed.
Theorem C90_no_variants : forall cwd c out r ord f, cf_cpps c = [] -> generate_nulls cwd c out r ord f = (f, GDone).
Proof. intros cwd c out r ord f E. unfold generate_nulls, gen_new. by rewrite E. Qed.

(** C90: it crashes only for a null machine or state, and if every type is there. *)
Lemma gop_crash_elem r ord gs : GCrash ∈ gen_gops r ord gs -> exists name, null_machine r name \/ null_state r name.
Proof.
  unfold gen_gops. rewrite elem_of_app. intros [H|H]; apply elem_mapi in H as (j & g & _ & H).
  - apply elem_of_list_fmap in H as (x & HC & _). discriminate HC.
  - destruct g as [cc d|p d|cc o]; cbn [sub_gops] in H; [|by apply elem_of_list_fmap in H as (x & HC & _)..].
    apply elem_of_app in H as [H|H]; apply elem_of_list_fmap in H as (x & HC & Hx); [discriminate HC|]. unfold test_gop in HC.
    destruct (default false (derefs_nil <$> _)) eqn:E; [|discriminate HC]. exists x.1. by apply derefs_iff.
Qed.
Lemma exec_stops cwd l p b f : exists e, (exec_gops cwd (map GOp l ++ GOp (OpWrite p None) :: b) f).2 = GFailed e.
Proof.
  revert f. induction l as [|o l IH]; intros f; cbn [map app exec_gops].
  - cbn [exec]. destruct (creatable f (resolve cwd p)); by eexists.
  - destruct (exec cwd o f) as [f1 [e|]]; [by eexists|]. apply IH.
Qed.
Lemma gops_types r ord cc d gs ch : null_type r ch ->
  exists l p b, gen_gops r ord (SCpp cc d :: gs) = map GOp l ++ GOp (OpWrite p None) :: b.
Proof.
  intros Hn. assert (Hb : bool_decide (map_Forall (fun _ t => is_Some t) (ru_types r)) = false).
  { apply bool_decide_eq_false. intros H. by destruct (proj1 (types_iff r) H ch). }
  unfold gen_gops. rewrite (concat_mapi_map (fun i g => map OpMkdir (sub_dirs (fill_suite r) (ord i) g))) by (intros; by rewrite map_map).
  set (dirs := concat _). cbn [mapi_from concat sub_gops]. rewrite Hb.
  set (pre := map (fun n => OpPrelude n _) _). set (conv := if cx_conv _ then _ else _). set (p := path_join [ds_out d; lit "convert"; lit "convert.h"]).
  set (tests := map (test_gop _ _ _ _) _). set (rest := concat _). exists (dirs ++ pre ++ conv), p, (tests ++ rest).
  rewrite !map_app. rewrite <- !app_assoc. reflexivity.
Qed.
Theorem C90_crashes : forall cwd c out r ord f f', generate_nulls cwd c out r ord f = (f', GCrashed) ->
  (exists name, null_machine r name \/ null_state r name) /\ forall ch, ~ null_type r ch.
Proof.
  intros cwd c out r ord f f' E. unfold generate_nulls in E. split.
  - apply exec_crash in E as (a & b & E & Ea). eapply gop_crash_elem. rewrite E. apply elem_of_app. right. by left.
  - intros ch Hn. destruct (cf_cpps c) as [|cc rest] eqn:Ec; [unfold gen_new in E; rewrite Ec in E; discriminate E|].
    destruct (gen_new_first c out cc rest Ec) as (d & gs & Eg). rewrite Eg in E. destruct (gops_types r (ord (fill_suite r)) cc d gs ch Hn) as (l & p & b & Hg). rewrite Hg in E.
    destruct (exec_stops cwd l p b f) as [e He]. rewrite E in He. discriminate He.
Qed.

(** ** What a run leaves *)
Lemma exec_gops_changes cwd d gops f : (forall o, GOp o ∈ gops -> d `prefix_of` op_target cwd o) -> changes_only_below d f (exec_gops cwd gops f).1.
Proof.
  revert f. induction gops as [|g l IH]; intros f H; [apply changes_refl|]. destruct g as [o|]; [|apply changes_refl]. cbn [exec_gops].
  pose proof (exec_changes cwd d o f (H o ltac:(left))) as Hc. destruct (exec cwd o f) as [f1 [e|]]; [done|]. cbn [fst] in Hc.
  eapply changes_trans; [exact Hc|]. apply IH. intros o' Ho. apply H. by right.
Qed.
Lemma exec_gops_keeps cwd gops f : nothing_deleted f (exec_gops cwd gops f).1.
Proof.
  revert f. induction gops as [|g l IH]; intros f; [done|]. destruct g as [o|]; [|done]. cbn [exec_gops].
  pose proof (exec_keeps cwd o f) as Hc. destruct (exec cwd o f) as [f1 [e|]]; [done|]. cbn [fst] in Hc. destruct Hc as [A B]. destruct (IH f1) as [A' B']. split; [intros p Hp; by apply A', A|intros p Hp; by apply B', B].
Qed.
Lemma like_target cwd ops gops o : Forall2 like ops gops -> GOp o ∈ gops -> exists o', o' ∈ ops /\ op_target cwd o = op_target cwd o'.
Proof.
  induction 1 as [|o0 g l k Hl _ IH]; intros Hin; [by apply elem_of_nil in Hin|]. apply elem_of_cons in Hin as [<-|Hin].
  - exists o0. split; [by left|]. destruct Hl as [[= ->]|(p & x & -> & [HC|[= ->]])]; done.
  - destruct (IH Hin) as (o' & Ho & E). exists o'. split; [by right|done].
Qed.
(** C90: however the run ends, changes stay below the output directory, and nothing is deleted. *)
Theorem C90_confined : forall cwd c out r ord f f' e,
  (forall cc, cc ∈ cf_cpps c -> valid_variant (cc_variant cc)) -> (forall name, name ∈ dom (ru_tests r) -> inside_name name) -> (forall s, orders s (ord s)) ->
  generate_nulls cwd c out r ord f = (f', e) -> changes_only_below (resolve cwd out) f f' /\ nothing_deleted f f'.
Proof.
  intros cwd c out r ord f f' e Hv Hn Ho E. replace f' with (generate_nulls cwd c out r ord f).1 by (by rewrite E). split; [|apply exec_gops_keeps]. apply exec_gops_changes.
  intros o H. destruct (like_target cwd _ _ o (gen_like r (ord (fill_suite r)) (gen_new c out)) H) as (o' & Ho' & ->).
  apply gen_ops_elem in Ho' as (i & g & Hg & Hop). apply gen_new_elem in Hg as (cc & Hcc & Hg). eapply (sub_ops_below cwd c out (fill_suite r) (ord (fill_suite r) i) cc g o'); [by apply Hv| |done|done].
  intros t Ht. apply Hn. rewrite (Ho _ i) in Ht. destruct t as [n m]. apply elem_of_map_to_list in Ht. cbn [su_tests fill_suite] in Ht. rewrite lookup_fmap in Ht. apply elem_of_dom. cbn [fst].
  destruct (ru_tests r !! n); [by eexists|done].
Qed.
(** C90: whatever main programs there are afterwards were there before, or are those of tests without
    null. *)
Lemma exec_contents cwd o f (P : content -> Prop) : (forall p x, fs_files f !! p = Some x -> P x) -> P CBroken -> P (Bytes []) -> (forall n, P (CPrelude n)) ->
  (forall p x, o = OpWrite p (Some x) -> P x) -> forall p x, fs_files (exec cwd o f).1 !! p = Some x -> P x.
Proof.
  intros Hf Hb He Hpre Hw. assert (Hput : forall q y, P y -> forall p x, fs_files (put f q y) !! p = Some x -> P x).
  { intros q y Hy p x. unfold put. cbn [fs_files]. rewrite lookup_insert_Some. intros [[_ <-]|[_ H]]; [done|by eapply Hf]. }
  destruct o as [p|n p|s d|p c]; cbn [exec].
  - unfold mkdir_all. destruct (decide _); cbn; [exact Hf|]. exact Hf.
  - destruct (creatable _ _); cbn [fst]; [apply Hput, Hpre|exact Hf].
  - destruct (negb _); [exact Hf|]. destruct (creatable _ _); [|exact Hf]. destruct (fs_files (put f (resolve cwd d) (Bytes [])) !! resolve cwd s) as [y|] eqn:E; cbn [fst]; [|by apply Hput].
    intros p x. unfold put. cbn [fs_files]. rewrite insert_insert, lookup_insert_Some. intros [[_ <-]|[_ H]]; [|by eapply Hf]. eapply (Hput (resolve cwd d) (Bytes [])); [exact He|exact E].
  - destruct (creatable _ _); [|exact Hf]. destruct c as [y|]; cbn [fst]; [apply Hput; by eapply Hw|by apply Hput].
Qed.
Lemma exec_gops_contents cwd gops f (P : content -> Prop) : (forall p x, fs_files f !! p = Some x -> P x) -> P CBroken -> P (Bytes []) -> (forall n, P (CPrelude n)) ->
  (forall p x, GOp (OpWrite p (Some x)) ∈ gops -> P x) -> forall p x, fs_files (exec_gops cwd gops f).1 !! p = Some x -> P x.
Proof.
  intros Hf Hb He Hpre Hw. revert f Hf. induction gops as [|g l IH]; intros f Hf; [exact Hf|]. destruct g as [o|]; [|exact Hf]. cbn [exec_gops].
  assert (Ho : forall p x, fs_files (exec cwd o f).1 !! p = Some x -> P x).
  { apply exec_contents; try done. intros p x ->. eapply Hw. by left. }
  destruct (exec cwd o f) as [f1 [e|]]; [exact Ho|]. apply IH; [|exact Ho]. intros p x Hx. eapply Hw. right. exact Hx.
Qed.
Theorem C90_written : forall cwd c out r ord f f' e p v name m ctx, (forall s, orders s (ord s)) -> generate_nulls cwd c out r ord f = (f', e) ->
  fs_files f' !! p = Some (CMain v name m ctx) ->
  (exists q, fs_files f !! q = Some (CMain v name m ctx)) \/
  (~ null_machine r name /\ ~ null_state r name /\ ~ null_verdict r name /\ exists m0, ru_tests r !! name = Some (Some m0) /\ filled_stm m0 m).
Proof.
  intros cwd c out r ord f f' e p v name m ctx Ho E Hp. replace f' with (generate_nulls cwd c out r ord f).1 in Hp by (by rewrite E). clear E.
  set (P := fun x => forall v name m ctx, x = CMain v name m ctx -> (exists q, fs_files f !! q = Some (CMain v name m ctx)) \/
    (~ null_machine r name /\ ~ null_state r name /\ ~ null_verdict r name /\ exists m0, ru_tests r !! name = Some (Some m0) /\ filled_stm m0 m)).
  enough (HP : P (CMain v name m ctx)) by (by apply HP). eapply (exec_gops_contents cwd _ f P); [| | | | |exact Hp]; clear Hp; unfold P.
  - intros q x Hx v' n m' c' ->. left. by eexists.
  - done.
  - done.
  - done.
  - intros q x Hx v' n m' c' ->. right. unfold gen_gops in Hx. apply elem_of_app in Hx as [Hx|Hx]; apply elem_mapi in Hx as (j & g & _ & Hx); [apply elem_of_list_fmap in Hx as (y & HC & _); discriminate HC|].
    destruct g as [cc d|pk d|cc o]; cbn [sub_gops] in Hx.
    + apply elem_of_app in Hx as [Hx|Hx].
      * apply elem_of_list_fmap in Hx as (y & [= <-] & Hy). apply elem_of_app in Hy as [Hy|Hy]; [apply elem_of_list_fmap in Hy as (z & HC & _); discriminate HC|].
        apply elem_of_app in Hy as [Hy|Hy]; [destruct (cx_conv _); [apply elem_of_list_singleton in Hy; discriminate Hy|by apply elem_of_nil in Hy]|].
        apply elem_of_list_singleton in Hy. destruct (bool_decide _); [injection Hy as _ Hy; discriminate Hy|injection Hy as _ Hy; discriminate Hy].
      * apply elem_of_list_fmap in Hx as ([n0 m0] & Hx & Hin). unfold test_gop in Hx. cbn [fst snd] in Hx. destruct (default false (derefs_nil <$> _)) eqn:Ed; [discriminate Hx|].
        destruct (default false (ranges_nil <$> _)) eqn:Er; cbn [negb andb] in Hx; [injection Hx as _ Hx; discriminate Hx|]. destruct (renders _ _ _); [|injection Hx as _ Hx; discriminate Hx].
        injection Hx as _ _ -> -> _. rewrite (Ho _ _) in Hin. apply elem_of_map_to_list in Hin. cbn [fill_suite su_tests] in Hin. rewrite lookup_fmap in Hin.
        assert (Hd : ~ (null_machine r n0 \/ null_state r n0)) by (rewrite <- derefs_iff, Ed; done). split; [tauto|]. split; [tauto|]. split; [rewrite <- ranges_iff, Er; done|].
        destruct (ru_tests r !! n0) as [[raw|]|] eqn:Hr; [|by destruct Hd; left|done]. cbn [option_fmap option_map fmap] in Hin. injection Hin as <-. exists raw. split; [done|]. apply fill_stm_filled.
        intros HC. apply Hd. right. by exists raw.
    + apply elem_of_list_fmap in Hx as (y & [= <-] & Hy). cbn [sub_ops] in Hy. apply elem_concat_map in Hy as (t & _ & Hy). cbn zeta in Hy.
      apply elem_of_cons in Hy as [Hy|Hy]; [|apply elem_of_list_singleton in Hy]; injection Hy as _ Hy; discriminate Hy.
    + apply elem_of_list_fmap in Hx as (y & [= <-] & Hy). cbn [sub_ops] in Hy. apply elem_of_list_singleton in Hy. injection Hy as _ Hy; discriminate Hy.
Qed.

(** ** Exit codes, if everything else needed is there *)
Lemma filled_typed r s : filled r s -> dom (su_types (fill_suite r)) = dom (su_types s).
Proof. intros [[H _] _ _]. rewrite H. cbn. unfold fill_types. by rewrite dom_fmap_L. Qed.
Lemma filled_names r s : filled r s -> dom (su_tests (fill_suite r)) = dom (su_tests s).
Proof. intros [_ H _]. rewrite H. cbn. by rewrite dom_fmap_L. Qed.
Lemma filled_overridden r s cc : filled r s -> overridden cc (fill_suite r) <-> overridden cc s.
Proof. intros H. unfold overridden. by rewrite (filled_typed r s H). Qed.
(** Being printable depends on identifiers and transitions only. *)
Lemma printable_same v types m m' : Forall2 (fun s s' => st_id s = st_id s' /\ st_tsets s = st_tsets s') (m_states m) (m_states m') -> printable v types m -> printable v types m'.
Proof.
  intros HF [H1 H2 H3]. assert (HF' := HF). apply Forall2_flip in HF'.
  assert (G : forall s', s' ∈ m_states m' -> exists s, s ∈ m_states m /\ st_id s = st_id s' /\ st_tsets s = st_tsets s').
  { intros s' Hs. apply elem_of_list_lookup in Hs as [i Hi]. destruct (Forall2_lookup_r _ _ _ _ _ HF Hi) as (s & Hs & E). exists s. split; [by eapply elem_of_list_lookup_2|done]. }
  assert (G' : forall s, s ∈ m_states m -> exists s', s' ∈ m_states m' /\ st_id s = st_id s' /\ st_tsets s = st_tsets s').
  { intros s Hs. apply elem_of_list_lookup in Hs as [i Hi]. destruct (Forall2_lookup_l _ _ _ _ _ HF Hi) as (s' & Hs' & E). exists s'. split; [by eapply elem_of_list_lookup_2|done]. }
  constructor.
  - intros E. rewrite E in HF. apply Forall2_nil_inv_r in HF. done.
  - intros s' ts Hs [Hts Hk]. destruct (G s' Hs) as (s & Hs0 & Ei & Et). destruct (H2 s ts Hs0) as (t' & ts' & t & Ht' & E & [Hts' Hk'] & Hin); [split; [by rewrite Et|done]|].
    destruct (G' t' Ht') as (u & Hu & Eu & Eu'). exists u, ts', t. split; [done|]. split; [congruence|]. split; [split; [by rewrite <- Eu'|done]|done].
  - intros Hv s' ts Hs Hts Hk. destruct (G s' Hs) as (s & Hs0 & Ei & Et). apply (H3 Hv s ts Hs0); [by rewrite Et|done].
Qed.
Lemma fill_printable v types r s name m : filled r s -> (forall name m, su_tests s !! name = Some m -> printable v types m) ->
  su_tests (fill_suite r) !! name = Some m -> printable v types m.
Proof.
  intros Hf Hp Hm. cbn [fill_suite su_tests] in Hm. rewrite lookup_fmap in Hm. destruct (ru_tests r !! name) as [raw|] eqn:Hr; [|done]. cbn in Hm. injection Hm as <-.
  assert (Htriv : printable v types (Stm [fill_state None] ∅ ∅)).
  { constructor; [done| |]; cbn [m_states]; [intros s0 ts Hs [Hts _]|intros _ s0 ts Hs Hts]; apply elem_of_list_singleton in Hs; subst s0; by apply elem_of_nil in Hts. }
  destruct raw as [raw|]; cbn [fill_stm]; [|exact Htriv]. destruct (existsb is_nil (rm_states raw)) eqn:E; [exact Htriv|].
  destruct (fd_tests _ _ Hf name raw Hr) as (m' & Hm' & [HF _ _]). eapply (printable_same v types m'); [|by eapply Hp]. cbn [m_states].
  assert (Hn : None ∉ rm_states raw) by (rewrite <- nil_states, E; done). clear - HF Hn. induction HF as [|x y l k Hxy _ IH]; cbn [map]; constructor.
  - destruct Hxy; [done|done|]. destruct Hn. by left.
  - apply IH. intros H. apply Hn. by right.
Qed.
Lemma fill_supplied cwd c r s f : filled r s -> supplied cwd c s f -> supplied cwd c (fill_suite r) f.
Proof.
  intros Hf H cc Hcc. destruct (H cc Hcc) as (A & B & C). rewrite (filled_overridden r s cc Hf), (filled_names r s Hf), (filled_typed r s Hf). split; [done|]. split; [done|].
  intros name m Hm. by eapply fill_printable.
Qed.
Lemma exec_sim cwd ops gops f f2 : Forall2 like ops gops -> exec_all cwd ops f = (f2, None) ->
  exec_gops cwd gops f = (f2, GDone) \/
  exists a p x b g b' f1, ops = a ++ OpWrite p (Some x) :: b /\ gops = map GOp a ++ g :: b' /\ exec_all cwd a f = (f1, None) /\
    ((g = GCrash /\ exec_gops cwd gops f = (f1, GCrashed)) \/
     (g = GOp (OpWrite p None) /\ exec_gops cwd gops f = (put f1 (resolve cwd p) CBroken, GFailed (ETemplate p)))).
Proof.
  intros HF. revert f. induction HF as [|o g l k Hog _ IH]; intros f E; [left; by injection E as ->|]. cbn [exec_all] in E. destruct (exec cwd o f) as [f1 [e|]] eqn:Eo; [discriminate E|].
  destruct Hog as [->|(p & x & -> & Hog)].
  - cbn [exec_gops]. rewrite Eo. destruct (IH f1 E) as [H|(a & p & x & b & g & b' & f3 & -> & -> & Ha & H)]; [by left|]. right. exists (o :: a), p, x, b, g, b', f3. split; [done|]. split; [done|]. split; [cbn; by rewrite Eo|done].
  - right. cbn [exec] in Eo. destruct (creatable f (resolve cwd p)) eqn:Ec; [|discriminate Eo]. destruct x as [x|]; [|discriminate Eo].
    exists [], p, x, l, g, k, f. split; [done|]. split; [done|]. split; [done|]. destruct Hog as [->| ->]; [by left|]. right. split; [done|]. cbn [exec_gops exec]. by rewrite Ec.
Qed.
Lemma gop_fail_elem r ord gs p : GOp (OpWrite p None) ∈ gen_gops r ord gs ->
  OpWrite p None ∈ gen_ops (fill_suite r) ord gs \/ (exists ch, null_type r ch) \/ exists name, null_verdict r name /\ ~ null_machine r name /\ ~ null_state r name.
Proof.
  unfold gen_gops, gen_ops. rewrite !elem_of_app. intros [H|H]; apply elem_mapi_iff in H as (j & g & Hg & H); [apply elem_of_list_fmap in H as (y & HC & _); discriminate HC|].
  destruct g as [cc d|pk d|cc o]; cbn [sub_gops] in H.
  - apply elem_of_app in H as [H|H].
    + destruct (bool_decide (map_Forall (fun _ t => is_Some t) (ru_types r))) eqn:Eb.
      * left. right. apply elem_mapi_iff. exists j, (SCpp cc d). split; [done|]. cbn [sub_ops]. apply elem_of_list_fmap in H as (y & [= <-] & Hy). rewrite !app_assoc. apply elem_of_app. left. by rewrite <- !app_assoc.
      * right. left. apply bool_decide_eq_false in Eb. apply map_not_Forall in Eb as (ch & t & Ht & Hn); [|intros; apply _]. exists ch. unfold null_type. rewrite Ht. by destruct t; [destruct Hn; eexists|].
    + apply elem_of_list_fmap in H as (t & Ht & Hin). unfold test_gop in Ht. destruct (default false (derefs_nil <$> _)) eqn:Ed; [discriminate Ht|].
      assert (Hd : ~ (null_machine r t.1 \/ null_state r t.1)) by (rewrite <- derefs_iff, Ed; done).
      destruct (default false (ranges_nil <$> _)) eqn:Er; [right; right; exists t.1; split; [by apply ranges_iff|tauto]|]. cbn [negb andb] in Ht.
      left. right. apply elem_mapi_iff. exists j, (SCpp cc d). split; [done|]. cbn [sub_ops]. do 3 (apply elem_of_app; right). apply elem_of_list_fmap. exists t. split; [injection Ht as E1 E2; cbn zeta; rewrite E1; f_equal; exact E2|done].
  - left. right. apply elem_mapi_iff. exists j, (SCatkin pk d). split; [done|]. by apply elem_of_list_fmap in H as (y & [= <-] & Hy).
  - left. right. apply elem_mapi_iff. exists j, (SMakefile cc o). split; [done|]. by apply elem_of_list_fmap in H as (y & [= <-] & Hy).
Qed.
Lemma exec_all_some cwd ops f f2 p : exec_all cwd ops f = (f2, None) -> OpWrite p None ∉ ops.
Proof.
  revert f. induction ops as [|o l IH]; intros f E Hin; [by apply elem_of_nil in Hin|]. cbn [exec_all] in E. destruct (exec cwd o f) as [f1 [e|]] eqn:Eo; [discriminate E|].
  apply elem_of_cons in Hin as [<-|Hin]; [|by eapply IH]. cbn in Eo. by destruct (creatable f (resolve cwd p)).
Qed.
(** C90: with a variant configured, and everything needed to generate there apart from what is null, how the
    run ends is decided by the nulls: it succeeds exactly if there are none that matter; a null type makes
    it fail with an error; so do null verdicts alone; and null machines or states alone make it crash. *)
Theorem C90_exit_code : forall cwd c out r s ord f f' e, filled r s -> sane c s -> separate cwd c out -> supplied cwd c s f -> (forall s, orders s (ord s)) ->
  unused f (resolve cwd out) -> cf_cpps c <> [] -> generate_nulls cwd c out r ord f = (f', e) ->
  (e = GDone <-> usable r) /\
  ((exists ch, null_type r ch) -> exists p, e = GFailed (ETemplate p)) /\
  ((forall name, ~ null_machine r name /\ ~ null_state r name) -> (exists name, null_verdict r name) -> exists p, e = GFailed (ETemplate p)) /\
  ((forall ch, ~ null_type r ch) -> (exists name, null_machine r name \/ null_state r name) ->
   (forall name, null_verdict r name -> null_state r name) -> e = GCrashed).
Proof.
  intros cwd c out r s ord f f' e Hf Hs Hsep Hsup Ho Hun Hne E.
  assert (Hs' : sane c (fill_suite r)) by (destruct Hs as [A B C]; constructor; [done..|]; by rewrite (filled_names r s Hf)).
  destruct (generate cwd c out (fill_suite r) (ord (fill_suite r)) f) as [f2 e2] eqn:Eg.
  assert (e2 = None) as ->. { apply (C49_succeeds_iff cwd c out (fill_suite r) (ord (fill_suite r)) f f2 e2 Hs' Hsep (Ho _) Hun Eg). apply supplied_iff; [apply (sane_variants _ _ Hs')|]. by eapply fill_supplied. }
  unfold generate in Eg. pose proof (exec_sim cwd _ _ f f2 (gen_like r (ord (fill_suite r)) (gen_new c out)) Eg) as Hsim. pose proof E as E0. unfold generate_nulls in E. rewrite E in Hsim.
  assert (Hcr : e = GCrashed -> (exists name, null_machine r name \/ null_state r name) /\ forall ch, ~ null_type r ch) by (intros ->; by eapply C90_crashes).
  assert (Hdone : e = GDone -> usable r) by (intros ->; by eapply C90_never_succeeds).
  assert (Hall : e = GDone \/ e = GCrashed \/ exists p, e = GFailed (ETemplate p) /\ GOp (OpWrite p None) ∈ gen_gops r (ord (fill_suite r)) (gen_new c out)).
  { destruct Hsim as [Hd|(a & p & x & b & g & b' & f1 & _ & -> & _ & [[_ H]|[-> H]])]; [left; by injection Hd|right; left; by injection H|].
    right. right. exists p. split; [by injection H|]. apply elem_of_app. right. by left. }
  split_and!.
  - split; [done|]. intros Hu. destruct (C90_usable r Hu) as (s' & _ & Hgen). destruct Hall as [->|[Hc|(p & Hc & Hp)]]; [done| |].
    + destruct (Hcr Hc) as [(name & [H|H]) _]; [by destruct (us_machines _ Hu name)|by destruct (us_states _ Hu name)].
    + apply gop_fail_elem in Hp as [Hp|[(ch & Hp)|(name & Hp & _)]]; [by destruct (exec_all_some _ _ _ _ _ Eg Hp)|by destruct (us_types _ Hu ch)|by destruct (us_verdicts _ Hu name)].
  - intros (ch & Hch). destruct Hall as [Hd|[Hc|(p & Hc & _)]]; [by destruct (us_types _ (Hdone Hd) ch)|by destruct (Hcr Hc) as [_ H]; destruct (H ch)|by exists p].
  - intros Hn (name & Hv). destruct Hall as [Hd|[Hc|(p & Hc & _)]]; [by destruct (us_verdicts _ (Hdone Hd) name)| |by exists p].
    destruct (Hcr Hc) as [(name' & [H|H]) _]; destruct (Hn name'); tauto.
  - intros Ht (name & Hn) Hv. destruct Hall as [Hd|[Hc|(p & Hc & Hp)]]; [|done|].
    + destruct Hn as [H|H]; [by destruct (us_machines _ (Hdone Hd) name)|by destruct (us_states _ (Hdone Hd) name)].
    + apply gop_fail_elem in Hp as [Hp|[(ch & Hp)|(n & Hp & _ & Hns)]]; [by destruct (exec_all_some _ _ _ _ _ Eg Hp)|by destruct (Ht ch)|]. destruct Hns. by apply Hv.
Qed.

(** ** What rtcg-make-stms prints has no null in it *)
Lemma dec_members_values {A} (dec : json -> jres A) (P : A -> Prop) kvs m0 m : Forall (fun kv => forall a, dec kv.2 = Ok a -> P a) kvs ->
  map_Forall (fun _ => P) m0 -> dec_members dec kvs m0 = Ok m -> map_Forall (fun _ => P) m.
Proof.
  intros HF. revert m0. induction HF as [|[k v] l Hv _ IH]; intros m0 Hm0 E; cbn [dec_members] in E; [by apply Ok_inj in E as <-|].
  apply res_bind_Ok in E as (a & Ha & E). eapply IH; [|exact E]. apply map_Forall_insert_2; [by apply Hv|done].
Qed.
Lemma res_map_from {A B E} (f : A -> res E B) l k y : res_map f l = Ok k -> y ∈ k -> exists x, x ∈ l /\ f x = Ok y.
Proof.
  revert k. induction l as [|x l IH]; intros k H Hy; cbn [res_map] in H; [apply Ok_inj in H; subst k; by apply elem_of_nil in Hy|].
  apply res_bind_Ok in H as (z & Hz & H). apply res_bind_Ok in H as (zs & Hzs & H). apply Ok_inj in H; subst k.
  apply elem_of_cons in Hy as [->|Hy]; [exists x; split; [by left|done]|]. destruct (IH zs Hzs Hy) as (x' & Hx & E'). exists x'. split; [by right|done].
Qed.
Lemma jcoerce_obj l : jcoerce (JObj l) = JObj (map (fun kv => (coerce kv.1, jcoerce kv.2)) l).
Proof. done. Qed.
Lemma coerce_omit b (k : gostr) v : map (fun kv => (coerce kv.1, jcoerce kv.2)) (omit b k v) = omit b (coerce k) (jcoerce v).
Proof. by destruct b. Qed.
Definition full_state (o : option rstate) : Prop := exists s v, o = Some s /\ rs_verdict s = Some v.
Lemma m_fold_inv {A} (P : A -> Prop) (dec : A -> json -> jres A) l a b : P a -> (forall kv x y, kv ∈ l -> P x -> dec x kv.2 = Ok y -> P y) -> m_fold dec l a = Ok b -> P b.
Proof.
  revert a. induction l as [|kv l IH]; intros a Ha Hs H; cbn [m_fold] in H; [apply Ok_inj in H; by subst b|]. apply res_bind_Ok in H as (x & Hx & H).
  eapply IH; [|intros kv' x' y' Hin; apply Hs; by right|exact H]. eapply Hs; [by left|exact Ha|exact Hx].
Qed.
Lemma m_field_inv {A} (P : A -> Prop) f (dec : A -> json -> jres A) kvs a b : P a ->
  (forall k v x y, (k, v) ∈ kvs -> fold_key k = fold_key f -> P x -> dec x v = Ok y -> P y) -> m_field f dec a kvs = Ok b -> P b.
Proof.
  intros Ha Hs. apply (m_fold_inv P); [done|]. intros [k v] x y [Hk Hin]%elem_of_list_filter Hx Hy. by eapply Hs.
Qed.
Lemma m_field_here {A} f (dec : A -> json -> jres A) old a k v b : lacks f a -> fold_key k = fold_key f -> lacks f b -> m_field f dec old (a ++ (k, v) :: b) = dec old v.
Proof.
  intros Ha Hk Hb. unfold m_field. rewrite filter_app, (filter_lacks f a Ha), filter_cons_True by done. rewrite (filter_lacks f b Hb). cbn. by destruct (dec old v).
Qed.
Lemma m_cells_values {A} zero (dec : A -> json -> jres A) (P : A -> Prop) mem l xs : Forall P mem -> (forall j x y, j ∈ l -> dec x j = Ok y -> P y) -> m_cells zero dec mem l = Ok xs -> Forall P xs.
Proof.
  revert mem xs. induction l as [|j l IH]; intros mem xs Hm Hd H; cbn [m_cells] in H; [apply Ok_inj in H; by subst xs|].
  apply res_bind_Ok in H as (x & Hx & H). apply res_bind_Ok in H as (ys & Hys & H). apply Ok_inj in H. subst xs. constructor; [eapply Hd; [by left|exact Hx]|].
  eapply IH; [|intros j' x' y' Hin; apply Hd; by right|exact Hys]. destruct mem; [constructor|]. by apply Forall_inv_tail in Hm.
Qed.
Lemma m_slice_values {A} zero (dec : A -> json -> jres A) (P : A -> Prop) old l new : Forall P old.1 -> (forall j x y, j ∈ l -> dec x j = Ok y -> P y) ->
  m_slice zero dec old (JArr l) = Ok new -> Forall P new.1.
Proof.
  intros Hm Hd H. destruct l as [|j l]; cbn [m_slice] in H; [apply Ok_inj in H; subst new; constructor|]. apply res_bind_Ok in H as (xs & Hxs & H). apply Ok_inj in H. subst new. cbn [fst]. by eapply m_cells_values.
Qed.
Definition full_mstate (o : option mstate) : Prop := exists s v, o = Some s /\ ms_verdict s = Some v.
Lemma full_of o : full_mstate o -> full_state (rstate_of <$> o).
Proof. intros (s & v & -> & Hv). by exists (rstate_of s), v. Qed.
Lemma state_full s j old o : enc_state s = Ok j -> m_ptr zero_mstate m_state old (jcoerce j) = Ok o -> full_mstate o.
Proof.
  unfold enc_state. intros (tss & _ & ->%Ok_inj)%res_bind_Ok. rewrite jcoerce_obj, !map_app, coerce_omit. cbn [map].
  change (coerce (lit "id")) with (lit "id"). change (coerce (lit "transitionSets")) with (lit "transitionSets"). change (coerce (lit "verdicts")) with (lit "verdicts").
  unfold m_ptr. intros (r & Hr & Ho)%res_bind_Ok. apply Ok_inj in Ho. subst o. exists r. unfold m_state, m_struct in Hr.
  apply res_bind_Ok in Hr as (i & _ & Hr). apply res_bind_Ok in Hr as (ts & _ & Hr). apply res_bind_Ok in Hr as (v & Hv & Hr). apply Ok_inj in Hr. subst r. cbn [ms_verdict fst snd] in *.
  rewrite app_assoc in Hv. rewrite m_field_here in Hv; [|solve_lacks|reflexivity|solve_lacks].
  unfold enc_verdict, enc_map in Hv. rewrite jcoerce_obj in Hv. unfold m_ptr in Hv. apply res_bind_Ok in Hv as (v' & _ & Hv). apply Ok_inj in Hv. subst v. by exists v'.
Qed.
Lemma enc_map_res_coerced {A B} (enc : gostr -> A -> wres json) (dec : json -> jres B) (P : B -> Prop) (m : gmap gostr A) j m' :
  (forall k a j b, m !! k = Some a -> enc k a = Ok j -> dec (jcoerce j) = Ok b -> P b) -> enc_map_res enc m = Ok j ->
  forall m0, map_Forall (fun _ => P) m0 -> m_map dec m0 (jcoerce j) = Ok m' -> map_Forall (fun _ => P) m'.
Proof.
  intros He (kjs & -> & H)%enc_map_res_F2 m0 Hm0. rewrite jcoerce_obj. apply dec_members_values; [|done]. apply Forall_forall. intros kv ([k' j'] & -> & Hin)%elem_of_list_fmap b. cbn [snd].
  apply elem_of_list_lookup in Hin as [i Hi]. eapply Forall2_lookup_r in H as ([k a] & Hx & Hk & Hj); [|done]. cbn in *.
  apply elem_of_list_lookup_2, range_map_elem in Hx. by eapply He.
Qed.
Lemma types_full ts j m0 m : enc_types ts = Ok j -> map_Forall (fun _ t => is_Some t) m0 -> m_type_map m0 (jcoerce j) = Ok m -> map_Forall (fun _ t => is_Some t) m.
Proof.
  intros He Hm Hd. refine (enc_map_res_coerced _ _ (fun t => is_Some t) _ _ _ _ He _ Hm Hd). intros _ t j' o _. destruct (ty_string t); [|done]. intros Ej. apply Ok_inj in Ej. subst j'.
  cbn [jcoerce]. unfold dec_ptr. intros (x & _ & Ho)%res_bind_Ok. apply Ok_inj in Ho. subst o. by exists x.
Qed.
Definition full_stm (o : option rstm) : Prop := exists m, o = Some m /\ Forall full_state (rm_states m) /\ map_Forall (fun _ t => is_Some t) (rm_types m).
Lemma stm_full order m j o : enc_stm order m = Ok j -> m_ptr zero_mstm m_stm None (jcoerce j) = Ok o -> full_stm (rstm_of <$> o).
Proof.
  unfold enc_stm. intros (sts & Hs & (tys & Ht & ->%Ok_inj)%res_bind_Ok)%res_bind_Ok. rewrite jcoerce_obj. cbn [map fst snd].
  change (coerce (lit "states")) with (lit "states"). change (coerce (lit "types")) with (lit "types"). change (coerce (lit "tests")) with (lit "tests").
  unfold m_ptr. intros (r & Hr & Ho)%res_bind_Ok. apply Ok_inj in Ho. subst o. exists (rstm_of r). split; [done|]. unfold m_stm, m_struct in Hr. cbn [default mm_states mm_types zero_mstm] in Hr.
  apply res_bind_Ok in Hr as (ss & H1 & Hr). apply res_bind_Ok in Hr as (ty & H2 & Hr). apply res_bind_Ok in Hr as (te & _ & Hr). apply Ok_inj in Hr. subst r. unfold rstm_of. cbn [rm_states rm_types mm_states mm_types].
  split.
  - assert (HF : Forall full_mstate ss.1).
    { revert H1. apply (m_field_inv (fun x : mslice (option mstate) => Forall full_mstate x.1)); [constructor|]. intros k v x y Hin Hk Hx.
      apply elem_of_cons in Hin as [[= -> ->]|Hin]; [|exfalso; apply elem_of_cons in Hin as [[= -> ->]|Hin]; [by vm_compute in Hk|]; apply elem_of_list_singleton in Hin as [= -> ->]; by vm_compute in Hk].
      cbn [jcoerce]. apply m_slice_values; [done|]. intros j' x' y' (j0 & -> & Hin)%elem_of_list_fmap Hy.
      destruct (res_map_from _ _ _ _ Hs Hin) as (s & _ & Es). by eapply state_full. }
    apply List.Forall_forall. intros o Ho. apply in_map_iff in Ho as (o' & <- & Ho'). apply full_of. rewrite List.Forall_forall in HF. apply HF. unfold live in Ho'. apply elem_of_list_In. apply elem_of_list_In in Ho'. by eapply elem_of_take in Ho' as (i & Hi%elem_of_list_lookup_2 & _).
  - revert H2. apply (m_field_inv (fun m => map_Forall (fun _ t => is_Some t) m)); [apply map_Forall_empty|]. intros k v x y Hin Hk Hx.
    apply elem_of_cons in Hin as [[= -> ->]|Hin]; [by vm_compute in Hk|]. apply elem_of_cons in Hin as [[= -> ->]|Hin]; [|apply elem_of_list_singleton in Hin as [= -> ->]; by vm_compute in Hk].
    by eapply types_full.
Qed.
Lemma full_use_state o : full_state o -> is_Some (use_state o).
Proof. intros (s & v & -> & Hv). destruct s as [i ts vv]. cbn in Hv. subst vv. by eexists. Qed.
Lemma full_use_types m : map_Forall (fun _ t => is_Some t) m -> is_Some (use_types m).
Proof. intros H. unfold use_types. rewrite decide_True by done. by eexists. Qed.
Lemma full_use_stm o : full_stm o -> is_Some (use_stm o).
Proof.
  intros (m & -> & Hs & Ht). cbn [use_stm]. assert (is_Some (mapM use_state (rm_states m))) as [ss ->] by (apply mapM_is_Some; eapply Forall_impl; [exact Hs|apply full_use_state]).
  destruct (full_use_types _ Ht) as [ty ->]. by eexists.
Qed.
(** ** Machine files without null: as before *)
Lemma use_types_fill m ty : use_types m = Some ty -> fill_types m = ty /\ map_Forall (fun _ t => is_Some t) m.
Proof.
  unfold use_types, fill_types. destruct (decide _) as [H|]; [|done]. intros [= <-]. split; [|done]. apply map_eq. intros k. rewrite lookup_fmap, lookup_omap.
  destruct (m !! k) as [o|] eqn:E; [|done]. destruct (H _ _ E) as [t ->]. done.
Qed.
Lemma use_state_fill o s : use_state o = Some s -> fill_state o = s /\ full_state o.
Proof. destruct o as [[i ts [v|]]|]; [|done..]. intros [= <-]. split; [done|]. by exists (RState i ts (Some v)), v. Qed.
Lemma use_states_fill l ss : mapM use_state l = Some ss -> map fill_state l = ss /\ Forall full_state l.
Proof.
  rewrite mapM_Some. induction 1 as [|o s l ss Ho _ [IH1 IH2]]; [done|]. apply use_state_fill in Ho as [H1 H2]. cbn [map]. rewrite H1, IH1. split; [done|]. by constructor.
Qed.
Lemma full_not_nil l : Forall full_state l -> None ∉ l.
Proof. rewrite List.Forall_forall. intros H Hin. apply elem_of_list_In in Hin. apply H in Hin as (s & v & [=] & _). Qed.
Lemma use_stm_fill o m : use_stm o = Some m -> fill_stm o = m /\ full_stm o.
Proof.
  destruct o as [r|]; [|done]. cbn [use_stm fill_stm]. destruct (mapM use_state (rm_states r)) as [ss|] eqn:Es; [|done]. destruct (use_types (rm_types r)) as [ty|] eqn:Et; [|done]. intros [= <-].
  apply use_states_fill in Es as [Hs1 Hs2]. apply use_types_fill in Et as [Ht1 Ht2].
  assert (existsb is_nil (rm_states r) = false) as ->. { apply not_true_iff_false. rewrite nil_states. by apply full_not_nil. }
  rewrite Hs1, Ht1. split; [done|]. exists r. done.
Qed.
Lemma use_suite_fill r s : use_suite r = Some s -> fill_suite r = s /\ usable r.
Proof.
  unfold use_suite, fill_suite. destruct (decide _) as [H|]; [|done]. destruct (use_types (ru_types r)) as [ty|] eqn:Et; [|done]. intros [= <-].
  apply use_types_fill in Et as [Ht1 Ht2]. rewrite Ht1. split.
  - f_equal. apply map_eq. intros k. rewrite lookup_fmap, lookup_omap. destruct (ru_tests r !! k) as [o|] eqn:E; [|done]. destruct (H _ _ E) as [m Hm]. cbn. rewrite Hm. f_equal. by apply use_stm_fill.
  - assert (Hfull : forall name o, ru_tests r !! name = Some o -> full_stm o) by (intros name o Ho; destruct (H _ _ Ho) as [m Hm]; by eapply use_stm_fill).
    constructor.
    + intros name Hn. by destruct (Hfull _ _ Hn) as (m & [=] & _).
    + intros name (m & Hn & Hin). destruct (Hfull _ _ Hn) as (m' & [= <-] & Hs & _). by apply full_not_nil in Hs.
    + intros name (m & st & Hn & Hin & Hv). destruct (Hfull _ _ Hn) as (m' & [= <-] & Hs & _). rewrite List.Forall_forall in Hs. apply elem_of_list_In in Hin. apply Hs in Hin as (x & v & [= <-] & Hx). congruence.
    + by apply types_iff.
Qed.
Lemma tools_use orders s text r : write_stm_suite orders s = Ok text -> read_stm_suite text = Ok r -> exists s', use_suite r = Some s'.
Proof.
  unfold write_stm_suite, read_stm_suite. intros (j & Ej & Hw)%res_bind_Ok. destruct (write_doc j) as [t|] eqn:Ew; [|done]. apply Ok_inj in Hw. subst t.
  destruct (enc_stm_suite_shape _ _ _ Ej) as [Hnn _]. rewrite (read_write_doc j text Hnn Ew). 
  unfold enc_stm_suite in Ej. apply res_bind_Ok in Ej as (tys & Ht & Ej). apply res_bind_Ok in Ej as (ts & Hts & Ej). apply Ok_inj in Ej. subst j.
  rewrite jcoerce_obj, !map_app, !coerce_omit. change (coerce (lit "types")) with (lit "types"). change (coerce (lit "tests")) with (lit "tests").
  unfold m_stm_suite, m_struct. cbn [ru_types ru_tests]. intros (ty & H1 & (te & H2 & Hr)%res_bind_Ok)%res_bind_Ok. apply Ok_inj in Hr. subst r. unfold use_suite. cbn [ru_types ru_tests].
  assert (Hty : map_Forall (fun _ t => is_Some t) ty).
  { revert H1. apply (m_field_inv (fun m => map_Forall (fun _ t => is_Some t) m)); [apply map_Forall_empty|]. intros k v x y Hin Hk Hx.
    apply elem_of_app in Hin as [Hin|Hin]; unfold omit in Hin; destruct (bool_decide _) in Hin; try by apply elem_of_nil in Hin.
    all: apply elem_of_list_singleton in Hin as [= -> ->]; try by vm_compute in Hk. by eapply types_full. }
  assert (Hte : map_Forall (fun _ m => is_Some (use_stm m)) te).
  { revert H2. apply (m_field_inv (fun m => map_Forall (fun _ m => is_Some (use_stm m)) m)); [apply map_Forall_empty|]. intros k v x y Hin Hk Hx.
    apply elem_of_app in Hin as [Hin|Hin]; unfold omit in Hin; destruct (bool_decide _) in Hin; try by apply elem_of_nil in Hin.
    all: apply elem_of_list_singleton in Hin as [= -> ->]; try by vm_compute in Hk.
    intros Hy. refine (enc_map_res_coerced _ _ (fun m => is_Some (use_stm m)) _ _ _ _ Hts _ Hx Hy). intros k m j' o _ Em Ho. apply full_use_stm.
    apply res_bind_Ok in Ho as (o' & Ho' & Ho). apply Ok_inj in Ho. subst o. by eapply stm_full. }
  rewrite decide_True by done. destruct (full_use_types _ Hty) as [ty' ->]. by eexists.
Qed.

Lemma use_whole r s : use_suite r = Some s -> whole r.
Proof.
  intros H. split; [by eapply use_suite_fill|]. intros name m ch Hn Hc. unfold use_suite in H. destruct (decide _) as [Hd|]; [|done]. destruct (Hd _ _ Hn) as [m' Hm].
  apply use_stm_fill in Hm as [_ (m0 & [= <-] & _ & Ht)]. by destruct (Ht _ _ Hc).
Qed.
Lemma whole_use r : whole r -> exists s, use_suite r = Some s.
Proof.
  intros [Hu Hm]. unfold use_suite. assert (Ht : map_Forall (fun _ t => is_Some t) (ru_types r)) by (apply types_iff; apply Hu).
  destruct (full_use_types _ Ht) as [ty ->]. rewrite decide_True; [by eexists|]. intros name o Ho. apply full_use_stm. destruct o as [m|]; [|by destruct (us_machines _ Hu name)].
  exists m. split; [done|]. split.
  - apply List.Forall_forall. intros [st|] Hin%elem_of_list_In; [|by destruct (us_states _ Hu name); exists m]. destruct (rs_verdict st) as [v|] eqn:Ev; [by exists st, v|]. by destruct (us_verdicts _ Hu name); exists m, st.
  - intros ch [t|] Hc; [by eexists|]. by destruct (Hm _ _ _ Ho Hc).
Qed.
(** The machine files that rtcg-make-stms prints have no null in them, whatever the machines. *)
Theorem C90_tools : forall orders s text, write_stm_suite orders s = Ok text -> no_nulls text.
Proof. intros orders s text H r Hr. destruct (tools_use _ _ _ _ H Hr) as [s' Hs]. by eapply use_whole. Qed.
(** The same run when what is read has no null in it, or cannot be read. *)
Theorem C90_agrees : forall xml ord cwd stdin a f,
  (forall text, read_input cwd stdin f (clean (ga_input a)) = Some text -> no_nulls text) ->
  run_gen_nulls xml ord cwd stdin a f = same_run (run_gen xml gen_input ord cwd stdin a f).
Proof.
  intros xml ord cwd stdin a f H. unfold run_gen_nulls, run_gen. destruct (read_input cwd stdin f (clean (ga_input a))) as [text|]; [|done]. specialize (H text eq_refl). cbn [mbind option_bind]. unfold gen_input.
  destruct (read_stm_suite text) as [r| |] eqn:Er; [|done..]. destruct (whole_use r (H r Er)) as [s Hs]. rewrite Hs. apply use_suite_fill in Hs as [Hfill Hu].
  assert (Hg : forall c out f, generate_nulls cwd c out r ord f = match generate cwd c out s (ord s) f with (f', None) => (f', GDone) | (f', Some e) => (f', GFailed e) end).
  { intros c out f0. unfold generate_nulls, generate. by rewrite gen_gops_usable, exec_map_gop, Hfill by done. }
  assert (Hgen : forall f1, match load_config xml cwd f1 (clean (ga_config a)) with
      | None => (f1, Ended (Some ConfigErr))
      | Some c => match generate_nulls cwd c (clean (ga_output a)) r ord f1 with (f', GDone) => (f', Ended None) | (f', GFailed e) => (f', Ended (Some (GenErr e))) | (f', GCrashed) => (f', Crashed) end
      end = same_run match load_config xml cwd f1 (clean (ga_config a)) with
             | None => (f1, Some ConfigErr)
             | Some c => match generate cwd c (clean (ga_output a)) s (ord s) f1 with (f', None) => (f', None) | (f', Some e) => (f', Some (GenErr e)) end
             end).
  { intros f1. destruct (load_config xml cwd f1 (clean (ga_config a))) as [c|]; [|done]. rewrite Hg. by destruct (generate cwd c (clean (ga_output a)) s (ord s) f1) as [f2 [e|]]. }
  destruct (ga_clean a); [|by rewrite Hgen]. destruct (decide _); [done|]. destruct (undeletable _); [done|]. by rewrite Hgen.
Qed.

(** ** Every run *)
Lemma as_option_iff {E A} (x : res E A) r : match x with Ok r => Some r | _ => None end = Some r <-> x = Ok r.
Proof. destruct x; split; congruence. Qed.
Lemma reads_machines_iff cwd stdin f p r : (read_input cwd stdin f (clean p) ≫= (fun text => match read_stm_suite text with Ok r => Some r | _ => None end)) = Some r <->
  reads_machines cwd stdin f p r.
Proof.
  unfold read_input, reads_machines. generalize (read_stm_suite). intros rd. destruct (decide (clean p = stdin_path)) as [E|E].
  - apply stdin_names in E as Hn. cbn [mbind option_bind]. rewrite as_option_iff. split; [intros H; exists stdin; split; [exact H|by left]|].
    intros (text & Ht & [[_ ->]|[? _]]); [exact Ht|done].
  - rewrite stdin_names in E. rewrite resolve_clean. unfold file_bytes. split.
    + intros H. destruct (fs_files f !! resolve cwd p) as [[text| | | | | | |]|] eqn:Ef; try discriminate H. cbn [mbind option_bind] in H. exists text. split; [|by right]. by apply as_option_iff.
    + intros (text & Ht & [[? _]|[_ Hf]]); [done|]. rewrite Hf. cbn [mbind option_bind]. by apply as_option_iff.
Qed.
Theorem C90_outcome : forall xml ord cwd stdin a f, wf_fs f -> is_dir f cwd ->
  null_run xml ord cwd stdin a f (run_gen_nulls xml ord cwd stdin a f).1 (run_gen_nulls xml ord cwd stdin a f).2.
Proof.
  intros xml ord cwd stdin a f Hwf Hcwd. unfold run_gen_nulls. destruct (_ ≫= _) as [r|] eqn:Es.
  2:{ cbn. apply nrun_no_suite. intros r Hr. apply reads_machines_iff in Hr. rewrite Es in Hr. discriminate Hr. }
  apply reads_machines_iff in Es.
  assert (Hgen : forall f1, prepared cwd a f f1 -> (forall q, has_file f1 q -> has_file f q) ->
    let x := match load_config xml cwd f1 (clean (ga_config a)) with
             | None => (f1, Ended (Some ConfigErr))
             | Some c => match generate_nulls cwd c (clean (ga_output a)) r ord f1 with (f', GDone) => (f', Ended None) | (f', GFailed e) => (f', Ended (Some (GenErr e))) | (f', GCrashed) => (f', Crashed) end
             end in null_run xml ord cwd stdin a f x.1 x.2).
  { intros f1 Hp Hsub. cbn zeta. destruct (load_config xml cwd f1 (clean (ga_config a))) as [c|] eqn:Ec.
    - pose proof (load_reads xml cwd f f1 _ c Hwf Hcwd Hsub Ec) as Hc. destruct (generate_nulls cwd c (clean (ga_output a)) r ord f1) as [f2 e] eqn:Eg.
      assert (Hr : null_run xml ord cwd stdin a f f2 (end_of e)) by (by eapply nrun_generated). by destruct e.
    - cbn [fst snd]. eapply nrun_no_config; [done..|]. by apply load_none. }
  destruct (ga_clean a) eqn:Ea.
  - destruct (decide (clean (ga_output a) = lit ".")) as [E|E].
    + cbn. eapply nrun_refused; [done..|]. by apply here_names.
    + rewrite here_names in E. rewrite resolve_clean. pose proof (remove_cleared (resolve cwd (ga_output a)) f) as Hr. destruct (undeletable (clean (ga_output a))) eqn:Eu.
      * cbn. eapply nrun_not_deleted; [done..| |done]. by apply above_names.
      * apply Hgen; [|by eapply cleared_sub]. apply clear; [done..| |done]. rewrite <- above_names. by rewrite Eu.
  - apply Hgen; [by constructor|done].
Qed.

(** ** What a machine's own types are does not show in its program *)
Theorem C90_own_types : forall v name date ss types types' tests ctx txt,
  file_text date (CMain v name (Stm ss types tests) ctx) txt -> file_text date (CMain v name (Stm ss types' tests) ctx) txt.
Proof.
  intros v name date ss types types' tests ctx txt H. inversion H as [v0 n0 m0 c0 ts Hts|x t E]; subst; [|done].
  assert (main_text v name date (Stm ss types tests) ctx ts = main_text v name date (Stm ss types' tests) ctx ts) as ->.
  { unfold main_text. reflexivity. }
  by constructor.
Qed.

(** *** Witnesses: machine files with null in each place, and what becomes of them *)
Definition null_read (text : gostr) : rsuite := match read_stm_suite text with Ok r => r | _ => RSuite ∅ ∅ end.
Definition null_end (text : gostr) : gend := (generate_nulls ex_home one_cpp (lit "out") (null_read text) run_ord (Fs {[ex_home]} ∅)).2.
Definition quoted (s : gostr) : gostr := map (fun c => if decide (c = "'"%char) then byte 34 else c) s.
Definition f_machine := quoted (lit "{'tests': {'convert': null}}").
Definition f_state := quoted (lit "{'tests': {'convert': {'states': [{'id': 'a', 'verdicts': {}}, null]}}}").
Definition f_verdict := quoted (lit "{'tests': {'convert': {'states': [{'id': 'a'}]}}}").
Definition f_type := quoted (lit "{'types': {'c': null}, 'tests': {'convert': {'states': [{'id': 'a', 'verdicts': {}}]}}}").
Definition f_own_type := quoted (lit "{'types': {'c': 'int'}, 'tests': {'convert': {'types': {'c': null}, 'states': [{'id': 'a', 'verdicts': {}}]}}}").
Example C90_witness_ends :
  null_end f_machine = GCrashed /\ null_end f_state = GCrashed /\
  null_end f_verdict = GFailed (ETemplate (lit "out/animate/src/convert/src/main.cpp")) /\
  null_end f_type = GFailed (ETemplate (lit "out/animate/src/convert/convert.h")) /\
  null_end f_own_type = GDone.
Proof. split_and!; vm_compute; reflexivity. Qed.
Definition machine_of (r : rsuite) (name : gostr) : option rstm := match ru_tests r !! name with Some (Some m) => Some m | _ => None end.
Lemma machine_of_Some r name m : machine_of r name = Some m -> ru_tests r !! name = Some (Some m).
Proof. unfold machine_of. destruct (ru_tests r !! name) as [[?|]|]; congruence. Qed.
Lemma null_state_at r name i : (machine_of r name ≫= fun m => rm_states m !! i) = Some None -> null_state r name.
Proof. intros H. destruct (machine_of r name) as [m|] eqn:E; [|discriminate H]. apply machine_of_Some in E. exists m. split; [exact E|]. by eapply elem_of_list_lookup_2. Qed.
Lemma null_verdict_at r name i : (machine_of r name ≫= fun m => rm_states m !! i ≫= fun o => match o with Some s => Some (rs_verdict s) | None => None end) = Some None -> null_verdict r name.
Proof.
  intros H. destruct (machine_of r name) as [m|] eqn:E; [|discriminate H]. apply machine_of_Some in E. cbn [mbind option_bind] in H. destruct (rm_states m !! i) as [[s|]|] eqn:Ei; [|discriminate H..].
  cbn in H. injection H as H. exists m, s. split; [exact E|]. split; [|exact H]. by eapply elem_of_list_lookup_2.
Qed.
Lemma null_own_type r name ch : (machine_of r name ≫= fun m => rm_types m !! ch) = Some None -> ~ whole r.
Proof.
  intros H [_ Hw]. destruct (machine_of r name) as [m|] eqn:E; [|discriminate H]. apply machine_of_Some in E. by apply (Hw name m ch).
Qed.
Lemma ended_pair {A B} (x : A * B) (e : B) : x.2 = e -> x = (x.1, e).
Proof. destruct x. cbn. by intros ->. Qed.
Example C90_witness_nulls :
  null_machine (null_read f_machine) (lit "convert") /\ null_state (null_read f_state) (lit "convert") /\
  null_verdict (null_read f_verdict) (lit "convert") /\ null_type (null_read f_type) (lit "c") /\
  (usable (null_read f_own_type) /\ ~ whole (null_read f_own_type)).
Proof.
  split_and!.
  - vm_compute. reflexivity.
  - apply (null_state_at _ _ 1). vm_compute. reflexivity.
  - apply (null_verdict_at _ _ 0). vm_compute. reflexivity.
  - vm_compute. reflexivity.
  - apply (C90_never_succeeds ex_home one_cpp (lit "out") (null_read f_own_type) run_ord (Fs {[ex_home]} ∅) (generate_nulls ex_home one_cpp (lit "out") (null_read f_own_type) run_ord (Fs {[ex_home]} ∅)).1).
    + intros s i. reflexivity.
    + discriminate.
    + apply ended_pair. vm_compute. reflexivity.
  - apply (null_own_type _ (lit "convert") (lit "c")). vm_compute. reflexivity.
Qed.
Definition ex_nulls : rsuite := RSuite (Some <$> su_types ex_suite) {[ lit "t" := None; lit "u" := Some (raw_stm ex_stm) ]}.
Example C90_witness : filled ex_nulls ex_suite /\ sane ex_config ex_suite /\ separate ex_home ex_config (lit "out") /\ supplied ex_home ex_config ex_suite ex_fs /\
  unused ex_fs (resolve ex_home (lit "out")) /\ cf_cpps ex_config <> [] /\ null_machine ex_nulls (lit "t") /\
  (generate_nulls ex_home ex_config (lit "out") ex_nulls run_ord ex_fs).2 = GCrashed.
Proof.
  destruct C49_witness as (Hs & Hsep & _ & Hu & Hc & _). split_and!; [|exact Hs|exact Hsep|apply supplied_iff; [apply (sane_variants _ _ Hs)|exact Hc]|exact Hu|discriminate|vm_compute; reflexivity|vm_compute; reflexivity].
  split.
  - unfold ex_nulls. cbn [ru_types]. split; [by rewrite dom_fmap_L|]. intros ch ty. rewrite lookup_fmap. destruct (su_types ex_suite !! ch); [|discriminate]. cbn. by intros [= ->].
  - apply set_eq. intros k. unfold ex_suite, ex_nulls. cbn [su_tests ru_tests]. rewrite !dom_insert_L, !dom_singleton_L. done.
  - intros name m H. unfold ex_nulls in H. cbn [ru_tests] in H. apply lookup_insert_Some in H as [[_ [=]]|[_ H]]. apply lookup_singleton_Some in H as [<- [= <-]]. exists ex_stm.
    split; [vm_compute; reflexivity|]. split.
    + unfold raw_stm. cbn [rm_states]. induction (m_states ex_stm) as [|st l IH]; cbn [map]; constructor; [|exact IH]. destruct st. constructor.
    + unfold raw_stm. cbn [rm_types]. split; [by rewrite dom_fmap_L|]. intros ch ty. rewrite lookup_fmap. destruct (m_types ex_stm !! ch); [|discriminate]. cbn. by intros [= ->].
    + reflexivity.
Qed.
Print Assumptions C90_exit_code. Print Assumptions C90_outcome. Print Assumptions C90_tools.
