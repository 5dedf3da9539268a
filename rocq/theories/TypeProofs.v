(** * Lemmas about type inference and unification *)
From Verif Require Export MachineProofs.

Definition has (l : list (gostr * rstype)) (tmap : type_map) (c : gostr) (t : rstype) : Prop :=
  (c, t) ∈ l \/ tmap !! c = Some t.
Definition lub (P : rstype -> Prop) (u : rstype) : Prop :=
  wf_type u /\ (exists t, P t) /\ (forall t, P t -> ty_le t u) /\
  forall d, (forall t, P t -> ty_le t d) -> ty_le u d.
Lemma lub_ext (P Q : rstype -> Prop) u : (forall t, P t <-> Q t) -> lub P u -> lub Q u.
Proof.
  intros H (H1 & (t & Ht) & H2 & H3). split; [done|]. split; [exists t; by apply H|]. split.
  - intros x Hx. apply H2. by apply H.
  - intros d Hd. apply H3. intros x Hx. apply Hd. by apply H.
Qed.
Lemma ty_le_antisym a b : ty_le a b -> ty_le b a -> a = b.
Proof.
  intros [H1 H2] [H3 H4]. destruct a, b; cbn in *. f_equal; [done|]. apply domain_num_inj. lia.
Qed.
Lemma lub_unique P u v : lub P u -> lub P v -> u = v.
Proof. intros (_ & _ & A & B) (_ & _ & C & D). apply ty_le_antisym; [by apply B|by apply D]. Qed.
Lemma ty_le_trans a b c : ty_le a b -> ty_le b c -> ty_le a c.
Proof. intros [H1 H2] [H3 H4]. split; [congruence|lia]. Qed.

Lemma unify_inner_spec l : forall tmap, (forall c t, has l tmap c t -> wf_type t) ->
  match unify_inner l tmap with
  | Ok tm => (forall c t1 t2, has l tmap c t1 -> has l tmap c t2 -> t_kind t1 = t_kind t2) /\
             forall c, match tm !! c with Some u => lub (has l tmap c) u | None => forall t, ~ has l tmap c t end
  | Err (BTypeConflict c) => exists t1 t2, has l tmap c t1 /\ has l tmap c t2 /\ t_kind t1 <> t_kind t2
  | Panic => False
  end.
Proof.
  induction l as [|[c t] l IH]; intros tmap Hwf.
  - cbn. split.
    + intros c t1 t2 [H|H1]; [by apply elem_of_nil in H|]. intros [H|H2]; [by apply elem_of_nil in H|]. congruence.
    + intros c. unfold has. destruct (tmap !! c) as [u|] eqn:E.
      * assert (Hu : wf_type u) by (apply (Hwf c); by right).
        split; [done|]. split; [exists u; by right|]. split.
        -- intros t [H|H]; [by apply elem_of_nil in H|]. injection H as ->. by split.
        -- intros d Hd. apply Hd. by right.
      * intros t [H|H]; [by apply elem_of_nil in H|done].
  - cbn [unify_inner]. destruct (tmap !! c) as [u|] eqn:Eu.
    + assert (Ht : wf_type t) by (apply (Hwf c); left; left).
      assert (Hu : wf_type u) by (apply (Hwf c); by right).
      pose proof (unify_join t u Ht Hu) as (Hok & Hres & Hnp).
      destruct (unify (Some t) (Some u)) as [w|er|] eqn:Ew; [|clear Hres Hnp|done].
      * assert (Hk : t_kind t = t_kind u) by (apply Hok; by eexists).
        destruct (Hres w eq_refl) as (w' & -> & Hw & Htw & Huw & Hleast).
        specialize (IH (<[c := w']> tmap)).
        assert (Hne : forall d x, d <> c -> has l (<[c := w']> tmap) d x <-> has ((c, t) :: l) tmap d x).
        { intros d x Hd. unfold has. rewrite lookup_insert_ne by done. rewrite elem_of_cons. split.
          - intros [H|H]; [left; by right|by right].
          - intros [[[= -> ->]|H]|H]; [done|by left|by right]. }
        assert (Heq : forall x, has l (<[c := w']> tmap) c x <-> (c, x) ∈ l \/ x = w').
        { intros x. unfold has. rewrite lookup_insert. split; (intros [H|H]; [by left|right; congruence]). }
        assert (Heq2 : forall x, has ((c, t) :: l) tmap c x <-> (c, x) ∈ l \/ x = t \/ x = u).
        { intros x. unfold has. rewrite elem_of_cons, Eu. split.
          - intros [[[= ->]|H]|H]; [by right; left|by left|right; right; congruence].
          - intros [H|[->| ->]]; [left; by right|left; by left|by right]. }
        destruct (unify_inner l (<[c := w']> tmap)) as [tm|[d]|].
        -- destruct IH as [IH1 IH2].
           { intros d x Hx. destruct (decide (d = c)) as [->|Hd].
             - apply Heq in Hx as [H| ->]; [|done]. apply (Hwf c). left. by right.
             - apply (Hwf d). by apply Hne. }
           split.
           ++ intros d t1 t2. destruct (decide (d = c)) as [->|Hd].
              ** assert (Hc : forall x, (c, x) ∈ l -> t_kind x = t_kind w').
                 { intros x Hx. apply (IH1 c); apply Heq; [by left|by right]. }
                 assert (Hk1 : forall x, has ((c, t) :: l) tmap c x -> t_kind x = t_kind w').
                 { intros x Hx. apply Heq2 in Hx as [H|[->| ->]]; [by apply Hc|apply Htw|apply Huw]. }
                 intros H1 H2. by rewrite (Hk1 _ H1), (Hk1 _ H2).
              ** rewrite <- !Hne by done. apply IH1.
           ++ intros d. specialize (IH2 d). destruct (decide (d = c)) as [->|Hd].
              ** destruct (tm !! c) as [v|].
                 --- destruct IH2 as (A & _ & B & C). split; [done|]. split; [exists t; apply Heq2; tauto|]. split.
                     +++ intros x Hx. apply Heq2 in Hx as [H|[->| ->]].
                         *** apply B. apply Heq. by left.
                         *** eapply ty_le_trans; [exact Htw|]. apply B. apply Heq. by right.
                         *** eapply ty_le_trans; [exact Huw|]. apply B. apply Heq. by right.
                     +++ intros x Hx. apply C. intros y Hy. apply Heq in Hy as [H| ->].
                         *** apply Hx. apply Heq2. by left.
                         *** apply Hleast; apply Hx; apply Heq2; tauto.
                 --- exfalso. apply (IH2 w'). apply Heq. by right.
              ** destruct (tm !! d) as [v|].
                 --- eapply lub_ext; [|exact IH2]. intros x. by apply Hne.
                 --- intros x Hx. apply (IH2 x). by apply Hne.
        -- destruct IH as (t1 & t2 & H1 & H2 & Hk').
           { intros d' x Hx. destruct (decide (d' = c)) as [->|Hd].
             - apply Heq in Hx as [H| ->]; [|done]. apply (Hwf c). left. by right.
             - apply (Hwf d'). by apply Hne. }
           destruct (decide (d = c)) as [->|Hd].
           ++ assert (Hrep : forall x, has l (<[c := w']> tmap) c x -> exists y, has ((c, t) :: l) tmap c y /\ t_kind y = t_kind x).
              { intros x Hx. apply Heq in Hx as [H| ->].
                - exists x. split; [|done]. apply Heq2. by left.
                - exists t. split; [apply Heq2; tauto|]. apply Htw. }
              destruct (Hrep _ H1) as (y1 & Hy1 & E1). destruct (Hrep _ H2) as (y2 & Hy2 & E2).
              exists y1, y2. split; [done|]. split; [done|]. congruence.
           ++ exists t1, t2. rewrite <- !Hne by done. done.
        -- apply IH. intros d' x Hx. destruct (decide (d' = c)) as [->|Hd].
           ++ apply Heq in Hx as [H| ->]; [|done]. apply (Hwf c). left. by right.
           ++ apply (Hwf d'). by apply Hne.
      * assert (Hk : t_kind t <> t_kind u).
        { intros Hk. apply Hok in Hk as [? ?]. discriminate. }
        destruct er. exists t, u. split; [left; left|]. split; [by right|done].
    + rewrite unify_none_r. specialize (IH (<[c := t]> tmap)).
      assert (Hall : forall d x, has l (<[c := t]> tmap) d x <-> has ((c, t) :: l) tmap d x).
      { intros d x. unfold has. rewrite elem_of_cons. destruct (decide (d = c)) as [->|Hd].
        - rewrite lookup_insert, Eu. split.
          + intros [H|[= ->]]; [left; by right|left; by left].
          + intros [[[= ->]|H]|H]; [by right|by left|done].
        - rewrite lookup_insert_ne by done. split.
          + intros [H|H]; [left; by right|by right].
          + intros [[[= -> ->]|H]|H]; [done|by left|by right]. }
      destruct (unify_inner l (<[c := t]> tmap)) as [tm|[d]|].
      * destruct IH as [IH1 IH2]; [intros d x Hx; apply (Hwf d); by apply Hall|]. split.
        -- intros d t1 t2. rewrite <- !Hall. apply IH1.
        -- intros d. specialize (IH2 d). destruct (tm !! d) as [v|].
           ++ eapply lub_ext; [|exact IH2]. intros x. apply Hall.
           ++ intros x Hx. apply (IH2 x). by apply Hall.
      * destruct IH as (t1 & t2 & H1 & H2 & Hk); [intros d' x Hx; apply (Hwf d'); by apply Hall|].
        exists t1, t2. rewrite <- !Hall. done.
      * apply IH. intros d x Hx. apply (Hwf d). by apply Hall.
Qed.

(** Type inference is unification with the types of the values. *)
Definition ev_types (es : list (option event)) : list (gostr * rstype) :=
  omap (fun oe => (fun e => (ch_name (e_chan e), value_type (e_value e))) <$> oe) es.
Lemma infer_all_unify es : forall types, (forall c t, types !! c = Some t -> wf_type t) ->
  infer_all es types = unify_inner (ev_types es) types.
Proof.
  induction es as [|oe es IH]; intros types Hwf; [done|]. cbn [infer_all]. destruct oe as [e|]; cbn [infer_type]; [|by apply IH].
  unfold ev_types. cbn [omap list_omap fmap option_fmap option_map unify_inner]. fold (ev_types es).
  set (c := ch_name (e_chan e)). rewrite (unify_comm (types !! c)); cycle 1.
  { destruct (types !! c) as [t|] eqn:E; [|done]. by eapply Hwf. } { apply value_type_wf. }
  destruct (unify (Some (value_type (e_value e))) (types !! c)) as [[u|]|er|] eqn:E; [|done|done|done].
  apply IH. intros d t. destruct (decide (d = c)) as [->|Hd].
  - rewrite lookup_insert. intros [= <-]. destruct (types !! c) as [x|] eqn:Ex.
    + eapply unify_lub in E as [H _]; [done|apply value_type_wf|by eapply Hwf].
    + rewrite unify_none_r in E. injection E as <-. apply value_type_wf.
  - rewrite lookup_insert_ne by done. apply Hwf.
Qed.

(** Order-free form over whole lists. *)
Lemma unify_types_concat orders : forall tmap, unify_types orders tmap = unify_inner (concat orders) tmap.
Proof.
  assert (Happ : forall a b tmap, unify_inner (a ++ b) tmap = res_bind (unify_inner a tmap) (unify_inner b)).
  { induction a as [|[c t] a IH]; intros b tmap; [done|]. cbn [app unify_inner].
    destruct (unify (Some t) (tmap !! c)) as [[u|]|e|]; [apply IH|done|done|done]. }
  induction orders as [|o orders IH]; intros tmap; [done|]. cbn. rewrite Happ.
  destruct (unify_inner o tmap); [apply IH|done|done].
Qed.
Lemma has_empty l c t : has l ∅ c t <-> (c, t) ∈ l.
Proof. unfold has. rewrite lookup_empty. split; [by intros [H|H]|by left]. Qed.
Definition consistent (l : list (gostr * rstype)) : Prop :=
  forall c t1 t2, (c, t1) ∈ l -> (c, t2) ∈ l -> t_kind t1 = t_kind t2.
Definition typed_by (l : list (gostr * rstype)) (tm : type_map) : Prop :=
  forall c u, tm !! c = Some u <-> lub_type l c u.
Lemma lub_lub_type l c u : lub (has l ∅ c) u <-> lub_type l c u.
Proof.
  unfold lub_type. change (lub (has l ∅ c) u <-> lub (fun t => (c, t) ∈ l) u). split; apply lub_ext; intros t; by rewrite has_empty.
Qed.
Lemma unify_flat_spec l : (forall c t, (c, t) ∈ l -> wf_type t) ->
  (forall tm, unify_inner l ∅ = Ok tm <-> consistent l /\ typed_by l tm) /\
  (forall c, unify_inner l ∅ = Err (BTypeConflict c) ->
     exists t1 t2, (c, t1) ∈ l /\ (c, t2) ∈ l /\ t_kind t1 <> t_kind t2) /\
  unify_inner l ∅ <> Panic.
Proof.
  intros Hwf. pose proof (unify_inner_spec l ∅) as H.
  assert (Hwf' : forall c t, has l ∅ c t -> wf_type t) by (intros c t Ht; rewrite has_empty in Ht; by eapply Hwf).
  specialize (H Hwf'). destruct (unify_inner l ∅) as [tm|[c]|]; [| |done].
  - destruct H as [H1 H2].
    assert (Hc : consistent l).
    { intros c t1 t2. rewrite <- !has_empty. apply H1. }
    assert (Htm : typed_by l tm).
    { intros c u. specialize (H2 c). rewrite <- lub_lub_type. destruct (tm !! c) as [v|].
      - split; [intros [= <-]; done|]. intros Hu. f_equal. by eapply lub_unique.
      - split; [done|]. intros (_ & (t & Ht) & _). by apply H2 in Ht. }
    split; [|split; [discriminate|discriminate]]. intros tm'. split.
    + intros [= <-]. done.
    + intros [_ Htm']. f_equal. apply map_eq. intros c. apply option_eq. intros u. by rewrite (Htm c u), (Htm' c u).
  - split; [|split; [|discriminate]].
    + intros tm. split; [discriminate|]. intros [Hc _]. destruct H as (t1 & t2 & H1 & H2 & Hk).
      rewrite has_empty in H1, H2. exfalso. apply Hk. by eapply Hc.
    + intros c' [= <-]. destruct H as (t1 & t2 & H1 & H2 & Hk). rewrite has_empty in H1, H2. by exists t1, t2.
Qed.

(** ** The types of a tree *)
Lemma out_events_spec T e : good_tree T -> Some e ∈ out_events (rlist [] T) <-> tree_event T e.
Proof.
  intros Hg. destruct (rlist_listing T Hg) as (_ & _ & Hin). unfold out_events, tree_event.
  rewrite elem_of_list_fmap. split.
  - intros ([p n] & He & Hp). cbn in He. apply Hin in Hp as [Hp _]. by exists p, n.
  - intros (p & n & Hp & He). exists (p, n). cbn. split; [done|]. apply Hin. split; [done|].
    intros Ho. destruct p as [|i p].
    + cbn in Hp. injection Hp as <-. destruct Hg as [(Hn & _) _]. congruence.
    + destruct Hg as [_ Hg]. destruct (Hg (i :: p) n ltac:(done) Hp) as [_ [(_ & Hn & _)|[(Ho' & _)|(Ho' & _)]]]; congruence.
Qed.
Lemma ev_types_elem es c t : (c, t) ∈ ev_types es <-> exists e, Some e ∈ es /\ ch_name (e_chan e) = c /\ value_type (e_value e) = t.
Proof.
  unfold ev_types. rewrite elem_of_list_omap. split.
  - intros ([e|] & He & H); [|done]. cbn in H. injection H as <- <-. by exists e.
  - intros (e & He & <- & <-). by exists (Some e).
Qed.
Lemma value_type_class v w : t_kind (value_type v) = t_kind (value_type w) <-> class_of v = class_of w.
Proof.
  destruct v as [[z|s]|], w as [[z'|s']|]; unfold value_type; cbn;
    repeat match goal with |- context [if ?b then _ else _] => destruct b end; cbn; done.
Qed.
Lemma tree_consistent T : good_tree T -> consistent (ev_types (out_events (rlist [] T))) <-> no_type_conflict T.
Proof.
  intros Hg. unfold consistent, no_type_conflict. split.
  - intros H e1 e2 H1 H2 Hc. apply value_type_class. apply (H (ch_name (e_chan e1))); apply ev_types_elem.
    + exists e1. by rewrite out_events_spec.
    + exists e2. by rewrite out_events_spec.
  - intros H c t1 t2 H1 H2. apply ev_types_elem in H1 as (e1 & He1 & <- & <-). apply ev_types_elem in H2 as (e2 & He2 & Hc & <-).
    rewrite out_events_spec in He1, He2 by done. apply value_type_class. by apply H.
Qed.
Lemma value_type_int z : value_type (Some (IntV z)) = ty_arithmos (if decide (z < 0)%Z then DInt else DNat).
Proof.
  unfold value_type. destruct (0 <=? z)%Z eqn:E; [rewrite decide_False by lia|rewrite decide_True by lia]; done.
Qed.
Definition neg_on (c : gostr) (oe : option event) : Prop :=
  match oe with
  | Some e => ch_name (e_chan e) = c /\ match e_value e with Some (IntV z) => (z < 0)%Z | _ => False end
  | None => False
  end.
Global Instance neg_on_dec c oe : Decision (neg_on c oe).
Proof.
  destruct oe as [e|]; [|right; tauto]. cbn. destruct (e_value e) as [[z|s]|]; apply _.
Defined.
Lemma tree_channel_type T c u : good_tree T -> no_type_conflict T ->
  lub_type (ev_types (out_events (rlist [] T))) c u <-> channel_type T c u.
Proof.
  intros Hg Hnc.
  assert (Hin : forall t, (c, t) ∈ ev_types (out_events (rlist [] T)) <-> exists e, tree_event T e /\ ch_name (e_chan e) = c /\ value_type (e_value e) = t).
  { intros t. rewrite ev_types_elem. split; intros (e & He & H); exists e; [by rewrite out_events_spec in He|by rewrite out_events_spec]. }
  assert (Hct : forall u, channel_type T c u -> lub_type (ev_types (out_events (rlist [] T))) c u).
  { intros v (e & He & Hc & Hv). assert (Hcl : forall e', tree_event T e' -> ch_name (e_chan e') = c -> class_of (e_value e') = class_of (e_value e)).
    { intros e' He' Hc'. apply Hnc; [done|done|congruence]. }
    destruct (e_value e) as [[z|s]|] eqn:Ev.
    - destruct Hv as [((e' & z' & He' & Hc' & Ez' & Hz') & ->)|(Hall & ->)].
      + split; [by left|]. split; [exists (value_type (Some (IntV z))); apply Hin; exists e; by rewrite Ev|]. split.
        * intros t Ht. apply Hin in Ht as (e2 & He2 & Hc2 & <-). pose proof (Hcl _ He2 Hc2) as Hk.
          destruct (e_value e2) as [[z2|s2]|]; try done. rewrite value_type_int. split; [done|]. destruct (decide _); cbn; lia.
        * intros d Hd. apply Hd. apply Hin. exists e'. split; [done|]. split; [done|]. rewrite Ez', value_type_int.
          by rewrite decide_True.
      + split; [by left|]. split; [exists (value_type (Some (IntV z))); apply Hin; exists e; by rewrite Ev|]. split.
        * intros t Ht. apply Hin in Ht as (e2 & He2 & Hc2 & <-). pose proof (Hcl _ He2 Hc2) as Hk.
          destruct (e_value e2) as [[z2|s2]|] eqn:E2; try done. rewrite value_type_int.
          specialize (Hall e2 z2 He2 Hc2 E2). rewrite decide_False by lia. split; [done|]. cbn. lia.
        * intros d Hd. apply Hd. apply Hin. exists e. split; [done|]. split; [done|]. rewrite Ev, value_type_int.
          specialize (Hall e z He Hc Ev). by rewrite decide_False by lia.
    - subst v. split; [by right|]. split; [exists ty_enum; apply Hin; exists e; by rewrite Ev|]. split.
      + intros t Ht. apply Hin in Ht as (e2 & He2 & Hc2 & <-). pose proof (Hcl _ He2 Hc2) as Hk.
        destruct (e_value e2) as [[z2|s2]|]; try done.
      + intros d Hd. apply Hd. apply Hin. exists e. by rewrite Ev.
    - subst v. split; [by right|]. split; [exists ty_empty; apply Hin; exists e; by rewrite Ev|]. split.
      + intros t Ht. apply Hin in Ht as (e2 & He2 & Hc2 & <-). pose proof (Hcl _ He2 Hc2) as Hk.
        destruct (e_value e2) as [[z2|s2]|]; try done.
      + intros d Hd. apply Hd. apply Hin. exists e. by rewrite Ev. }
  split; [|apply Hct].
  intros Hu. assert (Hex : exists v, channel_type T c v).
  { destruct Hu as (_ & (t & Ht) & Hub & _). apply Hin in Ht as (e & He & Hc & Htt).
    destruct (e_value e) as [[z|s]|] eqn:Ev.
    - destruct (decide (Exists (neg_on c) (out_events (rlist [] T)))) as [Hx|Hx].
      + apply Exists_exists in Hx as ([e'|] & He' & Hn); [|done]. destruct Hn as [Hc' Hn].
        rewrite out_events_spec in He' by done. destruct (e_value e') as [[z'|]|] eqn:Ev'; try done.
        exists (ty_arithmos DInt), e. rewrite Ev. split; [done|]. split; [done|]. left. split; [|done]. by exists e', z'.
      + exists (ty_arithmos DNat), e. rewrite Ev. split; [done|]. split; [done|]. right. split; [|done].
        intros e' z' He' Hc' Ev'. destruct (decide (z' < 0)%Z); [|lia]. exfalso. apply Hx. apply Exists_exists.
        exists (Some e'). split; [by apply out_events_spec|]. cbn. by rewrite Ev'.
    - exists ty_enum, e. by rewrite Ev.
    - exists ty_empty, e. by rewrite Ev. }
  destruct Hex as (v & Hv). assert (u = v) as ->; [|done]. eapply lub_unique.
  - exact Hu.
  - apply Hct in Hv. exact Hv.
Qed.
