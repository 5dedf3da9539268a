(** * Lemmas about traces *)
From Verif Require Export Trace TestLangProofs.

Lemma prefix_loop_spec t o :
  length t <= length o -> exists b, prefix_loop t o = Ok b /\ (b = true <-> exists r, o = t ++ r).
Proof.
  revert o. induction t as [|e t IH]; intros o Hlen; simpl.
  - exists true. split; [done|]. split; [|done]. by exists o.
  - destruct o as [|x o]; simpl in Hlen; [lia|].
    destruct (event_equals e x) eqn:E; simpl.
    + apply event_equals_iff in E as <-. destruct (IH o) as (b & -> & Hb); [lia|].
      exists b. split; [done|]. rewrite Hb. split; intros [r Hr]; exists r; by simplify_eq/=.
    + exists false. split; [done|]. split; [done|]. intros [r Hr]. simplify_eq/=.
      assert (event_equals e e = true) by (by apply event_equals_iff). congruence.
Qed.
Lemma is_prefix_of_spec t o :
  exists b, is_prefix_of t o = Ok b /\ (b = true <-> exists r, o = t ++ r).
Proof.
  unfold is_prefix_of. destruct (length o <? length t) eqn:E.
  - apply Nat.ltb_lt in E. exists false. split; [done|]. split; [done|].
    intros [r ->]. rewrite app_length in E. lia.
  - apply Nat.ltb_ge in E. by apply prefix_loop_spec.
Qed.
Lemma is_prefix_of_iff t o :
  (is_prefix_of t o = Ok true <-> exists r, o = t ++ r) /\
  (is_prefix_of t o = Ok false <-> ~ exists r, o = t ++ r).
Proof.
  destruct (is_prefix_of_spec t o) as (b & -> & Hb). split.
  - rewrite <- Hb. split; [by intros [= ->]|by intros ->].
  - rewrite <- Hb. split; [by intros [= ->]|by destruct b].
Qed.
Lemma trace_equals_spec t o : exists b, trace_equals t o = Ok b /\ (b = true <-> t = o).
Proof.
  unfold trace_equals. destruct (length t =? length o) eqn:E.
  - apply Nat.eqb_eq in E. destruct (is_prefix_of_spec t o) as (b & -> & Hb).
    exists b. split; [done|]. rewrite Hb. split.
    + intros [r ->]. rewrite app_length in E. destruct r; [by rewrite app_nil_r|simpl in E; lia].
    + intros ->. exists []. by rewrite app_nil_r.
  - apply Nat.eqb_neq in E. exists false. split; [done|]. split; [done|]. by intros ->.
Qed.
Lemma trace_equals_iff t o :
  (trace_equals t o = Ok true <-> t = o) /\ (trace_equals t o = Ok false <-> t <> o).
Proof.
  destruct (trace_equals_spec t o) as (b & -> & Hb). split.
  - rewrite <- Hb. split; [by intros [= ->]|by intros ->].
  - rewrite <- Hb. split; [by intros [= ->]|by destruct b].
Qed.
