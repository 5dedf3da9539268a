(** * C80: the JSON reader reads the language of RFC 8259, and nothing else

    [SpecJsonText] is the grammar with its meaning: what each text denotes. *)
From Verif Require Export JsonTextProofs.
From Verif Require Export StmProofs.

(** Every text of the grammar is read, after any white space and whatever follows it, as
    what it denotes (a number has to end there); only nesting is limited. *)
Theorem C80_reads w t j rest :
  white w -> denotes t j -> (N.of_nat (jdepth j) <= 10000)%N -> (is_num j -> number_ends rest) -> read_doc (w ++ t ++ rest) = Some j.
Proof.
  intros Hw Ht Hd Hr. unfold read_doc. rewrite (parse_value_ws _ _ (t ++ rest)) by (by apply skip_white).
  assert (Hd' : jdepth j <= max_depth) by (unfold max_depth; lia).
  by rewrite (proj1 parse_complete t j Ht _ rest Hd' Hr).
Qed.
(** And nothing else is: what is read is denoted by the text, up to where reading stopped. *)
Theorem C80_only s j : read_doc s = Some j -> exists w t rest, s = w ++ t ++ rest /\ white w /\ denotes t j /\ (N.of_nat (jdepth j) <= 10000)%N.
Proof.
  unfold read_doc. destruct (parse_value max_depth s) as [[j' rest]|] eqn:E; [|done]. intros [= <-].
  apply parse_sound in E as (w & t & -> & Hw & Ht & Hj). exists w, t, rest. split_and!; try done. unfold max_depth in Hj. lia.
Qed.
(** A text denotes one value only. *)
Theorem C80_one_meaning t j j' : denotes t j -> denotes t j' -> j = j'.
Proof.
  intros H H'. set (d := jdepth j + jdepth j'). pose proof (proj1 parse_complete t j H d [] ltac:(lia) (fun _ => I)) as E.
  pose proof (proj1 parse_complete t j' H' d [] ltac:(lia) (fun _ => I)) as E'. pose proof (eq_trans (eq_sym E) E') as X. by injection X as ->.
Qed.
(** What the writer writes is a text of the grammar and a newline, and denotes what was
    written, with bytes that are not UTF-8 replaced. *)
Theorem C80_written j s : write_doc j = Some s -> no_num j -> exists t, s = t ++ [byte 10] /\ denotes t (jcoerce j).
Proof.
  unfold write_doc. destruct (jdepth j <=? max_depth) eqn:E; [|done]. intros [= <-] Hn. exists (print 0 j). split; [done|].
  pose proof (parse_print j 0 (jdepth j) [] Hn ltac:(lia)) as Hp. apply parse_sound in Hp as (w & t & Es & Hw & Ht & _). rewrite !app_nil_r in Es.
  destruct (print_starts 0 j Hn) as (c & r & Ec & Hc). destruct Hw as [|x w Hx Hw]; [cbn in Es; by rewrite Es|].
  rewrite Ec in Es. injection Es as -> _. apply is_ws_iff in Hx. destruct Hc; congruence.
Qed.
(** Deeper nesting is refused. *)
Theorem C80_too_deep w t j rest :
  white w -> denotes t j -> (10000 < N.of_nat (jdepth j))%N -> read_doc (w ++ t ++ rest) = None.
Proof.
  intros Hw Ht Hd. unfold read_doc. rewrite (parse_value_ws _ _ (t ++ rest)) by (by apply skip_white).
  destruct (parse_value max_depth (t ++ rest)) as [[j' r']|] eqn:E; [|done]. exfalso.
  assert (Hm : max_depth < jdepth j) by (unfold max_depth; lia).
  pose proof (parse_mono _ _ _ _ (Nat.lt_le_incl _ _ Hm) E) as E'.
  rewrite (proj1 parse_complete t j Ht (jdepth j) rest) in E'; [|lia|by destruct j]. injection E' as <- <-.
  apply parse_sound in E as (_ & _ & _ & _ & _ & E). lia.
Qed.
(** So the suites that the tools read do not depend on white space, on how characters are
    escaped, or on what follows: only on the value that the text denotes. *)
Theorem C80_suites w t w' t' j rest rest' :
  white w -> white w' -> denotes t j -> denotes t' j -> ~ is_num j ->
  read_suite (w ++ t ++ rest) = read_suite (w' ++ t' ++ rest') /\ read_stm_suite (w ++ t ++ rest) = read_stm_suite (w' ++ t' ++ rest').
Proof.
  intros Hw Hw' Ht Ht' Hn. assert (E : read_doc (w ++ t ++ rest) = read_doc (w' ++ t' ++ rest')).
  { destruct (N.le_gt_cases (N.of_nat (jdepth j)) 10000) as [Hd|Hd]; [by rewrite !(C80_reads _ _ j)|by rewrite !(C80_too_deep _ _ j)]. }
  unfold read_suite, read_stm_suite. by rewrite E.
Qed.

(** ** A document *)
Definition ex_doc : gostr := lit " { ""a\u0062\/"" : [ -1.50e+2 , ""\uD834\uDD1e \ud800x\uDC00"" , null ,true, {} ] }x".
Definition ex_value : json :=
  JObj [(lit "ab/", JArr [JNum (lit "-1.50e+2");
    JStr ([byte 240; byte 157; byte 132; byte 158] ++ lit " " ++ [byte 239; byte 191; byte 189] ++ lit "x" ++ [byte 239; byte 191; byte 189]); JNull; JBool true; JObj []])].
Example C80_witness :
  read_doc ex_doc = Some ex_value /\
  (exists w t rest, ex_doc = w ++ t ++ rest /\ white w /\ denotes t ex_value) /\
  read_doc (lit "[1,]") = None /\ read_doc (lit "[01]") = None /\ read_doc (lit "{""a"" 1}") = None /\ read_doc (lit "[1.]") = None /\ read_doc (lit """\x""") = None.
Proof.
  assert (E : read_doc ex_doc = Some ex_value) by (vm_compute; reflexivity). split; [exact E|].
  split; [|by vm_compute]. destruct (C80_only _ _ E) as (w & t & rest & H1 & H2 & H3 & _). by exists w, t, rest.
Qed.

Print Assumptions C80_reads.
Print Assumptions C80_only.
Print Assumptions C80_one_meaning.
Print Assumptions C80_written.
Print Assumptions C80_too_deep.
Print Assumptions C80_suites.
