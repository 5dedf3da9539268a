(** * Configuration files (property C81) *)
From Verif Require Export XmlDocProofs.
From Verif Require Export StmProofs.

(** A file with an XML document in it that describes a configuration is read as that configuration, whatever
    else is in the document and after it ... *)
Theorem C81_reads first second s e c : document first second s e -> says_config e c -> read_config first second s = Some c.
Proof. intros H1 H2. apply read_iff. by exists e. Qed.
(** ... and nothing else is read. *)
Theorem C81_only first second s c : read_config first second s = Some c -> exists e, document first second s e /\ says_config e c.
Proof. apply read_iff. Qed.
(** A file has at most one root element and an element at most one meaning. *)
Theorem C81_one_meaning first second s e e' c c' :
  document first second s e -> document first second s e' -> says_config e c -> says_config e' c' -> e = e' /\ c = c'.
Proof.
  intros H H' Hc Hc'. pose proof (document_unique _ _ _ _ _ H H') as <-. split; [done|].
  apply config_iff in Hc. apply config_iff in Hc'. rewrite Hc in Hc'. by injection Hc'.
Qed.
(** What is read depends only on the first element: not on comments, declarations and text before it, and
    not on what follows. *)
Theorem C81_root_only first second pre pre' l l' t e rest rest' :
  items_text first second pre l -> items_text first second pre' l' -> (forall e', Child e' ∉ l) -> (forall e', Child e' ∉ l') ->
  element_text first second t e ->
  read_config first second (pre ++ t ++ rest) = read_config first second (pre' ++ t ++ rest').
Proof.
  intros Hp Hp' Hl Hl' Ht.
  assert (Hd : forall pre l rest, items_text first second pre l -> (forall e', Child e' ∉ l) -> document first second (pre ++ t ++ rest) e).
  { clear -Ht. intros pre l rest Hp Hl. by exists pre, l, t, rest. }
  assert (Hi : forall c, read_config first second (pre ++ t ++ rest) = Some c <-> read_config first second (pre' ++ t ++ rest') = Some c).
  { intros c. rewrite !read_iff. split; intros (e' & He & Hc).
    - rewrite <- (document_unique _ _ _ _ _ (Hd pre l rest Hp Hl) He) in Hc. exists e. split; [by eapply Hd|done].
    - rewrite <- (document_unique _ _ _ _ _ (Hd pre' l' rest' Hp' Hl') He) in Hc. exists e. split; [by eapply Hd|done]. }
  destruct (read_config first second (pre ++ t ++ rest)) as [c|] eqn:E; [by rewrite (proj1 (Hi c) eq_refl)|].
  destruct (read_config first second (pre' ++ t ++ rest')) as [c|] eqn:E'; [|done]. discriminate (proj2 (Hi c) eq_refl).
Qed.

(** ** A document *)
Definition ex_config_doc : gostr := lit "<?xml version=""1.0"" encoding=""UTF-8"" ?>
<!-- a <comment> - -->
<!DOCTYPE x [ <!ENTITY a ""b>""> <!-- > ' --> ]>
<rtcg-gen>
    <cpp variant=""ROS"">
        <include src=""std_msgs/Float32.h"" />
        <include src='sensor_msgs/&quot;&#x41;&#66;State.h' system = "" true""/>
        <channel name=""a"" type=""int""/><other><channel/></other>
        <makefile><x/></makefile>
        <catkin>
            <package format=""2"">
                <name>bmon<![CDATA[-${NA<&]]>ME}</name>
                <maintainer email=""a@b"">me <b>bold</b>too</maintainer>
                <depend>roscpp</depend><depend>std_msgs</depend>
            </package>
        </catkin>
    </cpp>
    <cpp/>
<directory>foo</directory>
</rtcg-gen>junk <".
Definition ex_config : config :=
  Config
    [CppConfig VRos [Include (lit "std_msgs/Float32.h") false; Include (lit "sensor_msgs/""ABState.h") true] [(lit "a", lit "int")] true
       (Some (Some (Package 2 (lit "bmon-${NA<&ME}") [] [] (lit "me too") (lit "a@b") [] [] [lit "roscpp"; lit "std_msgs"])));
     CppConfig VAnimate [] [] false None]
    (lit "foo").
Example C81_witness : forall first second,
  read_config first second ex_config_doc = Some ex_config /\
  exists e, document first second ex_config_doc e /\ says_config e ex_config.
Proof.
  intros first second. assert (E : read_config first second ex_config_doc = Some ex_config) by (vm_compute; reflexivity).
  split; [exact E|]. by apply C81_only.
Qed.
(** What may surprise: the directory is taken with its blanks; of repeated elements the last counts; names
    count in any name space, even in name space declarations; documents that do not end, mismatched tags and other encodings are refused,
    as are unknown variants and bad numbers. *)
Example C81_cases : forall first second,
  read_config first second (lit "<rtcg-gen><directory> a </directory></rtcg-gen>") = Some (Config [] (lit " a ")) /\
  read_config first second (lit "<rtcg-gen><directory>a</directory><directory>b</directory></rtcg-gen>") = Some (Config [] (lit "b")) /\
  read_config first second (lit "<x:rtcg-gen><y:cpp xmlns:variant=""ros""/></x:rtcg-gen>") = Some (Config [CppConfig VRos [] [] false None] []) /\
  read_config first second (lit "x<rtcg-gen/><") = Some (Config [] []) /\
  read_config first second (lit "<rtcg-gen>") = None /\
  read_config first second (lit "<gen/><rtcg-gen/>") = None /\
  read_config first second (lit "<a:rtcg-gen></b:rtcg-gen>") = None /\
  read_config first second (lit "<rtcg-gen><cpp></rtcg-gen></cpp>") = None /\
  read_config first second (lit "<rtcg-gen><cpp variant=""java""/></rtcg-gen>") = None /\
  read_config first second (lit "<rtcg-gen><cpp variant=ros/></rtcg-gen>") = None /\
  read_config first second (lit "<rtcg-gen><cpp><include system=""yes""/></cpp></rtcg-gen>") = None /\
  read_config first second (lit "<rtcg-gen>&nbsp;</rtcg-gen>") = None /\
  read_config first second (lit "<!-- a -- b --><rtcg-gen/>") = None /\
  read_config first second (lit "<?xml version=""1.1""?><rtcg-gen/>") = None /\
  read_config first second (lit "<?xml encoding=""latin1""?><rtcg-gen/>") = None.
Proof. intros first second. split_and!; vm_compute; reflexivity. Qed.

Print Assumptions C81_reads.
Print Assumptions C81_only.
Print Assumptions C81_one_meaning.
Print Assumptions C81_root_only.
