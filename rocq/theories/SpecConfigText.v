(** * Configuration files (C81): XML documents as a grammar, and what a document says

    Independent of the reader.  The grammar is that of XML 1.0 as encoding/xml takes it: documents
    may have text before the root element, attributes need no blanks between them (but may not run
    into names) and may be repeated, and nothing after the root element matters. *)
From Verif Require Export XmlRead SpecJsonText SpecXml Spec SpecGen.

(** A string of UTF-8 characters. *)
Inductive chars_in (P : N -> Prop) : gostr -> Prop :=
  | chars_nil : chars_in P []
  | chars_cons n q s : utf8 n q -> P n -> chars_in P s -> chars_in P (q ++ s).

Section Names.
Context (first second : N -> bool).
(** ** Names *)
Definition letter (n : N) : Prop := (65 <= n <= 90 \/ 97 <= n <= 122)%N.
Definition starts_name (n : N) : Prop := (letter n \/ n = 95 \/ n = 58 \/ 128 <= n /\ first n = true)%N.
Definition continues_name (n : N) : Prop := (starts_name n \/ 48 <= n <= 57 \/ n = 46 \/ n = 45 \/ 128 <= n /\ second n = true)%N.
Definition xml_name (s : gostr) : Prop :=
  exists n q r, s = q ++ r /\ utf8 n q /\ starts_name n /\ chars_in continues_name r.
(** Where a name can end: before anything in ASCII that names do not have. *)
Definition name_ends (rest : gostr) : Prop :=
  match rest with
  | [] => False
  | c :: _ => (code c < 128 /\ ~ letter (code c) /\ ~ (48 <= code c <= 57) /\ code c <> 95 /\ code c <> 58 /\ code c <> 46 /\ code c <> 45)%N
  end.
(** A name with at most one colon, its prefix and its local part.  A colon at either end does not
    count. *)
Inductive qname : gostr -> gostr -> gostr -> Prop :=
  | q_plain n : xml_name n -> ":"%char ∉ n -> qname n [] n
  | q_prefixed p l : xml_name (p ++ lit ":" ++ l) -> ":"%char ∉ p -> ":"%char ∉ l -> p <> [] -> l <> [] -> qname (p ++ lit ":" ++ l) p l
  | q_colon p l : xml_name (p ++ lit ":" ++ l) -> ":"%char ∉ p -> ":"%char ∉ l -> p = [] \/ l = [] -> qname (p ++ lit ":" ++ l) [] (p ++ lit ":" ++ l).

(** ** Text *)
Inductive digits_value (base : N) : gostr -> N -> Prop :=
  | dv_one c v : hex_char c v -> (v < base)%N -> digits_value base [c] v
  | dv_more s n c v : digits_value base s n -> hex_char c v -> (v < base)%N -> digits_value base (s ++ [c]) (n * base + v).
(** A character by its number; surrogates are replaced. *)
Definition char_value (n : N) (v : gostr) : Prop := utf8 n v \/ (55296 <= n < 57344)%N /\ fffd v.
Inductive ref_text : gostr -> gostr -> Prop :=
  | ref_lt : ref_text (lit "&lt;") (lit "<")
  | ref_gt : ref_text (lit "&gt;") (lit ">")
  | ref_amp : ref_text (lit "&amp;") (lit "&")
  | ref_apos : ref_text (lit "&apos;") (lit "'")
  | ref_quot : ref_text (lit "&quot;") (lit """")
  | ref_dec ds n v : digits_value 10 ds n -> (n <= 1114111)%N -> char_value n v -> ref_text (lit "&#" ++ ds ++ lit ";") v
  | ref_hex ds n v : digits_value 16 ds n -> (n <= 1114111)%N -> char_value n v -> ref_text (lit "&#x" ++ ds ++ lit ";") v.
(** Text and its value: references are replaced if there are [refs], line ends become line feeds;
    bytes in [stop] do not occur. *)
Inductive expands (refs : bool) (stop : list ascii) : gostr -> gostr -> Prop :=
  | ex_nil : expands refs stop [] []
  | ex_byte c raw v : c ∉ stop -> c <> byte 13 -> ~ (refs = true /\ c = "&"%char) -> expands refs stop raw v -> expands refs stop (c :: raw) (c :: v)
  | ex_crlf raw v : expands refs stop raw v -> expands refs stop (byte 13 :: byte 10 :: raw) (byte 10 :: v)
  | ex_cr raw v : head raw <> Some (byte 10) -> expands refs stop raw v -> expands refs stop (byte 13 :: raw) (byte 10 :: v)
  | ex_ref t x raw v : refs = true -> ref_text t x -> expands refs stop raw v -> expands refs stop (t ++ raw) (x ++ v).
Definition legal (v : gostr) : Prop := chars_in xml_point v.
(** Text between tags. *)
Definition chars_text (raw v : gostr) : Prop :=
  raw <> [] /\ expands true ["<"%char] raw v /\ ~ occurs (lit "]]>") raw /\ legal v.
Definition cdata_text (t v : gostr) : Prop :=
  exists raw, t = lit "<![CDATA[" ++ raw ++ lit "]]>" /\ ~ occurs (lit "]]>") (raw ++ lit "]]") /\ expands false [] raw v /\ legal v.

(** ** Tags *)
Definition attr_text (t : gostr) (a : gostr * gostr) : Prop :=
  exists n p w1 w2 q raw, t = n ++ w1 ++ lit "=" ++ w2 ++ [q] ++ raw ++ [q] /\
    qname n p a.1 /\ white w1 /\ white w2 /\ (q = """"%char \/ q = "'"%char) /\
    expands true ["<"%char; q] raw a.2 /\ legal a.2.
Inductive attrs_text : gostr -> list (gostr * gostr) -> Prop :=
  | attrs_none w : white w -> attrs_text w []
  | attrs_one w t a rest l : white w -> attr_text t a -> attrs_text rest l -> attrs_text (w ++ t ++ rest) (a :: l).

(** ** Comments, processing instructions and directives *)
(** The value of a parameter in an XML declaration: what is between quotes after its first
    occurrence. *)
Definition parameter (name data v : gostr) : Prop :=
  exists a q b, data = a ++ name ++ lit "=" ++ [q] ++ v ++ [q] ++ b /\ (q = """"%char \/ q = "'"%char) /\ q ∉ v /\
    forall a' b', data = a' ++ name ++ lit "=" ++ b' -> length a <= length a'.
Definition declaration_ok (data : gostr) : Prop :=
  (forall v, parameter (lit "version") data v -> v = [] \/ v = lit "1.0") /\
  (forall v, parameter (lit "encoding") data v -> v = [] \/ same_but_case v (lit "utf-8")).
(** What a directive holds: quoted text, comments, bracketed parts. *)
Inductive directive : gostr -> Prop :=
  | dir_nil : directive []
  | dir_byte c s : c ∉ ["<"; ">"; """"; "'"]%char -> directive s -> directive (c :: s)
  | dir_quoted q x s : (q = """"%char \/ q = "'"%char) -> q ∉ x -> directive s -> directive ([q] ++ x ++ [q] ++ s)
  | dir_comment x s : ~ occurs (lit "-->") (x ++ lit "--") -> directive s -> directive (lit "<!--" ++ x ++ lit "-->" ++ s)
  | dir_nested x s : ~ (lit "!--" `prefix_of` x) -> directive x -> directive s -> directive (lit "<" ++ x ++ lit ">" ++ s).
Inductive misc : gostr -> Prop :=
  | misc_comment s : ~ occurs (lit "--") (s ++ lit "-") -> misc (lit "<!--" ++ s ++ lit "-->")
  | misc_pi target w data : xml_name target -> white w -> ~ occurs (lit "?>") (data ++ lit "?") ->
      name_ends (w ++ data ++ lit "?>") -> (forall c, head data = Some c -> ~ white [c]) ->
      (target = lit "xml" -> declaration_ok data) -> misc (lit "<?" ++ target ++ w ++ data ++ lit "?>")
  | misc_directive c s : c <> "-"%char -> c <> "["%char -> directive s -> misc (lit "<!" ++ [c] ++ s ++ lit ">").

(** ** Elements *)
Inductive element_text : gostr -> xml -> Prop :=
  | el_empty n p l attrs ats : qname n p l -> attrs_text attrs ats -> name_ends (attrs ++ lit "/") ->
      element_text (lit "<" ++ n ++ attrs ++ lit "/>") (Elem l ats [])
  | el_full n p l attrs ats body kids w : qname n p l -> attrs_text attrs ats -> name_ends (attrs ++ lit ">") ->
      items_text body kids -> white w ->
      element_text (lit "<" ++ n ++ attrs ++ lit ">" ++ body ++ lit "</" ++ n ++ w ++ lit ">") (Elem l ats kids)
with items_text : gostr -> list xml_item -> Prop :=
  | it_nil : items_text [] []
  | it_chars raw v rest l : chars_text raw v -> (rest <> [] -> head rest = Some "<"%char) -> items_text rest l -> items_text (raw ++ rest) (Chars v :: l)
  | it_cdata t v rest l : cdata_text t v -> items_text rest l -> items_text (t ++ rest) (Chars v :: l)
  | it_misc m rest l : misc m -> items_text rest l -> items_text (m ++ rest) l
  | it_child t e rest l : element_text t e -> items_text rest l -> items_text (t ++ rest) (Child e :: l).
(** A document: no element before the root; anything after it. *)
Definition document (s : gostr) (e : xml) : Prop :=
  exists pre l t rest, s = pre ++ t ++ rest /\ items_text pre l /\ (forall e', Child e' ∉ l) /\ element_text t e.
End Names.
Scheme element_text_mut := Minimality for element_text Sort Prop
  with items_text_mut := Minimality for items_text Sort Prop.
Combined Scheme element_text_ind2 from element_text_mut, items_text_mut.

(** ** What elements say *)
(** The children with a name, of several elements together; attributes likewise. *)
Fixpoint kids_named (n : gostr) (l : list xml_item) : list xml :=
  match l with
  | [] => []
  | Chars _ :: r => kids_named n r
  | Child (Elem m a k) :: r => (if decide (m = n) then [Elem m a k] else []) ++ kids_named n r
  end.
Definition sub (n : gostr) (es : list xml) : list xml := mjoin (map (fun '(Elem _ _ kids) => kids_named n kids) es).
Definition vals (n : gostr) (es : list xml) : list gostr :=
  mjoin (map (fun '(Elem _ ats _) => map snd (base.filter (fun a => a.1 = n) ats)) es).
(** The text of an element itself. *)
Definition own_text (e : xml) : gostr :=
  match e with Elem _ _ kids => mjoin (map (fun i => match i with Chars t => t | Child _ => [] end) kids) end.
(** Of repeated attributes and elements the last counts. *)
Definition last_or {A} (d : A) (l : list A) : A := default d (last l).
(** Every value has a meaning; the meaning of the last, or [d]. *)
Definition last_means {A} (means : gostr -> A -> Prop) (d : A) (l : list gostr) (x : A) : Prop :=
  exists xs, Forall2 means l xs /\ x = last_or d xs.

(** ** Values *)
Definition bool_means (s : gostr) (b : bool) : Prop :=
  s = [] /\ b = false \/ s <> [] /\ exists t, trimmed s t /\
    if b then t ∈ [lit "1"; lit "t"; lit "T"; lit "TRUE"; lit "true"; lit "True"]
    else t ∈ [lit "0"; lit "f"; lit "F"; lit "FALSE"; lit "false"; lit "False"].
Definition int_means (s : gostr) (z : Z) : Prop :=
  s = [] /\ z = 0%Z \/ s <> [] /\ exists t, trimmed s t /\ int_syntax t z /\ int64 z.
Definition variant_means (s : gostr) (v : variant) : Prop := valid_variant v /\ to_lower s = variant_string v.

(** ** The configuration that a root element describes *)
Definition says_include (e : xml) (i : include) : Prop :=
  in_src i = last_or [] (vals (lit "src") [e]) /\ last_means bool_means false (vals (lit "system") [e]) (in_system i).
Definition says_channel (e : xml) (c : gostr * gostr) : Prop :=
  c.1 = last_or [] (vals (lit "name") [e]) /\ c.2 = last_or [] (vals (lit "type") [e]).
(** Repeated packages are merged. *)
Record says_package (es : list xml) (p : package) : Prop := {
  sp_format : last_means int_means 0%Z (vals (lit "format") es) (pk_format p);
  sp_name : pk_name p = last_or [] (map own_text (sub (lit "name") es));
  sp_version : pk_version p = last_or [] (map own_text (sub (lit "version") es));
  sp_description : pk_description p = last_or [] (map own_text (sub (lit "description") es));
  sp_maintainer : pk_maintainer p = last_or [] (map own_text (sub (lit "maintainer") es));
  sp_email : pk_email p = last_or [] (vals (lit "email") (sub (lit "maintainer") es));
  sp_license : pk_license p = last_or [] (map own_text (sub (lit "license") es));
  sp_buildtool : pk_buildtool p = map own_text (sub (lit "buildtool_depend") es);
  sp_depends : pk_depends p = map own_text (sub (lit "depend") es);
}.
Inductive says_catkin (es : list xml) : option (option package) -> Prop :=
  | sc_none : es = [] -> says_catkin es None
  | sc_empty : es <> [] -> sub (lit "package") es = [] -> says_catkin es (Some None)
  | sc_package p : sub (lit "package") es <> [] -> says_package (sub (lit "package") es) p -> says_catkin es (Some (Some p)).
Record says_cpp (e : xml) (c : cpp_config) : Prop := {
  sc_variant : last_means variant_means VAnimate (vals (lit "variant") [e]) (cc_variant c);
  sc_includes : Forall2 says_include (sub (lit "include") [e]) (cc_includes c);
  sc_channels : Forall2 says_channel (sub (lit "channel") [e]) (cc_channels c);
  sc_makefile : cc_makefile c = true <-> sub (lit "makefile") [e] <> [];
  sc_catkin : says_catkin (sub (lit "catkin") [e]) (cc_catkin c);
}.
Definition root_name (e : xml) : gostr := match e with Elem n _ _ => n end.
Record says_config (e : xml) (c : config) : Prop := {
  sg_root : root_name e = lit "rtcg-gen";
  sg_cpps : Forall2 says_cpp (sub (lit "cpp") [e]) (cf_cpps c);
  sg_dir : cf_dir c = last_or [] (map own_text (sub (lit "directory") [e]));
}.
