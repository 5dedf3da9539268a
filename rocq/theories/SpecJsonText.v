(** * JSON texts (C80): RFC 8259, written as a grammar

    Independent of the reader: what each text denotes. *)
From Verif Require Export Json.

(** ** UTF-8 (RFC 3629): the bytes of a code point *)
Definition utf8 (n : N) (q : gostr) : Prop :=
  (n < 128 /\ q = [byte n])%N \/
  (exists a b, 128 <= n < 2048 /\ b < 64 /\ n = a * 64 + b /\ q = [byte (192 + a); byte (128 + b)])%N \/
  (exists a b c, 2048 <= n < 65536 /\ ~ (55296 <= n < 57344) /\ b < 64 /\ c < 64 /\ n = (a * 64 + b) * 64 + c /\
     q = [byte (224 + a); byte (128 + b); byte (128 + c)])%N \/
  (exists a b c d, 65536 <= n < 1114112 /\ b < 64 /\ c < 64 /\ d < 64 /\ n = ((a * 64 + b) * 64 + c) * 64 + d /\
     q = [byte (240 + a); byte (128 + b); byte (128 + c); byte (128 + d)])%N.

(** ** Hexadecimal numbers, in either case *)
Inductive hex_char : ascii -> N -> Prop :=
  | hex_dec d : (d < 10)%N -> hex_char (byte (48 + d)) d
  | hex_low d : (d < 6)%N -> hex_char (byte (97 + d)) (10 + d)
  | hex_up d : (d < 6)%N -> hex_char (byte (65 + d)) (10 + d).
(** Backslash, u, and four of them. *)
Definition u_escape (t : gostr) (n : N) : Prop :=
  exists a b c d va vb vc vd, t = lit "\u" ++ [a; b; c; d] /\
    hex_char a va /\ hex_char b vb /\ hex_char c vc /\ hex_char d vd /\
    n = (va * 4096 + vb * 256 + vc * 16 + vd)%N.
Definition high_half (n : N) : Prop := (55296 <= n < 56320)%N.
Definition low_half (n : N) : Prop := (56320 <= n < 57344)%N.
Definition fffd (v : gostr) : Prop := utf8 65533 v.

(** ** String literals *)
(** The short escapes: what follows the backslash, and what they denote. *)
Definition short_escapes : list (ascii * N) :=
  [(""""%char, 34%N); (byte 92, 92%N); ("/"%char, 47%N); ("b"%char, 8%N); ("f"%char, 12%N); ("n"%char, 10%N); ("r"%char, 13%N); ("t"%char, 9%N)].
(** One character of a literal, followed by [rest]: its text and its value. *)
Inductive lit_char (rest : gostr) : gostr -> gostr -> Prop :=
  | char_plain n q : utf8 n q -> (32 <= n)%N -> n <> 34%N -> n <> 92%N -> lit_char rest q q
  | char_short e n : (e, n) ∈ short_escapes -> lit_char rest [byte 92; e] [byte n]
  | char_u t n v : u_escape t n -> utf8 n v -> lit_char rest t v
  | char_pair t1 n1 t2 n2 v : u_escape t1 n1 -> u_escape t2 n2 -> high_half n1 -> low_half n2 ->
      utf8 (65536 + (n1 - 55296) * 1024 + (n2 - 56320))%N v -> lit_char rest (t1 ++ t2) v
  (** Half a pair is replaced. *)
  | char_lone_low t n v : u_escape t n -> low_half n -> fffd v -> lit_char rest t v
  | char_lone_high t n v : u_escape t n -> high_half n ->
      (forall t2 n2 r, rest = t2 ++ r -> u_escape t2 n2 -> ~ low_half n2) -> fffd v -> lit_char rest t v
  (** So is a byte that is not part of a character. *)
  | char_bad c v : (128 <= code c)%N -> (forall n q r, utf8 n q -> c :: rest <> q ++ r) -> fffd v -> lit_char rest [c] v.
(** What is between the quotes. *)
Inductive lit_body : gostr -> gostr -> Prop :=
  | body_end : lit_body [] []
  | body_char t v text value : lit_char text t v -> lit_body text value -> lit_body (t ++ text) (v ++ value).
Definition dquote : gostr := [""""%char].
Definition string_text (t v : gostr) : Prop := exists body, t = dquote ++ body ++ dquote /\ lit_body body v.

(** ** Numbers *)
Definition digit_run (s : gostr) : Prop := s <> [] /\ Forall (fun c => is_digit c = true) s.
Definition number_text (t : gostr) : Prop :=
  exists sign int frac exp, t = sign ++ int ++ frac ++ exp /\
    (sign = [] \/ sign = lit "-") /\
    (int = lit "0" \/ digit_run int /\ head int <> Some "0"%char) /\
    (frac = [] \/ exists d, frac = lit "." ++ d /\ digit_run d) /\
    (exp = [] \/ exists e s d, exp = e ++ s ++ d /\ (e = lit "e" \/ e = lit "E") /\ (s = [] \/ s = lit "+" \/ s = lit "-") /\ digit_run d).

(** ** Values *)
Definition white (w : gostr) : Prop := Forall (fun c => code c = 32 \/ code c = 9 \/ code c = 10 \/ code c = 13)%N w.
Inductive denotes : gostr -> json -> Prop :=
  | den_null : denotes (lit "null") JNull
  | den_true : denotes (lit "true") (JBool true)
  | den_false : denotes (lit "false") (JBool false)
  | den_num t : number_text t -> denotes t (JNum t)
  | den_str t v : string_text t v -> denotes t (JStr v)
  | den_arr0 w : white w -> denotes (lit "[" ++ w ++ lit "]") (JArr [])
  | den_arr t l : items t l -> denotes (lit "[" ++ t ++ lit "]") (JArr l)
  | den_obj0 w : white w -> denotes (lit "{" ++ w ++ lit "}") (JObj [])
  | den_obj t l : members t l -> denotes (lit "{" ++ t ++ lit "}") (JObj l)
(** One or more values, between commas. *)
with items : gostr -> list json -> Prop :=
  | item_last w1 t w2 j : white w1 -> denotes t j -> white w2 -> items (w1 ++ t ++ w2) [j]
  | item_more w1 t w2 j rest l : white w1 -> denotes t j -> white w2 -> items rest l ->
      items (w1 ++ t ++ w2 ++ lit "," ++ rest) (j :: l)
with members : gostr -> list (gostr * json) -> Prop :=
  | member_last w1 kt k w2 w3 t w4 j : white w1 -> string_text kt k -> white w2 -> white w3 -> denotes t j -> white w4 ->
      members (w1 ++ kt ++ w2 ++ lit ":" ++ w3 ++ t ++ w4) [(k, j)]
  | member_more w1 kt k w2 w3 t w4 j rest l : white w1 -> string_text kt k -> white w2 -> white w3 -> denotes t j -> white w4 -> members rest l ->
      members (w1 ++ kt ++ w2 ++ lit ":" ++ w3 ++ t ++ w4 ++ lit "," ++ rest) ((k, j) :: l).
Scheme denotes_mut := Minimality for denotes Sort Prop
  with items_mut := Minimality for items Sort Prop
  with members_mut := Minimality for members Sort Prop.
Combined Scheme denotes_ind3 from denotes_mut, items_mut, members_mut.
(** A number ends where it cannot go on. *)
Definition number_ends (rest : gostr) : Prop :=
  match rest with [] => True | c :: _ => is_digit c = false /\ c <> "."%char /\ c <> "e"%char /\ c <> "E"%char end.
