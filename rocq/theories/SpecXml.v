(** * Specification vocabulary for package.xml: how an XML reader reads it *)
From Verif Require Export SpecJson SpecText.

(** ** Characters (XML 1.0, production 2) *)
Definition xml_point (r : N) : Prop :=
  (r = 9 \/ r = 10 \/ r = 13 \/ 32 <= r <= 55295 \/ 57344 <= r <= 65533 \/ 65536 <= r <= 1114111)%N.
Global Instance xml_point_dec r : Decision (xml_point r).
Proof. unfold xml_point. apply _. Defined.
(** Text that XML can hold. *)
Definition xml_string (s : gostr) : Prop := exists rs, Forall xml_point rs /\ s = mjoin (map encode_rune rs).
(** The rest is replaced by U+FFFD: bytes that are not part of a valid UTF-8 sequence, and characters
    XML does not have. *)
Definition bad_points : list N :=
  [0; 1; 2; 3; 4; 5; 6; 7; 8; 11; 12; 14; 15; 16; 17; 18; 19; 20; 21; 22; 23; 24; 25; 26; 27; 28; 29; 30; 31; 65534; 65535]%N.
Definition clean_chunk (u : chunk) : gostr :=
  match u with
  | Bad _ => replacement
  | Good q => if decide (q ∈ map encode_rune bad_points) then replacement else q
  end.
Definition xml_clean (s : gostr) : gostr := mjoin (map clean_chunk (chunks s)).

(** ** Text *)
(** Raw text: legal characters only.  Carriage returns (which readers change to line feeds) are not
    understood here. *)
Definition legal_chunk (u : chunk) : bool :=
  match u with
  | Bad _ => false
  | Good [c] => (32 <=? code c)%N || bool_decide (c = byte 9) || bool_decide (c = byte 10)
  | Good q => negb (bool_decide (q = encode_rune 65534 \/ q = encode_rune 65535))
  end.
(** Digits of a character reference. *)
Definition hex_value (c : ascii) : option N :=
  if is_digit c then Some (code c - 48)%N
  else if (97 <=? code c)%N && (code c <=? 102)%N then Some (code c - 87)%N
  else if (65 <=? code c)%N && (code c <=? 70)%N then Some (code c - 55)%N
  else None.
Definition dec_digit (c : ascii) : option N := if is_digit c then Some (code c - 48)%N else None.
Definition number (base : N) (ds : list N) : option N :=
  match ds with [] => None | _ => Some (fold_left (fun n d => n * base + d)%N ds 0%N) end.
(** What stands between & and ; *)
Definition reference (r : gostr) : option gostr :=
  if decide (r = lit "amp") then Some (lit "&")
  else if decide (r = lit "lt") then Some (lit "<")
  else if decide (r = lit "gt") then Some (lit ">")
  else if decide (r = lit "quot") then Some [byte 34]
  else if decide (r = lit "apos") then Some (lit "'")
  else
    n ← match after (lit "#x") r with
        | Some h => mapM hex_value h ≫= number 16
        | None => match after (lit "#") r with
                  | Some d => mapM dec_digit d ≫= number 10
                  | None => None
                  end
        end;
    if decide (xml_point n) then Some (encode_rune n) else None.
(** A piece of text after an ampersand. *)
Definition after_amp (s : gostr) : option gostr :=
  '(r, t) ← cut ";" s; c ← reference r; Some (c ++ t).
Fixpoint after_amps (l : list gostr) : option gostr :=
  match l with
  | [] => Some []
  | s :: r => match after_amp s, after_amps r with Some a, Some b => Some (a ++ b) | _, _ => None end
  end.
Definition xml_text (s : gostr) : option gostr :=
  if forallb legal_chunk (chunks s) then
    match split_all "&" s with
    | [] => None
    | first :: rest => match after_amps rest with Some t => Some (first ++ t) | None => None end
    end
  else None.

(** ** Markup *)
Inductive token := TOpen (name : gostr) (attrs : list (gostr * gostr)) | TClose (name : gostr) | TText (s : gostr).
(** One attribute: name="value".  Tabs and line feeds in values (which readers change to blanks) are not
    understood. *)
Definition read_attr (s : gostr) : option (gostr * gostr) :=
  '(n, r) ← cut "=" s;
  r' ← after [byte 34] r;
  '(v, e) ← cut (byte 34) r';
  if decide (e = [] /\ plain_word n /\ byte 9 ∉ (v : list ascii) /\ byte 10 ∉ (v : list ascii)) then t ← xml_text v; Some (n, t) else None.
(** What stands between < and >: a name with at most one attribute, or a slash and a name. *)
Definition read_tag (s : gostr) : option token :=
  match after (lit "/") s with
  | Some n => if decide (plain_word n) then Some (TClose n) else None
  | None =>
    match cut " " s with
    | None => if decide (plain_word s) then Some (TOpen s []) else None
    | Some (n, a) => if decide (plain_word n) then at' ← read_attr a; Some (TOpen n [at']) else None
    end
  end.
(** A document cut at <: after the first piece, each is a tag up to > and text. *)
Definition read_piece (s : gostr) : option (list token) :=
  '(t, x) ← cut ">" s; tok ← read_tag t; text ← xml_text x; Some [tok; TText text].
Fixpoint read_pieces (l : list gostr) : option (list token) :=
  match l with
  | [] => Some []
  | s :: r => match read_piece s, read_pieces r with Some a, Some b => Some (a ++ b) | _, _ => None end
  end.
Definition read_tokens (s : gostr) : option (list token) :=
  match split_all "<" s with
  | [] => None
  | first :: rest => match xml_text first, read_pieces rest with Some text, Some toks => Some (TText text :: toks) | _, _ => None end
  end.

(** ** Trees *)
Inductive xnode := XText (s : gostr) | XElem (name : gostr) (attrs : list (gostr * gostr)) (kids : list xnode).
Fixpoint read_nodes (fuel : nat) (ts : list token) : option (list xnode * list token) :=
  match fuel with
  | O => None
  | S fuel =>
    match ts with
    | TText s :: r => '(ks, r') ← read_nodes fuel r; Some ((if decide (s = []) then ks else XText s :: ks), r')
    | TOpen n a :: r =>
      '(kids, r') ← read_nodes fuel r;
      match r' with
      | TClose n' :: r'' => if decide (n = n') then '(ks, r3) ← read_nodes fuel r''; Some (XElem n a kids :: ks, r3) else None
      | _ => None
      end
    | _ => Some ([], ts)
    end
  end.
Definition blank_text (s : gostr) : Prop := Forall (fun c => c = byte 9 \/ c = byte 10 \/ c = byte 32) s.
Global Instance blank_text_dec s : Decision (blank_text s).
Proof. unfold blank_text. apply _. Defined.
Definition visible (n : xnode) : bool := match n with XText s => negb (bool_decide (blank_text s)) | XElem _ _ _ => true end.
(** A document: the declaration, and one element. *)
Definition read_xml (s : gostr) : option xnode :=
  body ← after (lit "<?xml version=""1.0"" encoding=""UTF-8""?>") s;
  ts ← read_tokens body;
  '(ns, r) ← read_nodes (S (length ts)) ts;
  match r, base.filter (fun n => visible n = true) ns with
  | [], [XElem n a k] => Some (XElem n a k)
  | _, _ => None
  end.

(** ** package.xml as an element *)
(** An element with text in it. *)
Record field := Field { fd_name : gostr; fd_attrs : list (gostr * gostr); fd_text : gostr }.
Definition node_texts (ns : list xnode) : option (list gostr) := mapM (fun n => match n with XText s => Some s | _ => None end) ns.
(** The fields of an element, between blanks. *)
Fixpoint fields_of (ns : list xnode) : option (list field) :=
  match ns with
  | [] => Some []
  | XText s :: r => if decide (blank_text s) then fields_of r else None
  | XElem n a k :: r => t ← node_texts k; fs ← fields_of r; Some (Field n a (mjoin t) :: fs)
  end.
Definition texts_of (name : gostr) (fs : list field) : list gostr := map fd_text (base.filter (fun f => fd_name f = name) fs).
