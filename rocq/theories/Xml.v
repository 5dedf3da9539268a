(** * The text of package.xml: internal/gen/config/catkin/package.go

    [Package.Write] goes through encoding/xml (Go 1.20); the parts of it that matter here are
    modelled byte for byte. *)
From Verif Require Export Json Text.

(** printer.EscapeString and EscapeText (encoding/xml/xml.go): one ASCII byte.  Control characters
    that XML does not have become U+FFFD (isInCharacterRange). *)
Definition xml_ascii (c : ascii) : gostr :=
  if decide (c = byte 34) then lit "&#34;"
  else if decide (c = byte 39) then lit "&#39;"
  else if decide (c = "&"%char) then lit "&amp;"
  else if decide (c = "<"%char) then lit "&lt;"
  else if decide (c = ">"%char) then lit "&gt;"
  else if decide (c = byte 9) then lit "&#x9;"
  else if decide (c = byte 10) then lit "&#xA;"
  else if decide (c = byte 13) then lit "&#xD;"
  else if (code c <? 32)%N then replacement
  else [c].
(** The same for one chunk: bytes that are not valid UTF-8, and U+FFFE and U+FFFF, become U+FFFD.
    (Surrogates are not valid UTF-8; all other code points are in range.) *)
Definition xml_chunk (u : chunk) : gostr :=
  match u with
  | Bad _ => replacement
  | Good [c] => xml_ascii c
  | Good q => if decide (q = [byte 239; byte 191; byte 190] \/ q = [byte 239; byte 191; byte 191]) then replacement else q
  end.
Definition xml_escape (s : gostr) : gostr := mjoin (map xml_chunk (chunks s)).

(** printer.marshalValue for a string field: a start tag on a line of its own (printer.writeIndent with
    indent "\t", package.go:38), the text, and the end tag. *)
Definition xml_field (name attrs text : gostr) : gostr :=
  newline ++ tab ++ lit "<" ++ name ++ attrs ++ lit ">" ++ xml_escape text ++ lit "</" ++ name ++ lit ">".
(** [Package.Write] (package.go:33-47) with the field tags of package.go:11-31: xml.Header, then the
    fields in order.  The format attribute is left out if zero (omitempty). *)
Definition package_text (p : package) : gostr :=
  lit "<?xml version=""1.0"" encoding=""UTF-8""?>" ++ newline ++
  lit "<package" ++ (if decide (pk_format p = 0%Z) then [] else lit " format=""" ++ xml_escape (format_int (pk_format p)) ++ lit """") ++ lit ">" ++
  xml_field (lit "name") [] (pk_name p) ++
  xml_field (lit "version") [] (pk_version p) ++
  xml_field (lit "description") [] (pk_description p) ++
  xml_field (lit "maintainer") (lit " email=""" ++ xml_escape (pk_email p) ++ lit """") (pk_maintainer p) ++
  xml_field (lit "license") [] (pk_license p) ++
  mjoin (map (xml_field (lit "buildtool_depend") []) (pk_buildtool p)) ++
  mjoin (map (xml_field (lit "depend") []) (pk_depends p)) ++
  newline ++ lit "</package>".

(** ** What a generated file says; [None] for files whose text is not modelled. *)
Definition content_text (x : content) : option gostr :=
  match x with
  | Bytes b => Some b
  | CCMake p => Some (cmake_text p)
  | CPackage p => Some (package_text p)
  | CMakefile tests conv => Some (makefile_text tests conv)
  | CConvertH v ctx => Some (convert_text v ctx)
  | CPrelude _ | CMain _ _ _ _ | CBroken => None
  end.
