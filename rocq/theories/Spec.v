(** * Specification vocabulary: white space and decimal notation.

    Small definitions used in the statements of the properties, independent of the
    algorithms in the model. *)
From Verif Require Export GoStr.

(** White space, at either end of a text ([space_seqs] is the table of Unicode white-space
    characters in UTF-8). *)
Definition starts_space (s : gostr) : Prop := exists w, w ∈ space_seqs /\ w `prefix_of` s.
Definition ends_space (s : gostr) : Prop := exists w, w ∈ space_seqs /\ w `suffix_of` s.
Definition no_outer_space (s : gostr) : Prop := ~ starts_space s /\ ~ ends_space s.
(** A string made only of white-space characters. *)
Definition all_space (s : gostr) : Prop :=
  exists ws, Forall (fun w => w ∈ space_seqs) ws /\ s = concat ws.
(** [t] is [s] without the white space around it. *)
Definition trimmed (s t : gostr) : Prop :=
  exists a b, all_space a /\ all_space b /\ s = a ++ t ++ b /\ no_outer_space t.

(** The number written by a string of decimal digits. *)
Definition dec_value (s : gostr) : N := fold_left (fun a c => a * 10 + digit_val c)%N s 0%N.
Definition all_digits (s : gostr) : Prop := Forall (fun c => is_digit c = true) s.

(** Decimal integers: an optional sign and at least one digit. *)
Inductive int_syntax : gostr -> Z -> Prop :=
| int_plain ds : ds <> [] -> all_digits ds -> int_syntax ds (Z.of_N (dec_value ds))
| int_plus ds : ds <> [] -> all_digits ds -> int_syntax ("+"%char :: ds) (Z.of_N (dec_value ds))
| int_minus ds : ds <> [] -> all_digits ds -> int_syntax ("-"%char :: ds) (- Z.of_N (dec_value ds)).
Definition int64 (z : Z) : Prop := (- 2 ^ 63 <= z <= 2 ^ 63 - 1)%Z.

(** [s] spells an int64. *)
Definition spells_int64 (s : gostr) : Prop := exists z, int_syntax s z /\ int64 z.

(** Two texts that differ only in the case of ASCII letters. *)
Definition same_but_case (a b : gostr) : Prop := Forall2 (fun x y => lower_c x = lower_c y) a b.
