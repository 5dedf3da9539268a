(** * Specification vocabulary for orders in written files (C79) *)
From Verif Require Export Json.

(** [a] comes before [b] in byte order: it is a proper prefix, or smaller at the first byte where they differ. *)
Definition before (a b : gostr) : Prop :=
  (exists c r, b = a ++ c :: r) \/
  (exists p x r y t, a = p ++ x :: r /\ b = p ++ y :: t /\ (code x < code y)%N).
Definition ascending (l : list gostr) : Prop :=
  forall i j a b, i < j -> l !! i = Some a -> l !! j = Some b -> before a b.

(** Places in a JSON document. *)
Inductive step := Key (k : gostr) | Item (i : nat).
Inductive at_path : json -> list step -> json -> Prop :=
  | at_here j : at_path j [] j
  | at_key l k v p w : (k, v) ∈ l -> at_path v p w -> at_path (JObj l) (Key k :: p) w
  | at_item l i v p w : l !! i = Some v -> at_path v p w -> at_path (JArr l) (Item i :: p) w.
