(** * Specification vocabulary for linking (C89): which functions the sources of a test define *)
From Verif Require Export SpecStatic SpecPrelude.

(** The types that a header declares. *)
Definition declared_types (d : list hdecl) : list (list gostr) := omap (fun i => match i with DEnum q _ => Some q | DClass q _ => Some q | _ => None end) d.
(** A function with external linkage (none of the functions is static or inline): its full name and the types
    of its parameters; the name of a type is looked for in the function's namespaces, from the inside out. *)
Definition symbol : Type := list gostr * list ctype.
Definition full_type (types : list (list gostr)) (scope : list gostr) (t : ctype) : ctype :=
  match t with CType k (BName q) s => CType k (BName (full_name types scope q)) s | _ => t end.
Definition fun_symbol (types : list (list gostr)) (q : list gostr) (ps : list param) : symbol := (q, map (fun x => full_type types (removelast q) x.1) ps).
Definition source_symbols (types : list (list gostr)) (p : list citem) : list symbol :=
  omap (fun i => match i with CFun _ q ps _ => Some (fun_symbol types q ps) | _ => None end) p.
(** Functions that are only declared: those of a header like rtcg.h, and the methods of classes. *)
Definition method_symbols (types : list (list gostr)) (c : list gostr) (ms : list member) : list symbol :=
  omap (fun m => match m with MMethod _ f ps => Some (fun_symbol types (c ++ [f]) ps) | _ => None end) ms.
Definition header_symbols (types : list (list gostr)) (d : list hdecl) : list symbol :=
  concat (map (fun i => match i with DFun _ q ps => [fun_symbol types q ps] | DClass q ms => method_symbols types q ms | _ => [] end) d).
Definition class_symbols (types : list (list gostr)) (p : list citem) : list symbol :=
  concat (map (fun i => match i with CClass c _ ms => method_symbols types [c] ms | _ => [] end) p).
(** The sources can be linked: nothing is defined twice.  [own]: the functions of main.cpp and rtcg.cpp; [conv]: the
    functions that convert.h and convert.cpp define, by name (the types of their parameters are macros). *)
Record linkable (own : list symbol) (conv : list gostr) : Prop := {
  ln_own : NoDup own;
  ln_conv : NoDup conv;
  ln_apart : forall f ts, f ∈ conv -> ([f], ts) ∉ own;
}.
