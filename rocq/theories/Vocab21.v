(** * Vocab21: words for the property of the byte order. *)
From Verif Require Export Endian Spec.
Local Open Scope N_scope.

(** The value fits its field. *)
Definition field_fits (f : field) : Prop := match f with FInt k v => fits k v | FBytes _ => True end.
(** The field reads the same from both ends. *)
Definition symmetric (f : field) : Prop := match f with FInt k v => rev (le k v) = le k v | FBytes _ => True end.
