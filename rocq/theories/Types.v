(** * Types: attributes of the elementary data types (eip_types.h:34-43). *)
From Verif Require Export Session.
From Coq Require Export ZArith.
Local Open Scope N_scope.

(** eip_types.h:34-43. *)
Inductive etype := EBool | EByte | EUsint | ESint | EWord | EUint | EInt | EDword | EUdint | EDint.
(** sizeof. *)
Definition width (t : etype) : nat :=
  match t with EBool | EByte | EUsint | ESint => 1 | EWord | EUint | EInt => 2 | EDword | EUdint | EDint => 4 end%nat.
(** The bytes of an object of the type with this value, as one unsigned number (two's
    complement; false is 0 and true is 1). *)
Definition e_rep (t : etype) (v : Z) : N := Z.to_N (v mod 2 ^ (8 * Z.of_nat (width t)))%Z.
(** The value of an object with these bytes. A bool whose byte is neither 0 nor 1 has no
    value: reading it is undefined ([dcl.type], conversion of an indeterminate or trap
    representation). *)
Definition e_value (t : etype) (n : N) : outcome Z :=
  match t with
  | EBool => if n =? 0 then Ret 0%Z else if n =? 1 then Ret 1%Z else Undef Indeterminate
  | ESint => Ret (if n <? 0x80 then Z.of_N n else (Z.of_N n - 0x100)%Z)
  | EInt => Ret (if n <? 0x8000 then Z.of_N n else (Z.of_N n - 0x10000)%Z)
  | EDint => Ret (if n <? 0x80000000 then Z.of_N n else (Z.of_N n - 0x100000000)%Z)
  | _ => Ret (Z.of_N n)
  end.
(** getSingleAttribute<T>, session.h:116-122: the template for each of the types; the value
    is read when it is returned (:121). *)
Definition getAttribute (t : etype) (junk : N) (class_id inst attr : N) : M Z :=
  let* v := getSingleAttribute (width t) junk class_id inst attr in mout (e_value t v).
(** setSingleAttribute<T>, session.h:141-148. *)
Definition setAttribute (t : etype) (class_id inst attr : N) (v : Z) : M unit :=
  setSingleAttribute (width t) class_id inst attr (e_rep t v).
