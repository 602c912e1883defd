(** * Vocab14: words for the properties of typed attributes and of reused objects. *)
From Verif Require Export Vocab13 Types.
Local Open Scope N_scope.

(** The values of the type. *)
Definition in_range (t : etype) (v : Z) : Prop :=
  match t with
  | EBool => v = 0 \/ v = 1
  | EByte | EUsint => 0 <= v < 256
  | ESint => -128 <= v < 128
  | EWord | EUint => 0 <= v < 65536
  | EInt => -32768 <= v < 32768
  | EDword | EUdint => 0 <= v < 4294967296
  | EDint => -2147483648 <= v < 2147483648
  end%Z.
(** A number as [k] bytes, low byte first, two's complement. *)
Fixpoint twos (k : nat) (v : Z) : list byte :=
  match k with O => [] | S k' => octet (Z.to_N (v mod 256)%Z) :: twos k' (v / 256)%Z end.

(** The same outcome, memory and reader, and on return the same object. *)
Definition alike {T} (x y : outcome unit * heap * reader * T) : Prop :=
  match x, y with
  | (o, m, r, t), (o', m', r', t') => o' = o /\ m' = m /\ r' = r /\ (o = Ret tt -> t' = t)
  end.
(** Decoding from a buffer into this and into that object is the same. *)
Definition same_into {T} (x : D T unit) (t0 t1 : T) : Prop := forall m v c, alike (x m (RBuf v c) t0) (x m (RBuf v c) t1).
(** Nothing of the old object is left. *)
Definition forgets {T} (c : cls T) : Prop := forall t0 t1, same_into (c_des c) t0 t1 /\ forall n, same_into (deserialize_len c n) t0 t1.
