(** * Vocab39: words for C136, the width of size_t.  Only definitions. *)
From Verif Require Export Vocab Width.
Local Open Scope N_scope.

(** A host with size_t of 32 to 64 bits; 32 bit [int]. *)
Definition word (z : N) : Prop := exists k, z = k * 4294967296 /\ 0 < k <= 4294967296.
(** What the reader reads from is in the memory of such a host. *)
Definition in_memory (z : N) (r : reader) : Prop :=
  match r with RBuf v c => c + v_len v < z | RStr d p _ => p < z /\ len d < z end.
(** The length of [s] is that of [s'], as far as a size_t can tell. *)
Definition same_length (z : N) (o o' : outcome N) : Prop := o = match o' with Ret n => Ret (n mod z) | Throw c s => Throw c s | Undef u => Undef u | Stuck => Stuck end.
(** A class whose check of the length only compares it with lengths of real messages. *)
Definition checks_real (z : N) {T} (c : cls T) : Prop :=
  match c_deslen c with DLDirect _ => False | DLVirtual check => forall k a b, z - 2 <= a -> z - 2 <= b -> check k a = check k b end.
