(** * Memory: heap blocks, asio buffers, host representation of integers. *)
From Verif Require Export Base.

(** A block is live with its bytes, or freed.  Block identifiers are indices. *)
Definition heap := list (option (list byte)).

(** boost::asio::mutable_buffer / const_buffer: start address and size. *)
Record view := mkV { v_blk : nat; v_off : N; v_len : N }.

(** [mutable_buffer(NULL, 0)], serializable_buffer.h:53. *)
Definition null_view : view := mkV 0 0 0.

(** Read [n] bytes at an address.  Zero bytes never touch memory. *)
Definition load (m : heap) (b : nat) (off n : N) : outcome (list byte) :=
  if n =? 0 then Ret [] else
  match nth_error m b with
  | Some (Some bl) => if off + n <=? len bl then Ret (take n (drop off bl)) else Undef WildAccess
  | Some None => Undef UseAfterFree
  | None => Undef WildAccess
  end.

Fixpoint list_set {A} (l : list A) (i : nat) (x : A) : list A :=
  match l, i with
  | [], _ => []
  | _ :: l', O => x :: l'
  | y :: l', S i' => y :: list_set l' i' x
  end.

(** Overwrite [length bs] bytes at an address. *)
Definition store (m : heap) (b : nat) (off : N) (bs : list byte) : outcome heap :=
  if len bs =? 0 then Ret m else
  match nth_error m b with
  | Some (Some bl) =>
      if off + len bs <=? len bl
      then Ret (list_set m b (Some (take off bl ++ bs ++ drop (off + len bs) bl)))
      else Undef WildAccess
  | Some None => Undef UseAfterFree
  | None => Undef WildAccess
  end.

(** [new char[n]] / std::vector<char> storage: a fresh block. *)
Definition alloc (m : heap) (bs : list byte) : nat * heap := (List.length m, m ++ [Some bs]).

(** [delete[]] / end of life of a vector. *)
Definition free (m : heap) (b : nat) : outcome heap :=
  match nth_error m b with
  | Some (Some _) => Ret (list_set m b None)
  | Some None => Undef DoubleFree
  | None => Undef WildAccess
  end.

Definition load_view (m : heap) (v : view) : outcome (list byte) :=
  load m (v_blk v) (v_off v) (v_len v).

(** asio [buffer(b, n)]: same start, size min(size, n). *)
Definition view_take (v : view) (n : N) : view := mkV (v_blk v) (v_off v) (N.min (v_len v) n).
(** asio [b + n]: start advanced by min(size, n). *)
Definition view_drop (v : view) (n : N) : view :=
  mkV (v_blk v) (v_off v + N.min (v_len v) n) (v_len v - N.min (v_len v) n).

Definition overlap (v w : view) : bool :=
  Nat.eqb (v_blk v) (v_blk w)
  && (v_off v <? v_off w + v_len w) && (v_off w <? v_off v + v_len v)
  && negb (v_len v =? 0) && negb (v_len w =? 0).

(** Host (little endian) object representation of a k-byte unsigned integer, as
    copied by Writer::write (serialization/writer.h:50-53) and Reader::read
    (serialization/reader.h:51-54): byte [i] holds bits [8i .. 8i+7]. *)
Definition host_bytes (k : nat) (v : N) : list byte :=
  map (fun i => byte_of (N.shiftr v (8 * N.of_nat i))) (seq 0 k).
Definition host_value (bs : list byte) : N :=
  fold_right (fun b acc => N.lor (n_of b) (N.shiftl acc 8)) 0 bs.
