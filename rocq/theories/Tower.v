(** * Tower: items sequenced more than once, SequencedDataItem<...SequencedDataItem<T>...>
    (sequenced_data_item.h:48-109, where T is a template parameter of any kind). *)
From Verif Require Export Packets.

(** The members of one SequencedDataItem of the tower, :52 and :108. *)
Record level := mkLv { lv_num : N; lv_busy : bool }.
(** An object of the class: the levels, outermost class first, and the T part. *)
Record tower (T : Type) := mkTow { tw_levels : list level; tw_data : T }.
Arguments mkTow {T} _ _.
Arguments tw_levels {T} _.
Arguments tw_data {T} _.

Definition tw_level {T} (i : nat) (t : tower T) : level := nth i (tw_levels t) (mkLv 0 false).
Definition tw_put_level {T} (i : nat) (l : level) (t : tower T) : tower T := mkTow (list_set (tw_levels t) i l) (tw_data t).
Definition tw_num {T} (i : nat) (t : tower T) : N := lv_num (tw_level i t).
Definition tw_put_num {T} (i : nat) (n : N) (t : tower T) : tower T := tw_put_level i (mkLv n (lv_busy (tw_level i t))) t.
Definition tw_put_busy {T} (i : nat) (f : bool) (t : tower T) : tower T := tw_put_level i (mkLv (lv_num (tw_level i t)) f) t.
Definition tw_put_data {T} (b : T) (t : tower T) : tower T := mkTow (tw_levels t) b.

(** Constructor, :54: only the outermost number is an argument, the others are 0. *)
Definition tw_make {T} (d : nat) (base : T) (sequence : N) : tower T :=
  mkTow (match d with O => [] | S d' => mkLv (u16 sequence) false :: repeat (mkLv 0 false) d' end) base.

(** deserialize(reader), :96-104, of the class at level [i] (called with the class's
    name, so not virtual), [k] levels above T. *)
Fixpoint tw_deserialize_at {T} (c : cls T) (i k : nat) : D (tower T) unit :=
  match k with
  | O => dzoom tw_data tw_put_data (c_des c)
  | S k' =>
      t <- dget ;;;
      if lv_busy (tw_level i t) then tw_deserialize_at c (S i) k'
      else
        rd_uint 2 (tw_num i) (tw_put_num i) ;;;
        dmod (tw_put_busy i true) ;;;
        tw_deserialize_at c (S i) k' ;;;
        dmod (tw_put_busy i false)
  end.
(** The virtual call reaches the outermost class. *)
Definition tw_deserialize {T} (c : cls T) (d : nat) : D (tower T) unit := tw_deserialize_at c 0 d.

(** deserialize(reader, length), :80-88, of the class at level [i]. From T's own
    deserialize(reader, length) the virtual deserialize(reader) and getLength() reach the
    outermost class, whose length is 2 more for each of the [d] levels. *)
Fixpoint tw_deserialize_len_at {T} (c : cls T) (d i k : nat) (n : N) : D (tower T) unit :=
  match k with
  | O => match c_deslen c with
         | DLDirect f => dzoom tw_data tw_put_data (f n)
         | DLVirtual check =>
             match check (2 * N.of_nat d) n with
             | Some (e, s) => dthrow e s
             | None => tw_deserialize c d
             end
         end
  | S k' =>
      t <- dget ;;;
      if lv_busy (tw_level i t) then tw_deserialize_len_at c d (S i) k' (sq_sublen n)
      else
        rd_uint 2 (tw_num i) (tw_put_num i) ;;;
        dmod (tw_put_busy i true) ;;;
        tw_deserialize_len_at c d (S i) k' (sq_sublen n) ;;;
        dmod (tw_put_busy i false)
  end.

(** The class with [d] levels above T. *)
Definition tw_cls {T} (c : cls T) (d : nat) : cls (tower T) :=
  mkCls (DLDirect (tw_deserialize_len_at c d 0 d)) (tw_deserialize c d)
        (match c_sb c with
         | Some (get, put) =>
             Some ((fun t => get (tw_data t)), (fun s t => tw_put_data (put s (tw_data t)) t))
         | None => None
         end).

(** getLength, :60-63, and serialize, :71-75: each level calls the one below. *)
Definition tw_ser (ls : list level) (base : ser) : ser :=
  fold_right (fun l s => sq_ser (lv_num l) s) base ls.
