(** * Vocab10: words for C86 and C87 and for the further theorems of C03-C05 and C63.
    Only definitions. *)
From Verif Require Export Vocab9.
Local Open Scope N_scope.

(** ** Lengths of decoded objects *)
(** After a successful decode from a buffer, getLength of the object is the number of
    bytes the decode took. *)
Definition tells {T} (out : T -> ser) (x : D T unit) : Prop :=
  forall m v c t m' r t', x m (RBuf v c) t = (Ret tt, m', r, t') ->
  exists n v', s_length (out t') = Ret n /\ r = RBuf v' (c + n).

(** ** Classes that only go one way *)
(** Decoding is refused, with or without a length, before anything is touched. *)
Definition never_decodes {T} (c : cls T) : Prop :=
  forall m r t, (exists s, deserialize c m r t = (Throw LogicError s, m, r, t)) /\
    forall n, exists s, deserialize_len c n m r t = (Throw LogicError s, m, r, t).
(** Encoding is refused before anything is written. *)
Definition never_encodes (s : ser) : Prop :=
  forall m w, exists e, s_serialize s m w = (Throw LogicError e, m, w).

(** ** Reads into user memory *)
(** Two views without a byte in common. *)
Definition disjoint_views (v w : view) : Prop :=
  v_len v = 0 \/ v_len w = 0 \/ v_blk v <> v_blk w \/ v_off v + v_len v <= v_off w \/ v_off w + v_len w <= v_off v.
(** [m'] is [m] with the bytes [bs] at [dst]: everything that was readable elsewhere is
    what it was. *)
Definition only_wrote (m m' : heap) (dst : view) (bs : list byte) : Prop :=
  reads m' dst bs /\ forall w x, disjoint_views w dst -> reads m w x -> reads m' w x.

(** ** Reads from a stream *)
(** Calls whose short result is not used by the caller (a short read into a fresh local
    is undefined behaviour, C05_count_refuted; a view needs a buffer). *)
Definition plain (o : rop) : Prop := match o with GetLocal _ | GetView _ => False | _ => True end.
Definition on_stream (o : rop) : Prop := match o with GetView _ => False | _ => True end.
(** What a short call leaves behind: the bytes that were there and nothing else. *)
Definition got_part (o : rop) (p : list byte) (g : got) : Prop :=
  match o with
  | GetBytes _ => g = GotBytes p
  | GetInt k => exists v, g = GotInt v /\ fits k v /\ le k v = p ++ zeros (N.of_nat k - len p)
  | Skip _ => g = GotNothing
  | GetLocal _ | GetView _ => False
  end.

(** ** The test socket *)
(** How many bytes of each message are taken when there is room for [room]. *)
Fixpoint accepted (room : N) (msgs : list (list byte)) : list N :=
  match msgs with
  | [] => []
  | m :: ms => if len m <=? room then len m :: accepted (room - len m) ms else room :: accepted 0 ms
  end.
