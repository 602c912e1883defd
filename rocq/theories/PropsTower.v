(** * C124 Sequence numbers can be stacked: violated for encapsulation headers and after a failure *)
From Verif Require Import PTower.

(** One number for each level, the outermost first, then the data; the length is that of the bytes. *)
Theorem C124_encode : forall m ls s bs, carries m s bs -> carries m (tw_ser ls s) (numbers (map lv_num ls) ++ bs).
Proof. exact tower_encode. Qed.
Print Assumptions C124_encode.
(** Decoding an object that is not in the middle of a decode: the outcome, memory, reader
    and data are those of the unwrapped type after the numbers; the levels hold the numbers
    in order. Missing: told the length, a class that compares it with getLength(). *)
Theorem C124_buffer_partial : forall T (c : cls T) m v cnt b0 olds ns rest, List.length olds = List.length ns -> Forall (fits 2) ns -> reads m v (numbers ns ++ rest) ->
  let r0 := RBuf (view_drop v (2 * len ns)) (cnt + 2 * len ns) in
  (forall o m' r b, c_des c m r0 b0 = (o, m', r, b) ->
     c_des (tw_cls c (List.length ns)) m (RBuf v cnt) (mkTow (idle olds) b0) = (o, m', r, mkTow (left_as o ns) b)) /\
  (forall n o m' r b, own_length c -> 2 * len ns <= n -> n < 2 ^ 64 -> deserialize_len c (n - 2 * len ns) m r0 b0 = (o, m', r, b) ->
     deserialize_len (tw_cls c (List.length ns)) n m (RBuf v cnt) (mkTow (idle olds) b0) = (o, m', r, mkTow (left_as o ns) b)).
Proof. exact @tower_buffer. Qed.
Print Assumptions C124_buffer_partial.
Theorem C124_stream_partial : forall T (c : cls T) m d p b0 olds ns rest, List.length olds = List.length ns -> Forall (fits 2) ns -> drop p d = numbers ns ++ rest ->
  let r0 := RStr d (p + 2 * len ns) false in
  (forall o m' r b, c_des c m r0 b0 = (o, m', r, b) ->
     c_des (tw_cls c (List.length ns)) m (RStr d p false) (mkTow (idle olds) b0) = (o, m', r, mkTow (left_as o ns) b)) /\
  (forall n o m' r b, own_length c -> 2 * len ns <= n -> n < 2 ^ 64 -> deserialize_len c (n - 2 * len ns) m r0 b0 = (o, m', r, b) ->
     deserialize_len (tw_cls c (List.length ns)) n m (RStr d p false) (mkTow (idle olds) b0) = (o, m', r, mkTow (left_as o ns) b)).
Proof. exact @tower_stream. Qed.
Print Assumptions C124_stream_partial.
(** Three numbers and an address item, through both entry points. *)
Example C124_example : let m := [Some (numbers [1; 2; 3] ++ le 4 8 ++ le 4 9)] in
  c_des (tw_cls sa_cls 3) m (RBuf (mkV 0 0 14) 0) (tw_make 3 (sa_make 0 0) 77) = (Ret tt, m, RBuf (mkV 0 14 0) 14, mkTow (idle [1; 2; 3]) (mkSA 8 9)) /\
  deserialize_len (tw_cls sa_cls 3) 14 m (RBuf (mkV 0 0 14) 0) (tw_make 3 (sa_make 0 0) 77) = (Ret tt, m, RBuf (mkV 0 14 0) 14, mkTow (idle [1; 2; 3]) (mkSA 8 9)) /\
  tw_levels (tw_make 3 (sa_make 0 0) 77) = idle [77; 0; 0] /\ own_length sa_cls /\
  s_length (tw_ser (idle [1; 2; 3]) (sa_ser (mkSA 8 9))) = Ret 14 /\
  s_serialize (tw_ser (idle [1; 2; 3]) (sa_ser (mkSA 8 9))) [] (WStr []) = (Ret tt, [], WStr (numbers [1; 2; 3] ++ le 4 8 ++ le 4 9)).
Proof. repeat split; vm_compute; reflexivity. Qed.

(** With one level this is the item C30 and C31 are about. *)
Theorem C124_one : forall T (c : cls T) q m r,
  (forall o m' r' q', c_des (sq_cls c) m r q = (o, m', r', q') ->
     c_des (tw_cls c 1) m r (mkTow [mkLv (sq_num q) (sq_busy q)] (sq_base q)) = (o, m', r', mkTow [mkLv (sq_num q') (sq_busy q')] (sq_base q'))) /\
  (forall n o m' r' q', deserialize_len (sq_cls c) n m r q = (o, m', r', q') ->
     deserialize_len (tw_cls c 1) n m r (mkTow [mkLv (sq_num q) (sq_busy q)] (sq_base q)) = (o, m', r', mkTow [mkLv (sq_num q') (sq_busy q')] (sq_base q'))).
Proof. exact @tower_one. Qed.
Print Assumptions C124_one.
Example C124_one_example : let m := [Some (le 2 5 ++ le 2 7)] in
  c_des (sq_cls (prim_cls 2)) m (RBuf (mkV 0 0 4) 0) (sq_make 0 1) = (Ret tt, m, RBuf (mkV 0 4 0) 4, mkSeq 7 5 false).
Proof. vm_compute. reflexivity. Qed.

(** However often a header is sequenced, it refuses the length of the bytes it writes,
    24 and 2 for each number; it wants 4 for each number. *)
Theorem C124_header_refuted : forall m v cnt b0 olds ns cmd n ses st c0 c1 o told, List.length olds = List.length ns -> Forall (fits 2) ns ->
  2 * len ns <= told -> told < 2 ^ 64 ->
  reads m v (numbers ns ++ header cmd n ses st c0 c1 o) -> fits 2 cmd -> fits 2 n -> fits 4 ses -> fits 4 st -> fits 4 c0 -> fits 4 c1 -> fits 4 o ->
  let res := deserialize_len (tw_cls hdr_cls (List.length ns)) told m (RBuf v cnt) (mkTow (idle olds) b0) in
  (told = 24 + 4 * len ns -> exists r, res = (Ret tt, m, r, mkTow (idle ns) (mkHdr cmd n ses st c0 c1 o))) /\
  (told <> 24 + 4 * len ns -> exists s r, res = (Throw LengthError s, m, r, mkTow (stale ns) b0)).
Proof. exact tower_header. Qed.
Print Assumptions C124_header_refuted.
Example C124_header_example : exists s r t, let m := [Some (numbers [1; 2] ++ header 0x65 4 0 0 0 0 0)] in
  deserialize_len (tw_cls hdr_cls 2) 28 m (RBuf (mkV 0 0 28) 0) (tw_make 2 (hdr_make 0 0) 0) = (Throw LengthError s, m, r, t) /\ map lv_num (tw_levels t) = [1; 2].
Proof. do 3 eexists. vm_compute. split; reflexivity. Qed.

(** A message too short for all numbers: the levels that got theirs stay as if in the
    middle of a decode. *)
Theorem C124_short_partial : forall T (c : cls T) m v cnt b0 olds0 olds1 ns short, List.length olds0 = List.length ns -> olds1 <> [] -> Forall (fits 2) ns ->
  reads m v (numbers ns ++ short) -> len short < 2 ->
  exists s r, c_des (tw_cls c (List.length (olds0 ++ olds1))) m (RBuf v cnt) (mkTow (idle (olds0 ++ olds1)) b0) = (Throw LengthError s, m, r, mkTow (stale ns ++ idle olds1) b0).
Proof. exact @tower_short. Qed.
Print Assumptions C124_short_partial.
(** Such levels take no number from the next message. *)
Theorem C124_stale_partial : forall T (c : cls T) ns m r b0 o m' r' b, c_des c m r b0 = (o, m', r', b) ->
  c_des (tw_cls c (List.length ns)) m r (mkTow (stale ns) b0) = (o, m', r', mkTow (stale ns) b).
Proof. exact @tower_stale. Qed.
Print Assumptions C124_stale_partial.
(** So a second message gives the numbers 5 and 1 and the data 2, where a new object has 1, 2 and 7. *)
Theorem C124_reuse_refuted : exists m v1 v2 s m1 r1 t t1 t2,
  c_des (tw_cls (prim_cls 2) 2) m (RBuf v1 0) (tw_make 2 0 0) = (Throw LengthError s, m1, r1, t) /\
  (exists m2 r2, c_des (tw_cls (prim_cls 2) 2) m (RBuf v2 0) (tw_make 2 0 0) = (Ret tt, m2, r2, t1) /\ map lv_num (tw_levels t1) = [1; 2] /\ tw_data t1 = 7) /\
  (exists m2 r2, c_des (tw_cls (prim_cls 2) 2) m1 (RBuf v2 0) t = (Ret tt, m2, r2, t2) /\ map lv_num (tw_levels t2) = [5; 1] /\ tw_data t2 = 2).
Proof. exact tower_history. Qed.
Print Assumptions C124_reuse_refuted.
