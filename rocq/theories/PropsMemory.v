(** * Properties C30 - C36: sequenced items, typed extraction, raw buffer memory.

    Statements only; proofs in PMemory.v and PKeeps.v, words in Vocab.v and Vocab3.v. *)
From Verif Require Import PWitness2 Tests.

(** ** C30 Sequenced data items prefix any data type: violated for encapsulation headers *)
Theorem C30_encode : forall m num s bs, carries m s bs -> carries m (sq_ser num s) (le 2 num ++ bs).
Proof. exact sq_carries. Qed.
Print Assumptions C30_encode.
(** Decoding a fresh wrapper (flag false): the outcome, memory, reader and object are
    those of the unwrapped type two bytes later, and the wrapper is fresh again on
    success. Missing: told the length, a class that compares it with getLength(). *)
Theorem C30_decode_buffer_partial : forall T (c : cls T) m v cnt b0 n0 num rest, fits 2 num -> reads m v (le 2 num ++ rest) ->
  (forall o m' r b, c_des c m (RBuf (view_drop v 2) (cnt + 2)) b0 = (o, m', r, b) ->
     exists f, c_des (sq_cls c) m (RBuf v cnt) (mkSeq b0 n0 false) = (o, m', r, mkSeq b num f) /\ (o = Ret tt -> f = false)) /\
  (forall n o m' r b, own_length c -> 2 <= n -> n < 18446744073709551616 ->
     deserialize_len c (n - 2) m (RBuf (view_drop v 2) (cnt + 2)) b0 = (o, m', r, b) ->
     exists f, deserialize_len (sq_cls c) n m (RBuf v cnt) (mkSeq b0 n0 false) = (o, m', r, mkSeq b num f) /\ (o = Ret tt -> f = false)).
Proof. exact (fun T c => seq_decode_buffer c). Qed.
Print Assumptions C30_decode_buffer_partial.
Theorem C30_decode_stream_partial : forall T (c : cls T) m d p b0 n0 num rest, fits 2 num -> drop p d = le 2 num ++ rest ->
  (forall o m' r b, c_des c m (RStr d (p + 2) false) b0 = (o, m', r, b) ->
     exists f, c_des (sq_cls c) m (RStr d p false) (mkSeq b0 n0 false) = (o, m', r, mkSeq b num f) /\ (o = Ret tt -> f = false)) /\
  (forall n o m' r b, own_length c -> 2 <= n -> n < 18446744073709551616 ->
     deserialize_len c (n - 2) m (RStr d (p + 2) false) b0 = (o, m', r, b) ->
     exists f, deserialize_len (sq_cls c) n m (RStr d p false) (mkSeq b0 n0 false) = (o, m', r, mkSeq b num f) /\ (o = Ret tt -> f = false)).
Proof. exact (fun T c => seq_decode_stream c). Qed.
Print Assumptions C30_decode_stream_partial.
(** Of the library's classes only the encapsulation header does. *)
Theorem C30_classes_partial : own_length ep_cls /\ own_length it_cls /\ own_length cpf_cls /\ own_length mq_cls /\ own_length ms_cls /\ own_length rr_base_cls /\
  own_length rrq_cls /\ own_length rrs_cls /\ own_length rg_cls /\ own_length sa_cls /\ own_length id_cls /\ own_length fo_cls /\ own_length fc_cls /\
  own_length fs_cls /\ own_length cs_cls /\ own_length sbuf_cls /\ (forall k, own_length (prim_cls k)) /\ ~ own_length hdr_cls.
Proof. exact own_length_all. Qed.
Print Assumptions C30_classes_partial.
(** Its getLength() is the wrapper's, so 26 bytes, which the wrapper writes, are refused. *)
Theorem C30_header_refuted : forall m v cnt b0 n0 num cmd n ses st c0 c1 o, fits 2 num -> reads m v (le 2 num ++ header cmd n ses st c0 c1 o) ->
  exists s r q, deserialize_len (sq_cls hdr_cls) 26 m (RBuf v cnt) (mkSeq b0 n0 false) = (Throw LengthError s, m, r, q) /\ sq_busy q = true.
Proof. exact seq_header_refused. Qed.
Print Assumptions C30_header_refuted.
(** Too short for the number: length_error, wrapper unchanged. *)
Theorem C30_decode_short : forall T (c : cls T) m v cnt q bs n, sq_busy q = false -> reads m v bs -> len bs < 2 ->
  (exists s, c_des (sq_cls c) m (RBuf v cnt) q = (Throw LengthError s, m, RBuf v cnt, q)) /\
  (exists s, deserialize_len (sq_cls c) n m (RBuf v cnt) q = (Throw LengthError s, m, RBuf v cnt, q)).
Proof. exact (fun T c => seq_decode_short c). Qed.
Print Assumptions C30_decode_short.
Example C30_example_header : let bs := le 2 5 ++ header 0x65 0 0 0 0 0 0 in reads [Some bs] (mkV 0 0 26) bs /\ len bs = 26 /\
  carries [] (sq_ser 5 (hdr_ser (hdr_make 0x65 0))) bs.
Proof. cbv zeta. split; [reflexivity|]. split; [reflexivity|]. apply sq_carries. apply hdr_carries. Qed.
Example C30_example : sq_busy (sq_make (ep_make0 0 0) 5) = false /\
  carries [] (prim_ser 4 0x01020304) (le 4 0x01020304) /\
  reads [Some (bl [0x15;0;9;9;9;9])] (mkV 0 0 6) (le 2 0x15 ++ bl [9;9;9;9]) /\
  c_des (prim_cls 4) [Some (bl [0x15;0;9;9;9;9])] (RBuf (mkV 0 2 4) 2) 0 = (Ret tt, [Some (bl [0x15;0;9;9;9;9])], RBuf (mkV 0 6 0) 6, 0x09090909).
Proof. split; [reflexivity|]. split; [apply carries_prim|]. split; reflexivity. Qed.

(** ** C31 A sequenced data item can be reused after a failed decode: violated *)
(** Whenever decoding the data part raises, the next decode into the same object
    reads no sequence number: the data type decodes the number itself. *)
Theorem C31_reuse_refuted : forall T (c : cls T) m v1 cnt1 b0 n0 num1 rest1 e s m1 r1 b1,
  fits 2 num1 -> reads m v1 (le 2 num1 ++ rest1) ->
  c_des c m (RBuf (view_drop v1 2) (cnt1 + 2)) b0 = (Throw e s, m1, r1, b1) ->
  exists q, c_des (sq_cls c) m (RBuf v1 cnt1) (mkSeq b0 n0 false) = (Throw e s, m1, r1, q) /\
    forall m2 r2 o m3 r3 b3, c_des c m2 r2 b1 = (o, m3, r3, b3) ->
      exists q', c_des (sq_cls c) m2 r2 q = (o, m3, r3, q') /\ sq_num q' = num1 /\ sq_base q' = b3.
Proof. exact (fun T c => seq_reuse_lost c). Qed.
Print Assumptions C31_reuse_refuted.
(** A concrete history: the reused object gets the wrong number and the wrong data. *)
Theorem C31_history_refuted : exists m v1 v2 num s m1 r1 q,
  c_des (sq_cls (prim_cls 2)) m (RBuf v1 0) (sq_make 0 0) = (Throw LengthError s, m1, r1, q) /\
  (exists m2 r2, c_des (sq_cls (prim_cls 2)) m (RBuf v2 0) (sq_make 0 0) = (Ret tt, m2, r2, mkSeq 7 num false)) /\
  exists m2 r2 q2, c_des (sq_cls (prim_cls 2)) m1 (RBuf v2 0) q = (Ret tt, m2, r2, q2) /\ sq_num q2 <> num /\ sq_base q2 <> 7.
Proof. exact seq_reuse_witness. Qed.
Print Assumptions C31_history_refuted.

(** ** C32 Typed extraction copies the payload *)
(** A raw payload: the destination is decoded in place from the payload's bytes. *)
Theorem C32_raw_to_typed : forall T (c : cls T) src v m t o m' r t', c_sb c = None -> raw src v ->
  deserialize_len c (v_len v) m (RBuf v 0) t = (o, m', r, t') -> copy_serializable c src m t = (o, m', t').
Proof. exact (fun T c => copy_raw_typed c). Qed.
Print Assumptions C32_raw_to_typed.
(** Any other payload with exact length: the destination is decoded from a new block
    holding exactly the serialized bytes, which is freed afterwards. *)
Theorem C32_typed_to_typed : forall T (c : cls T) src bs m t o m' r t', c_sb c = None -> s_sbuf src = None -> carries m src bs ->
  deserialize_len c (len bs) (m ++ [Some bs]) (RBuf (mkV (List.length m) 0 (len bs)) 0) t = (o, m', r, t') ->
  (exists any, nth_error m' (List.length m) = Some (Some any)) ->
  copy_serializable c src m t = (o, list_set m' (List.length m) None, t').
Proof. exact (fun T c => copy_typed c). Qed.
Print Assumptions C32_typed_to_typed.
(** Raw into raw: the same view. *)
Theorem C32_raw_to_raw : forall T (c : cls T) get put src v m t, c_sb c = Some (get, put) -> (forall s u, get (put s u) = s) -> raw src v ->
  exists t', copy_serializable c src m t = (Ret tt, m, t') /\ sb_data (get t') = v.
Proof. exact (fun T c => copy_raw_raw c). Qed.
Print Assumptions C32_raw_to_raw.
(** Not raw into raw: logic_error, nothing changed. *)
Theorem C32_typed_to_raw : forall T (c : cls T) src m t, c_sb c <> None -> s_sbuf src = None ->
  exists s, copy_serializable c src m t = (Throw LogicError s, m, t).
Proof. exact (fun T c => copy_refused c). Qed.
Print Assumptions C32_typed_to_raw.
(** Not covered above, and wrong: a sequenced raw buffer as source is extracted without
    its sequence number, although that is part of its serialized bytes ... *)
Theorem C32_sequenced_source_refuted : exists m num v bs t' m', reads m v bs /\
  carries m (sq_ser num (ser_of_sbuf (sb_of_view v))) (le 2 num ++ bs) /\
  copy_serializable (prim_cls 2) (sq_ser num (ser_of_sbuf (sb_of_view v))) m 0 = (Ret tt, m', t') /\
  le 2 t' <> take 2 (le 2 num ++ bs).
Proof. exact copy_sequenced_lost. Qed.
Print Assumptions C32_sequenced_source_refuted.
(** ... and, as the number does count in the length the decoder is told, a complete packet
    that is accepted from a raw buffer is refused from a sequenced one, ... *)
Theorem C32_sequenced_length_refuted : forall num v m t cmd ses st c0 c1 o payload,
  frame_fits cmd ses st c0 c1 o payload -> reads m v (frame cmd ses st c0 c1 o payload) ->
  (exists t', copy_serializable ep_cls (ser_of_sbuf (sb_of_view v)) m t = (Ret tt, m, t')) /\
  exists s t', copy_serializable ep_cls (sq_ser num (ser_of_sbuf (sb_of_view v))) m t = (Throw LengthError s, m, t').
Proof. exact copy_sequenced_strict. Qed.
Print Assumptions C32_sequenced_length_refuted.
(** ... and as destination it does not get the number from the payload. *)
Theorem C32_sequenced_destination_refuted : exists m v bs t', reads m v bs /\
  copy_serializable (sq_cls sbuf_cls) (ser_of_sbuf (sb_of_view v)) m (sq_make sb_empty 0) = (Ret tt, m, t') /\
  le 2 (sq_num t') <> take 2 bs /\ reads m (sb_data (sq_base t')) bs.
Proof. exact copy_sequenced_destination. Qed.
Print Assumptions C32_sequenced_destination_refuted.
Example C32_example :
  raw (ser_of_sbuf (sb_of_view (mkV 0 0 4))) (mkV 0 0 4) /\ c_sb (prim_cls 4) = None /\
  copy_serializable (prim_cls 4) (ser_of_sbuf (sb_of_view (mkV 0 0 4))) [Some (bl [1;2;3;4])] 0 = (Ret tt, [Some (bl [1;2;3;4])], 0x04030201) /\
  copy_serializable rg_cls (prim_ser 4 0x00020001) [] (mkReg 9 9) = (Ret tt, [None], mkReg 1 2) /\
  s_sbuf (prim_ser 4 1) = None /\ c_sb sbuf_cls <> None.
Proof. split; [exists None; reflexivity|]. repeat split. discriminate. Qed.

(** ** C33 A raw buffer object manages its memory correctly *)
(** The caller owns the blocks of sizes [ns]; the object starts on a view of them (or
    empty).  Any history of operations on caller memory returns, or stops with
    length_error or at an overlapping copy asked for by the caller: never a use after
    free, a double free or an access outside a block.  If it returns, destroying the
    object frees all that was allocated and nothing of the caller's. *)
Theorem C33_history : forall ns m v os, owned_by_caller ns m -> List.length m = List.length ns -> inside ns v -> Forall (sb_op_ok ns) os ->
  exists r m' s', sb_steps os m (sb_of_view v) = (r, m', s') /\ sound r /\
    (r = Ret tt -> exists m'', sb_destroy m' s' = (Ret tt, m'') /\ owned_by_caller ns m'' /\ all_freed ns m'').
Proof. exact sb_history. Qed.
Print Assumptions C33_history.
(** The same destruction after a history that ends in an exception. *)
Theorem C33_failed_history : forall ns m v os c e m' s', owned_by_caller ns m -> List.length m = List.length ns -> inside ns v ->
  Forall (sb_op_ok ns) os -> sb_steps os m (sb_of_view v) = (Throw c e, m', s') ->
  exists m'', sb_destroy m' s' = (Ret tt, m'') /\ owned_by_caller ns m'' /\ all_freed ns m''.
Proof. exact sb_history_fail. Qed.
Print Assumptions C33_failed_history.
Example C33_example :
  let os := [DecodeStream 3 (bl [1;2;3]) 0 false; Emit; DecodeStream 5 (bl [1;2;3]) 0 false; AssignView (mkV 0 1 2);
             DecodeStream 2 (bl [7;7]) 0 false; DecodeBuffer 1 (mkV 0 0 4); FillBuffer (mkV 0 2 2); SetData (mkV 0 0 4)] in
  Forall (sb_op_ok [4]) os /\ inside [4] null_view /\
  (let '(r, m, _) := sb_steps os [Some (zeros 4)] sb_empty in r = Ret tt /\ List.length m = 3%nat).
Proof.
  assert (I : forall o n, o + n <= 4 -> inside [4] (mkV 0 o n)) by (intros o n H; right; exists 4; split; [reflexivity|exact H]).
  split; [|split; [left; reflexivity|split; reflexivity]].
  repeat (constructor; [first [exact Logic.I|apply I; vm_compute; discriminate]|]). constructor.
Qed.

(** ** C34 Copying raw buffers is safe: violated *)
(** For every payload of at least one byte decoded from a stream and every
    destination, destroying both objects frees the block twice. *)
Theorem C34_double_free_refuted : forall m n d p f (t : sbuf), 0 < n ->
  exists m1 r s1, sb_deserialize_len n m (RStr d p f) sb_empty = (Ret tt, m1, r, s1) /\
  exists t1, copy_serializable sbuf_cls (ser_of_sbuf s1) m1 t = (Ret tt, m1, t1) /\
  exists m2, sb_destroy m1 t1 = (Ret tt, m2) /\ fst (sb_destroy m2 s1) = Undef DoubleFree.
Proof. exact copy_double_free. Qed.
Print Assumptions C34_double_free_refuted.
(** Safe when neither object owns memory (payloads decoded from a buffer). *)
Theorem C34_view_partial : forall m v a (t : sbuf), a = None -> sb_alloc t = None ->
  exists t1, copy_serializable sbuf_cls (ser_of_sbuf (mkSB v a)) m t = (Ret tt, m, t1) /\
  sb_destroy m t1 = (Ret tt, m) /\ sb_destroy m (mkSB v a) = (Ret tt, m).
Proof. exact copy_viewing_ok. Qed.
Print Assumptions C34_view_partial.

(** ** C35 A failed decode leaves a raw buffer usable: violated *)
(** Every non-empty object that owns its memory is left dangling by every buffer
    decode that is too short. *)
Theorem C35_dangling_refuted : forall m s b bs v bs' n c, sb_alloc s = Some b -> nth_error m b = Some (Some bs) ->
  v_blk (sb_data s) = b -> 0 < v_len (sb_data s) -> reads m v bs' -> len bs' < n ->
  exists e m' r s', sb_deserialize_len n m (RBuf v c) s = (Throw LengthError e, m', r, s') /\
    forall out, fst (fst (sb_serialize s' m' (WStr out))) = Undef UseAfterFree.
Proof. exact failed_decode_dangling. Qed.
Print Assumptions C35_dangling_refuted.
(** An object that owns nothing is unchanged, as is one whose deserialize(reader) fails. *)
Theorem C35_view_partial : forall m s r n c e m' r' s', sb_alloc s = None ->
  sb_deserialize_len n m r s = (Throw c e, m', r', s') -> m' = m /\ s' = s.
Proof. exact failed_decode_viewing. Qed.
Print Assumptions C35_view_partial.
Theorem C35_fill_partial : forall m s r c e m' r' s', sb_deserialize m r s = (Throw c e, m', r', s') -> m' = m /\ s' = s.
Proof. exact failed_fill. Qed.
Print Assumptions C35_fill_partial.
Example C35_example : let m := [Some (bl [1;2]); Some (bl [7])] in let s := mkSB (mkV 0 0 2) (Some 0%nat) in
  sb_alloc s = Some 0%nat /\ nth_error m 0 = Some (Some (bl [1;2])) /\ 0 < v_len (sb_data s) /\ reads m (mkV 1 0 1) (bl [7]) /\ len (bl [7]) < 2 /\
  exists m' r' s', sb_deserialize_len 2 m (RBuf (mkV 1 0 1) 0) (sb_of_view (mkV 0 0 2)) = (Throw LengthError "Buffer too small to deserialize value", m', r', s').
Proof. repeat split. do 3 eexists. reflexivity. Qed.

(** ** C36 Typed extraction does not leave dangling data: violated *)
(** Every encapsulation packet with a payload extracted from a payload that is not a
    raw buffer refers to freed memory. *)
Theorem C36_dangling_refuted : forall m src t0 cmd ses st c0 c1 o payload, frame_fits cmd ses st c0 c1 o payload -> payload <> [] ->
  s_sbuf src = None -> carries m src (frame cmd ses st c0 c1 o payload) ->
  exists m' p s, copy_serializable ep_cls src m t0 = (Ret tt, m', p) /\ ep_payload p = Some s /\
    forall out, fst (fst (s_serialize s m' (WStr out))) = Undef UseAfterFree.
Proof. exact extracted_dangling. Qed.
Print Assumptions C36_dangling_refuted.
(** Extraction from a raw payload leaves memory unchanged, for every class whose decode
    keeps memory: what was decoded stays valid as long as the source's memory does. *)
Theorem C36_raw_partial : forall T (c : cls T) src v m t, c_sb c = None -> keeps_cls c -> raw src v ->
  exists o t', copy_serializable c src m t = (o, m, t').
Proof. exact (fun T c => copy_raw_keeps c). Qed.
Print Assumptions C36_raw_partial.
(** These are all the library's message classes, and sequenced items over them. *)
Theorem C36_classes_partial :
  (keeps_cls hdr_cls /\ keeps_cls ep_cls /\ keeps_cls it_cls /\ keeps_cls cpf_cls /\ keeps_cls mq_cls /\ keeps_cls ms_cls /\
   keeps_cls rr_base_cls /\ keeps_cls rrq_cls /\ keeps_cls rrs_cls /\ keeps_cls rg_cls /\ keeps_cls sa_cls /\ keeps_cls id_cls /\
   keeps_cls fo_cls /\ keeps_cls fc_cls /\ keeps_cls fs_cls /\ keeps_cls cs_cls /\ forall k, keeps_cls (prim_cls k)) /\
  forall T (c : cls T), keeps_cls c -> keeps_cls (sq_cls c).
Proof. exact (conj keeps_all (fun T c => keeps_seq c)). Qed.
Print Assumptions C36_classes_partial.
Example C36_example : s_sbuf (ep_ser (mkEP (mkHdr 0x65 4 0 0 0 0 0) (Some (rg_ser rg_make)))) = None /\
  carries [] (ep_ser (mkEP (mkHdr 0x65 4 0 0 0 0 0) (Some (rg_ser rg_make)))) (frame 0x65 0 0 0 0 0 (registration 1 0)) /\
  frame_fits 0x65 0 0 0 0 0 (registration 1 0).
Proof. split; [reflexivity|]. split; [|repeat split]. exact (ep_carries [] (mkHdr 0x65 4 0 0 0 0 0) (Some (rg_ser rg_make)) (registration 1 0) (rg_carries [] rg_make)). Qed.
