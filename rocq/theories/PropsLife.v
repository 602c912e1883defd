(** * Properties C103, C104: the end of packets, the memory a decode takes.
    Statements only; the proofs are in PLife.v, PLife2.v. *)
From Verif Require Import Spec Vocab Life Vocab15 PLife PLife2.

(** ** C103 What was taken from a packet stays valid when the packet goes: violated *)
(** A packet decoded from a buffer owns nothing: destroying it, or replacing its payload,
    changes no memory, so whatever was taken from it keeps its bytes. Missing: packets
    decoded from a stream. *)
Theorem C103_buffer_partial : forall m v c p0 m' r p, ep_deserialize m (RBuf v c) p0 = (Ret tt, m', r, p) ->
  m' = m /\ ep_destroy m p = (Ret tt, m) /\ forall q, ep_replace q m p = (Ret tt, m, ep_set_payload_field q p).
Proof. exact ep_end_buffer. Qed.
Print Assumptions C103_buffer_partial.
Theorem C103_items_partial : forall m v c p0 m' r l, cpf_deserialize m (RBuf v c) p0 = (Ret tt, m', r, l) ->
  m' = m /\ cpf_destroy m l = (Ret tt, m).
Proof. exact cpf_end_buffer. Qed.
Print Assumptions C103_items_partial.
(** Every packet of items read from a stream: the items taken from it have their bytes
    while the packet lives; after it was destroyed, or got another payload, every item
    that had data has been freed. Nothing else is affected. *)
Theorem C103_stream_refuted : forall m d p p0 cmd ses st c0 c1 o xs rest l0, frame_fits cmd ses st c0 c1 o (cpf xs) -> cpf_ok xs ->
  drop p d = frame cmd ses st c0 c1 o (cpf xs) ++ rest ->
  exists m1 r1 pk l m2, ep_deserialize m (RStr d p false) p0 = (Ret tt, m1, r1, pk) /\
    (forall r, ep_getPayloadAs cpf_cls pk m1 r l0 = (Ret tt, m1, r, l)) /\ Forall2 (item_is m1) l xs /\
    ep_destroy m1 pk = (Ret tt, m2) /\ (forall q, ep_replace q m1 pk = (Ret tt, m2, ep_set_payload_field q pk)) /\
    hext m m2 /\ Forall2 (item_freed m2) l xs.
Proof. exact extracted_end. Qed.
Print Assumptions C103_stream_refuted.
(** A raw buffer object taken from it is used after free, and deletes the bytes again. *)
Theorem C103_raw_refuted : forall m d p p0 cmd ses st c0 c1 o payload rest sb0, frame_fits cmd ses st c0 c1 o payload -> payload <> [] ->
  drop p d = frame cmd ses st c0 c1 o payload ++ rest ->
  exists m1 r1 pk sb m2, ep_deserialize m (RStr d p false) p0 = (Ret tt, m1, r1, pk) /\
    (forall r, ep_getPayloadAs sbuf_cls pk m1 r sb0 = (Ret tt, m1, r, sb)) /\ reads m1 (sb_data sb) payload /\
    ep_destroy m1 pk = (Ret tt, m2) /\ load_view m2 (sb_data sb) = Undef UseAfterFree /\ fst (sb_destroy m2 sb) = Undef DoubleFree.
Proof. exact raw_end. Qed.
Print Assumptions C103_raw_refuted.
Example C103_example : frame_fits 0x6F 7 0 0 0 0 (cpf [(0, []); (0xB2, [x01; x02; x03])]) /\ cpf_ok [(0, []); (0xB2, [x01; x02; x03])] /\
  exists r p, ep_deserialize [Some (frame 0x6F 7 0 0 0 0 [x01; x02])] (RBuf (mkV 0 0 26) 0) (ep_make0 0 0) = (Ret tt, [Some (frame 0x6F 7 0 0 0 0 [x01; x02])], r, p) /\ ep_payload p <> None.
Proof. exact life_example. Qed.

(** ** C104 Decoding takes no more memory than the message it is given: violated *)
(** A whole message from a stream takes exactly its data. Missing: messages that stop short. *)
Theorem C104_packet_partial : forall m d p p0 cmd ses st c0 c1 o payload rest, frame_fits cmd ses st c0 c1 o payload ->
  drop p d = frame cmd ses st c0 c1 o payload ++ rest ->
  exists m' r pk, ep_deserialize m (RStr d p false) p0 = (Ret tt, m', r, pk) /\ heap_bytes m' = heap_bytes m + len payload.
Proof. exact ep_whole. Qed.
Print Assumptions C104_packet_partial.
Theorem C104_items_partial : forall m d p p0 xs rest, cpf_ok xs -> drop p d = cpf xs ++ rest ->
  exists m' r l, cpf_deserialize m (RStr d p false) p0 = (Ret tt, m', r, l) /\
    heap_bytes m' = heap_bytes m + fold_right (fun x n => len (snd x) + n) 0 xs.
Proof. exact cpf_whole. Qed.
Print Assumptions C104_items_partial.
(** Any input, complete or not, accepted or not: beyond what the stream has, a decode takes
    nothing (fixed messages), 510 bytes (forward open and close replies) or 65535 bytes,
    however many items there are. *)
Theorem C104_bound_partial :
  (frugal 0 (c_des hdr_cls) /\ frugal 0 (c_des rg_cls) /\ frugal 0 (c_des sa_cls) /\ frugal 0 (c_des id_cls)) /\
  (frugal 510 (c_des fs_cls) /\ frugal 510 (c_des cs_cls)) /\
  (frugal 65535 (c_des ep_cls) /\ frugal 65535 (c_des it_cls) /\ frugal 65535 (c_des cpf_cls)) /\
  (frugal 65535 (c_des rr_base_cls) /\ frugal 65535 (c_des rrq_cls) /\ frugal 65535 (c_des rrs_cls)).
Proof. exact frugal_all. Qed.
Print Assumptions C104_bound_partial.
(** The length field is believed: a header, or an item header, that promises more than
    comes takes all that was promised, and the decode returns. *)
Theorem C104_packet_refuted : forall m d p p0 cmd n ses st c0 c1 o rest,
  fits 2 cmd -> fits 2 n -> fits 4 ses -> fits 4 st -> fits 4 c0 -> fits 4 c1 -> fits 4 o ->
  drop p d = header cmd n ses st c0 c1 o ++ rest -> len rest < n ->
  exists m' r pk, ep_deserialize m (RStr d p false) p0 = (Ret tt, m', r, pk) /\ heap_bytes m' = heap_bytes m + n.
Proof. exact ep_promise. Qed.
Print Assumptions C104_packet_refuted.
Theorem C104_item_refuted : forall m d p i0 ty n rest, fits 2 ty -> fits 2 n -> drop p d = le 2 ty ++ le 2 n ++ rest -> len rest < n ->
  exists m' r i, it_deserialize m (RStr d p false) i0 = (Ret tt, m', r, i) /\ heap_bytes m' = heap_bytes m + n.
Proof. exact it_promise. Qed.
Print Assumptions C104_item_refuted.
Example C104_example : frame_fits 0x65 1 0 0 0 0 ([x01; x02; x03]) /\ cpf_ok [(0, []); (0xB2, [x01; x02; x03])] /\ fits 2 65535 /\
  heap_bytes [Some [x01; x02]; None; Some ([x03])] = 3.
Proof. exact bytes_example. Qed.
