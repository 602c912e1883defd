(** * Property C109, unconnected replies. Statements only; the proofs are in PFresh4.v. *)
From Verif Require Import Spec Vocab Fresh Fresh2 Vocab17 PFresh5 PWitness3 PWitness4.

(** ** C109 A decoded packet contains only bytes of the message: violated *)
(** A stream that ends inside the reply it promises: decoding succeeds whenever what was
    read, completed with what the new memory block held before, is a reply. Service and status
    of the result may all be old memory: [part] may be empty. *)
Theorem C109_reply_refuted : forall g m d p t i to n part sv rs st a q, sized g -> fits 4 i -> fits 2 to -> fits 2 n ->
  drop p d = le 4 i ++ le 2 to ++ le 2 2 ++ item (0, []) ++ le 2 0xB2 ++ le 2 n ++ part -> len part < n ->
  reply_ok sv rs st a -> part ++ drop (len part) (g_block g m n) = router_reply sv rs st a q ->
  exists m' r' t', rrs_deserialize_g g m (RStr d p false) t = (Ret tt, m', r', t') /\ rr_reply_dangles m' t' i to sv st a q.
Proof. exact reply_from_memory. Qed.
Print Assumptions C109_reply_refuted.
(** The same stream, over memory that held a good reply and over memory full of A5. *)
Example C109_example_reply : let d := le 4 0 ++ le 2 0 ++ le 2 2 ++ item (0, []) ++ le 2 0xB2 ++ le 2 6 in
  sized g_old /\ sized gA /\
  (exists m' r' t', rrs_deserialize_g g_old [] (RStr d 0 false) rrs_make = (Ret tt, m', r', t') /\ ms_service (rr_ext t') = 0x8E /\ ms_status (rr_ext t') = 0) /\
  (exists m' r' t', rrs_deserialize_g gA [] (RStr d 0 false) rrs_make = (Throw LengthError SHORT, m', r', t')).
Proof. exact (conj g_old_sized (conj gA_sized reply_example)). Qed.
(** When no read of the stream was cut short, the result does not depend on that memory.
    Missing: streams that end early. *)
Theorem C109_replies_partial : forall g m d p f x o m' r' x', sized g -> rrs_deserialize m (RStr d p f) x = (o, m', r', x') -> unfailed r' ->
  rrs_deserialize_g g m (RStr d p f) x = (o, m', r', x').
Proof. exact reply_filled. Qed.
Print Assumptions C109_replies_partial.
Theorem C109_rr_partial : forall g m d p f x o m' r' x', sized g -> c_des rr_base_cls m (RStr d p f) x = (o, m', r', x') -> unfailed r' ->
  rr_base_deserialize_g g m (RStr d p f) x = (o, m', r', x').
Proof. exact base_filled. Qed.
Print Assumptions C109_rr_partial.
Example C109_example_replies : let d := rr 3 5 [(0, []); (0xB2, router_reply 0x8E 0 0 [] [x01; x02])] in
  exists m1 p1, rrs_deserialize [] (RStr d 0 false) rrs_make = (Ret tt, m1, RStr d 22 false, p1) /\
    rrs_deserialize_g gA [] (RStr d 0 false) rrs_make = (Ret tt, m1, RStr d 22 false, p1) /\ ms_service (rr_ext p1) = 0x8E /\ m1 = [None].
Proof. exact replies_example. Qed.
Example C109_example_rr : let d := rr 3 5 [(0, []); (0xB2, [x01; x02])] in
  exists m1, c_des rr_base_cls [] (RStr d 0 false) (mkRR 0 0 tt) = (Ret tt, m1, RStr d 18 false, mkRR 3 5 tt) /\
    rr_base_deserialize_g gA [] (RStr d 0 false) (mkRR 0 0 tt) = (Ret tt, m1, RStr d 18 false, mkRR 3 5 tt).
Proof. exact rr_example. Qed.
(** Decoding from a buffer takes nothing from new memory, whatever the buffer holds. *)
Theorem C109_buffers : forall g m v c,
  (forall n t, sb_deserialize_len_g g n m (RBuf v c) t = sb_deserialize_len n m (RBuf v c) t) /\
  (forall t, ep_deserialize_g g m (RBuf v c) t = ep_deserialize m (RBuf v c) t) /\
  (forall t, cpf_deserialize_g g m (RBuf v c) t = cpf_deserialize m (RBuf v c) t) /\
  (forall t, rrs_deserialize_g g m (RBuf v c) t = rrs_deserialize m (RBuf v c) t) /\
  (forall t, rr_base_deserialize_g g m (RBuf v c) t = c_des rr_base_cls m (RBuf v c) t).
Proof. exact buffers_filled. Qed.
Print Assumptions C109_buffers.
(** An object that owned a block gives it up and refers to the buffer. *)
Example C109_example_buffer : sb_deserialize_len_g gA 2 [Some [x01; x02; x03]; Some [x07]] (RBuf (mkV 0 0 3) 0) (mkSB (mkV 1 0 1) (Some 1%nat))
  = (Ret tt, [Some [x01; x02; x03]; None], RBuf (mkV 0 2 1) 2, mkSB (mkV 0 0 2) None).
Proof. vm_compute. reflexivity. Qed.
(** A stream in which no read was cut short fills the object as it is filled over zeros. *)
Theorem C109_data_partial : forall g n m d p f s o m' r' s', sized g -> sb_deserialize_len n m (RStr d p f) s = (o, m', r', s') -> unfailed r' ->
  sb_deserialize_len_g g n m (RStr d p f) s = (o, m', r', s').
Proof. exact buffer_filled. Qed.
Print Assumptions C109_data_partial.
Example C109_example_data : sb_deserialize_len 2 [Some [x07]] (RStr [x01; x02; x03] 0 false) (mkSB (mkV 0 0 1) (Some 0%nat))
  = (Ret tt, [None; Some [x01; x02]], RStr [x01; x02; x03] 2 false, mkSB (mkV 1 0 2) (Some 1%nat)) /\ unfailed (RStr [x01; x02; x03] 2 false).
Proof. split; vm_compute; reflexivity. Qed.
