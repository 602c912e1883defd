(** * C136: Nothing depends on the width of size_t.  Statements only; the proofs are in PWidth.v. *)
From Verif Require Import Vocab39 PWidth.
Local Open Scope N_scope.

(** What getLength returns is the length modulo 2^(width); the length that an item writes is the
    same on every host. *)
Theorem C136_lengths : forall z, word z ->
  (forall p, same_length z (ep_getLength_z z p) (ep_getLength p)) /\
  (forall i, it_getDataLength_z z i = it_getDataLength i /\ it_getLength_z z i = it_getLength i) /\
  (forall p, same_length z (cpf_getLength_z z p) (cpf_getLength p)) /\
  (forall q, same_length z (mq_getLength_z z q) (mq_getLength q)) /\
  (forall q, same_length z (ms_getLength_z z q) (ms_getLength q)) /\
  (forall d, same_length z (rr_getLength_z z d) (rr_getLength d)) /\
  (forall num b, same_length z (sq_getLength_z z b) (s_length (sq_ser num b))).
Proof.
  exact (fun z W => conj (fun p => ep_len_z z p W) (conj (fun i => conj (it_data_z z i W) (it_len_z z i W)) (conj (fun p => cpf_len_z z p W)
    (conj (fun q => mq_len_z z q W) (conj (fun q => ms_len_z z q W) (conj (fun d => rr_len_z z d W) (fun num b => sq_len_z z num b W))))))).
Qed.
Print Assumptions C136_lengths.
(** 2^32 + 10 bytes of data. *)
Example C136_lengths_example : let s := mkSer (Ret 4294967306) wret None in let i := it_make 0xB2 (Some s) in
  word 4294967296 /\ word 18446744073709551616 /\ it_getDataLength_z 4294967296 i = Ret 10 /\ it_getDataLength i = Ret 10 /\
  ep_getLength_z 4294967296 (mkEP (ep_header (ep_make0 0 0)) (Some s)) = Ret 34.
Proof. cbv zeta. split; [exists 1; split; [reflexivity|lia]|]. split; [exists 4294967296; split; [reflexivity|lia]|]. repeat split; reflexivity. Qed.

(** A reply is decoded alike: the same outcome, memory, reader and object; told any length, from any
    buffer or stream in the host's memory, also one that failed. *)
Theorem C136_reply : forall z n, word z -> forall m r t, in_memory z r -> ms_deserialize_len_z z n m r t = ms_deserialize_len n m r t.
Proof. exact reply_z. Qed.
Print Assumptions C136_reply.
(** Told fewer bytes than were read: the difference is negative, on both hosts no data. *)
Example C136_reply_example : let d := [x0e; x00; x00; x01; x05; x06; x07] in
  in_memory 4294967296 (RStr d 0 false) /\
  (exists m r t, ms_deserialize_len_z 4294967296 5 [] (RStr d 0 false) (mkMRR 0 0 None None) = (Ret tt, m, r, t) /\ ms_data t = None /\ r = RStr d 6 false) /\
  exists m r t, ms_deserialize_len_z 4294967296 7 [] (RStr d 0 false) (mkMRR 0 0 None None) = (Ret tt, m, r, t) /\ ms_data t <> None /\ r = RStr d 7 false.
Proof.
  split; [split; reflexivity|]. split; do 3 eexists; (split; [vm_compute; reflexivity|]); (split; [|reflexivity]); [reflexivity|discriminate].
Qed.

(** A sequenced item of any class told at least two bytes. *)
Theorem C136_sequenced : forall T z (c : cls T) n m r q, word z -> 2 <= n -> n < z -> sq_deserialize_len_z z c n m r q = sq_deserialize_len c n m r q.
Proof. exact (@seq_long). Qed.
Print Assumptions C136_sequenced.
(** Told less, what the base class is told is a huge number that differs: from a buffer raw data is
    refused alike, and a class that reads itself from the stream without using the length, or
    compares it with its own, does the same. *)
Theorem C136_short_raw : forall z n m v k q, word z -> n < 2 -> v_len v < z - 2 ->
  sq_deserialize_len_z z sbuf_cls n m (RBuf v k) q = sq_deserialize_len sbuf_cls n m (RBuf v k) q.
Proof. exact seq_raw. Qed.
Print Assumptions C136_short_raw.
Theorem C136_short_checked : forall T z (c : cls T) n m r q, word z -> n < 2 -> checks_real z c -> sq_deserialize_len_z z c n m r q = sq_deserialize_len c n m r q.
Proof. exact (@seq_real). Qed.
Print Assumptions C136_short_checked.
Example C136_short_example : let m := [Some [x01; x02; x03]] in
  checks_real 4294967296 (prim_cls 2) /\
  (exists q, sq_deserialize_len_z 4294967296 sbuf_cls 1 m (RBuf (mkV 0 0 3) 0) (sq_make sb_empty 0)
     = (Throw LengthError "Buffer too small to deserialize value", m, RBuf (mkV 0 2 1) 2, q) /\ sq_num q = 513)%string /\
  sq_deserialize_len_z 4294967296 sbuf_cls 3 m (RBuf (mkV 0 0 3) 0) (sq_make sb_empty 0) = (Ret tt, m, RBuf (mkV 0 3 0) 3, mkSeq (mkSB (mkV 0 2 1) None) 513 false).
Proof. split; [intros k a b _ _; reflexivity|]. split; [eexists; split; vm_compute; reflexivity|vm_compute; reflexivity]. Qed.

(** Sending: a message whose length a size_t can hold goes out as on any host.  One that is longer
    (many items may share one payload) is refused: nothing is sent, nothing is written outside the
    buffer, the session is as it was. *)
Theorem C136_send : forall z i s bs w, word z -> carries (w_mem w) s bs ->
  (len bs < z -> sock_send_ser i (host_ser z s) w = sock_send_ser i s w) /\
  (z <= len bs -> exists e w', sock_send_ser i (host_ser z s) w = (Throw LengthError e, w') /\ w_net w' = w_net w /\ w_se w' = w_se w /\ hext (w_mem w) (w_mem w')).
Proof. exact send_z. Qed.
Print Assumptions C136_send.
(** The same for the copy that typed extraction makes. *)
Theorem C136_copy : forall T z (c : cls T) s bs m t, word z -> carries m s bs ->
  (len bs < z -> copy_serializable c (host_ser z s) m t = copy_serializable c s m t) /\
  (z <= len bs -> s_sbuf s = None -> c_sb c = None -> exists e m', copy_serializable c (host_ser z s) m t = (Throw LengthError e, m', t) /\ hext m m').
Proof. exact (@copy_z). Qed.
Print Assumptions C136_copy.
Example C136_send_example : forall m, exists bs, carries m (mkSer (Ret 4294967300) (w_bytes (zeros 4294967300)) None) bs /\ 4294967296 <= len bs.
Proof.
  intros m. exists (zeros 4294967300). rewrite len_zeros. split; [|apply N.leb_le; reflexivity]. split; [rewrite len_zeros; reflexivity|apply writes_bytes].
Qed.
