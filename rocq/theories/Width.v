(** * Width: hosts whose size_t is narrower

    The rest of the model is of a host with 64 bit size_t ([u64], Base.v).  Here size_t has [z] values
    (2^32, 2^64): unsigned arithmetic is modulo [z].  What computes with size_t beyond moving within
    a buffer: the sums in getLength, [length - getByteCount()] in the decoding of replies,
    [length - sizeof(sequence_num)] in sequenced items. *)
From Verif Require Export Session.
Local Open Scope N_scope.

Definition sz (z n : N) : N := n mod z.
(** a - b *)
Definition sz_sub (z a b : N) : N := (sz z a + (z - sz z b)) mod z.
Definition olen_z (z : N) (o : outcome N) : outcome N := obind o (fun n => Ret (sz z n)).

(** An object as code on that host sees it: getLength() returns a size_t (serializable.h:45). *)
Definition host_ser (z : N) (s : ser) : ser := mkSer (olen_z z (s_length s)) (s_serialize s) (s_sbuf s).
(** [p ? p->getLength() : 0] *)
Definition opt_length_z (z : N) (p : option ser) : outcome N := match p with Some s => olen_z z (s_length s) | None => Ret 0 end.
(** encap_packet.h:112-120. *)
Definition ep_getLength_z (z : N) (p : encap_packet) : outcome N :=
  obind (opt_length_z z (ep_payload p)) (fun n => Ret (sz z (hdr_getLength + n))).
(** cpf_item.h:111-114 (to EIP_UINT), :121-124; src/cpf_packet.cpp:35-44. *)
Definition it_getDataLength_z (z : N) (i : cpf_item) : outcome N := obind (opt_length_z z (it_data i)) (fun n => Ret (u16 n)).
Definition it_getLength_z (z : N) (i : cpf_item) : outcome N := obind (it_getDataLength_z z i) (fun n => Ret (sz z (4 + n))).
Definition cpf_getLength_z (z : N) (p : cpf_packet) : outcome N :=
  fold_left (fun acc i => obind acc (fun l => obind (it_getLength_z z i) (fun n => Ret (sz z (l + n))))) p (Ret (sz z 2)).
(** message_router_request.h:91-99; src/message_router_response.cpp:37-50; rr_data.h:67-75. *)
Definition mq_getLength_z (z : N) (q : mr_request) : outcome N :=
  obind (opt_length_z z (mq_data q)) (fun n => Ret (sz z (sz z (1 + path_getLength (mq_path q)) + n))).
Definition ms_getLength_z (z : N) (s : mr_response) : outcome N :=
  obind (opt_length_z z (ms_additional s)) (fun a =>
  obind (opt_length_z z (ms_data s)) (fun d => Ret (sz z (sz z (4 + a) + d)))).
Definition rr_getLength_z (z : N) (data : outcome (option ser)) : outcome N :=
  obind data (fun d => obind (opt_length_z z d) (fun n => Ret (sz z (4 + 2 + 5 * 2 + n)))).
(** sequenced_data_item.h:60-63. *)
Definition sq_getLength_z (z : N) (base : ser) : outcome N := obind (olen_z z (s_length base)) (fun n => Ret (sz z (2 + n))).

(** getByteCount, stream_reader.h:83-86: tellg of a failed stream is -1, converted to size_t. *)
Definition rd_count_z {T} (z : N) : D T N := fun m r t =>
  match r with
  | RBuf _ c => (Ret (sz z c), m, r, t)
  | RStr _ p f => (Ret (if f then z - 1 else sz z p), m, r, t)
  end.
(** deserialize(reader, length), src/message_router_response.cpp:52-63; the difference becomes an
    [int] (:61, :65), which is 32 bits wide on both hosts. *)
Definition ms_deserialize_len_z (z n : N) : D mr_response unit :=
  rd_uint 1 ms_service ms_set_service ;;;
  rd_uint 1 ms_status ms_set_status ;;;
  rd_uint 1 ms_status ms_set_status ;;;
  al <- rd_local 1 ;;;
  a <- ms_readData (2 * al) ;;;
  dmod (ms_set_additional a) ;;;
  c <- rd_count_z z ;;;
  d <- ms_readData (sz_sub z n c) ;;;
  dmod (ms_set_data d).
(** deserialize(reader, length), sequenced_data_item.h:80-88. *)
Definition sq_deserialize_len_z {T} (z : N) (c : cls T) (n : N) : D (seqitem T) unit :=
  q <- dget ;;;
  if sq_busy q then sq_base_deslen c (sz_sub z n 2)
  else
    rd_uint 2 sq_num sq_put_num ;;;
    dmod (sq_put_busy true) ;;;
    sq_base_deslen c (sz_sub z n 2) ;;;
    dmod (sq_put_busy false).
