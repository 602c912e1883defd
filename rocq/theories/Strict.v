(** * Strict: decoding from a stream that raises

    A caller may switch exceptions on in the std::istream it hands to StreamReader
    ([exceptions(failbit | badbit)]; stream_reader.h:49-98 neither does nor undoes that).
    Then istream::read that comes short (:66, :76) and seekg to a place outside the data (:94)
    raise std::ios_base::failure once they have done what they do anyway. It is no length_error and
    no logic_error, so no handler of the library catches it; SystemError stands for it.
    BufferReader has no stream: the same functions on a buffer are those of Packets.v. *)
From Verif Require Export Packets.

Definition ios_failure {A} : outcome A := Throw SystemError "basic_ios::clear: iostream error".
(** What a call on a stream does, followed by the exception when it ended with failbit set. *)
Definition raising {T A} (x : D T A) : D T A := fun m r t =>
  match x m r t with
  | (Ret a, m', RStr d p true, t') => (ios_failure, m', RStr d p true, t')
  | z => z
  end.
(** Reader::readBytes, read<T>, readBuffer(mutable_buffer) and skip: reader.h:51-54,
    stream_reader.h:64-67, :74-77 and :92-95. *)
Definition rd_raw_x {T} (n : N) (get : T -> list byte) (set : list byte -> T -> T) : D T unit := raising (rd_raw n get set).
Definition rd_uint_x {T} (k : nat) (get : T -> N) (set : N -> T -> T) : D T unit := raising (rd_uint k get set).
Definition rd_into_x {T} (dst : view) : D T unit := raising (rd_into dst).
Definition rd_skip_x {T} (n : N) : D T unit := raising (rd_skip n).
(** read<T> into a local: what it holds is used only when all of it was read, so that it does
    not matter that it starts as 0 here. *)
Definition rd_local_x {T} (k : nat) : D T N := dlocal 0 (rd_uint_x k (fun v => v) (fun v _ => v)).
(** A local object, destroyed by [drop] when its decode raises. *)
Definition dscoped {T U} (u0 : U) (drop : U -> D T unit) (x : D U unit) : D T U := fun m r t =>
  match x m r u0 with
  | (Ret _, m', r', u) => (Ret u, m', r', t)
  | (Throw c s, m', r', u) => (drop u ;;; dthrow c s) m' r' t
  | (Undef e, m', r', _) => (Undef e, m', r', t)
  | (Stuck, m', r', _) => (Stuck, m', r', t)
  end.

(** SerializableBuffer, serializable_buffer.h:118-152. *)
Definition sb_deserialize_len_x (n : N) : D sbuf unit :=
  isbuf <- rd_is_buffer ;;;
  if (isbuf : bool) then
    sb_delete ;;;
    v <- rd_view n ;;;
    dmod (fun s => mkSB v (sb_alloc s))
  else
    s <- dget ;;;
    (if n =? v_len (sb_data s) then dret tt
     else sb_delete ;;;
          b <- d_alloc (zeros n) ;;;
          dmod (fun _ => mkSB (mkV b 0 n) (Some b))) ;;;
    s' <- dget ;;;
    rd_into_x (sb_data s').
Definition sb_deserialize_x : D sbuf unit := s <- dget ;;; rd_into_x (sb_data s).
(** [sb = make_shared<SerializableBuffer>(); sb->deserialize(reader, n)] with [sb] a local
    (src/encap_packet.cpp:66-67, src/message_router_response.cpp:70-71,
    forward_open_success.h:131-132, forward_close_success.h:119-120): unwinding destroys it. *)
Definition sb_scoped_x {T} (n : N) : D T sbuf :=
  dscoped sb_empty (fun sb => d_drop (Some (ser_of_sbuf sb))) (sb_deserialize_len_x n).
(** The same with a member (src/encap_packet.cpp:90-91, src/cpf_item.cpp:77-78): the object
    keeps what was read. *)
Definition sb_member_x {T} (put : option ser -> T -> T) (n : N) : D T unit :=
  dzoom (fun _ => sb_empty) (fun sb => put (Some (ser_of_sbuf sb))) (sb_deserialize_len_x n).

(** EncapHeader::deserialize, src/encap_header.cpp:46-55. *)
Definition hdr_deserialize_x : D encap_header unit :=
  rd_uint_x 2 h_command hdr_set_command ;;;
  rd_uint_x 2 h_length hdr_set_length ;;;
  rd_uint_x 4 h_session hdr_set_session ;;;
  rd_uint_x 4 h_status hdr_set_status ;;;
  rd_raw_x 8 (fun h => host_bytes 4 (h_ctx0 h) ++ host_bytes 4 (h_ctx1 h))
    (fun bs => hdr_set_context (host_value (take 4 bs)) (host_value (drop 4 bs))) ;;;
  rd_uint_x 4 h_options hdr_set_options.
(** EncapPacket::deserialize, src/encap_packet.cpp:61-75 and :77-98. *)
Definition ep_deserialize_x : D encap_packet unit :=
  dzoom ep_header ep_set_header hdr_deserialize_x ;;;
  p <- dget ;;;
  (if 0 <? h_length (ep_header p) then
     sb <- sb_scoped_x (h_length (ep_header p)) ;;;
     dmod (ep_set_payload_field (Some (ser_of_sbuf sb)))
   else dmod (ep_set_payload_field None)).
Definition ep_deserialize_len_x (n : N) : D encap_packet unit :=
  if n <? hdr_getLength then dthrow LengthError "Deserialization size less than header size"
  else
    dzoom ep_header ep_set_header hdr_deserialize_x ;;;
    p <- dget ;;;
    (if negb (n =? hdr_getLength + h_length (ep_header p))
     then dthrow LengthError "Packet length different than given to deserialize"
     else if 0 <? h_length (ep_header p) then sb_member_x ep_set_payload_field (h_length (ep_header p))
     else dmod (ep_set_payload_field None)).

(** CPFItem, src/cpf_item.cpp:47-84. *)
Definition it_deserializeData_x (n : N) : D cpf_item unit :=
  if 0 <? n then sb_member_x it_set_data n else dmod (it_set_data None).
Definition it_deserialize_x : D cpf_item unit :=
  rd_uint_x 2 it_type it_set_type ;;;
  n <- rd_local_x 2 ;;;
  it_deserializeData_x n.
Definition it_deserialize_len_x (l : N) : D cpf_item unit :=
  if l <? 4 then dthrow LengthError "Length given too small to parse CPF Item type and length"
  else
    rd_uint_x 2 it_type it_set_type ;;;
    n <- rd_local_x 2 ;;;
    (if l <? n + 4 then dthrow LengthError "Length given too small to parse CPF Item Data"
     else it_deserializeData_x n).
(** CPFPacket::deserialize, src/cpf_packet.cpp:56-68: the item is a local of the loop. *)
Fixpoint cpf_loop_x (n : nat) : D cpf_packet unit :=
  match n with
  | O => dret tt
  | S n' =>
      i <- dscoped it_null (fun i => d_drop (it_data i)) it_deserialize_x ;;;
      dmod (fun items => items ++ [i]) ;;;
      cpf_loop_x n'
  end.
Definition cpf_deserialize_x : D cpf_packet unit :=
  dmod (fun _ => []) ;;;
  n <- rd_local_x 2 ;;;
  cpf_loop_x (N.to_nat n).

(** MessageRouterResponse, src/message_router_response.cpp:52-74. *)
Definition ms_readData_x (n : N) : D mr_response (option ser) :=
  match positive_int n with
  | Some i => sb <- sb_scoped_x i ;;; dret (Some (ser_of_sbuf sb))
  | None => dret None
  end.
Definition ms_deserialize_len_x (n : N) : D mr_response unit :=
  rd_uint_x 1 ms_service ms_set_service ;;;
  rd_uint_x 1 ms_status ms_set_status ;;;
  rd_uint_x 1 ms_status ms_set_status ;;;
  al <- rd_local_x 1 ;;;
  a <- ms_readData_x (2 * al) ;;;
  dmod (ms_set_additional a) ;;;
  c <- rd_count ;;;
  d <- ms_readData_x (u64 (n + 18446744073709551616 - c)) ;;;
  dmod (ms_set_data d).

(** RRData::deserialize, src/rr_data.cpp:50-82; setData reads from memory, not from the
    stream, and is that of Packets.v. *)
Definition rr_deserialize_x {X} (setData : cpf_item -> D (rr_data X) unit) : D (rr_data X) unit :=
  rd_uint_x 4 rr_iface rr_set_iface ;;;
  rd_uint_x 2 rr_timeout rr_set_timeout ;;;
  pkt <- dscoped [] d_drop_items cpf_deserialize_x ;;;
  dfinally
    (if cpf_getItemCount pkt <? 2 then dthrow LogicError "Not enough items in RR Data"
     else
       i0 <- d_at pkt 0 ;;;
       (if negb (it_type i0 =? EIP_ITEM_NULL) then dthrow LogicError "Address other than null in RR Data"
        else
          n0 <- d_outcome (it_getDataLength i0) ;;;
          (if negb (n0 =? 0) then dthrow LogicError "Data length greater than zero in null address type"
           else
             i1 <- d_at pkt 1 ;;;
             (if negb (it_type i1 =? EIP_ITEM_UNCONNECTED_MESSAGE)
              then dthrow LogicError "Unexpected data type in RR Data"
              else setData i1))))
    (d_drop_items pkt).
Definition rrs_deserialize_x : D (rr_data mr_response) unit :=
  rr_deserialize_x (fun i => dzoom rr_ext rr_set_ext (it_getDataAs ms_cls i)).

(** RegisterSessionData, register_session_data.h:79-97; SequencedAddressItem,
    sequenced_address_item.h:80-97; SerializablePrimitive, serializable_primitive.h:88-105. *)
Definition rg_deserialize_x : D reg_data unit :=
  rd_uint_x 2 rg_version (fun v g => mkReg v (rg_options g)) ;;;
  rd_uint_x 2 rg_options (fun v g => mkReg (rg_version g) v).
Definition sa_deserialize_x : D seq_addr unit :=
  rd_uint_x 4 sa_connection (fun v a => mkSA v (sa_sequence a)) ;;;
  rd_uint_x 4 sa_sequence (fun v a => mkSA (sa_connection a) v).
Definition prim_des_x (k : nat) : D N unit := rd_uint_x k (fun t => t) (fun v _ => v).
(** IdentityItemData::deserialize, src/identity_item_data.cpp:64-81. *)
Definition rd_name_x (n : N) : D identity unit := raising (rd_name n).
Definition id_deserialize_x : D identity unit :=
  rd_uint_x 2 id_version id_set_version ;;;
  rd_raw_x 16 id_sockaddr id_set_sockaddr ;;;
  rd_uint_x 2 id_vendor id_set_vendor ;;;
  rd_uint_x 2 id_device id_set_device ;;;
  rd_uint_x 2 id_product id_set_product ;;;
  rd_raw_x 2 id_revision id_set_revision ;;;
  rd_uint_x 2 id_status id_set_status ;;;
  rd_uint_x 4 id_serial id_set_serial ;;;
  n <- rd_local_x 1 ;;;
  dmod (fun i => id_set_name (resize n (id_name i)) i) ;;;
  rd_name_x n ;;;
  rd_uint_x 1 id_state id_set_state.
(** ForwardOpenSuccess::deserialize, forward_open_success.h:117-140;
    ForwardCloseSuccess::deserialize, forward_close_success.h:109-128. *)
Definition fs_deserialize_x : D fo_success unit :=
  rd_uint_x 4 fs_o2t_id fs_set_o2t_id ;;;
  rd_uint_x 4 fs_t2o_id fs_set_t2o_id ;;;
  rd_uint_x 2 fs_conn_sn fs_set_conn_sn ;;;
  rd_uint_x 2 fs_vendor fs_set_vendor ;;;
  rd_uint_x 4 fs_orig_sn fs_set_orig_sn ;;;
  rd_uint_x 4 fs_o2t_api fs_set_o2t_api ;;;
  rd_uint_x 4 fs_t2o_api fs_set_t2o_api ;;;
  n <- rd_local_x 1 ;;;
  rd_skip_x 1 ;;;
  (if 0 <? n then
     sb <- sb_scoped_x (n * 2) ;;;
     dmod (fs_set_data (Some (ser_of_sbuf sb)))
   else dmod (fs_set_data None)).
Definition cs_deserialize_x : D fc_success unit :=
  rd_uint_x 2 cs_conn_sn (fun v f => mkFCS v (cs_vendor f) (cs_orig_sn f) (cs_data f)) ;;;
  rd_uint_x 2 cs_vendor (fun v f => mkFCS (cs_conn_sn f) v (cs_orig_sn f) (cs_data f)) ;;;
  rd_uint_x 4 cs_orig_sn (fun v f => mkFCS (cs_conn_sn f) (cs_vendor f) v (cs_data f)) ;;;
  n <- rd_local_x 1 ;;;
  rd_skip_x 1 ;;;
  (if 0 <? n then
     sb <- sb_scoped_x (n * 2) ;;;
     dmod (fun f => mkFCS (cs_conn_sn f) (cs_vendor f) (cs_orig_sn f) (Some (ser_of_sbuf sb)))
   else dmod (fun f => mkFCS (cs_conn_sn f) (cs_vendor f) (cs_orig_sn f) None)).

(** SequencedDataItem<T>::deserialize, sequenced_data_item.h:80-104, over the T part [x]
    (deserialize(reader) of T, or deserialize(reader, length - 2) of a T with one of its own):
    the exception leaves the object marked as busy. *)
Definition sq_deserialize_x {T} (x : D T unit) : D (seqitem T) unit :=
  q <- dget ;;;
  if sq_busy q then on_base x
  else
    rd_uint_x 2 sq_num sq_put_num ;;;
    dmod (sq_put_busy true) ;;;
    on_base x ;;;
    dmod (sq_put_busy false).
