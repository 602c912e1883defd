(** * StrictOut: encoding to a stream that raises

    A caller may switch exceptions on in the std::ostream it hands to StreamWriter
    ([exceptions(failbit | badbit)]; stream_writer.h:47-97 neither does nor undoes that).
    Then ostream::write that the sink does not take in full (:74, :83) raises
    std::ios_base::failure (cf. Strict.v).  Only streams with room for so many bytes ([WLim])
    can come to that; on the other writers the functions are those of Packets.v. *)
From Verif Require Export Strict.

(** What a call on a stream does, followed by the exception when it ended with the stream failed. *)
Definition w_raising (x : W) : W := fun m w =>
  match x m w with
  | (Ret _, m', WLim out room true) => (ios_failure, m', WLim out room true)
  | z => z
  end.
(** Writer::writeBytes, write<T> and writeBuffer: writer.h:50-53, stream_writer.h:72-75, :81-84. *)
Definition w_bytes_x (bs : list byte) : W := w_raising (w_bytes bs).
Definition w_uint_x (k : nat) (v : N) : W := w_raising (w_uint k v).
Definition w_view_x (v : view) : W := w_raising (w_view v).

(** SerializableBuffer::serialize, serializable_buffer.h:103-107; SerializablePrimitive::serialize,
    serializable_primitive.h:74-78. *)
Definition sb_serialize_x (s : sbuf) : W := w_view_x (sb_data s).
Definition prim_serialize_x (k : nat) (v : N) : W := w_uint_x k v.
(** EncapHeader::serialize, src/encap_header.cpp:35-44. *)
Definition hdr_serialize_x (h : encap_header) : W :=
  w_uint_x 2 (h_command h) ;;
  w_uint_x 2 (h_length h) ;;
  w_uint_x 4 (h_session h) ;;
  w_uint_x 4 (h_status h) ;;
  w_bytes_x (host_bytes 4 (h_ctx0 h) ++ host_bytes 4 (h_ctx1 h)) ;;
  w_uint_x 4 (h_options h).
(** [data->serialize(writer)] is a virtual call; [wr] says what it does on such a stream. *)
Definition w_opt_x (wr : ser -> W) (p : option ser) : W := match p with Some s => wr s | None => wret end.
(** EncapPacket::serialize, src/encap_packet.cpp:49-59. *)
Definition ep_serialize_x (wr : ser -> W) (p : encap_packet) : W :=
  hdr_serialize_x (ep_header p) ;; w_opt_x wr (ep_payload p).
(** CPFItem::serialize, src/cpf_item.cpp:37-45; CPFPacket::serialize, src/cpf_packet.cpp:46-54. *)
Definition it_serialize_x (wr : ser -> W) (i : cpf_item) : W :=
  w_uint_x 2 (it_type i) ;;
  w_with (it_getDataLength i) (fun n => w_uint_x 2 n) ;;
  w_opt_x wr (it_data i).
Fixpoint cpf_ser_items_x (wr : ser -> W) (p : cpf_packet) : W :=
  match p with
  | [] => wret
  | i :: p' => it_serialize_x wr i ;; cpf_ser_items_x wr p'
  end.
Definition cpf_serialize_x (wr : ser -> W) (p : cpf_packet) : W :=
  w_uint_x 2 (cpf_getItemCount p) ;; cpf_ser_items_x wr p.
(** Path::serialize, src/path.cpp:84-95 and path.h:137-141. *)
Definition path_serialize_pad_x (p : path) (pad : bool) : W :=
  w_uint_x 1 (u8 (len (p_buf p) / 2)) ;;
  (if pad then w_uint_x 1 0 else wret) ;;
  w_bytes_x (p_buf p).
Definition path_serialize_x (p : path) : W := path_serialize_pad_x p (p_pad p).
(** MessageRouterRequest::serialize, message_router_request.h:107-115. *)
Definition mq_serialize_x (wr : ser -> W) (q : mr_request) : W :=
  w_uint_x 1 (mq_service q) ;; path_serialize_x (mq_path q) ;; w_opt_x wr (mq_data q).
(** RRData::serialize, src/rr_data.cpp:39-48. *)
Definition rr_serialize_x {X} (wr : ser -> W) (data : outcome (option ser)) (r : rr_data X) : W :=
  w_uint_x 4 (rr_iface r) ;;
  w_uint_x 2 (rr_timeout r) ;;
  w_with data (fun d => cpf_serialize_x wr [it_null; it_make EIP_ITEM_UNCONNECTED_MESSAGE d]).
(** RegisterSessionData::serialize, register_session_data.h:69-74;
    SequencedAddressItem::serialize, sequenced_address_item.h:70-75. *)
Definition rg_serialize_x (g : reg_data) : W := w_uint_x 2 (rg_version g) ;; w_uint_x 2 (rg_options g).
Definition sa_serialize_x (a : seq_addr) : W := w_uint_x 4 (sa_connection a) ;; w_uint_x 4 (sa_sequence a).
(** IdentityItemData::serialize, src/identity_item_data.cpp:46-62. *)
Definition id_serialize_x (i : identity) : W :=
  w_uint_x 2 (id_version i) ;;
  w_bytes_x (id_sockaddr i) ;;
  w_uint_x 2 (id_vendor i) ;;
  w_uint_x 2 (id_device i) ;;
  w_uint_x 2 (id_product i) ;;
  w_bytes_x (id_revision i) ;;
  w_uint_x 2 (id_status i) ;;
  w_uint_x 4 (id_serial i) ;;
  w_uint_x 1 (u8 (len (id_name i))) ;;
  w_bytes_x (take (u8 (len (id_name i))) (id_name i)) ;;
  w_uint_x 1 (id_state i).
(** ForwardOpenRequest::serialize, forward_open_request.h:157-178; ForwardCloseRequest::serialize,
    forward_close_request.h:89-100. *)
Definition fo_serialize_x (f : fo_request) : W :=
  w_uint_x 1 (fo_tick_size f) ;;
  w_uint_x 1 (fo_ticks f) ;;
  w_uint_x 4 (fo_o2t_id f) ;;
  w_uint_x 4 (fo_t2o_id f) ;;
  w_uint_x 2 (fo_conn_sn f) ;;
  w_uint_x 2 (fo_vendor f) ;;
  w_uint_x 4 (fo_orig_sn f) ;;
  w_uint_x 1 (fo_multiplier f) ;;
  w_uint_x 1 0 ;;
  w_uint_x 1 0 ;;
  w_uint_x 1 0 ;;
  w_uint_x 4 (fo_o2t_rpi f) ;;
  w_uint_x 4 (fo_o2t_params f) ;;
  w_uint_x 4 (fo_t2o_rpi f) ;;
  w_uint_x 4 (fo_t2o_params f) ;;
  w_uint_x 1 (fo_conn_type f) ;;
  path_serialize_x (fo_path f).
Definition fc_serialize_x (f : fc_request) : W :=
  w_uint_x 1 (fc_tick_size f) ;;
  w_uint_x 1 (fc_ticks f) ;;
  w_uint_x 2 (fc_conn_sn f) ;;
  w_uint_x 2 (fc_vendor f) ;;
  w_uint_x 4 (fc_orig_sn f) ;;
  path_serialize_pad_x (fc_path f) true.
(** SequencedDataItem<T>::serialize, sequenced_data_item.h:71-75. *)
Definition sq_serialize_x (num : N) (base : W) : W := w_uint_x 2 num ;; base.
