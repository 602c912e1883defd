(** * Scarce: decoding when memory cannot be had

    Any allocation of a decode may fail here: [new char[length]]
    (serializable_buffer.h:133), whose size the message decides; make_shared
    (src/encap_packet.cpp:66 and :90, src/cpf_item.cpp:77, src/message_router_response.cpp:70); and
    push_back (src/cpf_packet.cpp:65). std::bad_alloc is no length_error and no
    logic_error, so no handler of the library catches it; SystemError, which none of them
    catches either, stands for it. *)
From Verif Require Export Packets.

Definition bad_alloc {A} : outcome A := Throw SystemError "std::bad_alloc".
(** Whether [n] bytes can be had, a SerializableBuffer with its counter, one more place in a
    vector of items: whatever else the process has in memory, which the state of the decode
    does not determine, is a matter of these functions. *)
Record supply := mkSupply {
  su_bytes : heap -> reader -> N -> bool;
  su_object : heap -> reader -> bool;
  su_place : heap -> reader -> cpf_packet -> bool }.
Definition need {T} (ok : heap -> reader -> bool) : D T unit := fun m r t =>
  if ok m r then (Ret tt, m, r, t) else (bad_alloc, m, r, t).
(** serializable_buffer.h:118-139. *)
Definition sb_deserialize_len_o (su : supply) (n : N) : D sbuf unit :=
  isbuf <- rd_is_buffer ;;;
  if (isbuf : bool) then
    sb_delete ;;;
    v <- rd_view n ;;;
    dmod (fun s => mkSB v (sb_alloc s))
  else
    s <- dget ;;;
    (if n =? v_len (sb_data s) then dret tt
     else sb_delete ;;;
          need (fun m r => su_bytes su m r n) ;;;
          b <- d_alloc (zeros n) ;;;
          dmod (fun _ => mkSB (mkV b 0 n) (Some b))) ;;;
    s' <- dget ;;;
    rd_into (sb_data s').

(** EncapPacket::deserialize, src/encap_packet.cpp:61-75. The buffer object made at :66 owns
    nothing when its deserialize raises, so its end has no effect. *)
Definition ep_deserialize_o (su : supply) : D encap_packet unit :=
  dzoom ep_header ep_set_header hdr_deserialize ;;;
  p <- dget ;;;
  (if 0 <? h_length (ep_header p) then
     need (su_object su) ;;;
     sb <- dlocal sb_empty (sb_deserialize_len_o su (h_length (ep_header p))) ;;;
     dmod (ep_set_payload_field (Some (ser_of_sbuf sb)))
   else dmod (ep_set_payload_field None)).

(** deserialize(reader, length), src/encap_packet.cpp:77-98. *)
Definition ep_deserialize_len_o (su : supply) (n : N) : D encap_packet unit :=
  if n <? hdr_getLength then dthrow LengthError "Deserialization size less than header size"
  else
    dzoom ep_header ep_set_header hdr_deserialize ;;;
    p <- dget ;;;
    (if negb (n =? hdr_getLength + h_length (ep_header p))
     then dthrow LengthError "Packet length different than given to deserialize"
     else if 0 <? h_length (ep_header p) then
       need (su_object su) ;;;
       dmod (ep_set_payload_field (Some (ser_of_sbuf sb_empty))) ;;;
       sb <- dlocal sb_empty (sb_deserialize_len_o su (h_length (ep_header p))) ;;;
       dmod (ep_set_payload_field (Some (ser_of_sbuf sb)))
     else dmod (ep_set_payload_field None)).

(** CPFItem::deserializeData and deserialize, src/cpf_item.cpp:64-84. *)
Definition it_deserialize_o (su : supply) : D cpf_item unit :=
  rd_uint 2 it_type it_set_type ;;;
  n <- rd_local 2 ;;;
  (if 0 <? n then
     need (su_object su) ;;;
     dmod (it_set_data (Some (ser_of_sbuf sb_empty))) ;;;
     sb <- dlocal sb_empty (sb_deserialize_len_o su n) ;;;
     dmod (it_set_data (Some (ser_of_sbuf sb)))
   else dmod (it_set_data None)).
(** push_back, src/cpf_packet.cpp:65: without a place the local item goes with its data. *)
Definition push_o (su : supply) (i : cpf_item) : D cpf_packet unit := fun m r l =>
  if su_place su m r l then (Ret tt, m, r, l ++ [i]) else (d_drop (it_data i) ;;; d_outcome bad_alloc) m r l.
(** CPFPacket::deserialize, src/cpf_packet.cpp:56-68. *)
Fixpoint cpf_loop_o (su : supply) (n : nat) : D cpf_packet unit :=
  match n with
  | O => dret tt
  | S n' =>
      i <- dlocal it_null (it_deserialize_o su) ;;;
      push_o su i ;;;
      cpf_loop_o su n'
  end.
Definition cpf_deserialize_o (su : supply) : D cpf_packet unit :=
  dmod (fun _ => []) ;;;
  n <- rd_local 2 ;;;
  cpf_loop_o su (N.to_nat n).

(** MessageRouterResponse::readData and deserialize, src/message_router_response.cpp:52-74. *)
Definition ms_readData_o (su : supply) (n : N) : D mr_response (option ser) :=
  match positive_int n with
  | Some i => need (su_object su) ;;; sb <- dlocal sb_empty (sb_deserialize_len_o su i) ;;; dret (Some (ser_of_sbuf sb))
  | None => dret None
  end.
Definition ms_deserialize_len_o (su : supply) (n : N) : D mr_response unit :=
  rd_uint 1 ms_service ms_set_service ;;;
  rd_uint 1 ms_status ms_set_status ;;;
  rd_uint 1 ms_status ms_set_status ;;;
  al <- rd_local 1 ;;;
  a <- ms_readData_o su (2 * al) ;;;
  dmod (ms_set_additional a) ;;;
  c <- rd_count ;;;
  d <- ms_readData_o su (u64 (n + 18446744073709551616 - c)) ;;;
  dmod (ms_set_data d).
Definition ms_cls_o (su : supply) : cls mr_response :=
  mkCls (DLDirect (ms_deserialize_len_o su)) (dthrow LogicError "Must have size to deserialize") None.

(** The local CPFPacket of src/rr_data.cpp:54-55: when its decode raises it is destroyed
    with the items it has by then. *)
Definition cpf_scoped {T} (su : supply) : D T cpf_packet := fun m r t =>
  match cpf_deserialize_o su m r [] with
  | (Throw c s, m', r', pkt) => (d_drop_items pkt ;;; dthrow c s) m' r' t
  | (Ret _, m', r', pkt) => (Ret pkt, m', r', t)
  | (Undef u, m', r', _) => (Undef u, m', r', t)
  | (Stuck, m', r', _) => (Stuck, m', r', t)
  end.
(** RRData::deserialize, src/rr_data.cpp:50-82. *)
Definition rr_deserialize_o {X} (su : supply) (setData : cpf_item -> D (rr_data X) unit) : D (rr_data X) unit :=
  rd_uint 4 rr_iface rr_set_iface ;;;
  rd_uint 2 rr_timeout rr_set_timeout ;;;
  pkt <- cpf_scoped su ;;;
  dfinally
    (if cpf_getItemCount pkt <? 2 then dthrow LogicError "Not enough items in RR Data"
     else
       i0 <- d_at pkt 0 ;;;
       (if negb (it_type i0 =? EIP_ITEM_NULL) then dthrow LogicError "Address other than null in RR Data"
        else
          n0 <- d_outcome (it_getDataLength i0) ;;;
          (if negb (n0 =? 0) then dthrow LogicError "Data length greater than zero in null address type"
           else
             i1 <- d_at pkt 1 ;;;
             (if negb (it_type i1 =? EIP_ITEM_UNCONNECTED_MESSAGE)
              then dthrow LogicError "Unexpected data type in RR Data"
              else setData i1))))
    (d_drop_items pkt).
Definition rrs_deserialize_o (su : supply) : D (rr_data mr_response) unit :=
  rr_deserialize_o su (fun i => dzoom rr_ext rr_set_ext (it_getDataAs (ms_cls_o su) i)).
