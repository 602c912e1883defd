(** * Fresh2: unconnected replies read from streams, with the true contents of new memory *)
From Verif Require Export Fresh.

(** RRData::deserialize, src/rr_data.cpp:50-82, as [rr_deserialize] of Packets.v, with the
    items of the local CPFPacket read into memory that holds what [g] says. *)
Definition rr_deserialize_g {X} (g : garbage) (setData : cpf_item -> D (rr_data X) unit) : D (rr_data X) unit :=
  rd_uint 4 rr_iface rr_set_iface ;;;
  rd_uint 2 rr_timeout rr_set_timeout ;;;
  pkt <- dlocal [] (cpf_deserialize_g g) ;;;
  dfinally
    (if cpf_getItemCount pkt <? 2 then dthrow LogicError "Not enough items in RR Data"
     else
       i0 <- d_at pkt 0 ;;;
       (if negb (it_type i0 =? EIP_ITEM_NULL) then dthrow LogicError "Address other than null in RR Data"
        else
          n0 <- d_outcome (it_getDataLength i0) ;;;
          (if negb (n0 =? 0) then dthrow LogicError "Data length greater than zero in null address type"
           else
             i1 <- d_at pkt 1 ;;;
             (if negb (it_type i1 =? EIP_ITEM_UNCONNECTED_MESSAGE)
              then dthrow LogicError "Unexpected data type in RR Data"
              else setData i1))))
    (d_drop_items pkt).
(** RRDataResponse::setData, rr_data_response.h:130-133. *)
Definition rrs_deserialize_g (g : garbage) : D (rr_data mr_response) unit :=
  rr_deserialize_g g (fun i => dzoom rr_ext rr_set_ext (it_getDataAs ms_cls i)).
(** RRData itself: setData is empty, rr_data.h:116. *)
Definition rr_base_deserialize_g (g : garbage) : D (rr_data unit) unit := rr_deserialize_g g (fun _ => dret tt).
