(** * Packets: the message classes of the library. *)
From Verif Require Export Serial.

Definition obind {A B} (x : outcome A) (f : A -> outcome B) : outcome B :=
  match x with
  | Ret a => f a
  | Throw c s => Throw c s
  | Undef u => Undef u
  | Stuck => Stuck
  end.
(** Use a computed value in a serialization action. *)
Definition w_with {A} (x : outcome A) (f : A -> W) : W := fun m w =>
  match x with
  | Ret a => f a m w
  | Throw c s => (Throw c s, m, w)
  | Undef u => (Undef u, m, w)
  | Stuck => (Stuck, m, w)
  end.
(** [if (p) p->serialize(writer);] *)
Definition w_opt (p : option ser) : W :=
  match p with Some s => s_serialize s | None => wret end.
(** [p ? p->getLength() : 0] *)
Definition opt_length (p : option ser) : outcome N :=
  match p with Some s => s_length s | None => Ret 0 end.
(** copy_serializable( *p, dst ): dereferences the shared_ptr first. *)
Definition d_copy {U} (c : cls U) (p : option ser) : D U unit := fun m r t =>
  match p with
  | None => (Undef NullDeref, m, r, t)
  | Some s => match copy_serializable c s m t with (o, m', t') => (o, m', r, t') end
  end.

(** ** EncapHeader (encap_header.h, src/encap_header.cpp) *)
Record encap_header := mkHdr {
  h_command : N; h_length : N; h_session : N; h_status : N;
  h_ctx0 : N; h_ctx1 : N; h_options : N }.

(** Constructor, encap_header.h:57-62. *)
Definition hdr_make (cmd handle : N) : encap_header := mkHdr (u16 cmd) 0 (u32 handle) 0 0 0 0.

Definition hdr_set_command v h := mkHdr v (h_length h) (h_session h) (h_status h) (h_ctx0 h) (h_ctx1 h) (h_options h).
Definition hdr_set_length v h := mkHdr (h_command h) v (h_session h) (h_status h) (h_ctx0 h) (h_ctx1 h) (h_options h).
Definition hdr_set_session v h := mkHdr (h_command h) (h_length h) v (h_status h) (h_ctx0 h) (h_ctx1 h) (h_options h).
Definition hdr_set_status v h := mkHdr (h_command h) (h_length h) (h_session h) v (h_ctx0 h) (h_ctx1 h) (h_options h).
Definition hdr_set_context c0 c1 h := mkHdr (h_command h) (h_length h) (h_session h) (h_status h) c0 c1 (h_options h).
Definition hdr_set_options v h := mkHdr (h_command h) (h_length h) (h_session h) (h_status h) (h_ctx0 h) (h_ctx1 h) v.

(** getLength, encap_header.h:68-71. *)
Definition hdr_getLength : N := 24.

(** serialize, src/encap_header.cpp:35-44; [context] is one 8-byte array. *)
Definition hdr_serialize (h : encap_header) : W :=
  w_uint 2 (h_command h) ;;
  w_uint 2 (h_length h) ;;
  w_uint 4 (h_session h) ;;
  w_uint 4 (h_status h) ;;
  w_bytes (host_bytes 4 (h_ctx0 h) ++ host_bytes 4 (h_ctx1 h)) ;;
  w_uint 4 (h_options h).

(** deserialize(reader), src/encap_header.cpp:46-55. *)
Definition hdr_deserialize : D encap_header unit :=
  rd_uint 2 h_command hdr_set_command ;;;
  rd_uint 2 h_length hdr_set_length ;;;
  rd_uint 4 h_session hdr_set_session ;;;
  rd_uint 4 h_status hdr_set_status ;;;
  rd_raw 8 (fun h => host_bytes 4 (h_ctx0 h) ++ host_bytes 4 (h_ctx1 h))
           (fun bs => hdr_set_context (host_value (take 4 bs)) (host_value (drop 4 bs))) ;;;
  rd_uint 4 h_options hdr_set_options.

(** deserialize(reader, length), encap_header.h:89-97. *)
Definition hdr_check (k n : N) : option (exn_class * string) :=
  if hdr_getLength + k =? n then None
  else Some (LengthError, "Invalid length given for encapsulation packet header"%string).
Definition hdr_cls : cls encap_header := mkCls (DLVirtual hdr_check) hdr_deserialize None.
Definition hdr_ser (h : encap_header) : ser := mkSer (Ret hdr_getLength) (hdr_serialize h) None.

(** ** EncapPacket (encap_packet.h, src/encap_packet.cpp) *)
Record encap_packet := mkEP { ep_header : encap_header; ep_payload : option ser }.
Definition ep_set_header h p := mkEP h (ep_payload p).
Definition ep_set_payload_field d p := mkEP (ep_header p) d.

(** updateLength, encap_packet.h:126-129: size_t to EIP_UINT. *)
Definition ep_updateLength (p : encap_packet) : outcome encap_packet :=
  obind (opt_length (ep_payload p)) (fun n =>
  Ret (ep_set_header (hdr_set_length (u16 n) (ep_header p)) p)).

(** Constructors, encap_packet.h:57-58 and :66-71. *)
Definition ep_make0 (cmd handle : N) : encap_packet := mkEP (hdr_make cmd handle) None.
Definition ep_make (cmd handle : N) (payload : option ser) : outcome encap_packet :=
  ep_updateLength (mkEP (hdr_make cmd handle) payload).

(** setPayload, encap_packet.h:96-100. *)
Definition ep_setPayload (d : option ser) (p : encap_packet) : outcome encap_packet :=
  ep_updateLength (ep_set_payload_field d p).

(** getLength, encap_packet.h:112-120. *)
Definition ep_getLength (p : encap_packet) : outcome N :=
  obind (opt_length (ep_payload p)) (fun n => Ret (hdr_getLength + n)).

(** serialize, src/encap_packet.cpp:49-59. *)
Definition ep_serialize (p : encap_packet) : W :=
  hdr_serialize (ep_header p) ;; w_opt (ep_payload p).

Definition ep_ser (p : encap_packet) : ser := mkSer (ep_getLength p) (ep_serialize p) None.

(** deserialize(reader), src/encap_packet.cpp:61-75. *)
Definition ep_deserialize : D encap_packet unit :=
  dzoom ep_header ep_set_header hdr_deserialize ;;;
  p <- dget ;;;
  (if 0 <? h_length (ep_header p) then
     sb <- dlocal sb_empty (sb_deserialize_len (h_length (ep_header p))) ;;;
     dmod (ep_set_payload_field (Some (ser_of_sbuf sb)))
   else dmod (ep_set_payload_field None)).

(** deserialize(reader, length), src/encap_packet.cpp:77-98. The payload pointer is
    assigned before the payload is read (:90-91). *)
Definition ep_deserialize_len (n : N) : D encap_packet unit :=
  if n <? hdr_getLength then dthrow LengthError "Deserialization size less than header size"
  else
    dzoom ep_header ep_set_header hdr_deserialize ;;;
    p <- dget ;;;
    (if negb (n =? hdr_getLength + h_length (ep_header p))
     then dthrow LengthError "Packet length different than given to deserialize"
     else if 0 <? h_length (ep_header p) then
       dmod (ep_set_payload_field (Some (ser_of_sbuf sb_empty))) ;;;
       sb <- dlocal sb_empty (sb_deserialize_len (h_length (ep_header p))) ;;;
       dmod (ep_set_payload_field (Some (ser_of_sbuf sb)))
     else dmod (ep_set_payload_field None)).

Definition ep_cls : cls encap_packet := mkCls (DLDirect ep_deserialize_len) ep_deserialize None.

(** getPayloadAs, src/encap_packet.cpp:44-47. *)
Definition ep_getPayloadAs {U} (c : cls U) (p : encap_packet) : D U unit := d_copy c (ep_payload p).

(** ** CPFItem (cpf_item.h, src/cpf_item.cpp) *)
Record cpf_item := mkItem { it_type : N; it_data : option ser }.
Definition it_set_type v i := mkItem v (it_data i).
Definition it_set_data d i := mkItem (it_type i) d.

(** EIP_ITEM_T, eip_types.h:84-95. *)
Definition EIP_ITEM_NULL := 0.
Definition EIP_ITEM_LIST_IDENTITY_RESPONSE := 0x000C.
Definition EIP_ITEM_UNCONNECTED_MESSAGE := 0x00B2.

(** Constructors, cpf_item.h:56 and :63-64. *)
Definition it_null : cpf_item := mkItem EIP_ITEM_NULL None.
Definition it_make (ty : N) (d : option ser) : cpf_item := mkItem (u16 ty) d.

(** getDataLength, cpf_item.h:111-114: size_t to EIP_UINT. *)
Definition it_getDataLength (i : cpf_item) : outcome N :=
  obind (opt_length (it_data i)) (fun n => Ret (u16 n)).
(** getLength, cpf_item.h:121-124. *)
Definition it_getLength (i : cpf_item) : outcome N :=
  obind (it_getDataLength i) (fun n => Ret (4 + n)).

(** serialize, src/cpf_item.cpp:37-45. *)
Definition it_serialize (i : cpf_item) : W :=
  w_uint 2 (it_type i) ;;
  w_with (it_getDataLength i) (fun n => w_uint 2 n) ;;
  w_opt (it_data i).
Definition it_ser (i : cpf_item) : ser := mkSer (it_getLength i) (it_serialize i) None.

(** deserializeData, src/cpf_item.cpp:73-84. *)
Definition it_deserializeData (n : N) : D cpf_item unit :=
  if 0 <? n then
    dmod (it_set_data (Some (ser_of_sbuf sb_empty))) ;;;
    sb <- dlocal sb_empty (sb_deserialize_len n) ;;;
    dmod (it_set_data (Some (ser_of_sbuf sb)))
  else dmod (it_set_data None).

(** deserialize(reader), src/cpf_item.cpp:64-71. *)
Definition it_deserialize : D cpf_item unit :=
  rd_uint 2 it_type it_set_type ;;;
  n <- rd_local 2 ;;;
  it_deserializeData n.

(** deserialize(reader, length), src/cpf_item.cpp:47-62. *)
Definition it_deserialize_len (l : N) : D cpf_item unit :=
  if l <? 4 then dthrow LengthError "Length given too small to parse CPF Item type and length"
  else
    rd_uint 2 it_type it_set_type ;;;
    n <- rd_local 2 ;;;
    (if l <? n + 4 then dthrow LengthError "Length given too small to parse CPF Item Data"
     else it_deserializeData n).

Definition it_cls : cls cpf_item := mkCls (DLDirect it_deserialize_len) it_deserialize None.

(** getDataAs, src/cpf_item.cpp:86-89. *)
Definition it_getDataAs {U} (c : cls U) (i : cpf_item) : D U unit := d_copy c (it_data i).

(** ** CPFPacket (cpf_packet.h, src/cpf_packet.cpp): the item vector. *)
Definition cpf_packet := list cpf_item.

(** getItemCount, cpf_packet.h:57-60: size_t to EIP_UINT. *)
Definition cpf_getItemCount (p : cpf_packet) : N := u16 (len p).

(** getLength, src/cpf_packet.cpp:35-44. *)
Definition cpf_getLength (p : cpf_packet) : outcome N :=
  fold_left (fun acc i => obind acc (fun l => obind (it_getLength i) (fun n => Ret (l + n)))) p (Ret 2).

(** serialize, src/cpf_packet.cpp:46-54. *)
Fixpoint cpf_ser_items (p : cpf_packet) : W :=
  match p with
  | [] => wret
  | i :: p' => it_serialize i ;; cpf_ser_items p'
  end.
Definition cpf_serialize (p : cpf_packet) : W :=
  w_uint 2 (cpf_getItemCount p) ;; cpf_ser_items p.
Definition cpf_ser (p : cpf_packet) : ser := mkSer (cpf_getLength p) (cpf_serialize p) None.

(** deserialize(reader), src/cpf_packet.cpp:56-68. *)
Fixpoint cpf_loop (n : nat) : D cpf_packet unit :=
  match n with
  | O => dret tt
  | S n' =>
      i <- dlocal it_null it_deserialize ;;;
      dmod (fun items => items ++ [i]) ;;;
      cpf_loop n'
  end.
Definition cpf_deserialize : D cpf_packet unit :=
  dmod (fun _ => []) ;;;
  n <- rd_local 2 ;;;
  cpf_loop (N.to_nat n).

(** deserialize(reader, length), cpf_packet.h:89-93. *)
Definition cpf_cls : cls cpf_packet := mkCls (DLVirtual no_check) cpf_deserialize None.

(** ** Path (path.h, src/path.cpp) *)
Record path := mkPath { p_pad : bool; p_buf : list byte }.

(** Path(bool), src/path.cpp:32-35. *)
Definition path_empty (pad : bool) : path := mkPath pad [].
(** addSegment, src/path.cpp:53-57 (arguments are EIP_USINT). *)
Definition path_addSegment (type data : N) (p : path) : path :=
  mkPath (p_pad p) (p_buf p ++ [byte_of type] ++ [byte_of data]).
(** src/path.cpp:59-77. *)
Definition path_addLogicalClass (id : N) := path_addSegment 0x20 id.
Definition path_addLogicalInstance (id : N) := path_addSegment 0x24 id.
Definition path_addLogicalAttribute (id : N) := path_addSegment 0x30 id.
Definition path_addLogicalConnectionPoint (id : N) := path_addSegment 0x2C id.
(** reset, path.h:120-123; setPadAfterLength, path.h:88-91. *)
Definition path_reset (p : path) : path := mkPath (p_pad p) [].
Definition path_setPad (pad : bool) (p : path) : path := mkPath pad (p_buf p).
(** Path(class, instance, attribute, pad), src/path.cpp:37-44. *)
Definition path_cia (c i a : N) (pad : bool) : path :=
  path_addLogicalAttribute a (path_addLogicalInstance i (path_addLogicalClass c (path_empty pad))).
(** Path(class, instance), src/path.cpp:46-51. *)
Definition path_ci (c i : N) : path :=
  path_addLogicalInstance i (path_addLogicalClass c (path_empty false)).
(** getLength, src/path.cpp:79-82. *)
Definition path_getLength (p : path) : N :=
  1 + len (p_buf p) * 1 + (if p_pad p then 1 else 0).
(** serialize(writer, pad), src/path.cpp:84-95. *)
Definition path_serialize_pad (p : path) (pad : bool) : W :=
  w_uint 1 (u8 (len (p_buf p) / 2)) ;;
  (if pad then w_uint 1 0 else wret) ;;
  w_bytes (p_buf p).
(** serialize(writer), path.h:137-141. *)
Definition path_serialize (p : path) : W := path_serialize_pad p (p_pad p).

(** ** MessageRouterRequest (message_router_request.h) *)
Record mr_request := mkMRQ { mq_service : N; mq_path : path; mq_data : option ser }.
(** Constructor, :58. *)
Definition mq_make (service : N) : mr_request := mkMRQ (u8 service) (path_empty false) None.
(** getLength, :91-99. *)
Definition mq_getLength (q : mr_request) : outcome N :=
  obind (opt_length (mq_data q)) (fun n => Ret (1 + path_getLength (mq_path q) + n)).
(** serialize, :107-115. *)
Definition mq_serialize (q : mr_request) : W :=
  w_uint 1 (mq_service q) ;; path_serialize (mq_path q) ;; w_opt (mq_data q).
Definition mq_ser (q : mr_request) : ser := mkSer (mq_getLength q) (mq_serialize q) None.
(** deserialize, :120-131: both overloads throw. *)
Definition mq_cls : cls mr_request :=
  mkCls (DLDirect (fun _ => dthrow LogicError "Not implemented")) (dthrow LogicError "Not implemented") None.

(** ** MessageRouterResponse (message_router_response.h, src/message_router_response.cpp) *)
Record mr_response := mkMRR {
  ms_service : N; ms_status : N; ms_additional : option ser; ms_data : option ser }.
Definition ms_set_service v s := mkMRR v (ms_status s) (ms_additional s) (ms_data s).
Definition ms_set_status v s := mkMRR (ms_service s) v (ms_additional s) (ms_data s).
Definition ms_set_additional v s := mkMRR (ms_service s) (ms_status s) v (ms_data s).
Definition ms_set_data v s := mkMRR (ms_service s) (ms_status s) (ms_additional s) v.
(** Constructor, message_router_response.h:58. *)
Definition ms_make : mr_response := mkMRR 0 0 None None.

(** getLength, src/message_router_response.cpp:37-50. *)
Definition ms_getLength (s : mr_response) : outcome N :=
  obind (opt_length (ms_additional s)) (fun a =>
  obind (opt_length (ms_data s)) (fun d => Ret (4 + a + d))).
(** serialize, message_router_response.h:90-93. *)
Definition ms_ser (s : mr_response) : ser :=
  mkSer (ms_getLength s) (wthrow LogicError "Not implemented") None.

(** Conversion of a size_t argument to the [int] parameter of readData: the
    positive value, or None when not positive (two's complement, 32 bit int). *)
Definition positive_int (n : N) : option N :=
  let i := n mod 4294967296 in
  if (0 <? i) && (i <? 2147483648) then Some i else None.

(** readData, src/message_router_response.cpp:65-74. *)
Definition ms_readData (n : N) : D mr_response (option ser) :=
  match positive_int n with
  | Some i => sb <- dlocal sb_empty (sb_deserialize_len i) ;;; dret (Some (ser_of_sbuf sb))
  | None => dret None
  end.

(** deserialize(reader, length), src/message_router_response.cpp:52-63. *)
Definition ms_deserialize_len (n : N) : D mr_response unit :=
  rd_uint 1 ms_service ms_set_service ;;;
  rd_uint 1 ms_status ms_set_status ;;;
  rd_uint 1 ms_status ms_set_status ;;;
  al <- rd_local 1 ;;;
  a <- ms_readData (2 * al) ;;;
  dmod (ms_set_additional a) ;;;
  c <- rd_count ;;;
  d <- ms_readData (u64 (n + 18446744073709551616 - c)) ;;;
  dmod (ms_set_data d).

(** deserialize(reader), message_router_response.h:103-106. *)
Definition ms_cls : cls mr_response :=
  mkCls (DLDirect ms_deserialize_len) (dthrow LogicError "Must have size to deserialize") None.

(** ** RRData, RRDataRequest, RRDataResponse (rr_data.h, src/rr_data.cpp, rr_data_request.h,
       rr_data_response.h) *)

(** The two public members plus what the derived class adds ([X]). *)
Record rr_data (X : Type) := mkRR { rr_iface : N; rr_timeout : N; rr_ext : X }.
Arguments mkRR {X} _ _ _.
Arguments rr_iface {X} _.
Arguments rr_timeout {X} _.
Arguments rr_ext {X} _.
Definition rr_set_iface {X} v (r : rr_data X) := mkRR v (rr_timeout r) (rr_ext r).
Definition rr_set_timeout {X} v (r : rr_data X) := mkRR (rr_iface r) v (rr_ext r).
Definition rr_set_ext {X} (v : X) (r : rr_data X) := mkRR (rr_iface r) (rr_timeout r) v.

(** getLength, rr_data.h:67-75; [data] is the virtual getData(). *)
Definition rr_getLength (data : outcome (option ser)) : outcome N :=
  obind data (fun d => obind (opt_length d) (fun n => Ret (4 + 2 + 5 * 2 + n))).

(** serialize, src/rr_data.cpp:39-48. *)
Definition rr_serialize {X} (data : outcome (option ser)) (r : rr_data X) : W :=
  w_uint 4 (rr_iface r) ;;
  w_uint 2 (rr_timeout r) ;;
  w_with data (fun d =>
    cpf_serialize [it_null; it_make EIP_ITEM_UNCONNECTED_MESSAGE d]).
Definition rr_ser {X} (data : outcome (option ser)) (r : rr_data X) : ser :=
  mkSer (rr_getLength data) (rr_serialize data r) None.

(** vector::at (throws out_of_range), used in src/rr_data.cpp:66-80. *)
Definition d_at {T A} (l : list A) (i : nat) : D T A :=
  match nth_error l i with
  | Some x => dret x
  | None => dthrow OutOfRange "vector::_M_range_check"
  end.
Definition d_outcome {T A} (x : outcome A) : D T A := fun m r t => (x, m, r, t).

(** Clean-up that runs on return and on unwinding. *)
Definition dfinally {T A} (x : D T A) (fin : D T unit) : D T A := fun m r t =>
  match x m r t with
  | (Ret a, m', r', t') => (fin ;;; dret a) m' r' t'
  | (Throw c s, m', r', t') => (fin ;;; dthrow c s) m' r' t'
  | o => o
  end.
(** A CPFPacket nobody shares items with goes: each item's shared_ptr destroys its
    SerializableBuffer, which deletes what it allocated (serializable_buffer.h:61-65). *)
Definition d_drop {T} (p : option ser) : D T unit :=
  match p with
  | Some s =>
      match s_sbuf s with
      | Some sb => match sb_alloc sb with Some b => d_free b | None => dret tt end
      | None => dret tt
      end
  | None => dret tt
  end.
Fixpoint d_drop_items {T} (p : cpf_packet) : D T unit :=
  match p with [] => dret tt | i :: p' => d_drop (it_data i) ;;; d_drop_items p' end.

(** deserialize(reader), src/rr_data.cpp:50-82. The warning at :62-65 (more than
    two items) is not modelled: it has no other effect. The local CPFPacket (:54) is
    destroyed at the end. *)
Definition rr_deserialize {X} (setData : cpf_item -> D (rr_data X) unit) : D (rr_data X) unit :=
  rd_uint 4 rr_iface rr_set_iface ;;;
  rd_uint 2 rr_timeout rr_set_timeout ;;;
  pkt <- dlocal [] cpf_deserialize ;;;
  dfinally
    (if cpf_getItemCount pkt <? 2 then dthrow LogicError "Not enough items in RR Data"
     else
       i0 <- d_at pkt 0 ;;;
       (if negb (it_type i0 =? EIP_ITEM_NULL) then dthrow LogicError "Address other than null in RR Data"
        else
          n0 <- d_outcome (it_getDataLength i0) ;;;
          (if negb (n0 =? 0) then dthrow LogicError "Data length greater than zero in null address type"
           else
             i1 <- d_at pkt 1 ;;;
             (if negb (it_type i1 =? EIP_ITEM_UNCONNECTED_MESSAGE)
              then dthrow LogicError "Unexpected data type in RR Data"
              else setData i1))))
    (d_drop_items pkt).

(** RRData itself: setData is empty (rr_data.h:116), getData is null (rr_data.h:107-110). *)
Definition rr_base_cls : cls (rr_data unit) :=
  mkCls (DLVirtual no_check) (rr_deserialize (fun _ => dret tt)) None.
Definition rr_base_ser (r : rr_data unit) : ser := rr_ser (Ret None) r.

(** RRDataRequest: getData is the router request (rr_data_request.h:136-139),
    setData throws (:144-147).  Constructors :61-83; interface handle and timeout
    are 0 (rr_data.h:61). *)
Definition rrq_make (service : N) (p : path) (d : option ser) : rr_data mr_request :=
  mkRR 0 0 (mkMRQ (u8 service) p d).
Definition rrq_ser (r : rr_data mr_request) : ser := rr_ser (Ret (Some (mq_ser (rr_ext r)))) r.
Definition rrq_cls : cls (rr_data mr_request) :=
  mkCls (DLVirtual no_check) (rr_deserialize (fun _ => dthrow LogicError "Not implemented")) None.

(** RRDataResponse: setData decodes the router reply (rr_data_response.h:130-133),
    getData throws (:122-125). *)
Definition rrs_make : rr_data mr_response := mkRR 0 0 ms_make.
Definition rrs_deserialize : D (rr_data mr_response) unit :=
  rr_deserialize (fun i => dzoom rr_ext rr_set_ext (it_getDataAs ms_cls i)).
Definition rrs_cls : cls (rr_data mr_response) := mkCls (DLVirtual no_check) rrs_deserialize None.
Definition rrs_ser (r : rr_data mr_response) : ser := rr_ser (Throw LogicError "Not implemented") r.
(** getResponseDataAs, rr_data_response.h:113-116; getAdditionalStatusAs, :103-106. *)
Definition rrs_getResponseDataAs {U} (c : cls U) (r : rr_data mr_response) : D U unit :=
  d_copy c (ms_data (rr_ext r)).
Definition rrs_getAdditionalStatusAs {U} (c : cls U) (r : rr_data mr_response) : D U unit :=
  d_copy c (ms_additional (rr_ext r)).

(** ** RegisterSessionData (register_session_data.h:46-97) *)
Record reg_data := mkReg { rg_version : N; rg_options : N }.
Definition EIP_PROTOCOL_VERSION := 1.
Definition rg_make : reg_data := mkReg EIP_PROTOCOL_VERSION 0.
Definition rg_getLength : N := 4.
Definition rg_serialize (g : reg_data) : W := w_uint 2 (rg_version g) ;; w_uint 2 (rg_options g).
Definition rg_ser (g : reg_data) : ser := mkSer (Ret rg_getLength) (rg_serialize g) None.
Definition rg_deserialize : D reg_data unit :=
  rd_uint 2 rg_version (fun v g => mkReg v (rg_options g)) ;;;
  rd_uint 2 rg_options (fun v g => mkReg (rg_version g) v).
Definition rg_cls : cls reg_data := mkCls (DLVirtual no_check) rg_deserialize None.

(** ** SequencedAddressItem (sequenced_address_item.h:46-97) *)
Record seq_addr := mkSA { sa_connection : N; sa_sequence : N }.
Definition sa_make (connection sequence : N) : seq_addr := mkSA (u32 connection) (u32 sequence).
Definition sa_getLength : N := 4 + 4.
Definition sa_serialize (a : seq_addr) : W := w_uint 4 (sa_connection a) ;; w_uint 4 (sa_sequence a).
Definition sa_ser (a : seq_addr) : ser := mkSer (Ret sa_getLength) (sa_serialize a) None.
Definition sa_deserialize : D seq_addr unit :=
  rd_uint 4 sa_connection (fun v a => mkSA v (sa_sequence a)) ;;;
  rd_uint 4 sa_sequence (fun v a => mkSA (sa_connection a) v).
Definition sa_cls : cls seq_addr := mkCls (DLVirtual no_check) sa_deserialize None.

(** ** IdentityItemData (identity_item_data.h, src/identity_item_data.cpp).
       [sockaddr] is the raw 16 byte struct sockaddr_in, [revision] two bytes. *)
Record identity := mkId {
  id_version : N; id_sockaddr : list byte; id_vendor : N; id_device : N; id_product : N;
  id_revision : list byte; id_status : N; id_serial : N; id_name : list byte; id_state : N }.
Definition id_set_version v i := mkId v (id_sockaddr i) (id_vendor i) (id_device i) (id_product i) (id_revision i) (id_status i) (id_serial i) (id_name i) (id_state i).
Definition id_set_sockaddr v i := mkId (id_version i) v (id_vendor i) (id_device i) (id_product i) (id_revision i) (id_status i) (id_serial i) (id_name i) (id_state i).
Definition id_set_vendor v i := mkId (id_version i) (id_sockaddr i) v (id_device i) (id_product i) (id_revision i) (id_status i) (id_serial i) (id_name i) (id_state i).
Definition id_set_device v i := mkId (id_version i) (id_sockaddr i) (id_vendor i) v (id_product i) (id_revision i) (id_status i) (id_serial i) (id_name i) (id_state i).
Definition id_set_product v i := mkId (id_version i) (id_sockaddr i) (id_vendor i) (id_device i) v (id_revision i) (id_status i) (id_serial i) (id_name i) (id_state i).
Definition id_set_revision v i := mkId (id_version i) (id_sockaddr i) (id_vendor i) (id_device i) (id_product i) v (id_status i) (id_serial i) (id_name i) (id_state i).
Definition id_set_status v i := mkId (id_version i) (id_sockaddr i) (id_vendor i) (id_device i) (id_product i) (id_revision i) v (id_serial i) (id_name i) (id_state i).
Definition id_set_serial v i := mkId (id_version i) (id_sockaddr i) (id_vendor i) (id_device i) (id_product i) (id_revision i) (id_status i) v (id_name i) (id_state i).
Definition id_set_name v i := mkId (id_version i) (id_sockaddr i) (id_vendor i) (id_device i) (id_product i) (id_revision i) (id_status i) (id_serial i) v (id_state i).
Definition id_set_state v i := mkId (id_version i) (id_sockaddr i) (id_vendor i) (id_device i) (id_product i) (id_revision i) (id_status i) (id_serial i) (id_name i) v.

(** getLength, src/identity_item_data.cpp:30-44. *)
Definition id_getLength (i : identity) : N :=
  2 + 16 + 2 + 2 + 2 + 2 + 2 + 4 + 1 + len (id_name i) + 1.

(** serialize, src/identity_item_data.cpp:46-62: the name length is narrowed to
    EIP_USINT and that many bytes of the name are written. *)
Definition id_serialize (i : identity) : W :=
  w_uint 2 (id_version i) ;;
  w_bytes (id_sockaddr i) ;;
  w_uint 2 (id_vendor i) ;;
  w_uint 2 (id_device i) ;;
  w_uint 2 (id_product i) ;;
  w_bytes (id_revision i) ;;
  w_uint 2 (id_status i) ;;
  w_uint 4 (id_serial i) ;;
  w_uint 1 (u8 (len (id_name i))) ;;
  w_bytes (take (u8 (len (id_name i))) (id_name i)) ;;
  w_uint 1 (id_state i).
Definition id_ser (i : identity) : ser := mkSer (Ret (id_getLength i)) (id_serialize i) None.

(** std::string::resize. *)
Definition resize (n : N) (s : list byte) : list byte := take n s ++ zeros (n - len s).

(** reader.readBytes(&product_name[0], n), src/identity_item_data.cpp:78: the string must
    have room for [n] characters; those beyond [n] stay. *)
Definition rd_name (n : N) : D identity unit :=
  i <- dget ;;;
  (if len (id_name i) <? n then dundef WildAccess
   else rd_raw n (fun i => take n (id_name i)) (fun bs i => id_set_name (bs ++ drop n (id_name i)) i)).
(** deserialize(reader), src/identity_item_data.cpp:64-81. *)
Definition id_deserialize : D identity unit :=
  rd_uint 2 id_version id_set_version ;;;
  rd_raw 16 id_sockaddr id_set_sockaddr ;;;
  rd_uint 2 id_vendor id_set_vendor ;;;
  rd_uint 2 id_device id_set_device ;;;
  rd_uint 2 id_product id_set_product ;;;
  rd_raw 2 id_revision id_set_revision ;;;
  rd_uint 2 id_status id_set_status ;;;
  rd_uint 4 id_serial id_set_serial ;;;
  n <- rd_local 1 ;;;
  dmod (fun i => id_set_name (resize n (id_name i)) i) ;;;
  rd_name n ;;;
  rd_uint 1 id_state id_set_state.
Definition id_cls : cls identity := mkCls (DLVirtual no_check) id_deserialize None.

(** ** ForwardOpenRequest (forward_open_request.h) *)
Record fo_request := mkFO {
  fo_tick_size : N; fo_ticks : N; fo_o2t_id : N; fo_t2o_id : N; fo_conn_sn : N;
  fo_vendor : N; fo_orig_sn : N; fo_multiplier : N; fo_o2t_rpi : N; fo_o2t_params : N;
  fo_t2o_rpi : N; fo_t2o_params : N; fo_conn_type : N; fo_path : path }.

(** calcConnectionParams, forward_open_request.h:92-97. *)
Definition calcConnectionParams (size : N) (variable : bool) (priority type : N) (shared : bool) : N :=
  u32 (N.lor (N.lor (N.lor (N.lor
    (N.land size 0x7FFF)
    (if variable then 0x2000000 else 0))
    (N.shiftl (N.land priority 0x03) 26))
    (N.shiftl (N.land type 0x03) 29))
    (if shared then 0x80000000 else 0)).

(** getLength, :132-149. *)
Definition fo_getLength (f : fo_request) : N :=
  1 + 1 + 4 + 4 + 2 + 2 + 4 + 1 + 4 + 4 + 4 + 4 + 1 + 3 + path_getLength (fo_path f).
(** serialize, :157-178. *)
Definition fo_serialize (f : fo_request) : W :=
  w_uint 1 (fo_tick_size f) ;;
  w_uint 1 (fo_ticks f) ;;
  w_uint 4 (fo_o2t_id f) ;;
  w_uint 4 (fo_t2o_id f) ;;
  w_uint 2 (fo_conn_sn f) ;;
  w_uint 2 (fo_vendor f) ;;
  w_uint 4 (fo_orig_sn f) ;;
  w_uint 1 (fo_multiplier f) ;;
  w_uint 1 0 ;;
  w_uint 1 0 ;;
  w_uint 1 0 ;;
  w_uint 4 (fo_o2t_rpi f) ;;
  w_uint 4 (fo_o2t_params f) ;;
  w_uint 4 (fo_t2o_rpi f) ;;
  w_uint 4 (fo_t2o_params f) ;;
  w_uint 1 (fo_conn_type f) ;;
  path_serialize (fo_path f).
Definition fo_ser (f : fo_request) : ser := mkSer (Ret (fo_getLength f)) (fo_serialize f) None.
(** deserialize, :183-194: both overloads throw. *)
Definition fo_cls : cls fo_request :=
  mkCls (DLDirect (fun _ => dthrow LogicError "Not implemented")) (dthrow LogicError "Not implemented") None.

(** ** ForwardCloseRequest (forward_close_request.h) *)
Record fc_request := mkFC {
  fc_tick_size : N; fc_ticks : N; fc_conn_sn : N; fc_vendor : N; fc_orig_sn : N; fc_path : path }.
(** getLength, :72-81. *)
Definition fc_getLength (f : fc_request) : N := 1 + 1 + 2 + 2 + 4 + 1 + path_getLength (fc_path f).
(** serialize, :89-100. *)
Definition fc_serialize (f : fc_request) : W :=
  w_uint 1 (fc_tick_size f) ;;
  w_uint 1 (fc_ticks f) ;;
  w_uint 2 (fc_conn_sn f) ;;
  w_uint 2 (fc_vendor f) ;;
  w_uint 4 (fc_orig_sn f) ;;
  path_serialize_pad (fc_path f) true.
Definition fc_ser (f : fc_request) : ser := mkSer (Ret (fc_getLength f)) (fc_serialize f) None.
Definition fc_cls : cls fc_request :=
  mkCls (DLDirect (fun _ => dthrow LogicError "Not implemented")) (dthrow LogicError "Not implemented") None.

(** ** ForwardOpenSuccess (forward_open_success.h) *)
Record fo_success := mkFOS {
  fs_o2t_id : N; fs_t2o_id : N; fs_conn_sn : N; fs_vendor : N; fs_orig_sn : N;
  fs_o2t_api : N; fs_t2o_api : N; fs_data : option ser }.
Definition fs_set_o2t_id v f := mkFOS v (fs_t2o_id f) (fs_conn_sn f) (fs_vendor f) (fs_orig_sn f) (fs_o2t_api f) (fs_t2o_api f) (fs_data f).
Definition fs_set_t2o_id v f := mkFOS (fs_o2t_id f) v (fs_conn_sn f) (fs_vendor f) (fs_orig_sn f) (fs_o2t_api f) (fs_t2o_api f) (fs_data f).
Definition fs_set_conn_sn v f := mkFOS (fs_o2t_id f) (fs_t2o_id f) v (fs_vendor f) (fs_orig_sn f) (fs_o2t_api f) (fs_t2o_api f) (fs_data f).
Definition fs_set_vendor v f := mkFOS (fs_o2t_id f) (fs_t2o_id f) (fs_conn_sn f) v (fs_orig_sn f) (fs_o2t_api f) (fs_t2o_api f) (fs_data f).
Definition fs_set_orig_sn v f := mkFOS (fs_o2t_id f) (fs_t2o_id f) (fs_conn_sn f) (fs_vendor f) v (fs_o2t_api f) (fs_t2o_api f) (fs_data f).
Definition fs_set_o2t_api v f := mkFOS (fs_o2t_id f) (fs_t2o_id f) (fs_conn_sn f) (fs_vendor f) (fs_orig_sn f) v (fs_t2o_api f) (fs_data f).
Definition fs_set_t2o_api v f := mkFOS (fs_o2t_id f) (fs_t2o_id f) (fs_conn_sn f) (fs_vendor f) (fs_orig_sn f) (fs_o2t_api f) v (fs_data f).
Definition fs_set_data v f := mkFOS (fs_o2t_id f) (fs_t2o_id f) (fs_conn_sn f) (fs_vendor f) (fs_orig_sn f) (fs_o2t_api f) (fs_t2o_api f) v.

(** getLength, :78-93. *)
Definition fs_getLength (f : fo_success) : outcome N :=
  obind (opt_length (fs_data f)) (fun n => Ret (4 + 4 + 2 + 2 + 4 + 4 + 4 + 2 + n)).
Definition fs_ser (f : fo_success) : ser :=
  mkSer (fs_getLength f) (wthrow LogicError "Not implemented") None.
(** deserialize(reader), :117-140. *)
Definition fs_deserialize : D fo_success unit :=
  rd_uint 4 fs_o2t_id fs_set_o2t_id ;;;
  rd_uint 4 fs_t2o_id fs_set_t2o_id ;;;
  rd_uint 2 fs_conn_sn fs_set_conn_sn ;;;
  rd_uint 2 fs_vendor fs_set_vendor ;;;
  rd_uint 4 fs_orig_sn fs_set_orig_sn ;;;
  rd_uint 4 fs_o2t_api fs_set_o2t_api ;;;
  rd_uint 4 fs_t2o_api fs_set_t2o_api ;;;
  n <- rd_local 1 ;;;
  rd_skip 1 ;;;
  (if 0 <? n then
     sb <- dlocal sb_empty (sb_deserialize_len (n * 2)) ;;;
     dmod (fs_set_data (Some (ser_of_sbuf sb)))
   else dmod (fs_set_data None)).
Definition fs_cls : cls fo_success := mkCls (DLVirtual no_check) fs_deserialize None.

(** ** ForwardCloseSuccess (forward_close_success.h) *)
Record fc_success := mkFCS { cs_conn_sn : N; cs_vendor : N; cs_orig_sn : N; cs_data : option ser }.
(** getLength, :74-85. *)
Definition cs_getLength (f : fc_success) : outcome N :=
  obind (opt_length (cs_data f)) (fun n => Ret (2 + 2 + 4 + 2 + n)).
Definition cs_ser (f : fc_success) : ser :=
  mkSer (cs_getLength f) (wthrow LogicError "Not implemented") None.
(** deserialize(reader), :109-128. *)
Definition cs_deserialize : D fc_success unit :=
  rd_uint 2 cs_conn_sn (fun v f => mkFCS v (cs_vendor f) (cs_orig_sn f) (cs_data f)) ;;;
  rd_uint 2 cs_vendor (fun v f => mkFCS (cs_conn_sn f) v (cs_orig_sn f) (cs_data f)) ;;;
  rd_uint 4 cs_orig_sn (fun v f => mkFCS (cs_conn_sn f) (cs_vendor f) v (cs_data f)) ;;;
  n <- rd_local 1 ;;;
  rd_skip 1 ;;;
  (if 0 <? n then
     sb <- dlocal sb_empty (sb_deserialize_len (n * 2)) ;;;
     dmod (fun f => mkFCS (cs_conn_sn f) (cs_vendor f) (cs_orig_sn f) (Some (ser_of_sbuf sb)))
   else dmod (fun f => mkFCS (cs_conn_sn f) (cs_vendor f) (cs_orig_sn f) None)).
Definition cs_cls : cls fc_success := mkCls (DLVirtual no_check) cs_deserialize None.
