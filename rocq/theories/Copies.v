(** * Copies: packets whose copies share their data

    In Packets.v the payload of a packet is a value, and Life.v ends it with the packet. In
    the code it is a SerializableBuffer held by a boost::shared_ptr (encap_packet.h:157,
    cpf_item.h:152, message_router_response.h:109-110) that the copies of a packet, item or
    reply share. Here every shared_ptr is
    there, with the count of its control block. Payloads of other classes own no memory;
    they are left out. Decoding is written again with the pointers; PCopies.v proves that
    it decodes what Packets.v does. *)
From Verif Require Export Life.
Local Open Scope N_scope.

(** The SerializableBuffer objects the program made, each with its use_count; at 0 it was
    destroyed. *)
Definition cells := list (N * sbuf).
(** shared_ptr<Serializable>. *)
Definition sptr := option nat.

(** make_shared<SerializableBuffer>: an object with one pointer to it. *)
Definition c_make (sb : sbuf) : D cells nat := fun m r c => (Ret (List.length c), m, r, c ++ [(1, sb)]).
(** Copy of a pointer. *)
Definition c_retain (p : sptr) : D cells unit := fun m r c =>
  match p with
  | None => (Ret tt, m, r, c)
  | Some q =>
      match nth_error c q with
      | None => (Undef WildAccess, m, r, c)
      | Some (n, sb) => if n =? 0 then (Undef UseAfterFree, m, r, c) else (Ret tt, m, r, list_set c q (n + 1, sb))
      end
  end.
(** End of a pointer: the last one destroys the object, ~SerializableBuffer,
    serializable_buffer.h:61-65. *)
Definition c_release (p : sptr) : D cells unit := fun m r c =>
  match p with
  | None => (Ret tt, m, r, c)
  | Some q =>
      match nth_error c q with
      | None => (Undef WildAccess, m, r, c)
      | Some (n, sb) =>
          if n =? 0 then (Undef DoubleFree, m, r, c)
          else if n =? 1 then match sb_destroy m sb with (o, m') => (o, m', r, list_set c q (0, sb)) end
          else (Ret tt, m, r, list_set c q (n - 1, sb))
      end
  end.
(** p->deserialize(reader, n), the virtual call; serializable_buffer.h:118-139. *)
Definition c_into (p : sptr) (n : N) : D cells unit := fun m r c =>
  match p with
  | None => (Undef NullDeref, m, r, c)
  | Some q =>
      match nth_error c q with
      | None => (Undef WildAccess, m, r, c)
      | Some (k, sb) =>
          if k =? 0 then (Undef UseAfterFree, m, r, c)
          else match sb_deserialize_len n m r sb with (o, m', r', sb') => (o, m', r', list_set c q (k, sb')) end
      end
  end.
(** shared_ptr::operator=: a copy is made, swapped with the target, and ends. *)
Definition c_assign (old new : sptr) : D cells unit := c_retain new ;;; c_release old.
(** Pointers of a vector, in order. *)
Fixpoint c_all (f : sptr -> D cells unit) (l : list sptr) : D cells unit :=
  match l with [] => dret tt | p :: l' => f p ;;; c_all f l' end.
(** [x], then the end of a local, also when [x] raises. *)
Definition d_then {T} (x y : D T unit) : D T unit := fun m r t =>
  match x m r t with
  | (Ret _, m', r', t') => y m' r' t'
  | (Throw e s, m', r', t') =>
      match y m' r' t' with (Ret _, m2, r2, t2) => (Throw e s, m2, r2, t2) | z => z end
  | z => z
  end.
(** An action on the objects, in a decode of [X]. *)
Definition on_cells {X A} (x : D cells A) : D (cells * X) A := dzoom fst (fun c t => (c, snd t)) x.
Definition on_it {X A} (x : D X A) : D (cells * X) A := dzoom snd (fun a t => (fst t, a)) x.

(** ** EncapPacket: header_ and payload_, encap_packet.h:156-157 *)
Notation pkt := (encap_header * sptr)%type.
Definition pk_header {A} (x : D encap_header A) : D (cells * pkt) A := on_it (dzoom fst (fun h t => (h, snd t)) x).
(** payload_ = q *)
Definition pk_payload (q : sptr) : D (cells * pkt) unit :=
  t <- dget ;;; on_cells (c_assign (snd (snd t)) q) ;;; dmod (fun t => (fst t, (fst (snd t), q))).
(** payload_ = make_shared<SerializableBuffer>() *)
Definition pk_new : D (cells * pkt) nat :=
  q <- on_cells (c_make sb_empty) ;;; pk_payload (Some q) ;;; on_cells (c_release (Some q)) ;;; dret q.
(** deserialize(reader), src/encap_packet.cpp:61-75: [sb] is a local of the block :65-69. *)
Definition pk_decode : D (cells * pkt) unit :=
  pk_header hdr_deserialize ;;;
  t <- dget ;;;
  (if 0 <? h_length (fst (snd t)) then
     q <- on_cells (c_make sb_empty) ;;;
     d_then (on_cells (c_into (Some q) (h_length (fst (snd t)))) ;;; pk_payload (Some q)) (on_cells (c_release (Some q)))
   else pk_payload None).
(** deserialize(reader, length), src/encap_packet.cpp:77-98. *)
Definition pk_decode_len (n : N) : D (cells * pkt) unit :=
  if n <? hdr_getLength then dthrow LengthError "Deserialization size less than header size"
  else
    pk_header hdr_deserialize ;;;
    t <- dget ;;;
    (if negb (n =? hdr_getLength + h_length (fst (snd t)))
     then dthrow LengthError "Packet length different than given to deserialize"
     else if 0 <? h_length (fst (snd t)) then
       q <- pk_new ;;; on_cells (c_into (Some q) (h_length (fst (snd t))))
     else pk_payload None).
(** updateLength, encap_packet.h:126-129. *)
Definition pk_length (c : cells) (p : sptr) : N :=
  match p with
  | Some q => match nth_error c q with Some (_, sb) => u16 (v_len (sb_data sb)) | None => 0 end
  | None => 0
  end.
(** setPayload, encap_packet.h:96-100: the parameter is a copy and ends with the call. *)
Definition pk_set (q : sptr) : D (cells * pkt) unit :=
  on_cells (c_retain q) ;;; pk_payload q ;;;
  dmod (fun t => (fst t, (hdr_set_length (pk_length (fst t) q) (fst (snd t)), snd (snd t)))) ;;;
  on_cells (c_release q).

(** ** CPFItem, item_type_ and item_data_, cpf_item.h:151-152, and CPFPacket, the vector of
    items *)
Notation itm := (N * sptr)%type.
Definition im_data (q : sptr) : D (cells * itm) unit :=
  t <- dget ;;; on_cells (c_assign (snd (snd t)) q) ;;; dmod (fun t => (fst t, (fst (snd t), q))).
(** deserializeData and deserialize(reader), src/cpf_item.cpp:64-84. *)
Definition im_decode : D (cells * itm) unit :=
  on_it (rd_uint 2 fst (fun v t => (v, snd t))) ;;;
  n <- rd_local 2 ;;;
  (if 0 <? n then
     q <- on_cells (c_make sb_empty) ;;; im_data (Some q) ;;; on_cells (c_release (Some q)) ;;; on_cells (c_into (Some q) n)
   else im_data None).
(** items_.push_back(i): the vector has a copy. When it grows, its items are copied and the
    old ones end, which leaves every count as it was and is left out. *)
Definition is_push (i : itm) : D (cells * list itm) unit :=
  on_cells (c_retain (snd i)) ;;; dmod (fun t => (fst t, snd t ++ [i])).
(** deserialize(reader), src/cpf_packet.cpp:56-68; [item] is a local of the loop body. *)
Definition is_one : D (cells * list itm) unit := fun m r t =>
  match im_decode m r (fst t, (EIP_ITEM_NULL, None)) with
  | (o, m', r', (c, i)) =>
      d_then (match o with
              | Ret _ => is_push i
              | Throw e s => dthrow e s
              | Undef u => dundef u
              | Stuck => fun m r t => (Stuck, m, r, t)
              end)
        (on_cells (c_release (snd i))) m' r' (c, snd t)
  end.
Fixpoint is_loop (n : nat) : D (cells * list itm) unit :=
  match n with O => dret tt | S n' => is_one ;;; is_loop n' end.
Definition is_decode : D (cells * list itm) unit :=
  t <- dget ;;; on_cells (c_all c_release (map snd (snd t))) ;;; dmod (fun t => (fst t, [])) ;;;
  n <- rd_local 2 ;;;
  is_loop (N.to_nat n).

(** ** MessageRouterResponse: service and general_status, additional_status_ and
    response_data_, message_router_response.h:52-53, :109-110 *)
Notation rpl := ((N * N) * (sptr * sptr))%type.
(** [x]; when it raises, a local ends. *)
Definition d_guard {T} (x y : D T unit) : D T unit := fun m r t =>
  match x m r t with
  | (Throw e s, m', r', t') =>
      match y m' r' t' with (Ret _, m2, r2, t2) => (Throw e s, m2, r2, t2) | z => z end
  | z => z
  end.
(** readData, src/message_router_response.cpp:65-74: the pointer is returned, its object
    has one pointer to it. *)
Definition rp_read {X} (n : N) : D (cells * X) sptr :=
  match positive_int n with
  | Some i => q <- on_cells (c_make sb_empty) ;;;
              d_guard (on_cells (c_into (Some q) i)) (on_cells (c_release (Some q))) ;;; dret (Some q)
  | None => dret None
  end.
(** additional_status_ = readData(...) and response_data_ = readData(...): the temporary ends
    with the statement. *)
Definition rp_additional (q : sptr) : D (cells * rpl) unit :=
  t <- dget ;;; on_cells (c_assign (fst (snd (snd t))) q) ;;;
  dmod (fun t => (fst t, (fst (snd t), (q, snd (snd (snd t)))))) ;;; on_cells (c_release q).
Definition rp_data (q : sptr) : D (cells * rpl) unit :=
  t <- dget ;;; on_cells (c_assign (snd (snd (snd t))) q) ;;;
  dmod (fun t => (fst t, (fst (snd t), (fst (snd (snd t)), q)))) ;;; on_cells (c_release q).
Definition rp_service : D (cells * rpl) unit := on_it (rd_uint 1 (fun t => fst (fst t)) (fun v t => ((v, snd (fst t)), snd t))).
Definition rp_status : D (cells * rpl) unit := on_it (rd_uint 1 (fun t => snd (fst t)) (fun v t => ((fst (fst t), v), snd t))).
(** deserialize(reader, length), src/message_router_response.cpp:52-63. *)
Definition rp_decode_len (n : N) : D (cells * rpl) unit :=
  rp_service ;;; rp_status ;;; rp_status ;;;
  al <- rd_local 1 ;;;
  a <- rp_read (2 * al) ;;; rp_additional a ;;;
  k <- rd_count ;;;
  d <- rp_read (u64 (n + 18446744073709551616 - k)) ;;; rp_data d.

(** ** A program's variables *)
Inductive thing := TPacket (p : pkt) | TItems (l : list itm) | TReply (p : rpl) | TPtr (p : sptr).
Definition pointers (t : thing) : list sptr :=
  match t with TPacket p => [snd p] | TItems l => map snd l | TReply p => [fst (snd p); snd (snd p)] | TPtr p => [p] end.
(** Memory, objects and variables; a variable that has ended is [None]. *)
Record desk := mkDesk { dk_mem : heap; dk_cells : cells; dk_vars : list (option thing) }.
(** What a program does: constructors; copies, assignments and ends of variables; decoding
    from a buffer or a stream; getPayload, setPayload, getData (cpf_item.h:87-90),
    getItems() (cpf_packet.h:66-69) with at(k) or push_back; getAdditionalStatus and
    getResponseData of a reply, message_router_response.h:64-76. *)
Inductive deal :=
| KNew (command session : N) | KItems | KReply | KNull | KRaw (v : view)
| KCopy (i : nat) | KAssign (i j : nat) | KEnd (i : nat)
| KDecode (i : nat) (r : reader) | KDecodeLen (i : nat) (n : N) (r : reader)
| KGet (i : nat) | KGetStatus (i : nat) | KGetData (i : nat) | KGetItem (i k : nat) | KSet (i j : nat) | KPush (i : nat) (ty : N) (j : nat).

(** Run on no reader: these actions do not read. *)
Definition no_input : reader := RStr [] 0 false.
Definition var_of (s : desk) (i : nat) : option thing := match nth_error (dk_vars s) i with Some t => t | None => None end.
Definition new_var (t : thing) (x : outcome unit * heap * reader * cells) (s : desk) : outcome unit * desk :=
  match x with (o, m, _, c) => (o, mkDesk m c (dk_vars s ++ [Some t])) end.
Definition on_packet (i : nat) (p : pkt) (x : D (cells * pkt) unit) (r : reader) (s : desk) : outcome unit * desk :=
  match x (dk_mem s) r (dk_cells s, p) with (o, m, _, (c, p')) => (o, mkDesk m c (list_set (dk_vars s) i (Some (TPacket p')))) end.
Definition on_items (i : nat) (l : list itm) (x : D (cells * list itm) unit) (r : reader) (s : desk) : outcome unit * desk :=
  match x (dk_mem s) r (dk_cells s, l) with (o, m, _, (c, l')) => (o, mkDesk m c (list_set (dk_vars s) i (Some (TItems l')))) end.
Definition on_reply (i : nat) (p : rpl) (x : D (cells * rpl) unit) (r : reader) (s : desk) : outcome unit * desk :=
  match x (dk_mem s) r (dk_cells s, p) with (o, m, _, (c, p')) => (o, mkDesk m c (list_set (dk_vars s) i (Some (TReply p')))) end.
(** The same class, so that one can be assigned to the other. *)
Definition same_class (a b : thing) : bool :=
  match a, b with TPacket _, TPacket _ | TItems _, TItems _ | TReply _, TReply _ | TPtr _, TPtr _ => true | _, _ => false end.
(** What does not compile, or names no variable or item, is [Stuck]. *)
Definition perform (a : deal) (s : desk) : outcome unit * desk :=
  let m := dk_mem s in
  let c := dk_cells s in
  match a with
  | KNew k h => new_var (TPacket (hdr_make k h, None)) (Ret tt, m, no_input, c) s
  | KItems => new_var (TItems []) (Ret tt, m, no_input, c) s
  | KReply => new_var (TReply ((0, 0), (None, None))) (Ret tt, m, no_input, c) s
  | KNull => new_var (TPtr None) (Ret tt, m, no_input, c) s
  (** make_shared<SerializableBuffer>(v), serializable_buffer.h:59. *)
  | KRaw v => match c_make (sb_of_view v) m no_input c with
              | (Ret q, m', r', c') => new_var (TPtr (Some q)) (Ret tt, m', r', c') s
              | _ => (Stuck, s)
              end
  | KCopy i => match var_of s i with
               | Some t => new_var t (c_all c_retain (pointers t) m no_input c) s
               | None => (Stuck, s)
               end
  | KAssign i j =>
      match var_of s i, var_of s j with
      | Some t, Some u =>
          if same_class t u then
            match (c_all c_retain (pointers u) ;;; c_all c_release (pointers t)) m no_input c with
            | (o, m', _, c') => (o, mkDesk m' c' (list_set (dk_vars s) i (Some u)))
            end
          else (Stuck, s)
      | _, _ => (Stuck, s)
      end
  | KEnd i =>
      match var_of s i with
      | Some t => match c_all c_release (pointers t) m no_input c with
                  | (o, m', _, c') => (o, mkDesk m' c' (list_set (dk_vars s) i None))
                  end
      | None => (Stuck, s)
      end
  | KDecode i r =>
      match var_of s i with
      | Some (TPacket p) => on_packet i p pk_decode r s
      | Some (TItems l) => on_items i l is_decode r s
      (** message_router_response.h:103-106. *)
      | Some (TReply p) => on_reply i p (dthrow LogicError "Must have size to deserialize") r s
      | _ => (Stuck, s)
      end
  | KDecodeLen i n r =>
      match var_of s i with
      | Some (TPacket p) => on_packet i p (pk_decode_len n) r s
      (** cpf_packet.h:89-93: the length is not used. *)
      | Some (TItems l) => on_items i l is_decode r s
      | Some (TReply p) => on_reply i p (rp_decode_len n) r s
      | _ => (Stuck, s)
      end
  | KGet i =>
      match var_of s i with
      | Some (TPacket p) => new_var (TPtr (snd p)) (c_retain (snd p) m no_input c) s
      | _ => (Stuck, s)
      end
  | KGetStatus i =>
      match var_of s i with
      | Some (TReply p) => new_var (TPtr (fst (snd p))) (c_retain (fst (snd p)) m no_input c) s
      | _ => (Stuck, s)
      end
  | KGetData i =>
      match var_of s i with
      | Some (TReply p) => new_var (TPtr (snd (snd p))) (c_retain (snd (snd p)) m no_input c) s
      | _ => (Stuck, s)
      end
  | KGetItem i k =>
      match var_of s i with
      | Some (TItems l) => match nth_error l k with
                           | Some (_, p) => new_var (TPtr p) (c_retain p m no_input c) s
                           | None => (Stuck, s)
                           end
      | _ => (Stuck, s)
      end
  | KSet i j =>
      match var_of s i, var_of s j with
      | Some (TPacket p), Some (TPtr q) => on_packet i p (pk_set q) no_input s
      | _, _ => (Stuck, s)
      end
  | KPush i ty j =>
      match var_of s i, var_of s j with
      | Some (TItems l), Some (TPtr q) => on_items i l (is_push (u16 ty, q)) no_input s
      | _, _ => (Stuck, s)
      end
  end.
(** p->deserialize(reader, n) of a pointer variable, e.g. of getPayload(). *)
Definition through (i : nat) (n : N) (r : reader) (s : desk) : outcome unit * desk :=
  match var_of s i with
  | Some (TPtr p) => match c_into p n (dk_mem s) r (dk_cells s) with (o, m, _, c) => (o, mkDesk m c (dk_vars s)) end
  | _ => (Stuck, s)
  end.
