(** * Scanner: IOScanner (io_scanner.h, src/io_scanner.cpp). *)
From Verif Require Export Session.

(** What handling one datagram produces. Log texts are abbreviated to a tag. *)
Inductive scan_result :=
| ScanIdentity (i : identity)      (* :142-152 the identity is printed *)
| ScanReceiveError                 (* :79-83 *)
| ScanWrongCommand (c : N)         (* :95-100 *)
| ScanNoItems                      (* :122-126 *)
| ScanWrongItem (ty : N)           (* :132-137 *)
| ScanTooShort.                    (* :154-157 *)

(** sendListIdentityRequest, src/io_scanner.cpp:61-74: the bytes handed to send_to.
    [d] is an uninitialised 128 byte local array, zero here; only the written
    prefix is sent. *)
Definition scan_request (m : heap) : outcome (list byte) :=
  let (b, m1) := alloc m (zeros 128) in
  match ep_serialize (ep_make0 EIP_CMD_LIST_IDENTITY 0) m1 (WBuf (mkV b 0 128) 0) with
  | (Ret _, m2, w) => load m2 b 0 (N.min 128 (w_count w))
  | (Throw c s, _, _) => Throw c s
  | (Undef u, _, _) => Undef u
  | (Stuck, _, _) => Stuck
  end.

(** Default constructor of IdentityItemData leaves the members uninitialised
    (identity_item_data.h:60-76); every member is read before use. *)
Definition id_make : identity := mkId 0 (zeros 16) 0 0 0 (zeros 2) 0 0 [] 0.

Definition scan_body (n : N) (v : view) : D unit scan_result := fun m _ u =>
  (pkt <- dlocal (ep_make0 0 0) ep_deserialize ;;;
   (if negb (h_command (ep_header pkt) =? EIP_CMD_LIST_IDENTITY)
    then dret (ScanWrongCommand (h_command (ep_header pkt)))
    else
      payload <- dlocal [] (ep_getPayloadAs cpf_cls pkt) ;;;
      (if cpf_getItemCount payload <? 1 then dret ScanNoItems
       else
         i0 <- d_at payload 0 ;;;
         (if negb (it_type i0 =? EIP_ITEM_LIST_IDENTITY_RESPONSE) then dret (ScanWrongItem (it_type i0))
          else
            i <- dlocal id_make (it_getDataAs id_cls i0) ;;;
            dret (ScanIdentity i))))) m (RBuf (view_take v n) 0) u.

(** handleListIdentityResponse, src/io_scanner.cpp:76-158, on the contents of
    recv_buf_ (io_scanner.h:73) and the byte count delivered by asio. *)
Definition scan_handle (ec : bool) (n : N) (b : nat) (m : heap) : outcome scan_result * heap :=
  if ec then (Ret ScanReceiveError, m)
  else match scan_body n (mkV b 0 4096) m (RBuf null_view 0) tt with
       | (Throw c s, m', _, _) => if is_a c LengthError then (Ret ScanTooShort, m') else (Throw c s, m')
       | (o, m', _, _) => (o, m')
       end.

(** The io_service loop (:160-165): the constructor (:49-59) arms exactly one
    receive and the handler never re-arms it, so of all datagrams that arrive only
    the first is handled. A failed receive is [inl tt]. *)
Definition scan_run (m : heap) (inbox : list (unit + list byte)) : list (outcome scan_result) :=
  let (b, m1) := alloc m (zeros 4096) in
  match inbox with
  | [] => []
  | inl _ :: _ => [fst (scan_handle true 0 b m1)]
  | inr bs :: _ =>
      match store m1 b 0 (take 4096 bs) with
      | Ret m2 => [fst (scan_handle false (len (take 4096 bs)) b m2)]
      | Throw c s => [Throw c s] | Undef u => [Undef u] | Stuck => [Stuck]
      end
  end.
