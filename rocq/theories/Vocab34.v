(** * Vocab34: words for C131, sending copies.  Only definitions. *)
From Verif Require Export Spec Vocab33.
Local Open Scope N_scope.

(** The bytes a pointer has; a null pointer has none. *)
Definition bytes_of (s : desk) (p : sptr) : list byte := match data_of s p with Some (Ret bs) => bs | _ => [] end.
(** What a packet, a list of items or the object behind a pointer is on the wire; a reply
    cannot be sent. *)
Definition wire (s : desk) (t : thing) : option (list byte) :=
  match t with
  | TPacket p => Some (header (h_command (fst p)) (h_length (fst p)) (h_session (fst p)) (h_status (fst p)) (h_ctx0 (fst p)) (h_ctx1 (fst p)) (h_options (fst p)) ++ bytes_of s (snd p))
  | TItems l => Some (cpf (map (fun i => (fst i, bytes_of s (snd i))) l))
  | TReply _ => None
  | TPtr (Some q) => Some (bytes_of s (Some q))
  | TPtr None => None
  end.
(** The variable as what is given to a writer. *)
Definition to_send (s : desk) (t : thing) : option ser :=
  match t with
  | TPacket p => Some (ep_ser (packet_of s p))
  | TItems l => Some (cpf_ser (items_of s l))
  | TReply p => Some (ms_ser (reply_of s p))
  | TPtr p => option_map ser_of_sbuf (object s p)
  end.
(** A program goes on, and does not change the variable [k]. *)
Definition goes_on (m0 : heap) (k : nat) (l : list deal) (s s' : desk) : Prop :=
  Forall (fair m0) l /\ Forall (fun a => target a <> Some k) l /\ run_deals l s = Some s'.
