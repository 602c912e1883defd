(** * Vocab37: words for C134, packets through a pipe that breaks.  Only definitions. *)
From Verif Require Export Vocab35 Vocab36.

(** The contents of a packet. *)
Record packet := mkPacket { k_cmd : N; k_session : N; k_status : N; k_ctx0 : N; k_ctx1 : N; k_options : N; k_data : list byte }.
Definition packet_frame (k : packet) : list byte := frame (k_cmd k) (k_session k) (k_status k) (k_ctx0 k) (k_ctx1 k) (k_options k) (k_data k).
Definition packet_fits (k : packet) : Prop := frame_fits (k_cmd k) (k_session k) (k_status k) (k_ctx0 k) (k_ctx1 k) (k_options k) (k_data k).
Definition packet_header (k : packet) : encap_header := mkHdr (k_cmd k) (len (k_data k)) (k_session k) (k_status k) (k_ctx0 k) (k_ctx1 k) (k_options k).
(** An object with these contents, to be sent; one with them, as received. *)
Definition to_send (put : ser -> W) (m : heap) (q : encap_packet) (k : packet) : Prop :=
  ep_header q = packet_header k /\ part put m (ep_payload q) (k_data k).
Definition received (m : heap) (q : encap_packet) (k : packet) : Prop :=
  ep_header q = packet_header k /\ holds m (ep_payload q) (k_data k).
(** Writes made one after the other until one raises: how many returned, and how it ended. *)
Fixpoint write_all (xs : list W) (m : heap) (w : writer) : nat * outcome unit * heap * writer :=
  match xs with
  | [] => (0%nat, Ret tt, m, w)
  | x :: xs' =>
      match x m w with
      | (Ret _, m', w') => match write_all xs' m' w' with (n, o, m2, w2) => (S n, o, m2, w2) end
      | (o, m', w') => (0%nat, o, m', w')
      end
  end.
(** Up to [c] packets read one after the other until one raises: those read, and how it ended. *)
Fixpoint read_all (get : D encap_packet unit) (c : nat) (m : heap) (r : reader) : list encap_packet * outcome unit * heap * reader :=
  match c with
  | O => ([], Ret tt, m, r)
  | S c' =>
      match get m r (ep_make0 0 0) with
      | (Ret _, m', r', q) => match read_all get c' m' r' with (qs, o, m2, r2) => (q :: qs, o, m2, r2) end
      | (o, m', r', _) => ([], o, m', r')
      end
  end.
