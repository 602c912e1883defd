(** * The end of packets, and how much memory a decode takes *)
From Verif Require Export Packets.

(** The last boost::shared_ptr<Serializable> to a payload or to the data of an item goes
    (encap_packet.h:157, cpf_item.h:152): a SerializableBuffer is destroyed with what it
    allocated (serializable_buffer.h:61-65); no other class here owns a heap block. *)
Definition drop_data (m : heap) (d : option ser) : outcome unit * heap :=
  match d with
  | Some s => match s_sbuf s with Some sb => sb_destroy m sb | None => (Ret tt, m) end
  | None => (Ret tt, m)
  end.

(** ~EncapPacket (implicit), nobody else holding the payload. *)
Definition ep_destroy (m : heap) (p : encap_packet) : outcome unit * heap := drop_data m (ep_payload p).
(** setPayload, encap_packet.h:96-99: the assignment releases the old payload. *)
Definition ep_replace (q : option ser) (m : heap) (p : encap_packet) : outcome unit * heap * encap_packet :=
  let (o, m') := drop_data m (ep_payload p) in (o, m', ep_set_payload_field q p).
(** ~CPFPacket (implicit): the vector destroys its items. *)
Fixpoint cpf_destroy (m : heap) (l : cpf_packet) : outcome unit * heap :=
  match l with
  | [] => (Ret tt, m)
  | i :: l' => match drop_data m (it_data i) with (Ret _, m') => cpf_destroy m' l' | o => o end
  end.

(** Bytes allocated with new char[] and not yet deleted. *)
Definition heap_bytes (m : heap) : N :=
  fold_right (fun b n => match b with Some bs => len bs + n | None => n end) 0 m.
