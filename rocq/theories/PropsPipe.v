(** * C134: Through a pipe that breaks, the reader gets exactly the packets whose write returned.
    Statements only; the proofs are in PPipe.v. *)
From Verif Require Import Spec Vocab37 PPipe.
Local Open Scope N_scope.

(** Packets are written one after the other to a stream with exceptions whose sink takes [room]
    bytes in all, until a write raises.  Whoever decodes what the sink took, from a stream with
    exceptions, gets the packets whose write returned, in that order, and then the exception. *)
Theorem C134_pipe put m qs ks room n o m' w : Forall2 (to_send put m) qs ks -> Forall packet_fits ks ->
  write_all (map (ep_serialize_x put) qs) m (WLim [] room false) = (n, o, m', w) ->
  (n <= List.length ks)%nat /\ (o = Ret tt /\ n = List.length ks \/ o = ios_failure /\ (n < List.length ks)%nat) /\
  exists out room' f, w = WLim out room' f /\
    forall h c, (n < c)%nat -> exists rs h' p, read_all ep_deserialize_x c h (RStr out 0 false) = (rs, ios_failure, h', RStr out p true) /\
      hext h h' /\ Forall2 (received h') rs (firstn n ks).
Proof. exact (pipe put m qs ks room n o m' w). Qed.
Print Assumptions C134_pipe.
(** Two packets, the second cut in its last byte. *)
Example C134_example_pipe : let put := fun _ : ser => rg_serialize_x (mkReg 1 0) in
  let k1 := mkPacket 0x65 0 0 0 0 0 [x01; x00; x00; x00] in let k2 := mkPacket 0x66 7 0 0 0 0 [] in let k3 := mkPacket 0x65 9 0 1 2 0 [x01; x00; x00; x00] in
  let qs := [mkEP (packet_header k1) (Some (rg_ser (mkReg 1 0))); mkEP (packet_header k2) None; mkEP (packet_header k3) (Some (rg_ser (mkReg 1 0)))] in
  Forall2 (to_send put []) qs [k1; k2; k3] /\ Forall packet_fits [k1; k2; k3] /\
  (exists w, write_all (map (ep_serialize_x put) qs) [] (WLim [] 79 false) = (2%nat, ios_failure, [], w) /\
     w = WLim (packet_frame k1 ++ packet_frame k2 ++ take 27 (packet_frame k3)) 0 true) /\
  exists rs h p, read_all ep_deserialize_x 5 [] (RStr (packet_frame k1 ++ packet_frame k2 ++ take 27 (packet_frame k3)) 0 false) = (rs, ios_failure, h, p) /\
    List.map ep_header rs = [packet_header k1; packet_header k2].
Proof.
  cbv zeta. split; [|split; [|split]].
  - assert (P : part (fun _ => rg_serialize_x (mkReg 1 0)) [] (Some (rg_ser (mkReg 1 0))) [x01; x00; x00; x00])
      by (split; [reflexivity|]; split; [exact (proj2 (rg_carries [] (mkReg 1 0)))|apply sf_rg]).
    constructor; [split; [reflexivity|exact P]|]. constructor; [split; reflexivity|]. constructor; [split; [reflexivity|exact P]|constructor].
  - repeat constructor.
  - eexists. split; vm_compute; reflexivity.
  - do 3 eexists. split; vm_compute; reflexivity.
Qed.

(** Without exceptions at the two ends, for every packet cut in its data: the write returns, and the
    reader takes a packet with zeros for the missing bytes, which nobody sent. *)
Theorem C134_without m p k room h x : carries_opt m p (k_data k) -> packet_fits k -> 24 <= room -> room < 24 + len (k_data k) ->
  exists out, ep_serialize (mkEP (packet_header k) p) m (WLim [] room false) = (Ret tt, m, WLim out 0 true) /\
  exists h' r q, ep_deserialize h (RStr out 0 false) x = (Ret tt, h', r, q) /\ ep_header q = packet_header k /\
    holds h' (ep_payload q) (take (room - 24) (k_data k) ++ zeros (24 + len (k_data k) - room)).
Proof. exact (pipe_quiet m p k room h x). Qed.
Print Assumptions C134_without.
Example C134_example_without : let k := mkPacket 0x65 0 0 0 0 0 [x01; x00; x07; x07] in
  let m := [Some [x01; x00; x07; x07]] in let p := Some (ser_of_sbuf (sb_of_view (mkV 0 0 4))) in
  carries_opt m p (k_data k) /\ packet_fits k /\
  exists r q, ep_deserialize [] (RStr (take 26 (packet_frame k)) 0 false) (ep_make0 0 0) = (Ret tt, [Some [x01; x00; x00; x00]], r, q).
Proof.
  cbv zeta. split; [|split].
  - apply holds_carries. split; [discriminate|]. eexists. split; [reflexivity|]. vm_compute. reflexivity.
  - repeat constructor.
  - do 2 eexists. vm_compute. reflexivity.
Qed.
