(** * Properties C108, C109: memory that nothing was written to.
    Statements only; the proofs are in PFresh.v, PFresh2.v, PFresh3.v. *)
From Verif Require Import Spec Vocab Fresh Vocab17 PFresh3 PWitness3 PWitness4.

(** ** C108 Nothing sent or returned depends on memory nobody wrote *)
(** Any history of calls, in two worlds whose memories have nothing in common but the
    caller's data: every call has the same result, and traffic and session stay the same,
    whatever the locals of createConnection and closeConnection held. *)
Theorem C108_history : forall u g ops w v, Forall (fresh_ok u) ops -> unlike_memory u w v ->
  exists rs w' v', exec ops w = (rs, w') /\ exec_g g ops v = (rs, v') /\ unlike_memory u w' v'.
Proof. exact fresh_history. Qed.
Print Assumptions C108_history.
(** From the constructor on. *)
Theorem C108_session : forall g m ctl io vd sr sn0 cid0 ops, sized g -> Forall (fresh_ok m) ops ->
  exists rs w' v', exec ops (session_make m ctl io vd sr sn0 cid0) = (rs, w') /\
    exec_g g ops (session_make_g g m ctl io vd sr sn0 cid0) = (rs, v') /\ w_net v' = w_net w' /\ w_se v' = w_se w'.
Proof. exact fresh_session. Qed.
Print Assumptions C108_session.
(** The data of received items is the same. *)
Theorem C108_items : forall u w v, unlike_memory u w v ->
  exists o w' v', receiveIOPacket w = (o, w') /\ receiveIOPacket v = (o, v') /\ unlike_memory u w' v' /\
    forall p, o = Ret p -> Forall (same_data (w_mem w') (w_mem v')) p.
Proof. exact fresh_items. Qed.
Print Assumptions C108_items.
(** So are attributes, whatever the object they are decoded into held before. *)
Theorem C108_get : forall u T (c : cls T) x y z t0 t1 w v, unlike_memory u w v -> x < 256 -> y < 256 -> z < 256 -> c_sb c = None -> tight_cls c -> forgets c ->
  exists o t0' t1' w' v', getSingleAttributeSerializable c x y z t0 w = (o, t0', w') /\ getSingleAttributeSerializable c x y z t1 v = (o, t1', v') /\
    unlike_memory u w' v' /\ (o = Ret tt -> t1' = t0').
Proof. exact fresh_get. Qed.
Print Assumptions C108_get.
Theorem C108_value : forall u k j0 j1 x y z w v, unlike_memory u w v -> x < 256 -> y < 256 -> z < 256 ->
  exists o w' v', getSingleAttribute k j0 x y z w = (o, w') /\ getSingleAttribute k j1 x y z v = (o, v') /\ unlike_memory u w' v'.
Proof. exact fresh_value. Qed.
Print Assumptions C108_value.
(** Every class of the library is such a class. *)
Theorem C108_classes :
  tight_cls hdr_cls /\ tight_cls ep_cls /\ tight_cls it_cls /\ tight_cls cpf_cls /\ tight_cls mq_cls /\ tight_cls ms_cls /\
  tight_cls rr_base_cls /\ tight_cls rrq_cls /\ tight_cls rrs_cls /\ tight_cls rg_cls /\ tight_cls sa_cls /\ tight_cls id_cls /\
  tight_cls fo_cls /\ tight_cls fc_cls /\ tight_cls fs_cls /\ tight_cls cs_cls /\ (forall k, tight_cls (prim_cls k)) /\ forall k, tight_cls (sq_cls (prim_cls k)).
Proof. exact tight_library. Qed.
Print Assumptions C108_classes.
(** The scanner's request and results, whatever its arrays and the identity object held. *)
Theorem C108_request : forall g m, sized g -> scan_request_g g m = Ret (request 0x63 0 []).
Proof. exact fresh_request_bytes. Qed.
Print Assumptions C108_request.
Theorem C108_scanner : forall g m inbox, sized g -> scan_run_g g m inbox = scan_run m inbox.
Proof. exact fresh_scan. Qed.
Print Assumptions C108_scanner.
Example C108_example : sized gA /\ Forall (fresh_ok []) ops_fresh /\ exists w' v',
  exec ops_fresh (session_make [] ctl_fresh (mkSock [] [] [] []) 0x195 0x4321 7 100)
    = ([Ret RUnit; Ret (RNumber 0); Ret RUnit; Ret RUnit], w') /\
  exec_g gA ops_fresh (session_make_g gA [] ctl_fresh (mkSock [] [] [] []) 0x195 0x4321 7 100)
    = ([Ret RUnit; Ret (RNumber 0); Ret RUnit; Ret RUnit], v') /\ w_net v' = w_net w' /\ w_mem v' <> w_mem w'.
Proof. exact (conj gA_sized (conj ops_fresh_ok fresh_example)). Qed.
Example C108_example_items : unlike_memory [] (w_items gZ) (w_items gA) /\ exists p w' v',
  receiveIOPacket (w_items gZ) = (Ret p, w') /\ receiveIOPacket (w_items gA) = (Ret p, v') /\ len p = 2 /\ w_mem w' <> w_mem v' /\
  Forall2 (fun i d => exists s sb, it_data i = Some s /\ s_sbuf s = Some sb /\ reads (w_mem v') (sb_data sb) d) p [seq_address 7 1; [x01; x02; x03]].
Proof. exact items_example. Qed.
Example C108_example_scan : scan_run_g gA [] [inr (device_reply 5)] = [Ret (ScanIdentity (device 5))].
Proof. vm_compute. reflexivity. Qed.

(** ** C109 A decoded packet contains only bytes of the message: violated *)
(** A stream that ends before the promised payload: decoding succeeds, and the packet,
    when it is sent on, carries the rest of the memory block it was given. *)
Theorem C109_leak_refuted : forall g m d p p0 cmd n ses st c0 c1 o part, sized g ->
  fits 2 cmd -> fits 2 n -> fits 4 ses -> fits 4 st -> fits 4 c0 -> fits 4 c1 -> fits 4 o ->
  drop p d = header cmd n ses st c0 c1 o ++ part -> len part < n ->
  exists m' r' x, ep_deserialize_g g m (RStr d p false) p0 = (Ret tt, m', r', x) /\
    carries m' (ep_ser x) (header cmd n ses st c0 c1 o ++ part ++ drop (len part) (g_block g m n)).
Proof. exact sent_on. Qed.
Print Assumptions C109_leak_refuted.
Example C109_example_leak : let d := header 0x6F 8 0 0 0 0 0 ++ [x01; x02; x03] in
  exists m1 r1 p1 m2 r2 p2, ep_deserialize_g gZ [] (RStr d 0 false) (ep_make0 0 0) = (Ret tt, m1, r1, p1) /\
    carries m1 (ep_ser p1) (d ++ zeros 5) /\
    ep_deserialize_g gA [] (RStr d 0 false) (ep_make0 0 0) = (Ret tt, m2, r2, p2) /\ carries m2 (ep_ser p2) (d ++ [xa5; xa5; xa5; xa5; xa5]).
Proof. exact leak_example. Qed.
(** When no read of the stream was cut short, the result does not depend on that memory.
    Missing: streams that end early. *)
Theorem C109_packet_partial : forall g m d p f x o m' r' x', sized g -> ep_deserialize m (RStr d p f) x = (o, m', r', x') -> unfailed r' ->
  ep_deserialize_g g m (RStr d p f) x = (o, m', r', x').
Proof. exact packet_filled. Qed.
Print Assumptions C109_packet_partial.
Theorem C109_items_partial : forall g m d p f x o m' r' x', sized g -> cpf_deserialize m (RStr d p f) x = (o, m', r', x') -> unfailed r' ->
  cpf_deserialize_g g m (RStr d p f) x = (o, m', r', x').
Proof. exact cpf_filled. Qed.
Print Assumptions C109_items_partial.
Example C109_example : exists m1 p1, let d := header 0x6F 3 0 0 0 0 0 ++ [x01; x02; x03] in
  ep_deserialize [] (RStr d 0 false) (ep_make0 0 0) = (Ret tt, m1, RStr d 27 false, p1) /\ unfailed (RStr d 27 false) /\
  ep_deserialize_g gA [] (RStr d 0 false) (ep_make0 0 0) = (Ret tt, m1, RStr d 27 false, p1).
Proof. destruct complete_example as (m1 & p1 & E1 & E2). exists m1, p1. exact (conj E1 (conj eq_refl E2)). Qed.
Example C109_example_items : exists m1 m2 p1, let d := two_items in
  cpf_deserialize [] (RStr d 0 false) [] = (Ret tt, m1, RStr d 21 false, p1) /\ cpf_deserialize_g gA [] (RStr d 0 false) [] = (Ret tt, m2, RStr d 21 false, p1) /\
  m1 = [Some (seq_address 7 1); Some [x01; x02; x03]] /\ m2 = m1.
Proof. do 3 eexists. cbv zeta. split; [vm_compute; reflexivity|]. split; [vm_compute; reflexivity|]. split; vm_compute; reflexivity. Qed.
