(** * C133: With exceptions enabled on the stream, an incomplete write is always reported.
    Statements only; the proofs are in PStrictOut.v. *)
From Verif Require Import Spec Vocab36 PStrictOut.
Local Open Scope N_scope.

(** The sink takes the same bytes as from the write without exceptions, and the write ends in the
    same way if it took all of them; if it did not, the write raises. *)
Theorem C133_same :
  (forall h, same_or_fails (s_serialize (hdr_ser h)) (hdr_serialize_x h)) /\
  (forall s, same_or_fails (s_serialize (ser_of_sbuf s)) (sb_serialize_x s)) /\
  (forall k v, same_or_fails (s_serialize (prim_ser k v)) (prim_serialize_x k v)) /\
  (forall g, same_or_fails (s_serialize (rg_ser g)) (rg_serialize_x g)) /\
  (forall a, same_or_fails (s_serialize (sa_ser a)) (sa_serialize_x a)) /\
  (forall i, same_or_fails (s_serialize (id_ser i)) (id_serialize_x i)) /\
  (forall f, same_or_fails (s_serialize (fo_ser f)) (fo_serialize_x f)) /\
  (forall f, same_or_fails (s_serialize (fc_ser f)) (fc_serialize_x f)) /\
  (forall p, same_or_fails (path_serialize p) (path_serialize_x p)) /\
  (forall put p, part_safe put (ep_payload p) -> same_or_fails (s_serialize (ep_ser p)) (ep_serialize_x put p)) /\
  (forall put i, part_safe put (it_data i) -> same_or_fails (s_serialize (it_ser i)) (it_serialize_x put i)) /\
  (forall put p, Forall (fun i => part_safe put (it_data i)) p -> same_or_fails (s_serialize (cpf_ser p)) (cpf_serialize_x put p)) /\
  (forall put q, part_safe put (mq_data q) -> same_or_fails (s_serialize (mq_ser q)) (mq_serialize_x put q)) /\
  (forall X put d (r : rr_data X), (forall p, d = Ret p -> part_safe put p) -> same_or_fails (s_serialize (rr_ser d r)) (rr_serialize_x put d r)) /\
  (forall n b B, same_or_fails (s_serialize b) B -> same_or_fails (s_serialize (sq_ser n b)) (sq_serialize_x n B)).
Proof. exact out_same. Qed.
Print Assumptions C133_same.
(** A packet of 26 bytes on a sink with room for 25: without exceptions the call returns. *)
Example C133_example_same : let m := [Some [x01; x02]] in let s := ser_of_sbuf (sb_of_view (mkV 0 0 2)) in
  let p := mkEP (mkHdr 0x6F 2 7 0 0 0 0) (Some s) in let put := fun _ : ser => sb_serialize_x (sb_of_view (mkV 0 0 2)) in
  part_safe put (ep_payload p) /\
  ep_serialize p m (WLim [x09] 25 false) = (Ret tt, m, WLim (x09 :: take 25 (frame 0x6F 7 0 0 0 0 [x01; x02])) 0 true) /\
  ep_serialize_x put p m (WLim [x09] 25 false) = (ios_failure, m, WLim (x09 :: take 25 (frame 0x6F 7 0 0 0 0 [x01; x02])) 0 true) /\
  ep_serialize_x put p m (WLim [x09] 26 false) = (Ret tt, m, WLim (x09 :: frame 0x6F 7 0 0 0 0 [x01; x02]) 0 false).
Proof. cbv zeta. split; [|split; [|split]]; [apply sf_view|vm_compute; reflexivity ..]. Qed.

(** A write that raises has put the longest prefix that fits into the sink, and is told apart
    from a complete one. *)
Theorem C133_told m X bs : delivers m X bs -> forall out room o m' w, X m (WLim out room false) = (o, m', w) ->
  m' = m /\ ((o = Ret tt /\ len bs <= room /\ w = WLim (out ++ bs) (room - len bs) false) \/
   (o = ios_failure /\ room < len bs /\ exists rest, rest <> [] /\ bs = take room bs ++ rest /\ w = WLim (out ++ take room bs) 0 true)).
Proof. exact (out_told m X bs). Qed.
Print Assumptions C133_told.
Example C133_example_told : delivers [] (prim_serialize_x 4 0x01020304) [x04; x03; x02; x01] /\
  prim_serialize_x 4 0x01020304 [] (WLim [] 3 false) = (ios_failure, [], WLim [x04; x03; x02] 0 true).
Proof. split; [|vm_compute; reflexivity]. exact (proj1 (proj2 (proj2 (out_small [] (mkReg 1 0) (mkSA 0 0) 4 0x01020304 sb_empty [])))). Qed.

(** So it is for every message, whatever it carries ([part]: the bytes [d]). *)
Theorem C133_header m h : delivers m (hdr_serialize_x h)
  (header (h_command h) (h_length h) (h_session h) (h_status h) (h_ctx0 h) (h_ctx1 h) (h_options h)).
Proof. exact (out_header m h). Qed.
Print Assumptions C133_header.
Example C133_example_header : exists w, hdr_serialize_x (mkHdr 0x63 0 0 0 0 0 0) [] (WLim [] 1 false) = (ios_failure, [], w) /\ w = WLim [x63] 0 true.
Proof. eexists. split; vm_compute; reflexivity. Qed.

Theorem C133_packet put m cmd handle p d : part put m p d ->
  exists q, ep_make cmd handle p = Ret q /\ delivers m (ep_serialize_x put q) (request cmd handle d).
Proof. exact (out_packet put m cmd handle p d). Qed.
Print Assumptions C133_packet.
Example C133_example_packet : part (fun _ => rg_serialize_x (mkReg 1 0)) [] (Some (rg_ser (mkReg 1 0))) [x01; x00; x00; x00].
Proof. split; [reflexivity|]. split; [exact (proj2 (rg_carries [] (mkReg 1 0)))|apply sf_rg]. Qed.

Theorem C133_items put m its xs : Forall2 (item_part put m) its xs -> delivers m (cpf_serialize_x put its) (cpf xs).
Proof. exact (out_cpf put m its xs). Qed.
Print Assumptions C133_items.
Example C133_example_items : let put := fun _ : ser => sa_serialize_x (mkSA 5 6) in
  let its := [it_make 0x8002 (Some (sa_ser (mkSA 5 6))); it_null] in
  Forall2 (item_part put []) its [(0x8002, seq_address 5 6); (0, [])] /\
  cpf_serialize_x put its [] (WLim [] 17 false) = (ios_failure, [], WLim (take 17 (cpf [(0x8002, seq_address 5 6); (0, [])])) 0 true).
Proof.
  cbv zeta. split; [|vm_compute; reflexivity]. constructor; [|constructor; [split; reflexivity|constructor]].
  split; [reflexivity|]. split; [reflexivity|]. split; [exact (proj2 (sa_carries [] (mkSA 5 6)))|apply sf_sa].
Qed.

Theorem C133_request put m sv pad ss p d : sv < 256 -> len ss < 256 -> part put m p d ->
  delivers m (mq_serialize_x put (mkMRQ sv (path_of pad ss) p)) (router_request sv (epath pad ss) d).
Proof. exact (out_request put m sv pad ss p d). Qed.
Print Assumptions C133_request.
Example C133_example_request : part (fun _ => wret) [] None [] /\
  mq_serialize_x (fun _ => wret) (mkMRQ 0x0E (path_of false [SClass 1; SInstance 1]) None) [] (WLim [] 5 false) =
    (ios_failure, [], WLim [x0e; x02; x20; x01; x24] 0 true).
Proof. split; [reflexivity|vm_compute; reflexivity]. Qed.

Theorem C133_rr X put m (r : rr_data X) p d : part put m p d ->
  delivers m (rr_serialize_x put (Ret p) r) (rr (rr_iface r) (rr_timeout r) [(0, []); (0xB2, d)]).
Proof. exact (out_rr X put m r p d). Qed.
Print Assumptions C133_rr.
Example C133_example_rr : let q := mkMRQ 0x0E (path_of false [SClass 1; SInstance 1]) None in
  let put := fun _ : ser => mq_serialize_x (fun _ => wret) q in
  part put [] (Some (mq_ser q)) (router_request 0x0E (epath false [SClass 1; SInstance 1]) []) /\
  rr_serialize_x put (Ret (Some (mq_ser q))) (mkRR 0 9 tt) [] (WLim [] 20 false) =
    (ios_failure, [], WLim (take 20 (rr 0 9 [(0, []); (0xB2, [x0e; x02; x20; x01; x24; x01])])) 0 true).
Proof.
  cbv zeta. split; [|vm_compute; reflexivity]. split; [vm_compute; reflexivity|]. split; [|apply sf_mq; exact I].
  exact (proj2 (mq_carries [] 0x0E false [SClass 1; SInstance 1] None [] eq_refl eq_refl)).
Qed.

Theorem C133_open m f ss : fo_path f = path_of false ss -> len ss < 256 ->
  fo_tick_size f < 256 -> fo_ticks f < 256 -> fo_multiplier f < 256 -> fo_conn_type f < 256 ->
  delivers m (fo_serialize_x f) (forward_open (fo_tick_size f) (fo_ticks f) (fo_o2t_id f) (fo_t2o_id f) (fo_conn_sn f)
    (fo_vendor f) (fo_orig_sn f) (fo_multiplier f) (fo_o2t_rpi f) (fo_o2t_params f) (fo_t2o_rpi f) (fo_t2o_params f)
    (fo_conn_type f) (epath false ss)).
Proof. exact (out_open m f ss). Qed.
Print Assumptions C133_open.
Example C133_example_open : let f := mkFO 10 14 1 2 3 4 5 0 6 7 8 9 1 (path_of false [SClass 4; SInstance 1]) in
  fo_serialize_x f [] (WLim [] 40 false) =
    (ios_failure, [], WLim (take 40 (forward_open 10 14 1 2 3 4 5 0 6 7 8 9 1 (epath false [SClass 4; SInstance 1]))) 0 true) /\
  fo_serialize_x f [] (WLim [] 44 false) = (Ret tt, [], WLim (forward_open 10 14 1 2 3 4 5 0 6 7 8 9 1 (epath false [SClass 4; SInstance 1])) 0 false).
Proof. cbv zeta. split; vm_compute; reflexivity. Qed.

Theorem C133_close m f ss : fc_path f = path_of false ss -> len ss < 256 -> fc_tick_size f < 256 -> fc_ticks f < 256 ->
  delivers m (fc_serialize_x f) (forward_close (fc_tick_size f) (fc_ticks f) (fc_conn_sn f) (fc_vendor f) (fc_orig_sn f) ss).
Proof. exact (out_close m f ss). Qed.
Print Assumptions C133_close.
Example C133_example_close : let f := mkFC 10 14 3 4 5 (path_of false [SClass 4]) in
  fc_serialize_x f [] (WLim [] 11 false) = (ios_failure, [], WLim (take 11 (forward_close 10 14 3 4 5 [SClass 4])) 0 true).
Proof. vm_compute. reflexivity. Qed.

Theorem C133_identity m i : len (id_sockaddr i) = 16 -> len (id_revision i) = 2 -> len (id_name i) < 256 -> id_state i < 256 ->
  delivers m (id_serialize_x i) (identity_bytes (id_version i) (id_sockaddr i) (id_vendor i) (id_device i) (id_product i)
    (id_revision i) (id_status i) (id_serial i) (id_name i) (id_state i)).
Proof. exact (out_identity m i). Qed.
Print Assumptions C133_identity.
Example C133_example_identity : let i := mkId 1 (zeros 16) 2 3 4 [x01; x02] 5 6 [x41; x42] 3 in
  len (id_sockaddr i) = 16 /\ len (id_revision i) = 2 /\
  id_serialize_x i [] (WLim [] 34 false) = (ios_failure, [], WLim (take 34 (identity_bytes 1 (zeros 16) 2 3 4 [x01; x02] 5 6 [x41; x42] 3)) 0 true).
Proof. cbv zeta. split; [|split]; vm_compute; reflexivity. Qed.

Theorem C133_parts m g a k v s bs :
  delivers m (rg_serialize_x g) (registration (rg_version g) (rg_options g)) /\
  delivers m (sa_serialize_x a) (seq_address (sa_connection a) (sa_sequence a)) /\
  delivers m (prim_serialize_x k v) (le k v) /\
  (reads m (sb_data s) bs -> delivers m (sb_serialize_x s) bs).
Proof. exact (out_small m g a k v s bs). Qed.
Print Assumptions C133_parts.
Example C133_example_parts : reads [Some [x01; x02; x03]] (sb_data (sb_of_view (mkV 0 1 2))) [x02; x03] /\
  sb_serialize_x (sb_of_view (mkV 0 1 2)) [Some [x01; x02; x03]] (WLim [] 1 false) = (ios_failure, [Some [x01; x02; x03]], WLim [x02] 0 true).
Proof. split; vm_compute; reflexivity. Qed.

(** Messages written one after the other are written like one message. *)
Theorem C133_stream m X Y a b : delivers m X a -> delivers m Y b -> delivers m (X ;; Y) (a ++ b).
Proof. exact (delivers_seq m X Y a b). Qed.
Print Assumptions C133_stream.
Example C133_example_stream : delivers [] (rg_serialize_x (mkReg 1 0) ;; prim_serialize_x 1 7) ([x01; x00; x00; x00] ++ [x07]).
Proof. apply delivers_seq; apply (out_small [] (mkReg 1 0) (mkSA 0 0) 1 7 sb_empty []). Qed.

(** A stream that has failed takes nothing more, and every later write raises as well. *)
Theorem C133_failed :
  (forall h, refuses (hdr_serialize_x h)) /\ (forall k v, refuses (prim_serialize_x k v)) /\ (forall g, refuses (rg_serialize_x g)) /\
  (forall a, refuses (sa_serialize_x a)) /\ (forall i, refuses (id_serialize_x i)) /\ (forall f, refuses (fo_serialize_x f)) /\
  (forall f, refuses (fc_serialize_x f)) /\ (forall p, refuses (path_serialize_x p)) /\ (forall put p, refuses (ep_serialize_x put p)) /\
  (forall put i, refuses (it_serialize_x put i)) /\ (forall put p, refuses (cpf_serialize_x put p)) /\ (forall put q, refuses (mq_serialize_x put q)) /\
  (forall X put d (r : rr_data X), refuses (rr_serialize_x put d r)) /\ (forall n B, refuses (sq_serialize_x n B)) /\
  (forall m s bs, reads m (sb_data s) bs -> forall out room, sb_serialize_x s m (WLim out room true) = (ios_failure, m, WLim out room true)).
Proof. exact out_refused. Qed.
Print Assumptions C133_failed.
Example C133_example_failed : (rg_serialize_x (mkReg 1 0)) [] (WLim [x01] 0 true) = (ios_failure, [], WLim [x01] 0 true) /\
  s_serialize (rg_ser (mkReg 1 0)) [] (WLim [x01] 0 true) = (Ret tt, [], WLim [x01] 0 true).
Proof. split; reflexivity. Qed.
