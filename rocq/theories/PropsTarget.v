(** * Properties C71 - C74: length-limited decoding, I/O end to end, agreement with a target.

    Statements only; every proof is in the P*.v files.  The words used are defined in
    Spec.v (byte formats) and Vocab2.v - Vocab7.v. *)
From Verif Require Import PLen.

(** ** C71 A decode told its length stays within it: violated by most classes *)
Theorem C71_within_partial : stays_within hdr_cls /\ stays_within ep_cls /\ stays_within it_cls /\ stays_within sbuf_cls.
Proof. exact within_all. Qed.
Print Assumptions C71_within_partial.
(** A CPF packet ignores the length it is given: whatever [n], it takes the packet it finds. *)
Theorem C71_cpf_refuted : forall n m v c p0 xs rest, cpf_ok xs -> reads m v (cpf xs ++ rest) ->
  exists p, deserialize_len cpf_cls n m (RBuf v c) p0 = (Ret tt, m, RBuf (view_drop v (len (cpf xs))) (c + len (cpf xs)), p) /\ Forall2 (item_is m) p xs.
Proof. exact cpf_takes. Qed.
Print Assumptions C71_cpf_refuted.
(** These classes decode more bytes than they were told belong to them. *)
Theorem C71_classes_refuted :
  takes_more rg_cls 0 /\ takes_more sa_cls 0 /\ takes_more id_cls 0 /\ takes_more fs_cls 0 /\ takes_more cs_cls 0 /\ takes_more (prim_cls 4) 0 /\
  takes_more rr_base_cls 0 /\ takes_more (sq_cls (prim_cls 4)) 0 /\ takes_more ms_cls 3.
Proof. exact takers. Qed.
Print Assumptions C71_classes_refuted.
(** The router reply checks its four fixed bytes, not the additional status behind them. *)
Theorem C71_router_refuted : exists m v a m' v' k' t', reads m v (router_reply 0x8E 0 0 [x01; x02] []) /\
  deserialize_len ms_cls 4 m (RBuf v 0) (mkMRR 0 0 None None) = (Ret a, m', RBuf v' k', t') /\ k' = 6.
Proof. exact router_takes. Qed.
Print Assumptions C71_router_refuted.
Example C71_example : exists sb, deserialize_len sbuf_cls 40 mem100 (RBuf v100 5) (mkSB (mkV 0 0 0) None) = (Ret tt, mem100, RBuf (mkV 0 40 60) 45, sb).
Proof. eexists. vm_compute. reflexivity. Qed.
Example C71_example_item : exists m v m' v' i, deserialize_len it_cls 7 m (RBuf v 1) (it_make 0 None) = (Ret tt, m', RBuf v' 8, i) /\ it_type i = 0xB2.
Proof. exists [Some (item (0xB2, [x01; x02; x03]) ++ [x09])], (mkV 0 0 8). do 3 eexists. split; [vm_compute; reflexivity|reflexivity]. Qed.
Example C71_example_cpf : cpf_ok [(0xB1, [x01])] /\ reads [Some (cpf [(0xB1, [x01])] ++ [x07])] (mkV 0 0 8) (cpf [(0xB1, [x01])] ++ [x07]).
Proof. split; [|vm_compute; reflexivity]. split; [|reflexivity]. constructor; [split; reflexivity|constructor]. Qed.

(** ** C72 I/O end to end: what one session sends, another one extracts *)
(** Any packet that fits the receive buffer. *)
Theorem C72_packet_partial : forall w p xs o w', rbuf_ok w -> carries (w_mem w) (cpf_ser p) (cpf xs) -> cpf_ok xs -> len (cpf xs) <= 4096 ->
  sendIOPacket p w = (o, w') -> returned o ->
  exists n, gained w w' [ESend Io (cpf xs) (Some n)] /\
    forall v rs, rbuf_ok v -> so_recv (w_io v) = RxData (cpf xs) :: rs -> exists q v', receiveIOPacket v = (Ret q, v') /\ Forall2 (item_is (w_mem v')) q xs.
Proof. exact io_through. Qed.
Print Assumptions C72_packet_partial.
(** The sequenced pair of items of a connected transport, with data of any class but a raw
    buffer and an encapsulation header (see C30). *)
Theorem C72_sequenced_partial : forall (T : Type) (c : cls T) w cid seq num s data val o w', rbuf_ok w -> fits 4 cid -> fits 4 seq -> fits 2 num ->
  carries (w_mem w) s data -> len data <= 4074 -> c_sb c = None -> own_length c -> reads_as c data val ->
  sendIOPacket [it_make 0x8002 (Some (sa_ser (sa_make cid seq))); it_make 0xB1 (Some (sq_ser num s))] w = (o, w') -> returned o ->
  exists bs n, gained w w' [ESend Io bs (Some n)] /\
    forall v rs, rbuf_ok v -> so_recv (w_io v) = RxData bs :: rs -> exists i0 i1 v', receiveIOPacket v = (Ret [i0; i1], v') /\
      (forall r g, it_getDataAs sa_cls i0 (w_mem v') r g = (Ret tt, w_mem v', r, mkSA cid seq)) /\
      (forall r b0 n0, exists m', it_getDataAs (sq_cls c) i1 (w_mem v') r (mkSeq b0 n0 false) = (Ret tt, m', r, mkSeq val num false)).
Proof. exact @seq_through. Qed.
Print Assumptions C72_sequenced_partial.
(** A longer packet is sent all the same, but no receiver decodes it. *)
Theorem C72_oversize_refuted : forall xs v rs o v', cpf_ok xs -> 4096 < len (cpf xs) -> rbuf_ok v ->
  so_recv (w_io v) = RxData (cpf xs) :: rs -> receiveIOPacket v = (o, v') -> exists s, o = Throw LengthError s.
Proof. exact io_oversize. Qed.
Print Assumptions C72_oversize_refuted.
(** With a raw buffer behind the sequence number, the number stays in the data and the wrapper keeps its old one. *)
Theorem C72_raw_refuted : forall m i num data r b0 n0 f, item_is m i (0xB1, le 2 num ++ data) ->
  exists sb, it_getDataAs (sq_cls sbuf_cls) i m r (mkSeq b0 n0 f) = (Ret tt, m, r, mkSeq sb n0 f) /\ reads m (sb_data sb) (le 2 num ++ data).
Proof. exact seq_raw. Qed.
Print Assumptions C72_raw_refuted.
Example C72_example : rbuf_ok (w9 [] []) /\ carries (w_mem (w9 [] [])) (prim_ser 4 0x01020304) (le 4 0x01020304) /\
  reads_as (prim_cls 4) (le 4 0x01020304) 0x01020304 /\
  exists w', sendIOPacket io_pair (w9 [] []) = (Ret tt, w') /\ gained (w9 [] []) w' [ESend Io io_pair_bytes (Some (len io_pair_bytes))] /\
  exists q v', receiveIOPacket (w9 [] [RxData io_pair_bytes]) = (Ret q, v') /\ len q = 2.
Proof.
  split; [apply rbuf_w9|]. split; [apply carries_prim|]. split; [apply prim_reads_as; reflexivity|].
  eexists. split; [vm_compute; reflexivity|]. split; [vm_compute; reflexivity|]. do 2 eexists. split; [vm_compute; reflexivity|reflexivity].
Qed.
Example C72_example_packet : carries (w_mem (w9 [] [])) (cpf_ser io_pair) io_pair_bytes /\ len io_pair_bytes <= 4096.
Proof. split; [|vm_compute; discriminate]. exact (proj1 (seq_items_carry _ 7 3 5 _ _ eq_refl eq_refl eq_refl (carries_prim _ 4 0x01020304) eq_refl)). Qed.
Example C72_example_oversize : cpf_ok [(0xB1, zeros 4100)] /\ 4096 < len (cpf [(0xB1, zeros 4100)]) /\
  exists w', sendIOPacket [big_item] big_world = (Ret tt, w') /\ exists n, gained big_world w' [ESend Io (cpf [(0xB1, zeros 4100)]) (Some n)].
Proof. split; [|split; [vm_compute; reflexivity|exact big_sent]]. split; [|reflexivity]. constructor; [split; vm_compute; reflexivity|constructor]. Qed.
Example C72_example_raw : exists i, item_is [Some (le 2 5 ++ [x01])] i (0xB1, le 2 5 ++ [x01]).
Proof.
  exists (it_make 0xB1 (Some (ser_of_sbuf (mkSB (mkV 0 0 3) None)))). split; [reflexivity|]. split; [discriminate|]. eexists. split; reflexivity.
Qed.

(** ** C73 What is set is what is read back, against any conforming target *)
Theorem C73_set : forall w x y z d data w' es t t', rbuf_ok w -> x < 256 -> y < 256 -> z < 256 -> carries_opt (w_mem w) d data ->
  setSingleAttributeSerializable x y z d w = (Ret tt, w') -> gained w w' es -> tg_session t = se_id (w_se w) -> conforms t (ctl_talk es) t' ->
  t' = put_attr (x, y, z) data t.
Proof. exact set_target. Qed.
Print Assumptions C73_set.
Theorem C73_set_raised : forall w x y z d data o w' es t t', rbuf_ok w -> x < 256 -> y < 256 -> z < 256 -> carries_opt (w_mem w) d data ->
  setSingleAttributeSerializable x y z d w = (o, w') -> ~ returned o -> gained w w' es -> tg_session t = se_id (w_se w) -> conforms t (ctl_talk es) t' -> t' = t.
Proof. exact set_raised. Qed.
Print Assumptions C73_set_raised.
Theorem C73_get : forall w k junk x y z v w' es t t', rbuf_ok w -> x < 256 -> y < 256 -> z < 256 -> getSingleAttribute k junk x y z w = (Ret v, w') ->
  gained w w' es -> tg_session t = se_id (w_se w) -> conforms t (ctl_talk es) t' ->
  fits k v /\ exists rest, tg_attr t (x, y, z) = Some (le k v ++ rest).
Proof. exact get_target. Qed.
Print Assumptions C73_get.
(** Set, any other operations that do not set this attribute, get. *)
Theorem C73_set_get : forall u w x y z d data ops rs w1 k junk v w2 es t t', session_ok w -> user_memory u w -> Forall (op_ok u) (OpSet x y z d :: ops) ->
  carries_opt u d data -> Forall (fun o => ~ is_open_close o) ops -> Forall (fun o => ~ sets o (x, y, z)) ops ->
  exec (OpSet x y z d :: ops) w = (Ret RUnit :: rs, w1) -> getSingleAttribute k junk x y z w1 = (Ret v, w2) ->
  gained w w2 es -> agrees (w_se w) t -> numbers_ok (w_se w) -> conforms t (ctl_talk es) t' ->
  fits k v /\ exists rest, data = le k v ++ rest.
Proof. exact set_get. Qed.
Print Assumptions C73_set_get.
Example C73_example : session_ok chat_world /\ user_memory [] chat_world /\ Forall (op_ok []) chat_ops /\ Forall (fun o => ~ is_open_close o) chat_ops /\
  carries_opt [] (Some (prim_ser 2 513)) (le 2 513) /\ agrees (w_se chat_world) tg9 /\ numbers_ok (w_se chat_world) /\
  conforms tg9 (chat_set ++ chat_rest ++ chat_get) tg_d /\
  exists rs w1 w2, exec chat_ops chat_world = (rs, w1) /\
    (exists s, rs = [Ret RUnit; Ret (RNumber 0); Throw RuntimeError s; Ret (RNumber 1); Ret RUnit]) /\
    getSingleAttribute 2 0 1 2 3 w1 = (Ret 513, w2) /\ gained chat_world w2 (chat_set ++ chat_rest ++ chat_get) /\
    gained chat_world w1 (chat_set ++ chat_rest).
Proof.
  split; [apply session_ok_w9|]. split; [apply user_memory_w9|]. split; [apply chat_ops_ok|]. split; [apply chat_ops_ok|].
  split; [exact (carries_prim _ 2 513)|]. split; [apply agrees_w9|]. split; [apply numbers_w9|]. split; [apply chat|exact chat_runs].
Qed.

(** ** C74 Client and target agree on the open connections: holds while no reply is lost *)
Theorem C74_agree_partial : forall u ops w rs w' es t t', session_ok w -> user_memory u w -> Forall (op_ok u) ops -> Forall (fun o => ~ is_open_close o) ops ->
  exec ops w = (rs, w') -> gained w w' es -> agrees (w_se w) t -> numbers_ok (w_se w) -> conforms t (ctl_talk es) t' ->
  agrees (w_se w') t' /\ numbers_ok (w_se w') /\ forall k, Forall (fun o => ~ sets o k) ops -> tg_attr t' k = tg_attr t k.
Proof. exact exec_target. Qed.
Print Assumptions C74_agree_partial.
(** A lost reply to a forward open: the target holds a connection the client does not know. *)
Theorem C74_lost_open_refuted : forall w a b tg n, session_ok w -> ci_assembly a < 256 -> ci_assembly b < 256 -> agrees (w_se w) tg -> numbers_ok (w_se w) ->
  ~ In (se_next_sn (w_se w), se_vendor (w_se w), se_serial (w_se w)) (tg_conns tg) ->
  events (w_ctl w) (open_request (w_se w) a b) = [ESend Ctl (open_request (w_se w) a b) (Some n); ERecv Ctl None] ->
  exists got tg' s w', serves tg (open_request (w_se w) a b) got tg' /\ createConnection a b w = (Throw SystemError s, w') /\ ~ agrees (w_se w') tg'.
Proof. exact lost_open. Qed.
Print Assumptions C74_lost_open_refuted.
(** A lost reply to a forward close: the client holds a connection the target does not know. *)
Theorem C74_lost_close_refuted : forall w i c tg n, session_ok w -> nth_error (se_conns (w_se w)) (N.to_nat i) = Some c -> agrees (w_se w) tg -> numbers_ok (w_se w) ->
  events (w_ctl w) (close_request (w_se w) c) = [ESend Ctl (close_request (w_se w) c) (Some n); ERecv Ctl None] ->
  exists got tg' s w', serves tg (close_request (w_se w) c) got tg' /\ closeConnection i w = (Throw SystemError s, w') /\ ~ agrees (w_se w') tg'.
Proof. exact lost_close. Qed.
Print Assumptions C74_lost_close_refuted.
Example C74_example : conforms tg9 (chat_set ++ chat_rest) tg_d /\ tg_conns tg_d = [(8, 0x195, 0x4321)].
Proof. split; [apply chat|vm_compute; reflexivity]. Qed.
Example C74_example_lost : agrees (w_se (w9 [RxFail] [])) tg9 /\ numbers_ok (w_se (w9 [RxFail] [])) /\
  exists n, events (w_ctl (w9 [RxFail] [])) (open_request (w_se (w9 [RxFail] [])) ci0 ci0) =
            [ESend Ctl (open_request (w_se (w9 [RxFail] [])) ci0 ci0) (Some n); ERecv Ctl None].
Proof. split; [apply agrees_w9|]. split; [apply numbers_w9|]. eexists. vm_compute. reflexivity. Qed.
Example C74_example_lost_close : exists rs w', exec [OpCreate ci0 ci0] (w9 [RxData (fo_reply 7); RxFail] []) = (rs, w') /\ session_ok w' /\
  exists c n, nth_error (se_conns (w_se w')) (N.to_nat 0) = Some c /\ agrees (w_se w') (mkTarget 9 no_attrs [(7, 0x195, 0x4321)]) /\ numbers_ok (w_se w') /\
    events (w_ctl w') (close_request (w_se w') c) = [ESend Ctl (close_request (w_se w') c) (Some n); ERecv Ctl None].
Proof.
  do 2 eexists. split; [vm_compute; reflexivity|]. split; [split; [eexists; split; [reflexivity|vm_compute; reflexivity]|split; [reflexivity|repeat constructor]]|].
  do 2 eexists. split; [reflexivity|].
  split; [repeat split; discriminate|]. split; [|vm_compute; reflexivity].
  repeat split; try reflexivity; repeat constructor; intros [].
Qed.
