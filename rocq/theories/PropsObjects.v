(** * Properties C75 - C79: several session objects and the life of received data.

    Statements only; every proof is in the P*.v files.  The words used are defined in
    Spec.v (byte formats) and Vocab2.v - Vocab8.v, the objects in Objects.v. *)
From Verif Require Import PWitness6.

(** ** C75 Separate sessions do not interfere *)
Theorem C75_sessions_apart : forall u acts s rs s' j ob l bs, pool_ok u s -> Forall (act_ok u (List.length (st_links s))) acts ->
  Forall (leaves_alone j (ob_link ob)) acts -> alive s j ob -> own_sockets s j ob -> linked s ob l -> buffer s ob bs ->
  run_acts acts s = (rs, s') -> alive s' j ob /\ linked s' ob l /\ buffer s' ob bs.
Proof. exact sessions_apart. Qed.
Print Assumptions C75_sessions_apart.
(** The premise on the pool holds again afterwards, and of the empty pool. *)
Theorem C75_pool_stays_ok : forall u acts s rs s', pool_ok u s -> Forall (act_ok u (List.length (st_links s))) acts -> run_acts acts s = (rs, s') ->
  pool_ok u s' /\ List.length (st_links s') = List.length (st_links s).
Proof. exact pool_stays_ok. Qed.
Print Assumptions C75_pool_stays_ok.
Theorem C75_empty_pool : forall ls, pool_ok [] (mkPool [] ls []).
Proof. exact empty_pool. Qed.
Print Assumptions C75_empty_pool.
Example C75_example : pool_ok [] p9_ex /\ Forall (act_ok [] 2) acts9 /\ fst (run_acts acts9 p9_ex) = [Ret tt; Ret tt; Ret tt; Ret tt; Ret tt] /\
  exists ob l bs, alive p9_ex 1 ob /\ own_sockets p9_ex 1 ob /\ linked p9_ex ob l /\ buffer p9_ex ob bs /\ Forall (leaves_alone 1 (ob_link ob)) acts9.
Proof.
  split; [apply pool_ok_p9|]. split.
  { repeat (apply Forall_cons; [cbn; try exact I|]); [|apply Forall_nil]. repeat split; try reflexivity. right. apply (proj2 (proj2 (proj2 (proj2 (proj2 (proj2 (proj2 (proj2 (proj2 keeps_all))))))))). }
  split; [vm_compute; reflexivity|]. do 3 eexists. split; [reflexivity|]. split.
  { intros k o N A. destruct k as [|[|k]]; [injection A as <-; discriminate|contradiction|destruct k; discriminate]. }
  split; [reflexivity|]. split; [reflexivity|]. repeat constructor; discriminate.
Qed.

(** ** C76 A copied session works on its own: violated *)
(** The copy has the fields and the buffer contents of the original, and its sockets. *)
Theorem C76_copied_partial : forall u s i ob, pool_ok u s -> alive s i ob ->
  exists bs s', copy_session i s = (Ret (List.length (st_objs s)), s') /\ buffer s ob bs /\
  alive s' (List.length (st_objs s)) (mkObj (ob_se ob) (List.length (st_mem s)) (ob_link ob)) /\
  buffer s' (mkObj (ob_se ob) (List.length (st_mem s)) (ob_link ob)) bs /\
  st_links s' = st_links s /\ (forall j b, alive s j b -> alive s' j b) /\ hext (st_mem s) (st_mem s') /\ pool_ok u s'.
Proof. exact copied. Qed.
Print Assumptions C76_copied_partial.
(** Destroying a copy of any open session unregisters the session and closes the sockets
    of the original, which still believes it is open. *)
Theorem C76_destroyed_refuted : forall u s i ob l, pool_ok u s -> alive s i ob -> linked s ob l -> se_id (ob_se ob) <> 0 ->
  exists k s1 s2 l' n tail, copy_session i s = (Ret k, s1) /\ destroy_session k s1 = (Ret tt, s2) /\
    alive s2 i ob /\ linked s2 ob l' /\ l_net l' = l_net l ++ [ESend Ctl (unregister (se_id (ob_se ob))) n] ++ tail /\
    (n = None -> tail = []) /\ (n <> None -> tail = closing (l_ctl l) (l_io l)).
Proof. exact copy_destroyed. Qed.
Print Assumptions C76_destroyed_refuted.
Example C76_example : exists rs s ob l, run_acts [ACall 0 (OpOpen "h" "p" "q")] p9_ex = (rs, s) /\ pool_ok [] s /\ alive s 0 ob /\ linked s ob l /\ se_id (ob_se ob) = 9.
Proof.
  destruct (run_acts [ACall 0 (OpOpen "h" "p" "q")] p9_ex) as [rs s] eqn:E. exists rs, s. do 2 eexists. split; [reflexivity|]. split.
  { refine (proj1 (pool_stays_ok [] _ _ _ _ (pool_ok_p9 _ _ _ _) _ E)). repeat constructor. }
  vm_compute in E. injection E as <- <-. split; [reflexivity|]. split; [reflexivity|reflexivity].
Qed.

(** ** C77 No two sessions use the same connection key: violated *)
(** Sessions with different vendor and serial number never do, whatever they do. *)
Theorem C77_originators_partial : forall u w1 w2 ops1 ops2 rs1 rs2 w1' w2', session_ok w1 -> user_memory u w1 -> Forall (op_ok u) ops1 ->
  session_ok w2 -> user_memory u w2 -> Forall (op_ok u) ops2 ->
  se_conns (w_se w1) = [] -> se_conns (w_se w2) = [] -> originator (w_se w1) <> originator (w_se w2) ->
  exec ops1 w1 = (rs1, w1') -> exec ops2 w2 = (rs2, w2') ->
  next_key (w_se w1') <> next_key (w_se w2') /\ forall k, In k (map conn_key (se_conns (w_se w1'))) -> ~ In k (map conn_key (se_conns (w_se w2'))).
Proof. exact keys_apart. Qed.
Print Assumptions C77_originators_partial.
(** Sessions made in the same second with the same vendor and serial number start with
    the same connection key and the same connection ids, whatever the generator. *)
Theorem C77_same_second_refuted : forall gen time vendor serial k1 k2 s s' i1 i2 s1 s2,
  new_session gen time vendor serial k1 s = (i1, s1) -> new_session gen time vendor serial k2 s' = (i2, s2) ->
  exists ob1 ob2, alive s1 i1 ob1 /\ alive s2 i2 ob2 /\ next_key (ob_se ob1) = next_key (ob_se ob2) /\ se_next_id (ob_se ob1) = se_next_id (ob_se ob2).
Proof. exact same_second. Qed.
Print Assumptions C77_same_second_refuted.
(** A target that has the connection of the one refuses that of the other. *)
Theorem C77_second_refuted : forall s o t got tg t', tg_session tg = se_id s -> key_fits (next_key s) -> In (next_key s) (tg_conns tg) ->
  serves tg (open_request s o t) got t' -> t' = tg /\ exists sv st a d, st <> 0 /\ answers (tg_session tg) got sv st a d.
Proof. exact second_refused. Qed.
Print Assumptions C77_second_refuted.
Example C77_example : exists rs w', exec [OpCreate ci0 ci0] (w9 [RxData (fo_reply 7)] []) = (rs, w') /\ map conn_key (se_conns (w_se w')) = [(7, 0x195, 0x4321)] /\
  let w2 := session_make [] (mkSock [] [] [] []) (mkSock [] [] [] []) 0x195 0x4322 7 100 in
  originator (w_se (w9 [RxData (fo_reply 7)] [])) <> originator (w_se w2) /\ session_ok w2 /\ user_memory [] w2.
Proof.
  do 2 eexists. split; [vm_compute; reflexivity|]. split; [vm_compute; reflexivity|]. cbv zeta. split; [vm_compute; discriminate|]. split; [apply session_ok_make|apply user_memory_make].
Qed.
Example C77_example_target : let s := w_se (w9 [] []) in let tg := mkTarget 9 no_attrs [next_key s] in
  tg_session tg = se_id s /\ key_fits (next_key s) /\ In (next_key s) (tg_conns tg) /\ exists got, serves tg (open_request s ci0 ci0) got tg.
Proof.
  cbv zeta. split; [reflexivity|]. split; [repeat split; reflexivity|]. split; [left; reflexivity|].
  exists (explicit_reply 9 0xDB 1 []). apply serves_refuse with (sv := 0xDB) (st := 1) (a := []) (d := []); [discriminate|].
  rewrite <- (app_nil_r (explicit_reply 9 0xDB 1 [])). apply answers_reply; [reflexivity|discriminate|reflexivity..].
Qed.

(** ** C78 Received data outlives the session: violated *)
(** Using and destroying other sessions does not disturb it. *)
Theorem C78_others_partial : forall u acts s rs s' j ob l v bs, pool_ok u s -> Forall (act_ok u (List.length (st_links s))) acts ->
  Forall (leaves_alone j (ob_link ob)) acts -> alive s j ob -> own_sockets s j ob -> linked s ob l -> run_acts acts s = (rs, s') ->
  v_blk v = ob_buf ob -> reads (st_mem s) v bs -> reads (st_mem s') v bs.
Proof. exact data_kept. Qed.
Print Assumptions C78_others_partial.
(** Every item with data of every received packet points into the destroyed session. *)
Theorem C78_packet_refuted : forall u s i ob p s1 s2 it, pool_ok u s -> alive s i ob -> on i receiveIOPacket s = (Ret p, s1) ->
  destroy_session i s1 = (Ret tt, s2) -> In it p -> match it_data it with Some d => dangling (st_mem s2) d | None => True end.
Proof. exact packet_dangles. Qed.
Print Assumptions C78_packet_refuted.
(** So does every attribute read into a raw buffer. *)
Theorem C78_attribute_refuted : forall u s i ob x y z r s1 s2, pool_ok u s -> alive s i ob -> x < 256 -> y < 256 -> z < 256 ->
  on i (get_buffer x y z) s = (Ret r, s1) -> destroy_session i s1 = (Ret tt, s2) -> dangling (st_mem s2) (ser_of_sbuf r).
Proof. exact buffer_dangles. Qed.
Print Assumptions C78_attribute_refuted.
Example C78_example : exists p s1 s2 d, on 0 receiveIOPacket p9_ex = (Ret p, s1) /\ destroy_session 0 s1 = (Ret tt, s2) /\
  In (mkItem 0x8002 (Some d)) p /\ fst (fst (s_serialize d (st_mem s1) (WStr []))) = Ret tt.
Proof.
  do 4 eexists. split; [vm_compute; reflexivity|]. split; [vm_compute; reflexivity|]. split; [left; reflexivity|]. vm_compute. reflexivity.
Qed.
Example C78_example_attribute : exists rs s r s1 s2, run_acts [ACall 0 (OpOpen "h" "p" "q")] p9_ex = (rs, s) /\
  on 0 (get_buffer 1 1 1) s = (Ret r, s1) /\ destroy_session 0 s1 = (Ret tt, s2) /\ fst (fst (s_serialize (ser_of_sbuf r) (st_mem s1) (WStr []))) = Ret tt.
Proof.
  do 5 eexists. split; [vm_compute; reflexivity|]. split; [vm_compute; reflexivity|]. split; [vm_compute; reflexivity|]. vm_compute. reflexivity.
Qed.

(** ** C79 An attribute read into a raw buffer keeps its value: violated *)
(** It does until the session receives something. *)
Theorem C79_quiet_partial : forall u w x y z t r w1 ops rs w2 es d, session_ok w1 -> user_memory u w1 -> Forall (op_ok u) ops ->
  getSingleAttributeSerializable sbuf_cls x y z t w = (Ret tt, r, w1) -> reads (w_mem w1) (sb_data r) d ->
  exec ops w1 = (rs, w2) -> gained w1 w2 es -> ~ received es -> reads (w_mem w2) (sb_data r) d.
Proof. exact raw_stays. Qed.
Print Assumptions C79_quiet_partial.
(** The next read, of any attribute, replaces it where the replies overlap. *)
Theorem C79_overwritten_refuted : forall w x y z t r w1 x' y' z' t' r' w2, rbuf_ok w -> x < 256 -> y < 256 -> z < 256 -> x' < 256 -> y' < 256 -> z' < 256 ->
  getSingleAttributeSerializable sbuf_cls x y z t w = (Ret tt, r, w1) ->
  getSingleAttributeSerializable sbuf_cls x' y' z' t' w1 = (Ret tt, r', w2) ->
  exists got sv a d got' sv' a' d',
    reply_of (w_ctl w) (get_request (se_id (w_se w)) x y z) = Reply got /\ answers (se_id (w_se w)) got sv 0 a d /\ reads (w_mem w1) (sb_data r) d /\
    reply_of (w_ctl w1) (get_request (se_id (w_se w1)) x' y' z') = Reply got' /\ answers (se_id (w_se w1)) got' sv' 0 a' d' /\ reads (w_mem w2) (sb_data r') d' /\
    (len a' <= len a -> len a + len d <= len a' + len d' -> reads (w_mem w2) (sb_data r) (take (len d) (drop (len a - len a') d'))).
Proof. exact raw_overwritten. Qed.
Print Assumptions C79_overwritten_refuted.
Example C79_example : exists r w1 r' w2, let w := w9 [RxData (explicit_reply 9 0x8E 0 [x01; x02]); RxData (explicit_reply 9 0x8E 0 [x03; x04; x05])] [] in
  getSingleAttributeSerializable sbuf_cls 1 1 1 sb_empty w = (Ret tt, r, w1) /\ getSingleAttributeSerializable sbuf_cls 1 1 2 sb_empty w1 = (Ret tt, r', w2) /\
  reads (w_mem w1) (sb_data r) [x01; x02] /\ reads (w_mem w2) (sb_data r) [x03; x04].
Proof.
  do 4 eexists. cbv zeta. split; [vm_compute; reflexivity|]. split; [vm_compute; reflexivity|]. split; vm_compute; reflexivity.
Qed.
Example C79_example_quiet : exists r w1 rs w2 es, let w := w9 [RxData (explicit_reply 9 0x8E 0 [x01; x02])] [] in
  getSingleAttributeSerializable sbuf_cls 1 1 1 sb_empty w = (Ret tt, r, w1) /\ exec [OpSendIO [io_item]; OpClose] w1 = (rs, w2) /\ rs = [Ret RUnit; Ret RUnit] /\
  gained w1 w2 es /\ ~ received es.
Proof.
  do 5 eexists. cbv zeta. split; [vm_compute; reflexivity|]. split; [vm_compute; reflexivity|]. split; [reflexivity|]. split; [reflexivity|].
  intros (i & d & H). repeat (destruct H as [H|H]; [discriminate|]). exact H.
Qed.
