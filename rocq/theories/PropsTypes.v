(** * Properties C101, C102: typed attributes, reused objects. Each proof is one [exact]. *)
From Verif Require Import PTypes.
Local Open Scope N_scope.

(** ** C101: Attribute values of every elementary type are set and read unchanged *)
(** Set: the bytes are the value in two's complement. *)
Theorem C101_set_partial : forall t w c i a v, rbuf_ok w -> c < 256 -> i < 256 -> a < 256 ->
  let req := set_request (se_id (w_se w)) c i a (twos (width t) v) in
  exists o w', setAttribute t c i a v w = (o, w') /\ exchanged w req w' /\
  forall got sv ad q, reply_of (w_ctl w) req = Reply got -> answers (se_id (w_se w)) got sv 0 ad q -> o = Ret tt.
Proof. exact typed_set. Qed.
Print Assumptions C101_set_partial.
Example C101_set_example : let w := w9 [RxData (explicit_reply 9 0x90 0 [])] [] in
  rbuf_ok w /\ twos (width EDint) (-2147483648) = [x00; x00; x00; x80] /\ exists w', setAttribute EDint 1 2 3 (-2147483648) w = (Ret tt, w').
Proof. exact set_typed_example. Qed.
(** Get: every value of every type is returned as it is. *)
Theorem C101_get_partial : forall t junk w c i a got sv ad v rest, rbuf_ok w -> c < 256 -> i < 256 -> a < 256 -> in_range t v ->
  reply_of (w_ctl w) (get_request (se_id (w_se w)) c i a) = Reply got -> answers (se_id (w_se w)) got sv 0 ad (twos (width t) v ++ rest) ->
  exists w', getAttribute t junk c i a w = (Ret v, w') /\ exchanged w (get_request (se_id (w_se w)) c i a) w'.
Proof. exact typed_get. Qed.
Print Assumptions C101_get_partial.
Example C101_get_example : let w := w9 [RxData (explicit_reply 9 0x8E 0 [xfe; xff])] [] in
  rbuf_ok w /\ in_range EInt (-2) /\ reply_of (w_ctl w) (get_request (se_id (w_se w)) 1 2 3) = Reply (explicit_reply 9 0x8E 0 [xfe; xff]) /\
  answers (se_id (w_se w)) (explicit_reply 9 0x8E 0 [xfe; xff]) 0x8E 0 [] (twos (width EInt) (-2) ++ []) /\
  exists w', getAttribute EInt 77 1 2 3 w = (Ret (-2)%Z, w').
Proof. exact get_typed_example. Qed.
(** Set, other operations, get, against a conforming target. *)
Theorem C101_round_partial : forall u w x y z ty v ops rs w1 junk v' w2 es t t', session_ok w -> user_memory u w -> in_range ty v -> x < 256 -> y < 256 -> z < 256 ->
  Forall (op_ok u) ops -> Forall (fun o => ~ is_open_close o) ops -> Forall (fun o => ~ sets o (x, y, z)) ops ->
  exec (OpSet x y z (Some (prim_ser (width ty) (e_rep ty v))) :: ops) w = (Ret RUnit :: rs, w1) -> getAttribute ty junk x y z w1 = (Ret v', w2) ->
  gained w w2 es -> agrees (w_se w) t -> numbers_ok (w_se w) -> conforms t (ctl_talk es) t' -> v' = v.
Proof. exact typed_round. Qed.
Print Assumptions C101_round_partial.
(** The rest of the hypotheses hold as in C73_example. *)
Example C101_round_example : in_range EInt 513 /\ Some (prim_ser 2 513) = Some (prim_ser (width EInt) (e_rep EInt 513)) /\
  exists rs w1 w2, exec chat_ops chat_world = (Ret RUnit :: rs, w1) /\ getAttribute EInt 0 1 2 3 w1 = (Ret 513%Z, w2).
Proof. exact typed_round_example. Qed.
(** A byte other than 0 and 1 for an EIP_BOOL is undefined behaviour in the client. *)
Theorem C101_bool_refuted : forall junk w c i a got sv ad b rest, rbuf_ok w -> c < 256 -> i < 256 -> a < 256 -> b <> x00 -> b <> x01 ->
  reply_of (w_ctl w) (get_request (se_id (w_se w)) c i a) = Reply got -> answers (se_id (w_se w)) got sv 0 ad (b :: rest) ->
  exists w', getAttribute EBool junk c i a w = (Undef Indeterminate, w').
Proof. exact bool_trap. Qed.
Print Assumptions C101_bool_refuted.
Example C101_bool_example : let w := w9 [RxData (explicit_reply 9 0x8E 0 [xff])] [] in
  rbuf_ok w /\ reply_of (w_ctl w) (get_request (se_id (w_se w)) 1 2 3) = Reply (explicit_reply 9 0x8E 0 [xff]) /\
  answers (se_id (w_se w)) (explicit_reply 9 0x8E 0 [xff]) 0x8E 0 [] [xff].
Proof. exact bool_example. Qed.

(** ** C102: Decoding into a used object is decoding into a fresh one *)
Theorem C102_classes_partial : forgets hdr_cls /\ forgets ep_cls /\ forgets it_cls /\ forgets cpf_cls /\ forgets mq_cls /\ forgets ms_cls /\ forgets rr_base_cls /\
  forgets rrq_cls /\ forgets rrs_cls /\ forgets rg_cls /\ forgets sa_cls /\ forgets id_cls /\ forgets fo_cls /\ forgets fc_cls /\ forgets fs_cls /\ forgets cs_cls /\
  (forall k, forgets (prim_cls k)).
Proof. exact all_forget. Qed.
Print Assumptions C102_classes_partial.
Example C102_example : let m := [Some (bl [1;0;7;0;0;0;9;0])] in
  c_des sa_cls m (RBuf (mkV 0 0 8) 0) (mkSA 5 6) = (Ret tt, m, RBuf (mkV 0 8 0) 8, mkSA 0x70001 0x90000) /\
  c_des sa_cls m (RBuf (mkV 0 0 8) 0) (mkSA 0 0) = (Ret tt, m, RBuf (mkV 0 8 0) 8, mkSA 0x70001 0x90000).
Proof. exact reuse_example. Qed.
(** With a sequence number: unless a decode failed before (C31_reuse_refuted). *)
Theorem C102_sequenced_partial : forall T (c : cls T) q0 q1, sq_busy q0 = false -> sq_busy q1 = false ->
  (same_into (c_des c) (sq_base q0) (sq_base q1) -> same_into (sq_deserialize c) q0 q1) /\
  (forall n, same_into (c_des c) (sq_base q0) (sq_base q1) -> same_into (deserialize_len c (sq_sublen n)) (sq_base q0) (sq_base q1) -> same_into (sq_deserialize_len c n) q0 q1).
Proof. exact @sequenced_alike. Qed.
Print Assumptions C102_sequenced_partial.
Example C102_sequenced_example : let m := [Some (bl [1;0;7;0;0;0;9;0])] in let q0 := sq_make (mkSA 5 6) 3 in let q1 := sq_make (mkSA 0 0) 0 in
  sq_busy q0 = false /\ sq_busy q1 = false /\ same_into (c_des sa_cls) (sq_base q0) (sq_base q1) /\ exists s r q,
  sq_deserialize sa_cls m (RBuf (mkV 0 0 8) 0) q0 = (Throw LengthError s, m, r, q) /\ sq_busy q = true.
Proof. exact reuse_seq_example. Qed.
(** A raw buffer object that owns no memory. *)
Theorem C102_buffer_partial : forall n t0 t1, sb_alloc t0 = None -> sb_alloc t1 = None -> same_into (sb_deserialize_len n) t0 t1.
Proof. exact buffer_alike. Qed.
Print Assumptions C102_buffer_partial.
Example C102_buffer_example : let m := [Some (bl [1;2;3;4])] in
  sb_deserialize_len 3 m (RBuf (mkV 0 0 4) 0) (sb_of_view (mkV 0 0 2)) = (Ret tt, m, RBuf (mkV 0 3 1) 3, sb_of_view (mkV 0 0 3)).
Proof. vm_compute. reflexivity. Qed.
