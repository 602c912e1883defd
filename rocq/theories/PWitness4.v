(** Concrete worlds for the I/O, transport, thread and scanner properties. *)
From Verif Require Export PTransport PWitness3.

(** ** C53 *)
Lemma io_received w o w' : rbuf_ok w -> receiveIOPacket w = (o, w') ->
  w_ctl w' = w_ctl w /\ w_se w' = w_se w /\ w_io w' = next_recv (w_io w) /\ w_net w' = w_net w ++ io_events (w_io w) /\
  match so_recv (w_io w) with
  | [] => o = Stuck
  | RxFail :: _ => exists s, o = Throw SystemError s
  | RxData d :: _ =>
      (exists xs rest p, cpf_ok xs /\ len (cpf xs) <= 4096 /\ d = cpf xs ++ rest /\ o = Ret p /\ Forall2 (item_is (w_mem w')) p xs) \/
      ((forall xs rest, cpf_ok xs -> len (cpf xs) <= 4096 -> d <> cpf xs ++ rest) /\ exists s, o = Throw LengthError s)
  end.
Proof.
  intros R E. destruct (receive_io w R) as (o1 & w1 & E1 & X1 & _ & _ & _ & X2 & X3 & X4 & X5). rewrite E in E1. injection E1 as <- <-.
  split; [exact X2|]. split; [exact X1|]. split; [exact X3|]. split; [exact X4|].
  destruct (so_recv (w_io w)) as [|[d|] rs]; [exact X5| |exact X5].
  destruct X5 as [(xs & rest & p & A & B & C & D)|[N C]]; [left|right].
  - exists xs, (rest ++ drop 4096 d), p. split; [exact A|]. split.
    { apply (f_equal len) in B. rewrite len_app, len_take in B. lia. }
    split; [|auto]. rewrite app_assoc, <- B. symmetry. apply take_drop.
  - split; [|exact C]. intros xs rest A L Ed. apply (N xs (take (4096 - len (cpf xs)) rest) A). rewrite Ed. apply take_app_ge. exact L.
Qed.
Lemma io_sent w p xs o w' : rbuf_ok w -> carries (w_mem w) (cpf_ser p) (cpf xs) -> sendIOPacket p w = (o, w') ->
  w_ctl w' = w_ctl w /\ w_se w' = w_se w /\ w_io w' = next_send (w_io w) /\
  match sent (w_io w) (cpf xs) with
  | None => (exists s, o = Throw SystemError s) /\ w_net w' = w_net w ++ [ESend Io (cpf xs) None]
  | Some n => o = Ret tt /\ w_net w' = w_net w ++ [ESend Io (cpf xs) (Some n)]
  end.
Proof.
  intros R C E. destruct (send_io w p xs R C) as (o1 & w1 & E1 & X1 & _ & _ & _ & X2 & X3 & X4). rewrite E in E1. injection E1 as <- <-. auto.
Qed.

(** A decoded payload in a concrete memory. *)
Ltac held := split; [discriminate|];
  match goal with |- exists sb, ?s = ser_of_sbuf sb /\ _ =>
    let x := eval vm_compute in (s_sbuf s) in match x with Some ?sb => exists sb end end;
  split; vm_compute; reflexivity.

(** ** C54 *)
Lemma items_hext m m' p xs : hext m m' -> Forall2 (item_is m) p xs -> Forall2 (item_is m') p xs.
Proof. intros H F. induction F as [|i x p xs [A B] F IH]; constructor; [|exact IH]. split; [exact A|]. eapply holds_hext; eassumption. Qed.
Lemma items_stay u w p w1 xs ops rs w2 es : session_ok w1 -> user_memory u w1 -> Forall (op_ok u) ops ->
  receiveIOPacket w = (Ret p, w1) -> Forall2 (item_is (w_mem w1)) p xs ->
  exec ops w1 = (rs, w2) -> gained w1 w2 es -> ~ received es -> Forall2 (item_is (w_mem w2)) p xs.
Proof. intros S U K _ F E G Q. eapply items_hext; [|exact F]. eapply quiet_history; eassumption. Qed.
Lemma items_overwritten : exists w p w1 q w2, session_ok w /\ receiveIOPacket w = (Ret p, w1) /\
  Forall2 (item_is (w_mem w1)) p [(0x8002, [x01])] /\ receiveIOPacket w1 = (Ret q, w2) /\ Forall2 (item_is (w_mem w2)) p [(0x8002, [x02])].
Proof.
  exists (w9 [] [RxData (cpf [(0x8002, [x01])]); RxData (cpf [(0x8002, [x02])])]). do 4 eexists. split; [apply session_ok_w9|].
  split; [vm_compute; reflexivity|]. split.
  { constructor; [|constructor]. split; [reflexivity|]. held. }
  split; [vm_compute; reflexivity|].
  constructor; [|constructor]. split; [reflexivity|]. held.
Qed.
Lemma items_overwritten_by_command : exists w p w1 v w2 junk, session_ok w /\ receiveIOPacket w = (Ret p, w1) /\
  Forall2 (item_is (w_mem w1)) p [(0x8002, [x01; x01])] /\ getSingleAttribute 1 junk 1 1 1 w1 = (Ret v, w2) /\
  ~ Forall2 (item_is (w_mem w2)) p [(0x8002, [x01; x01])].
Proof.
  exists (w9 [RxData (explicit_reply 9 0x8E 0 [x05])] [RxData (cpf [(0x8002, [x01; x01])])]). do 4 eexists. exists 0. split; [apply session_ok_w9|].
  split; [vm_compute; reflexivity|]. split.
  { constructor; [|constructor]. split; [reflexivity|]. held. }
  split; [vm_compute; reflexivity|].
  intros F. inversion F as [|i x p xs [_ H] F' Ea Eb]. subst. destruct H as (_ & sb & Es & R). 
  pose proof (f_equal s_sbuf Es) as Es'. cbn in Es'. injection Es' as <-. vm_compute in R. discriminate.
Qed.

(** ** C55 *)
Definition inner := explicit_reply 9 0x8E 0 [x07; x00].
Definition outer := explicit_reply 9 0x8E 0 ([x01; x00] ++ inner).
Definition split_at := len outer - len inner.
Lemma split_changes_results :
  exists segs segs' : list (list byte), List.concat segs = List.concat segs' /\
  (forall s, In s (segs ++ segs') -> s <> [] /\ len s <= 4096) /\
  (let ops := [OpGet N (prim_cls 2) 0 1 1 1; OpGet N (prim_cls 2) 0 1 1 2] in
   fst (exec ops (w9 (tcp_script 4096 segs) [])) = [Ret RUnit; Ret RUnit] /\
   exists s, fst (exec ops (w9 (tcp_script 4096 segs') [])) = [Throw RuntimeError s; Ret RUnit]) /\
  exists w1 w2 s w1' w2',
   getSingleAttribute 2 0 1 1 1 (w9 (tcp_script 4096 segs) []) = (Ret 1, w1) /\ getSingleAttribute 2 0 1 1 2 w1 = (Ret 9, w2) /\
   getSingleAttribute 2 0 1 1 1 (w9 (tcp_script 4096 segs') []) = (Throw RuntimeError s, w1') /\ getSingleAttribute 2 0 1 1 2 w1' = (Ret 7, w2').
Proof.
  exists [outer; explicit_reply 9 0x8E 0 [x09; x00]], [take split_at outer; drop split_at outer; explicit_reply 9 0x8E 0 [x09; x00]].
  split; [vm_compute; reflexivity|]. split.
  { intros s H. repeat (destruct H as [<-|H]; [split; [discriminate|vm_compute; discriminate]|]). destruct H. }
  split; [split; [vm_compute; reflexivity|eexists; vm_compute; reflexivity]|].
  do 5 eexists. split; [vm_compute; reflexivity|]. split; [vm_compute; reflexivity|]. split; [vm_compute; reflexivity|]. vm_compute; reflexivity.
Qed.

(** ** C56 *)
Definition ask (d : N) : encap_packet := mkEP (hdr_set_length 2 (hdr_make 0x6F 9)) (Some (prim_ser 2 d)).
Lemma replies_swapped : exists w1 pb w2 pa,
  let ra := request 0x6F 9 [x01] in let rb := request 0x6F 9 [x02] in let w := w9 [RxData ra; RxData rb] [] in
  carries (w_mem w) (ep_ser (ask 1)) (request 0x6F 9 (le 2 1)) /\ carries (w_mem w) (ep_ser (ask 2)) (request 0x6F 9 (le 2 2)) /\
  interleave [false; true; true; true] (PCmdSend (ask 1)) (PCmdSend (ask 2)) w = (PCmdRecv (ask 1), PCmdDone (Ret pb), w1) /\
  interleave [false; false] (PCmdRecv (ask 1)) (PCmdDone (Ret pb)) w1 = (PCmdDone (Ret pa), PCmdDone (Ret pb), w2) /\
  w_net w2 = [ESend Ctl (request 0x6F 9 (le 2 1)) (Some 26); ESend Ctl (request 0x6F 9 (le 2 2)) (Some 26); ERecv Ctl (Some ra); ERecv Ctl (Some rb)] /\
  holds (w_mem w1) (ep_payload pb) [x01] /\ holds (w_mem w2) (ep_payload pa) [x02] /\ holds (w_mem w2) (ep_payload pb) [x02].
Proof.
  do 4 eexists. cbv zeta. split; [exact (ep_carries _ _ (Some (prim_ser 2 1)) (le 2 1) (carries_prim _ 2 1))|].
  split; [exact (ep_carries _ _ (Some (prim_ser 2 2)) (le 2 2) (carries_prim _ 2 2))|].
  split; [vm_compute; reflexivity|]. split; [vm_compute; reflexivity|]. split; [vm_compute; reflexivity|].
  split; [held|]. split; held.
Qed.
Lemma datagram_taken_as_reply : exists p w', let ra := request 0x6F 9 [x01] in let evil := request 0x6F 9 [x66] in
  interleave [false; false; true; false] (PCmdSend (ask 1)) PIoRecv (w9 [RxData ra] [RxData evil]) = (PCmdDone (Ret p), PIoParse 25, w') /\
  holds (w_mem w') (ep_payload p) [x66].
Proof. do 2 eexists. cbv zeta. split; [vm_compute; reflexivity|]. held. Qed.

(** ** C57 *)
Lemma scan_crash m rest : scan_run m (inr (request 0x63 0 []) :: rest) = [Undef NullDeref].
Proof.
  destruct (scan_exactly m (request 0x63 0 []) rest) as (o & E & _ & C & _). rewrite E. f_equal. apply C. left. exists 0.
  exists 0, 0, 0, 0, []. split; [frames|]. rewrite app_nil_r. reflexivity.
Qed.
