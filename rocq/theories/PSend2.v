(** Sending: arbitrary objects, and items too large for their length field. *)
From Verif Require Export PSession3.

(** ** C07: what reaches the transport, for any object *)
Lemma load_all m b bs : nth_error m b = Some (Some bs) -> load m b 0 (len bs) = Ret bs.
Proof. apply reads_block. Qed.
Lemma free_live m b bs : nth_error m b = Some (Some bs) -> exists m', free m b = Ret m' /\ nth_error m' b = Some None.
Proof.
  intros H. unfold free. rewrite H. eexists. split; [reflexivity|]. apply nth_error_set_same. eapply nth_error_lt; eauto.
Qed.
Lemma send_any i s n w : s_length s = Ret n -> exists o w', sock_send_ser i s w = (o, w') /\ sends i s n w o w'.
Proof.
  intros L. destruct (sock_send_ser i s w) as [o w'] eqn:E. exists o, w'. split; [reflexivity|]. revert E.
  unfold sock_send_ser, sends. erewrite mbind_ret; [|unfold mout; rewrite L; reflexivity].
  erewrite mbind_ret; [|reflexivity]. unfold mfinally. unfold mbind at 1. unfold mheap at 1. cbn [w_mem set_mem fst snd].
  destruct (s_serialize s (w_mem w ++ [Some (zeros n)]) (WBuf (mkV (List.length (w_mem w)) 0 n) 0)) as [[o1 m1] w1] eqn:S.
  destruct o1 as [[]|c e|u|]; [| |trivial|trivial].
  - intros E bs Hb Lb. revert E.
    unfold mbind at 1. unfold mheap at 1. cbn [w_mem set_mem]. rewrite <- Lb, (load_all _ _ _ Hb).
    destruct (free_live _ _ _ Hb) as (m2 & F & Hn).
    match goal with |- context [sock_send i bs ?x] => change x with (set_mem m1 w) end.
    rewrite sock_send_mem. destruct (sock_send_shape i bs w) as (o1 & w2 & -> & Hm & Hs & Hr & [(k & -> & Hk)|[-> Hk]] & _); cbn [fst snd].
    all: unfold mbind, m_free, mheap; cbn [w_mem set_mem]; rewrite F; intros [= <- <-]; cbn [w_mem w_net set_mem]; eauto.
  - intros E (bs & Hb & Lb). revert E. destruct (free_live _ _ _ Hb) as (m2 & F & Hn).
    unfold mbind, m_free, mheap; cbn [w_mem set_mem]; rewrite F; intros [= <- <-]; cbn [w_mem w_net set_mem]; auto.
Qed.

(** ** C16 *)
Lemma item_refused i it x w : item_carries (w_mem w) it x -> 65536 <= len (snd x) ->
  exists o w', sock_send_ser i (it_ser it) w = (o, w') /\ (exists s, o = Throw LengthError s) /\ w_net w' = w_net w /\ w_se w' = w_se w.
Proof.
  intros H L. erewrite send_ser_short; [|apply (it_length _ _ _ H)|apply (it_writes _ _ _ H)|rewrite len_item; unfold u16; lia].
  do 2 eexists. split; [reflexivity|]. split; [eexists; reflexivity|]. split; reflexivity.
Qed.
Fixpoint wrapped_length (xs : list (N * list byte)) : N :=
  match xs with [] => 0 | x :: xs' => 4 + u16 (len (snd x)) + wrapped_length xs' end.
Lemma cpf_length_any m its xs : Forall2 (item_carries m) its xs ->
  forall a, fold_left (fun acc i => obind acc (fun l => obind (it_getLength i) (fun n => Ret (l + n)))) its (Ret a)
  = Ret (a + wrapped_length xs).
Proof.
  induction 1 as [|i x its xs H1 H2 IH]; intros a; cbn [fold_left wrapped_length].
  - rewrite N.add_0_r. reflexivity.
  - rewrite (it_length _ _ _ H1). cbn [obind]. rewrite IH. f_equal. lia.
Qed.
Lemma wrapped_le xs : wrapped_length xs <= len (items xs).
Proof.
  induction xs as [|x xs IH]; [change (len (items [])) with 0; cbn [wrapped_length]; lia|].
  cbn [wrapped_length]. rewrite items_cons, len_app, len_item. unfold u16. pose proof (N.mod_le (len (snd x)) 65536). lia.
Qed.
Lemma wrapped_lt xs : Exists (fun x => 65536 <= len (snd x)) xs -> wrapped_length xs < len (items xs).
Proof.
  induction 1 as [x xs H|x xs H IH]; cbn [wrapped_length]; rewrite items_cons, len_app, len_item; unfold u16.
  - pose proof (wrapped_le xs). lia.
  - pose proof (N.mod_le (len (snd x)) 65536). lia.
Qed.
Lemma cpf_refused i its xs w : Forall2 (item_carries (w_mem w)) its xs -> Exists (fun x => 65536 <= len (snd x)) xs ->
  exists o w', sock_send_ser i (cpf_ser its) w = (o, w') /\ (exists s, o = Throw LengthError s) /\ w_net w' = w_net w /\ w_se w' = w_se w.
Proof.
  intros H L. erewrite send_ser_short; [|cbn [s_length cpf_ser]; unfold cpf_getLength; apply (cpf_length_any _ _ _ H)|apply (cpf_writes _ _ _ H)|].
  - do 2 eexists. split; [reflexivity|]. split; [eexists; reflexivity|]. split; reflexivity.
  - rewrite len_cpf. pose proof (wrapped_lt _ L). lia.
Qed.
(** An unconnected request with too much data is sent with a wrong item length. *)
Lemma rr_oversize m service pad ss d bs : len ss < 256 -> carries_opt m d bs -> 65536 <= len bs ->
  exists wire body short extra, carries m (rrq_ser (rrq_make service (path_of pad ss) d)) wire /\
    body = router_request (u8 service) (epath pad ss) bs /\
    wire = rr 0 0 [(0, []); (0xB2, short)] ++ extra /\ rr_ok 0 0 [(0, []); (0xB2, short)] /\ body = short ++ extra /\ extra <> [].
Proof.
  intros L C B. set (body := router_request (u8 service) (epath pad ss) bs).
  assert (LB : 65536 <= len body) by (unfold body, router_request; rewrite !len_app; lia).
  exists (rr_request (u8 service) (epath pad ss) bs), body, (take (len body mod 65536) body), (drop (len body mod 65536) body).
  split; [apply rrq_carries; assumption|]. split; [reflexivity|].
  assert (LS : len (take (len body mod 65536) body) = len body mod 65536) by (rewrite len_take; lia).
  split.
  - unfold rr_request. fold body. unfold rr, cpf, items. cbn [flat_map]. unfold item. cbn [fst snd].
    rewrite LS. rewrite <- (le_u16 (len body)). unfold u16.
    rewrite !app_nil_r, <- !app_assoc, take_drop. reflexivity.
  - split.
    + split; [reflexivity|]. split; [reflexivity|]. split; [|reflexivity].
      constructor; [split; cbn; lia|]. constructor; [|constructor]. split; cbn [fst snd]; lia.
    + split; [symmetry; apply take_drop|]. intros Z. apply (f_equal len) in Z. rewrite len_drop in Z. change (len []) with 0 in Z. pose proof (N.mod_lt (len body) 65536). lia.
Qed.

(** ** C53, C54: I/O *)
Lemma next_recv_none k : so_recv k = [] -> k = next_recv k.
Proof. destruct k as [a b c d]. cbn. intros ->. reflexivity. Qed.
Lemma receive_io w : rbuf_ok w -> exists o w', receiveIOPacket w = (o, w') /\
  w_se w' = w_se w /\ w_rbuf w' = w_rbuf w /\ rbuf_ok w' /\ mem_kept w w' /\ w_ctl w' = w_ctl w /\ w_io w' = next_recv (w_io w) /\
  w_net w' = w_net w ++ io_events (w_io w) /\
  match so_recv (w_io w) with
  | [] => o = Stuck
  | RxFail :: _ => exists s, o = Throw SystemError s
  | RxData d :: _ =>
      (exists xs rest p, cpf_ok xs /\ take 4096 d = cpf xs ++ rest /\ o = Ret p /\ Forall2 (item_is (w_mem w')) p xs) \/
      ((forall xs rest, cpf_ok xs -> take 4096 d <> cpf xs ++ rest) /\ exists s, o = Throw LengthError s)
  end.
Proof.
  intros B. unfold receiveIOPacket, mbind, io_events. destruct (so_recv (w_io w)) as [|[d|] rs] eqn:Rv.
  - rewrite (recv_block Io w) by exact Rv. do 2 eexists. split; [reflexivity|]. rewrite app_nil_r.
    do 2 (split; [reflexivity|]). split; [exact B|]. split; [apply mem_kept_eq; reflexivity|]. split; [reflexivity|]. split; [apply next_recv_none; exact Rv|]. split; reflexivity.
  - destruct (recv_data Io w d rs B Rv) as (m' & E & R & (bl & Hb & Lb) & Ko & Ln). rewrite E. unfold m_decode.
    set (w2 := emit _ _). change (w_mem w2) with m'. 
    assert (K : mem_kept w w2) by (intros b x Nb Hx; change (w_mem w2) with m'; rewrite Ko; assumption).
    destruct (cpf_packet_decode m' _ 0 [] _ R) as [(xs & rest & p & O & Eb & D & F & _)|[N (s & r & p & D)]]; rewrite D; cbn [fst]; unfold mret;
      change (set_mem m' w2) with w2; do 2 eexists; (split; [reflexivity|]); (do 2 (split; [reflexivity|]));
      (split; [exists bl; split; assumption|]); (split; [exact K|]); (split; [reflexivity|]); (split; [unfold next_recv; rewrite Rv; reflexivity|]); (split; [reflexivity|]).
    + left. exists xs, rest, p. auto.
    + right. split; [exact N|]. eexists; reflexivity.
  - rewrite (recv_fail Io w _ rs Rv). do 2 eexists. split; [reflexivity|].
    do 2 (split; [reflexivity|]). split; [exact B|]. split; [apply mem_kept_eq; reflexivity|]. split; [reflexivity|]. split; [unfold next_recv; rewrite Rv; reflexivity|]. split; [reflexivity|]. eauto.
Qed.
(** Sending does not disturb received data. *)
Lemma send_io_keeps w p xs o w' : carries (w_mem w) (cpf_ser p) (cpf xs) -> sendIOPacket p w = (o, w') -> hext (w_mem w) (w_mem w').
Proof.
  intros C. unfold sendIOPacket, mbind. rewrite (send_ser _ _ _ _ C).
  destruct (fst (sock_send Io (cpf xs) w)); intros [= <- <-]; cbn [w_mem set_mem]; intros b bl Hb;
    rewrite nth_error_app1; try assumption; eapply nth_error_lt; eauto.
Qed.
