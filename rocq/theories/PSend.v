(** Sockets: sending a serialized message, receiving, decoding in the session monad. *)
From Verif Require Export PCodec3 Vocab2.

Lemma mbind_ret {A B} (x : M A) (f : A -> M B) w a w' : x w = (Ret a, w') -> mbind x f w = f a w'.
Proof. unfold mbind. intros ->. reflexivity. Qed.
Lemma mbind_throw {A B} (x : M A) (f : A -> M B) w c s w' : x w = (Throw c s, w') -> mbind x f w = (Throw c s, w').
Proof. unfold mbind. intros ->. reflexivity. Qed.
Lemma set_mem_same w : set_mem (w_mem w) w = w. Proof. destruct w; reflexivity. Qed.

Lemma free_app_end m x : free (m ++ [Some x]) (List.length m) = Ret (m ++ [None]).
Proof. unfold free. rewrite nth_error_app_end, list_set_app_end. reflexivity. Qed.

(** sock_send does not look at the memory. *)
Lemma sock_send_mem i bs m w : sock_send i bs (set_mem m w) = (fst (sock_send i bs w), set_mem m (snd (sock_send i bs w))).
Proof. unfold sock_send. destruct i; cbn [get_sock w_ctl w_io set_mem set_sock]; destruct (match so_send _ with [] => _ | x :: _ => x end); reflexivity. Qed.
Lemma sock_send_shape i bs w : exists o w', sock_send i bs w = (o, w') /\
  w_mem w' = w_mem w /\ w_se w' = w_se w /\ w_rbuf w' = w_rbuf w /\
  ((exists n, o = Ret n /\ w_net w' = w_net w ++ [ESend i bs (Some n)]) \/
   (o = Throw SystemError "send" /\ w_net w' = w_net w ++ [ESend i bs None])) /\
  (forall j, so_recv (get_sock j w') = so_recv (get_sock j w) /\ so_open (get_sock j w') = so_open (get_sock j w) /\
             so_close (get_sock j w') = so_close (get_sock j w)).
Proof.
  unfold sock_send. do 2 eexists. split; [apply surjective_pairing|].
  destruct (match so_send _ with [] => _ | x :: _ => x end), i; cbn; repeat split; eauto; try (destruct j; reflexivity).
Qed.

Lemma send_ser i s bs w : carries (w_mem w) s bs ->
  sock_send_ser i s w = (fst (sock_send i bs w), set_mem (w_mem w ++ [None]) (snd (sock_send i bs w))).
Proof.
  intros [L W]. unfold sock_send_ser. erewrite mbind_ret; [|unfold mout; rewrite L; reflexivity].
  erewrite mbind_ret; [|reflexivity]. unfold mfinally.
  pose proof (writes_fresh _ _ _ (len bs) W (N.le_refl _)) as E.
  replace (len bs - len bs) with 0 in E by lia. change (zeros 0) with (@nil byte) in E. rewrite app_nil_r in E.
  erewrite (mbind_ret (mheap _)); [|unfold mheap, alloc; cbn [w_mem set_mem fst snd]; rewrite E; reflexivity].
  assert (R : load (w_mem w ++ [Some bs]) (List.length (w_mem w)) 0 (len bs) = Ret bs).
  { apply (reads_block (w_mem w ++ [Some bs]) (List.length (w_mem w)) bs). apply nth_error_app_end. }
  erewrite (mbind_ret (mheap _)); [|unfold mheap; cbn [w_mem set_mem]; rewrite R; reflexivity].
  cbn [w_mem set_mem].
  match goal with |- context [sock_send i bs ?x] => change x with (set_mem (w_mem w ++ [Some bs]) w) end.
  rewrite sock_send_mem. destruct (sock_send_shape i bs w) as (o & w' & -> & Hm & Hs & Hr & [(n & -> & Hn)|[-> Hn]] & _); cbn [fst snd].
  all: unfold mbind, m_free, mheap; cbn [w_mem set_mem]; rewrite free_app_end; reflexivity.
Qed.

Lemma send_ser_short i s bs n w : s_length s = Ret n -> writes (w_mem w) (s_serialize s) bs -> n < len bs ->
  sock_send_ser i s w = (Throw LengthError "Buffer to small to serialize value", set_mem (w_mem w ++ [None]) w).
Proof.
  intros L W S. unfold sock_send_ser. erewrite mbind_ret; [|unfold mout; rewrite L; reflexivity].
  erewrite mbind_ret; [|reflexivity]. unfold mfinally.
  destruct (writes_fresh_short _ _ _ n W S) as (junk & w' & _ & E).
  erewrite (mbind_throw (mheap _)); [|unfold mheap, alloc; cbn [w_mem set_mem fst snd]; rewrite E; reflexivity].
  unfold mbind, m_free, mheap; cbn [w_mem set_mem]. rewrite free_app_end. reflexivity.
Qed.

(** Whatever the object does, the socket sees at most one call. *)
Lemma send_ser_any i s w : exists o w', sock_send_ser i s w = (o, w') /\ w_se w' = w_se w /\ w_rbuf w' = w_rbuf w /\
  ((w_net w' = w_net w /\ (forall j, get_sock j w' = get_sock j w) /\ forall n, o <> Ret n) \/
   exists bs r, w_net w' = w_net w ++ [ESend i bs r]).
Proof.
  destruct (sock_send_ser i s w) as [o w'] eqn:E. exists o, w'. split; [reflexivity|]. revert E.
  unfold sock_send_ser, mbind, mout.
  assert (Z : forall m c e, (@Throw N c e, set_mem m w) = (o, w') -> w_se w' = w_se w /\ w_rbuf w' = w_rbuf w /\
    ((w_net w' = w_net w /\ (forall j, get_sock j w' = get_sock j w) /\ forall n, o <> Ret n) \/
     exists bs r, w_net w' = w_net w ++ [ESend i bs r])).
  { intros m c e X. injection X as <- <-. split; [reflexivity|]. split; [reflexivity|]. left. split; [reflexivity|]. split; [intros j; destruct j; reflexivity|discriminate]. }
  assert (Zu : forall m e, (@Undef N e, set_mem m w) = (o, w') -> w_se w' = w_se w /\ w_rbuf w' = w_rbuf w /\
    ((w_net w' = w_net w /\ (forall j, get_sock j w' = get_sock j w) /\ forall n, o <> Ret n) \/
     exists bs r, w_net w' = w_net w ++ [ESend i bs r])).
  { intros m e X. injection X as <- <-. split; [reflexivity|]. split; [reflexivity|]. left. split; [reflexivity|]. split; [intros j; destruct j; reflexivity|discriminate]. }
  assert (Zs : forall m, (@Stuck N, set_mem m w) = (o, w') -> w_se w' = w_se w /\ w_rbuf w' = w_rbuf w /\
    ((w_net w' = w_net w /\ (forall j, get_sock j w' = get_sock j w) /\ forall n, o <> Ret n) \/
     exists bs r, w_net w' = w_net w ++ [ESend i bs r])).
  { intros m X. injection X as <- <-. split; [reflexivity|]. split; [reflexivity|]. left. split; [reflexivity|]. split; [intros j; destruct j; reflexivity|discriminate]. }
  destruct (s_length s) as [n|c e|u|];
    [|rewrite <- (set_mem_same w) at 1; first [apply Z|apply Zu|apply Zs]..].
  unfold mheap at 1, alloc. unfold mfinally, mbind. unfold mheap at 1. cbn [w_mem set_mem].
  destruct (s_serialize s _ _) as [[[x|c e|u|] m'] wr'].
  - unfold mheap at 1. cbn [w_mem set_mem]. destruct (load m' _ 0 n) as [bs|c e|u|]; cbn [w_mem set_mem].
    + match goal with |- context [sock_send i bs ?y] =>
        destruct (sock_send_shape i bs y) as (o2 & w2 & -> & Hm & Hs & Hr & [(k & -> & Hn)|[-> Hn]] & _) end.
      all: unfold m_free, mheap; match goal with |- context [free ?a ?b] => destruct (free a b) end; intros X; injection X as <- <-;
        (split; [exact Hs|]); (split; [exact Hr|]); right; do 2 eexists; exact Hn.
    + unfold m_free, mheap; cbn [w_mem set_mem]; match goal with |- context [free ?a ?b] => destruct (free a b) end;
        first [apply Z|apply Zu|apply Zs].
    + apply Zu.
    + apply Zs.
  - unfold m_free, mheap; cbn [w_mem set_mem]; match goal with |- context [free ?a ?b] => destruct (free a b) end;
        first [apply Z|apply Zu|apply Zs].
  - apply Zu.
  - apply Zs.
Qed.

(** ** Receiving *)
Definition with_recv (i : which) (rs : list rx) (w : world) : world :=
  set_sock i (mkSock (so_open (get_sock i w)) (so_send (get_sock i w)) rs (so_close (get_sock i w))) w.

Lemma recv_data i w bs rs : rbuf_ok w -> so_recv (get_sock i w) = RxData bs :: rs ->
  exists m', sock_recv i (recv_view w) w
    = (Ret (len (take 4096 bs)), emit (ERecv i (Some (take 4096 bs))) (set_mem m' (with_recv i rs w))) /\
  reads m' (view_take (recv_view w) (len (take 4096 bs))) (take 4096 bs) /\
  (exists bl, nth_error m' (w_rbuf w) = Some (Some bl) /\ len bl = 4096) /\
  (forall b, b <> w_rbuf w -> nth_error m' b = nth_error (w_mem w) b) /\ List.length m' = List.length (w_mem w).
Proof.
  intros (bl & Hb & Lb) Hr. unfold sock_recv. rewrite Hr. cbn [v_len v_blk v_off recv_view].
  set (got := take 4096 bs). assert (G : len got <= 4096) by (unfold got; rewrite len_take; lia).
  assert (S : exists m', store (w_mem w) (w_rbuf w) 0 got = Ret m' /\
    nth_error m' (w_rbuf w) = Some (Some (got ++ drop (len got) bl)) /\
    (forall b, b <> w_rbuf w -> nth_error m' b = nth_error (w_mem w) b) /\ List.length m' = List.length (w_mem w)).
  { unfold store. destruct (N.eqb_spec (len got) 0) as [Z|Z].
    - exists (w_mem w). rewrite Z, drop_0. apply len_0 in Z. rewrite Z. auto.
    - rewrite Hb. destruct (N.leb_spec (0 + len got) (len bl)); [|lia]. eexists. split; [reflexivity|].
      split; [rewrite nth_error_set_same by (eapply nth_error_lt; eauto); rewrite take_0; reflexivity|].
      split; [intros b Nb; rewrite nth_error_set_other by congruence; reflexivity|apply length_list_set]. }
  destruct S as (m' & S & S1 & S2 & S3). exists m'.
  replace (w_mem (set_sock i _ w)) with (w_mem w) by (destruct i; reflexivity). rewrite S. split; [reflexivity|].
  split; [|split; [|split; assumption]].
  - replace got with (take (len got) (got ++ drop (len got) bl)) at 2 by apply take_app_len.
    apply reads_take. unfold recv_view. replace 4096 with (len (got ++ drop (len got) bl)) by (rewrite len_app, len_drop; lia).
    apply reads_block. assumption.
  - eexists. split; [exact S1|]. rewrite len_app, len_drop. lia.
Qed.
Lemma recv_fail i w v rs : so_recv (get_sock i w) = RxFail :: rs ->
  sock_recv i v w = (Throw SystemError "receive", emit (ERecv i None) (with_recv i rs w)).
Proof. intros H. unfold sock_recv. rewrite H. reflexivity. Qed.
Lemma recv_block i w v : so_recv (get_sock i w) = [] -> sock_recv i v w = (Stuck, w).
Proof. intros H. unfold sock_recv. rewrite H. reflexivity. Qed.
