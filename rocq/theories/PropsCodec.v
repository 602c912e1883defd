(** * Properties C01 - C29: wire formats.

    Statements only; every proof is in the P*.v files.  The words used are defined
    in Spec.v (byte formats, independent of the model) and Vocab.v (what it means
    for memory to show bytes: [reads], for an object to serialize as bytes:
    [carries], for a decoded payload to hold bytes: [holds]). *)
From Verif Require Import PWitness Tests PBare.

(** ** C01 Integers cross the wire little-endian and unchanged *)
(** A value that fits [k] bytes is written as [le k v] to a stream and to a buffer,
    and reading [le k v] from a buffer or a stream gives the value. *)
Theorem C01_integers : forall k v, fits k v ->
  (forall m out, w_uint k v m (WStr out) = (Ret tt, m, WStr (out ++ le k v))) /\
  (forall m b pre old post c, nth_error m b = Some (Some (pre ++ old ++ post)) -> N.of_nat k <= len old ->
     exists m', w_uint k v m (WBuf (mkV b (len pre) (len old)) c)
       = (Ret tt, m', WBuf (mkV b (len pre + N.of_nat k) (len old - N.of_nat k)) (c + N.of_nat k)) /\
       nth_error m' b = Some (Some (pre ++ le k v ++ drop (N.of_nat k) old ++ post))) /\
  (forall T (get : T -> N) set m w rest c t, reads m w (le k v ++ rest) ->
     rd_uint k get set m (RBuf w c) t
     = (Ret tt, m, RBuf (view_drop w (N.of_nat k)) (c + N.of_nat k), set v t)) /\
  (forall T (get : T -> N) set m d p rest t, drop p d = le k v ++ rest ->
     rd_uint k get set m (RStr d p false) t = (Ret tt, m, RStr d (p + N.of_nat k) false, set v t)).
Proof. exact integers. Qed.
Print Assumptions C01_integers.
(** Any [k] bytes are read as a value whose encoding is those bytes. *)
Theorem C01_integers_back : forall k bs, len bs = N.of_nat k -> exists v, fits k v /\
  (forall T (get : T -> N) set m w rest c t, reads m w (bs ++ rest) ->
     rd_uint k get set m (RBuf w c) t
     = (Ret tt, m, RBuf (view_drop w (N.of_nat k)) (c + N.of_nat k), set v t)) /\
  (forall m out, w_uint k v m (WStr out) = (Ret tt, m, WStr (out ++ bs))).
Proof. exact integers_back. Qed.
Print Assumptions C01_integers_back.
Example C01_example : fits 4 0xDEADBEEF /\ le 4 0xDEADBEEF = bl [0xEF; 0xBE; 0xAD; 0xDE] /\
  reads [Some (le 4 0xDEADBEEF ++ [x07])] (mkV 0 0 5) (le 4 0xDEADBEEF ++ [x07]).
Proof. repeat split. Qed.

(** ** C02 A buffer writer stays inside its buffer *)
(** The buffer is the part [old] of the block [pre ++ old ++ post]; the calls [os]
    are asked to write the pieces [ps]. *)
Theorem C02_writer_fits : forall m b pre old post c os ps,
  nth_error m b = Some (Some (pre ++ old ++ post)) -> Forall2 (put_piece m b) os ps ->
  len (concats ps) <= len old ->
  exists m', do_puts os m (WBuf (mkV b (len pre) (len old)) c)
    = (Ret tt, m', WBuf (mkV b (len pre + len (concats ps)) (len old - len (concats ps))) (c + len (concats ps))) /\
    nth_error m' b = Some (Some (pre ++ concats ps ++ drop (len (concats ps)) old ++ post)) /\
    (forall b', b' <> b -> nth_error m' b' = nth_error m b').
Proof. exact puts_ok. Qed.
Print Assumptions C02_writer_fits.
Theorem C02_writer_full : forall m b pre old post c os ps,
  nth_error m b = Some (Some (pre ++ old ++ post)) -> Forall2 (put_piece m b) os ps ->
  len old < len (concats ps) ->
  exists ps1 p ps2 m', ps = ps1 ++ p :: ps2 /\ len (concats ps1) <= len old < len (concats ps1) + len p /\
    do_puts os m (WBuf (mkV b (len pre) (len old)) c)
    = (Throw LengthError "Buffer to small to serialize value", m',
       WBuf (mkV b (len pre + len (concats ps1)) (len old - len (concats ps1))) (c + len (concats ps1))) /\
    nth_error m' b = Some (Some (pre ++ concats ps1 ++ drop (len (concats ps1)) old ++ post)) /\
    (forall b', b' <> b -> nth_error m' b' = nth_error m b').
Proof. exact puts_short. Qed.
Print Assumptions C02_writer_full.
Example C02_example :
  let m := [Some (bl [1;2;3;4;5;6;7;8]); Some (bl [9;9])] in
  let os := [PutInt 2 0xABCD; PutView (mkV 1 0 2); PutBytes [x07; x07; x07]] in
  let ps := [bl [0xCD; 0xAB]; bl [9;9]; [x07; x07; x07]] in
  nth_error m 0 = Some (Some (bl [1;2] ++ bl [3;4;5;6;7] ++ bl [8])) /\
  Forall2 (put_piece m 0) os ps /\ len (bl [3;4;5;6;7]) < len (concats ps).
Proof. repeat split; repeat constructor. discriminate. Qed.

(** ** C03 A buffer reader stays inside its buffer *)
Theorem C03_reader_fits : forall os m v c t bs, reads m v bs -> total os <= len bs ->
  exists gs, do_gets os m (RBuf v c) t = (Ret tt, m, RBuf (view_drop v (total os)) (c + total os), t ++ gs) /\
    gots_are m os bs gs /\ reads m (view_drop v (total os)) (drop (total os) bs).
Proof. exact gets_ok. Qed.
Print Assumptions C03_reader_fits.
Theorem C03_reader_short : forall os m v c t bs, reads m v bs -> len bs < total os ->
  exists os1 o os2 gs s, os = os1 ++ o :: os2 /\ total os1 <= len bs < total os1 + size o /\
    do_gets os m (RBuf v c) t
    = (Throw LengthError s, m, RBuf (view_drop v (total os1)) (c + total os1), t ++ gs) /\
    gots_are m os1 bs gs.
Proof. exact gets_short. Qed.
Print Assumptions C03_reader_short.
Example C03_example :
  reads [Some (bl [1;2;3;4;5;6;7;8])] (mkV 0 1 6) (bl [2;3;4;5;6;7]) /\
  total [GetInt 2; Skip 1; GetView 3] = 6 /\
  gots_are [Some (bl [1;2;3;4;5;6;7;8])] [GetInt 2; Skip 1; GetView 3] (bl [2;3;4;5;6;7])
    [GotInt 0x0302; GotNothing; GotView (mkV 0 4 3)].
Proof. split; [reflexivity|]. split; [reflexivity|]. split; [exists 0x0302; repeat split|]. repeat split. exists (mkV 0 4 3). repeat split. Qed.

(** ** C04 Stream and buffer back ends agree on complete data *)
Theorem C04_serialize : forall m x bs, writes m x bs ->
  (forall out, x m (WStr out) = (Ret tt, m, WStr (out ++ bs))) /\
  (forall n, len bs <= n -> exists m' w',
     x (m ++ [Some (zeros n)]) (WBuf (mkV (List.length m) 0 n) 0) = (Ret tt, m', w') /\
     w_count w' = len bs /\ load m' (List.length m) 0 (len bs) = Ret bs).
Proof. exact write_agree. Qed.
Print Assumptions C04_serialize.
Theorem C04_packet : forall m v d p c p0 cmd ses st c0 c1 o payload rest rest',
  frame_fits cmd ses st c0 c1 o payload ->
  reads m v (frame cmd ses st c0 c1 o payload ++ rest) -> drop p d = frame cmd ses st c0 c1 o payload ++ rest' ->
  exists r1 p1 m2 r2 p2,
    ep_deserialize m (RBuf v c) p0 = (Ret tt, m, r1, p1) /\
    ep_deserialize m (RStr d p false) p0 = (Ret tt, m2, r2, p2) /\
    ep_header p1 = ep_header p2 /\ holds m (ep_payload p1) payload /\ holds m2 (ep_payload p2) payload.
Proof. exact ep_agree. Qed.
Print Assumptions C04_packet.
Theorem C04_cpf : forall m v d p c p0 xs rest rest', cpf_ok xs ->
  reads m v (cpf xs ++ rest) -> drop p d = cpf xs ++ rest' ->
  exists r1 l1 m2 r2 l2,
    cpf_deserialize m (RBuf v c) p0 = (Ret tt, m, r1, l1) /\
    cpf_deserialize m (RStr d p false) p0 = (Ret tt, m2, r2, l2) /\
    Forall2 (item_is m) l1 xs /\ Forall2 (item_is m2) l2 xs.
Proof. exact cpf_agree. Qed.
Print Assumptions C04_cpf.
(** A reply: same outcome (also when it is rejected), and on success the same numbers
    and lengths. Missing: the reply's data itself, which the stream decode frees. *)
Theorem C04_rr_reply_partial : forall m v c t d p rest rest' i to xs, rr_ok i to xs ->
  reads m v (rr i to xs ++ rest) -> drop p d = rr i to xs ++ rest' ->
  exists o m1 r1 t1 m2 r2 t2,
    rrs_deserialize m (RBuf v c) t = (o, m1, r1, t1) /\
    rrs_deserialize m (RStr d p false) t = (o, m2, r2, t2) /\ hext m m2 /\
    (o = Ret tt -> exists sv st a q, rr_reply_is m1 t1 i to sv st a q /\
       rr_iface t2 = i /\ rr_timeout t2 = to /\ ms_service (rr_ext t2) = sv /\ ms_status (rr_ext t2) = st /\
       opt_length (ms_additional (rr_ext t2)) = Ret (len a) /\ opt_length (ms_data (rr_ext t2)) = Ret (len q)).
Proof. exact rrs_agree_numbers. Qed.
Print Assumptions C04_rr_reply_partial.
(** Violated: every good reply with data is accepted from a stream, and then decoding
    anything out of its data, or sending it on, uses freed memory: the packet that owned
    the bytes was a local of the decoder. *)
Theorem C04_rr_data_refuted : forall m d p t rest i to xs sv rs st a q, rr_ok i to xs -> reply_ok sv rs st a ->
  unconnected xs (router_reply sv rs st a q) -> q <> [] -> drop p d = rr i to xs ++ rest ->
  exists m' r' t', rrs_deserialize m (RStr d p false) t = (Ret tt, m', r', t') /\
    (forall k r x, (0 < k)%nat -> N.of_nat k <= len q ->
       rrs_getResponseDataAs (prim_cls k) t' m' r x = (Undef UseAfterFree, m', r, x)) /\
    (exists s, ms_data (rr_ext t') = Some s /\ forall out, s_serialize s m' (WStr out) = (Undef UseAfterFree, m', WStr out)).
Proof. exact rrs_stream_used. Qed.
Print Assumptions C04_rr_data_refuted.
Example C04_example :
  frame_fits 0x65 1 0 0 0 0 (bl [1;0;0;0]) /\ cpf_ok [(0xB1, bl [1;2;3]); (0, [])] /\
  rr_ok 0 0 [(0, []); (0xB2, router_reply 0x8E 0 0 [] (bl [5]))] /\
  reply_ok 0x8E 0 0 [] /\ unconnected [(0, []); (0xB2, router_reply 0x8E 0 0 [] (bl [5]))] (router_reply 0x8E 0 0 [] (bl [5])) /\
  writes [] (w_uint 2 5 ;; w_bytes [x01]) (le 2 5 ++ [x01]).
Proof.
  repeat split; try (repeat constructor; fail); try reflexivity; try (exists []; reflexivity).
  apply writes_seq; [apply writes_uint|apply writes_bytes].
Qed.

(** ** C05 A truncated stream is reported: violated *)
(** A strict prefix of a frame is decoded from a stream without any error. *)
Theorem C05_truncation_refuted :
  exists cmd ses payload pre tail, frame_fits cmd ses 0 0 0 0 payload /\
    frame cmd ses 0 0 0 0 payload = pre ++ tail /\ tail <> [] /\
    exists m r p, ep_deserialize [] (RStr pre 0 false) (ep_make0 0 0) = (Ret tt, m, r, p).
Proof. exact ep_stream_truncated. Qed.
Print Assumptions C05_truncation_refuted.
(** Worse: when the item count is missing, an indeterminate value drives the loop. *)
Theorem C05_count_refuted : forall m d p p0, len (drop p d) < 2 ->
  exists r l, cpf_deserialize m (RStr d p false) p0 = (Undef Indeterminate, m, r, l).
Proof. exact cpf_stream_short. Qed.
Print Assumptions C05_count_refuted.
(** How far it is violated: a header is never reported short, and missing payload
    bytes are zeros. *)
Theorem C05_header_refuted : forall m d p f h, exists r h', hdr_deserialize m (RStr d p f) h = (Ret tt, m, r, h').
Proof. exact hdr_stream_never_fails. Qed.
Print Assumptions C05_header_refuted.
Theorem C05_payload_refuted : forall m d p p0 cmd n ses st c0 c1 o part,
  fits 2 cmd -> fits 2 n -> fits 4 ses -> fits 4 st -> fits 4 c0 -> fits 4 c1 -> fits 4 o ->
  drop p d = header cmd n ses st c0 c1 o ++ part -> len part < n ->
  exists m' r' pl, ep_deserialize m (RStr d p false) p0
    = (Ret tt, m', r', mkEP (mkHdr cmd n ses st c0 c1 o) pl) /\ holds m' pl (part ++ zeros (n - len part)).
Proof. exact ep_stream_short. Qed.
Print Assumptions C05_payload_refuted.
Example C05_example : drop 0 (header 0x65 8 1 0 0 0 0 ++ [x01]) = header 0x65 8 1 0 0 0 0 ++ [x01] /\ len [x01] < 8.
Proof. split; reflexivity. Qed.

(** ** C06 The advertised length is the number of bytes produced *)
(** [exact m s]: getLength is the number of bytes serialize writes, which are then
    determined.  Proved for every class, with the exceptions below. *)
Theorem C06_lengths_partial : forall m,
  (forall h, exact m (hdr_ser h)) /\
  (forall p, exact_opt m (ep_payload p) -> exact m (ep_ser p)) /\
  (forall i, exact_opt m (it_data i) -> (forall n, opt_length (it_data i) = Ret n -> n < 65536) -> exact m (it_ser i)) /\
  (forall p, Forall (fun i => exact_opt m (it_data i) /\ forall n, opt_length (it_data i) = Ret n -> n < 65536) p ->
     exact m (cpf_ser p)) /\
  (forall q, exact_opt m (mq_data q) -> exact m (mq_ser q)) /\
  (forall r, exact_opt m (mq_data (rr_ext r)) -> exact m (rrq_ser r)) /\
  (forall r, exact m (rr_base_ser r)) /\
  (forall g, exact m (rg_ser g)) /\ (forall g, exact m (sa_ser g)) /\
  (forall n s, exact m s -> exact m (sq_ser n s)) /\
  (forall k v, exact m (prim_ser k v)) /\
  (forall s bs, reads m (sb_data s) bs -> exact m (ser_of_sbuf s)) /\
  (forall i, len (id_sockaddr i) = 16 -> len (id_revision i) = 2 -> len (id_name i) < 256 -> exact m (id_ser i)) /\
  (forall f, exact m (fo_ser f)) /\
  (forall f, p_pad (fc_path f) = false -> exact m (fc_ser f)).
Proof. exact all_exact. Qed.
Print Assumptions C06_lengths_partial.
(** Exceptions: a CPF item with 65536 bytes or more, an identity whose name has 256
    bytes or more, a forward close request with a padded path. *)
Theorem C06_item_refuted : forall m i s, it_data i = Some s ->
  (exists n, s_length s = Ret n /\ 65536 <= n) -> exact m s -> ~ exact m (it_ser i).
Proof. exact inexact_item. Qed.
Print Assumptions C06_item_refuted.
Theorem C06_identity_refuted : forall m i,
  len (id_sockaddr i) = 16 -> len (id_revision i) = 2 -> 256 <= len (id_name i) -> ~ exact m (id_ser i).
Proof. exact inexact_identity. Qed.
Print Assumptions C06_identity_refuted.
Theorem C06_forward_close_refuted : forall m f, p_pad (fc_path f) = true -> ~ exact m (fc_ser f).
Proof. exact inexact_forward_close. Qed.
Print Assumptions C06_forward_close_refuted.
Example C06_example :
  exact [] (prim_ser 4 7) /\ exact_opt [] (ep_payload (mkEP (mkHdr 0 0 0 0 0 0 0) (Some (prim_ser 4 7)))) /\
  p_pad (fc_path (cn_close_request (cn_make 1 2 3 4 5 (mkCI 1 2 3) (mkCI 4 5 6)))) = false /\
  256 <= len (zeros 256) /\ p_pad (fc_path (mkFC 6 40 1 2 3 (path_empty true))) = true.
Proof. split; [apply exact_prim|]. split; [apply exact_prim|]. split; [reflexivity|]. split; [discriminate|reflexivity]. Qed.

(** ** C07 Socket send transmits exactly the serialized message *)
(** For a message whose length is exact. *)
Theorem C07_send_message : forall i s bs w, carries (w_mem w) s bs ->
  exists o w', sock_send_ser i s w = (o, w') /\
    ((exists n, o = Ret n /\ w_net w' = w_net w ++ [ESend i bs (Some n)]) \/
     (exists e, o = Throw SystemError e /\ w_net w' = w_net w ++ [ESend i bs None])) /\
    w_se w' = w_se w /\ hext (w_mem w) (w_mem w').
Proof. exact send_message. Qed.
Print Assumptions C07_send_message.
(** For any object at all, given the number [n] getLength returns ([sends], Vocab2):
    if serialize returns, the transport gets the [n] bytes of the new buffer, once; if
    serialize raises, the exception propagates and the transport gets nothing; the
    buffer is freed either way. *)
Theorem C07_send_any : forall i s n w, s_length s = Ret n ->
  exists o w', sock_send_ser i s w = (o, w') /\ sends i s n w o w'.
Proof. exact send_any. Qed.
Print Assumptions C07_send_any.
(** At most one call reaches the transport, whatever the object does. *)
Theorem C07_send_once : forall i s w, exists o w', sock_send_ser i s w = (o, w') /\ w_se w' = w_se w /\ w_rbuf w' = w_rbuf w /\
  ((w_net w' = w_net w /\ (forall j, get_sock j w' = get_sock j w) /\ forall n, o <> Ret n) \/
   exists bs r, w_net w' = w_net w ++ [ESend i bs r]).
Proof. exact send_ser_any. Qed.
Print Assumptions C07_send_once.
Example C07_example :
  carries [] (ep_ser (ep_make0 0x66 5)) (request 0x66 5 []) /\
  sends Ctl (mkSer (Ret 3) (dthrow_w LengthError "user") None) 3 (w0 []) (Throw LengthError "user")
    (set_mem [Some (zeros 4096); None] (w0 [])).
Proof. split; [apply ep_make0_carries|]. vm_compute. auto. Qed.

(** ** C08 Encapsulation header format and strict length *)
Theorem C08_header_encode : forall m h, carries m (hdr_ser h)
  (header (h_command h) (h_length h) (h_session h) (h_status h) (h_ctx0 h) (h_ctx1 h) (h_options h)).
Proof. exact hdr_carries. Qed.
Print Assumptions C08_header_encode.
Theorem C08_header_decode : forall m v c h0 cmd n ses st c0 c1 o rest,
  fits 2 cmd -> fits 2 n -> fits 4 ses -> fits 4 st -> fits 4 c0 -> fits 4 c1 -> fits 4 o ->
  reads m v (header cmd n ses st c0 c1 o ++ rest) ->
  hdr_deserialize m (RBuf v c) h0 = (Ret tt, m, RBuf (view_drop v 24) (c + 24), mkHdr cmd n ses st c0 c1 o).
Proof. exact hdr_roundtrip. Qed.
Print Assumptions C08_header_decode.
Theorem C08_header_short : forall m v c h0 bs, reads m v bs -> len bs < 24 ->
  exists s r h, hdr_deserialize m (RBuf v c) h0 = (Throw LengthError s, m, r, h).
Proof. exact header_short. Qed.
Print Assumptions C08_header_short.
(** The decode that states a length accepts only 24. *)
Theorem C08_header_strict : forall n m r h,
  (n <> 24 -> exists s, deserialize_len hdr_cls n m r h = (Throw LengthError s, m, r, h)) /\
  deserialize_len hdr_cls 24 m r h = hdr_deserialize m r h.
Proof. exact (fun n m r h => conj (header_strict n m r h) (header_24 m r h)). Qed.
Print Assumptions C08_header_strict.
Example C08_example : len (header 0x65 4 0xDEADBEEF 0 1 2 3) = 24 /\
  des hdr_deserialize (mkHdr 9 9 9 9 9 9 9) (header 0x65 4 0xDEADBEEF 0 1 2 3) = (Ret tt, mkHdr 0x65 4 0xDEADBEEF 0 1 2 3, 24).
Proof. split; reflexivity. Qed.

(** ** C09 Encapsulation packet decode is total and exact *)
Theorem C09_packet_decode : forall m v c p0 bs, reads m v bs ->
  (exists cmd ses st c0 c1 o payload rest p,
     frame_fits cmd ses st c0 c1 o payload /\ bs = frame cmd ses st c0 c1 o payload ++ rest /\
     ep_deserialize m (RBuf v c) p0
     = (Ret tt, m, RBuf (view_drop v (24 + len payload)) (c + (24 + len payload)), p) /\
     reads m (view_drop v (24 + len payload)) rest /\
     ep_header p = mkHdr cmd (len payload) ses st c0 c1 o /\ holds m (ep_payload p) payload) \/
  ((forall cmd ses st c0 c1 o payload rest, frame_fits cmd ses st c0 c1 o payload ->
      bs <> frame cmd ses st c0 c1 o payload ++ rest) /\
   exists s r p, ep_deserialize m (RBuf v c) p0 = (Throw LengthError s, m, r, p)).
Proof. exact packet_decode. Qed.
Print Assumptions C09_packet_decode.
Example C09_example : frame_fits 0x6F 7 0 0 0 0 (bl [1;2;3]) /\
  reads [Some (x00 :: frame 0x6F 7 0 0 0 0 (bl [1;2;3]) ++ [x09])] (mkV 0 1 28) (frame 0x6F 7 0 0 0 0 (bl [1;2;3]) ++ [x09]).
Proof. repeat split. Qed.

(** ** C10 Encapsulation packet round trip *)
Theorem C10_packet_roundtrip : forall m cmd handle p payload, fits 2 cmd -> fits 4 handle -> len payload < 65536 ->
  carries_opt m p payload ->
  exists q, ep_make cmd handle p = Ret q /\ carries m (ep_ser q) (request cmd handle payload) /\
  forall m' v c p0 rest, reads m' v (request cmd handle payload ++ rest) ->
    exists d, ep_deserialize m' (RBuf v c) p0
      = (Ret tt, m', RBuf (view_drop v (24 + len payload)) (c + (24 + len payload)), d) /\
      ep_header d = mkHdr cmd (len payload) handle 0 0 0 0 /\ holds m' (ep_payload d) payload.
Proof. exact packet_roundtrip. Qed.
Print Assumptions C10_packet_roundtrip.
Example C10_example : fits 2 0x6F /\ fits 4 0xDEADBEEF /\ carries_opt [] (Some (rg_ser rg_make)) (registration 1 0).
Proof. split; [reflexivity|]. split; [reflexivity|]. exact (rg_carries [] rg_make). Qed.

(** ** C11 Oversized payloads never produce a mis-framed packet: violated *)
(** Every payload of 65536 bytes or more is accepted and framed with a wrong length:
    the receiver sees a shorter payload and left-over bytes. *)
Theorem C11_oversize_refuted : forall m cmd handle p payload, fits 2 cmd -> fits 4 handle -> 65536 <= len payload ->
  carries_opt m p payload ->
  exists q bs short rest, ep_make cmd handle p = Ret q /\ carries m (ep_ser q) bs /\
    frame_fits cmd handle 0 0 0 0 short /\ bs = frame cmd handle 0 0 0 0 short ++ rest /\ rest <> [] /\ short <> payload.
Proof. exact packet_oversize. Qed.
Print Assumptions C11_oversize_refuted.
Example C11_example : 65536 <= len (zeros 65536) /\
  carries_opt [Some (zeros 65536)] (Some (ser_of_sbuf (sb_of_view (mkV 0 0 65536)))) (zeros 65536).
Proof. split; [apply zeros_big|apply carries_zeros]. Qed.

(** ** C12 Length-checked packet decode *)
Theorem C12_packet_decode_length : forall m v c p0 bs n, reads m v bs ->
  (exists cmd ses st c0 c1 o payload rest p,
     frame_fits cmd ses st c0 c1 o payload /\ bs = frame cmd ses st c0 c1 o payload ++ rest /\
     n = 24 + len payload /\
     ep_deserialize_len n m (RBuf v c) p0 = (Ret tt, m, RBuf (view_drop v n) (c + n), p) /\
     ep_header p = mkHdr cmd (len payload) ses st c0 c1 o /\ holds m (ep_payload p) payload) \/
  ((forall cmd ses st c0 c1 o payload rest, frame_fits cmd ses st c0 c1 o payload -> n = 24 + len payload ->
      bs <> frame cmd ses st c0 c1 o payload ++ rest) /\
   exists s r p, ep_deserialize_len n m (RBuf v c) p0 = (Throw LengthError s, m, r, p)).
Proof. exact packet_decode_len. Qed.
Print Assumptions C12_packet_decode_length.
Example C12_example :
  reads [Some (frame 0x6F 7 0 0 0 0 (bl [1;2;3]))] (mkV 0 0 27) (frame 0x6F 7 0 0 0 0 (bl [1;2;3])) /\ 27 = 24 + len (bl [1;2;3]).
Proof. repeat split. Qed.

(** ** C13 CPF item decode is total and exact *)
Theorem C13_item_decode : forall m v c i0 bs, reads m v bs ->
  (exists x rest i, item_ok x /\ bs = item x ++ rest /\
     it_deserialize m (RBuf v c) i0 = (Ret tt, m, RBuf (view_drop v (4 + len (snd x))) (c + (4 + len (snd x))), i) /\
     item_is m i x /\ reads m (view_drop v (4 + len (snd x))) rest) \/
  ((forall x rest, item_ok x -> bs <> item x ++ rest) /\
   exists s r i, it_deserialize m (RBuf v c) i0 = (Throw LengthError s, m, r, i)).
Proof. exact item_decode. Qed.
Print Assumptions C13_item_decode.
Theorem C13_item_decode_length : forall m v c i0 bs n, reads m v bs ->
  (exists x rest i, item_ok x /\ bs = item x ++ rest /\ 4 + len (snd x) <= n /\
     it_deserialize_len n m (RBuf v c) i0 = (Ret tt, m, RBuf (view_drop v (4 + len (snd x))) (c + (4 + len (snd x))), i) /\
     item_is m i x) \/
  ((forall x rest, item_ok x -> 4 + len (snd x) <= n -> bs <> item x ++ rest) /\
   exists s r i, it_deserialize_len n m (RBuf v c) i0 = (Throw LengthError s, m, r, i)).
Proof. exact item_decode_len. Qed.
Print Assumptions C13_item_decode_length.
Example C13_example : item_ok (0xB1, bl [1;2;3]) /\ item (0xB1, bl [1;2;3]) = bl [0xB1;0;3;0;1;2;3].
Proof. repeat split. Qed.

(** ** C14 CPF packet decode is total and exact *)
Theorem C14_cpf_decode : forall m v c p0 bs, reads m v bs ->
  (exists xs rest p, cpf_ok xs /\ bs = cpf xs ++ rest /\
     cpf_deserialize m (RBuf v c) p0 = (Ret tt, m, RBuf (view_drop v (len (cpf xs))) (c + len (cpf xs)), p) /\
     Forall2 (item_is m) p xs /\ reads m (view_drop v (len (cpf xs))) rest) \/
  ((forall xs rest, cpf_ok xs -> bs <> cpf xs ++ rest) /\
   exists s r p, cpf_deserialize m (RBuf v c) p0 = (Throw LengthError s, m, r, p)).
Proof. exact cpf_packet_decode. Qed.
Print Assumptions C14_cpf_decode.
Example C14_example : cpf_ok [(0x8002, bl [4;0;2;0;1;0;0;0]); (0xB1, bl [1;0;7])] /\
  cpf [(0x8002, bl [4;0;2;0;1;0;0;0]); (0xB1, bl [1;0;7])] = bl [2;0; 2;0x80;8;0;4;0;2;0;1;0;0;0; 0xB1;0;3;0;1;0;7].
Proof. split; [|reflexivity]. split; [repeat constructor|reflexivity]. Qed.

(** ** C15 CPF packet round trip and canonicity *)
Theorem C15_cpf_roundtrip : forall m its xs, Forall2 (item_carries m) its xs -> cpf_ok xs ->
  carries m (cpf_ser its) (cpf xs) /\
  forall m' v c p0 rest, reads m' v (cpf xs ++ rest) ->
    exists p, cpf_deserialize m' (RBuf v c) p0
      = (Ret tt, m', RBuf (view_drop v (len (cpf xs))) (c + len (cpf xs)), p) /\ Forall2 (item_is m') p xs.
Proof. exact cpf_roundtrip. Qed.
Print Assumptions C15_cpf_roundtrip.
Theorem C15_cpf_canonical : forall m v c p0 bs r p, reads m v bs -> cpf_deserialize m (RBuf v c) p0 = (Ret tt, m, r, p) ->
  exists used rest, bs = used ++ rest /\ r = RBuf (view_drop v (len used)) (c + len used) /\ carries m (cpf_ser p) used.
Proof. exact cpf_canonical. Qed.
Print Assumptions C15_cpf_canonical.
Example C15_example :
  Forall2 (item_carries []) [it_make 0xB1 (Some (prim_ser 2 7)); it_null] [(0xB1, le 2 7); (0, [])] /\
  cpf_ok [(0xB1, le 2 7); (0, [])].
Proof.
  split; [|split; [repeat constructor|reflexivity]].
  constructor; [split; [reflexivity|apply carries_prim]|]. constructor; [split; reflexivity|constructor].
Qed.

(** ** C16 Oversized CPF items are refused: violated inside unconnected requests *)
(** Holds for an item or CPF packet handed to a socket: length_error, nothing sent. *)
Theorem C16_refused_partial : forall i w,
  (forall it x, item_carries (w_mem w) it x -> 65536 <= len (snd x) ->
     exists o w', sock_send_ser i (it_ser it) w = (o, w') /\ (exists s, o = Throw LengthError s) /\ w_net w' = w_net w /\ w_se w' = w_se w) /\
  (forall its xs, Forall2 (item_carries (w_mem w)) its xs -> Exists (fun x => 65536 <= len (snd x)) xs ->
     exists o w', sock_send_ser i (cpf_ser its) w = (o, w') /\ (exists s, o = Throw LengthError s) /\ w_net w' = w_net w /\ w_se w' = w_se w).
Proof. exact (fun i w => conj (fun it x => item_refused i it x w) (fun its xs => cpf_refused i its xs w)). Qed.
Print Assumptions C16_refused_partial.
(** Does not hold for the data of an unconnected request: every request with 65536
    bytes or more is produced with a wrong item length. *)
Theorem C16_unconnected_refuted : forall m service pad ss d bs, len ss < 256 -> carries_opt m d bs -> 65536 <= len bs ->
  exists wire body short extra, carries m (rrq_ser (rrq_make service (path_of pad ss) d)) wire /\
    body = router_request (u8 service) (epath pad ss) bs /\
    wire = rr 0 0 [(0, []); (0xB2, short)] ++ extra /\ rr_ok 0 0 [(0, []); (0xB2, short)] /\ body = short ++ extra /\ extra <> [].
Proof. exact rr_oversize. Qed.
Print Assumptions C16_unconnected_refuted.
Example C16_example : item_carries [Some (zeros 65536)] (it_make 0xB1 (Some (ser_of_sbuf (sb_of_view (mkV 0 0 65536))))) (0xB1, zeros 65536) /\
  65536 <= len (zeros 65536).
Proof. split; [|apply zeros_big]. split; [reflexivity|apply carries_zeros]. Qed.

(** ** C17 Unconnected request wire format *)
Theorem C17_request_format : forall m service pad ss d bs, len ss < 256 -> carries_opt m d bs ->
  carries m (rrq_ser (rrq_make service (path_of pad ss) d)) (rr_request (u8 service) (epath pad ss) bs).
Proof. exact rrq_carries. Qed.
Print Assumptions C17_request_format.
Example C17_example : carries_opt [] (Some (prim_ser 2 1)) (le 2 1) /\
  rr_request 0x10 (epath false [SClass 0x73; SInstance 1; SAttribute 4]) (le 2 1)
  = bl [0;0;0;0;0;0;2;0;0;0;0;0;0xB2;0;10;0;0x10;3;0x20;0x73;0x24;1;0x30;4;1;0].
Proof. split; [apply carries_prim|reflexivity]. Qed.

(** The router request by itself, and one constructed from the service code alone: it has an
    empty path and no data. *)
Theorem C17_router : forall m service pad ss d bs, len ss < 256 -> carries_opt m d bs ->
  carries m (mq_ser (mkMRQ (u8 service) (path_of pad ss) d)) (router_request (u8 service) (epath pad ss) bs).
Proof. exact mq_carries. Qed.
Print Assumptions C17_router.
Theorem C17_service_only : forall m service, carries m (mq_ser (mq_make service)) [octet (service mod 256); x00].
Proof. exact mq_bare. Qed.
Print Assumptions C17_service_only.
Example C17_example_router : router_request (u8 0x4E) (epath true [SClass 6; SInstance 1]) [x07] = bl [0x4E;2;0;0x20;6;0x24;1;7] /\ [octet (0x1AA mod 256); x00] = bl [0xAA;0].
Proof. split; reflexivity. Qed.
(** ** C18 Unconnected reply acceptance: exact, but one malformed reply crashes *)
Theorem C18_reply_acceptance_partial : forall m v c t bs, reads m v bs ->
  (exists i to xs rest d sv rs st a q t', rr_ok i to xs /\ bs = rr i to xs ++ rest /\ unconnected xs d /\
     reply_ok sv rs st a /\ d = router_reply sv rs st a q /\
     rrs_deserialize m (RBuf v c) t
     = (Ret tt, m, RBuf (view_drop v (len (rr i to xs))) (c + len (rr i to xs)), t') /\
     rr_reply_is m t' i to sv st a q) \/
  ((forall i to xs rest d sv rs st a q, rr_ok i to xs -> bs = rr i to xs ++ rest -> unconnected xs d ->
      reply_ok sv rs st a -> d <> router_reply sv rs st a q) /\
   (((forall i to xs rest, rr_ok i to xs -> bs = rr i to xs ++ rest -> ~ unconnected xs []) /\
     exists e s r t', is_a e LogicError = true /\ rrs_deserialize m (RBuf v c) t = (Throw e s, m, r, t')) \/
    (exists i to xs rest r t', rr_ok i to xs /\ bs = rr i to xs ++ rest /\ unconnected xs [] /\
       rrs_deserialize m (RBuf v c) t = (Undef NullDeref, m, r, t')))).
Proof. exact rr_reply_decode. Qed.
Print Assumptions C18_reply_acceptance_partial.
Theorem C18_crash_refuted : exists m v bs r t', reads m v bs /\
  rrs_deserialize m (RBuf v 0) rrs_make = (Undef NullDeref, m, r, t').
Proof. exact rr_reply_crash. Qed.
Print Assumptions C18_crash_refuted.
Example C18_example : let xs := [(0, []); (0xB2, router_reply 0x8E 0 0 [] (bl [5]))] in
  rr_ok 0 0 xs /\ unconnected xs (router_reply 0x8E 0 0 [] (bl [5])) /\ reply_ok 0x8E 0 0 [].
Proof. split; [split; [reflexivity|]; split; [reflexivity|]; split; [repeat constructor|reflexivity]|]. split; [exists []; reflexivity|repeat split]. Qed.

(** ** C19 Message router reply decode *)
(** For every reply below 2 GiB. *)
Theorem C19_reply_decode_partial : forall m v t bs, reads m v bs -> len bs < 2147483648 ->
  (exists sv rs st a d s, reply_ok sv rs st a /\ bs = router_reply sv rs st a d /\
     ms_deserialize_len (len bs) m (RBuf v 0) t = (Ret tt, m, RBuf (view_drop v (len bs)) (len bs), s) /\
     ms_service s = sv /\ ms_status s = st /\ holds m (ms_additional s) a /\ holds m (ms_data s) d) \/
  ((forall sv rs st a d, reply_ok sv rs st a -> bs <> router_reply sv rs st a d) /\
   exists e r s, ms_deserialize_len (len bs) m (RBuf v 0) t = (Throw LengthError e, m, r, s)).
Proof. exact reply_decode_all. Qed.
Print Assumptions C19_reply_decode_partial.
(** Beyond that the data is dropped: the remaining length is computed in an int. *)
Theorem C19_huge_refuted : forall m v t sv rs st a d, reply_ok sv rs st a -> 2147483648 <= len d < 4294967296 ->
  reads m v (router_reply sv rs st a d) ->
  exists r s, ms_deserialize_len (len (router_reply sv rs st a d)) m (RBuf v 0) t = (Ret tt, m, r, s) /\ ms_data s = None.
Proof. exact reply_decode_huge. Qed.
Print Assumptions C19_huge_refuted.
Example C19_example : reply_ok 0x8E 0 5 (bl [1;2]) /\
  reads [Some (router_reply 0x8E 0 5 (bl [1;2]) (bl [7;8;9]))] (mkV 0 0 9) (router_reply 0x8E 0 5 (bl [1;2]) (bl [7;8;9])).
Proof. repeat split. Qed.
(** The hypothesis of the refutation is met by a 2 GiB reply (never computed here). *)
Example C19_huge_example : exists m v d, 2147483648 <= len d < 4294967296 /\ reads m v (router_reply 0x8E 0 0 [] d).
Proof. exact huge_reply_exists. Qed.

(** ** C20 Router reply decode does not depend on earlier reads: violated *)
(** Having read [c] bytes before, the last [c] bytes of the data are lost. *)
Theorem C20_count_refuted : forall m v t c sv rs st a d, reply_ok sv rs st a -> len d < 2147483648 -> c < 2147483648 ->
  reads m v (router_reply sv rs st a d) ->
  exists r, ms_deserialize_len (len (router_reply sv rs st a d)) m (RBuf v c) t
    = (Ret tt, m, r, mkMRR sv st (window v 4 (len a)) (window v (4 + len a) (len d - c))).
Proof. exact reply_decode_count. Qed.
Print Assumptions C20_count_refuted.
Theorem C20_refuted : exists m v bs s0 s24 r0 r24, reads m v bs /\
  ms_deserialize_len (len bs) m (RBuf v 0) ms_make = (Ret tt, m, r0, s0) /\
  ms_deserialize_len (len bs) m (RBuf v 24) ms_make = (Ret tt, m, r24, s24) /\
  ms_data s0 <> None /\ ms_data s24 = None.
Proof. exact count_matters. Qed.
Print Assumptions C20_refuted.

(** ** C21 Path encoding *)
Theorem C21_path : forall m ops pad, Forall path_op_ok ops ->
  let ss := snd (fold_left path_spec ops (pad, [])) in
  let pd := fst (fold_left path_spec ops (pad, [])) in
  let p := fold_left do_path ops (path_empty pad) in
  len ss < 256 ->
  path_getLength p = len (epath pd ss) /\ writes m (path_serialize p) (epath pd ss).
Proof. exact path_build. Qed.
Print Assumptions C21_path.
Example C21_example :
  let ops := [PAdd (SPoint 9); PReset; PAdd (SClass 4); PAdd (SInstance 1); PAdd (SPoint 0x71); PPad true] in
  Forall path_op_ok ops /\ fold_left path_spec ops (false, []) = (true, [SClass 4; SInstance 1; SPoint 0x71]) /\
  epath true [SClass 4; SInstance 1; SPoint 0x71] = bl [3;0;0x20;4;0x24;1;0x2C;0x71].
Proof. split; [repeat constructor|split; reflexivity]. Qed.

(** ** C22 Path segment count is exact: violated above 255 segments *)
(** The count byte is the number of segments modulo 256. *)
Theorem C22_count_partial : forall ops pad, Forall path_op_ok ops ->
  let ss := snd (fold_left path_spec ops (pad, [])) in
  let p := fold_left do_path ops (path_empty pad) in
  let pd := fst (fold_left path_spec ops (pad, [])) in
  forall m, writes m (path_serialize p) ([octet (len ss mod 256)] ++ (if pd then [x00] else []) ++ flat_map segment_bytes ss).
Proof. exact path_build_bytes. Qed.
Print Assumptions C22_count_partial.
Theorem C22_count_refuted : exists ops, Forall path_op_ok ops /\
  len (snd (fold_left path_spec ops (false, []))) = 256 /\
  forall m, exists bs, writes m (path_serialize (fold_left do_path ops (path_empty false))) (octet 0 :: bs).
Proof. exact path_wraps. Qed.
Print Assumptions C22_count_refuted.

(** ** C23 Connection parameter word packing *)
Theorem C23_parameter_word : forall size variable priority type shared, size < 2 ^ 15 -> priority < 4 -> type < 4 ->
  let w := calcConnectionParams size variable priority type shared in
  fits 4 w /\ w mod 2 ^ 25 = size /\ (w / 2 ^ 25) mod 2 = (if variable then 1 else 0) /\ (w / 2 ^ 26) mod 4 = priority /\
  (w / 2 ^ 28) mod 2 = 0 /\ (w / 2 ^ 29) mod 4 = type /\ w / 2 ^ 31 = (if shared then 1 else 0).
Proof. exact params_fields. Qed.
Print Assumptions C23_parameter_word.
(** Out of range arguments are masked to their field and do not spill. *)
Theorem C23_no_spill : forall size variable priority type shared,
  calcConnectionParams size variable priority type shared
  = parameter_word (size mod 2 ^ 15) variable (priority mod 4) (type mod 4) shared.
Proof. exact params_word. Qed.
Print Assumptions C23_no_spill.
Example C23_example : calcConnectionParams 0x5A5A true 3 2 true = 0xCE005A5A /\ 0x5A5A < 2 ^ 15.
Proof. split; reflexivity. Qed.

(** ** C24 Connection size is preserved: violated from 32768 on *)
Theorem C24_size_partial : forall size variable priority type shared, size < 65536 ->
  (calcConnectionParams size variable priority type shared mod 65536 = size <-> size < 32768).
Proof. exact params_size. Qed.
Print Assumptions C24_size_partial.
Theorem C24_size_refuted : exists size, size < 65536 /\ calcConnectionParams size false 2 2 false mod 65536 <> size.
Proof. exact size_lost. Qed.
Print Assumptions C24_size_refuted.
Example C24_example : 0x584 < 32768 /\ calcConnectionParams 0x584 true 2 2 false mod 65536 = 0x584.
Proof. split; reflexivity. Qed.

(** ** C25 Forward open request contents *)
Theorem C25_forward_open : forall m vendor orig sn o2t t2o o t,
  ci_assembly o < 256 -> ci_assembly t < 256 ->
  carries m (fo_ser (cn_open_request (cn_make vendor orig sn o2t t2o o t)))
    (forward_open 6 80 o2t t2o sn vendor orig 0
       (ci_rpi o) (parameter_word (ci_size o mod 2 ^ 15) false 2 2 false)
       (ci_rpi t) (parameter_word (ci_size t mod 2 ^ 15) true 2 2 false) 1
       (epath false [SClass 4; SInstance 1; SPoint (ci_assembly o); SPoint (ci_assembly t)])).
Proof. exact forward_open_bytes. Qed.
Print Assumptions C25_forward_open.
Example C25_example : let o := mkCI 0x71 0x6E 0x177FA0 in let t := mkCI 0x66 0x584 0x13070 in
  ci_assembly o < 256 /\ ci_assembly t < 256 /\
  forward_open 6 80 0x20003 0x20004 0x6789 0x195 0x4321 0
       (ci_rpi o) (parameter_word (ci_size o mod 2 ^ 15) false 2 2 false)
       (ci_rpi t) (parameter_word (ci_size t mod 2 ^ 15) true 2 2 false) 1
       (epath false [SClass 4; SInstance 1; SPoint (ci_assembly o); SPoint (ci_assembly t)])
  = bl [6; 0x50; 3; 0; 2; 0; 4; 0; 2; 0; 0x89; 0x67; 0x95; 1; 0x21; 0x43; 0; 0; 0; 0; 0; 0;
        0xA0; 0x7F; 0x17; 0; 0x6E; 0; 0; 0x48; 0x70; 0x30; 1; 0; 0x84; 5; 0; 0x4A; 1;
        4; 0x20; 4; 0x24; 1; 0x2C; 0x71; 0x2C; 0x66].
Proof. repeat split. Qed.

(** ** C26 Forward close request contents *)
Theorem C26_forward_close : forall m c, cn_tick_size c < 256 -> cn_ticks c < 256 ->
  carries m (fc_ser (cn_close_request c))
    (forward_close (cn_tick_size c) (cn_ticks c) (cn_sn c) (cn_vendor c) (cn_orig_sn c) [SClass 2; SInstance 1]).
Proof. exact forward_close_bytes. Qed.
Print Assumptions C26_forward_close.
Example C26_example : let c := cn_make 0x195 0x4321 0x6789 1 2 (mkCI 1 2 3) (mkCI 4 5 6) in
  cn_tick_size c < 256 /\ cn_ticks c < 256 /\
  forward_close (cn_tick_size c) (cn_ticks c) (cn_sn c) (cn_vendor c) (cn_orig_sn c) [SClass 2; SInstance 1]
  = bl [6; 0x50; 0x89; 0x67; 0x95; 1; 0x21; 0x43; 0; 0; 2; 0; 0x20; 2; 0x24; 1].
Proof. repeat split. Qed.

(** ** C27 Forward open and close replies decode exactly *)
Theorem C27_forward_open_reply : forall m v c f0 bs, reads m v bs ->
  (exists o t sn vn os oa ta rs app rest f,
     (fits 4 o /\ fits 4 t /\ fits 2 sn /\ fits 2 vn /\ fits 4 os /\ fits 4 oa /\ fits 4 ta /\ len app mod 2 = 0 /\ len app < 512) /\
     bs = forward_open_reply o t sn vn os oa ta rs app ++ rest /\
     fs_deserialize m (RBuf v c) f0 = (Ret tt, m, RBuf (view_drop v (26 + len app)) (c + (26 + len app)), f) /\
     (fs_o2t_id f, fs_t2o_id f, fs_conn_sn f, fs_vendor f, fs_orig_sn f, fs_o2t_api f, fs_t2o_api f) = (o, t, sn, vn, os, oa, ta) /\
     holds m (fs_data f) app) \/
  ((forall o t sn vn os oa ta rs app rest, len app mod 2 = 0 -> len app < 512 ->
      bs <> forward_open_reply o t sn vn os oa ta rs app ++ rest) /\
   exists s r f, fs_deserialize m (RBuf v c) f0 = (Throw LengthError s, m, r, f)).
Proof. exact forward_open_reply_decode. Qed.
Print Assumptions C27_forward_open_reply.
Theorem C27_forward_close_reply : forall m v c f0 bs, reads m v bs ->
  (exists sn vn os rs app rest f,
     (fits 2 sn /\ fits 2 vn /\ fits 4 os /\ len app mod 2 = 0 /\ len app < 512) /\
     bs = forward_close_reply sn vn os rs app ++ rest /\
     cs_deserialize m (RBuf v c) f0 = (Ret tt, m, RBuf (view_drop v (10 + len app)) (c + (10 + len app)), f) /\
     (cs_conn_sn f, cs_vendor f, cs_orig_sn f) = (sn, vn, os) /\ holds m (cs_data f) app) \/
  ((forall sn vn os rs app rest, len app mod 2 = 0 -> len app < 512 ->
      bs <> forward_close_reply sn vn os rs app ++ rest) /\
   exists s r f, cs_deserialize m (RBuf v c) f0 = (Throw LengthError s, m, r, f)).
Proof. exact forward_close_reply_decode. Qed.
Print Assumptions C27_forward_close_reply.
Example C27_example :
  reads [Some (forward_open_reply 1 2 3 4 5 6 7 x00 (bl [8;9]))] (mkV 0 0 28) (forward_open_reply 1 2 3 4 5 6 7 x00 (bl [8;9])) /\
  reads [Some (forward_close_reply 3 4 5 x00 (bl [8;9]))] (mkV 0 0 12) (forward_close_reply 3 4 5 x00 (bl [8;9])).
Proof. split; reflexivity. Qed.

(** ** C28 Identity item round trip *)
Theorem C28_identity_roundtrip : forall m i, identity_fits i -> carries m (id_ser i) (identity_of i) /\
  forall m' v c i0 rest, reads m' v (identity_of i ++ rest) ->
    exists r, id_deserialize m' (RBuf v c) i0 = (Ret tt, m', r, i).
Proof. exact identity_roundtrip. Qed.
Print Assumptions C28_identity_roundtrip.
Theorem C28_identity_decode : forall m v c i0 bs, reads m v bs ->
  (exists i rest, identity_fits i /\ bs = identity_of i ++ rest /\
     id_deserialize m (RBuf v c) i0 = (Ret tt, m, RBuf (view_drop v (34 + len (id_name i))) (c + (34 + len (id_name i))), i)) \/
  ((forall i rest, identity_fits i -> bs <> identity_of i ++ rest) /\
   exists s r i, id_deserialize m (RBuf v c) i0 = (Throw LengthError s, m, r, i)).
Proof. exact identity_decode. Qed.
Print Assumptions C28_identity_decode.
Example C28_example : identity_fits test_id /\ identity_of test_id = test_id_bytes.
Proof. repeat split. Qed.

(** ** C29 Sequenced address item round trip *)
Theorem C29_sequenced_address : forall m conn seq, fits 4 conn -> fits 4 seq ->
  carries m (sa_ser (sa_make conn seq)) (seq_address conn seq) /\ len (seq_address conn seq) = 8 /\
  forall m' v c g0 rest, reads m' v (seq_address conn seq ++ rest) ->
    exists r, sa_deserialize m' (RBuf v c) g0 = (Ret tt, m', r, mkSA conn seq).
Proof. exact seq_address_roundtrip. Qed.
Print Assumptions C29_sequenced_address.
Theorem C29_sequenced_address_decode : forall m v c g0 bs, reads m v bs ->
  (exists conn seq rest, fits 4 conn /\ fits 4 seq /\ bs = seq_address conn seq ++ rest /\
     sa_deserialize m (RBuf v c) g0 = (Ret tt, m, RBuf (view_drop v 8) (c + 8), mkSA conn seq)) \/
  (len bs < 8 /\ exists s r g, sa_deserialize m (RBuf v c) g0 = (Throw LengthError s, m, r, g)).
Proof. exact seq_address_decode. Qed.
Print Assumptions C29_sequenced_address_decode.
Example C29_example : fits 4 0x20004 /\ fits 4 0x15 /\ seq_address 0x20004 0x15 = bl [4;0;2;0;0x15;0;0;0].
Proof. repeat split. Qed.
