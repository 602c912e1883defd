(** * PropsRest: further theorems for C03-C05 and C63, and the properties C86 and C87. *)
From Verif Require Import PRest.
Local Open Scope N_scope.

(** ** C03, continued: reading into memory the caller supplies *)
(** The bytes arrive, nothing else changes, and the reader moves on by as many. *)
Theorem C03_reader_into : forall T m v c (t : T) bs dst old, reads m v bs -> reads m dst old -> v_len dst <= len bs ->
  disjoint_views dst (view_take v (v_len dst)) ->
  exists m', rd_into dst m (RBuf v c) t = (Ret tt, m', RBuf (view_drop v (v_len dst)) (c + v_len dst), t) /\
    only_wrote m m' dst (take (v_len dst) bs).
Proof. exact @into_ok. Qed.
Print Assumptions C03_reader_into.
Theorem C03_reader_into_short : forall T m v c (t : T) dst, v_len v < v_len dst ->
  exists s, rd_into dst m (RBuf v c) t = (Throw LengthError s, m, RBuf v c, t).
Proof. exact @into_short. Qed.
Print Assumptions C03_reader_into_short.
(** The copy is a memcpy: the caller must keep the two apart. *)
Theorem C03_reader_into_overlap : forall T m v c (t : T) dst, v_len dst <= v_len v -> ~ disjoint_views dst (view_take v (v_len dst)) ->
  rd_into dst m (RBuf v c) t = (Undef OverlappingCopy, m, RBuf v c, t).
Proof. exact @into_overlap. Qed.
Print Assumptions C03_reader_into_overlap.
(** Next to each other in one block is enough. *)
Example C03_into_example : let m := [Some (bl [1;2;3;4])] in
  reads m (mkV 0 0 2) (bl [1;2]) /\ reads m (mkV 0 2 1) (bl [3]) /\
  disjoint_views (mkV 0 2 1) (view_take (mkV 0 0 2) 1) /\
  rd_into (mkV 0 2 1) m (RBuf (mkV 0 0 2) 7) tt = (Ret tt, [Some (bl [1;2;1;4])], RBuf (mkV 0 1 1) 8, tt).
Proof. split; [reflexivity|]. split; [reflexivity|]. split; [right; right; right; right; discriminate|reflexivity]. Qed.

(** ** C04, continued: any sequence of reads gives the same from a stream as from a buffer *)
(** C03_reader_fits is the buffer side. *)
Theorem C04_stream_reads : forall os m d p t, p <= len d -> Forall on_stream os -> total os <= len (drop p d) ->
  exists gs, do_gets os m (RStr d p false) t = (Ret tt, m, RStr d (p + total os) false, t ++ gs) /\ gots_are m os (drop p d) gs.
Proof. exact sgets_ok. Qed.
Print Assumptions C04_stream_reads.
Theorem C04_stream_into : forall T m d p (t : T) dst old, reads m dst old -> v_len dst <= len (drop p d) ->
  exists m', rd_into dst m (RStr d p false) t = (Ret tt, m', RStr d (p + v_len dst) false, t) /\
    only_wrote m m' dst (take (v_len dst) (drop p d)).
Proof. exact @into_stream. Qed.
Print Assumptions C04_stream_into.
Example C04_stream_example : Forall on_stream [GetInt 2; Skip 1; GetLocal 1; GetBytes 2] /\
  total [GetInt 2; Skip 1; GetLocal 1; GetBytes 2] <= len (drop 1 (bl [9;1;2;3;4;5;6;7])) /\
  do_gets [GetInt 2; Skip 1; GetLocal 1; GetBytes 2] [] (RStr (bl [9;1;2;3;4;5;6;7]) 1 false) []
  = (Ret tt, [], RStr (bl [9;1;2;3;4;5;6;7]) 7 false, [GotInt 0x201; GotNothing; GotInt 4; GotBytes (bl [5;6])]).
Proof. split; [repeat constructor|]. split; [discriminate|reflexivity]. Qed.

(** ** C05, continued: no sequence of reads from a truncated stream reports it *)
(** The call that runs out obtains what was left, padded with the old contents (zeros
    here), every later call obtains nothing, and all of them return normally. *)
Theorem C05_reads_refuted : forall os1 o os2 m d p t, p <= len d -> Forall plain (os1 ++ o :: os2) ->
  total os1 <= len (drop p d) < total os1 + size o ->
  exists p' gs1 g gs2, do_gets (os1 ++ o :: os2) m (RStr d p false) t = (Ret tt, m, RStr d p' true, t ++ gs1 ++ g :: gs2) /\
    gots_are m os1 (drop p d) gs1 /\ got_part o (drop (total os1) (drop p d)) g /\ Forall2 (fun o g => got_part o [] g) os2 gs2.
Proof. exact sgets_short. Qed.
Print Assumptions C05_reads_refuted.
(** And getByteCount then says that 2^64 - 1 bytes were read. *)
Theorem C05_position_refuted : forall T m d p (t : T), rd_count m (RStr d p true) t = (Ret (2 ^ 64 - 1), m, RStr d p true, t).
Proof. exact @failed_count. Qed.
Print Assumptions C05_position_refuted.
Example C05_reads_example : let d := bl [1;2;3] in
  total [GetInt 2] <= len (drop 0 d) < total [GetInt 2] + size (GetInt 4) /\
  do_gets [GetInt 2; GetInt 4; Skip 1; GetBytes 2] [] (RStr d 0 false) []
  = (Ret tt, [], RStr d 3 true, [GotInt 0x201; GotInt 3; GotNothing; GotBytes []]) /\
  do_gets [GetInt 2; Skip 2; GetBytes 1] [] (RStr d 0 false) [] = (Ret tt, [], RStr d 2 true, [GotInt 0x201; GotNothing; GotBytes []]).
Proof. repeat split; discriminate. Qed.

(** ** C63, continued: what send reports, and what clearing leaves *)
Theorem C63_counts_partial : forall msgs junk rx, fst (ts_sends msgs (ts_make junk rx)) = accepted 4096 msgs.
Proof. exact ts_counts. Qed.
Print Assumptions C63_counts_partial.
(** All but the first eight bytes of what was sent are still there. *)
Theorem C63_clear_keeps_refuted : forall msgs junk rx, len junk = 4096 -> 8 <= len (List.concat msgs) <= 4096 ->
  let t := ts_clear (snd (ts_sends msgs (ts_make junk rx))) in
  ts_tx_count t = 0 /\ take (len (List.concat msgs)) (ts_tx t) = zeros 8 ++ drop 8 (List.concat msgs).
Proof. exact ts_clear_keeps. Qed.
Print Assumptions C63_clear_keeps_refuted.
Example C63_counts_example : accepted 10 [bl [1;2;3]; zeros 9; bl [4]] = [3; 7; 0] /\ len (zeros 4096) = 4096 /\
  8 <= len (List.concat [bl [1;2;3]; zeros 9]) <= 4096.
Proof. repeat split; vm_compute; (reflexivity || discriminate). Qed.

(** ** C86 The length of a decoded object is the number of bytes decoded *)
Theorem C86_length_partial :
  tells hdr_ser hdr_deserialize /\ tells ep_ser ep_deserialize /\ (forall n, tells ep_ser (ep_deserialize_len n)) /\
  tells it_ser it_deserialize /\ (forall n, tells it_ser (it_deserialize_len n)) /\ tells cpf_ser cpf_deserialize /\
  (forall n, tells ms_ser (ms_deserialize_len n)) /\ tells rg_ser rg_deserialize /\ tells sa_ser sa_deserialize /\
  tells id_ser id_deserialize /\ tells fs_ser fs_deserialize /\ tells cs_ser cs_deserialize /\
  (forall k, tells (prim_ser k) (prim_des k)) /\ (forall n, tells ser_of_sbuf (sb_deserialize_len n)) /\ tells ser_of_sbuf sb_deserialize.
Proof. exact tells_classes. Qed.
Print Assumptions C86_length_partial.
(** A sequenced item of any such class, when no decode of it is under way. *)
Theorem C86_sequenced_partial : forall T (out : T -> ser) (k : cls T), tells out (c_des k) -> forall m v c q m' r q', sq_busy q = false ->
  sq_deserialize k m (RBuf v c) q = (Ret tt, m', r, q') ->
  exists n v', s_length (sq_ser (sq_num q') (out (sq_base q'))) = Ret n /\ r = RBuf v' (c + n).
Proof. exact @tells_sq. Qed.
Print Assumptions C86_sequenced_partial.
(** Not for RRData, whose length is always 16, nor for RRDataResponse, which has none. *)
Theorem C86_rr_refuted :
  (forall m v c t i to xs rest d, reads m v (rr i to xs ++ rest) -> rr_ok i to xs -> unconnected xs d -> exists t',
     rr_deserialize (fun _ => dret tt) m (RBuf v c) t = (Ret tt, m, RBuf (view_drop v (len (rr i to xs))) (c + len (rr i to xs)), t') /\
     s_length (rr_base_ser t') = Ret 16 /\ 16 + len d <= len (rr i to xs)) /\
  (forall t, exists s, s_length (rrs_ser t) = Throw LogicError s).
Proof. exact rr_lengths. Qed.
Print Assumptions C86_rr_refuted.
Example C86_example : exists r t', cs_deserialize [Some (bl [1;0;2;0;3;0;0;0;1;0;7;8;9])] (RBuf (mkV 0 0 13) 5) (mkFCS 0 0 0 None) = (Ret tt, [Some (bl [1;0;2;0;3;0;0;0;1;0;7;8;9])], r, t') /\
  s_length (cs_ser t') = Ret 12 /\ r = RBuf (mkV 0 12 1) 17.
Proof. do 2 eexists. vm_compute. repeat split. Qed.
Example C86_rr_example : let xs := [(0, []); (0xB2, bl [7])] in rr_ok 0 0 xs /\ unconnected xs (bl [7]) /\ reads [Some (rr 0 0 xs)] (mkV 0 0 17) (rr 0 0 xs ++ []).
Proof. split; [split; [reflexivity|]; split; [reflexivity|]; split; [repeat constructor|reflexivity]|]. split; [exists []; reflexivity|reflexivity]. Qed.

(** ** C87 Messages that only go one way refuse the other *)
Theorem C87_one_way : never_decodes mq_cls /\ never_decodes fo_cls /\ never_decodes fc_cls /\
  (forall s, never_encodes (ms_ser s)) /\ (forall s, never_encodes (fs_ser s)) /\ (forall s, never_encodes (cs_ser s)).
Proof. exact one_way. Qed.
Print Assumptions C87_one_way.
(** A reply needs to be told its length. *)
Theorem C87_reply_length : forall m r t, exists s, deserialize ms_cls m r t = (Throw LogicError s, m, r, t).
Proof. exact reply_without_length. Qed.
Print Assumptions C87_reply_length.
(** The request and reply wrappers refuse too, but only part way through. *)
Theorem C87_wrappers :
  (forall m v c t bs a m' r t', reads m v bs -> deserialize rrq_cls m (RBuf v c) t <> (Ret a, m', r, t')) /\
  (forall m v c t i to xs rest d, reads m v (rr i to xs ++ rest) -> rr_ok i to xs -> unconnected xs d ->
     exists s r t', deserialize rrq_cls m (RBuf v c) t = (Throw LogicError s, m, r, t') /\ rr_iface t' = i /\ rr_timeout t' = to) /\
  (forall m t out, exists e, s_serialize (rrs_ser t) m (WStr out) = (Throw LogicError e, m, WStr (out ++ le 4 (rr_iface t) ++ le 2 (rr_timeout t)))).
Proof. exact wrappers_refuse. Qed.
Print Assumptions C87_wrappers.
Example C87_example : exists s, deserialize_len fo_cls 40 [Some (zeros 40)] (RBuf (mkV 0 0 40) 0) (mkFO 0 0 0 0 0 0 0 0 0 0 0 0 0 (path_empty true))
  = (Throw LogicError s, [Some (zeros 40)], RBuf (mkV 0 0 40) 0, mkFO 0 0 0 0 0 0 0 0 0 0 0 0 0 (path_empty true)).
Proof. eexists. reflexivity. Qed.
