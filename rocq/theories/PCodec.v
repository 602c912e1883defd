(** The codec properties, assembled from the lemmas of the other files. *)
From Verif Require Export PStream.

(** ** Integers *)
Lemma int_stream_write k v m out : w_uint k v m (WStr out) = (Ret tt, m, WStr (out ++ le k v)).
Proof. unfold w_uint. rewrite host_bytes_le. reflexivity. Qed.
Lemma int_buffer_write k v m b pre old post c :
  nth_error m b = Some (Some (pre ++ old ++ post)) -> N.of_nat k <= len old ->
  exists m', w_uint k v m (WBuf (mkV b (len pre) (len old)) c)
    = (Ret tt, m', WBuf (mkV b (len pre + N.of_nat k) (len old - N.of_nat k)) (c + N.of_nat k)) /\
    nth_error m' b = Some (Some (pre ++ le k v ++ drop (N.of_nat k) old ++ post)).
Proof.
  intros H L. unfold w_uint. rewrite host_bytes_le. rewrite (w_bytes_ok m b pre old post (le k v) c H) by (rewrite len_le; assumption).
  rewrite len_le. eexists. split; [reflexivity|]. apply nth_error_set_same. eapply nth_error_lt; eauto.
Qed.
Lemma int_buffer_read {T} k v (get : T -> N) set m w rest c t : fits k v -> reads m w (le k v ++ rest) ->
  rd_uint k get set m (RBuf w c) t = (Ret tt, m, RBuf (view_drop w (N.of_nat k)) (c + N.of_nat k), set v t).
Proof.
  intros F H. destruct (buf_uint k get set m w c t _ H) as [[L _]|(x & r & E & Fx & _ & ->)].
  - rewrite len_app, len_le in L. lia.
  - apply le_app_inj in E; [|assumption..]. destruct E as [-> _]. reflexivity.
Qed.
Lemma integers k v : fits k v ->
  (forall m out, w_uint k v m (WStr out) = (Ret tt, m, WStr (out ++ le k v))) /\
  (forall m b pre old post c, nth_error m b = Some (Some (pre ++ old ++ post)) -> N.of_nat k <= len old ->
     exists m', w_uint k v m (WBuf (mkV b (len pre) (len old)) c)
       = (Ret tt, m', WBuf (mkV b (len pre + N.of_nat k) (len old - N.of_nat k)) (c + N.of_nat k)) /\
       nth_error m' b = Some (Some (pre ++ le k v ++ drop (N.of_nat k) old ++ post))) /\
  (forall T (get : T -> N) set m w rest c t, reads m w (le k v ++ rest) ->
     rd_uint k get set m (RBuf w c) t
     = (Ret tt, m, RBuf (view_drop w (N.of_nat k)) (c + N.of_nat k), set v t)) /\
  (forall T (get : T -> N) set m d p rest t, drop p d = le k v ++ rest ->
     rd_uint k get set m (RStr d p false) t = (Ret tt, m, RStr d (p + N.of_nat k) false, set v t)).
Proof.
  intros F. split; [intros; apply int_stream_write|]. split; [intros; apply int_buffer_write; assumption|].
  split; [intros; eapply int_buffer_read; eassumption|]. intros. eapply str_uint; eassumption.
Qed.
Lemma integers_back k bs : len bs = N.of_nat k -> exists v, fits k v /\
  (forall T (get : T -> N) set m w rest c t, reads m w (bs ++ rest) ->
     rd_uint k get set m (RBuf w c) t
     = (Ret tt, m, RBuf (view_drop w (N.of_nat k)) (c + N.of_nat k), set v t)) /\
  (forall m out, w_uint k v m (WStr out) = (Ret tt, m, WStr (out ++ bs))).
Proof.
  intros L. exists (num bs). split; [apply fits_num; assumption|]. split.
  - intros T get set m w rest c t H. rewrite <- (le_num_k k bs L) in H. eapply int_buffer_read; [apply fits_num; assumption|exact H].
  - intros. rewrite int_stream_write, le_num_k by assumption. reflexivity.
Qed.

(** ** Serializing: stream and buffer *)
Lemma write_agree m x bs : writes m x bs ->
  (forall out, x m (WStr out) = (Ret tt, m, WStr (out ++ bs))) /\
  (forall n, len bs <= n -> exists m' w',
     x (m ++ [Some (zeros n)]) (WBuf (mkV (List.length m) 0 n) 0) = (Ret tt, m', w') /\
     w_count w' = len bs /\ load m' (List.length m) 0 (len bs) = Ret bs).
Proof.
  intros H. split; [intros; apply (writes_stream _ _ _ H); apply hext_refl|].
  intros n L. rewrite (writes_fresh m x bs n H L). eexists; eexists. split; [reflexivity|]. split; [reflexivity|].
  assert (R : reads (m ++ [Some (bs ++ zeros (n - len bs))]) (mkV (List.length m) 0 (len (bs ++ zeros (n - len bs)))) (bs ++ zeros (n - len bs)))
    by (apply reads_block, nth_error_app_end).
  pose proof (reads_prefix _ _ _ (len bs) R) as P. cbn [v_blk v_off] in P. rewrite P by (rewrite len_app; lia).
  rewrite take_app_len. reflexivity.
Qed.

(** ** Packets on a stream *)
Lemma ep_agree m v d p c p0 cmd ses st c0 c1 o payload rest rest' : frame_fits cmd ses st c0 c1 o payload ->
  reads m v (frame cmd ses st c0 c1 o payload ++ rest) -> drop p d = frame cmd ses st c0 c1 o payload ++ rest' ->
  exists r1 p1 m2 r2 p2,
    ep_deserialize m (RBuf v c) p0 = (Ret tt, m, r1, p1) /\
    ep_deserialize m (RStr d p false) p0 = (Ret tt, m2, r2, p2) /\
    ep_header p1 = ep_header p2 /\ holds m (ep_payload p1) payload /\ holds m2 (ep_payload p2) payload.
Proof.
  intros F R H. destruct (ep_decode m v c p0 _ R) as [[N _]|(a1 & a2 & a3 & a4 & a5 & a6 & pl & rr_ & F' & E & X)].
  { exfalso. eapply N; [exact F|reflexivity]. }
  assert (Q := E). apply frame_inj in Q; [|assumption..]. destruct Q as (Q & <- & <-). injection Q as <- <- <- <- <- <-.
  destruct (ep_stream m d p p0 _ _ _ _ _ _ _ _ F H) as (m2 & pl2 & X2 & H2 & _).
  rewrite X, X2. do 5 eexists. split; [reflexivity|]. split; [reflexivity|]. cbn [ep_header ep_payload].
  split; [reflexivity|]. split; [|assumption].
  replace payload with (take (len payload) (drop 24 (frame cmd ses st c0 c1 o payload ++ rest))) at 2.
  - apply window_holds; [assumption|]. rewrite len_app, frame_len. lia.
  - unfold frame. rewrite <- app_assoc, (drop_app 24) by apply len_header. apply take_app_len.
Qed.
Lemma cpf_agree m v d p c p0 xs rest rest' : cpf_ok xs -> reads m v (cpf xs ++ rest) -> drop p d = cpf xs ++ rest' ->
  exists r1 l1 m2 r2 l2,
    cpf_deserialize m (RBuf v c) p0 = (Ret tt, m, r1, l1) /\
    cpf_deserialize m (RStr d p false) p0 = (Ret tt, m2, r2, l2) /\
    Forall2 (item_is m) l1 xs /\ Forall2 (item_is m2) l2 xs.
Proof.
  intros O R H. destruct (cpf_decode m v c p0 _ R) as [[N _]|(ys & r_ & O' & E & X)].
  { exfalso. eapply N; [exact O|reflexivity]. }
  apply cpf_inj in E; [|assumption..]. destruct E as [<- <-].
  destruct (cpf_stream m d p p0 xs _ O H) as (m2 & l & X2 & W & _). rewrite X, X2.
  do 5 eexists. split; [reflexivity|]. split; [reflexivity|]. split; [eapply cpf_windows_is; exact R|exact W].
Qed.

(** A truncated header on a stream is accepted silently. *)
Lemma str_raw_ret {T} n (get : T -> list byte) set m d p f t :
  exists p' f' t', rd_raw n get set m (RStr d p f) t = (Ret tt, m, RStr d p' f', t').
Proof. unfold rd_raw, str_read. destruct f; do 3 eexists; reflexivity. Qed.
Lemma str_dbind_raw {T} n (get : T -> list byte) set (k : D T unit) (P : outcome unit * heap * reader * T -> Prop) m d p f t :
  (forall p' f' t', P (k m (RStr d p' f') t')) -> P ((rd_raw n get set ;;; k) m (RStr d p f) t).
Proof.
  intros H. destruct (str_raw_ret n get set m d p f t) as (p' & f' & t' & E). rewrite (dbind_ret _ _ _ _ _ _ _ _ _ E). apply H.
Qed.
Lemma hdr_stream_never_fails m d p f h : exists r h', hdr_deserialize m (RStr d p f) h = (Ret tt, m, r, h').
Proof.
  unfold hdr_deserialize, rd_uint.
  do 5 (eapply (str_dbind_raw _ _ _ _ (fun x => exists r h', x = (Ret tt, m, r, h'))); intros ? ? ?).
  match goal with |- context [rd_raw ?n ?g ?s ?mm (RStr ?dd ?pp ?ff) ?t] => destruct (str_raw_ret n g s mm dd pp ff t) as (pz & fz & tz & ->) end.
  do 2 eexists. reflexivity.
Qed.
(** A truncated payload on a stream is accepted and padded with the contents of a fresh array. *)
Lemma ep_stream_short m d p p0 cmd n ses st c0 c1 o part :
  fits 2 cmd -> fits 2 n -> fits 4 ses -> fits 4 st -> fits 4 c0 -> fits 4 c1 -> fits 4 o ->
  drop p d = header cmd n ses st c0 c1 o ++ part -> len part < n ->
  exists m' r' pl, ep_deserialize m (RStr d p false) p0
    = (Ret tt, m', r', mkEP (mkHdr cmd n ses st c0 c1 o) pl) /\ holds m' pl (part ++ zeros (n - len part)).
Proof.
  intros F1 F2 F3 F4 F5 F6 F7 H L. unfold ep_deserialize. erewrite dbind_ret.
  2:{ unfold dzoom. rewrite (hdr_stream m d p (ep_header p0) _ _ _ _ _ _ _ _ F1 F2 F3 F4 F5 F6 F7 H). reflexivity. }
  apply (drop_next _ 24) in H; [|apply len_header].
  erewrite dbind_ret; [|reflexivity]. cbn [ep_header ep_set_header h_length]. destruct (N.ltb_spec 0 n) as [Z|Z]; [|lia].
  unfold dlocal, sb_deserialize_len, rd_is_buffer, dbind, dget, sb_empty, null_view.
  cbn [sb_data v_len]. destruct (N.eqb_spec n 0); [lia|].
  unfold sb_delete, dbind, dget, dret, d_alloc, alloc, dmod, rd_into. cbn [sb_alloc sb_data v_len v_blk v_off].
  unfold str_read. rewrite H, take_all by lia.
  assert (G : store (m ++ [Some (zeros n)]) (List.length m) 0 part = Ret (m ++ [Some (part ++ zeros (n - len part))])).
  { unfold store. destruct (N.eqb_spec (len part) 0) as [E|E].
    - rewrite (len_0 _ E). cbn [List.app]. change (len (@nil byte)) with 0. rewrite N.sub_0_r. reflexivity.
    - rewrite nth_error_app_end, len_zeros. destruct (N.leb_spec (0 + len part) n); [|lia]. rewrite list_set_app_end.
      change (take 0 (zeros n)) with (@nil byte). cbn [List.app]. rewrite N.add_0_l.
      do 4 f_equal. unfold drop, zeros. rewrite N2Nat.inj_sub. generalize (N.to_nat n) as a. generalize (N.to_nat (len part)) as b.
      induction b; intros a; [rewrite PeanoNat.Nat.sub_0_r; reflexivity|]. destruct a; [reflexivity|]. cbn. apply IHb. }
  rewrite G. do 3 eexists. split; [reflexivity|].
  apply str_sb_holds; [rewrite len_app, len_zeros; lia|apply nonempty_len; rewrite len_app, len_zeros; lia].
Qed.
(** A truncated item count on a stream: the count is an uninitialised local. *)
Lemma cpf_stream_short m d p p0 : len (drop p d) < 2 ->
  exists r l, cpf_deserialize m (RStr d p false) p0 = (Undef Indeterminate, m, r, l).
Proof.
  intros L. unfold cpf_deserialize, dbind, dmod, rd_local, str_read.
  assert (E : len (take (N.of_nat 2) (drop p d)) <? N.of_nat 2 = true).
  { apply N.ltb_lt. rewrite len_take. lia. }
  rewrite E. do 2 eexists. reflexivity.
Qed.

(** ** Encapsulation *)
Lemma hdr_roundtrip m v c h0 cmd n ses st c0 c1 o rest :
  fits 2 cmd -> fits 2 n -> fits 4 ses -> fits 4 st -> fits 4 c0 -> fits 4 c1 -> fits 4 o ->
  reads m v (header cmd n ses st c0 c1 o ++ rest) ->
  hdr_deserialize m (RBuf v c) h0 = (Ret tt, m, RBuf (view_drop v 24) (c + 24), mkHdr cmd n ses st c0 c1 o).
Proof.
  intros F1 F2 F3 F4 F5 F6 F7 R. destruct (hdr_decode m v c h0 _ R) as [[L _]|(a1 & a2 & a3 & a4 & a5 & a6 & a7 & r & E & (G1 & G2 & G3 & G4 & G5 & G6 & G7) & _ & ->)].
  - rewrite len_app, len_header in L. lia.
  - apply header_inj in E; try assumption. destruct E as [E _]. injection E as <- <- <- <- <- <- <-. reflexivity.
Qed.
Lemma header_strict n m r h : n <> 24 -> exists s, deserialize_len hdr_cls n m r h = (Throw LengthError s, m, r, h).
Proof.
  intros H. unfold deserialize_len. cbn [c_deslen hdr_cls]. unfold hdr_check, hdr_getLength.
  destruct (N.eqb_spec (24 + 0) n); [lia|]. eexists. reflexivity.
Qed.
Lemma header_24 m r h : deserialize_len hdr_cls 24 m r h = hdr_deserialize m r h.
Proof. reflexivity. Qed.
Lemma frame_payload_window m v cmd ses st c0 c1 o payload rest :
  reads m v (frame cmd ses st c0 c1 o payload ++ rest) -> holds m (window v 24 (len payload)) payload.
Proof.
  intros R. replace payload with (take (len payload) (drop 24 (frame cmd ses st c0 c1 o payload ++ rest))) at 2.
  - apply window_holds; [assumption|]. rewrite len_app, frame_len. lia.
  - unfold frame. rewrite <- app_assoc, (drop_app 24) by apply len_header. apply take_app_len.
Qed.
(** Success exactly on a complete frame. *)
Lemma packet_decode m v c p0 bs : reads m v bs ->
  (exists cmd ses st c0 c1 o payload rest p,
     frame_fits cmd ses st c0 c1 o payload /\ bs = frame cmd ses st c0 c1 o payload ++ rest /\
     ep_deserialize m (RBuf v c) p0
     = (Ret tt, m, RBuf (view_drop v (24 + len payload)) (c + (24 + len payload)), p) /\
     reads m (view_drop v (24 + len payload)) rest /\
     ep_header p = mkHdr cmd (len payload) ses st c0 c1 o /\ holds m (ep_payload p) payload) \/
  ((forall cmd ses st c0 c1 o payload rest, frame_fits cmd ses st c0 c1 o payload ->
      bs <> frame cmd ses st c0 c1 o payload ++ rest) /\
   exists s r p, ep_deserialize m (RBuf v c) p0 = (Throw LengthError s, m, r, p)).
Proof.
  intros R. destruct (ep_decode m v c p0 bs R) as [[N (r & p & E)]|(a1 & a2 & a3 & a4 & a5 & a6 & pl & rest & F & -> & E)].
  - right. split; [assumption|]. rewrite E. do 3 eexists. reflexivity.
  - left. exists a1, a2, a3, a4, a5, a6, pl, rest. eexists. split; [assumption|]. split; [reflexivity|]. split; [exact E|].
    split; [|split; [reflexivity|eapply frame_payload_window; exact R]].
    pose proof (reads_drop _ _ _ (24 + len pl) R) as D. rewrite (drop_app (24 + len pl)) in D by apply frame_len. exact D.
Qed.
Lemma packet_decode_len m v c p0 bs n : reads m v bs ->
  (exists cmd ses st c0 c1 o payload rest p,
     frame_fits cmd ses st c0 c1 o payload /\ bs = frame cmd ses st c0 c1 o payload ++ rest /\
     n = 24 + len payload /\
     ep_deserialize_len n m (RBuf v c) p0 = (Ret tt, m, RBuf (view_drop v n) (c + n), p) /\
     ep_header p = mkHdr cmd (len payload) ses st c0 c1 o /\ holds m (ep_payload p) payload) \/
  ((forall cmd ses st c0 c1 o payload rest, frame_fits cmd ses st c0 c1 o payload -> n = 24 + len payload ->
      bs <> frame cmd ses st c0 c1 o payload ++ rest) /\
   exists s r p, ep_deserialize_len n m (RBuf v c) p0 = (Throw LengthError s, m, r, p)).
Proof.
  intros R. destruct (ep_decode_len m v c p0 bs n R) as [[N (s & r & p & E)]|(a1 & a2 & a3 & a4 & a5 & a6 & pl & rest & F & Hn & -> & E)].
  - right. split; [|eauto]. intros. apply N; [assumption|]. rewrite frame_len. assumption.
  - left. exists a1, a2, a3, a4, a5, a6, pl, rest. eexists. split; [assumption|]. split; [reflexivity|].
    rewrite frame_len in Hn. split; [assumption|]. split; [exact E|].
    split; [reflexivity|eapply frame_payload_window; exact R].
Qed.
Lemma packet_roundtrip m cmd handle p payload : fits 2 cmd -> fits 4 handle -> len payload < 65536 ->
  carries_opt m p payload ->
  exists q, ep_make cmd handle p = Ret q /\ carries m (ep_ser q) (request cmd handle payload) /\
  forall m' v c p0 rest, reads m' v (request cmd handle payload ++ rest) ->
    exists d, ep_deserialize m' (RBuf v c) p0
      = (Ret tt, m', RBuf (view_drop v (24 + len payload)) (c + (24 + len payload)), d) /\
      ep_header d = mkHdr cmd (len payload) handle 0 0 0 0 /\ holds m' (ep_payload d) payload.
Proof.
  intros F1 F2 L H. destruct (ep_make_carries m cmd handle p payload H) as (q & E & _ & _ & C).
  exists q. split; [assumption|]. split; [assumption|]. intros m' v c p0 rest R.
  assert (FF : frame_fits cmd handle 0 0 0 0 payload) by (repeat split; try assumption; reflexivity).
  destruct (packet_decode m' v c p0 _ R) as [(a1 & a2 & a3 & a4 & a5 & a6 & pl & r & d & F & X & Y & _ & Hh & Hp)|[N _]].
  - unfold request in X. apply frame_inj in X; [|assumption..]. destruct X as (X & <- & _). injection X as <- <- <- <- <- <-.
    exists d. auto.
  - exfalso. eapply N; [exact FF|reflexivity].
Qed.
(** A payload of 65536 bytes or more is framed with a wrong length. *)
Lemma packet_oversize m cmd handle p payload : fits 2 cmd -> fits 4 handle -> 65536 <= len payload ->
  carries_opt m p payload ->
  exists q bs short rest, ep_make cmd handle p = Ret q /\ carries m (ep_ser q) bs /\
    frame_fits cmd handle 0 0 0 0 short /\ bs = frame cmd handle 0 0 0 0 short ++ rest /\ rest <> [] /\ short <> payload.
Proof.
  intros F1 F2 L H. destruct (ep_make_carries m cmd handle p payload H) as (q & E & _ & _ & C).
  set (n := len payload mod 65536). exists q, (request cmd handle payload), (take n payload), (drop n payload).
  assert (Ln : n < 65536) by (apply N.mod_lt; discriminate).
  assert (Lt : len (take n payload) = n) by (rewrite len_take; lia).
  split; [assumption|]. split; [assumption|]. split; [repeat split; try assumption; try reflexivity; lia|].
  split; [|split].
  - unfold request, frame. rewrite <- app_assoc, take_drop. f_equal. unfold header. do 2 f_equal.
    rewrite Lt. symmetry. apply (le_mod 2).
  - apply nonempty_len. rewrite len_drop. lia.
  - intros X. rewrite X in Lt. lia.
Qed.
