(** * PLen: how much a length-limited decode takes (C71) and I/O packets end to end (C72). *)
From Verif Require Export Vocab7 PTarget.
Local Open Scope N_scope.

(** ** Byte counts *)
Definition adv {T A} (k : N) (x : D T A) : Prop :=
  forall m v c t a m' r t', x m (RBuf v c) t = (Ret a, m', r, t') -> exists v', r = RBuf v' (c + k).
Lemma a_ret {T A} (a : A) : adv (T := T) 0 (dret a). Proof. intros m v c t a' m' r t' H. injection H as <- <- <- <-. exists v. f_equal. lia. Qed.
Lemma a_mod {T} (f : T -> T) : adv 0 (dmod f). Proof. intros m v c t a' m' r t' H. injection H as <- <- <- <-. exists v. f_equal. lia. Qed.
Lemma a_get {T} : adv 0 (@dget T). Proof. intros m v c t a' m' r t' H. injection H as <- <- <- <-. exists v. f_equal. lia. Qed.
Lemma a_throw {T A} k e s : adv (T := T) (A := A) k (dthrow e s). Proof. intros m v c t a' m' r t' H. discriminate. Qed.
Lemma a_bind {T A B} j k n (x : D T A) (f : A -> D T B) : adv j x -> (forall a, adv k (f a)) -> n = j + k -> adv n (dbind x f).
Proof.
  intros X F -> m v c t b m2 r2 t2 H. apply bind_ret in H. destruct H as (a & m1 & r1 & t1 & E1 & E2).
  destruct (X _ _ _ _ _ _ _ _ E1) as (v1 & ->). destruct (F a _ _ _ _ _ _ _ _ E2) as (v2 & ->). exists v2. f_equal. lia.
Qed.
Lemma a_raw {T} n (g : T -> list byte) s : adv n (rd_raw n g s).
Proof.
  intros m v c t a m' r t' H. unfold rd_raw in H. destruct (v_len v <? n); [discriminate|]. destruct (load m (v_blk v) (v_off v) n); try discriminate.
  injection H as <- <- <- <-. eauto.
Qed.
Lemma a_uint {T} k (g : T -> N) s : adv (N.of_nat k) (rd_uint k g s). Proof. apply a_raw. Qed.
Lemma a_local {T} k : adv (T := T) (N.of_nat k) (rd_local k).
Proof.
  intros m v c t a m' r t' H. unfold rd_local in H. destruct (v_len v <? N.of_nat k); [discriminate|]. destruct (load m (v_blk v) (v_off v) (N.of_nat k)); try discriminate.
  injection H as <- <- <- <-. eauto.
Qed.
Lemma a_view {T} n : adv (T := T) n (rd_view n).
Proof. intros m v c t a m' r t' H. unfold rd_view in H. destruct (v_len v <? n); [discriminate|]. injection H as <- <- <- <-. eauto. Qed.
Lemma a_zoom {T U A} k (g : T -> U) p (x : D U A) : adv k x -> adv k (dzoom g p x).
Proof. intros X m v c t a m' r t' H. unfold dzoom in H. destruct (x m (RBuf v c) (g t)) as [[[o m1] r1] u1] eqn:E. injection H as -> <- <- <-. exact (X _ _ _ _ _ _ _ _ E). Qed.
Lemma a_dlocal {T U} k (u : U) x : adv k x -> adv (T := T) k (dlocal u x).
Proof.
  intros X m v c t a m' r t' H. unfold dlocal in H. destruct (x m (RBuf v c) u) as [[[o m1] r1] u1] eqn:E. destruct o; try discriminate.
  injection H as <- <- <- <-. exact (X _ _ _ _ _ _ _ _ E).
Qed.
Lemma a_delete : adv 0 sb_delete.
Proof.
  intros m v c t a m' r t' H. unfold sb_delete, dbind, dget, d_free in H. destruct (sb_alloc t) as [b|].
  - destruct (free m b); try discriminate. injection H as <- <- <- <-. exists v. f_equal. lia.
  - injection H as <- <- <- <-. exists v. f_equal. lia.
Qed.
Lemma a_sb n : adv n (sb_deserialize_len n).
Proof.
  intros m v c t a m' r t' H. unfold sb_deserialize_len in H. apply bind_ret in H. destruct H as (b & m1 & r1 & t1 & E1 & H). injection E1 as <- <- <- <-.
  cbv iota in H. revert H. apply (a_bind 0 n n); [apply a_delete|intros _|lia]. apply (a_bind n 0 n); [apply a_view|intros w; apply a_mod|lia].
Qed.
Lemma a_hdr : adv 24 hdr_deserialize.
Proof.
  unfold hdr_deserialize. apply (a_bind 2 22); [apply (a_uint 2)|intros _|reflexivity]. apply (a_bind 2 20); [apply (a_uint 2)|intros _|reflexivity].
  apply (a_bind 4 16); [apply (a_uint 4)|intros _|reflexivity]. apply (a_bind 4 12); [apply (a_uint 4)|intros _|reflexivity].
  apply (a_bind 8 4); [apply a_raw|intros _|reflexivity]. apply (a_uint 4).
Qed.

Lemma within_adv {T} (c : cls T) : (forall n, adv n (deserialize_len c n)) -> stays_within c.
Proof. intros H n m v k t a m' r t' E. destruct (H n _ _ _ _ _ _ _ _ E) as (v' & ->). exists v', (k + n). split; [reflexivity|lia]. Qed.

Lemma hdr_within : stays_within hdr_cls.
Proof.
  apply within_adv. intros n. unfold deserialize_len, hdr_cls, hdr_check. cbn [c_deslen c_des]. destruct (hdr_getLength + 0 =? n) eqn:E; [|apply a_throw].
  apply N.eqb_eq in E. subst n. apply a_hdr.
Qed.
Lemma ep_within : stays_within ep_cls.
Proof.
  apply within_adv. intros n. change (adv n (ep_deserialize_len n)). unfold ep_deserialize_len. destruct (n <? hdr_getLength) eqn:L; [apply a_throw|].
  apply N.ltb_ge in L. change hdr_getLength with 24 in *.
  apply (a_bind 24 (n - 24)); [apply a_zoom, a_hdr|intros _|lia]. apply (a_bind 0 (n - 24)); [apply a_get|intros p|lia].
  destruct (n =? 24 + h_length (ep_header p)) eqn:E; [|apply a_throw]. apply N.eqb_eq in E. cbn [negb].
  destruct (0 <? h_length (ep_header p)) eqn:Z.
  - apply (a_bind 0 (n - 24)); [apply a_mod|intros _|lia]. apply (a_bind (n - 24) 0); [|intros sb; apply a_mod|lia].
    apply a_dlocal. replace (n - 24) with (h_length (ep_header p)) by lia. apply a_sb.
  - apply N.ltb_ge in Z. replace (n - 24) with 0 by lia. apply a_mod.
Qed.
Lemma data_adv n : adv n (it_deserializeData n).
Proof.
  unfold it_deserializeData. destruct (0 <? n) eqn:Z.
  - apply (a_bind 0 n); [apply a_mod|intros _|lia]. apply (a_bind n 0); [apply a_dlocal, a_sb|intros sb; apply a_mod|lia].
  - apply N.ltb_ge in Z. replace n with 0 by lia. apply a_mod.
Qed.
Lemma it_within : stays_within it_cls.
Proof.
  intros n m v k t a m' r t' E. change (it_deserialize_len n m (RBuf v k) t = (Ret a, m', r, t')) in E. unfold it_deserialize_len in E.
  destruct (n <? 4); [discriminate|]. apply bind_ret in E. destruct E as (a1 & m1 & r1 & t1 & E1 & E). destruct (a_uint 2 _ _ _ _ _ _ _ _ _ _ E1) as (v1 & ->).
  apply bind_ret in E. destruct E as (a2 & m2 & r2 & t2 & E2 & E). destruct (a_local 2 _ _ _ _ _ _ _ _ E2) as (v2 & ->).
  destruct (n <? a2 + 4) eqn:L; [discriminate|]. apply N.ltb_ge in L. destruct (data_adv a2 _ _ _ _ _ _ _ _ E) as (v3 & ->). do 2 eexists. split; [reflexivity|].
  change (N.of_nat 2) with 2. lia.
Qed.
Lemma sbuf_within : stays_within sbuf_cls.
Proof. apply within_adv. intros n. apply a_sb. Qed.
Lemma within_all : stays_within hdr_cls /\ stays_within ep_cls /\ stays_within it_cls /\ stays_within sbuf_cls.
Proof. split; [exact hdr_within|]. split; [exact ep_within|]. split; [exact it_within|exact sbuf_within]. Qed.

(** ** The others take what they like *)
Lemma cpf_takes n m v c p0 xs rest : cpf_ok xs -> reads m v (cpf xs ++ rest) ->
  exists p, deserialize_len cpf_cls n m (RBuf v c) p0 = (Ret tt, m, RBuf (view_drop v (len (cpf xs))) (c + len (cpf xs)), p) /\ Forall2 (item_is m) p xs.
Proof.
  intros O R. change (deserialize_len cpf_cls n) with cpf_deserialize.
  destruct (cpf_packet_decode m v c p0 _ R) as [(xs' & rest' & q & O' & E & X & W & _)|[B _]]; [|exfalso; exact (B xs rest O eq_refl)].
  apply cpf_inj in E; [|assumption..]. destruct E as [<- <-]. exists q. split; assumption.
Qed.
Definition mem100 : heap := [Some (zeros 100)].
Definition v100 : view := mkV 0 0 100.
Lemma reads100 : reads mem100 v100 (zeros 100). Proof. vm_compute. reflexivity. Qed.
Ltac greedy t := exists mem100, v100, (zeros 100), 0, t; do 5 eexists; split; [exact reads100|]; split; [vm_compute; reflexivity|vm_compute; reflexivity].
Definition rr_bytes : list byte := rr 0 0 [(0, []); (0xB2, [x01])].
Lemma takers :
  takes_more rg_cls 0 /\ takes_more sa_cls 0 /\ takes_more id_cls 0 /\ takes_more fs_cls 0 /\ takes_more cs_cls 0 /\ takes_more (prim_cls 4) 0 /\
  takes_more rr_base_cls 0 /\ takes_more (sq_cls (prim_cls 4)) 0 /\ takes_more ms_cls 3.
Proof.
  split; [greedy (mkReg 0 0)|]. split; [greedy (mkSA 0 0)|]. split; [greedy (mkId 0 (zeros 16) 0 0 0 [x00; x00] 0 0 [] 0)|].
  split; [greedy (mkFOS 0 0 0 0 0 0 0 None)|]. split; [greedy (mkFCS 0 0 0 None)|]. split; [greedy 0|].
  split; [|split; [greedy (mkSeq 0 0 false)|greedy (mkMRR 0 0 None None)]].
  exists [Some rr_bytes], (mkV 0 0 (len rr_bytes)), rr_bytes, 0, (mkRR 0 0 tt). do 5 eexists. split; [vm_compute; reflexivity|]. split; [vm_compute; reflexivity|vm_compute; reflexivity].
Qed.
(** A router reply whose additional status lies beyond the stated length. *)
Lemma router_takes : exists m v a m' v' k' t', reads m v (router_reply 0x8E 0 0 [x01; x02] []) /\
  deserialize_len ms_cls 4 m (RBuf v 0) (mkMRR 0 0 None None) = (Ret a, m', RBuf v' k', t') /\ k' = 6.
Proof. exists [Some (router_reply 0x8E 0 0 [x01; x02] [])], (mkV 0 0 6). do 5 eexists. split; [vm_compute; reflexivity|]. split; [vm_compute; reflexivity|reflexivity]. Qed.

(** ** I/O packets end to end *)
Lemma io_through w p xs o w' : rbuf_ok w -> carries (w_mem w) (cpf_ser p) (cpf xs) -> cpf_ok xs -> len (cpf xs) <= 4096 -> sendIOPacket p w = (o, w') -> returned o ->
  exists n, gained w w' [ESend Io (cpf xs) (Some n)] /\
    forall v rs, rbuf_ok v -> so_recv (w_io v) = RxData (cpf xs) :: rs -> exists q v', receiveIOPacket v = (Ret q, v') /\ Forall2 (item_is (w_mem v')) q xs.
Proof.
  intros RB CA OK L E R. destruct (io_sent w p xs o w' RB CA E) as (_ & _ & _ & H). destruct (sent (w_io w) (cpf xs)) as [n|].
  - destruct H as [-> Nt]. exists n. split; [exact Nt|]. intros v rs RV Rc. destruct (receiveIOPacket v) as [ro v'] eqn:RE.
    destruct (io_received v ro v' RV RE) as (_ & _ & _ & _ & D). rewrite Rc in D.
    destruct D as [(xs' & rest & q & O' & _ & E' & -> & F)|[B _]].
    + rewrite <- (app_nil_r (cpf xs)) in E'. apply cpf_inj in E'; [|assumption..]. destruct E' as [<- _]. eauto.
    + exfalso. apply (B xs []); [exact OK|exact L|symmetry; apply app_nil_r].
  - destruct H as [[s ->] _]. destruct R as [a R]. discriminate.
Qed.

Lemma seq_items_carry m cid seq num s data : fits 4 cid -> fits 4 seq -> fits 2 num -> carries m s data -> len data < 65534 ->
  let xs := [(0x8002, seq_address cid seq); (0xB1, le 2 num ++ data)] in
  carries m (cpf_ser [it_make 0x8002 (Some (sa_ser (sa_make cid seq))); it_make 0xB1 (Some (sq_ser num s))]) (cpf xs) /\ cpf_ok xs.
Proof.
  intros F1 F2 F3 CA L xs.
  assert (OK : cpf_ok xs). { split; [|reflexivity]. constructor; [split; reflexivity|]. constructor; [|constructor]. split; [reflexivity|]. cbn [snd]. rewrite len_app, len_le. lia. }
  split; [|exact OK]. apply cpf_carries; [|destruct OK as [O _]; eapply Forall_impl; [|exact O]; intros x [_ H]; exact H]. constructor; [|constructor; [|constructor]].
  - split; [reflexivity|]. cbn. destruct (seq_address_roundtrip m cid seq F1 F2) as [H _]. exact H.
  - split; [reflexivity|]. cbn. apply sq_carries. exact CA.
Qed.

Lemma get_sa m i cid seq r g : fits 4 cid -> fits 4 seq -> item_is m i (0x8002, seq_address cid seq) ->
  it_getDataAs sa_cls i m r g = (Ret tt, m, r, mkSA cid seq).
Proof.
  intros F1 F2 [_ H]. unfold it_getDataAs, d_copy. destruct (it_data i) as [s|]; cbn [holds snd] in H; [|discriminate H].
  destruct H as (_ & sb & -> & R). unfold copy_serializable. cbn [s_length s_sbuf ser_of_sbuf c_sb sa_cls]. unfold run_reader.
  change (deserialize_len sa_cls (v_len (sb_data sb))) with sa_deserialize. destruct (seq_address_roundtrip m cid seq F1 F2) as (_ & _ & H).
  rewrite <- (app_nil_r (seq_address cid seq)) in R. destruct (H m (sb_data sb) 0 g [] R) as (r' & ->). reflexivity.
Qed.

Lemma get_seq {T} (c : cls T) m i num data val r b0 n0 : fits 2 num -> len data < 65534 -> c_sb c = None -> own_length c -> reads_as c data val -> item_is m i (0xB1, le 2 num ++ data) ->
  exists m', it_getDataAs (sq_cls c) i m r (mkSeq b0 n0 false) = (Ret tt, m', r, mkSeq val num false).
Proof.
  intros F L Cb OL RA [_ H]. unfold it_getDataAs, d_copy. destruct (it_data i) as [s|]; cbn [holds snd] in H; [|destruct num; discriminate H].
  destruct H as (_ & sb & -> & R). unfold copy_serializable. cbn [s_length s_sbuf ser_of_sbuf]. cbn [c_sb sq_cls]. rewrite Cb. unfold run_reader.
  assert (Lv : v_len (sb_data sb) = 2 + len data). { apply reads_len in R. rewrite <- R, len_app, len_le. reflexivity. }
  rewrite Lv. assert (R2 : reads m (view_drop (sb_data sb) 2) data).
  { pose proof (reads_drop _ _ _ 2 R) as Q. rewrite (drop_app 2) in Q by reflexivity. exact Q. }
  destruct (RA m (view_drop (sb_data sb) 2) (0 + 2) b0 R2) as (m' & r' & E).
  destruct (seq_decode_buffer c m (sb_data sb) 0 b0 n0 num data F R) as [_ Q].
  destruct (Q (2 + len data) (Ret tt) m' r' val OL) as (f & E' & Hf); [lia|lia| |].
  - replace (2 + len data - 2) with (len data) by lia. exact E.
  - rewrite E'. rewrite (Hf eq_refl). eauto.
Qed.

Lemma seq_through {T} (c : cls T) w cid seq num s data val o w' : rbuf_ok w -> fits 4 cid -> fits 4 seq -> fits 2 num -> carries (w_mem w) s data -> len data <= 4074 ->
  c_sb c = None -> own_length c -> reads_as c data val ->
  sendIOPacket [it_make 0x8002 (Some (sa_ser (sa_make cid seq))); it_make 0xB1 (Some (sq_ser num s))] w = (o, w') -> returned o ->
  exists bs n, gained w w' [ESend Io bs (Some n)] /\
    forall v rs, rbuf_ok v -> so_recv (w_io v) = RxData bs :: rs -> exists i0 i1 v', receiveIOPacket v = (Ret [i0; i1], v') /\
      (forall r g, it_getDataAs sa_cls i0 (w_mem v') r g = (Ret tt, w_mem v', r, mkSA cid seq)) /\
      (forall r b0 n0, exists m', it_getDataAs (sq_cls c) i1 (w_mem v') r (mkSeq b0 n0 false) = (Ret tt, m', r, mkSeq val num false)).
Proof.
  intros RB F1 F2 F3 CA L Cb OL RA E R. destruct (seq_items_carry (w_mem w) cid seq num s data F1 F2 F3 CA ltac:(lia)) as [CC OK].
  assert (L2 : len (cpf [(0x8002, seq_address cid seq); (0xB1, le 2 num ++ data)]) <= 4096).
  { unfold cpf, items, item. cbn [flat_map fst snd]. repeat rewrite ?len_app, ?len_le. change (len (seq_address cid seq)) with 8. change (len (@nil byte)) with 0. lia. }
  destruct (io_through w _ _ o w' RB CC OK L2 E R) as (n & G & H). exists (cpf [(0x8002, seq_address cid seq); (0xB1, le 2 num ++ data)]), n. split; [exact G|].
  intros v rs RV Rc. destruct (H v rs RV Rc) as (q & v' & RE & F). inversion F as [|i0 x0 q0 xs0 I0 Fr]; subst. inversion Fr as [|i1 x1 q1 xs1 I1 Fr1]; subst. inversion Fr1; subst.
  exists i0, i1, v'. split; [exact RE|]. split.
  - intros r g. apply get_sa; assumption.
  - intros r b0 n0. eapply get_seq; try eassumption. lia.
Qed.
Lemma prim_reads_as k v : fits k v -> reads_as (prim_cls k) (le k v) v.
Proof.
  intros F m vw c t R. change (deserialize_len (prim_cls k) (len (le k v))) with (prim_des k).
  rewrite <- (app_nil_r (le k v)) in R. exists m. eexists. unfold prim_des. destruct (integers k v F) as (_ & _ & G & _). exact (G _ _ _ _ _ _ _ _ R).
Qed.
(** What goes wrong: a packet longer than the receive buffer, and a raw buffer behind a sequence number. *)
Lemma io_oversize xs v rs o v' : cpf_ok xs -> 4096 < len (cpf xs) -> rbuf_ok v -> so_recv (w_io v) = RxData (cpf xs) :: rs -> receiveIOPacket v = (o, v') ->
  exists s, o = Throw LengthError s.
Proof.
  intros OK L RV Rc RE. destruct (io_received v o v' RV RE) as (_ & _ & _ & _ & D). rewrite Rc in D.
  destruct D as [(xs' & rest & q & O' & L' & E' & -> & F)|[_ B]]; [|exact B].
  rewrite <- (app_nil_r (cpf xs)) in E'. apply cpf_inj in E'; [|assumption..]. destruct E' as [-> _]. lia.
Qed.
Lemma seq_raw m i num data r b0 n0 f : item_is m i (0xB1, le 2 num ++ data) ->
  exists sb, it_getDataAs (sq_cls sbuf_cls) i m r (mkSeq b0 n0 f) = (Ret tt, m, r, mkSeq sb n0 f) /\ reads m (sb_data sb) (le 2 num ++ data).
Proof.
  intros [_ H]. unfold it_getDataAs, d_copy. destruct (it_data i) as [s|]; cbn [holds snd] in H; [|destruct num; discriminate H].
  destruct H as (_ & sb & -> & R). unfold copy_serializable. cbn [s_length s_sbuf ser_of_sbuf]. exists sb. split; [reflexivity|exact R].
Qed.
Definition io_pair : list cpf_item := [it_make 0x8002 (Some (sa_ser (sa_make 7 3))); it_make 0xB1 (Some (sq_ser 5 (prim_ser 4 0x01020304)))].
Definition io_pair_bytes : list byte := cpf [(0x8002, seq_address 7 3); (0xB1, le 2 5 ++ le 4 0x01020304)].
Definition big_item : cpf_item := it_make 0xB1 (Some (ser_of_sbuf (mkSB (mkV 0 0 4100) None))).
Definition big_world : world := mkW [Some (zeros 4100); Some (zeros 4096)] (w_ctl (w9 [] [])) (w_io (w9 [] [])) [] (w_se (w9 [] [])) 1%nat.
Lemma big_sent : exists w', sendIOPacket [big_item] big_world = (Ret tt, w') /\ exists n, gained big_world w' [ESend Io (cpf [(0xB1, zeros 4100)]) (Some n)].
Proof. eexists. split; [vm_compute; reflexivity|]. eexists. vm_compute. reflexivity. Qed.
