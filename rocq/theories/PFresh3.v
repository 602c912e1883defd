(** * Nothing but what was written reaches results and sockets: histories, the scanner, streams *)
From Verif Require Export PFresh2 PIo PCodec PMore PWitness3.

(** ** Histories *)
Lemma twin_any u w v : unlike_memory u w v -> twin u (w_rbuf w) 0 w v.
Proof.
  intros (A & O1 & O2 & U1 & U2). constructor; try assumption; [reflexivity|lia|].
  intros off k F1 F2. cbn in *. assert (k = 0) as -> by lia. reflexivity.
Qed.
Lemma twin_unlike u b l w v : twin u b l w v -> unlike_memory u w v.
Proof. intros [A B O1 O2 U1 U2 _ _]. repeat (split; [assumption|]). assumption. Qed.
Lemma fresh_history u g ops w v : Forall (fresh_ok u) ops -> unlike_memory u w v ->
  exists rs w' v', exec ops w = (rs, w') /\ exec_g g ops v = (rs, v') /\ unlike_memory u w' v'.
Proof.
  intros F H. destruct (b_exec u (w_rbuf w) g ops F 0 w v (twin_any u w v H)) as (rs & w' & v' & l & E1 & E2 & T).
  exists rs, w', v'. split; [exact E1|]. split; [exact E2|]. eapply twin_unlike. exact T.
Qed.
Lemma made_ok m ctl io vd sr sn0 cid0 bl : len bl = 4096 -> let w := mkW (m ++ [Some bl]) ctl io [] (mkSess 0 (u16 vd) (u32 sr) (u16 sn0) (u32 cid0) []) (List.length m) in
  session_ok w /\ user_memory m w.
Proof.
  intros L w. split.
  - split; [|split; [reflexivity|constructor]]. exists bl. split; [apply nth_error_app_end|exact L].
  - split; [apply hext_app|]. cbn. intros x H. apply nth_error_lt in H. lia.
Qed.
Lemma fresh_made g m ctl io vd sr sn0 cid0 : sized g -> unlike_memory m (session_make m ctl io vd sr sn0 cid0) (session_make_g g m ctl io vd sr sn0 cid0).
Proof.
  intros Z. unfold session_make, session_make_g, alloc.
  destruct (made_ok m ctl io vd sr sn0 cid0 (zeros 4096) (len_zeros 4096)) as [O1 U1]. destruct (made_ok m ctl io vd sr sn0 cid0 (g_block g m 4096) (Z m 4096)) as [O2 U2].
  split; [repeat split|]. split; [exact O1|]. split; [exact O2|]. split; [exact U1|exact U2].
Qed.
Lemma fresh_session g m ctl io vd sr sn0 cid0 ops : sized g -> Forall (fresh_ok m) ops ->
  exists rs w' v', exec ops (session_make m ctl io vd sr sn0 cid0) = (rs, w') /\ exec_g g ops (session_make_g g m ctl io vd sr sn0 cid0) = (rs, v') /\ w_net v' = w_net w' /\ w_se v' = w_se w'.
Proof.
  intros Z F. destruct (fresh_history m g ops _ _ F (fresh_made g m ctl io vd sr sn0 cid0 Z)) as (rs & w' & v' & E1 & E2 & (_ & _ & A3 & A4 & _) & _).
  exists rs, w', v'. split; [exact E1|]. split; [exact E2|]. split; congruence.
Qed.
Lemma fresh_items u w v : unlike_memory u w v ->
  exists o w' v', receiveIOPacket w = (o, w') /\ receiveIOPacket v = (o, v') /\ unlike_memory u w' v' /\ forall p, o = Ret p -> Forall (same_data (w_mem w') (w_mem v')) p.
Proof.
  intros H. destruct (b_receive u (w_rbuf w) 0 w v (twin_any u w v H)) as (o & w' & v' & l & E1 & E2 & T & q).
  exists o, w', v'. split; [exact E1|]. split; [exact E2|]. split; [eapply twin_unlike; exact T|]. intros p E. eapply Forall_impl; [|exact (q p E)].
  intros i Hi sb D. destruct Hi as [N|(sb' & D' & (W1 & W2 & W3) & _)]; [congruence|]. rewrite D in D'.
  assert (sb' = sb) as ->. { apply (f_equal (fun x => match x with Some s => s_sbuf s | None => None end)) in D'. cbn in D'. congruence. }
  unfold load_view. rewrite W1. apply (tw_buf _ _ _ _ _ T); assumption.
Qed.
Lemma fresh_get u T (c : cls T) x y z t0 t1 w v : unlike_memory u w v -> x < 256 -> y < 256 -> z < 256 -> c_sb c = None -> tight_cls c -> forgets c ->
  exists o t0' t1' w' v', getSingleAttributeSerializable c x y z t0 w = (o, t0', w') /\ getSingleAttributeSerializable c x y z t1 v = (o, t1', v') /\
    unlike_memory u w' v' /\ (o = Ret tt -> t1' = t0').
Proof.
  intros H Hx Hy Hz C K F. destruct (b_get u (w_rbuf w) 0 c t0 x y z Hx Hy Hz (or_intror K) w v (twin_any u w v H)) as (o & t' & w' & v' & l & E1 & E2 & T').
  assert (X : exists t1', getSingleAttributeSerializable c x y z t1 v = (o, t1', v') /\ (o = Ret tt -> t1' = t')).
  { revert E2. unfold getSingleAttributeSerializable. destruct (sendRRDataCommand _ _ _ v) as [o1 v1]. destruct o1 as [r|e s|ub|];
      try (intros E2; apply pair_equal_spec in E2 as [E2 Ev]; apply pair_equal_spec in E2 as [Eo Et]; subst; eexists; split; [reflexivity|discriminate]).
    unfold m_copy. destruct (ms_data (rr_ext r)) as [s|]; [|intros E2; apply pair_equal_spec in E2 as [E2 Ev]; apply pair_equal_spec in E2 as [Eo Et]; subst; eexists; split; [reflexivity|discriminate]].
    assert (R : forall d n m, match run_reader (deserialize_len c n) d m t0, run_reader (deserialize_len c n) d m t1 with (o0, m0, s0), (o1, m1, s1) => o1 = o0 /\ m1 = m0 /\ (o0 = Ret tt -> s1 = s0) end).
    { intros d n m. unfold run_reader. destruct (F t0 t1) as [_ A]. specialize (A n m d 0).
      destruct (deserialize_len c n m (RBuf d 0) t0) as [[[oa ma] ra] ta]. destruct (deserialize_len c n m (RBuf d 0) t1) as [[[ob mb] rb] tb]. destruct A as (A1 & A2 & _ & A4). auto. }
    unfold copy_serializable. rewrite C. destruct (s_sbuf s) as [sb|].
    - destruct (s_length s) as [n|e q|ub|]; try (intros E2; apply pair_equal_spec in E2 as [E2 Ev]; apply pair_equal_spec in E2 as [Eo Et]; subst; eexists; split; [reflexivity|discriminate]).
      specialize (R (sb_data sb) n (w_mem v1)). destruct (run_reader _ _ _ t0) as [[oa ma] ta]. destruct (run_reader _ _ _ t1) as [[ob mb] tb]. destruct R as (-> & -> & R).
      intros E2. apply pair_equal_spec in E2 as [E2 Ev]. apply pair_equal_spec in E2 as [Eo Et]. subst. eexists. split; [reflexivity|exact R].
    - destruct (s_length s) as [n|e q|ub|]; try (intros E2; apply pair_equal_spec in E2 as [E2 Ev]; apply pair_equal_spec in E2 as [Eo Et]; subst; eexists; split; [reflexivity|discriminate]).
      unfold alloc. destruct (s_serialize s _ _) as [[os m2] ws]. destruct os as [[]|e q|ub|].
      + specialize (R (mkV (List.length (w_mem v1)) 0 n) n m2). destruct (run_reader _ _ _ t0) as [[oa ma] ta]. destruct (run_reader _ _ _ t1) as [[ob mb] tb]. destruct R as (-> & -> & R).
        destruct (free _ _); intros E2; apply pair_equal_spec in E2 as [E2 Ev]; apply pair_equal_spec in E2 as [Eo Et]; subst; eexists; (split; [reflexivity|]); try exact R; discriminate.
      + destruct (free _ _); intros E2; apply pair_equal_spec in E2 as [E2 Ev]; apply pair_equal_spec in E2 as [Eo Et]; subst; eexists; (split; [reflexivity|discriminate]).
      + destruct (free _ _); intros E2; apply pair_equal_spec in E2 as [E2 Ev]; apply pair_equal_spec in E2 as [Eo Et]; subst; eexists; (split; [reflexivity|discriminate]).
      + destruct (free _ _); intros E2; apply pair_equal_spec in E2 as [E2 Ev]; apply pair_equal_spec in E2 as [Eo Et]; subst; eexists; (split; [reflexivity|discriminate]). }
  destruct X as (t1' & E3 & R). exists o, t', t1', w', v'. split; [exact E1|]. split; [exact E3|]. split; [eapply twin_unlike; exact T'|exact R].
Qed.
Lemma tight_library :
  tight_cls hdr_cls /\ tight_cls ep_cls /\ tight_cls it_cls /\ tight_cls cpf_cls /\ tight_cls mq_cls /\ tight_cls ms_cls /\
  tight_cls rr_base_cls /\ tight_cls rrq_cls /\ tight_cls rrs_cls /\ tight_cls rg_cls /\ tight_cls sa_cls /\ tight_cls id_cls /\
  tight_cls fo_cls /\ tight_cls fc_cls /\ tight_cls fs_cls /\ tight_cls cs_cls /\ (forall k, tight_cls (prim_cls k)) /\ forall k, tight_cls (sq_cls (prim_cls k)).
Proof.
  destruct snug_all as (H1 & H2 & H3 & H4 & H5 & H6 & H7 & H8 & H9 & H10 & H11 & H12 & H13 & H14 & H15 & H16 & H17).
  repeat match goal with |- _ /\ _ => split end; try (apply snug_cls_tight; assumption); intros k; apply snug_cls_tight; [apply H17|apply snug_seq, H17].
Qed.

(** ** The scanner *)
Lemma fresh_request g m : sized g -> scan_request_g g m = scan_request m.
Proof.
  intros Z. rewrite scan_request_bytes. unfold scan_request_g, alloc.
  assert (C : carries m (ep_ser (ep_make0 EIP_CMD_LIST_IDENTITY 0)) list_identity_request) by exact (ep_carries m (ep_header (ep_make0 EIP_CMD_LIST_IDENTITY 0)) None [] eq_refl).
  pose proof (writes_buffer m _ _ (proj2 C) (m ++ [Some (g_block g m 128)]) (List.length m) [] (g_block g m 128) [] 0) as K.
  rewrite (Z m 128) in K. change (len (@nil byte)) with 0 in K. change (s_serialize (ep_ser (ep_make0 EIP_CMD_LIST_IDENTITY 0))) with (ep_serialize (ep_make0 EIP_CMD_LIST_IDENTITY 0)) in K. rewrite K.
  - cbn [w_count]. change (N.min 128 (0 + len list_identity_request)) with (len list_identity_request). cbn [List.app]. rewrite app_nil_r, list_set_app_end.
    rewrite (load_prefix _ _ (drop (len list_identity_request) (g_block g m 128)) _ list_identity_request 0); [|apply nth_error_app_end|lia]. rewrite drop_0, take_all by lia. reflexivity.
  - apply hext_app.
  - intros bl Hb. apply nth_error_lt in Hb. lia.
  - rewrite nth_error_app_end. cbn [List.app]. rewrite app_nil_r. reflexivity.
  - change (len list_identity_request) with 24. lia.
Qed.
Lemma ident_forgets d i j m r u : @dlocal unit _ i (d_copy id_cls d) m r u = dlocal j (d_copy id_cls d) m r u.
Proof.
  assert (F : forgets id_cls) by apply all_forget. unfold dlocal, d_copy. destruct d as [s|]; [|reflexivity].
  assert (R : forall d n m, match run_reader (deserialize_len id_cls n) d m i, run_reader (deserialize_len id_cls n) d m j with (o0, m0, s0), (o1, m1, s1) => o1 = o0 /\ m1 = m0 /\ (o0 = Ret tt -> s1 = s0) end).
  { intros d n m0. unfold run_reader. destruct (F i j) as [_ A]. specialize (A n m0 d 0).
    destruct (deserialize_len id_cls n m0 (RBuf d 0) i) as [[[oa ma] ra] ta]. destruct (deserialize_len id_cls n m0 (RBuf d 0) j) as [[[ob mb] rb] tb]. destruct A as (A1 & A2 & _ & A4). auto. }
  unfold copy_serializable. change (c_sb id_cls) with (@None ((identity -> sbuf) * (sbuf -> identity -> identity))). cbv iota. destruct (s_sbuf s) as [sb|].
  - destruct (s_length s) as [n|e q|ub|]; try reflexivity. specialize (R (sb_data sb) n m). destruct (run_reader _ _ _ i) as [[oa ma] ta]. destruct (run_reader _ _ _ j) as [[ob mb] tb]. destruct R as (-> & -> & R).
    destruct oa as [[]|e q|ub|]; try reflexivity. rewrite (R eq_refl). reflexivity.
  - destruct (s_length s) as [n|e q|ub|]; try reflexivity. unfold alloc. destruct (s_serialize s _ _) as [[os m2] ws]. destruct os as [[]|e q|ub|]; try (destruct (free _ _); reflexivity).
    specialize (R (mkV (List.length m) 0 n) n m2). destruct (run_reader _ _ _ i) as [[oa ma] ta]. destruct (run_reader _ _ _ j) as [[ob mb] tb]. destruct R as (-> & -> & R).
    destruct (free _ _); try reflexivity. destruct oa as [[]|e q|ub|]; try reflexivity. rewrite (R eq_refl). reflexivity.
Qed.
Lemma scan_body_same g n v m r u : scan_body_g g n v m r u = scan_body n v m r u.
Proof.
  unfold scan_body_g, scan_body. unfold dbind at 1 5. destruct (dlocal (ep_make0 0 0) ep_deserialize m _ u) as [[[o m1] r1] u1]. destruct o as [pkt|e s|ub|]; try reflexivity.
  destruct (negb _); [reflexivity|]. unfold dbind at 1 4. destruct (dlocal [] _ m1 r1 u1) as [[[o m2] r2] u2]. destruct o as [pl|e s|ub|]; try reflexivity.
  destruct (_ <? 1); [reflexivity|]. unfold dbind at 1 3. destruct (d_at pl 0 m2 r2 u2) as [[[o m3] r3] u3]. destruct o as [i0|e s|ub|]; try reflexivity.
  destruct (negb _); [reflexivity|]. unfold dbind. unfold it_getDataAs. rewrite (ident_forgets (it_data i0) (g_ident g m3) id_make). reflexivity.
Qed.
Lemma scan_body_snug n b lim m m' r u : agree_in (mkV b 0 lim) m m' -> lim <= 4096 -> n = lim ->
  exists o r1 u1, scan_body n (mkV b 0 4096) m r u = (o, m, r1, u1) /\ scan_body n (mkV b 0 4096) m' r u = (o, m', r1, u1).
Proof.
  intros A L ->. unfold scan_body.
  match goal with |- exists o r1 u1, ?x m _ u = _ /\ _ => assert (H : snug (mkV b 0 lim) any any2 x) end.
  { eapply sg_bind with (Q := fun p _ => held_reply (mkV b 0 lim) p).
    { eapply sg_dlocal; [apply sg_ep|exact Logic.I|]. auto. }
    intros pkt. destruct (negb _); [apply sg_ret; intros; exact Logic.I|]. unfold ep_getPayloadAs.
    intros m0 m0' v c t E V [P _]. revert m0 m0' v c t E V. 
    assert (H : snug (mkV b 0 lim) any any2 (payload <- dlocal [] (d_copy cpf_cls (ep_payload pkt)) ;;;
      (if cpf_getItemCount payload <? 1 then dret ScanNoItems else i0 <- d_at payload 0 ;;;
        (if negb (it_type i0 =? EIP_ITEM_LIST_IDENTITY_RESPONSE) then dret (ScanWrongItem (it_type i0)) else i <- dlocal id_make (it_getDataAs id_cls i0) ;;; dret (ScanIdentity i))) : D unit scan_result)).
    { eapply sg_bind with (Q := fun p _ => Forall (fun i => held (mkV b 0 lim) (it_data i)) p).
      { eapply sg_dlocal with (P' := any) (Q' := fun _ p => Forall (fun i => held (mkV b 0 lim) (it_data i)) p); [|exact Logic.I|auto]. apply sg_copy; [reflexivity|intros k; apply sg_cpf|exact P]. }
      intros pl. destruct (_ <? 1); [apply sg_ret; intros; exact Logic.I|].
      eapply sg_bind with (Q := fun i _ => held (mkV b 0 lim) (it_data i)).
      { apply sg_at. intros t i F E. rewrite Forall_forall in F. apply F. eapply nth_error_In. exact E. }
      intros i0. destruct (negb _); [apply sg_ret; intros; exact Logic.I|]. intros m0 m0' v c t E V H0.
      assert (K : snug (mkV b 0 lim) any any2 (i <- dlocal id_make (it_getDataAs id_cls i0) ;;; dret (ScanIdentity i) : D unit scan_result)); [|exact (K m0 m0' v c t E V Logic.I)].
      apply sany_bind; [|intros i; apply sg_ret; intros; exact Logic.I].
      eapply sg_dlocal with (P' := any) (Q' := any2); [|exact Logic.I|intros; exact Logic.I]. unfold it_getDataAs. apply sg_copy; [reflexivity| |exact H0].
      intros k. change (deserialize_len id_cls k) with id_deserialize. apply sg_id. }
    intros m0 m0' v c t E V. exact (H m0 m0' v c t E V Logic.I). }
  assert (V : in_view (mkV b 0 lim) (view_take (mkV b 0 4096) lim)) by (unfold in_view, view_take; cbn; repeat split; lia).
  destruct (H m m' _ 0 u A V Logic.I) as (o & v1 & c1 & t1 & E1 & E2 & _). exists o, (RBuf v1 c1), t1. split; [exact E1|exact E2].
Qed.
Lemma fresh_scan g m inbox : sized g -> scan_run_g g m inbox = scan_run m inbox.
Proof.
  intros Z. unfold scan_run_g, scan_run, alloc. destruct inbox as [|[?|d] rest]; [reflexivity..|].
  set (got := take 4096 d). assert (Lg : len got <= 4096) by (unfold got; rewrite len_take; lia).
  assert (X : forall bl, len bl = 4096 -> store (m ++ [Some bl]) (List.length m) 0 got = Ret (m ++ [Some (got ++ drop (len got) bl)])).
  { intros bl Lb. unfold store. destruct (len got =? 0) eqn:E; [apply N.eqb_eq in E; rewrite (len_0 got E); reflexivity|].
    rewrite nth_error_app_end. replace (0 + len got <=? len bl) with true by (symmetry; apply N.leb_le; lia). rewrite list_set_app_end. reflexivity. }
  rewrite (X _ (Z m 4096)), (X (zeros 4096)) by apply len_zeros.
  set (m1 := m ++ [Some (got ++ drop (len got) (g_block g m 4096))]). set (m2 := m ++ [Some (got ++ drop (len got) (zeros 4096))]).
  assert (A : agree_in (mkV (List.length m) 0 (len got)) m1 m2).
  { intros off k _ H. cbn in *. rewrite (load_prefix m1 _ _ k got off (nth_error_app_end _ _) H), (load_prefix m2 _ _ k got off (nth_error_app_end _ _) H). reflexivity. }
  f_equal. unfold scan_handle_g, scan_handle. rewrite scan_body_same.
  destruct (scan_body_snug (len got) (List.length m) (len got) m1 m2 (RBuf null_view 0) tt A Lg eq_refl) as (o & r1 & u1 & -> & ->).
  destruct o as [a|e s|ub|]; try reflexivity. destruct (is_a e LengthError); reflexivity.
Qed.

(** ** Streams *)
Lemma ep_stream_garbage g m d p p0 cmd n ses st c0 c1 o part : sized g ->
  fits 2 cmd -> fits 2 n -> fits 4 ses -> fits 4 st -> fits 4 c0 -> fits 4 c1 -> fits 4 o ->
  drop p d = header cmd n ses st c0 c1 o ++ part -> len part < n ->
  exists m' r' pl, ep_deserialize_g g m (RStr d p false) p0
    = (Ret tt, m', r', mkEP (mkHdr cmd n ses st c0 c1 o) pl) /\ holds m' pl (part ++ drop (len part) (g_block g m n)).
Proof.
  intros Zg F1 F2 F3 F4 F5 F6 F7 H L. unfold ep_deserialize_g. erewrite dbind_ret.
  2:{ unfold dzoom. rewrite (hdr_stream m d p (ep_header p0) _ _ _ _ _ _ _ _ F1 F2 F3 F4 F5 F6 F7 H). reflexivity. }
  apply (drop_next _ 24) in H; [|apply len_header].
  erewrite dbind_ret; [|reflexivity]. cbn [ep_header ep_set_header h_length]. destruct (N.ltb_spec 0 n) as [Z|Z]; [|lia].
  unfold dlocal, sb_deserialize_len_g, rd_is_buffer, dbind, dget, sb_empty, null_view.
  cbn [sb_data v_len]. destruct (N.eqb_spec n 0); [lia|].
  unfold sb_delete, dbind, dget, dret, d_alloc, alloc, dmod, rd_into. cbn [sb_alloc sb_data v_len v_blk v_off].
  unfold str_read. rewrite H, take_all by lia.
  assert (G : store (m ++ [Some (g_block g m n)]) (List.length m) 0 part = Ret (m ++ [Some (part ++ drop (len part) (g_block g m n))])).
  { unfold store. destruct (N.eqb_spec (len part) 0) as [E|E].
    - rewrite (len_0 _ E). reflexivity.
    - rewrite nth_error_app_end, (Zg m n). destruct (N.leb_spec (0 + len part) n); [|lia]. rewrite list_set_app_end. reflexivity. }
  rewrite G. do 3 eexists. split; [reflexivity|].
  assert (Lp : len (part ++ drop (len part) (g_block g m n)) = n) by (rewrite len_app, len_drop, (Zg m n); lia).
  apply str_sb_holds; [exact Lp|apply nonempty_len; lia].
Qed.

(** A stream that did not fail has filled every new block. *)
Lemma buffer_filled g n m d p f s o m' r' s' : sized g -> sb_deserialize_len n m (RStr d p f) s = (o, m', r', s') -> unfailed r' ->
  sb_deserialize_len_g g n m (RStr d p f) s = (o, m', r', s').
Proof.
  intros Z. unfold sb_deserialize_len, sb_deserialize_len_g, rd_is_buffer. unfold dbind, dget. cbv beta iota.
  destruct (n =? v_len (sb_data s)); [intros H _; exact H|].
  destruct (sb_delete m (RStr d p f) s) as [[[o1 m1] r1] s1] eqn:Dl.
  assert (R1 : r1 = RStr d p f).
  { revert Dl. unfold sb_delete, dbind, dget, d_free, dmod, dret. destruct (sb_alloc s) as [bb|]; [|intros E; injection E as <- <- <- <-; reflexivity].
    destruct (free m bb); intros E; injection E as <- <- <- <-; reflexivity. }
  destruct o1 as [[]|e q|ub|]; try (intros H _; exact H). subst r1.
  unfold d_alloc, alloc, dmod, rd_into. cbn [sb_data v_len v_blk v_off]. unfold str_read. destruct f.
  { unfold store. cbn. intros E U. injection E as <- <- <- <-. discriminate U. }
  set (got := take n (drop p d)). intros E U.
  assert (Lg : len got = n).
  { assert (F : (len got <? n) = false).
    { destruct (store (m1 ++ [Some (zeros n)]) (List.length m1) 0 got); injection E as <- <- <- <-; exact U. }
    apply N.ltb_ge in F. unfold got in *. rewrite len_take in *. lia. }
  assert (X : forall bl, len bl = n -> store (m1 ++ [Some bl]) (List.length m1) 0 got = Ret (m1 ++ [Some got])).
  { intros bl Lb. unfold store. destruct (len got =? 0) eqn:Q.
    - apply N.eqb_eq in Q. rewrite (len_0 got Q). rewrite (len_0 bl) by lia. reflexivity.
    - rewrite nth_error_app_end. replace (0 + len got <=? len bl) with true by (symmetry; apply N.leb_le; lia). rewrite list_set_app_end.
      rewrite drop_all by lia. rewrite app_nil_r. reflexivity. }
  rewrite (X _ (Z m1 n)). rewrite (X (zeros n)) in E by apply len_zeros. exact E.
Qed.
Lemma local_filled {T} g n m d p f (t : T) o m' r' t' : sized g -> dlocal sb_empty (sb_deserialize_len n) m (RStr d p f) t = (o, m', r', t') -> unfailed r' ->
  dlocal sb_empty (sb_deserialize_len_g g n) m (RStr d p f) t = (o, m', r', t').
Proof.
  intros Z. unfold dlocal. destruct (sb_deserialize_len n m (RStr d p f) sb_empty) as [[[o1 m1] r1] s1] eqn:E.
  intros H U. assert (U1 : unfailed r1) by (destruct o1; injection H as <- <- <- <-; exact U). rewrite (buffer_filled g n m d p f _ _ _ _ _ Z E U1). exact H.
Qed.
Lemma hdr_stays m d p f h o m' r' h' : hdr_deserialize m (RStr d p f) h = (o, m', r', h') -> o = Ret tt /\ m' = m /\ exists p' f', r' = RStr d p' f'.
Proof.
  unfold hdr_deserialize, rd_uint. intros E.
  assert (X : exists p' f' h1, (o, m', r', h') = (Ret tt, m, RStr d p' f', h1)).
  { rewrite <- E. do 5 (eapply (str_dbind_raw _ _ _ _ (fun x => exists p' f' h1, x = (Ret tt, m, RStr d p' f', h1))); intros ? ? ?).
    match goal with |- context [rd_raw ?n ?g ?s ?mm (RStr ?dd ?pp ?ff) ?t] => destruct (str_raw_ret n g s mm dd pp ff t) as (pz & fz & tz & ->) end. do 3 eexists. reflexivity. }
  destruct X as (p' & f' & h1 & X). injection X as -> -> -> ->. eauto.
Qed.
Lemma packet_filled g m d p f x o m' r' x' : sized g -> ep_deserialize m (RStr d p f) x = (o, m', r', x') -> unfailed r' ->
  ep_deserialize_g g m (RStr d p f) x = (o, m', r', x').
Proof.
  intros Z. unfold ep_deserialize, ep_deserialize_g. unfold dbind, dzoom, dget. destruct (hdr_deserialize m (RStr d p f) (ep_header x)) as [[[o1 m1] r1] h1] eqn:E.
  destruct (hdr_stays _ _ _ _ _ _ _ _ _ E) as (-> & -> & p1 & f1 & ->). destruct (0 <? _); [|intros H _; exact H].
  destruct (dlocal sb_empty (sb_deserialize_len _) m (RStr d p1 f1) _) as [[[o2 m2] r2] x2] eqn:E2. intros H U.
  assert (U2 : unfailed r2) by (destruct o2; unfold dmod in H; injection H as <- <- <- <-; exact U). rewrite (local_filled g _ _ _ _ _ _ _ _ _ _ Z E2 U2). exact H.
Qed.
Lemma raw_stays {T} n (get : T -> list byte) set m d p f t o m' r' t' : rd_raw n get set m (RStr d p f) t = (o, m', r', t') -> o = Ret tt /\ m' = m /\ exists p' f', r' = RStr d p' f'.
Proof. destruct (str_raw_ret n get set m d p f t) as (p1 & f1 & t1 & ->). intros E. injection E as <- <- <- <-. eauto. Qed.
Lemma rd_local_stays {T} k m d p f (t : T) o m' r' t' : rd_local k m (RStr d p f) t = (o, m', r', t') -> m' = m /\ t' = t /\ exists p' f', r' = RStr d p' f'.
Proof.
  unfold rd_local, str_read. destruct f; [intros E|].
  - destruct (len [] <? _); injection E as <- <- <- <-; eauto.
  - destruct (_ <? _); intros E; injection E as <- <- <- <-; eauto.
Qed.
Lemma item_filled g m d p f x o m' r' x' : sized g -> it_deserialize m (RStr d p f) x = (o, m', r', x') -> unfailed r' ->
  it_deserialize_g g m (RStr d p f) x = (o, m', r', x').
Proof.
  intros Z. unfold it_deserialize, it_deserialize_g, rd_uint, it_deserializeData. unfold dbind. destruct (rd_raw _ _ _ m (RStr d p f) x) as [[[o1 m1] r1] x1] eqn:E.
  destruct (raw_stays _ _ _ _ _ _ _ _ _ _ _ _ E) as (-> & -> & p1 & f1 & ->).
  destruct (rd_local 2 m (RStr d p1 f1) x1) as [[[o2 m2] r2] x2] eqn:E2. destruct (rd_local_stays _ _ _ _ _ _ _ _ _ _ E2) as (-> & -> & p2 & f2 & ->).
  destruct o2 as [n|e q|ub|]; try (intros H _; exact H). destruct (0 <? n); [|intros H _; exact H].
  unfold dmod at 1 3. destruct (dlocal sb_empty (sb_deserialize_len n) m (RStr d p2 f2) _) as [[[o3 m3] r3] x3] eqn:E3. intros H U.
  assert (U3 : unfailed r3) by (destruct o3; unfold dmod in H; injection H as <- <- <- <-; exact U). rewrite (local_filled g _ _ _ _ _ _ _ _ _ _ Z E3 U3). exact H.
Qed.
Definition failed_stream (r : reader) : Prop := exists d p, r = RStr d p true.
Lemma item_failed m d p x o m' r' x' : it_deserialize m (RStr d p true) x = (o, m', r', x') -> failed_stream r'.
Proof. unfold it_deserialize, rd_uint, dbind, rd_raw, str_read, rd_local. cbn. intros E. injection E as <- <- <- <-. do 2 eexists. reflexivity. Qed.
Lemma loop_failed n m d p t o m' r' t' : cpf_loop n m (RStr d p true) t = (o, m', r', t') -> failed_stream r'.
Proof.
  destruct n as [|n]; cbn [cpf_loop].
  - unfold dret. intros E. injection E as <- <- <- <-. do 2 eexists. reflexivity.
  - unfold dbind, dlocal. destruct (it_deserialize m (RStr d p true) it_null) as [[[o1 m1] r1] x1] eqn:E1.
    assert (O1 : o1 = Undef Indeterminate).
    { revert E1. unfold it_deserialize, rd_uint, dbind, rd_raw, str_read, rd_local. cbn. intros E. injection E as <- <- <- <-. reflexivity. }
    pose proof (item_failed _ _ _ _ _ _ _ _ E1) as F. subst o1. intros E. injection E as <- <- <- <-. exact F.
Qed.
Lemma item_stays m d p f x o m' r' x' : it_deserialize m (RStr d p f) x = (o, m', r', x') -> exists p' f', r' = RStr d p' f'.
Proof.
  unfold it_deserialize, rd_uint, it_deserializeData. unfold dbind. destruct (rd_raw _ _ _ m (RStr d p f) x) as [[[o1 m1] r1] x1] eqn:E.
  destruct (raw_stays _ _ _ _ _ _ _ _ _ _ _ _ E) as (-> & -> & p1 & f1 & ->).
  destruct (rd_local 2 m (RStr d p1 f1) x1) as [[[o2 m2] r2] x2] eqn:E2. destruct (rd_local_stays _ _ _ _ _ _ _ _ _ _ E2) as (-> & -> & p2 & f2 & ->).
  destruct o2 as [n|e q|ub|]; try (intros H; injection H as <- <- <- <-; eauto). destruct (0 <? n); [|unfold dmod in *; intros H; injection H as <- <- <- <-; eauto].
  unfold dmod at 1, dlocal, sb_deserialize_len, rd_is_buffer, dbind, dget. cbn [sb_empty null_view sb_data v_len].
  destruct (n =? 0); unfold dret, sb_delete, dbind, dget, dret, d_alloc, alloc, dmod, rd_into; cbn [sb_empty sb_alloc sb_data v_len v_blk v_off null_view];
    unfold str_read; destruct f2; match goal with |- context [store ?a ?b ?c ?d] => destruct (store a b c d) end; intros H; injection H as <- <- <- <-; eauto.
Qed.
Lemma loop_filled g n m d p f t o m' r' t' : sized g -> cpf_loop n m (RStr d p f) t = (o, m', r', t') -> unfailed r' ->
  cpf_loop_g g n m (RStr d p f) t = (o, m', r', t').
Proof.
  intros Z. revert m p f t. induction n as [|n IH]; intros m p f t; cbn [cpf_loop cpf_loop_g]; [intros H _; exact H|].
  unfold dbind, dlocal. destruct (it_deserialize m (RStr d p f) it_null) as [[[o1 m1] r1] x1] eqn:E1.
  destruct (item_stays _ _ _ _ _ _ _ _ _ E1) as (p1 & f1 & ->). intros H U.
  assert (U1 : f1 = false).
  { destruct f1; [exfalso|reflexivity]. destruct o1 as [[]|e q|ub|]; unfold dmod in H; try (injection H as <- <- <- <-; discriminate U).
    apply loop_failed in H. destruct H as (d1 & p2 & ->). discriminate U. }
  subst f1. rewrite (item_filled g _ _ _ _ _ _ _ _ _ Z E1 eq_refl). destruct o1 as [[]|e q|ub|]; unfold dmod in *; try exact H. apply IH; assumption.
Qed.
Lemma cpf_filled g m d p f x o m' r' x' : sized g -> cpf_deserialize m (RStr d p f) x = (o, m', r', x') -> unfailed r' ->
  cpf_deserialize_g g m (RStr d p f) x = (o, m', r', x').
Proof.
  intros Z. unfold cpf_deserialize, cpf_deserialize_g, dbind. unfold dmod at 1 2. destruct (@rd_local cpf_packet 2 m (RStr d p f) []) as [[[o2 m2] r2] x2] eqn:E2.
  destruct (rd_local_stays _ _ _ _ _ _ _ _ _ _ E2) as (-> & -> & p2 & f2 & ->). destruct o2 as [n|e q|ub|]; try (intros H _; exact H). apply loop_filled. exact Z.
Qed.

(** A packet that was decoded from a short stream and is sent on. *)
Lemma sent_on g m d p p0 cmd n ses st c0 c1 o part : sized g ->
  fits 2 cmd -> fits 2 n -> fits 4 ses -> fits 4 st -> fits 4 c0 -> fits 4 c1 -> fits 4 o ->
  drop p d = header cmd n ses st c0 c1 o ++ part -> len part < n ->
  exists m' r' x, ep_deserialize_g g m (RStr d p false) p0 = (Ret tt, m', r', x) /\
    carries m' (ep_ser x) (header cmd n ses st c0 c1 o ++ part ++ drop (len part) (g_block g m n)).
Proof.
  intros Z F1 F2 F3 F4 F5 F6 F7 H L. destruct (ep_stream_garbage g m d p p0 _ _ _ _ _ _ _ part Z F1 F2 F3 F4 F5 F6 F7 H L) as (m' & r' & pl & E & Hd).
  exists m', r', (mkEP (mkHdr cmd n ses st c0 c1 o) pl). split; [exact E|].
  pose proof (ep_carries m' (mkHdr cmd n ses st c0 c1 o) pl _ (holds_carries _ _ _ Hd)) as C. eapply carries_eq; [|exact C].
  cbn. reflexivity.
Qed.

(** ** Concrete cases *)
(** Memory full of A5, and locals full of odd values. *)
Definition gA : garbage :=
  mkG (fun _ => mkFOS 1 2 3 4 5 6 7 None) (fun _ => mkFCS 8 9 10 None) (fun _ => mkId 1 [] 2 3 4 [] 5 6 [xa5] 7) (fun _ n => repeat xa5 (N.to_nat n)).
Lemma gA_sized : sized gA.
Proof. intros m n. cbn [g_block gA]. unfold len. rewrite repeat_length. apply N2Nat.id. Qed.
Definition ops_fresh : list op := [OpOpen "h" "p" "q"; OpCreate ci0 ci0; OpGet N (prim_cls 2) 0 1 2 3; OpCloseConnection 0].
Definition ctl_fresh : sock := mkSock [] [] [RxData (registered 9); RxData (fo_reply 7); RxData (explicit_reply 9 0x8E 0 (le 2 513)); RxData (fc_reply 7)] [].
Lemma tight_prim k : tight_cls (prim_cls k).
Proof. pose proof tight_library as T. do 16 apply proj2 in T. apply T. Qed.
Lemma ops_fresh_ok : Forall (fresh_ok []) ops_fresh.
Proof.
  unfold ops_fresh. repeat (apply Forall_cons); try apply Forall_nil; unfold fresh_ok; cbn [op_ok ci0 ci_assembly]; repeat split; try lia; try exact Logic.I.
  - right. apply prim_keeps.
  - right. apply tight_prim.
Qed.
Lemma fresh_example : exists w' v',
  exec ops_fresh (session_make [] ctl_fresh (mkSock [] [] [] []) 0x195 0x4321 7 100)
    = ([Ret RUnit; Ret (RNumber 0); Ret RUnit; Ret RUnit], w') /\
  exec_g gA ops_fresh (session_make_g gA [] ctl_fresh (mkSock [] [] [] []) 0x195 0x4321 7 100)
    = ([Ret RUnit; Ret (RNumber 0); Ret RUnit; Ret RUnit], v') /\ w_net v' = w_net w' /\ w_mem v' <> w_mem w'.
Proof. do 2 eexists. split; [vm_compute; reflexivity|]. split; [vm_compute; reflexivity|]. split; [vm_compute; reflexivity|]. vm_compute. discriminate. Qed.
Lemma forgets_prim k : forgets (prim_cls k).
Proof. pose proof all_forget as T. do 16 apply proj2 in T. apply T. Qed.
Lemma fresh_value u k j0 j1 x y z w v : unlike_memory u w v -> x < 256 -> y < 256 -> z < 256 ->
  exists o w' v', getSingleAttribute k j0 x y z w = (o, w') /\ getSingleAttribute k j1 x y z v = (o, v') /\ unlike_memory u w' v'.
Proof.
  intros H X Y Z. destruct (fresh_get u N (prim_cls k) x y z j0 j1 w v H X Y Z eq_refl (tight_prim k) (forgets_prim k)) as (o & t0' & t1' & w' & v' & E1 & E2 & H' & S).
  unfold getSingleAttribute. rewrite E1, E2. destruct o as [[]|e q|ub|]; do 3 eexists; (split; [reflexivity|]); (split; [|exact H']); try reflexivity. rewrite (S eq_refl). reflexivity.
Qed.
Definition two_items := cpf [(0x8002, seq_address 7 1); (0x00B1, [x01; x02; x03])].
Definition w_items (g : garbage) : world := session_make_g g [] (mkSock [] [] [] []) (mkSock [] [] [RxData two_items] []) 0x195 0x4321 7 100.
Definition gZ : garbage := mkG (fun _ => fs_make) (fun _ => cs_make) (fun _ => id_make) (fun _ n => zeros n).
Lemma items_example : unlike_memory [] (w_items gZ) (w_items gA) /\ exists p w' v', receiveIOPacket (w_items gZ) = (Ret p, w') /\ receiveIOPacket (w_items gA) = (Ret p, v') /\
  len p = 2 /\ w_mem w' <> w_mem v' /\ Forall2 (fun i d => exists s sb, it_data i = Some s /\ s_sbuf s = Some sb /\ reads (w_mem v') (sb_data sb) d) p [seq_address 7 1; [x01; x02; x03]].
Proof.
  split; [exact (fresh_made gA [] (mkSock [] [] [] []) (mkSock [] [] [RxData two_items] []) 0x195 0x4321 7 100 gA_sized)|].
  do 3 eexists. split; [vm_compute; reflexivity|]. split; [vm_compute; reflexivity|]. split; [reflexivity|]. split; [vm_compute; discriminate|].
  apply Forall2_cons; [|apply Forall2_cons; [|apply Forall2_nil]]; do 2 eexists; (split; [reflexivity|]); (split; [reflexivity|]); vm_compute; reflexivity.
Qed.
(** Three of eight promised bytes. *)
Lemma leak_example : let d := header 0x6F 8 0 0 0 0 0 ++ [x01; x02; x03] in
  exists m1 r1 p1 m2 r2 p2, ep_deserialize_g gZ [] (RStr d 0 false) (ep_make0 0 0) = (Ret tt, m1, r1, p1) /\
    carries m1 (ep_ser p1) (d ++ zeros 5) /\
    ep_deserialize_g gA [] (RStr d 0 false) (ep_make0 0 0) = (Ret tt, m2, r2, p2) /\ carries m2 (ep_ser p2) (d ++ [xa5; xa5; xa5; xa5; xa5]).
Proof.
  cbv zeta. assert (F : fits 2 0x6F /\ fits 2 8 /\ fits 4 0) by (repeat split). destruct F as (F1 & F2 & F3).
  assert (ZZ : sized gZ) by (intros m n; apply len_zeros).
  destruct (sent_on gZ [] (header 0x6F 8 0 0 0 0 0 ++ [x01; x02; x03]) 0 (ep_make0 0 0) 0x6F 8 0 0 0 0 0 [x01; x02; x03] ZZ F1 F2 F3 F3 F3 F3 F3 eq_refl eq_refl) as (m1 & r1 & p1 & E1 & C1).
  destruct (sent_on gA [] (header 0x6F 8 0 0 0 0 0 ++ [x01; x02; x03]) 0 (ep_make0 0 0) 0x6F 8 0 0 0 0 0 [x01; x02; x03] gA_sized F1 F2 F3 F3 F3 F3 F3 eq_refl eq_refl) as (m2 & r2 & p2 & E2 & C2).
  exists m1, r1, p1, m2, r2, p2. split; [exact E1|]. split; [exact C1|]. split; [exact E2|exact C2].
Qed.
(** A complete one. *)
Lemma complete_example : exists m1 p1, let d := header 0x6F 3 0 0 0 0 0 ++ [x01; x02; x03] in
  ep_deserialize [] (RStr d 0 false) (ep_make0 0 0) = (Ret tt, m1, RStr d 27 false, p1) /\ ep_deserialize_g gA [] (RStr d 0 false) (ep_make0 0 0) = (Ret tt, m1, RStr d 27 false, p1).
Proof. do 2 eexists. cbv zeta. split; vm_compute; reflexivity. Qed.
Lemma fresh_request_bytes g m : sized g -> scan_request_g g m = Ret (request 0x63 0 []).
Proof. intros Z. rewrite (fresh_request g m Z). apply scan_request_bytes. Qed.
