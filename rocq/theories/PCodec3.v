(** Advertised lengths, connection management messages, identity and sequenced items. *)
From Verif Require Export PCodec2 Session.

(** ** Advertised lengths *)
Lemma exact_opt_carries m p : exact_opt m p -> exists bs, carries_opt m p bs.
Proof. destruct p as [s|]; cbn; [auto|]. intros _. exists []. reflexivity. Qed.
Lemma path_exact m p : exists bs, writes m (path_serialize p) bs /\ len bs = path_getLength p.
Proof.
  exists (le 1 (u8 (len (p_buf p) / 2)) ++ (if p_pad p then le 1 0 else []) ++ p_buf p). split.
  - unfold path_serialize, path_serialize_pad. apply writes_seq; [apply writes_uint|].
    apply writes_seq; [|apply writes_bytes]. destruct (p_pad p); [apply writes_uint|apply writes_ret].
  - unfold path_getLength. rewrite !len_app, len_le. destruct (p_pad p); rewrite ?len_le; change (len (@nil byte)) with 0; lia.
Qed.
Lemma path_exact_pad m p : exists bs, writes m (path_serialize_pad p true) bs /\ len bs = 2 + len (p_buf p).
Proof.
  exists (le 1 (u8 (len (p_buf p) / 2)) ++ le 1 0 ++ p_buf p). split.
  - unfold path_serialize_pad. apply writes_seq; [apply writes_uint|]. apply writes_seq; [apply writes_uint|apply writes_bytes].
  - rewrite !len_app, !len_le. lia.
Qed.
Lemma writes_len m x bs n : writes m x bs -> len bs = n -> forall y, carries m (mkSer (Ret n) x y) bs.
Proof. intros H <- y. split; [reflexivity|exact H]. Qed.

Lemma exact_header m h : exact m (hdr_ser h).
Proof. eexists. apply hdr_carries. Qed.
Lemma exact_packet m p : exact_opt m (ep_payload p) -> exact m (ep_ser p).
Proof. destruct p as [h p]. cbn [ep_payload]. intros H. destruct (exact_opt_carries m p H) as [bs B]. eexists. apply ep_carries. exact B. Qed.
Lemma exact_item m i : exact_opt m (it_data i) -> (forall n, opt_length (it_data i) = Ret n -> n < 65536) -> exact m (it_ser i).
Proof.
  intros H L. destruct (exact_opt_carries m _ H) as [bs B]. exists (item (it_type i, bs)).
  apply it_carries; [split; [reflexivity|exact B]|]. apply L. apply (carries_opt_len m). exact B.
Qed.
Lemma exact_cpf m p : Forall (fun i => exact_opt m (it_data i) /\ forall n, opt_length (it_data i) = Ret n -> n < 65536) p -> exact m (cpf_ser p).
Proof.
  intros H. assert (X : exists xs, Forall2 (item_carries m) p xs /\ Forall (fun x => len (snd x) < 65536) xs).
  { induction H as [|i p [Hi L] _ (xs & X1 & X2)]; [exists []; split; constructor|].
    destruct (exact_opt_carries m _ Hi) as [bs B]. exists ((it_type i, bs) :: xs). split; constructor; try assumption.
    - split; [reflexivity|exact B].
    - apply L. apply (carries_opt_len m). exact B. }
  destruct X as (xs & X1 & X2). exists (cpf xs). apply cpf_carries; assumption.
Qed.
Lemma exact_router_request m q : exact_opt m (mq_data q) -> exact m (mq_ser q).
Proof.
  intros H. destruct (exact_opt_carries m _ H) as [bs B]. destruct (path_exact m (mq_path q)) as (ps & P & L).
  exists (le 1 (mq_service q) ++ ps ++ bs). split.
  - cbn [s_length mq_ser]. unfold mq_getLength. rewrite (carries_opt_len _ _ _ B). cbn [obind]. rewrite !len_app, len_le, L. f_equal. lia.
  - cbn [s_serialize mq_ser]. unfold mq_serialize. apply writes_seq; [apply writes_uint|]. apply writes_seq; [exact P|].
    apply carries_opt_writes. exact B.
Qed.
Lemma exact_rr_request m r : exact_opt m (mq_data (rr_ext r)) -> exact m (rrq_ser r).
Proof. intros H. destruct (exact_router_request m (rr_ext r) H) as [bs B]. eexists. apply rr_carries. exact B. Qed.
Lemma exact_rr m r : exact m (rr_base_ser r).
Proof. eexists. apply rr_carries. reflexivity. Qed.
Lemma exact_registration m g : exact m (rg_ser g). Proof. eexists. apply rg_carries. Qed.
Lemma exact_seq_address m g : exact m (sa_ser g). Proof. eexists. apply sa_carries. Qed.
Lemma exact_seq_data m n s : exact m s -> exact m (sq_ser n s). Proof. intros [bs B]. eexists. apply sq_carries. exact B. Qed.
Lemma exact_prim m k v : exact m (prim_ser k v). Proof. eexists. apply carries_prim. Qed.
Lemma exact_sbuf m s bs : reads m (sb_data s) bs -> exact m (ser_of_sbuf s). Proof. intros R. eexists. apply carries_sbuf. exact R. Qed.
Lemma exact_identity m i : len (id_sockaddr i) = 16 -> len (id_revision i) = 2 -> len (id_name i) < 256 -> exact m (id_ser i).
Proof.
  intros H1 H2 H3. eexists. split; cycle 1.
  - cbn [s_serialize id_ser]. unfold id_serialize. wseq.
  - cbn [s_length id_ser]. unfold id_getLength. replace (u8 (len (id_name i))) with (len (id_name i)) by (symmetry; apply N.mod_small; assumption).
    rewrite take_all by lia. rewrite !len_app, !len_le. f_equal. lia.
Qed.
Lemma exact_forward_open m f : exact m (fo_ser f).
Proof.
  destruct (path_exact m (fo_path f)) as (ps & P & L). eexists. split; cycle 1.
  - cbn [s_serialize fo_ser]. unfold fo_serialize. do 16 (apply writes_seq; [apply writes_uint|]). exact P.
  - cbn [s_length fo_ser]. unfold fo_getLength. rewrite !len_app, !len_le, L. f_equal. lia.
Qed.
Lemma exact_forward_close m f : p_pad (fc_path f) = false -> exact m (fc_ser f).
Proof.
  intros H. destruct (path_exact_pad m (fc_path f)) as (ps & P & L). eexists. split; cycle 1.
  - cbn [s_serialize fc_ser]. unfold fc_serialize. do 5 (apply writes_seq; [apply writes_uint|]). exact P.
  - cbn [s_length fc_ser]. unfold fc_getLength, path_getLength. rewrite H, !len_app, !len_le, L. f_equal. lia.
Qed.

(** The three classes for which it fails. *)
Lemma not_exact m s bs n : s_length s = Ret n -> writes m (s_serialize s) bs -> len bs <> n -> ~ exact m s.
Proof.
  intros L W N [bs' [L' W']]. rewrite L in L'. assert (E : bs = bs').
  { pose proof (writes_stream m _ _ W m [] (hext_refl m)) as E1. pose proof (writes_stream m _ _ W' m [] (hext_refl m)) as E2.
    rewrite E1 in E2. injection E2 as E2. exact E2. }
  subst. congruence.
Qed.
Lemma inexact_item m i s : it_data i = Some s -> (exists n, s_length s = Ret n /\ 65536 <= n) -> exact m s -> ~ exact m (it_ser i).
Proof.
  intros D (n & L & B) [bs [L' W]]. rewrite L in L'. injection L' as ->.
  assert (C : item_carries m i (it_type i, bs)) by (split; [reflexivity|]; cbn [snd]; rewrite D; split; assumption).
  eapply not_exact; [cbn [s_length it_ser]; apply (it_length _ _ _ C)|apply (it_writes _ _ _ C)|].
  rewrite len_item. cbn [snd]. unfold u16. lia.
Qed.
Lemma inexact_identity m i : len (id_sockaddr i) = 16 -> len (id_revision i) = 2 -> 256 <= len (id_name i) -> ~ exact m (id_ser i).
Proof.
  intros H1 H2 H3. eapply not_exact; [reflexivity|cbn [s_serialize id_ser]; unfold id_serialize; wseq|].
  unfold id_getLength. rewrite !len_app, !len_le, len_take. unfold u8. lia.
Qed.
Lemma inexact_forward_close m f : p_pad (fc_path f) = true -> ~ exact m (fc_ser f).
Proof.
  intros H. destruct (path_exact_pad m (fc_path f)) as (ps & P & L).
  eapply not_exact; [reflexivity|cbn [s_serialize fc_ser]; unfold fc_serialize; do 5 (apply writes_seq; [apply writes_uint|]); exact P|].
  unfold fc_getLength, path_getLength. rewrite H, !len_app, !len_le, L. lia.
Qed.

(** ** Forward open and close *)
Lemma forward_open_bytes m vendor orig sn o2t t2o o t :
  ci_assembly o < 256 -> ci_assembly t < 256 ->
  carries m (fo_ser (cn_open_request (cn_make vendor orig sn o2t t2o o t)))
    (forward_open 6 80 o2t t2o sn vendor orig 0
       (ci_rpi o) (parameter_word (ci_size o mod 2 ^ 15) false 2 2 false)
       (ci_rpi t) (parameter_word (ci_size t mod 2 ^ 15) true 2 2 false) 1
       (epath false [SClass 4; SInstance 1; SPoint (ci_assembly o); SPoint (ci_assembly t)])).
Proof.
  intros Ho Ht. change 2 with (2 mod 4) at 2 3 5 6. rewrite <- !params_word.
  apply (fo_carries m (cn_open_request (cn_make vendor orig sn o2t t2o o t))); try reflexivity.
  cbn [cn_open_request cn_make fo_path cn_path]. unfold cn_points, path_addLogicalConnectionPoint, path_addLogicalInstance,
    path_addLogicalClass, path_addSegment, path_reset, path_empty, path_of. cbn [p_buf p_pad flat_map segment_bytes app].
  rewrite !byte_of_octet, (N.mod_small (ci_assembly o)), (N.mod_small (ci_assembly t)) by assumption. reflexivity.
Qed.
Lemma forward_close_bytes m c : cn_tick_size c < 256 -> cn_ticks c < 256 ->
  carries m (fc_ser (cn_close_request c))
    (forward_close (cn_tick_size c) (cn_ticks c) (cn_sn c) (cn_vendor c) (cn_orig_sn c) [SClass 2; SInstance 1]).
Proof. intros H1 H2. apply (fc_carries m (cn_close_request c)); try assumption; reflexivity. Qed.

Lemma forward_open_reply_decode m v c f0 bs : reads m v bs ->
  (exists o t sn vn os oa ta rs app rest f,
     (fits 4 o /\ fits 4 t /\ fits 2 sn /\ fits 2 vn /\ fits 4 os /\ fits 4 oa /\ fits 4 ta /\ len app mod 2 = 0 /\ len app < 512) /\
     bs = forward_open_reply o t sn vn os oa ta rs app ++ rest /\
     fs_deserialize m (RBuf v c) f0 = (Ret tt, m, RBuf (view_drop v (26 + len app)) (c + (26 + len app)), f) /\
     (fs_o2t_id f, fs_t2o_id f, fs_conn_sn f, fs_vendor f, fs_orig_sn f, fs_o2t_api f, fs_t2o_api f) = (o, t, sn, vn, os, oa, ta) /\
     holds m (fs_data f) app) \/
  ((forall o t sn vn os oa ta rs app rest, len app mod 2 = 0 -> len app < 512 ->
      bs <> forward_open_reply o t sn vn os oa ta rs app ++ rest) /\
   exists s r f, fs_deserialize m (RBuf v c) f0 = (Throw LengthError s, m, r, f)).
Proof.
  intros R. destruct (fs_decode m v c f0 bs R) as [X|(o & t & sn & vn & os & oa & ta & rs & app & rest & F & -> & E)]; [right; exact X|left].
  exists o, t, sn, vn, os, oa, ta, rs, app, rest. eexists. split; [exact F|]. split; [reflexivity|]. split; [exact E|].
  split; [reflexivity|]. cbn [fs_data]. 
  replace app with (take (len app) (drop 26 (forward_open_reply o t sn vn os oa ta rs app ++ rest))) at 2.
  - apply window_holds; [assumption|]. unfold forward_open_reply. lens. lia.
  - unfold forward_open_reply. repeat rewrite <- app_assoc.
    rewrite 7!app_assoc. rewrite (drop_app 26) by (lens; reflexivity). apply take_app_len.
Qed.
Lemma forward_close_reply_decode m v c f0 bs : reads m v bs ->
  (exists sn vn os rs app rest f,
     (fits 2 sn /\ fits 2 vn /\ fits 4 os /\ len app mod 2 = 0 /\ len app < 512) /\
     bs = forward_close_reply sn vn os rs app ++ rest /\
     cs_deserialize m (RBuf v c) f0 = (Ret tt, m, RBuf (view_drop v (10 + len app)) (c + (10 + len app)), f) /\
     (cs_conn_sn f, cs_vendor f, cs_orig_sn f) = (sn, vn, os) /\ holds m (cs_data f) app) \/
  ((forall sn vn os rs app rest, len app mod 2 = 0 -> len app < 512 ->
      bs <> forward_close_reply sn vn os rs app ++ rest) /\
   exists s r f, cs_deserialize m (RBuf v c) f0 = (Throw LengthError s, m, r, f)).
Proof.
  intros R. destruct (cs_decode m v c f0 bs R) as [X|(sn & vn & os & rs & app & rest & F & -> & E)]; [right; exact X|left].
  exists sn, vn, os, rs, app, rest. eexists. split; [exact F|]. split; [reflexivity|]. split; [exact E|].
  split; [reflexivity|]. cbn [cs_data].
  replace app with (take (len app) (drop 10 (forward_close_reply sn vn os rs app ++ rest))) at 2.
  - apply window_holds; [assumption|]. unfold forward_close_reply. lens. lia.
  - unfold forward_close_reply. repeat rewrite <- app_assoc.
    rewrite 3!app_assoc. rewrite (drop_app 10) by (lens; reflexivity). apply take_app_len.
Qed.

(** ** Identity *)
Lemma len_identity i : identity_fits i -> len (identity_of i) = 34 + len (id_name i).
Proof. intros (_ & H1 & _ & _ & _ & H2 & _). unfold identity_of, identity_bytes. lens. lia. Qed.
Lemma identity_inj i j a b : identity_fits i -> identity_fits j -> identity_of i ++ a = identity_of j ++ b -> i = j /\ a = b.
Proof.
  destruct i as [v1 a1 n1 d1 p1 r1 s1 sn1 nm1 st1], j as [v2 a2 n2 d2 p2 r2 s2 sn2 nm2 st2].
  unfold identity_fits, identity_of, identity_bytes. cbn [id_version id_sockaddr id_vendor id_device id_product id_revision id_status id_serial id_name id_state].
  intros (F1 & L1 & F2 & F3 & F4 & L2 & F5 & F6 & L3 & L4) (G1 & M1 & G2 & G3 & G4 & M2 & G5 & G6 & M3 & M4) E.
  repeat rewrite <- app_assoc in E.
  apply le_app_inj in E; [|assumption..]. destruct E as [<- E].
  apply app_eq_len in E; [|congruence]. destruct E as [<- E].
  do 3 (apply le_app_inj in E; [|assumption..]; destruct E as [<- E]).
  apply app_eq_len in E; [|congruence]. destruct E as [<- E].
  do 2 (apply le_app_inj in E; [|assumption..]; destruct E as [<- E]).
  cbn [app] in E. injection E as E1 E. apply octet_inj in E1; [|assumption..].
  apply app_eq_len in E; [|assumption]. destruct E as [<- E]. injection E as E2 E. apply octet_inj in E2; [|assumption..].
  subst. split; reflexivity.
Qed.
Lemma identity_decode m v c i0 bs : reads m v bs ->
  (exists i rest, identity_fits i /\ bs = identity_of i ++ rest /\
     id_deserialize m (RBuf v c) i0 = (Ret tt, m, RBuf (view_drop v (34 + len (id_name i))) (c + (34 + len (id_name i))), i)) \/
  ((forall i rest, identity_fits i -> bs <> identity_of i ++ rest) /\
   exists s r i, id_deserialize m (RBuf v c) i0 = (Throw LengthError s, m, r, i)).
Proof.
  intros R. destruct (id_decode m v c i0 bs R) as [[N (r & i & E)]|(ve & ad & vn & dv & pr & rv & st & sn & nm & sta & rest & F & -> & E)].
  - right. split.
    + intros i' rest (F1 & L1 & F2 & F3 & F4 & L2 & F5 & F6 & L3 & L4). apply N; assumption.
    + rewrite E. do 3 eexists. reflexivity.
  - left. exists (mkId ve ad vn dv pr rv st sn nm sta), rest. split; [exact F|]. split; [reflexivity|]. exact E.
Qed.
Lemma identity_roundtrip m i : identity_fits i -> carries m (id_ser i) (identity_of i) /\
  forall m' v c i0 rest, reads m' v (identity_of i ++ rest) ->
    exists r, id_deserialize m' (RBuf v c) i0 = (Ret tt, m', r, i).
Proof.
  intros F. split; [destruct F as (F1 & L1 & F2 & F3 & F4 & L2 & F5 & F6 & L3 & L4); apply id_carries; assumption|].
  intros m' v c i0 rest R. destruct (identity_decode m' v c i0 _ R) as [(j & rest' & G & E & X)|[N _]].
  - apply identity_inj in E; [|assumption..]. destruct E as [<- _]. eauto.
  - exfalso. eapply N; [exact F|reflexivity].
Qed.

(** ** Sequenced address *)
Lemma seq_address_decode m v c g0 bs : reads m v bs ->
  (exists conn seq rest, fits 4 conn /\ fits 4 seq /\ bs = seq_address conn seq ++ rest /\
     sa_deserialize m (RBuf v c) g0 = (Ret tt, m, RBuf (view_drop v 8) (c + 8), mkSA conn seq)) \/
  (len bs < 8 /\ exists s r g, sa_deserialize m (RBuf v c) g0 = (Throw LengthError s, m, r, g)).
Proof.
  intros R. destruct (sa_decode m v c g0 bs R) as [[L (r & g & E)]|X]; [right|left; exact X].
  split; [exact L|]. rewrite E. do 3 eexists. reflexivity.
Qed.
Lemma seq_address_roundtrip m conn seq : fits 4 conn -> fits 4 seq ->
  carries m (sa_ser (sa_make conn seq)) (seq_address conn seq) /\ len (seq_address conn seq) = 8 /\
  forall m' v c g0 rest, reads m' v (seq_address conn seq ++ rest) ->
    exists r, sa_deserialize m' (RBuf v c) g0 = (Ret tt, m', r, mkSA conn seq).
Proof.
  intros F1 F2. split; [|split; [reflexivity|]].
  - pose proof (sa_carries m (sa_make conn seq)) as H. unfold sa_make in H at 2 3. cbn [sa_connection sa_sequence] in H.
    unfold u32 in H. apply fits4_lt in F1, F2. rewrite !N.mod_small in H by assumption. exact H.
  - intros m' v c g0 rest R. destruct (seq_address_decode m' v c g0 _ R) as [(a & b & r & Fa & Fb & E & X)|[L _]].
    + unfold seq_address in E. repeat rewrite <- app_assoc in E.
      do 2 (apply le_app_inj in E; [|assumption..]; destruct E as [<- E]). eauto.
    + rewrite len_app in L. change (len (seq_address conn seq)) with 8 in L. lia.
Qed.
