(** Encoders: what each message class serializes to, and that getLength agrees. *)
From Verif Require Export PPack2.

Lemma writes_eq m x a b : a = b -> writes m x a -> writes m x b.
Proof. intros ->. auto. Qed.
Lemma carries_eq m s a b : a = b -> carries m s a -> carries m s b.
Proof. intros ->. auto. Qed.
Lemma writes_ext m x y bs : (forall m' w, x m' w = y m' w) -> writes m y bs -> writes m x bs.
Proof. intros E (ps & H & K). exists ps. split; [assumption|]. intros m' w Hm Hf. rewrite E. auto. Qed.

Lemma carries_opt_len m p bs : carries_opt m p bs -> opt_length p = Ret (len bs).
Proof. destruct p; cbn [carries_opt opt_length]; [intros [H _]; exact H|intros ->; reflexivity]. Qed.
Lemma carries_opt_writes m p bs : carries_opt m p bs -> writes m (w_opt p) bs.
Proof. destruct p; cbn [carries_opt w_opt]; [intros [_ H]; exact H|intros ->; apply writes_ret]. Qed.

Ltac wseq := repeat (first [apply writes_uint | apply writes_bytes | apply writes_seq | eassumption]).

(** ** Header and packet *)
Lemma hdr_writes m h : writes m (hdr_serialize h)
  (header (h_command h) (h_length h) (h_session h) (h_status h) (h_ctx0 h) (h_ctx1 h) (h_options h)).
Proof.
  unfold hdr_serialize, header. repeat (apply writes_seq; [apply writes_uint|]).
  rewrite app_assoc. apply writes_seq; [|apply writes_uint]. rewrite !host_bytes_le. apply writes_bytes.
Qed.
Lemma hdr_carries m h : carries m (hdr_ser h)
  (header (h_command h) (h_length h) (h_session h) (h_status h) (h_ctx0 h) (h_ctx1 h) (h_options h)).
Proof. split; [cbn [s_length hdr_ser]; rewrite len_header; reflexivity|apply hdr_writes]. Qed.

Lemma ep_carries m h p bs : carries_opt m p bs ->
  carries m (ep_ser (mkEP h p))
    (header (h_command h) (h_length h) (h_session h) (h_status h) (h_ctx0 h) (h_ctx1 h) (h_options h) ++ bs).
Proof.
  intros H. split.
  - cbn [s_length ep_ser]. unfold ep_getLength. cbn [ep_payload]. rewrite (carries_opt_len _ _ _ H). cbn [obind].
    rewrite len_app, len_header. reflexivity.
  - cbn [s_serialize ep_ser]. unfold ep_serialize. cbn [ep_header ep_payload].
    apply writes_seq; [apply hdr_writes|apply carries_opt_writes; assumption].
Qed.
Lemma header_u a b c d e f g : header (u16 a) (u16 b) (u32 c) d e f g = header a b c d e f g.
Proof. unfold header. rewrite !le_u16, le_u32. reflexivity. Qed.
Lemma ep_make_carries m cmd handle p bs : carries_opt m p bs ->
  exists q, ep_make cmd handle p = Ret q /\ ep_payload q = p /\
    ep_header q = mkHdr (u16 cmd) (u16 (len bs)) (u32 handle) 0 0 0 0 /\
    carries m (ep_ser q) (request cmd handle bs).
Proof.
  intros H. unfold ep_make, ep_updateLength. cbn [ep_payload]. rewrite (carries_opt_len _ _ _ H). cbn [obind].
  eexists. split; [reflexivity|]. split; [reflexivity|]. split; [reflexivity|].
  unfold ep_set_header. cbn [ep_payload ep_header hdr_make hdr_set_length h_command h_session h_status h_ctx0 h_ctx1 h_options].
  eapply carries_eq; [|apply ep_carries; exact H].
  unfold hdr_set_length, hdr_make. cbn [h_command h_length h_session h_status h_ctx0 h_ctx1 h_options]. rewrite header_u. reflexivity.
Qed.
Lemma ep_make0_carries m cmd handle : carries m (ep_ser (ep_make0 cmd handle)) (request cmd handle []).
Proof.
  unfold ep_make0. eapply carries_eq; [|apply ep_carries; reflexivity].
  cbn [hdr_make h_command h_length h_session h_status h_ctx0 h_ctx1 h_options].
  change 0 with (u16 0) at 1. rewrite header_u. reflexivity.
Qed.

(** ** CPF *)

Lemma it_writes m i x : item_carries m i x -> writes m (it_serialize i) (item x).
Proof.
  intros [H1 H2]. unfold it_serialize, item. apply writes_seq; [rewrite H1; apply writes_uint|].
  apply writes_seq; [|apply carries_opt_writes; assumption].
  unfold it_getDataLength. rewrite (carries_opt_len _ _ _ H2). cbn [obind w_with].
  eapply writes_ext with (y := w_uint 2 (u16 (len (snd x)))); [reflexivity|]. rewrite <- le_u16. apply writes_uint.
Qed.
Lemma it_length m i x : item_carries m i x -> it_getLength i = Ret (4 + u16 (len (snd x))).
Proof.
  intros [_ H]. unfold it_getLength, it_getDataLength. rewrite (carries_opt_len _ _ _ H). reflexivity.
Qed.
Lemma it_carries m i x : item_carries m i x -> len (snd x) < 65536 -> carries m (it_ser i) (item x).
Proof.
  intros H L. split; [|apply it_writes; assumption]. cbn [s_length it_ser]. rewrite (it_length _ _ _ H), len_item.
  rewrite u16_small by assumption. reflexivity.
Qed.
Lemma cpf_writes_items m its xs : Forall2 (item_carries m) its xs -> writes m (cpf_ser_items its) (items xs).
Proof.
  induction 1; cbn [cpf_ser_items]; [apply writes_ret|]. rewrite items_cons.
  apply writes_seq; [apply it_writes; assumption|assumption].
Qed.
Lemma cpf_writes m its xs : Forall2 (item_carries m) its xs -> writes m (cpf_serialize its) (cpf xs).
Proof.
  intros H. unfold cpf_serialize, cpf. apply writes_seq; [|apply cpf_writes_items; assumption].
  unfold cpf_getItemCount. replace (len its) with (len xs) by (unfold len; rewrite (Forall2_len _ _ _ H); reflexivity).
  rewrite <- le_u16. apply writes_uint.
Qed.
Lemma cpf_length_gen m its xs : Forall2 (item_carries m) its xs -> Forall (fun x => len (snd x) < 65536) xs ->
  forall a, fold_left (fun acc i => obind acc (fun l => obind (it_getLength i) (fun n => Ret (l + n)))) its (Ret a)
  = Ret (a + len (items xs)).
Proof.
  induction 1 as [|i x its xs H1 H2 IH]; intros F a; cbn [fold_left].
  - change (len (items [])) with 0. rewrite N.add_0_r. reflexivity.
  - rewrite (it_length _ _ _ H1). cbn [obind]. pose proof (Forall_inv F) as Fx. cbn in Fx. rewrite IH by (apply (Forall_inv_tail F)).
    rewrite u16_small by assumption. rewrite items_cons, len_app, len_item. f_equal. lia.
Qed.
Lemma cpf_carries m its xs : Forall2 (item_carries m) its xs -> Forall (fun x => len (snd x) < 65536) xs ->
  carries m (cpf_ser its) (cpf xs).
Proof.
  intros H F. split; [|apply cpf_writes; assumption]. cbn [s_length cpf_ser]. unfold cpf_getLength.
  rewrite (cpf_length_gen m its xs H F). rewrite len_cpf. reflexivity.
Qed.
Lemma item_is_carries m i x : item_is m i x -> item_carries m i x.
Proof. intros [H1 H2]. split; [assumption|apply holds_carries; assumption]. Qed.

(** ** Paths *)

Lemma len_segments ss : len (flat_map segment_bytes ss) = 2 * len ss.
Proof. induction ss as [|s ss IH]; [reflexivity|]. cbn [flat_map]. rewrite len_app, IH, len_cons. destruct s; cbn [segment_bytes]; rewrite ?len_cons, ?len_nil; lia. Qed.
Lemma path_writes m pad p ss : p_buf p = flat_map segment_bytes ss -> len ss < 256 ->
  writes m (path_serialize_pad p pad) (epath pad ss).
Proof.
  intros H L. unfold path_serialize_pad, epath. rewrite H, len_segments.
  replace (2 * len ss / 2) with (len ss) by lia.
  apply writes_seq; [rewrite <- le_1 by assumption; rewrite <- le_u8; apply writes_uint|].
  apply writes_seq; [|apply writes_bytes]. destruct pad; [apply (writes_uint m 1 0)|apply writes_ret].
Qed.
Lemma path_serialize_writes m pad ss : len ss < 256 -> writes m (path_serialize (path_of pad ss)) (epath pad ss).
Proof. intros L. apply path_writes; [reflexivity|assumption]. Qed.
Lemma len_epath pad ss : len (epath pad ss) = 1 + (if pad then 1 else 0) + 2 * len ss.
Proof. unfold epath. rewrite !len_app, len_segments. destruct pad; cbn [len List.length]; rewrite ?len_cons, ?len_nil; lia. Qed.
Lemma path_length pad ss : path_getLength (path_of pad ss) = len (epath pad ss).
Proof. unfold path_getLength, path_of. cbn [p_buf p_pad]. rewrite len_epath, len_segments. destruct pad; lia. Qed.

Lemma add_segment_of s p : segment_ok s -> p_buf (add_segment s p) = p_buf p ++ segment_bytes s /\ p_pad (add_segment s p) = p_pad p.
Proof.
  destruct s; cbn [segment_ok add_segment segment_bytes]; intros H;
    unfold path_addLogicalClass, path_addLogicalInstance, path_addLogicalAttribute, path_addLogicalConnectionPoint, path_addSegment;
    cbn [p_buf p_pad]; rewrite !byte_of_octet; rewrite (N.mod_small n) by assumption; split; reflexivity.
Qed.
Lemma path_cia_of c i a pad : c < 256 -> i < 256 -> a < 256 ->
  path_cia c i a pad = path_of pad [SClass c; SInstance i; SAttribute a].
Proof.
  intros. unfold path_cia, path_addLogicalAttribute, path_addLogicalInstance, path_addLogicalClass, path_addSegment, path_empty, path_of.
  cbn [p_buf p_pad]. rewrite !byte_of_octet. rewrite (N.mod_small c), (N.mod_small i), (N.mod_small a) by assumption. reflexivity.
Qed.
Lemma path_ci_of c i : c < 256 -> i < 256 -> path_ci c i = path_of false [SClass c; SInstance i].
Proof.
  intros. unfold path_ci, path_addLogicalAttribute, path_addLogicalInstance, path_addLogicalClass, path_addSegment, path_empty, path_of.
  cbn [p_buf p_pad]. rewrite !byte_of_octet. rewrite (N.mod_small c), (N.mod_small i) by assumption. reflexivity.
Qed.

(** ** Requests *)
Lemma mq_carries m service pad ss d bs : len ss < 256 -> carries_opt m d bs ->
  carries m (mq_ser (mkMRQ (u8 service) (path_of pad ss) d)) (router_request (u8 service) (epath pad ss) bs).
Proof.
  intros L H. split.
  - cbn [s_length mq_ser]. unfold mq_getLength. cbn [mq_data mq_path]. rewrite (carries_opt_len _ _ _ H). cbn [obind].
    rewrite path_length. unfold router_request. lens. f_equal. lia.
  - cbn [s_serialize mq_ser]. unfold mq_serialize, router_request. cbn [mq_data mq_path mq_service].
    apply writes_seq; [rewrite <- le_1 by (apply N.mod_lt; discriminate); apply writes_uint|].
    apply writes_seq; [apply path_serialize_writes; assumption|apply carries_opt_writes; assumption].
Qed.
Lemma rr_carries {X} m (r : rr_data X) d bs : carries_opt m d bs ->
  carries m (rr_ser (Ret d) r) (rr (rr_iface r) (rr_timeout r) [(0, []); (0xB2, bs)]).
Proof.
  intros H. split.
  - cbn [s_length rr_ser]. unfold rr_getLength. cbn [obind]. rewrite (carries_opt_len _ _ _ H). cbn [obind].
    unfold rr. rewrite !len_app, !len_le, len_cpf. unfold items. cbn [flat_map]. rewrite !len_app, !len_item. cbn [snd]. lens. f_equal. lia.
  - cbn [s_serialize rr_ser]. unfold rr_serialize, rr. apply writes_seq; [apply writes_uint|].
    apply writes_seq; [apply writes_uint|].
    eapply writes_ext with (y := cpf_serialize [it_null; it_make EIP_ITEM_UNCONNECTED_MESSAGE d]); [reflexivity|].
    apply cpf_writes. constructor; [split; reflexivity|]. constructor; [|constructor].
    split; [reflexivity|exact H].
Qed.
Lemma rrq_carries m service pad ss d bs : len ss < 256 -> carries_opt m d bs ->
  carries m (rrq_ser (rrq_make service (path_of pad ss) d)) (rr_request (u8 service) (epath pad ss) bs).
Proof.
  intros L H. unfold rrq_ser, rrq_make, rr_request. cbn [rr_ext].
  apply (rr_carries m (mkRR 0 0 (mkMRQ (u8 service) (path_of pad ss) d))). cbn [carries_opt].
  apply mq_carries; assumption.
Qed.

(** ** Other messages *)
Lemma rg_carries m g : carries m (rg_ser g) (registration (rg_version g) (rg_options g)).
Proof. split; [cbn [s_length rg_ser]; unfold registration; lens; reflexivity|]. unfold registration. cbn [s_serialize rg_ser]. wseq. Qed.
Lemma sa_carries m a : carries m (sa_ser a) (seq_address (sa_connection a) (sa_sequence a)).
Proof. split; [cbn [s_length sa_ser]; unfold seq_address; lens; reflexivity|]. unfold seq_address. cbn [s_serialize sa_ser]. wseq. Qed.
Lemma octet_u8 n : octet (u8 n) = octet (n mod 256). Proof. reflexivity. Qed.
Lemma id_carries m i : len (id_sockaddr i) = 16 -> len (id_revision i) = 2 -> len (id_name i) < 256 -> id_state i < 256 ->
  carries m (id_ser i) (identity_bytes (id_version i) (id_sockaddr i) (id_vendor i) (id_device i) (id_product i)
    (id_revision i) (id_status i) (id_serial i) (id_name i) (id_state i)).
Proof.
  intros H1 H2 H3 H4. split.
  - cbn [s_length id_ser]. unfold identity_bytes, id_getLength. lens. f_equal. lia.
  - cbn [s_serialize id_ser]. unfold id_serialize, identity_bytes.
    replace (u8 (len (id_name i))) with (len (id_name i)) by (symmetry; apply N.mod_small; assumption).
    rewrite take_all by lia. rewrite <- !le_1 by assumption. wseq.
Qed.
Lemma fo_carries m f ss : fo_path f = path_of false ss -> len ss < 256 ->
  fo_tick_size f < 256 -> fo_ticks f < 256 -> fo_multiplier f < 256 -> fo_conn_type f < 256 ->
  carries m (fo_ser f) (forward_open (fo_tick_size f) (fo_ticks f) (fo_o2t_id f) (fo_t2o_id f) (fo_conn_sn f)
    (fo_vendor f) (fo_orig_sn f) (fo_multiplier f) (fo_o2t_rpi f) (fo_o2t_params f) (fo_t2o_rpi f) (fo_t2o_params f)
    (fo_conn_type f) (epath false ss)).
Proof.
  intros P L H1 H2 H3 H4. split.
  - cbn [s_length fo_ser]. unfold forward_open, fo_getLength. rewrite P, path_length. lens. f_equal. lia.
  - cbn [s_serialize fo_ser]. unfold fo_serialize, forward_open. rewrite P.
    change [octet (fo_tick_size f); octet (fo_ticks f)] with ([octet (fo_tick_size f)] ++ [octet (fo_ticks f)]).
    change [octet (fo_multiplier f); x00; x00; x00] with ([octet (fo_multiplier f)] ++ le 1 0 ++ le 1 0 ++ le 1 0).
    rewrite <- !le_1 by assumption. repeat rewrite <- app_assoc.
    repeat (apply writes_seq; [apply writes_uint|]). apply path_serialize_writes. assumption.
Qed.
Lemma fc_carries m f ss : fc_path f = path_of false ss -> len ss < 256 ->
  fc_tick_size f < 256 -> fc_ticks f < 256 ->
  carries m (fc_ser f) (forward_close (fc_tick_size f) (fc_ticks f) (fc_conn_sn f) (fc_vendor f) (fc_orig_sn f) ss).
Proof.
  intros P L H1 H2. split.
  - cbn [s_length fc_ser]. unfold forward_close, fc_getLength. rewrite P, path_length, !len_app, !len_epath. lens. cbv iota. f_equal. change (len (@nil byte)) with 0. lia.
  - cbn [s_serialize fc_ser]. unfold fc_serialize, forward_close. rewrite P.
    change [octet (fc_tick_size f); octet (fc_ticks f)] with ([octet (fc_tick_size f)] ++ [octet (fc_ticks f)]).
    rewrite <- !le_1 by assumption. repeat rewrite <- app_assoc.
    repeat (apply writes_seq; [apply writes_uint|]). apply path_writes; [reflexivity|assumption].
Qed.
Lemma sq_carries m num s bs : carries m s bs -> carries m (sq_ser num s) (le 2 num ++ bs).
Proof.
  intros [H1 H2]. split.
  - cbn [s_length sq_ser]. rewrite H1. lens. reflexivity.
  - cbn [s_serialize sq_ser]. apply writes_seq; [apply writes_uint|assumption].
Qed.
