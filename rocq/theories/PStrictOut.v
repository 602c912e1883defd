(** Proofs for C133. *)
From Verif Require Export Spec Vocab36 PEnc.

Lemma sf_bytes bs : same_or_fails (w_bytes bs) (w_bytes_x bs).
Proof.
  split; intros m out room.
  - unfold w_bytes_x, w_raising. cbn [w_bytes]. destruct (len bs <=? room); do 4 eexists; split; reflexivity.
  - eexists. reflexivity.
Qed.
Lemma sf_uint k v : same_or_fails (w_uint k v) (w_uint_x k v).
Proof. apply sf_bytes. Qed.
Lemma sf_view v : same_or_fails (w_view v) (w_view_x v).
Proof.
  split; intros m out room.
  - unfold w_view_x, w_raising. cbn [w_view]. destruct (load_view m v); [|do 4 eexists; split; reflexivity ..].
    cbn [w_bytes]. destruct (len a <=? room); do 4 eexists; split; reflexivity.
  - cbn [w_view]. destruct (load_view m v); eexists; reflexivity.
Qed.
Lemma sf_ret : same_or_fails wret wret.
Proof. split; intros m out room; [do 4 eexists; split; reflexivity|eexists; reflexivity]. Qed.
Lemma sf_seq x X y Y : same_or_fails x X -> same_or_fails y Y -> same_or_fails (x ;; y) (X ;; Y).
Proof.
  intros [H1 H2] [K1 K2]. split; intros m out room; unfold wseq.
  - destruct (H1 m out room) as (o & out' & room' & f & E1 & E2). rewrite E1, E2. destruct f.
    + destruct o as [[]| | |]; cbn [ios_failure]; [|do 4 eexists; split; reflexivity ..].
      destruct (K2 m out' room') as (o & E). rewrite E. do 4 eexists. split; reflexivity.
    + destruct o as [[]| | |]; [|do 4 eexists; split; reflexivity ..].
      destruct (K1 m out' room') as (o & out2 & room2 & f & E3 & E4). rewrite E3, E4. do 4 eexists. split; reflexivity.
  - destruct (H2 m out room) as (o & E). rewrite E. destruct o as [[]| | |]; [|eexists; reflexivity ..]. apply K2.
Qed.
Lemma sf_with {A} (x : outcome A) f F : (forall a, x = Ret a -> same_or_fails (f a) (F a)) -> same_or_fails (w_with x f) (w_with x F).
Proof.
  intros H. destruct x; [apply (H a eq_refl)|..]; (split; intros m out room; [do 4 eexists; split; reflexivity|eexists; reflexivity]).
Qed.
Lemma sf_opt put p : part_safe put p -> same_or_fails (w_opt p) (w_opt_x put p).
Proof. destruct p; cbn [part_safe w_opt w_opt_x]; [auto|intros _; apply sf_ret]. Qed.
Ltac sf := repeat first [apply sf_uint | apply sf_bytes | apply sf_view | apply sf_ret | apply sf_seq].

Lemma sf_hdr h : same_or_fails (hdr_serialize h) (hdr_serialize_x h).
Proof. unfold hdr_serialize, hdr_serialize_x. sf. Qed.
Lemma sf_ep put p : part_safe put (ep_payload p) -> same_or_fails (ep_serialize p) (ep_serialize_x put p).
Proof. intros H. unfold ep_serialize, ep_serialize_x. apply sf_seq; [apply sf_hdr|apply sf_opt; exact H]. Qed.
Lemma sf_it put i : part_safe put (it_data i) -> same_or_fails (it_serialize i) (it_serialize_x put i).
Proof.
  intros H. unfold it_serialize, it_serialize_x. apply sf_seq; [sf|]. apply sf_seq; [|apply sf_opt; exact H].
  apply sf_with. intros. sf.
Qed.
Lemma sf_items put p : Forall (fun i => part_safe put (it_data i)) p -> same_or_fails (cpf_ser_items p) (cpf_ser_items_x put p).
Proof. induction 1; cbn [cpf_ser_items cpf_ser_items_x]; [sf|]. apply sf_seq; [apply sf_it; assumption|assumption]. Qed.
Lemma sf_cpf put p : Forall (fun i => part_safe put (it_data i)) p -> same_or_fails (cpf_serialize p) (cpf_serialize_x put p).
Proof. intros H. unfold cpf_serialize, cpf_serialize_x. apply sf_seq; [sf|apply sf_items; exact H]. Qed.
Lemma sf_path_pad p b : same_or_fails (path_serialize_pad p b) (path_serialize_pad_x p b).
Proof. unfold path_serialize_pad, path_serialize_pad_x. destruct b; sf. Qed.
Lemma sf_path p : same_or_fails (path_serialize p) (path_serialize_x p).
Proof. exact (sf_path_pad p (p_pad p)). Qed.
Lemma sf_mq put q : part_safe put (mq_data q) -> same_or_fails (mq_serialize q) (mq_serialize_x put q).
Proof. intros H. unfold mq_serialize, mq_serialize_x. apply sf_seq; [sf|]. apply sf_seq; [apply sf_path|apply sf_opt; exact H]. Qed.
Lemma sf_rr {X} put d (r : rr_data X) : (forall p, d = Ret p -> part_safe put p) -> same_or_fails (rr_serialize d r) (rr_serialize_x put d r).
Proof.
  intros H. unfold rr_serialize, rr_serialize_x. apply sf_seq; [sf|]. apply sf_seq; [sf|]. apply sf_with. intros p E.
  apply sf_cpf. constructor; [exact I|]. constructor; [apply H; exact E|constructor].
Qed.
Lemma sf_rg g : same_or_fails (rg_serialize g) (rg_serialize_x g).
Proof. unfold rg_serialize, rg_serialize_x. sf. Qed.
Lemma sf_sa g : same_or_fails (sa_serialize g) (sa_serialize_x g).
Proof. unfold sa_serialize, sa_serialize_x. sf. Qed.
Lemma sf_id g : same_or_fails (id_serialize g) (id_serialize_x g).
Proof. unfold id_serialize, id_serialize_x. sf. Qed.
Lemma sf_fo g : same_or_fails (fo_serialize g) (fo_serialize_x g).
Proof. unfold fo_serialize, fo_serialize_x. do 16 (apply sf_seq; [apply sf_uint|]). apply sf_path. Qed.
Lemma sf_fc g : same_or_fails (fc_serialize g) (fc_serialize_x g).
Proof. unfold fc_serialize, fc_serialize_x. do 5 (apply sf_seq; [apply sf_uint|]). apply sf_path_pad. Qed.

Lemma out_same :
  (forall h, same_or_fails (s_serialize (hdr_ser h)) (hdr_serialize_x h)) /\
  (forall s, same_or_fails (s_serialize (ser_of_sbuf s)) (sb_serialize_x s)) /\
  (forall k v, same_or_fails (s_serialize (prim_ser k v)) (prim_serialize_x k v)) /\
  (forall g, same_or_fails (s_serialize (rg_ser g)) (rg_serialize_x g)) /\
  (forall a, same_or_fails (s_serialize (sa_ser a)) (sa_serialize_x a)) /\
  (forall i, same_or_fails (s_serialize (id_ser i)) (id_serialize_x i)) /\
  (forall f, same_or_fails (s_serialize (fo_ser f)) (fo_serialize_x f)) /\
  (forall f, same_or_fails (s_serialize (fc_ser f)) (fc_serialize_x f)) /\
  (forall p, same_or_fails (path_serialize p) (path_serialize_x p)) /\
  (forall put p, part_safe put (ep_payload p) -> same_or_fails (s_serialize (ep_ser p)) (ep_serialize_x put p)) /\
  (forall put i, part_safe put (it_data i) -> same_or_fails (s_serialize (it_ser i)) (it_serialize_x put i)) /\
  (forall put p, Forall (fun i => part_safe put (it_data i)) p -> same_or_fails (s_serialize (cpf_ser p)) (cpf_serialize_x put p)) /\
  (forall put q, part_safe put (mq_data q) -> same_or_fails (s_serialize (mq_ser q)) (mq_serialize_x put q)) /\
  (forall X put d (r : rr_data X), (forall p, d = Ret p -> part_safe put p) -> same_or_fails (s_serialize (rr_ser d r)) (rr_serialize_x put d r)) /\
  (forall n b B, same_or_fails (s_serialize b) B -> same_or_fails (s_serialize (sq_ser n b)) (sq_serialize_x n B)).
Proof.
  repeat match goal with |- _ /\ _ => split end.
  - exact sf_hdr.
  - intros s. apply sf_view.
  - intros k v. apply sf_uint.
  - exact sf_rg.
  - exact sf_sa.
  - exact sf_id.
  - exact sf_fo.
  - exact sf_fc.
  - exact sf_path.
  - exact sf_ep.
  - exact sf_it.
  - exact sf_cpf.
  - exact sf_mq.
  - intros X. exact sf_rr.
  - intros n b B H. cbn [s_serialize sq_ser]. apply sf_seq; [sf|exact H].
Qed.

Lemma sf_delivers x X m bs : same_or_fails x X -> writes m x bs -> delivers m X bs.
Proof.
  intros [H _] K out room. destruct (H m out room) as (o & out' & room' & f & E1 & E2). rewrite E2.
  rewrite (writes_lim m x bs K m out room (hext_refl m)) in E1. destruct (len bs <=? room); injection E1 as <- <- <- <-; reflexivity.
Qed.
Lemma sf_carries s X m bs : same_or_fails (s_serialize s) X -> carries m s bs -> delivers m X bs.
Proof. intros H [_ K]. exact (sf_delivers _ _ _ _ H K). Qed.
Lemma part_is put m p d : part put m p d -> part_safe put p /\ carries_opt m p d.
Proof. destruct p; cbn [part part_safe carries_opt]; [intros (H1 & H2 & H3); split; [exact H3|split; assumption]|intros ->; split; [exact I|reflexivity]]. Qed.

Lemma out_header m h : delivers m (hdr_serialize_x h)
  (header (h_command h) (h_length h) (h_session h) (h_status h) (h_ctx0 h) (h_ctx1 h) (h_options h)).
Proof. exact (sf_delivers _ _ _ _ (sf_hdr h) (hdr_writes m h)). Qed.
Lemma out_packet put m cmd handle p d : part put m p d ->
  exists q, ep_make cmd handle p = Ret q /\ delivers m (ep_serialize_x put q) (request cmd handle d).
Proof.
  intros H. destruct (part_is _ _ _ _ H) as [H1 H2]. destruct (ep_make_carries m cmd handle p d H2) as (q & E & F & _ & K).
  exists q. split; [exact E|]. apply (sf_carries (ep_ser q)); [|exact K]. apply sf_ep. rewrite F. exact H1.
Qed.
Lemma items_part put m its xs : Forall2 (item_part put m) its xs ->
  Forall (fun i => part_safe put (it_data i)) its /\ Forall2 (item_carries m) its xs.
Proof.
  induction 1 as [|i x its xs [E H] _ [IH1 IH2]]; [split; constructor|]. destruct (part_is _ _ _ _ H) as [H1 H2].
  split; constructor; try assumption. split; assumption.
Qed.
Lemma out_cpf put m its xs : Forall2 (item_part put m) its xs -> delivers m (cpf_serialize_x put its) (cpf xs).
Proof. intros H. destruct (items_part _ _ _ _ H) as [H1 H2]. exact (sf_delivers _ _ _ _ (sf_cpf put its H1) (cpf_writes m its xs H2)). Qed.
Lemma out_request put m sv pad ss p d : sv < 256 -> len ss < 256 -> part put m p d ->
  delivers m (mq_serialize_x put (mkMRQ sv (path_of pad ss) p)) (router_request sv (epath pad ss) d).
Proof.
  intros V L H. destruct (part_is _ _ _ _ H) as [H1 H2].
  replace sv with (u8 sv) by (apply N.mod_small; exact V).
  apply (sf_carries (mq_ser (mkMRQ (u8 sv) (path_of pad ss) p))); [|apply mq_carries; assumption]. apply sf_mq. exact H1.
Qed.
Lemma out_rr X put m (r : rr_data X) p d : part put m p d ->
  delivers m (rr_serialize_x put (Ret p) r) (rr (rr_iface r) (rr_timeout r) [(0, []); (0xB2, d)]).
Proof.
  intros H. destruct (part_is _ _ _ _ H) as [H1 H2].
  apply (sf_carries (rr_ser (Ret p) r)); [|apply rr_carries; assumption]. apply sf_rr. intros q E. injection E as <-. exact H1.
Qed.
Lemma out_open m f ss : fo_path f = path_of false ss -> len ss < 256 ->
  fo_tick_size f < 256 -> fo_ticks f < 256 -> fo_multiplier f < 256 -> fo_conn_type f < 256 ->
  delivers m (fo_serialize_x f) (forward_open (fo_tick_size f) (fo_ticks f) (fo_o2t_id f) (fo_t2o_id f) (fo_conn_sn f)
    (fo_vendor f) (fo_orig_sn f) (fo_multiplier f) (fo_o2t_rpi f) (fo_o2t_params f) (fo_t2o_rpi f) (fo_t2o_params f)
    (fo_conn_type f) (epath false ss)).
Proof. intros. apply (sf_carries (fo_ser f)); [apply sf_fo|apply fo_carries; assumption]. Qed.
Lemma out_close m f ss : fc_path f = path_of false ss -> len ss < 256 -> fc_tick_size f < 256 -> fc_ticks f < 256 ->
  delivers m (fc_serialize_x f) (forward_close (fc_tick_size f) (fc_ticks f) (fc_conn_sn f) (fc_vendor f) (fc_orig_sn f) ss).
Proof. intros. apply (sf_carries (fc_ser f)); [apply sf_fc|apply fc_carries; assumption]. Qed.
Lemma out_identity m i : len (id_sockaddr i) = 16 -> len (id_revision i) = 2 -> len (id_name i) < 256 -> id_state i < 256 ->
  delivers m (id_serialize_x i) (identity_bytes (id_version i) (id_sockaddr i) (id_vendor i) (id_device i) (id_product i)
    (id_revision i) (id_status i) (id_serial i) (id_name i) (id_state i)).
Proof. intros. apply (sf_carries (id_ser i)); [apply sf_id|apply id_carries; assumption]. Qed.
Lemma out_small m g a k v s bs :
  delivers m (rg_serialize_x g) (registration (rg_version g) (rg_options g)) /\
  delivers m (sa_serialize_x a) (seq_address (sa_connection a) (sa_sequence a)) /\
  delivers m (prim_serialize_x k v) (le k v) /\
  (reads m (sb_data s) bs -> delivers m (sb_serialize_x s) bs).
Proof.
  split; [|split; [|split]].
  - exact (sf_carries (rg_ser g) _ _ _ (sf_rg g) (rg_carries m g)).
  - exact (sf_carries (sa_ser a) _ _ _ (sf_sa a) (sa_carries m a)).
  - exact (sf_delivers _ _ _ _ (sf_uint k v) (writes_uint m k v)).
  - intros H. exact (sf_delivers _ _ _ _ (sf_view (sb_data s)) (writes_view m _ bs H)).
Qed.

(** ** A stream that failed earlier *)
Lemma ref_bytes bs : refuses (w_bytes_x bs). Proof. intros m out room. reflexivity. Qed.
Lemma ref_uint k v : refuses (w_uint_x k v). Proof. apply ref_bytes. Qed.
Lemma ref_seq X Y : refuses X -> refuses (X ;; Y).
Proof. intros H m out room. unfold wseq. rewrite H. reflexivity. Qed.
Lemma ref_view m v bs : reads m v bs -> forall out room, w_view_x v m (WLim out room true) = (ios_failure, m, WLim out room true).
Proof. intros H out room. unfold w_view_x, w_raising. rewrite (writes_failed m _ _ (writes_view m v bs H) m out room (hext_refl m)). reflexivity. Qed.
Lemma out_refused :
  (forall h, refuses (hdr_serialize_x h)) /\ (forall k v, refuses (prim_serialize_x k v)) /\ (forall g, refuses (rg_serialize_x g)) /\
  (forall a, refuses (sa_serialize_x a)) /\ (forall i, refuses (id_serialize_x i)) /\ (forall f, refuses (fo_serialize_x f)) /\
  (forall f, refuses (fc_serialize_x f)) /\ (forall p, refuses (path_serialize_x p)) /\ (forall put p, refuses (ep_serialize_x put p)) /\
  (forall put i, refuses (it_serialize_x put i)) /\ (forall put p, refuses (cpf_serialize_x put p)) /\ (forall put q, refuses (mq_serialize_x put q)) /\
  (forall X put d (r : rr_data X), refuses (rr_serialize_x put d r)) /\ (forall n B, refuses (sq_serialize_x n B)) /\
  (forall m s bs, reads m (sb_data s) bs -> forall out room, sb_serialize_x s m (WLim out room true) = (ios_failure, m, WLim out room true)).
Proof.
  repeat match goal with |- _ /\ _ => split end; intros; try (apply ref_seq; apply ref_uint).
  - apply ref_uint.
  - apply ref_seq. apply ref_seq. apply ref_uint.
  - eapply ref_view; eassumption.
Qed.

(** ** Several messages on one stream *)
Lemma delivers_seq m X Y a b : delivers m X a -> delivers m Y b -> delivers m (X ;; Y) (a ++ b).
Proof.
  intros H K out room. unfold wseq. rewrite H, len_app. destruct (N.leb_spec (len a) room).
  - rewrite K. destruct (N.leb_spec (len b) (room - len a)), (N.leb_spec (len a + len b) room); try lia; f_equal; f_equal.
    + rewrite <- app_assoc. reflexivity.
    + lia.
    + rewrite <- app_assoc. f_equal. symmetry. apply take_app_ge. assumption.
  - destruct (N.leb_spec (len a + len b) room); [lia|]. cbn [ios_failure]. f_equal. f_equal. f_equal.
    symmetry. apply take_app_l. lia.
Qed.
Lemma out_told m X bs : delivers m X bs -> forall out room o m' w, X m (WLim out room false) = (o, m', w) ->
  m' = m /\ ((o = Ret tt /\ len bs <= room /\ w = WLim (out ++ bs) (room - len bs) false) \/
   (o = ios_failure /\ room < len bs /\ exists rest, rest <> [] /\ bs = take room bs ++ rest /\ w = WLim (out ++ take room bs) 0 true)).
Proof.
  intros H out room o m' w E. rewrite H in E. destruct (N.leb_spec (len bs) room); injection E as <- <- <-; (split; [reflexivity|]).
  - left. auto.
  - right. split; [reflexivity|]. split; [assumption|]. exists (drop room bs). split; [|split; [symmetry; apply take_drop|reflexivity]].
    intros F. apply (f_equal len) in F. rewrite len_drop in F. change (len []) with 0 in F. lia.
Qed.
