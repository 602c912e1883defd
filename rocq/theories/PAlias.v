(** * Where received data lives *)
From Coq Require Import Arith.PeanoNat.
From Verif Require Export Vocab8 PObjects PLen.

Lemma window_at b off n o k bs m : reads m (mkV b off n) bs -> o + k <= len bs ->
  window (mkV b off n) o k = if k =? 0 then None else Some (ser_of_sbuf (raw_at b (off + o) k)).
Proof.
  intros R L. apply reads_len in R. cbn [v_len] in R. unfold window. destruct (k =? 0) eqn:Z; [reflexivity|]. unfold sb_of_view, raw_at, view_take, view_drop. cbn [v_blk v_off v_len].
  replace (N.min n o) with o by lia. replace (N.min (n - o) k) with k by lia. reflexivity.
Qed.

Lemma command_where w req bs p w' : rbuf_ok w -> carries (w_mem w) (ep_ser req) bs -> sendCommand req w = (Ret p, w') ->
  exists got ses pl, reply_of (w_ctl w) bs = Reply got /\ reply_frame got (h_command (ep_header req)) ses pl /\ matches (se_id (w_se w)) ses /\
    ep_payload p = (if len pl =? 0 then None else Some (ser_of_sbuf (raw_at (w_rbuf w) 24 (len pl)))) /\ reads (w_mem w') (mkV (w_rbuf w) 24 (len pl)) pl.
Proof.
  intros B C. unfold sendCommand, sc_send. unfold mbind at 1. rewrite (send_ctl _ _ _ C).
  unfold reply_of, talk. set (w1 := mkW _ _ _ _ _ _). destruct (rbuf_grow w w1 B eq_refl eq_refl) as [B1 K1].
  destruct (sent (w_ctl w) bs) as [n|] eqn:S; cbn [fst snd]; [|discriminate].
  unfold sc_recv. destruct (so_recv (w_ctl w)) as [|[got|] rs] eqn:Rv; cbn [fst snd].
  - unfold mbind. rewrite (recv_block Ctl w1) by reflexivity. discriminate.
  - destruct (recv_data Ctl w1 got rs B1) as (m' & E & R & (bl & Hb & Lb) & Ko & Ln); [reflexivity|].
    unfold mbind at 1. rewrite E. set (g := take 4096 got) in *. set (w2 := emit _ _). unfold sc_parse, mbind at 1, m_decode.
    change (recv_view w2) with (recv_view w1). change (w_mem w2) with m'. change (recv_view w1) with (mkV (w_rbuf w) 0 4096) in *.
    unfold view_take in *. cbn [v_blk v_off v_len] in *. assert (Lg : len g <= 4096) by (unfold g; rewrite len_take; lia). replace (N.min 4096 (len g)) with (len g) in * by lia.
    destruct (ep_decode m' _ 0 (ep_make0 0 0) _ R) as [[_ (r & p' & ->)]|(cmd & ses & st & c0 & c1 & o & pl & rest & F & Eg & ->)]; [discriminate|].
    cbn [fst]. unfold mbind at 1. 
    assert (Lp : 24 + len pl <= len g). { rewrite Eg, len_app, frame_len. lia. }
    rewrite (window_at _ _ _ 24 (len pl) g m' R Lp). set (q := mkEP _ _). change (0 + 24) with 24 in *.
    intros X. destruct (N.eq_dec cmd (h_command (ep_header req))) as [Ec|Ec].
    2:{ destruct (check_bad q (h_command (ep_header req)) (set_mem m' w2)) as [s Ck]; [intros Y; contradiction|]. rewrite Ck in X. discriminate. }
    destruct (matches_dec (se_id (w_se w)) ses) as [Hm|Hm].
    2:{ destruct (check_bad q (h_command (ep_header req)) (set_mem m' w2)) as [s Ck]; [intros _; exact Hm|]. rewrite Ck in X. discriminate. }
    rewrite (check_ok q) in X; [|exact Ec|exact Hm]. unfold mret in X. injection X as <- <-.
    exists g, ses, pl. split; [reflexivity|]. subst cmd. split; [do 5 eexists; split; [exact F|exact Eg]|]. split; [exact Hm|]. split; [reflexivity|].
    pose proof (reads_take _ _ _ (len pl) (reads_drop _ _ _ 24 R)) as Q. unfold view_take, view_drop in Q. cbn [v_blk v_off v_len set_mem w_mem] in *.
    replace (N.min (len g) 24) with 24 in Q by lia. replace (N.min (len g - 24) (len pl)) with (len pl) in Q by lia. change (0 + 24) with 24 in Q.
    assert (Ed : take (len pl) (drop 24 g) = pl). { rewrite Eg. unfold frame. rewrite <- !app_assoc. rewrite !app_assoc. rewrite <- (app_assoc _ pl rest). rewrite (drop_app 24) by reflexivity. apply take_app_len. }
    rewrite Ed in Q. exact Q.
  - unfold mbind. rewrite (recv_fail Ctl w1 _ rs) by reflexivity. discriminate.
Qed.

Lemma ret_inj {A} (a c : A) (u v : world) : (Ret a, u) = (Ret c, v) -> c = a /\ v = u.
Proof. intros [= -> ->]. split; reflexivity. Qed.

Lemma rr_where w service pad ss d bs resp w' : rbuf_ok w -> len ss < 256 -> carries_opt (w_mem w) d bs ->
  let req := request 0x6F (se_id (w_se w)) (rr_request (u8 service) (epath pad ss) bs) in
  sendRRDataCommand service (path_of pad ss) d w = (Ret resp, w') ->
  exists got sv a q, reply_of (w_ctl w) req = Reply got /\ answers (se_id (w_se w)) got sv 0 a q /\
    ms_data (rr_ext resp) = (if len q =? 0 then None else Some (ser_of_sbuf (raw_at (w_rbuf w) (44 + len a) (len q)))) /\
    reads (w_mem w') (mkV (w_rbuf w) (44 + len a) (len q)) q.
Proof.
  intros B L C req. unfold sendRRDataCommand. erewrite mbind_ret; [|reflexivity].
  destruct (ep_make_carries (w_mem w) EIP_CMD_SEND_RR_DATA (se_id (w_se w)) (Some (rrq_ser (rrq_make service (path_of pad ss) d)))
    (rr_request (u8 service) (epath pad ss) bs)) as (q & Eq & _ & Hh & Cq); [apply rrq_carries; assumption|].
  erewrite mbind_ret; [|unfold mout; rewrite Eq; reflexivity].
  unfold mbind at 1. unfold mcatch at 1. destruct (sendCommand q w) as [o w1] eqn:E.
  destruct o as [p|e s|ub|]; [|destruct (is_a e LengthError); [|destruct (is_a e LogicError)]; discriminate|discriminate..].
  destruct (command_where w q req p w1 B Cq E) as (got & ses & pl & Rp & F & Hm & Ep & Rd). rewrite Hh in F. cbn [h_command] in F. change (u16 EIP_CMD_SEND_RR_DATA) with 0x6F in F.
  unfold mbind at 1, mcatch at 1, m_copy_local. rewrite Ep.
  destruct (N.eqb_spec (len pl) 0) as [Z|Z]; [discriminate|].
  unfold m_copy, copy_serializable. cbn [s_length s_sbuf ser_of_sbuf]. change (c_sb rrs_cls) with (@None ((rr_data mr_response -> sbuf) * (sbuf -> rr_data mr_response -> rr_data mr_response))). cbn iota.
  unfold run_reader. cbn [raw_at sb_data v_len]. change (deserialize_len rrs_cls (len pl)) with rrs_deserialize.
  destruct (rrs_decode (w_mem w1) _ 0 rrs_make pl Rd) as [[_ (r & t' & ->)]|(i & to & xs & rest & Ok & Epl & [[_ (s & r & t' & ->)]|[[_ (r & t' & ->)]|(dd & U & Zd & [[_ (r & t' & ->)]|(sv & rs & st & a & qq & Oq & Ed & ->)])]])].
  - discriminate.
  - discriminate.
  - discriminate.
  - discriminate.
  - cbn [rr_ext ms_status ms_data]. destruct (N.eqb_spec st 0) as [Zs|Zs]; cbn [negb]; [|discriminate]. subst st.
    unfold mret. intros X. apply ret_inj in X as [-> ->]. cbn [rr_ext ms_data]. rewrite set_mem_same.
    destruct U as [tl ->].
    assert (Lq : 20 + len a + len qq <= len pl).
    { rewrite Epl, Ed. unfold rr, cpf, items, item, router_reply. cbn [flat_map fst snd]. repeat (rewrite ?len_app, ?len_le, ?len_cons). lia. }
    exists got, sv, a, qq. split; [exact Rp|]. split.
    { exists ses, pl. split; [exact F|]. split; [exact Hm|]. exists rs, dd. split; [|split; assumption]. exists i, to. do 2 eexists. split; [exact Ok|]. split; [exact Epl|]. eexists. reflexivity. }
    rewrite (window_at _ _ _ (20 + len a) (len qq) pl _ Rd Lq). replace (24 + (20 + len a)) with (44 + len a) by lia. split; [reflexivity|].
    pose proof (reads_take _ _ _ (len qq) (reads_drop _ _ _ (20 + len a) Rd)) as Q. unfold view_take, view_drop in Q. cbn [v_blk v_off v_len] in Q.
    replace (N.min (len pl) (20 + len a)) with (20 + len a) in Q by lia. replace (N.min (len pl - (20 + len a)) (len qq)) with (len qq) in Q by lia.
    replace (24 + (20 + len a)) with (44 + len a) in Q by lia.
    assert (Et : take (len qq) (drop (20 + len a) pl) = qq).
    { set (n := len ((0, []) :: (0xB2, dd) :: tl)) in *.
      assert (Es : pl = (le 4 i ++ le 2 to ++ le 2 n ++ le 2 0 ++ le 2 0 ++ le 2 0xB2 ++ le 2 (len dd) ++
          [octet sv; octet rs; octet 0; octet (len a / 2)] ++ a) ++ qq ++ flat_map item tl ++ rest).
      { rewrite Epl. unfold rr, cpf, items. cbn [flat_map]. unfold item at 1 2. cbn [fst snd]. fold n. rewrite Ed at 2. unfold router_reply. rewrite <- !app_assoc. reflexivity. }
      rewrite Es. rewrite (drop_app (20 + len a)); [apply take_app_len|]. repeat (rewrite ?len_app, ?len_le). change (len [octet sv; octet rs; octet 0; octet (len a / 2)]) with 4. lia. }
    rewrite Et in Q. exact Q.
Qed.

Lemma get_raw w x y z t r w' : rbuf_ok w -> x < 256 -> y < 256 -> z < 256 -> getSingleAttributeSerializable sbuf_cls x y z t w = (Ret tt, r, w') ->
  exists got sv a d, reply_of (w_ctl w) (get_request (se_id (w_se w)) x y z) = Reply got /\ answers (se_id (w_se w)) got sv 0 a d /\ d <> [] /\
    r = raw_at (w_rbuf w) (44 + len a) (len d) /\ reads (w_mem w') (sb_data r) d /\ w_rbuf w' = w_rbuf w /\ rbuf_ok w'.
Proof.
  intros B Hx Hy Hz. unfold getSingleAttributeSerializable. rewrite path_cia_of by assumption.
  destruct (rr_command w 0x0E false [SClass x; SInstance y; SAttribute z] None [] B eq_refl eq_refl) as (o & w1 & E & (_ & X & _ & B1 & _) & _).
  rewrite E. destruct o as [resp|e s|ub|]; try discriminate.
  destruct (rr_where w 0x0E false [SClass x; SInstance y; SAttribute z] None [] resp w1 B eq_refl eq_refl E) as (got & sv & a & q & Rp & A & D & R).
  unfold m_copy. rewrite D. destruct (N.eqb_spec (len q) 0) as [Z|Z]; [discriminate|].
  unfold copy_serializable. cbn [s_length s_sbuf ser_of_sbuf]. change (c_sb sbuf_cls) with (Some ((fun s : sbuf => s), (fun (s _ : sbuf) => s))). cbn iota.
  intros H. assert (H1 := f_equal (fun p => snd (fst p)) H). assert (H2 := f_equal snd H). cbn beta in H1, H2. cbn [fst snd] in H1, H2. clear H. subst r w'. rewrite set_mem_same.
  exists got, sv, a, q. split; [exact Rp|]. split; [exact A|]. split; [intros ->; apply Z; reflexivity|]. split; [reflexivity|]. split; [exact R|]. split; [exact X|exact B1].
Qed.

(** A second read whose data lies over the first replaces it. *)
Lemma over m b (a a' d d' : list byte) : reads m (sb_data (raw_at b (44 + len a') (len d'))) d' -> len a' <= len a -> len a + len d <= len a' + len d' ->
  reads m (sb_data (raw_at b (44 + len a) (len d))) (take (len d) (drop (len a - len a') d')).
Proof.
  intros R L1 L2. cbn [raw_at sb_data] in *.
  pose proof (reads_take _ _ _ (len d) (reads_drop _ _ _ (len a - len a') R)) as Q. unfold view_take, view_drop in Q. cbn [v_blk v_off v_len] in Q.
  replace (N.min (len d') (len a - len a')) with (len a - len a') in Q by lia. replace (N.min (len d' - (len a - len a')) (len d)) with (len d) in Q by lia.
  replace (44 + len a' + (len a - len a')) with (44 + len a) in Q by lia. exact Q.
Qed.
Lemma raw_overwritten w x y z t r w1 x' y' z' t' r' w2 : rbuf_ok w -> x < 256 -> y < 256 -> z < 256 -> x' < 256 -> y' < 256 -> z' < 256 ->
  getSingleAttributeSerializable sbuf_cls x y z t w = (Ret tt, r, w1) ->
  getSingleAttributeSerializable sbuf_cls x' y' z' t' w1 = (Ret tt, r', w2) ->
  exists got sv a d got' sv' a' d',
    reply_of (w_ctl w) (get_request (se_id (w_se w)) x y z) = Reply got /\ answers (se_id (w_se w)) got sv 0 a d /\ reads (w_mem w1) (sb_data r) d /\
    reply_of (w_ctl w1) (get_request (se_id (w_se w1)) x' y' z') = Reply got' /\ answers (se_id (w_se w1)) got' sv' 0 a' d' /\ reads (w_mem w2) (sb_data r') d' /\
    (len a' <= len a -> len a + len d <= len a' + len d' -> reads (w_mem w2) (sb_data r) (take (len d) (drop (len a - len a') d'))).
Proof.
  intros B Hx Hy Hz Hx' Hy' Hz' E E'.
  destruct (get_raw _ _ _ _ _ _ _ B Hx Hy Hz E) as (got & sv & a & d & Rp & A & _ & Er & R & Eb & B1).
  destruct (get_raw _ _ _ _ _ _ _ B1 Hx' Hy' Hz' E') as (got' & sv' & a' & d' & Rp' & A' & _ & Er' & R' & _).
  exists got, sv, a, d, got', sv', a', d'. do 6 (split; [assumption|]). intros L1 L2. rewrite Eb in Er'. rewrite Er. rewrite Er' in R'.
  exact (over _ _ _ _ _ _ R' L1 L2).
Qed.
(** Without a receive it stays. *)
Lemma raw_stays u w x y z t r w1 ops rs w2 es d : session_ok w1 -> user_memory u w1 -> Forall (op_ok u) ops ->
  getSingleAttributeSerializable sbuf_cls x y z t w = (Ret tt, r, w1) -> reads (w_mem w1) (sb_data r) d ->
  exec ops w1 = (rs, w2) -> gained w1 w2 es -> ~ received es -> reads (w_mem w2) (sb_data r) d.
Proof. intros S U K _ R E G Q. eapply reads_hext; [|exact R]. eapply quiet_history; eassumption. Qed.

(** ** Received packets *)
Lemma windows_inside b off0 n m bs : reads m (mkV b off0 n) bs -> forall xs off, off + len (items xs) <= len bs ->
  Forall (fun i => it_data i = None \/ exists o k, 0 < k /\ it_data i = Some (ser_of_sbuf (raw_at b o k))) (item_windows (mkV b off0 n) off xs).
Proof.
  intros R. induction xs as [|x xs IH]; intros off L; cbn [item_windows]; [constructor|].
  rewrite items_cons, len_app, len_item in L. constructor.
  - cbn [it_data]. rewrite (window_at b off0 n (off + 4) (len (snd x)) bs m R) by lia. destruct (N.eqb_spec (len (snd x)) 0); [left; reflexivity|]. right. do 2 eexists. split; [|reflexivity]. lia.
  - apply IH. lia.
Qed.

Lemma receive_where w p w' : rbuf_ok w -> receiveIOPacket w = (Ret p, w') ->
  w_rbuf w' = w_rbuf w /\ rbuf_ok w' /\
  Forall (fun i => it_data i = None \/ exists o k, 0 < k /\ it_data i = Some (ser_of_sbuf (raw_at (w_rbuf w) o k))) p.
Proof.
  intros B. unfold receiveIOPacket, mbind. destruct (so_recv (w_io w)) as [|[d|] rs] eqn:Rv.
  - rewrite (recv_block Io w) by exact Rv. discriminate.
  - destruct (recv_data Io w d rs B Rv) as (m' & E & R & (bl & Hb & Lb) & Ko & Ln). rewrite E. unfold m_decode.
    set (w2 := emit _ _). change (w_mem w2) with m'.
    destruct (cpf_decode m' _ 0 [] _ R) as [[_ (r & q & D)]|(xs & rest & O & Eb & D)]; rewrite D; [discriminate|]. cbn [fst]. unfold mret. intros X. apply ret_inj in X as [-> ->].
    split; [reflexivity|]. split; [exists bl; split; [exact Hb|exact Lb]|].
    unfold view_take, recv_view in *. cbn [v_blk v_off v_len] in *. eapply windows_inside; [exact R|]. rewrite Eb, len_app, len_cpf. lia.
  - rewrite (recv_fail Io w _ rs Rv). discriminate.
Qed.

(** ** Destroyed objects *)
Lemma destroyed u s i ob : pool_ok u s -> alive s i ob -> forall s', destroy_session i s = (Ret tt, s') ->
  nth_error (st_mem s') (ob_buf ob) = Some None.
Proof.
  intros P A s'. destruct P as (_ & _ & Q & _). destruct (Q i ob A) as (l & L & S & _).
  unfold destroy_session, on. unfold alive in A. rewrite A. unfold linked in L. rewrite L.
  destruct (session_destroy (world_of s ob l)) as [o w] eqn:E. destruct (destroy_good _ _ _ S E) as (-> & ((bl & Hb & _) & _) & _ & Eb & _).
  cbn [back st_objs st_mem]. rewrite nth_set, Nat.eqb_refl, A. cbn [ob_buf].
  rewrite Eb in *. cbn [world_of w_rbuf] in *. destruct (free_live _ _ _ Hb) as (m' & -> & N). intros [= <-]. cbn [st_mem]. exact N.
Qed.
Lemma gone m b o k : nth_error m b = Some None -> 0 < k -> load_view m (sb_data (raw_at b o k)) = Undef UseAfterFree.
Proof.
  intros N K. cbn [raw_at sb_data]. unfold load_view, load. cbn [v_blk v_off v_len]. destruct (N.eqb_spec k 0); [lia|]. rewrite N. reflexivity.
Qed.
Lemma gone_ser m b o k : nth_error m b = Some None -> 0 < k -> dangling m (ser_of_sbuf (raw_at b o k)).
Proof. intros N K out. cbn [ser_of_sbuf s_serialize]. unfold sb_serialize, w_view. rewrite (gone m b o k N K). reflexivity. Qed.
Lemma on_alive {A} i (x : M A) s ob l o s' : alive s i ob -> linked s ob l -> on i x s = (o, s') ->
  exists w', x (world_of s ob l) = (o, w') /\ s' = back s i ob w'.
Proof.
  unfold alive, linked. intros H L. unfold on. rewrite H, L. destruct (x (world_of s ob l)) as [o1 w1]. intros [= <- <-]. eauto.
Qed.
Lemma alive_back s i ob w : alive s i ob -> alive (back s i ob w) i (mkObj (w_se w) (w_rbuf w) (ob_link ob)).
Proof. unfold alive. intros H. cbn [back st_objs]. rewrite nth_set, Nat.eqb_refl, H. reflexivity. Qed.
Lemma packet_dangles u s i ob p s1 s2 it : pool_ok u s -> alive s i ob -> on i receiveIOPacket s = (Ret p, s1) -> destroy_session i s1 = (Ret tt, s2) ->
  In it p -> match it_data it with Some d => dangling (st_mem s2) d | None => True end.
Proof.
  intros P A E D I. pose proof P as P0. destruct P0 as (_ & _ & Q & _). destruct (Q i ob A) as (l & L & S & U).
  destruct (on_alive _ _ _ _ _ _ _ A L E) as (w' & Ew & Es).
  destruct (receive_where _ _ _ (proj1 S) Ew) as (Eb & B' & F). rewrite Forall_forall in F. specialize (F it I).
  destruct F as [->|(o & k & K & ->)]; [exact Logic.I|].
  assert (P1 : pool_ok u s1).
  { assert (X : act_step (ACall i OpReceiveIO) s = (Ret tt, s1)). { unfold act_step. cbn [step]. unfold on in *. unfold alive in A. rewrite A in *. unfold linked in L. rewrite L in *. unfold mbind, mret. destruct (receiveIOPacket (world_of s ob l)) as [o1 w1]. injection Ew as -> ->. rewrite Es. reflexivity. }
    exact (proj1 (call_act u i OpReceiveIO s (Ret tt) s1 P Logic.I X)). }
  apply gone_ser; [|exact K]. rewrite <- Eb. rewrite Es in D, P1. exact (destroyed u _ i _ P1 (alive_back s i ob w' A) s2 D).
Qed.
Lemma buffer_dangles u s i ob x y z r s1 s2 : pool_ok u s -> alive s i ob -> x < 256 -> y < 256 -> z < 256 ->
  on i (get_buffer x y z) s = (Ret r, s1) -> destroy_session i s1 = (Ret tt, s2) -> dangling (st_mem s2) (ser_of_sbuf r).
Proof.
  intros P A Hx Hy Hz E D. pose proof P as P0. destruct P0 as (_ & _ & Q & _). destruct (Q i ob A) as (l & L & S & U).
  destruct (on_alive _ _ _ _ _ _ _ A L E) as (w' & Ew & Es).
  unfold get_buffer in Ew. destruct (getSingleAttributeSerializable sbuf_cls x y z sb_empty (world_of s ob l)) as [[o1 r1] w1] eqn:G.
  destruct o1 as [[]|e z'|ub|]; try discriminate. injection Ew as -> ->.
  destruct (get_raw _ _ _ _ _ _ _ (proj1 S) Hx Hy Hz G) as (got & sv & a & d & _ & _ & Nz & -> & _ & Eb & _).
  assert (P1 : pool_ok u s1).
  { assert (X : act_step (ACall i (OpGet sbuf sbuf_cls sb_empty x y z)) s = (Ret tt, s1)). { unfold act_step. cbn [step]. unfold on in *. unfold alive in A. rewrite A in *. unfold linked in L. rewrite L in *. rewrite G. rewrite Es. reflexivity. }
    refine (proj1 (call_act u i (OpGet sbuf sbuf_cls sb_empty x y z) s (Ret tt) s1 P _ X)). cbn. repeat split; try assumption. left. discriminate. }
  apply gone_ser; [|destruct d; [contradiction|rewrite len_cons; lia]]. rewrite <- Eb. rewrite Es in D, P1. exact (destroyed u _ i _ P1 (alive_back s i ob w' A) s2 D).
Qed.
(** While other objects are used the data stays. *)
Lemma data_kept u acts s rs s' j ob l v bs : pool_ok u s -> Forall (act_ok u (List.length (st_links s))) acts -> Forall (leaves_alone j (ob_link ob)) acts ->
  alive s j ob -> own_sockets s j ob -> linked s ob l -> run_acts acts s = (rs, s') -> v_blk v = ob_buf ob -> reads (st_mem s) v bs -> reads (st_mem s') v bs.
Proof.
  intros P K F A O L E V R. pose proof P as (_ & _ & Q & _). destruct (Q j ob A) as (l' & _ & ((bl & Hb & _) & _) & _). cbn [world_of w_mem w_rbuf] in Hb.
  destruct (sessions_apart u acts s rs s' j ob l bl P K F A O L Hb E) as (_ & _ & B'). unfold buffer in B'.
  unfold reads, load_view, load in *. rewrite V in *. rewrite B'. rewrite Hb in R. exact R.
Qed.

(** ** Copies *)
Lemma copied u s i ob : pool_ok u s -> alive s i ob -> exists bs s', copy_session i s = (Ret (List.length (st_objs s)), s') /\ buffer s ob bs /\
  alive s' (List.length (st_objs s)) (mkObj (ob_se ob) (List.length (st_mem s)) (ob_link ob)) /\ buffer s' (mkObj (ob_se ob) (List.length (st_mem s)) (ob_link ob)) bs /\
  st_links s' = st_links s /\ (forall j b, alive s j b -> alive s' j b) /\ hext (st_mem s) (st_mem s') /\ pool_ok u s'.
Proof.
  intros P A. pose proof P as (_ & _ & Q & _). destruct (Q i ob A) as (l & L & ((bl & Hb & Lb) & _) & _). cbn [world_of w_mem w_rbuf] in Hb.
  destruct (copy_session i s) as [r s'] eqn:E. pose proof (proj1 (copy_act u i s r s' P E)) as P'.
  unfold copy_session in E. unfold alive in A. rewrite A in E. pose proof (load_all _ _ _ Hb) as E1. rewrite Lb in E1. rewrite E1 in E.
  cbn [alloc] in E. injection E as <- <-. exists bl. eexists. split; [reflexivity|]. split; [exact Hb|]. split; [unfold alive; cbn [st_objs]; apply nth_error_app_end|].
  split; [unfold buffer; cbn [st_mem ob_buf]; apply nth_error_app_end|]. split; [reflexivity|]. split; [intros j b; apply alive_app_old|]. split; [|exact P'].
  intros b x Hx. cbn [st_mem]. apply app_kept. exact Hx.
Qed.
Lemma copy_destroyed u s i ob l : pool_ok u s -> alive s i ob -> linked s ob l -> se_id (ob_se ob) <> 0 ->
  exists k s1 s2 l' n tail, copy_session i s = (Ret k, s1) /\ destroy_session k s1 = (Ret tt, s2) /\
    alive s2 i ob /\ linked s2 ob l' /\ l_net l' = l_net l ++ [ESend Ctl (unregister (se_id (ob_se ob))) n] ++ tail /\
    (n = None -> tail = []) /\ (n <> None -> tail = closing (l_ctl l) (l_io l)).
Proof.
  intros P A L Z. destruct (copied u s i ob P A) as (bs & s1 & E & B & A1 & B1 & Ls & Old & _ & P1).
  set (k := List.length (st_objs s)) in *. set (c := mkObj (ob_se ob) (List.length (st_mem s)) (ob_link ob)) in *.
  assert (L1 : linked s1 c l) by (unfold linked; rewrite Ls; exact L).
  pose proof (pool_world u s1 k c l P1 A1 L1) as [S1 _].
  destruct (session_destroy_spec (world_of s1 c l) (proj1 S1)) as (w' & Ew & Hn). cbn [world_of w_se c ob_se] in Hn. apply N.eqb_neq in Z. rewrite Z in Hn. destruct Hn as (n & tail & Hn & T1 & T2).
  destruct (destroy_good _ _ _ S1 Ew) as (_ & ((bl & Hb & _) & _) & _ & Eb & _).
  assert (D : exists s2, destroy_session k s1 = (Ret tt, s2) /\ st_links s2 = list_set (st_links s1) (ob_link c) (mkLink (w_ctl w') (w_io w') (w_net w')) /\
     st_objs s2 = list_set (list_set (st_objs s1) k (Some (mkObj (w_se w') (w_rbuf w') (ob_link c)))) k None).
  { unfold destroy_session, on. unfold alive in A1. rewrite A1. unfold linked in L1. rewrite L1, Ew. cbn [back st_objs]. rewrite nth_set, Nat.eqb_refl, A1. change (st_mem (back s1 k c w')) with (w_mem w'). cbn [ob_buf].
    destruct (free_live _ _ _ Hb) as (m' & -> & _). eexists. split; [reflexivity|]. split; reflexivity. }
  destruct D as (s2 & D & Dl & Do). exists k, s1, s2, (mkLink (w_ctl w') (w_io w') (w_net w')), n, tail.
  split; [exact E|]. split; [exact D|]. split.
  { unfold alive. rewrite Do, !nth_set. apply alive_lt in A as Hi. destruct (Nat.eqb_spec i k) as [->|_]; [unfold k in Hi; exfalso; revert Hi; apply Nat.lt_irrefl|]. apply Old. exact A. }
  split. { unfold linked. rewrite Dl. cbn [c ob_link]. rewrite nth_set, Nat.eqb_refl. unfold linked in L1. cbn [c ob_link] in L1. rewrite L1. reflexivity. }
  cbn [l_net]. cbn [world_of w_net w_ctl w_io] in Hn, T2. split; [exact Hn|]. split; assumption.
Qed.

(** ** Keys *)
Definition own_keys (v : N * N) (s : session) : Prop := originator s = v /\ Forall (fun c => (cn_vendor c, cn_orig_sn c) = v) (se_conns s).
Lemma own_keys_step u v o w r w' : session_ok w -> user_memory u w -> op_ok u o -> own_keys v (w_se w) -> step o w = (r, w') -> own_keys v (w_se w').
Proof.
  intros S U K [V F] E. pose proof (step_moved o w r w' E) as M. unfold moved in M. cbv zeta in M. destruct M as (Mv & Ms & M).
  split. { unfold originator in *. rewrite Mv, Ms. exact V. }
  destruct o as [h p q| |T c t x y z|x y z d|a b|n| |p]; try (rewrite M; exact F).
  - destruct M as [[_ [id ->]]|[_ ->]]; exact F.
  - destruct M as [[_ ->]|[_ ->]]; exact F.
  - clear M. cbn [step] in E. destruct K as (Ka & Kb). destruct (create_connection w a b (proj1 S) Ka Kb) as (res & w1 & Ec & _ & _ & O).
    unfold mbind in E. rewrite Ec in E. assert (w' = w1) by (destruct res; injection E; congruence). subst w1. unfold create_outcome in O.
    destruct (reply_of (w_ctl w) (open_request (w_se w) a b)) as [| | |got].
    1-3: destruct O as [_ ->]; exact F.
    destruct O as [(sv & ad & d & o2t & t2o & oapi & tapi & c & _ & _ & Rc & _ & ->)|[-> _]]; [|exact F].
    apply Forall_app. split; [exact F|]. constructor; [|constructor]. unfold records in Rc. destruct Rc as (R1 & R2 & _). rewrite R1, R2. exact V.
  - destruct M as [(_ & _ & ->)|[_ ->]]; [|exact F]. cbn [se_conns set_conns]. rewrite Forall_forall in *. intros c I. apply F. eapply list_remove_in. exact I.
Qed.

Lemma own_keys_exec u v ops : forall w rs w', session_ok w -> user_memory u w -> Forall (op_ok u) ops -> own_keys v (w_se w) -> exec ops w = (rs, w') -> own_keys v (w_se w').
Proof.
  induction ops as [|o ops IH]; intros w rs w' S U K O.
  - intros [= <- <-]. exact O.
  - rewrite exec_cons. inversion K; subst. destruct (step o w) as [r w1] eqn:E. pose proof (own_keys_step u v o w r w1 S U H1 O E) as O1.
    destruct (call_good u o w r w1 S U H1 E) as (S1 & Mk & Eb & Ln).
    assert (U1 : user_memory u w1) by (exact (user_kept u w w1 U Mk Eb)).
    destruct r as [a|c e|ub|]; try (intros [= <- <-]; exact O1); destruct (exec ops w1) as [rs2 w2] eqn:E2; intros [= <- <-]; exact (IH w1 rs2 w2 S1 U1 H2 O1 E2).
Qed.
Lemma keys_apart u w1 w2 ops1 ops2 rs1 rs2 w1' w2' : session_ok w1 -> user_memory u w1 -> Forall (op_ok u) ops1 -> session_ok w2 -> user_memory u w2 -> Forall (op_ok u) ops2 ->
  se_conns (w_se w1) = [] -> se_conns (w_se w2) = [] -> originator (w_se w1) <> originator (w_se w2) ->
  exec ops1 w1 = (rs1, w1') -> exec ops2 w2 = (rs2, w2') ->
  next_key (w_se w1') <> next_key (w_se w2') /\ forall k, In k (map conn_key (se_conns (w_se w1'))) -> ~ In k (map conn_key (se_conns (w_se w2'))).
Proof.
  intros S1 U1 K1 S2 U2 K2 C1 C2 N E1 E2.
  destruct (own_keys_exec u _ ops1 w1 rs1 w1' S1 U1 K1 (conj eq_refl (eq_ind_r (fun cs => Forall _ cs) (Forall_nil _) C1)) E1) as [V1 F1].
  destruct (own_keys_exec u _ ops2 w2 rs2 w2' S2 U2 K2 (conj eq_refl (eq_ind_r (fun cs => Forall _ cs) (Forall_nil _) C2)) E2) as [V2 F2].
  split. { unfold next_key. intros [= _ X Y]. apply N. rewrite <- V1, <- V2. unfold originator. congruence. }
  intros k I1 I2. rewrite in_map_iff in *. destruct I1 as (c1 & <- & I1), I2 as (c2 & X & I2). rewrite Forall_forall in *.
  apply N. rewrite <- (F1 c1 I1), <- (F2 c2 I2). unfold conn_key in X. congruence.
Qed.
Lemma same_second gen time vendor serial k1 k2 s s' i1 i2 s1 s2 : new_session gen time vendor serial k1 s = (i1, s1) -> new_session gen time vendor serial k2 s' = (i2, s2) ->
  exists ob1 ob2, alive s1 i1 ob1 /\ alive s2 i2 ob2 /\ next_key (ob_se ob1) = next_key (ob_se ob2) /\ se_next_id (ob_se ob1) = se_next_id (ob_se ob2).
Proof.
  unfold new_session. destruct (gen time) as [c n]. unfold session_make. cbn [alloc w_se w_mem w_rbuf].
  intros E1 E2. assert (I1 := f_equal fst E1). assert (J1 := f_equal snd E1). assert (I2 := f_equal fst E2). assert (J2 := f_equal snd E2). cbn [fst snd] in *. subst.
  do 2 eexists. split; [unfold alive; cbn [st_objs]; apply nth_error_app_end|]. split; [unfold alive; cbn [st_objs]; apply nth_error_app_end|]. split; reflexivity.
Qed.
(** The target refuses the second. *)
Lemma second_refused s o t got tg t' : tg_session tg = se_id s -> key_fits (next_key s) -> In (next_key s) (tg_conns tg) -> serves tg (open_request s o t) got t' ->
  t' = tg /\ exists sv st a d, st <> 0 /\ answers (tg_session tg) got sv st a d.
Proof.
  intros Id K I S. destruct (serves_open_inv s o t got tg t' Id K S) as [(_ & N & _)|H]; [contradiction|exact H].
Qed.
