(** Proofs for C134. *)
From Verif Require Export Vocab37 PStrict PStrictOut PLife PCodec.

Definition frames (ks : list packet) : list byte := flat_map packet_frame ks.

(** ** Writing *)
Lemma to_send_delivers put m q k : to_send put m q k -> delivers m (ep_serialize_x put q) (packet_frame k).
Proof.
  destruct q as [h p]. intros [E H]. cbn [ep_header ep_payload] in *. subst h. destruct (part_is _ _ _ _ H) as [H1 H2].
  apply (sf_carries (ep_ser (mkEP (packet_header k) p))); [apply sf_ep; exact H1|].
  exact (ep_carries m (packet_header k) p (k_data k) H2).
Qed.
Definition cut_after (ks : list packet) (room : N) (n : nat) (tail : list byte) : Prop :=
  exists a k b j, ks = a ++ k :: b /\ List.length a = n /\ tail = take j (packet_frame k) /\ j < len (packet_frame k) /\ take room (frames ks) = frames a ++ tail.
Lemma frames_cons k ks : frames (k :: ks) = packet_frame k ++ frames ks. Proof. reflexivity. Qed.
Lemma frames_app a b : frames (a ++ b) = frames a ++ frames b. Proof. apply flat_map_app. Qed.
Lemma write_run put m qs ks : Forall2 (to_send put m) qs ks -> forall out room,
  (len (frames ks) <= room /\ exists r', write_all (map (ep_serialize_x put) qs) m (WLim out room false) = (List.length ks, Ret tt, m, WLim (out ++ frames ks) r' false)) \/
  (exists n tail, cut_after ks room n tail /\
     write_all (map (ep_serialize_x put) qs) m (WLim out room false) = (n, ios_failure, m, WLim (out ++ take room (frames ks)) 0 true)).
Proof.
  induction 1 as [|q k qs ks H _ IH]; intros out room.
  - left. split; [apply N.le_0_l|]. cbn [map write_all]. eexists. unfold frames. cbn [flat_map List.length]. rewrite app_nil_r. reflexivity.
  - cbn [map write_all]. rewrite (to_send_delivers _ _ _ _ H out room), frames_cons.
    destruct (N.leb_spec (len (packet_frame k)) room) as [L|L].
    + destruct (IH (out ++ packet_frame k) (room - len (packet_frame k))) as [(L2 & r' & E)|(n & tail & (a & k2 & b & j & E1 & E2 & E3 & E4 & E5) & E)]; rewrite E.
      * left. split; [rewrite len_app; lia|]. exists r'. rewrite <- app_assoc. reflexivity.
      * right. exists (S n), tail. rewrite take_app_ge by exact L. split; [|rewrite <- app_assoc; reflexivity].
        exists (k :: a), k2, b, j. rewrite E1. split; [reflexivity|]. split; [cbn [List.length]; rewrite E2; reflexivity|]. split; [exact E3|]. split; [exact E4|].
        rewrite frames_cons, take_app_ge by exact L. rewrite <- E1, E5, frames_cons, app_assoc. reflexivity.
    + right. cbn [ios_failure]. exists 0%nat, (take room (packet_frame k)). rewrite take_app_l by lia. split; [|reflexivity].
      exists [], k, ks, room. split; [reflexivity|]. split; [reflexivity|]. split; [reflexivity|]. split; [exact L|].
      rewrite frames_cons, take_app_l by lia. reflexivity.
Qed.

(** ** Reading *)
Lemma own_holds h x : holds (h ++ PStream.live (blk x)) (own (List.length h) x) x.
Proof.
  unfold own, blk. destruct (N.eqb_spec (len x) 0) as [Z|Z].
  - cbn [holds]. destruct x; [reflexivity|]. rewrite len_cons in Z. lia.
  - apply str_sb_holds; [reflexivity|]. intros ->. apply Z. reflexivity.
Qed.
Lemma read_packet h d p k rest x : packet_fits k -> drop p d = packet_frame k ++ rest ->
  exists q, ep_deserialize_x h (RStr d p false) x = (Ret tt, h ++ PStream.live (blk (k_data k)), RStr d (p + len (packet_frame k)) false, q) /\
    received (h ++ PStream.live (blk (k_data k))) q k.
Proof.
  intros W D. pose proof (ep_stream_at h d p x _ _ _ _ _ _ _ rest W D) as E. destruct tied_ep as [T _].
  destruct (T h d p x) as [(o & m' & p' & t' & G & G' & _)|(o & m' & p' & t' & m2 & p2 & t2 & G & G')]; rewrite E in G.
  - exists (mkEP (packet_header k) (own (List.length h) (k_data k))). split; [rewrite G'; symmetry; exact G|]. split; [reflexivity|]. apply own_holds.
  - assert (RStr d (p + len (packet_frame k)) false = RStr d p' true) as Q by congruence. discriminate Q.
Qed.
Lemma received_grow h h' q k : hext h h' -> received h q k -> received h' q k.
Proof. intros E [H1 H2]. split; [exact H1|]. exact (PDec.holds_hext _ _ _ _ E H2). Qed.
Lemma read_run d ks : Forall packet_fits ks -> forall h p k j c, packet_fits k -> j < len (packet_frame k) -> p <= len d ->
  drop p d = frames ks ++ take j (packet_frame k) -> (List.length ks < c)%nat ->
  exists rs h' p', read_all ep_deserialize_x c h (RStr d p false) = (rs, ios_failure, h', RStr d p' true) /\ hext h h' /\ Forall2 (received h') rs ks.
Proof.
  induction 1 as [|k1 ks W _ IH]; intros h p k j c Wk J P D C; (destruct c as [|c]; [exfalso; cbn [List.length] in C; lia|]); cbn [read_all].
  - destruct (cut_frame h d p (ep_make0 0 0) j _ _ _ _ _ _ _ Wk P J D) as (m2 & p2 & t2 & E). rewrite E. cbn [ios_failure].
    do 3 eexists. split; [reflexivity|]. split; [|constructor]. destruct (packet_left _ _ _ _ _ _ _ E) as (z & -> & _). apply hext_app.
  - rewrite frames_cons, <- app_assoc in D. destruct (read_packet h d p k1 _ (ep_make0 0 0) W D) as (q & E & R). rewrite E.
    assert (P2 : p + len (packet_frame k1) <= len d).
    { pose proof (len_drop p d) as L. rewrite D, len_app in L. lia. }
    assert (D2 : drop (p + len (packet_frame k1)) d = frames ks ++ take j (packet_frame k)) by (apply (drop_next _ _ _ _ _ D); reflexivity).
    cbn [List.length] in C. destruct (IH (h ++ PStream.live (blk (k_data k1))) _ k j c Wk J P2 D2 ltac:(lia)) as (rs & h' & p' & E2 & X & F).
    rewrite E2. do 3 eexists. split; [reflexivity|]. split; [exact (hext_trans _ _ _ (hext_app _ _) X)|].
    constructor; [|exact F]. exact (received_grow _ _ _ _ X R).
Qed.

(** ** Both ends *)
Definition no_packet : packet := mkPacket 0 0 0 0 0 0 [].
Lemma no_fits : packet_fits no_packet. Proof. unfold packet_fits, frame_fits, fits. cbn. repeat split. Qed.
Lemma pipe put m qs ks room n o m' w : Forall2 (to_send put m) qs ks -> Forall packet_fits ks ->
  write_all (map (ep_serialize_x put) qs) m (WLim [] room false) = (n, o, m', w) ->
  (n <= List.length ks)%nat /\ (o = Ret tt /\ n = List.length ks \/ o = ios_failure /\ (n < List.length ks)%nat) /\
  exists out room' f, w = WLim out room' f /\
    forall h c, (n < c)%nat -> exists rs h' p, read_all ep_deserialize_x c h (RStr out 0 false) = (rs, ios_failure, h', RStr out p true) /\
      hext h h' /\ Forall2 (received h') rs (firstn n ks).
Proof.
  intros H W E. destruct (write_run put m qs ks H [] room) as [(L & r' & F)|(n2 & tail & (a & k & b & j & E1 & E2 & E3 & E4 & E5) & F)]; rewrite F in E; injection E as <- <- <- <-.
  - split; [lia|]. split; [left; auto|]. do 3 eexists. split; [reflexivity|]. intros h c C. cbn [app].
    destruct (read_run (frames ks) ks W h 0 no_packet 0 c no_fits ltac:(reflexivity) ltac:(lia)) as (rs & h' & p' & R & X & G).
    + rewrite take_0, app_nil_r. reflexivity.
    + exact C.
    + exists rs, h', p'. split; [exact R|]. split; [exact X|]. rewrite firstn_all. exact G.
  - assert (Ln : (n2 < List.length ks)%nat) by (rewrite E1, app_length, E2; cbn [List.length]; lia).
    split; [lia|]. split; [right; auto|]. do 3 eexists. split; [reflexivity|]. intros h c C. cbn [app]. rewrite E5, E3.
    rewrite E1 in W. apply Forall_app in W. destruct W as [Wa Wk]. pose proof (Forall_inv Wk) as Wk1.
    destruct (read_run (frames a ++ take j (packet_frame k)) a Wa h 0 k j c Wk1 E4 ltac:(lia) eq_refl ltac:(lia)) as (rs & h' & p' & R & X & G).
    exists rs, h', p'. split; [exact R|]. split; [exact X|]. rewrite E1, <- E2, firstn_app, PeanoNat.Nat.sub_diag, firstn_all, firstn_O, app_nil_r. exact G.
Qed.

(** Without exceptions. *)
Lemma pipe_quiet m p k room h x : carries_opt m p (k_data k) -> packet_fits k -> 24 <= room -> room < 24 + len (k_data k) ->
  exists out, ep_serialize (mkEP (packet_header k) p) m (WLim [] room false) = (Ret tt, m, WLim out 0 true) /\
  exists h' r q, ep_deserialize h (RStr out 0 false) x = (Ret tt, h', r, q) /\ ep_header q = packet_header k /\
    holds h' (ep_payload q) (take (room - 24) (k_data k) ++ zeros (24 + len (k_data k) - room)).
Proof.
  intros H W L1 L2. destruct (ep_carries m (packet_header k) p (k_data k) H) as [_ K].
  pose proof (writes_lim _ _ _ K m [] room (hext_refl m)) as E. cbn [s_serialize ep_ser] in E.
  rewrite len_app, len_header in E. destruct (N.leb_spec (24 + len (k_data k)) room) as [L|_]; [lia|].
  eexists. split; [exact E|]. cbn [app packet_header h_command h_length h_session h_status h_ctx0 h_ctx1 h_options].
  rewrite take_app_ge by (rewrite len_header; exact L1). rewrite len_header.
  destruct W as (F1 & F2 & F3 & F4 & F5 & F6 & F7). assert (Fn : fits 2 (len (k_data k))) by (apply fits2; assumption).
  pose proof (len_take (room - 24) (k_data k)) as Lt.
  destruct (ep_stream_short h _ 0 x _ (len (k_data k)) _ _ _ _ _ (take (room - 24) (k_data k)) F1 Fn F2 F3 F4 F5 F6 eq_refl ltac:(lia)) as (m' & r' & pl & E2 & Q).
  do 3 eexists. split; [exact E2|]. split; [reflexivity|]. cbn [ep_payload].
  replace (len (k_data k) - len (take (room - 24) (k_data k))) with (24 + len (k_data k) - room) in Q by lia. exact Q.
Qed.
