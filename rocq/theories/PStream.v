(** Decoding from a stream that holds the whole message. *)
From Verif Require Export PBuf.

Lemma str_sb {T} n m d p (t : T) a rest : drop p d = a ++ rest -> len a = n -> 0 < n ->
  dlocal sb_empty (sb_deserialize_len n) m (RStr d p false) t
  = (Ret (mkSB (mkV (List.length m) 0 n) (Some (List.length m))), m ++ [Some a], RStr d (p + n) false, t).
Proof.
  intros H L Z. unfold dlocal, sb_deserialize_len, rd_is_buffer, dbind, dget, sb_empty, null_view.
  cbn [sb_data v_len]. destruct (N.eqb_spec n 0); [lia|].
  unfold sb_delete, dbind, dget, dret, d_alloc, alloc, dmod, rd_into. cbn [sb_alloc sb_data v_len v_blk v_off].
  rewrite (str_read_ok d p n a rest H L). unfold store. rewrite L.
  destruct (N.eqb_spec n 0); [lia|]. rewrite nth_error_app_end, len_zeros.
  destruct (N.leb_spec (0 + n) n); [|lia]. rewrite list_set_app_end.
  change (take 0 (zeros n)) with (@nil byte). cbn [List.app]. rewrite drop_all by (rewrite len_zeros; lia).
  rewrite app_nil_r. reflexivity.
Qed.
Lemma str_sb_holds m a n o : len a = n -> a <> [] ->
  holds (m ++ [Some a]) (Some (ser_of_sbuf (mkSB (mkV (List.length m) 0 n) o))) a.
Proof.
  intros <- Z. split; [assumption|]. eexists. split; [reflexivity|]. cbn [sb_data].
  apply reads_block, nth_error_app_end.
Qed.
Lemma nonempty_len {A} (l : list A) : 0 < len l -> l <> [].
Proof. intros H ->. change (len (@nil A)) with 0 in H. lia. Qed.

Ltac snext H := match type of H with
  | drop ?p ?d = ?a ++ ?r => apply (drop_next p (len a)) in H; [rewrite ?len_le in H|reflexivity] end.
Ltac suint H := erewrite dbind_ret; [|eapply str_uint; [exact H|assumption]]; snext H.

Lemma hdr_stream m d p h cmd n ses st c0 c1 o rest :
  fits 2 cmd -> fits 2 n -> fits 4 ses -> fits 4 st -> fits 4 c0 -> fits 4 c1 -> fits 4 o ->
  drop p d = header cmd n ses st c0 c1 o ++ rest ->
  hdr_deserialize m (RStr d p false) h = (Ret tt, m, RStr d (p + 24) false, mkHdr cmd n ses st c0 c1 o).
Proof.
  intros F1 F2 F3 F4 F5 F6 F7 H. unfold header in H. repeat rewrite <- app_assoc in H.
  unfold hdr_deserialize. suint H. suint H. suint H. suint H.
  rewrite (app_assoc (le 4 c0)) in H.
  erewrite dbind_ret; [|eapply str_raw; [exact H|rewrite len_app, !len_le; reflexivity|rewrite len_app, !len_host_bytes; reflexivity]].
  apply (drop_next _ 8) in H; [|rewrite len_app, !len_le; reflexivity].
  erewrite str_uint; [|exact H|assumption].
  rewrite (take_app 4), (drop_app 4) by apply len_le. rewrite !host_value_num, !num_le by assumption.
  replace (p + 24) with (p + N.of_nat 2 + N.of_nat 2 + N.of_nat 4 + N.of_nat 4 + 8 + N.of_nat 4) by lia. reflexivity.
Qed.

Lemma ep_stream m d p p0 cmd ses st c0 c1 o payload rest : frame_fits cmd ses st c0 c1 o payload ->
  drop p d = frame cmd ses st c0 c1 o payload ++ rest ->
  exists m' pl, ep_deserialize m (RStr d p false) p0
    = (Ret tt, m', RStr d (p + len (frame cmd ses st c0 c1 o payload)) false,
       mkEP (mkHdr cmd (len payload) ses st c0 c1 o) pl) /\
    holds m' pl payload /\ hext m m'.
Proof.
  intros (F1 & F2 & F3 & F4 & F5 & F6 & F7) H. rewrite frame_len. unfold frame in H. rewrite <- app_assoc in H.
  assert (Fn : fits 2 (len payload)) by (apply fits2; assumption).
  unfold ep_deserialize. erewrite dbind_ret.
  2:{ unfold dzoom. rewrite (hdr_stream m d p (ep_header p0) _ _ _ _ _ _ _ _ F1 Fn F2 F3 F4 F5 F6 H). reflexivity. }
  apply (drop_next _ 24) in H; [|apply len_header].
  erewrite dbind_ret; [|reflexivity]. cbn [ep_header ep_set_header h_length].
  destruct (N.ltb_spec 0 (len payload)) as [Z|Z].
  - erewrite dbind_ret; [|eapply str_sb; [exact H|reflexivity|assumption]].
    unfold dmod. eexists; eexists. split; [|split; [apply str_sb_holds; [reflexivity|apply nonempty_len; assumption]|apply hext_app]].
    cbn [ep_set_payload_field ep_set_header ep_header].
    replace (p + 24 + len payload) with (p + (24 + len payload)) by lia. reflexivity.
  - assert (payload = []) by (apply len_0; lia). subst payload. change (len (@nil byte)) with 0.
    exists m, None. split; [|split; [reflexivity|apply hext_refl]]. replace (p + (24 + 0)) with (p + 24) by lia. reflexivity.
Qed.

Lemma it_stream m d p i0 ty x rest : item_ok (ty, x) -> drop p d = item (ty, x) ++ rest ->
  exists m' pl, it_deserialize m (RStr d p false) i0
    = (Ret tt, m', RStr d (p + len (item (ty, x))) false, mkItem ty pl) /\ holds m' pl x /\ hext m m'.
Proof.
  intros [O1 O2] H. cbn [fst snd] in *. rewrite len_item. cbn [snd]. unfold item in H. cbn [fst snd] in H.
  repeat rewrite <- app_assoc in H. apply fits2 in O1. pose proof (fits2 _ O2) as O3. unfold it_deserialize.
  suint H. erewrite dbind_ret; [|eapply str_local; [exact H|assumption]]. snext H.
  unfold it_deserializeData. destruct (N.ltb_spec 0 (len x)) as [Z|Z].
  - erewrite dbind_ret; [|reflexivity]. erewrite dbind_ret; [|eapply str_sb; [exact H|reflexivity|assumption]].
    unfold dmod. eexists; eexists. split; [|split; [apply str_sb_holds; [reflexivity|apply nonempty_len; assumption]|apply hext_app]].
    cbn [it_set_data it_set_type it_type].
    replace (p + N.of_nat 2 + N.of_nat 2 + len x) with (p + (4 + len x)) by lia. reflexivity.
  - assert (x = []) by (apply len_0; lia). subst x. change (len (@nil byte)) with 0.
    exists m, None. split; [|split; [reflexivity|apply hext_refl]].
    replace (p + (4 + 0)) with (p + N.of_nat 2 + N.of_nat 2) by lia. reflexivity.
Qed.

Lemma item_is_hext m n i x : hext m n -> item_is m i x -> item_is n i x.
Proof. intros E [H K]. split; [assumption|eapply holds_hext; eauto]. Qed.
Lemma items_are_hext m n l xs : hext m n -> Forall2 (item_is m) l xs -> Forall2 (item_is n) l xs.
Proof. intros E. induction 1; constructor; [eapply item_is_hext; eauto|assumption]. Qed.

Lemma cpf_loop_stream xs : forall m d p its rest, Forall item_ok xs -> drop p d = items xs ++ rest ->
  exists m' l, cpf_loop (List.length xs) m (RStr d p false) its
    = (Ret tt, m', RStr d (p + len (items xs)) false, its ++ l) /\ Forall2 (item_is m') l xs /\ hext m m'.
Proof.
  induction xs as [|[ty x] xs IH]; intros m d p its rest F H; cbn [List.length cpf_loop].
  - exists m, []. change (len (items [])) with 0. rewrite N.add_0_r, app_nil_r.
    split; [reflexivity|]. split; [constructor|apply hext_refl].
  - rewrite items_cons, <- app_assoc in H.
    destruct (it_stream m d p it_null ty x _ (Forall_inv F) H) as (m1 & pl & E & Hp & X1).
    erewrite dbind_ret; [|unfold dlocal; rewrite E; reflexivity]. erewrite dbind_ret; [|reflexivity].
    snext H. destruct (IH m1 d _ (its ++ [mkItem ty pl]) rest (Forall_inv_tail F) H) as (m2 & l & E2 & W & X2).
    exists m2, (mkItem ty pl :: l). rewrite E2, items_cons, len_app, N.add_assoc, <- app_assoc. split; [reflexivity|].
    split; [|eapply hext_trans; eauto]. constructor; [|assumption]. split; [reflexivity|]. cbn [it_data snd]. eapply holds_hext; eauto.
Qed.
Lemma cpf_stream m d p p0 xs rest : cpf_ok xs -> drop p d = cpf xs ++ rest ->
  exists m' l, cpf_deserialize m (RStr d p false) p0 = (Ret tt, m', RStr d (p + len (cpf xs)) false, l) /\
    Forall2 (item_is m') l xs /\ hext m m'.
Proof.
  intros [F L] H. unfold cpf in H. rewrite <- app_assoc in H. unfold cpf_deserialize. erewrite dbind_ret; [|reflexivity].
  cbv beta. erewrite dbind_ret; [|eapply str_local; [exact H|apply fits2; assumption]]. snext H.
  replace (N.to_nat (len xs)) with (List.length xs) by (unfold len; lia).
  destruct (cpf_loop_stream xs m d _ [] rest F H) as (m' & l & E & W & X).
  exists m', l. rewrite E. split; [|split; assumption]. rewrite len_cpf. cbn [List.app].
  replace (p + (2 + len (items xs))) with (p + N.of_nat 2 + len (items xs)) by lia. reflexivity.
Qed.

(** Exactly what a stream-decoded item owns: a fresh block with its bytes. *)
Definition own (b : nat) (x : list byte) : option ser :=
  if len x =? 0 then None else Some (ser_of_sbuf (mkSB (mkV b 0 (len x)) (Some b))).
Definition blk (x : list byte) : list (list byte) := if len x =? 0 then [] else [x].
Fixpoint items_at (b : nat) (xs : list (N * list byte)) : cpf_packet :=
  match xs with [] => [] | (ty, x) :: xs' => mkItem ty (own b x) :: items_at (b + List.length (blk x)) xs' end.
Definition blks (xs : list (N * list byte)) : list (list byte) := flat_map (fun x => blk (snd x)) xs.
Definition live (l : list (list byte)) : heap := List.map Some l.
Definition dead (l : list (list byte)) : heap := List.map (fun _ => None) l.

Lemma it_stream_at m d p i0 ty x rest : item_ok (ty, x) -> drop p d = item (ty, x) ++ rest ->
  it_deserialize m (RStr d p false) i0
    = (Ret tt, m ++ live (blk x), RStr d (p + len (item (ty, x))) false, mkItem ty (own (List.length m) x)).
Proof.
  intros [O1 O2] H. cbn [fst snd] in *. rewrite len_item. cbn [snd]. unfold item in H. cbn [fst snd] in H.
  repeat rewrite <- app_assoc in H. apply fits2 in O1. pose proof (fits2 _ O2) as O3. unfold it_deserialize.
  suint H. erewrite dbind_ret; [|eapply str_local; [exact H|assumption]]. snext H.
  unfold it_deserializeData, own, blk. destruct (N.eqb_spec (len x) 0) as [Z|Z].
  - rewrite Z. change (0 <? 0) with false. cbv iota. cbn [live List.map]. rewrite app_nil_r.
    replace (p + (4 + 0)) with (p + N.of_nat 2 + N.of_nat 2) by lia. reflexivity.
  - destruct (N.ltb_spec 0 (len x)); [|lia].
    erewrite dbind_ret; [|reflexivity]. erewrite dbind_ret; [|eapply str_sb; [exact H|reflexivity|assumption]].
    unfold dmod. cbn [it_set_data it_set_type it_type live List.map].
    replace (p + N.of_nat 2 + N.of_nat 2 + len x) with (p + (4 + len x)) by lia. reflexivity.
Qed.
Lemma cpf_loop_stream_at xs : forall m d p its rest, Forall item_ok xs -> drop p d = items xs ++ rest ->
  cpf_loop (List.length xs) m (RStr d p false) its
    = (Ret tt, m ++ live (blks xs), RStr d (p + len (items xs)) false, its ++ items_at (List.length m) xs).
Proof.
  induction xs as [|[ty x] xs IH]; intros m d p its rest F H; cbn [List.length cpf_loop].
  - change (len (items [])) with 0. cbn [items_at blks flat_map live List.map]. rewrite N.add_0_r, !app_nil_r. reflexivity.
  - rewrite items_cons, <- app_assoc in H. pose proof (it_stream_at m d p it_null ty x _ (Forall_inv F) H) as E.
    erewrite dbind_ret; [|unfold dlocal; rewrite E; reflexivity]. erewrite dbind_ret; [|reflexivity]. clear E.
    snext H. rewrite (IH (m ++ live (blk x)) d _ _ rest (Forall_inv_tail F) H).
    rewrite items_cons, len_app, N.add_assoc, <- !app_assoc. cbn [items_at blks flat_map snd].
    unfold live. rewrite map_app, app_length, map_length. reflexivity.
Qed.
Lemma cpf_stream_at m d p p0 xs rest : cpf_ok xs -> drop p d = cpf xs ++ rest ->
  cpf_deserialize m (RStr d p false) p0
  = (Ret tt, m ++ live (blks xs), RStr d (p + len (cpf xs)) false, items_at (List.length m) xs).
Proof.
  intros [F L] H. unfold cpf in H. rewrite <- app_assoc in H. unfold cpf_deserialize. erewrite dbind_ret; [|reflexivity].
  cbv beta. erewrite dbind_ret; [|eapply str_local; [exact H|apply fits2; assumption]]. snext H.
  replace (N.to_nat (len xs)) with (List.length xs) by (unfold len; lia).
  rewrite (cpf_loop_stream_at xs m d _ [] rest F H), len_cpf. cbn [List.app].
  replace (p + (2 + len (items xs))) with (p + N.of_nat 2 + len (items xs)) by lia. reflexivity.
Qed.
Lemma items_at_is xs : forall m k, Forall2 (item_is (m ++ live (blks xs) ++ k)) (items_at (List.length m) xs) xs.
Proof.
  induction xs as [|[ty x] xs IH]; intros m k; cbn [items_at]; constructor.
  - split; [reflexivity|]. cbn [it_data snd]. unfold own, blks. cbn [flat_map snd]. unfold blk. destruct (N.eqb_spec (len x) 0) as [Z|Z].
    + apply len_0. assumption.
    + split; [apply nonempty_len; lia|]. eexists. split; [reflexivity|]. apply reads_block.
      cbn [live List.app List.map]. rewrite nth_error_app2, PeanoNat.Nat.sub_diag by lia. reflexivity.
  - specialize (IH (m ++ live (blk x)) k). unfold live in *. rewrite app_length, map_length in IH.
    cbn [blks flat_map snd]. rewrite map_app, <- !app_assoc in *. exact IH.
Qed.
Lemma list_set_mid {A} (l : list A) x k y : list_set (l ++ x :: k) (List.length l) y = l ++ y :: k.
Proof. induction l; cbn; congruence. Qed.
Lemma nth_error_mid {A} (l : list A) x k : nth_error (l ++ x :: k) (List.length l) = Some x.
Proof. induction l; cbn; auto. Qed.
(** The local packet goes: everything its items own is freed, and nothing else. *)
Lemma drop_items_at {T} xs : forall m k r (t : T),
  d_drop_items (items_at (List.length m) xs) (m ++ live (blks xs) ++ k) r t = (Ret tt, m ++ dead (blks xs) ++ k, r, t).
Proof.
  induction xs as [|[ty x] xs IH]; intros m k r t; cbn [items_at d_drop_items it_data]; [reflexivity|].
  cbn [blks flat_map snd]. unfold own, blk. destruct (N.eqb_spec (len x) 0) as [Z|Z].
  - cbn [d_drop List.app List.length]. erewrite dbind_ret; [|reflexivity]. rewrite PeanoNat.Nat.add_0_r. apply IH.
  - cbn [d_drop s_length s_sbuf ser_of_sbuf sb_alloc List.app List.length live dead List.map].
    erewrite dbind_ret; [|unfold d_free, free; rewrite nth_error_mid, list_set_mid; reflexivity].
    specialize (IH (m ++ [None]) k r t). rewrite app_length in IH. cbn [List.length] in IH.
    rewrite <- !app_assoc in IH. exact IH.
Qed.

(** ** RR data: what happens once the items are known *)
Definition rr_tail {X} (setData : cpf_item -> D (rr_data X) unit) (pkt : cpf_packet) : D (rr_data X) unit :=
  (if cpf_getItemCount pkt <? 2 then dthrow LogicError "Not enough items in RR Data"
   else
     i0 <- d_at pkt 0 ;;;
     (if negb (it_type i0 =? EIP_ITEM_NULL) then dthrow LogicError "Address other than null in RR Data"
      else
        n0 <- d_outcome (it_getDataLength i0) ;;;
        (if negb (n0 =? 0) then dthrow LogicError "Data length greater than zero in null address type"
         else
           i1 <- d_at pkt 1 ;;;
           (if negb (it_type i1 =? EIP_ITEM_UNCONNECTED_MESSAGE)
            then dthrow LogicError "Unexpected data type in RR Data"
            else setData i1)))).
Lemma rr_deserialize_eq {X} (setData : cpf_item -> D (rr_data X) unit) :
  rr_deserialize setData
  = (rd_uint 4 rr_iface rr_set_iface ;;; rd_uint 2 rr_timeout rr_set_timeout ;;;
     pkt <- dlocal [] cpf_deserialize ;;; dfinally (rr_tail setData pkt) (d_drop_items pkt)).
Proof. reflexivity. Qed.
Definition rr_verdict (xs : list (N * list byte)) : option string :=
  match xs with
  | (ty0, d0) :: (ty1, d1) :: _ =>
      if negb (ty0 =? 0) then Some "Address other than null in RR Data"%string
      else if negb (len d0 =? 0) then Some "Data length greater than zero in null address type"%string
      else if negb (ty1 =? 0xB2) then Some "Unexpected data type in RR Data"%string
      else None
  | _ => Some "Not enough items in RR Data"%string
  end.
Lemma rr_tail_spec {X} (setData : cpf_item -> D (rr_data X) unit) m pkt xs :
  Forall2 (item_is m) pkt xs -> cpf_ok xs ->
  (exists s, rr_verdict xs = Some s /\ (forall d, ~ unconnected xs d) /\
     forall r t, rr_tail setData pkt m r t = (Throw LogicError s, m, r, t)) \/
  (exists d p, rr_verdict xs = None /\ unconnected xs d /\ len d < 65536 /\ holds m p d /\ nth_error pkt 1 = Some (mkItem 0xB2 p) /\
     forall r t, rr_tail setData pkt m r t = setData (mkItem 0xB2 p) m r t).
Proof.
  intros W [F L]. unfold rr_tail, cpf_getItemCount.
  assert (LL : len pkt = len xs) by (unfold len; rewrite (Forall2_len _ _ _ W); reflexivity).
  rewrite LL, u16_small by assumption.
  destruct xs as [|[ty0 d0] [|[ty1 d1] xs]].
  - left. eexists. split; [reflexivity|]. split; [intros d [tl E]; discriminate|]. reflexivity.
  - left. eexists. split; [reflexivity|]. split; [intros d [tl E]; discriminate|]. reflexivity.
  - destruct pkt as [|[ty0' p0] pkt]; [inversion W|]. apply Forall2_head in W. destruct W as [W0 W].
    destruct pkt as [|[ty1' p1] pkt]; [inversion W|]. apply Forall2_head in W. destruct W as [W1 W].
    destruct W0 as [E0 H0], W1 as [E1 H1]. cbn [it_type it_data fst snd] in *. subst ty0' ty1'.
    destruct (Forall_inv F) as [_ F0]. destruct (Forall_inv (Forall_inv_tail F)) as [_ F1]. cbn [snd] in F0, F1.
    rewrite !len_cons. destruct (N.ltb_spec (1 + (1 + len xs)) 2); [lia|].
    unfold rr_verdict, d_at. cbn [nth_error].
    destruct (N.eqb_spec ty0 0) as [->|Z]; cbn [negb].
    2:{ left. eexists. split; [reflexivity|]. split; [intros d [tl E]; congruence|]. intros r t.
        erewrite dbind_ret; [|reflexivity]. cbn [it_type]. unfold EIP_ITEM_NULL. apply N.eqb_neq in Z. rewrite Z. reflexivity. }
    assert (G0 : it_getDataLength (mkItem 0 p0) = Ret (len d0)).
    { unfold it_getDataLength. cbn [it_data]. rewrite (carries_opt_len m p0 d0) by (apply holds_carries; assumption).
      cbn [obind]. rewrite u16_small by lia. reflexivity. }
    destruct (N.eqb_spec (len d0) 0) as [Z|Z]; cbn [negb].
    2:{ left. eexists. split; [reflexivity|]. split; [intros d [tl E]; injection E as -> _ _; cbn in Z; congruence|]. intros r t.
        erewrite dbind_ret; [|reflexivity]. cbn [it_type]. change (0 =? EIP_ITEM_NULL) with true. cbn [negb].
        erewrite dbind_ret; [|unfold d_outcome; rewrite G0; reflexivity]. apply N.eqb_neq in Z. rewrite Z. reflexivity. }
    rewrite Z in G0.
    destruct (N.eqb_spec ty1 0xB2) as [->|Z1]; cbn [negb].
    2:{ left. eexists. split; [reflexivity|]. split; [intros d [tl E]; congruence|]. intros r t.
        erewrite dbind_ret; [|reflexivity]. cbn [it_type]. change (0 =? EIP_ITEM_NULL) with true. cbn [negb].
        erewrite dbind_ret; [|unfold d_outcome; rewrite G0; reflexivity]. change (0 =? 0) with true. cbn [negb].
        erewrite dbind_ret; [|reflexivity]. cbn [it_type]. unfold EIP_ITEM_UNCONNECTED_MESSAGE.
        apply N.eqb_neq in Z1. change 178 with 0xB2. rewrite Z1. reflexivity. }
    right. exists d1, p1. split; [reflexivity|]. split; [exists xs; rewrite (len_0 _ Z); reflexivity|].
    split; [lia|]. split; [assumption|]. split; [reflexivity|]. intros r t.
    erewrite dbind_ret; [|reflexivity]. cbn [it_type]. change (0 =? EIP_ITEM_NULL) with true. cbn [negb].
    erewrite dbind_ret; [|unfold d_outcome; rewrite G0; reflexivity]. change (0 =? 0) with true. cbn [negb].
    erewrite dbind_ret; [|reflexivity]. reflexivity.
Qed.

Lemma window_whole m v bs off n : reads m v bs -> off + n = len bs -> holds m (window v off n) (drop off bs).
Proof.
  intros R L. replace (drop off bs) with (take n (drop off bs)) by (apply take_all; rewrite len_drop; lia).
  apply window_holds; [assumption|lia].
Qed.
Lemma router_reply_split sv rs st a q : reply_ok sv rs st a ->
  len (router_reply sv rs st a q) = 4 + len a + len q /\
  take (len a) (drop 4 (router_reply sv rs st a q)) = a /\ drop (4 + len a) (router_reply sv rs st a q) = q.
Proof.
  intros O. unfold router_reply. split; [lens; lia|]. split.
  - rewrite (drop_app 4) by reflexivity. apply take_app_len.
  - rewrite <- drop_drop, (drop_app 4) by reflexivity. apply drop_app_len.
Qed.
(** Decoding the router reply held by an item: same outcome and values wherever the bytes live. *)
Lemma reply_decode m p d r t : holds m p d -> len d < 65536 ->
  (d = [] /\ dzoom rr_ext rr_set_ext (d_copy ms_cls p) m r t = (Undef NullDeref, m, r, t)) \/
  (d <> [] /\ (forall sv rs st a q, reply_ok sv rs st a -> d <> router_reply sv rs st a q) /\
   exists t', dzoom rr_ext rr_set_ext (d_copy ms_cls p) m r t = (Throw LengthError SHORT, m, r, t')) \/
  (exists sv rs st a q t', reply_ok sv rs st a /\ d = router_reply sv rs st a q /\
   dzoom rr_ext rr_set_ext (d_copy ms_cls p) m r t = (Ret tt, m, r, t') /\
   rr_reply_is m t' (rr_iface t) (rr_timeout t) sv st a q /\
   forall sb, p = Some (ser_of_sbuf sb) -> ms_additional (rr_ext t') = window (sb_data sb) 4 (len a) /\
     ms_data (rr_ext t') = window (sb_data sb) (4 + len a) (len q)).
Proof.
  intros H L. destruct d as [|b d].
  - left. split; [reflexivity|]. destruct p as [s|]; [destruct H as [H _]; congruence|]. destruct t. reflexivity.
  - right. assert (Z : b :: d <> []) by discriminate. remember (b :: d) as dd. clear Heqdd b d. rename dd into d.
    destruct p as [s|]; cbn [holds] in H; [|congruence]. destruct H as (_ & sb0 & -> & Rw). remember (sb_data sb0) as w eqn:Ew.
    unfold dzoom, d_copy, copy_serializable. cbn [s_length s_sbuf ser_of_sbuf c_sb ms_cls]. rewrite <- Ew, <- (reads_len _ _ _ Rw). unfold run_reader, deserialize_len. cbn [c_deslen ms_cls].
    destruct (ms_decode m w (rr_ext t) d Rw) as [[Nx (r' & t' & Em)]|(sv & rs & st & a & q & Oq & Ed & Em)]; [lia|..].
    + left. split; [assumption|]. split; [assumption|]. rewrite Em. eexists. reflexivity.
    + right. exists sv, rs, st, a, q. eexists. split; [assumption|]. split; [assumption|]. rewrite Em.
      split; [reflexivity|]. destruct (router_reply_split sv rs st a q Oq) as (L1 & L2 & L3). rewrite Ed in *.
      unfold rr_reply_is. cbn [rr_set_ext rr_iface rr_timeout rr_ext ms_service ms_status ms_additional ms_data].
      split; [repeat (split; [reflexivity|]); split|].
      * rewrite <- L2 at 2. apply window_holds; [assumption|lia].
      * rewrite <- L3 at 2. apply window_whole; [assumption|lia].
      * intros sb E. assert (sb0 = sb) by (unfold ser_of_sbuf in E; congruence). subst w sb. split; reflexivity.
Qed.

(** What is in a block that was freed dangles. *)
Lemma window_dangling m b n off x : off + len x <= n -> nth_error m b = Some None ->
  freed_data m (window (mkV b 0 n) off (len x)) x.
Proof.
  intros L H. unfold window. destruct (N.eqb_spec (len x) 0) as [Z|Z]; cbn [freed_data]; [apply len_0; assumption|].
  split; [apply nonempty_len; lia|]. eexists. split; [reflexivity|].
  unfold load_view, load. cbn [sb_data sb_of_view view_take view_drop v_len v_blk v_off].
  split; [lia|]. destruct (N.eqb_spec (N.min (n - N.min n off) (len x)) 0); [lia|]. rewrite H. reflexivity.
Qed.
Lemma rrs_agree m v c t d p bs rest rest' i to xs : rr_ok i to xs ->
  reads m v (rr i to xs ++ rest) -> drop p d = rr i to xs ++ rest' -> bs = rr i to xs ++ rest ->
  exists o m1 r1 t1 m2 r2 t2,
    rrs_deserialize m (RBuf v c) t = (o, m1, r1, t1) /\
    rrs_deserialize m (RStr d p false) t = (o, m2, r2, t2) /\ hext m m2 /\
    (o = Ret tt -> exists rs_ d1 sv st a q, unconnected xs d1 /\ reply_ok sv rs_ st a /\ d1 = router_reply sv rs_ st a q /\
       rr_reply_is m1 t1 i to sv st a q /\ rr_reply_dangles m2 t2 i to sv st a q) /\
    (o <> Ret tt -> forall d1 sv rs_ st a q, unconnected xs d1 -> reply_ok sv rs_ st a -> d1 <> router_reply sv rs_ st a q).
Proof.
  intros (O1 & O2 & O3) R H _. unfold rrs_deserialize. rewrite rr_deserialize_eq. unfold rr in *. repeat rewrite <- app_assoc in *.
  match goal with |- context [rr_tail ?s] => set (setData := s) in * end.
  (* buffer side *)
  assert (B : exists r l, Forall2 (item_is m) l xs /\
    (rd_uint 4 rr_iface rr_set_iface ;;; rd_uint 2 rr_timeout rr_set_timeout ;;;
     pkt <- dlocal [] cpf_deserialize ;;; dfinally (rr_tail setData pkt) (d_drop_items pkt)) m (RBuf v c) t
    = rr_tail setData l m r (mkRR i to (rr_ext t))).
  { destruct (buf_uint 4 rr_iface (@rr_set_iface mr_response) m v c t _ R) as [[L _]|(x & r1 & X & Fx & R1 & E)];
      [lens; lia|]. apply le_app_inj in X; [|assumption..]. destruct X as [<- <-].
    erewrite dbind_ret by exact E. clear E.
    match goal with |- context [dbind (rd_uint 2 rr_timeout ?s) ?f m (RBuf ?vv ?cc) ?tt] =>
      destruct (buf_uint 2 rr_timeout s m vv cc tt _ R1) as [[L _]|(y & r2 & X & Fy & R2 & E)] end; [lens; lia|].
    apply le_app_inj in X; [|assumption..]. destruct X as [<- <-].
    erewrite dbind_ret by exact E. clear E.
    match goal with |- context [dbind (dlocal [] cpf_deserialize) ?f m (RBuf ?vv ?cc) ?tt] =>
      destruct (cpf_decode m vv cc [] _ R2) as [[Nx _]|(ys & r3 & Oy & X & E)] end; [exfalso; eapply Nx; [exact O3|reflexivity]|].
    apply cpf_inj in X; [|assumption..]. destruct X as [<- <-].
    erewrite dbind_ret; [|unfold dlocal; rewrite E; reflexivity].
    eexists; eexists. split; [|apply finally_noop; intros; apply drop_windows]. eapply cpf_windows_is. exact R2. }
  destruct B as (rb & lb & Wb & ->).
  set (m2 := m ++ live (blks xs)). set (m3 := m ++ dead (blks xs)). set (ls := items_at (List.length m) xs).
  assert (SS : exists r,
    (rd_uint 4 rr_iface rr_set_iface ;;; rd_uint 2 rr_timeout rr_set_timeout ;;;
     pkt <- dlocal [] cpf_deserialize ;;; dfinally (rr_tail setData pkt) (d_drop_items pkt)) m (RStr d p false) t
    = dfinally (rr_tail setData ls) (d_drop_items ls) m2 r (mkRR i to (rr_ext t))).
  { suint H. suint H. pose proof (cpf_stream_at m d _ [] xs _ O3 H) as E.
    erewrite dbind_ret; [|unfold dlocal; rewrite E; reflexivity]. eexists. reflexivity. }
  destruct SS as (rs & ->).
  assert (Ws : Forall2 (item_is m2) ls xs).
  { pose proof (items_at_is xs m []) as W. rewrite app_nil_r in W. exact W. }
  assert (DR : forall r (t : rr_data mr_response), d_drop_items ls m2 r t = (Ret tt, m3, r, t)).
  { intros. pose proof (drop_items_at xs m [] r t0) as W. rewrite !app_nil_r in W. exact W. }
  assert (HX : hext m m3).
  { intros b bl E. unfold m3. rewrite nth_error_app1; [assumption|eapply nth_error_lt; eassumption]. }
  destruct (rr_tail_spec setData m lb xs Wb O3) as [(s & V & N & E1)|(d1 & p1 & V & U & L & H1 & _ & E1)];
  destruct (rr_tail_spec setData m2 ls xs Ws O3) as [(s' & V' & N' & E2)|(d2 & p2 & V' & U' & L' & H2 & I2 & E2)]; try congruence.
  - unfold dfinally. rewrite E1, E2. assert (s' = s) by congruence. subst s'. erewrite dbind_ret by apply DR.
    do 7 eexists. split; [reflexivity|]. split; [reflexivity|]. split; [assumption|]. split; [discriminate|].
    intros _ d1 sv rs_ st a q U. exfalso. eapply N; exact U.
  - unfold dfinally. rewrite E1, E2. unfold setData, it_getDataAs. cbn [it_data].
    assert (d2 = d1) by (destruct U as [? ->], U' as [? U']; congruence). subst d2.
    assert (NU : forall e, unconnected xs e -> e = d1) by (intros e [? Ue]; destruct U as [? Ud]; congruence).
    destruct (reply_decode m p1 d1 rb (mkRR i to (rr_ext t)) H1 L) as [[D1 X1]|[(D1 & N1 & (t1 & X1))|(sv & r_ & st & a & q & t1 & O & D1 & X1 & Y1 & _)]];
    destruct (reply_decode m2 p2 d1 rs (mkRR i to (rr_ext t)) H2 L) as [[D2 X2]|[(D2 & N2 & (t2 & X2))|(sv2 & r_2 & st2 & a2 & q2 & t2 & O' & D2 & X2 & Y2 & Z2)]];
    try congruence; try (rewrite D1 in *; exfalso; eapply N2; [eassumption|reflexivity]);
    try (rewrite D2 in *; exfalso; eapply N1; [eassumption|reflexivity]);
    try (subst d1; discriminate).
    + rewrite X1, X2. do 7 eexists. split; [reflexivity|]. split; [reflexivity|]. split; [|split; [discriminate|]].
      * unfold m2. apply hext_app.
      * intros _ e sv rs_ st a q Ue _ Ee. apply NU in Ue. subst e. rewrite D1 in Ee. discriminate.
    + rewrite X1, X2. erewrite dbind_ret by apply DR. do 7 eexists. split; [reflexivity|]. split; [reflexivity|].
      split; [assumption|]. split; [discriminate|]. intros _ e sv rs_ st a q Ue Oe. apply NU in Ue. subst e. apply N1. assumption.
    + rewrite X1, X2. erewrite dbind_ret by apply DR. do 7 eexists. split; [reflexivity|]. split; [reflexivity|].
      split; [assumption|]. split; [intros _|congruence].
      pose proof D2 as D3. rewrite D1 in D2. apply router_reply_inj in D2; [|assumption..]. injection D2 as -> -> -> -> ->.
      exists r_2, d1, sv2, st2, a2, q2. split; [assumption|]. split; [assumption|]. split; [assumption|]. split; [exact Y1|].
      destruct (router_reply_split _ _ _ _ q2 O') as (LL & _ & _). rewrite <- D3 in LL.
      assert (IP : p2 = own (List.length m) d1 /\ exists k, blks xs = d1 :: k).
      { destruct U' as [tl E]. subst ls. rewrite E in I2 |- *. cbn [items_at nth_error] in I2.
        cbn [blks flat_map snd List.app]. unfold own, blk in I2 |- *.
        destruct (N.eqb_spec (len d1) 0) as [Z|Z]; [lia|]. change (len (@nil byte) =? 0) with true in I2 |- *. cbn [List.length List.app] in I2 |- *.
        rewrite PeanoNat.Nat.add_0_r in I2. split; [congruence|]. eexists. reflexivity. }
      destruct IP as [IP [k IB]]. unfold own in IP. destruct (N.eqb_spec (len d1) 0) as [Z|Z]; [lia|].
      destruct (Z2 _ IP) as [ZA ZQ]. cbn [sb_data] in ZA, ZQ. destruct Y2 as (Y2a & Y2b & Y2c & Y2d & _).
      assert (NB : nth_error m3 (List.length m) = Some None).
      { unfold m3. rewrite IB. apply nth_error_mid. }
      unfold rr_reply_dangles. rewrite ZA, ZQ. repeat (split; [assumption|]).
      split; apply window_dangling; solve [assumption|lia].
Qed.

(** A good reply read from a stream: accepted, and its data gone. *)
Lemma rrs_stream_dangles m d p t rest' i to xs d1 sv rs_ st a q : rr_ok i to xs -> unconnected xs d1 -> reply_ok sv rs_ st a ->
  d1 = router_reply sv rs_ st a q -> drop p d = rr i to xs ++ rest' ->
  exists m2 r2 t2, rrs_deserialize m (RStr d p false) t = (Ret tt, m2, r2, t2) /\ rr_reply_dangles m2 t2 i to sv st a q.
Proof.
  intros (O1 & O2 & O3) U0 OR ED H. unfold rrs_deserialize. rewrite rr_deserialize_eq. unfold rr in *. repeat rewrite <- app_assoc in *.
  match goal with |- context [rr_tail ?s] => set (setData := s) in * end.
  set (m2 := m ++ live (blks xs)). set (m3 := m ++ dead (blks xs)). set (ls := items_at (List.length m) xs).
  suint H. suint H. pose proof (cpf_stream_at m d _ [] xs _ O3 H) as E.
  erewrite dbind_ret; [|unfold dlocal; rewrite E; reflexivity]. clear E. fold m2 ls.
  match goal with |- context [dfinally _ _ _ ?r ?t0] => set (rs := r); change t0 with (mkRR i to (rr_ext t)) end.
  assert (Ws : Forall2 (item_is m2) ls xs).
  { pose proof (items_at_is xs m []) as W. rewrite app_nil_r in W. exact W. }
  assert (DR : forall r (t : rr_data mr_response), d_drop_items ls m2 r t = (Ret tt, m3, r, t)).
  { intros. pose proof (drop_items_at xs m [] r t0) as W. rewrite !app_nil_r in W. exact W. }
  destruct (rr_tail_spec setData m2 ls xs Ws O3) as [(s' & V' & N' & E2)|(d2 & p2 & V' & U' & L' & H2 & I2 & E2)].
  { exfalso. eapply N'; exact U0. }
  assert (d2 = d1) by (destruct U0 as [? ->], U' as [? U']; congruence). subst d2.
  unfold dfinally. rewrite E2. unfold setData, it_getDataAs. cbn [it_data].
  destruct (reply_decode m2 p2 d1 rs (mkRR i to (rr_ext t)) H2 L') as [[D2 X2]|[(D2 & N2 & (t2 & X2))|(sv2 & r_2 & st2 & a2 & q2 & t2 & O' & D2 & X2 & Y2 & Z2)]].
  - rewrite ED in D2. discriminate.
  - exfalso. eapply N2; [exact OR|exact ED].
  - rewrite X2. erewrite dbind_ret by apply DR. exists m3. eexists; eexists. split; [reflexivity|].
    pose proof D2 as D3. rewrite ED in D2. apply router_reply_inj in D2; [|assumption..]. injection D2 as -> -> -> -> ->.
    destruct (router_reply_split _ _ _ _ q2 O') as (LL & _ & _). rewrite <- D3 in LL.
    assert (IP : p2 = own (List.length m) d1 /\ exists k, blks xs = d1 :: k).
    { destruct U' as [tl E]. subst ls. rewrite E in I2 |- *. cbn [items_at nth_error] in I2.
      cbn [blks flat_map snd List.app]. unfold own, blk in I2 |- *.
      destruct (N.eqb_spec (len d1) 0) as [Z|Z]; [lia|]. change (len (@nil byte) =? 0) with true in I2 |- *. cbn [List.length List.app] in I2 |- *.
      rewrite PeanoNat.Nat.add_0_r in I2. split; [congruence|]. eexists. reflexivity. }
    destruct IP as [IP [k IB]]. unfold own in IP. destruct (N.eqb_spec (len d1) 0) as [Z|Z]; [lia|].
    destruct (Z2 _ IP) as [ZA ZQ]. cbn [sb_data] in ZA, ZQ. destruct Y2 as (Y2a & Y2b & Y2c & Y2d & _).
    assert (NB : nth_error m3 (List.length m) = Some None).
    { unfold m3. rewrite IB. apply nth_error_mid. }
    unfold rr_reply_dangles. rewrite ZA, ZQ. repeat (split; [assumption|]).
    split; apply window_dangling; solve [assumption|lia].
Qed.
Lemma load_freed m b o n : load m b o n = Undef UseAfterFree -> n <> 0 /\ nth_error m b = Some None.
Proof.
  unfold load. destruct (N.eqb_spec n 0); [discriminate|]. destruct (nth_error m b) as [[bl|]|]; try discriminate.
  - destruct (_ <=? _); discriminate.
  - auto.
Qed.
(** Any use of what dangles is undefined: decoding a number out of it, or sending it. *)
Lemma dangling_used m p bs : freed_data m p bs -> bs <> [] ->
  (forall k r x, (0 < k)%nat -> N.of_nat k <= len bs -> d_copy (prim_cls k) p m r x = (Undef UseAfterFree, m, r, x)) /\
  (exists s, p = Some s /\ forall out, s_serialize s m (WStr out) = (Undef UseAfterFree, m, WStr out)).
Proof.
  intros D Z. destruct p as [s|]; cbn [freed_data] in D; [|congruence]. destruct D as (_ & sb & -> & L & E). split.
  - intros k r x K B. cbn [d_copy]. unfold copy_serializable. cbn [s_length s_sbuf ser_of_sbuf c_sb prim_cls].
    unfold run_reader, deserialize_len. cbn [c_deslen prim_cls no_check c_des]. unfold prim_des, rd_uint, rd_raw.
    rewrite L. destruct (N.ltb_spec (len bs) (N.of_nat k)); [lia|].
    apply load_freed in E. destruct E as [_ E]. unfold load. destruct (N.eqb_spec (N.of_nat k) 0); [lia|]. rewrite E. reflexivity.
  - eexists. split; [reflexivity|]. intros out. cbn [s_serialize ser_of_sbuf]. unfold sb_serialize, w_view. rewrite E. reflexivity.
Qed.
Lemma dangling_len m p bs : freed_data m p bs -> opt_length p = Ret (len bs).
Proof.
  destruct p as [s|]; cbn [freed_data]; [|intros ->; reflexivity]. intros (_ & sb & -> & L & _). cbn [opt_length s_length ser_of_sbuf].
  rewrite L. reflexivity.
Qed.
Lemma rrs_agree_numbers m v c t d p rest rest' i to xs : rr_ok i to xs ->
  reads m v (rr i to xs ++ rest) -> drop p d = rr i to xs ++ rest' ->
  exists o m1 r1 t1 m2 r2 t2,
    rrs_deserialize m (RBuf v c) t = (o, m1, r1, t1) /\
    rrs_deserialize m (RStr d p false) t = (o, m2, r2, t2) /\ hext m m2 /\
    (o = Ret tt -> exists sv st a q, rr_reply_is m1 t1 i to sv st a q /\
       rr_iface t2 = i /\ rr_timeout t2 = to /\ ms_service (rr_ext t2) = sv /\ ms_status (rr_ext t2) = st /\
       opt_length (ms_additional (rr_ext t2)) = Ret (len a) /\ opt_length (ms_data (rr_ext t2)) = Ret (len q)).
Proof.
  intros O R H. destruct (rrs_agree m v c t d p _ rest rest' i to xs O R H eq_refl) as (o & m1 & r1 & t1 & m2 & r2 & t2 & E1 & E2 & X & K & _).
  exists o, m1, r1, t1, m2, r2, t2. split; [assumption|]. split; [assumption|]. split; [assumption|]. intros Eo.
  destruct (K Eo) as (_ & _ & sv & st & a & q & _ & _ & _ & Y & (Y1 & Y2 & Y3 & Y4 & Y5 & Y6)).
  exists sv, st, a, q. split; [assumption|]. repeat (split; [assumption|]). split; apply (dangling_len m2); assumption.
Qed.
Lemma rrs_stream_used m d p t rest i to xs sv rs st a q : rr_ok i to xs -> reply_ok sv rs st a ->
  unconnected xs (router_reply sv rs st a q) -> q <> [] -> drop p d = rr i to xs ++ rest ->
  exists m' r' t', rrs_deserialize m (RStr d p false) t = (Ret tt, m', r', t') /\
    (forall k r x, (0 < k)%nat -> N.of_nat k <= len q ->
       rrs_getResponseDataAs (prim_cls k) t' m' r x = (Undef UseAfterFree, m', r, x)) /\
    (exists s, ms_data (rr_ext t') = Some s /\ forall out, s_serialize s m' (WStr out) = (Undef UseAfterFree, m', WStr out)).
Proof.
  intros O OR U Z H. destruct (rrs_stream_dangles m d p t rest i to xs _ sv rs st a q O U OR eq_refl H) as (m2 & r2 & t2 & E & (_ & _ & _ & _ & _ & Y)).
  exists m2, r2, t2. split; [assumption|]. destruct (dangling_used _ _ _ Y Z) as [A B]. split; assumption.
Qed.
