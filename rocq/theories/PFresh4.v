(** * Unconnected replies read from streams, and the memory they were read into *)
From Verif Require Export Fresh2 PFresh3 PStream.

Lemma rr_deserialize_g_eq {X} g (setData : cpf_item -> D (rr_data X) unit) :
  rr_deserialize_g g setData
  = (rd_uint 4 rr_iface rr_set_iface ;;; rd_uint 2 rr_timeout rr_set_timeout ;;;
     pkt <- dlocal [] (cpf_deserialize_g g) ;;; dfinally (rr_tail setData pkt) (d_drop_items pkt)).
Proof. reflexivity. Qed.

(** ** Nothing after the items touches the stream *)
Definition leaves {T A} (f : D T A) : Prop := forall m r t o m' r' t', f m r t = (o, m', r', t') -> r' = r.
Lemma lv_ret {T A} (a : A) : leaves (@dret T A a).
Proof. intros m r t o m' r' t' E. injection E as <- <- <- <-. reflexivity. Qed.
Lemma lv_throw {T A} e s : leaves (@dthrow T A e s).
Proof. intros m r t o m' r' t' E. injection E as <- <- <- <-. reflexivity. Qed.
Lemma lv_outcome {T A} (a : outcome A) : leaves (@d_outcome T A a).
Proof. intros m r t o m' r' t' E. unfold d_outcome in E. injection E as <- <- <- <-. reflexivity. Qed.
Lemma lv_bind {T A B} (f : D T A) (k : A -> D T B) : leaves f -> (forall a, leaves (k a)) -> leaves (dbind f k).
Proof.
  intros F K m r t o m' r' t'. unfold dbind. destruct (f m r t) as [[[o1 m1] r1] t1] eqn:E. pose proof (F _ _ _ _ _ _ _ E) as ->.
  destruct o1 as [a|e s|ub|]; [apply K|..]; intros H; injection H as <- <- <- <-; reflexivity.
Qed.
Lemma lv_at {T A} (l : list A) n : leaves (@d_at T A l n).
Proof. intros m r t o m' r' t' E. unfold d_at in E. destruct (nth_error l _); injection E as <- <- <- <-; reflexivity. Qed.
Lemma lv_free {T} b : leaves (@d_free T b).
Proof. intros m r t o m' r' t' E. unfold d_free in E. destruct (free m b); injection E as <- <- <- <-; reflexivity. Qed.
Lemma lv_drop {T} (p : option ser) : leaves (@d_drop T p).
Proof.
  unfold d_drop. destruct p as [s|]; [|apply lv_ret]. destruct (s_sbuf s) as [sb|]; [|apply lv_ret]. destruct (sb_alloc sb) as [b|]; [apply lv_free|apply lv_ret].
Qed.
Lemma lv_drop_items {T} p : leaves (@d_drop_items T p).
Proof. induction p as [|i p IH]; cbn [d_drop_items]; [apply lv_ret|]. apply lv_bind; [apply lv_drop|intros _; exact IH]. Qed.
Lemma lv_zoom {T U A} (get : T -> U) set (f : D U A) : leaves f -> leaves (dzoom get set f).
Proof.
  intros F m r t o m' r' t'. unfold dzoom. destruct (f m r (get t)) as [[[o1 m1] r1] t1] eqn:E. pose proof (F _ _ _ _ _ _ _ E) as ->.
  intros H. injection H as <- <- <- <-. reflexivity.
Qed.
Lemma lv_copy {U} (c : cls U) p : leaves (d_copy c p).
Proof.
  intros m r t o m' r' t'. unfold d_copy. destruct p as [s|]; [|intros E; injection E as <- <- <- <-; reflexivity].
  destruct (copy_serializable c s m t) as [[o1 m1] t1]. intros E. injection E as <- <- <- <-. reflexivity.
Qed.
Lemma lv_finally {T A} (f : D T A) (c : D T unit) : leaves f -> leaves c -> leaves (dfinally f c).
Proof.
  intros F C m r t o m' r' t'. unfold dfinally. destruct (f m r t) as [[[o1 m1] r1] t1] eqn:E. pose proof (F _ _ _ _ _ _ _ E) as ->.
  destruct o1 as [a|e s|ub|].
  - apply (lv_bind c (fun _ => dret a) C (fun _ => lv_ret a)).
  - apply (lv_bind c (fun _ => dthrow e s) C (fun _ => lv_throw e s)).
  - intros H. injection H as <- <- <- <-. reflexivity.
  - intros H. injection H as <- <- <- <-. reflexivity.
Qed.
Lemma lv_tail {X} (setData : cpf_item -> D (rr_data X) unit) pkt : (forall i, leaves (setData i)) -> leaves (rr_tail setData pkt).
Proof.
  intros S0. unfold rr_tail. destruct (_ <? 2); [apply lv_throw|]. apply lv_bind; [apply lv_at|intros i0]. destruct (negb _); [apply lv_throw|].
  apply lv_bind; [apply lv_outcome|intros n0]. destruct (negb _); [apply lv_throw|]. apply lv_bind; [apply lv_at|intros i1]. destruct (negb _); [apply lv_throw|apply S0].
Qed.
Lemma uint_stays {T} k (get : T -> N) set m d p f t o m' r' t' : rd_uint k get set m (RStr d p f) t = (o, m', r', t') -> o = Ret tt /\ m' = m /\ exists p' f', r' = RStr d p' f'.
Proof. unfold rd_uint. apply raw_stays. Qed.
Lemma rr_filled {X} g (setData : cpf_item -> D (rr_data X) unit) m d p f x o m' r' x' : (forall i, leaves (setData i)) -> sized g ->
  rr_deserialize setData m (RStr d p f) x = (o, m', r', x') -> unfailed r' -> rr_deserialize_g g setData m (RStr d p f) x = (o, m', r', x').
Proof.
  intros S0 Z. rewrite rr_deserialize_eq, rr_deserialize_g_eq. unfold dbind at 1 4.
  destruct (rd_uint 4 _ _ m (RStr d p f) x) as [[[o1 m1] r1] x1] eqn:E1. destruct (uint_stays _ _ _ _ _ _ _ _ _ _ _ _ E1) as (-> & -> & p1 & f1 & ->).
  unfold dbind at 1 3. destruct (rd_uint 2 _ _ m (RStr d p1 f1) x1) as [[[o2 m2] r2] x2] eqn:E2. destruct (uint_stays _ _ _ _ _ _ _ _ _ _ _ _ E2) as (-> & -> & p2 & f2 & ->).
  unfold dbind. unfold dlocal. destruct (cpf_deserialize m (RStr d p2 f2) []) as [[[o3 m3] r3] x3] eqn:E3. intros H U.
  assert (U3 : unfailed r3).
  { destruct o3 as [[]|e s|ub|]; [|injection H as <- <- <- <-; exact U..].
    pose proof (lv_finally _ _ (lv_tail setData x3 S0) (lv_drop_items x3) _ _ _ _ _ _ _ H) as ->. exact U. }
  rewrite (cpf_filled g _ _ _ _ _ _ _ _ _ Z E3 U3). exact H.
Qed.
Lemma reply_filled g m d p f x o m' r' x' : sized g -> rrs_deserialize m (RStr d p f) x = (o, m', r', x') -> unfailed r' ->
  rrs_deserialize_g g m (RStr d p f) x = (o, m', r', x').
Proof. unfold rrs_deserialize, rrs_deserialize_g. apply rr_filled. intros i. apply lv_zoom. apply lv_copy. Qed.
Lemma base_filled g m d p f x o m' r' x' : sized g -> c_des rr_base_cls m (RStr d p f) x = (o, m', r', x') -> unfailed r' ->
  rr_base_deserialize_g g m (RStr d p f) x = (o, m', r', x').
Proof. unfold rr_base_deserialize_g, rr_base_cls. cbn [c_des]. apply rr_filled. intros i. apply lv_ret. Qed.

(** ** A stream that ends inside the reply *)
Definition stale (g : garbage) (m : heap) (n : N) (part : list byte) : list byte := part ++ drop (len part) (g_block g m n).
Lemma len_stale g m n part : sized g -> len part <= n -> len (stale g m n part) = n.
Proof. intros Z L. unfold stale. rewrite len_app, len_drop, (Z m n). lia. Qed.
Lemma sb_stale {T} g n m d p (t : T) part : sized g -> drop p d = part -> len part < n ->
  exists p' f', dlocal sb_empty (sb_deserialize_len_g g n) m (RStr d p false) t
  = (Ret (mkSB (mkV (List.length m) 0 n) (Some (List.length m))), m ++ [Some (stale g m n part)], RStr d p' f', t).
Proof.
  intros Zg H L. unfold dlocal, sb_deserialize_len_g, rd_is_buffer, dbind, dget, sb_empty, null_view.
  cbn [sb_data v_len]. destruct (N.eqb_spec n 0); [lia|].
  unfold sb_delete, dbind, dget, dret, d_alloc, alloc, dmod, rd_into. cbn [sb_alloc sb_data v_len v_blk v_off].
  unfold str_read. rewrite H, take_all by lia.
  assert (G : store (m ++ [Some (g_block g m n)]) (List.length m) 0 part = Ret (m ++ [Some (stale g m n part)])).
  { unfold store, stale. destruct (N.eqb_spec (len part) 0) as [E|E].
    - rewrite (len_0 _ E). reflexivity.
    - rewrite nth_error_app_end, (Zg m n). destruct (N.leb_spec (0 + len part) n); [|lia]. rewrite list_set_app_end. reflexivity. }
  rewrite G. do 2 eexists. reflexivity.
Qed.
Definition short_items (n : N) (part : list byte) : list byte := le 2 2 ++ (le 2 0 ++ le 2 0) ++ (le 2 0xB2 ++ le 2 n) ++ part.
Lemma cpf_stale g m d p p0 n part : sized g -> fits 2 n -> drop p d = short_items n part -> len part < n ->
  exists p' f', cpf_deserialize_g g m (RStr d p false) p0
  = (Ret tt, m ++ live (blks [(0, []); (0xB2, stale g m n part)]), RStr d p' f', items_at (List.length m) [(0, []); (0xB2, stale g m n part)]).
Proof.
  intros Z F H L. unfold short_items in H. repeat rewrite <- app_assoc in H.
  assert (F2 : fits 2 2) by reflexivity. assert (F0 : fits 2 0) by reflexivity. assert (FB : fits 2 0xB2) by reflexivity.
  unfold cpf_deserialize_g. erewrite dbind_ret; [|reflexivity].
  cbv beta. erewrite dbind_ret; [|eapply str_local; [exact H|exact F2]]. snext H. change (N.to_nat 2) with 2%nat. cbn [cpf_loop_g].
  assert (E0 : exists p1, it_deserialize_g g m (RStr d (p + N.of_nat 2) false) it_null = (Ret tt, m, RStr d p1 false, mkItem 0 None) /\
    drop p1 d = le 2 0xB2 ++ le 2 n ++ part).
  { unfold it_deserialize_g. suint H. erewrite dbind_ret; [|eapply str_local; [exact H|exact F0]]. snext H. eexists. split; [reflexivity|exact H]. }
  destruct E0 as (p1 & E0 & H1). erewrite dbind_ret; [|unfold dlocal; rewrite E0; reflexivity]. erewrite dbind_ret; [|reflexivity].
  assert (E1 : exists p2 f2, it_deserialize_g g m (RStr d p1 false) it_null
    = (Ret tt, m ++ [Some (stale g m n part)], RStr d p2 f2, mkItem 0xB2 (Some (ser_of_sbuf (mkSB (mkV (List.length m) 0 n) (Some (List.length m))))))).
  { unfold it_deserialize_g. suint H1. erewrite dbind_ret; [|eapply str_local; [exact H1|exact F]]. snext H1.
    destruct (N.ltb_spec 0 n); [|lia]. erewrite dbind_ret; [|reflexivity].
    match goal with |- context [dbind _ _ m (RStr d ?pp false) ?tt0] => destruct (sb_stale g n m d pp tt0 part Z H1 L) as (p2 & f2 & E) end.
    erewrite dbind_ret by exact E. do 2 eexists. reflexivity. }
  destruct E1 as (p2 & f2 & E1). erewrite dbind_ret; [|unfold dlocal; rewrite E1; reflexivity]. erewrite dbind_ret; [|reflexivity].
  exists p2, f2. pose proof (len_stale g m n part Z ltac:(lia)) as Ls. cbn [items_at blks flat_map snd]. unfold own, blk. rewrite Ls.
  change (len (@nil byte) =? 0) with true. destruct (N.eqb_spec n 0); [lia|]. cbn [List.app List.length live List.map]. rewrite PeanoNat.Nat.add_0_r. reflexivity.
Qed.
Lemma reply_stale g m d p t i to n part sv rs_ st a q : sized g -> fits 4 i -> fits 2 to -> fits 2 n ->
  drop p d = le 4 i ++ le 2 to ++ short_items n part -> len part < n -> reply_ok sv rs_ st a -> stale g m n part = router_reply sv rs_ st a q ->
  exists m2 r2 t2, rrs_deserialize_g g m (RStr d p false) t = (Ret tt, m2, r2, t2) /\ rr_reply_dangles m2 t2 i to sv st a q.
Proof.
  intros Z O1 O2 O0 H L OR ED. unfold rrs_deserialize_g. rewrite rr_deserialize_g_eq.
  match goal with |- context [rr_tail ?s] => set (setData := s) in * end.
  set (d1 := stale g m n part) in *. set (xs := [(0, []); (0xB2, d1)]).
  assert (Ld : len d1 = n) by (apply len_stale; [assumption|lia]).
  assert (O3 : cpf_ok xs).
  { split; [|reflexivity]. apply fits2 in O0. repeat (apply Forall_cons); try apply Forall_nil; split; cbn [fst snd]; try reflexivity. rewrite Ld. exact O0. }
  assert (U0 : unconnected xs d1) by (exists []; reflexivity).
  set (m2 := m ++ live (blks xs)). set (m3 := m ++ dead (blks xs)). set (ls := items_at (List.length m) xs).
  suint H. suint H. match type of H with drop ?pp d = _ => destruct (cpf_stale g m d pp [] n part Z O0 H L) as (p9 & f9 & E) end.
  erewrite dbind_ret; [|unfold dlocal; rewrite E; reflexivity]. clear E. fold d1. fold xs. fold m2 ls.
  match goal with |- context [dfinally _ _ _ ?r ?t0] => set (rs := r); change t0 with (mkRR i to (rr_ext t)) end.
  assert (Ws : Forall2 (item_is m2) ls xs).
  { pose proof (items_at_is xs m []) as W. rewrite app_nil_r in W. exact W. }
  assert (DR : forall r (t : rr_data mr_response), d_drop_items ls m2 r t = (Ret tt, m3, r, t)).
  { intros. pose proof (drop_items_at xs m [] r t0) as W. rewrite !app_nil_r in W. exact W. }
  destruct (rr_tail_spec setData m2 ls xs Ws O3) as [(s' & V' & N' & E2)|(d2 & p2 & V' & U' & L' & H2 & I2 & E2)].
  { exfalso. eapply N'; exact U0. }
  assert (d2 = d1) by (destruct U0 as [? K0], U' as [? U']; congruence). subst d2.
  unfold dfinally. rewrite E2. unfold setData, it_getDataAs. cbn [it_data].
  destruct (reply_decode m2 p2 d1 rs (mkRR i to (rr_ext t)) H2 L') as [[D2 X2]|[(D2 & N2 & (t2 & X2))|(sv2 & r_2 & st2 & a2 & q2 & t2 & O' & D2 & X2 & Y2 & Z2)]].
  - rewrite ED in D2. discriminate.
  - exfalso. eapply N2; [exact OR|exact ED].
  - rewrite X2. erewrite dbind_ret by apply DR. exists m3. eexists; eexists. split; [reflexivity|].
    pose proof D2 as D3. rewrite ED in D2. apply router_reply_inj in D2; [|assumption..]. injection D2 as -> -> -> -> ->.
    destruct (router_reply_split _ _ _ _ q2 O') as (LL & _ & _). rewrite <- D3 in LL.
    assert (IP : p2 = own (List.length m) d1).
    { subst ls. unfold xs in I2. cbn [items_at nth_error] in I2. unfold own, blk in I2 |- *.
      destruct (N.eqb_spec (len d1) 0) as [Z0|Z0]; [lia|]. change (len (@nil byte) =? 0) with true in I2. cbn [List.length List.app] in I2.
      rewrite PeanoNat.Nat.add_0_r in I2. congruence. }
    assert (IB : blks xs = [d1]).
    { unfold xs. cbn [blks flat_map snd List.app]. unfold blk. destruct (N.eqb_spec (len d1) 0) as [Z0|Z0]; [lia|]. reflexivity. }
    unfold own in IP. destruct (N.eqb_spec (len d1) 0) as [Z0|Z0]; [lia|].
    destruct (Z2 _ IP) as [ZA ZQ]. cbn [sb_data] in ZA, ZQ. destruct Y2 as (Y2a & Y2b & Y2c & Y2d & _).
    assert (NB : nth_error m3 (List.length m) = Some None).
    { unfold m3. rewrite IB. apply nth_error_mid. }
    unfold rr_reply_dangles. rewrite ZA, ZQ. repeat (split; [assumption|]).
    split; apply window_dangling; solve [assumption|lia].
Qed.
Lemma reply_from_memory g m d p t i to n part sv rs_ st a q : sized g -> fits 4 i -> fits 2 to -> fits 2 n ->
  drop p d = le 4 i ++ le 2 to ++ le 2 2 ++ item (0, []) ++ le 2 0xB2 ++ le 2 n ++ part -> len part < n ->
  reply_ok sv rs_ st a -> part ++ drop (len part) (g_block g m n) = router_reply sv rs_ st a q ->
  exists m2 r2 t2, rrs_deserialize_g g m (RStr d p false) t = (Ret tt, m2, r2, t2) /\ rr_reply_dangles m2 t2 i to sv st a q.
Proof.
  intros Z O1 O2 O0 H L OR ED. eapply reply_stale; try eassumption. rewrite H. unfold short_items, item. cbn [fst snd].
  change (len (@nil byte)) with 0. rewrite app_nil_r. repeat rewrite <- app_assoc. reflexivity.
Qed.

(** ** Concrete cases *)
(** Memory in which a reply was before. *)
Definition g_old : garbage :=
  mkG (fun _ => mkFOS 1 2 3 4 5 6 7 None) (fun _ => mkFCS 8 9 10 None) (fun _ => mkId 1 [] 2 3 4 [] 5 6 [xa5] 7)
      (fun _ n => take n (router_reply 0x8E 0 0 [] [x01; x02]) ++ zeros (n - 6)).
Lemma g_old_sized : sized g_old.
Proof.
  intros m n. cbn [g_block g_old]. rewrite len_app, len_take, len_zeros. change (len (router_reply 0x8E 0 0 [] [x01; x02])) with 6. lia.
Qed.
Lemma reply_example : let d := le 4 0 ++ le 2 0 ++ le 2 2 ++ item (0, []) ++ le 2 0xB2 ++ le 2 6 in
  (exists m' r' t', rrs_deserialize_g g_old [] (RStr d 0 false) rrs_make = (Ret tt, m', r', t') /\ ms_service (rr_ext t') = 0x8E /\ ms_status (rr_ext t') = 0) /\
  (exists m' r' t', rrs_deserialize_g gA [] (RStr d 0 false) rrs_make = (Throw LengthError SHORT, m', r', t')).
Proof.
  cbv zeta. split; do 3 eexists; [split; [vm_compute; reflexivity|split; vm_compute; reflexivity]|vm_compute; reflexivity].
Qed.
Lemma replies_example : let d := rr 3 5 [(0, []); (0xB2, router_reply 0x8E 0 0 [] [x01; x02])] in
  exists m1 p1, rrs_deserialize [] (RStr d 0 false) rrs_make = (Ret tt, m1, RStr d 22 false, p1) /\
    rrs_deserialize_g gA [] (RStr d 0 false) rrs_make = (Ret tt, m1, RStr d 22 false, p1) /\ ms_service (rr_ext p1) = 0x8E /\ m1 = [None].
Proof. cbv zeta. do 2 eexists. split; [vm_compute; reflexivity|]. split; [vm_compute; reflexivity|]. split; vm_compute; reflexivity. Qed.
Lemma rr_example : let d := rr 3 5 [(0, []); (0xB2, [x01; x02])] in
  exists m1, c_des rr_base_cls [] (RStr d 0 false) (mkRR 0 0 tt) = (Ret tt, m1, RStr d 18 false, mkRR 3 5 tt) /\
    rr_base_deserialize_g gA [] (RStr d 0 false) (mkRR 0 0 tt) = (Ret tt, m1, RStr d 18 false, mkRR 3 5 tt).
Proof. cbv zeta. eexists. split; vm_compute; reflexivity. Qed.
