(** More decoders: router replies, RR data, registration, sequenced addresses,
    identities, connection replies. *)
From Verif Require Export PPack.

Ltac cons_app := repeat match goal with
  | |- context [?x :: ?y :: ?l] => change (x :: y :: l) with ([x] ++ (y :: l)) end.

(** ** Registration data and sequenced address *)
Lemma rg_decode m v c g0 bs : reads m v bs ->
  (len bs < 4 /\ exists r' g', rg_deserialize m (RBuf v c) g0 = (Throw LengthError SHORT, m, r', g')) \/
  (exists version options rest, fits 2 version /\ fits 2 options /\
     bs = registration version options ++ rest /\
     rg_deserialize m (RBuf v c) g0 = (Ret tt, m, RBuf (view_drop v 4) (c + 4), mkReg version options)).
Proof.
  intros H. unfold rg_deserialize.
  duint a; [left; split; [lia|short]|].
  duint b; [left; lens; split; [lia|short]|].
  right. exists a, b; eexists. split; [assumption|]. split; [assumption|].
  split; [unfold registration; rewrite <- app_assoc; reflexivity|]. cnt.
Qed.
Lemma sa_decode m v c g0 bs : reads m v bs ->
  (len bs < 8 /\ exists r' g', sa_deserialize m (RBuf v c) g0 = (Throw LengthError SHORT, m, r', g')) \/
  (exists conn seq rest, fits 4 conn /\ fits 4 seq /\
     bs = seq_address conn seq ++ rest /\
     sa_deserialize m (RBuf v c) g0 = (Ret tt, m, RBuf (view_drop v 8) (c + 8), mkSA conn seq)).
Proof.
  intros H. unfold sa_deserialize.
  duint a; [left; split; [lia|short]|].
  duint b; [left; lens; split; [lia|short]|].
  right. exists a, b; eexists. split; [assumption|]. split; [assumption|].
  split; [unfold seq_address; rewrite <- app_assoc; reflexivity|]. cnt.
Qed.

(** ** Message router reply *)

Lemma router_reply_le sv rs st a d : reply_ok sv rs st a ->
  router_reply sv rs st a d = le 1 sv ++ le 1 rs ++ le 1 st ++ le 1 (len a / 2) ++ a ++ d.
Proof.
  intros (H1 & H2 & H3 & H4 & H5). unfold router_reply. rewrite !le_1 by lia. reflexivity.
Qed.
Lemma router_reply_inj sv rs st a d sv' rs' st' a' d' :
  reply_ok sv rs st a -> reply_ok sv' rs' st' a' ->
  router_reply sv rs st a d = router_reply sv' rs' st' a' d' ->
  (sv, rs, st, a, d) = (sv', rs', st', a', d').
Proof.
  intros H G. rewrite !router_reply_le by assumption.
  destruct H as (H1 & H2 & H3 & H4 & H5), G as (G1 & G2 & G3 & G4 & G5). intros E.
  apply le_app_inj in E; [|apply fits1; assumption..]. destruct E as [-> E].
  apply le_app_inj in E; [|apply fits1; assumption..]. destruct E as [-> E].
  apply le_app_inj in E; [|apply fits1; assumption..]. destruct E as [-> E].
  apply le_app_inj in E; [|apply fits1; lia..]. destruct E as [L E].
  apply app_eq_len in E; [|lia]. destruct E as [-> ->]. reflexivity.
Qed.

Lemma positive_int_pos n : 0 < n -> n < 2147483648 -> positive_int n = Some n.
Proof.
  intros H1 H2. unfold positive_int. rewrite N.mod_small by lia.
  destruct (N.ltb_spec 0 n); [|lia]. destruct (N.ltb_spec n 2147483648); [reflexivity|lia].
Qed.
Lemma positive_int_0 : positive_int 0 = None. Proof. reflexivity. Qed.

Lemma ms_readData_ok m v c t bs n : reads m v bs -> n < 2147483648 ->
  (len bs < n /\ exists r', ms_readData n m (RBuf v c) t = (Throw LengthError SHORT, m, r', t)) \/
  (exists a rest, bs = a ++ rest /\ len a = n /\ reads m (view_drop v n) rest /\
     ms_readData n m (RBuf v c) t = (Ret (window v 0 n), m, RBuf (view_drop v n) (c + n), t)).
Proof.
  intros H Hn. unfold ms_readData. destruct (N.eq_dec n 0) as [->|Z].
  - rewrite positive_int_0. right. exists [], bs. rewrite view_drop_0, N.add_0_r. auto.
  - rewrite positive_int_pos by lia. draw a.
    + left. split; [assumption|]. eexists. reflexivity.
    + right. exists a; eexists. split; [reflexivity|]. split; [assumption|]. split; [exact H|].
      unfold dret. rewrite window_pos by lia. rewrite view_drop_0. reflexivity.
Qed.

Lemma sub_wrap n c : c <= n -> n < 18446744073709551616 -> u64 (n + 18446744073709551616 - c) = n - c.
Proof.
  intros H1 H2. unfold u64. replace (n + 18446744073709551616 - c) with (n - c + 1 * 18446744073709551616) by lia.
  rewrite N.mod_add by lia. apply N.mod_small. lia.
Qed.

Lemma ms_decode m v t bs : reads m v bs -> len bs < 2147483648 ->
  ((forall sv rs st a d, reply_ok sv rs st a -> bs <> router_reply sv rs st a d) /\
   exists r' t', ms_deserialize_len (len bs) m (RBuf v 0) t = (Throw LengthError SHORT, m, r', t')) \/
  (exists sv rs st a d, reply_ok sv rs st a /\ bs = router_reply sv rs st a d /\
     ms_deserialize_len (len bs) m (RBuf v 0) t
     = (Ret tt, m, RBuf (view_drop v (len bs)) (len bs),
        mkMRR sv st (window v 4 (len a)) (window v (4 + len a) (len d)))).
Proof.
  intros H HL. unfold ms_deserialize_len. remember (len bs) as n eqn:En.
  assert (K : forall sv rs st a d, reply_ok sv rs st a -> bs = router_reply sv rs st a d -> n = 4 + len a + len d).
  { intros sv rs st a d O ->. rewrite En, router_reply_le by assumption. lens. lia. }
  duint sv; [left; split; [intros sv' rs' st' a' d' O X; apply K in X; [lia|assumption]|short]|].
  lens. duint rs; [left; split; [intros sv' rs' st' a' d' O X; apply K in X; [lia|assumption]|short]|].
  lens. duint st; [left; split; [intros sv' rs' st' a' d' O X; apply K in X; [lia|assumption]|short]|].
  lens. duint al; [left; split; [intros sv' rs' st' a' d' O X; apply K in X; [lia|assumption]|short]|].
  lens. pose proof (fits1_lt _ F2) as F2'.
  assert (K' : forall sv' rs' st' a' d', reply_ok sv' rs' st' a' ->
    le 1 sv ++ le 1 rs ++ le 1 st ++ le 1 al ++ rest = router_reply sv' rs' st' a' d' -> len a' = 2 * al /\ rest = a' ++ d').
  { intros sv' rs' st' a' d' O X. rewrite router_reply_le in X by assumption. destruct O as (G1 & G2 & G3 & G4 & G5).
    apply le_app_inj in X; [|try apply fits1; assumption..]. destruct X as [-> X].
    apply le_app_inj in X; [|try apply fits1; assumption..]. destruct X as [-> X].
    apply le_app_inj in X; [|try apply fits1; assumption..]. destruct X as [-> X].
    apply le_app_inj in X; [|try apply fits1; try assumption; lia..]. destruct X as [L X]. split; [lia|assumption]. }
  match goal with |- context [dbind (ms_readData (2 * al)) ?f ?mm (RBuf ?vv ?cc) ?tt] =>
    destruct (ms_readData_ok mm vv cc tt rest (2 * al) H) as [[L [r' E]]|(a & d & -> & L & R & E)]; [lia|..] end.
  - left. split.
    + intros sv' rs' st' a' d' O X. apply K' in X; [|assumption]. destruct X as [La ->]. lens. lia.
    + eexists; eexists. apply (dbind_throw _ _ _ _ _ _ _ _ _ _ E).
  - rewrite (dbind_ret _ _ _ _ _ _ _ _ _ E). clear E. erewrite dbind_ret; [|reflexivity].
    erewrite dbind_ret; [|reflexivity].
    rewrite view_drop_drop in R |- *. lens.
    replace (u64 _) with (len d) by (rewrite sub_wrap; lia).
    match goal with |- context [dbind (ms_readData (len d)) ?f ?mm (RBuf ?vv ?cc) ?tt] =>
      destruct (ms_readData_ok mm vv cc tt d (len d) R) as [[L' [r' E]]|(d' & rest' & Ed & L' & R' & E)]; [lia|lia|] end.
    right. exists sv, rs, st, a, d.
    assert (O : reply_ok sv rs st a).
    { repeat split; try (apply fits1_lt; assumption); rewrite L; lia. }
    split; [assumption|]. split.
    + rewrite router_reply_le by assumption. do 4 f_equal. f_equal. rewrite L. lia.
    + rewrite (dbind_ret _ _ _ _ _ _ _ _ _ E). unfold dmod.
      cbn [ms_set_service ms_set_status ms_set_additional ms_set_data ms_service ms_status ms_additional ms_data].
      rewrite !window_drop, !view_drop_drop, !N.add_0_r.
      change (0 + N.of_nat 1 + N.of_nat 1 + N.of_nat 1 + N.of_nat 1) with 4.
      change (N.of_nat 1 + N.of_nat 1 + N.of_nat 1 + N.of_nat 1) with 4. rewrite <- L.
      replace n with (4 + len a + len d) by lia. reflexivity.
Qed.

(** Reading the router reply out of a CPF item: d_copy ms_cls. *)
Lemma copy_holds {U} (cl : cls U) m p bs r t : holds m p bs -> bs <> [] -> c_sb cl = None ->
  exists v, reads m v bs /\
  (forall w off n, p = window w off n -> v = view_take (view_drop w off) n) /\
  d_copy cl p m r t = (let '(o, m', t') := run_reader (deserialize_len cl (len bs)) v m t in (o, m', r, t')).
Proof.
  intros Hp Hb Hc. destruct p as [s|]; cbn in Hp; [|congruence]. destruct Hp as (_ & sb & -> & R).
  exists (sb_data sb). split; [assumption|]. split.
  - intros w off n E. unfold window in E. destruct (n =? 0); [discriminate|].
    assert (E' : sb = sb_of_view (view_take (view_drop w off) n)) by (unfold ser_of_sbuf in E; congruence).
    rewrite E'. reflexivity.
  - cbn [d_copy]. unfold copy_serializable. cbn [s_length s_sbuf ser_of_sbuf]. rewrite Hc.
    rewrite (reads_len _ _ _ R). reflexivity.
Qed.

Lemma Forall2_len {A B} (R : A -> B -> Prop) l l' : Forall2 R l l' -> List.length l = List.length l'.
Proof. induction 1; cbn; congruence. Qed.

Lemma Forall2_head {A B} (R : A -> B -> Prop) x l y l' : Forall2 R (x :: l) (y :: l') -> R x y /\ Forall2 R l l'.
Proof. inversion 1; auto. Qed.

(** ** RR data *)

Lemma rr_inj i t xs a i' t' xs' a' : rr_ok i t xs -> rr_ok i' t' xs' -> rr i t xs ++ a = rr i' t' xs' ++ a' ->
  (i, t, xs) = (i', t', xs') /\ a = a'.
Proof.
  intros (H1 & H2 & H3) (G1 & G2 & G3) E. unfold rr in E. repeat rewrite <- app_assoc in E.
  apply le_app_inj in E; [|assumption..]. destruct E as [-> E].
  apply le_app_inj in E; [|assumption..]. destruct E as [-> E].
  apply cpf_inj in E; [|assumption..]. destruct E as [-> ->]. auto.
Qed.

Lemma u16_small n : n < 65536 -> u16 n = n. Proof. intros. apply N.mod_small. assumption. Qed.

(** Items that are windows into a buffer own nothing: their destruction has no effect. *)
Lemma drop_windows {T} v xs : forall o m r (t : T), d_drop_items (item_windows v o xs) m r t = (Ret tt, m, r, t).
Proof.
  induction xs as [|[ty d] xs IH]; intros o m r t; [reflexivity|]. cbn [item_windows d_drop_items it_data]. unfold window, d_drop.
  destruct (_ =? 0); cbn [s_length s_sbuf ser_of_sbuf sb_alloc sb_of_view]; (erewrite dbind_ret; [|reflexivity]); apply IH.
Qed.
Lemma finally_noop {T A} (x : D T A) fin : (forall m r t, fin m r t = (Ret tt, m, r, t)) -> forall m r t, dfinally x fin m r t = x m r t.
Proof.
  intros F m r t. unfold dfinally. destruct (x m r t) as [[[[a|c s|u|] m'] r'] t']; try reflexivity;
    (erewrite dbind_ret; [|apply F]); reflexivity.
Qed.

Definition unowned (d : option ser) : Prop :=
  match d with Some s => exists sb, s = ser_of_sbuf sb /\ sb_alloc sb = None | None => True end.
Lemma drop_unowned {T} p : Forall (fun i => unowned (it_data i)) p -> forall m r (t : T), d_drop_items p m r t = (Ret tt, m, r, t).
Proof.
  induction 1 as [|i p U F IH]; intros m r t; [reflexivity|]. cbn [d_drop_items]. unfold d_drop.
  destruct (it_data i) as [s|]; cbn [unowned] in U; [destruct U as (sb & -> & U); cbn [s_length s_sbuf ser_of_sbuf]; rewrite U|];
    (erewrite dbind_ret; [|reflexivity]); apply IH.
Qed.
(** The clean-up depends on memory only, and changes nothing else. *)
Lemma drop_items_pure p : forall m, exists o m', forall T r (t : T), d_drop_items p m r t = (o, m', r, t).
Proof.
  induction p as [|i p IH]; intros m; [exists (Ret tt), m; reflexivity|]. cbn [d_drop_items].
  assert (K : exists o m', forall T r (t : T), d_drop (it_data i) m r t = (o, m', r, t)).
  { unfold d_drop. destruct (it_data i) as [s|]; [|exists (Ret tt), m; reflexivity].
    destruct (s_sbuf s) as [sb|]; [|exists (Ret tt), m; reflexivity].
    destruct (sb_alloc sb) as [b|]; [|exists (Ret tt), m; reflexivity].
    unfold d_free. destruct (free m b) as [m1|e x|e|]; do 2 eexists; reflexivity. }
  destruct K as (o & m1 & K). unfold dbind. destruct o as [[]|e x|e|].
  - destruct (IH m1) as (o2 & m2 & E). exists o2, m2. intros. rewrite K. apply E.
  - do 2 eexists. intros. rewrite K. reflexivity.
  - do 2 eexists. intros. rewrite K. reflexivity.
  - do 2 eexists. intros. rewrite K. reflexivity.
Qed.
Lemma finally_ret {T A} (x : D T A) p m r t a m' r' t' :
  dfinally x (d_drop_items p) m r t = (Ret a, m', r', t') -> exists m1, x m r t = (Ret a, m1, r', t').
Proof.
  unfold dfinally. destruct (x m r t) as [[[[y|e s|u|] m1] r1] t1]; try discriminate;
  unfold dbind; destruct (drop_items_pure p m1) as (o & m2 & E); rewrite E; destruct o; try discriminate.
  unfold dret. intros H. exists m1. congruence.
Qed.

(** What the generic RR decoder does before calling [setData]. *)
Lemma rr_decode {EXT} (setData : cpf_item -> D (rr_data EXT) unit) m v c t bs : reads m v bs ->
  ((forall i to xs rest, rr_ok i to xs -> bs <> rr i to xs ++ rest) /\
   exists r' t', rr_deserialize setData m (RBuf v c) t = (Throw LengthError SHORT, m, r', t')) \/
  (exists i to xs rest, rr_ok i to xs /\ bs = rr i to xs ++ rest /\
    (((forall d, ~ unconnected xs d) /\
      exists s r' t', rr_deserialize setData m (RBuf v c) t = (Throw LogicError s, m, r', t')) \/
     (exists d, unconnected xs d /\
        holds m (window v 16 (len d)) d /\
        rr_deserialize setData m (RBuf v c) t
        = setData (mkItem 0xB2 (window v 16 (len d))) m
            (RBuf (view_drop v (len (rr i to xs))) (c + len (rr i to xs))) (mkRR i to (rr_ext t))))).
Proof.
  intros H0. pose proof H0 as H. unfold rr_deserialize.
  assert (K : forall i to xs rest, rr_ok i to xs -> bs = rr i to xs ++ rest -> 8 <= len bs).
  { intros i to xs rest _ ->. unfold rr. lens. rewrite len_cpf. lia. }
  duint i; [left; split; [intros i' to' xs' r' O E; apply K in E; [lia|assumption]|short]|].
  lens. duint to; [left; split; [intros i' to' xs' r' O E; apply K in E; [lens; lia|assumption]|short]|].
  lens.
  match goal with |- context [dlocal [] cpf_deserialize] => idtac end.
  change (N.of_nat 4 + N.of_nat 2) with 6 in *.
  destruct (cpf_decode m (view_drop v 6) (c + N.of_nat 4 + N.of_nat 2) [] rest H)
    as [[Nx (r' & p' & E)]|(xs & rest' & O & -> & E)].
  { left. split.
    - intros i' to' xs' r'' (O1 & O2 & O3) X. unfold rr in X. repeat rewrite <- app_assoc in X.
      apply le_app_inj in X; [|assumption..]. destruct X as [-> X].
      apply le_app_inj in X; [|assumption..]. destruct X as [-> X]. exact (Nx _ _ O3 X).
    - eexists; eexists. apply dbind_throw. unfold dlocal. rewrite E. reflexivity. }
  right. exists i, to, xs, rest'. split; [repeat split; try assumption; apply O|].
  split; [unfold rr; repeat rewrite <- app_assoc; reflexivity|].
  match goal with |- context [@dbind ?TT ?AA ?BB (dlocal [] cpf_deserialize) ?f ?mm ?rr ?tt] =>
    remember (@dbind TT AA BB (dlocal [] cpf_deserialize) f mm rr tt) as Z eqn:EZ end.
  erewrite dbind_ret in EZ; [|unfold dlocal; rewrite E; reflexivity]. clear E.
  rewrite (finally_noop _ _ (drop_windows _ _ _)) in EZ.
  pose proof (cpf_windows_is m (view_drop v 6) xs rest' H) as W. destruct O as [Ox Ol].
  destruct xs as [|[ty0 d0] xs].
  { left. split; [intros d [tl X]; discriminate|]. cbn [item_windows] in EZ. rewrite EZ. eexists. short. }
  destruct xs as [|[ty1 d1] xs].
  { left. split; [intros d [tl X]; discriminate|]. cbn [item_windows] in EZ. rewrite EZ. eexists. short. }
  assert (C2 : cpf_getItemCount (item_windows (view_drop v 6) 2 ((ty0, d0) :: (ty1, d1) :: xs)) <? 2 = false).
  { unfold cpf_getItemCount.
    assert (LL : len (item_windows (view_drop v 6) 2 ((ty0, d0) :: (ty1, d1) :: xs)) = len ((ty0, d0) :: (ty1, d1) :: xs)).
    { unfold len. f_equal. apply (Forall2_len _ _ _ W). }
    rewrite LL, u16_small by assumption. rewrite !len_cons. destruct (N.ltb_spec (1 + (1 + len xs)) 2); [lia|reflexivity]. }
  rewrite C2 in EZ. clear C2. cbn [item_windows fst snd] in *.
  unfold d_at at 1 in EZ. cbn [nth_error] in EZ. erewrite dbind_ret in EZ; [|reflexivity]. cbn [it_type] in EZ.
  destruct (Forall2_head _ _ _ _ _ W) as [[_ W0] W']. destruct (Forall2_head _ _ _ _ _ W') as [[_ W1] _]. cbn [it_data snd] in W0, W1.
  unfold EIP_ITEM_NULL, EIP_ITEM_UNCONNECTED_MESSAGE in EZ.
  destruct (N.eqb_spec ty0 0) as [->|T0]; cbn [negb] in EZ.
  2:{ left. split; [intros d [tl X]; congruence|]. rewrite EZ. eexists. short. }
  destruct (Forall_inv Ox) as [_ O0]. pose proof (Forall_inv_tail Ox) as Ox'. destruct (Forall_inv Ox') as [_ O1]. cbn [snd] in O0, O1.
  assert (G0 : it_getDataLength (mkItem 0 (window (view_drop v 6) (2 + 4) (len d0))) = Ret (len d0)).
  { unfold it_getDataLength. cbn [it_data]. unfold window. destruct (N.eqb_spec (len d0) 0) as [->|Z0]; [reflexivity|].
    unfold window in W0. destruct (N.eqb_spec (len d0) 0); [lia|]. destruct W0 as (_ & sb & E & R).
    change (2 + 4) with 6 in *. rewrite E. cbn [opt_length s_length ser_of_sbuf obind]. rewrite <- (reads_len _ _ _ R), u16_small by assumption. reflexivity. }
  unfold d_outcome in EZ. erewrite dbind_ret in EZ; [|rewrite G0; reflexivity].
  destruct (N.eqb_spec (len d0) 0) as [Z0|Z0]; cbn [negb] in EZ.
  2:{ left. split; [intros d [tl X]; injection X as -> _ _; cbn in Z0; congruence|]. rewrite EZ. eexists. short. }
  apply len_0 in Z0. subst d0.
  unfold d_at at 1 in EZ. cbn [nth_error] in EZ. erewrite dbind_ret in EZ; [|reflexivity]. cbn [it_type] in EZ.
  destruct (N.eqb_spec ty1 178) as [->|T1]; cbn [negb] in EZ.
  2:{ left. split; [intros d [tl X]; congruence|]. rewrite EZ. eexists. short. }
  right. exists d1. split; [exists xs; reflexivity|].
  change (len (@nil byte)) with 0 in *.
  assert (WW : window (view_drop v 6) (2 + 4 + 0 + 4) (len d1) = window v 16 (len d1)) by (rewrite window_drop; reflexivity).
  split; [rewrite <- WW; exact W1|].
  rewrite EZ. rewrite ?WW, view_drop_drop. unfold rr. rewrite !len_app, !len_le.
  match goal with |- setData _ _ (RBuf (view_drop v ?a) ?b) _ = setData _ _ (RBuf (view_drop v ?a') ?b') _ =>
    replace a with a' by lia; replace b with b' by lia end.
  reflexivity.
Qed.

Lemma rrs_decode m v c t bs : reads m v bs ->
  ((forall i to xs rest, rr_ok i to xs -> bs <> rr i to xs ++ rest) /\
   exists r' t', rrs_deserialize m (RBuf v c) t = (Throw LengthError SHORT, m, r', t')) \/
  (exists i to xs rest, rr_ok i to xs /\ bs = rr i to xs ++ rest /\
    (((forall d, ~ unconnected xs d) /\
      exists s r' t', rrs_deserialize m (RBuf v c) t = (Throw LogicError s, m, r', t')) \/
     (unconnected xs [] /\ exists r' t', rrs_deserialize m (RBuf v c) t = (Undef NullDeref, m, r', t')) \/
     (exists d, unconnected xs d /\ d <> [] /\
       (((forall sv rs st a q, reply_ok sv rs st a -> d <> router_reply sv rs st a q) /\
         exists r' t', rrs_deserialize m (RBuf v c) t = (Throw LengthError SHORT, m, r', t')) \/
        (exists sv rs st a q, reply_ok sv rs st a /\ d = router_reply sv rs st a q /\
         rrs_deserialize m (RBuf v c) t
         = (Ret tt, m, RBuf (view_drop v (len (rr i to xs))) (c + len (rr i to xs)),
            mkRR i to (mkMRR sv st (window v 20 (len a)) (window v (20 + len a) (len q))))))))).
Proof.
  intros H. unfold rrs_deserialize.
  destruct (rr_decode (fun i => dzoom rr_ext rr_set_ext (it_getDataAs ms_cls i)) m v c t bs H)
    as [A|(i & to & xs & rest & O & E & [B|(d & U & Hd & C)])].
  - left. exact A.
  - right. exists i, to, xs, rest. split; [assumption|]. split; [assumption|]. left. exact B.
  - right. exists i, to, xs, rest. split; [assumption|]. split; [assumption|]. right.
    rewrite C. unfold dzoom, it_getDataAs. cbn [it_data].
    destruct d as [|d0 d].
    { left. split; [assumption|]. cbn [d_copy]. eexists; eexists. reflexivity. }
    remember (d0 :: d) as dd eqn:Ed. assert (Zd : dd <> []) by (rewrite Ed; discriminate). clear Ed d0 d. rename dd into d.
    right. exists d. split; [assumption|]. split; [assumption|].
    assert (Ld : len d < 65536).
    { destruct U as [tl ->]. destruct O as (_ & _ & Ox & _). inversion Ox as [|? ? _ Ox']; subst.
      inversion Ox' as [|? ? [_ L] _]; subst. exact L. }
    destruct (copy_holds ms_cls m (window v 16 (len d)) d (RBuf (view_drop v (len (rr i to xs))) (c + len (rr i to xs)))
                (rr_ext (mkRR i to (rr_ext t))) Hd Zd eq_refl) as (w & Rw & Ew & Ec).
    rewrite Ec. clear Ec. specialize (Ew v 16 (len d) eq_refl). unfold run_reader, deserialize_len. cbn [c_deslen ms_cls].
    destruct (ms_decode m w (rr_ext (mkRR i to (rr_ext t))) d Rw) as [[Nx (r' & t' & Em)]|(sv & rs & st & a & q & Oq & -> & Em)]; [lia|..].
    + left. split; [assumption|]. rewrite Em. eexists; eexists. reflexivity.
    + right. exists sv, rs, st, a, q. split; [assumption|]. split; [reflexivity|]. rewrite Em.
      cbn [rr_set_ext rr_iface rr_timeout].
      assert (Lq : len (router_reply sv rs st a q) = 4 + len a + len q).
      { rewrite router_reply_le by assumption. lens. lia. }
      assert (Wx : forall off n, off + n <= len (router_reply sv rs st a q) -> window w off n = window v (16 + off) n).
      { intros off n Hw. rewrite Ew. unfold window. destruct (n =? 0) eqn:En; [reflexivity|].
        do 3 f_equal. unfold view_take, view_drop. cbn [v_blk v_off v_len].
        pose proof (reads_len _ _ _ Rw) as Lw. rewrite Ew in Lw. unfold view_take, view_drop in Lw. cbn [v_blk v_off v_len] in Lw.
        apply N.eqb_neq in En. f_equal; lia. }
      rewrite !Wx by lia. replace (16 + 4) with 20 by reflexivity.
      replace (16 + (4 + len a)) with (20 + len a) by lia. reflexivity.
Qed.

(** ** Identity *)
Lemma id_decode m v c i0 bs : reads m v bs ->
  ((forall ve ad vn dv pr rv st sn nm sta rest, len ad = 16 -> len rv = 2 -> len nm < 256 ->
      bs <> identity_bytes ve ad vn dv pr rv st sn nm sta ++ rest) /\
   exists r' i', id_deserialize m (RBuf v c) i0 = (Throw LengthError SHORT, m, r', i')) \/
  (exists ve ad vn dv pr rv st sn nm sta rest,
     (fits 2 ve /\ len ad = 16 /\ fits 2 vn /\ fits 2 dv /\ fits 2 pr /\ len rv = 2 /\ fits 2 st /\ fits 4 sn /\
      len nm < 256 /\ sta < 256) /\
     bs = identity_bytes ve ad vn dv pr rv st sn nm sta ++ rest /\
     id_deserialize m (RBuf v c) i0
     = (Ret tt, m, RBuf (view_drop v (34 + len nm)) (c + (34 + len nm)), mkId ve ad vn dv pr rv st sn nm sta)).
Proof.
  intros H. rewrite id_flat_eq. unfold id_flat.
  assert (K : forall bs', bs = bs' -> forall ve ad vn dv pr rv st sn nm sta rest, len ad = 16 -> len rv = 2 -> len nm < 256 ->
     bs' = identity_bytes ve ad vn dv pr rv st sn nm sta ++ rest -> 34 + len nm <= len bs).
  { intros bs' -> ve ad vn dv pr rv st sn nm sta rest La Lr Ln ->. unfold identity_bytes. lens. lia. }
  specialize (K bs eq_refl).
  duint ve; [left; split; [intros ve' ad' vn' dv' pr' rv' st' sn' nm' sta' rest' Ha Hr Hn X; apply K in X; try assumption; lens; lia|short]|].
  draw ad; [left; split; [intros ve' ad' vn' dv' pr' rv' st' sn' nm' sta' rest' Ha Hr Hn X; apply K in X; try assumption; lens; lia|short]|].
  duint vn; [left; split; [intros ve' ad' vn' dv' pr' rv' st' sn' nm' sta' rest' Ha Hr Hn X; apply K in X; try assumption; lens; lia|short]|].
  duint dv; [left; split; [intros ve' ad' vn' dv' pr' rv' st' sn' nm' sta' rest' Ha Hr Hn X; apply K in X; try assumption; lens; lia|short]|].
  duint pr; [left; split; [intros ve' ad' vn' dv' pr' rv' st' sn' nm' sta' rest' Ha Hr Hn X; apply K in X; try assumption; lens; lia|short]|].
  draw rv; [left; split; [intros ve' ad' vn' dv' pr' rv' st' sn' nm' sta' rest' Ha Hr Hn X; apply K in X; try assumption; lens; lia|short]|].
  duint st; [left; split; [intros ve' ad' vn' dv' pr' rv' st' sn' nm' sta' rest' Ha Hr Hn X; apply K in X; try assumption; lens; lia|short]|].
  duint sn; [left; split; [intros ve' ad' vn' dv' pr' rv' st' sn' nm' sta' rest' Ha Hr Hn X; apply K in X; try assumption; lens; lia|short]|].
  duint n; [left; split; [intros ve' ad' vn' dv' pr' rv' st' sn' nm' sta' rest' Ha Hr Hn X; apply K in X; try assumption; lens; lia|short]|].
  pose proof (fits1_lt _ F5) as Fn.
  assert (K2 : forall ve' ad' vn' dv' pr' rv' st' sn' nm' sta' rest', len ad' = 16 -> len rv' = 2 -> len nm' < 256 ->
     le 2 ve ++ ad ++ le 2 vn ++ le 2 dv ++ le 2 pr ++ rv ++ le 2 st ++ le 4 sn ++ le 1 n ++ rest =
     identity_bytes ve' ad' vn' dv' pr' rv' st' sn' nm' sta' ++ rest' -> len nm' = n /\ rest = nm' ++ [octet sta'] ++ rest').
  { intros ve' ad' vn' dv' pr' rv' st' sn' nm' sta' rest' Ha Hr Hn X. unfold identity_bytes in X.
    repeat rewrite <- app_assoc in X. rewrite <- (le_1 (len nm') Hn) in X.
    apply (app_inj_len 2) in X; [|apply len_le..]. destruct X as [_ X].
    apply (app_inj_len 16) in X; [|assumption..]. destruct X as [_ X].
    apply (app_inj_len 2) in X; [|apply len_le..]. destruct X as [_ X].
    apply (app_inj_len 2) in X; [|apply len_le..]. destruct X as [_ X].
    apply (app_inj_len 2) in X; [|apply len_le..]. destruct X as [_ X].
    apply (app_inj_len 2) in X; [|assumption..]. destruct X as [_ X].
    apply (app_inj_len 2) in X; [|apply len_le..]. destruct X as [_ X].
    apply (app_inj_len 4) in X; [|apply len_le..]. destruct X as [_ X].
    apply le_app_inj in X; [|try apply fits1; assumption..]. destruct X as [-> X]. auto. }
  erewrite dbind_ret; [|reflexivity]. cbv beta.
  draw nm; [left; split; [intros ve' ad' vn' dv' pr' rv' st' sn' nm' sta' rest' Ha Hr Hn X; apply K2 in X; try assumption; destruct X as [<- ->]; lens; lia|short]|].
  duint sta.
  - left; split; [|short]. intros ve' ad' vn' dv' pr' rv' st' sn' nm' sta' rest' Ha Hr Hn X; apply K2 in X; try assumption.
    destruct X as [X1 X2]. apply app_eq_len in X2; [|congruence]. destruct X2 as [_ ->]. lens. lia.
  - right. exists ve, ad, vn, dv, pr, rv, st, sn, nm, sta; eexists.
    split; [repeat split; try assumption; try (apply fits1_lt; assumption); lia|].
    split.
    + unfold identity_bytes. repeat rewrite <- app_assoc. rewrite <- (le_1 (len nm)) by lia.
      rewrite <- (le_1 sta) by (apply fits1_lt; assumption). subst n. reflexivity.
    + cbn [id_set_version id_set_sockaddr id_set_vendor id_set_device id_set_product id_set_revision id_set_status id_set_serial id_set_name id_set_state
           id_version id_sockaddr id_vendor id_device id_product id_revision id_status id_serial id_name id_state].
      match goal with |- (_, _, RBuf (view_drop v ?a) ?b, _) = (_, _, RBuf (view_drop v ?a') ?b', _) =>
        replace a with a' by lia; replace b with b' by lia end. reflexivity.
Qed.

(** ** Forward open / forward close replies *)
Lemma fs_decode m v c f0 bs : reads m v bs ->
  ((forall o t sn vn os oa ta rs app rest, len app mod 2 = 0 -> len app < 512 ->
      bs <> forward_open_reply o t sn vn os oa ta rs app ++ rest) /\
   exists s r' f', fs_deserialize m (RBuf v c) f0 = (Throw LengthError s, m, r', f')) \/
  (exists o t sn vn os oa ta rs app rest,
     (fits 4 o /\ fits 4 t /\ fits 2 sn /\ fits 2 vn /\ fits 4 os /\ fits 4 oa /\ fits 4 ta /\
      len app mod 2 = 0 /\ len app < 512) /\
     bs = forward_open_reply o t sn vn os oa ta rs app ++ rest /\
     fs_deserialize m (RBuf v c) f0
     = (Ret tt, m, RBuf (view_drop v (26 + len app)) (c + (26 + len app)),
        mkFOS o t sn vn os oa ta (window v 26 (len app)))).
Proof.
  intros H. unfold fs_deserialize.
  assert (K : forall o t sn vn os oa ta rs app rest, len app mod 2 = 0 -> len app < 512 ->
     bs = forward_open_reply o t sn vn os oa ta rs app ++ rest -> 26 + len app <= len bs).
  { intros o t sn vn os oa ta rs app rest _ _ ->. unfold forward_open_reply. lens. lia. }
  Local Ltac fsfail K := left; split;
    [let X := fresh in intros ? ? ? ? ? ? ? ? ? ? ? ? X; apply K in X; try assumption; lens; lia|eexists; short].
  duint o; [fsfail K|]. duint t; [fsfail K|]. duint sn; [fsfail K|]. duint vn; [fsfail K|]. duint os; [fsfail K|].
  duint oa; [fsfail K|]. duint ta; [fsfail K|]. duint n; [fsfail K|]. draw rs; [fsfail K|].
  destruct rs as [|rs [|]]; try (rewrite ?len_cons, ?len_nil in *; lia).
  pose proof (fits1_lt _ F6) as Fn.
  assert (K2 : forall o' t' sn' vn' os' oa' ta' rs' app' rest', len app' mod 2 = 0 -> len app' < 512 ->
     le 4 o ++ le 4 t ++ le 2 sn ++ le 2 vn ++ le 4 os ++ le 4 oa ++ le 4 ta ++ le 1 n ++ [rs] ++ rest =
     forward_open_reply o' t' sn' vn' os' oa' ta' rs' app' ++ rest' -> len app' = 2 * n /\ rest = app' ++ rest').
  { intros o' t' sn' vn' os' oa' ta' rs' app' rest' H1 H2 X. unfold forward_open_reply in X.
    repeat rewrite <- app_assoc in X.
    apply (app_inj_len 4) in X; [|apply len_le..]. destruct X as [_ X].
    apply (app_inj_len 4) in X; [|apply len_le..]. destruct X as [_ X].
    apply (app_inj_len 2) in X; [|apply len_le..]. destruct X as [_ X].
    apply (app_inj_len 2) in X; [|apply len_le..]. destruct X as [_ X].
    apply (app_inj_len 4) in X; [|apply len_le..]. destruct X as [_ X].
    apply (app_inj_len 4) in X; [|apply len_le..]. destruct X as [_ X].
    apply (app_inj_len 4) in X; [|apply len_le..]. destruct X as [_ X].
    rewrite le_1 in X by assumption. cbn [List.app] in X. injection X as X1 X2 X3.
    apply octet_inj in X1; [|lia..]. split; [lia|assumption]. }
  destruct (N.ltb_spec 0 n) as [Hn|Hn].
  - draw app.
    + left; split; [|eexists; short]. intros o' t' sn' vn' os' oa' ta' rs' app' rest' H1 H2 X.
      apply K2 in X; try assumption. destruct X as [X ->]. lens. lia.
    + right. exists o, t, sn, vn, os, oa, ta, rs, app; eexists.
      split; [repeat split; try assumption; lia|]. split.
      * unfold forward_open_reply. repeat rewrite <- app_assoc. replace (len app / 2) with n by lia.
        rewrite (le_1 n) by assumption. cbn [List.app]. repeat rewrite <- app_assoc. reflexivity.
      * unfold dmod. cbn [fs_set_o2t_id fs_set_t2o_id fs_set_conn_sn fs_set_vendor fs_set_orig_sn fs_set_o2t_api fs_set_t2o_api fs_set_data
           fs_o2t_id fs_t2o_id fs_conn_sn fs_vendor fs_orig_sn fs_o2t_api fs_t2o_api fs_data].
        rewrite <- L0. rewrite window_pos by lia. cnt.
  - assert (n = 0) by lia. subst n. right. exists o, t, sn, vn, os, oa, ta, rs, []; eexists.
    split; [repeat split; try assumption; cbn; lia|]. split.
    + unfold forward_open_reply. repeat rewrite <- app_assoc. cbn [List.app].
      repeat rewrite <- app_assoc. reflexivity.
    + change (len (@nil byte)) with 0. unfold dmod.
      cbn [fs_set_o2t_id fs_set_t2o_id fs_set_conn_sn fs_set_vendor fs_set_orig_sn fs_set_o2t_api fs_set_t2o_api fs_set_data
           fs_o2t_id fs_t2o_id fs_conn_sn fs_vendor fs_orig_sn fs_o2t_api fs_t2o_api fs_data].
      cnt.
Qed.

Lemma cs_decode m v c f0 bs : reads m v bs ->
  ((forall sn vn os rs app rest, len app mod 2 = 0 -> len app < 512 ->
      bs <> forward_close_reply sn vn os rs app ++ rest) /\
   exists s r' f', cs_deserialize m (RBuf v c) f0 = (Throw LengthError s, m, r', f')) \/
  (exists sn vn os rs app rest,
     (fits 2 sn /\ fits 2 vn /\ fits 4 os /\ len app mod 2 = 0 /\ len app < 512) /\
     bs = forward_close_reply sn vn os rs app ++ rest /\
     cs_deserialize m (RBuf v c) f0
     = (Ret tt, m, RBuf (view_drop v (10 + len app)) (c + (10 + len app)),
        mkFCS sn vn os (window v 10 (len app)))).
Proof.
  intros H. unfold cs_deserialize.
  assert (K : forall sn vn os rs app rest, len app mod 2 = 0 -> len app < 512 ->
     bs = forward_close_reply sn vn os rs app ++ rest -> 10 + len app <= len bs).
  { intros sn vn os rs app rest _ _ ->. unfold forward_close_reply. lens. lia. }
  Local Ltac csfail K := left; split;
    [let X := fresh in intros ? ? ? ? ? ? ? ? X; apply K in X; try assumption; lens; lia|eexists; short].
  duint sn; [csfail K|]. duint vn; [csfail K|]. duint os; [csfail K|].
  duint n; [csfail K|]. draw rs; [csfail K|].
  destruct rs as [|rs [|]]; try (rewrite ?len_cons, ?len_nil in *; lia).
  pose proof (fits1_lt _ F2) as Fn.
  assert (K2 : forall sn' vn' os' rs' app' rest', len app' mod 2 = 0 -> len app' < 512 ->
     le 2 sn ++ le 2 vn ++ le 4 os ++ le 1 n ++ [rs] ++ rest =
     forward_close_reply sn' vn' os' rs' app' ++ rest' -> len app' = 2 * n /\ rest = app' ++ rest').
  { intros sn' vn' os' rs' app' rest' H1 H2 X. unfold forward_close_reply in X.
    repeat rewrite <- app_assoc in X.
    apply (app_inj_len 2) in X; [|apply len_le..]. destruct X as [_ X].
    apply (app_inj_len 2) in X; [|apply len_le..]. destruct X as [_ X].
    apply (app_inj_len 4) in X; [|apply len_le..]. destruct X as [_ X].
    rewrite le_1 in X by assumption. cbn [List.app] in X. injection X as X1 X2 X3.
    apply octet_inj in X1; [|lia..]. split; [lia|assumption]. }
  destruct (N.ltb_spec 0 n) as [Hn|Hn].
  - draw app.
    + left; split; [|eexists; short]. intros sn' vn' os' rs' app' rest' H1 H2 X.
      apply K2 in X; try assumption. destruct X as [X ->]. lens. lia.
    + right. exists sn, vn, os, rs, app; eexists.
      split; [repeat split; try assumption; lia|]. split.
      * unfold forward_close_reply. repeat rewrite <- app_assoc. replace (len app / 2) with n by lia.
        rewrite (le_1 n) by assumption. cbn [List.app]. repeat rewrite <- app_assoc. reflexivity.
      * unfold dmod. cbn [cs_conn_sn cs_vendor cs_orig_sn cs_data].
        rewrite <- L0. rewrite window_pos by lia. cnt.
  - assert (n = 0) by lia. subst n. right. exists sn, vn, os, rs, []; eexists.
    split; [repeat split; try assumption; cbn; lia|]. split.
    + unfold forward_close_reply. repeat rewrite <- app_assoc. cbn [List.app].
      repeat rewrite <- app_assoc. reflexivity.
    + change (len (@nil byte)) with 0. unfold dmod. cbn [cs_conn_sn cs_vendor cs_orig_sn cs_data]. cnt.
Qed.
