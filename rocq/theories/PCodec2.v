(** More codec properties: CPF, unconnected messages, paths, connection management. *)
From Verif Require Export PCodec.

(** ** CPF *)
Lemma item_window m v x rest : reads m v (item x ++ rest) -> holds m (window v 4 (len (snd x))) (snd x).
Proof.
  intros R. replace (snd x) with (take (len (snd x)) (drop 4 (item x ++ rest))) at 2.
  - apply window_holds; [assumption|]. rewrite len_app, len_item. lia.
  - unfold item. repeat rewrite <- app_assoc. rewrite app_assoc, (drop_app 4) by (rewrite len_app, !len_le; reflexivity). apply take_app_len.
Qed.
Lemma item_rest m v x rest : reads m v (item x ++ rest) -> reads m (view_drop v (4 + len (snd x))) rest.
Proof. intros R. pose proof (reads_drop _ _ _ (4 + len (snd x)) R) as D. rewrite (drop_app _ (item x)) in D by apply len_item. exact D. Qed.
Lemma item_decode m v c i0 bs : reads m v bs ->
  (exists x rest i, item_ok x /\ bs = item x ++ rest /\
     it_deserialize m (RBuf v c) i0 = (Ret tt, m, RBuf (view_drop v (4 + len (snd x))) (c + (4 + len (snd x))), i) /\
     item_is m i x /\ reads m (view_drop v (4 + len (snd x))) rest) \/
  ((forall x rest, item_ok x -> bs <> item x ++ rest) /\
   exists s r i, it_deserialize m (RBuf v c) i0 = (Throw LengthError s, m, r, i)).
Proof.
  intros R. destruct (it_decode m v c i0 bs R) as [[N (r & i & E)]|(ty & d & rest & O & -> & Rr & E)].
  - right. split; [assumption|]. rewrite E. do 3 eexists. reflexivity.
  - left. exists (ty, d), rest. eexists. split; [assumption|]. split; [reflexivity|]. split; [exact E|].
    split; [split; [reflexivity|apply (item_window m v (ty, d) rest R)]|exact Rr].
Qed.
Lemma item_decode_len m v c i0 bs n : reads m v bs ->
  (exists x rest i, item_ok x /\ bs = item x ++ rest /\ 4 + len (snd x) <= n /\
     it_deserialize_len n m (RBuf v c) i0 = (Ret tt, m, RBuf (view_drop v (4 + len (snd x))) (c + (4 + len (snd x))), i) /\
     item_is m i x) \/
  ((forall x rest, item_ok x -> 4 + len (snd x) <= n -> bs <> item x ++ rest) /\
   exists s r i, it_deserialize_len n m (RBuf v c) i0 = (Throw LengthError s, m, r, i)).
Proof.
  intros R. destruct (it_decode_len m v c i0 bs n R) as [[N (s & r & i & E)]|(ty & d & rest & O & Ln & -> & E)].
  - right. split; [intros x rest O L; apply N; [assumption|rewrite len_item; assumption]|eauto].
  - left. exists (ty, d), rest. eexists. split; [assumption|]. split; [reflexivity|]. rewrite len_item in Ln. split; [assumption|].
    split; [exact E|]. split; [reflexivity|apply (item_window m v (ty, d) rest R)].
Qed.
Lemma cpf_packet_decode m v c p0 bs : reads m v bs ->
  (exists xs rest p, cpf_ok xs /\ bs = cpf xs ++ rest /\
     cpf_deserialize m (RBuf v c) p0 = (Ret tt, m, RBuf (view_drop v (len (cpf xs))) (c + len (cpf xs)), p) /\
     Forall2 (item_is m) p xs /\ reads m (view_drop v (len (cpf xs))) rest) \/
  ((forall xs rest, cpf_ok xs -> bs <> cpf xs ++ rest) /\
   exists s r p, cpf_deserialize m (RBuf v c) p0 = (Throw LengthError s, m, r, p)).
Proof.
  intros R. destruct (cpf_decode m v c p0 bs R) as [[N (r & p & E)]|(xs & rest & O & -> & E)].
  - right. split; [assumption|]. rewrite E. do 3 eexists. reflexivity.
  - left. exists xs, rest. eexists. split; [assumption|]. split; [reflexivity|]. split; [exact E|].
    split; [eapply cpf_windows_is; exact R|].
    pose proof (reads_drop _ _ _ (len (cpf xs)) R) as D. rewrite drop_app_len in D. exact D.
Qed.
Lemma items_carry m p xs : Forall2 (item_is m) p xs -> Forall2 (item_carries m) p xs.
Proof. induction 1; constructor; [apply item_is_carries; assumption|assumption]. Qed.
Lemma item_ok_small xs : Forall item_ok xs -> Forall (fun x => len (snd x) < 65536) xs.
Proof. induction 1 as [|x xs [_ H] _ IH]; constructor; assumption. Qed.
Lemma cpf_roundtrip m its xs : Forall2 (item_carries m) its xs -> cpf_ok xs ->
  carries m (cpf_ser its) (cpf xs) /\
  forall m' v c p0 rest, reads m' v (cpf xs ++ rest) ->
    exists p, cpf_deserialize m' (RBuf v c) p0
      = (Ret tt, m', RBuf (view_drop v (len (cpf xs))) (c + len (cpf xs)), p) /\ Forall2 (item_is m') p xs.
Proof.
  intros H O. split; [apply cpf_carries; [assumption|apply item_ok_small, O]|]. intros m' v c p0 rest R.
  destruct (cpf_packet_decode m' v c p0 _ R) as [(ys & r & p & Oy & E & X & W & _)|[N _]].
  - apply cpf_inj in E; [|assumption..]. destruct E as [<- _]. eauto.
  - exfalso. eapply N; [exact O|reflexivity].
Qed.
Lemma cpf_canonical m v c p0 bs r p : reads m v bs -> cpf_deserialize m (RBuf v c) p0 = (Ret tt, m, r, p) ->
  exists used rest, bs = used ++ rest /\ r = RBuf (view_drop v (len used)) (c + len used) /\ carries m (cpf_ser p) used.
Proof.
  intros R E. destruct (cpf_packet_decode m v c p0 bs R) as [(xs & rest & q & O & -> & X & W & _)|[_ (s & r' & p' & X)]]; [|congruence].
  rewrite X in E. injection E as <- <-. exists (cpf xs), rest. split; [reflexivity|]. split; [reflexivity|].
  apply cpf_carries; [apply items_carry; assumption|apply item_ok_small, O].
Qed.

(** ** Router replies *)
Lemma reply_decode_all m v t bs : reads m v bs -> len bs < 2147483648 ->
  (exists sv rs st a d s, reply_ok sv rs st a /\ bs = router_reply sv rs st a d /\
     ms_deserialize_len (len bs) m (RBuf v 0) t = (Ret tt, m, RBuf (view_drop v (len bs)) (len bs), s) /\
     ms_service s = sv /\ ms_status s = st /\ holds m (ms_additional s) a /\ holds m (ms_data s) d) \/
  ((forall sv rs st a d, reply_ok sv rs st a -> bs <> router_reply sv rs st a d) /\
   exists e r s, ms_deserialize_len (len bs) m (RBuf v 0) t = (Throw LengthError e, m, r, s)).
Proof.
  intros R L. destruct (ms_decode m v t bs R L) as [[N (r & s & E)]|(sv & rs & st & a & d & O & Eb & E)].
  - right. split; [assumption|]. rewrite E. do 3 eexists. reflexivity.
  - left. exists sv, rs, st, a, d. eexists. split; [assumption|]. split; [assumption|]. split; [exact E|].
    destruct (router_reply_split sv rs st a d O) as (L1 & L2 & L3). rewrite Eb in *.
    split; [reflexivity|]. split; [reflexivity|]. cbn [ms_additional ms_data]. split.
    + rewrite <- L2 at 2. apply window_holds; [assumption|lia].
    + rewrite <- L3 at 2. apply window_whole; [assumption|lia].
Qed.

(** The reader has already consumed [c] bytes. *)
Lemma reply_decode_count m v t c sv rs st a d : reply_ok sv rs st a -> len d < 2147483648 -> c < 2147483648 ->
  reads m v (router_reply sv rs st a d) ->
  exists r, ms_deserialize_len (len (router_reply sv rs st a d)) m (RBuf v c) t
    = (Ret tt, m, r, mkMRR sv st (window v 4 (len a)) (window v (4 + len a) (len d - c))).
Proof.
  intros O L Lc H. destruct (router_reply_split sv rs st a d O) as (L1 & _ & _). rewrite L1. clear L1.
  rewrite router_reply_le in H by assumption. destruct O as (O1 & O2 & O3 & O4 & O5). unfold ms_deserialize_len.
  assert (F : fits 1 (len a / 2)) by (apply fits1; lia).
  apply fits1 in O1, O2, O3.
  erewrite dbind_ret; [|eapply int_buffer_read; [|exact H]; assumption].
  pose proof (reads_drop _ _ _ 1 H) as H1. rewrite (drop_app 1) in H1 by apply len_le.
  erewrite dbind_ret; [|eapply int_buffer_read; [|exact H1]; assumption].
  pose proof (reads_drop _ _ _ 1 H1) as H2. rewrite (drop_app 1) in H2 by apply len_le.
  erewrite dbind_ret; [|eapply int_buffer_read; [|exact H2]; assumption].
  pose proof (reads_drop _ _ _ 1 H2) as H3. rewrite (drop_app 1) in H3 by apply len_le.
  match goal with |- context [dbind (rd_local 1) ?f m (RBuf ?vv ?cc) ?tt] =>
    destruct (buf_local 1 m vv cc tt _ H3) as [[X _]|(x & r & X & Fx & R4 & E)] end; [lens; lia|].
  apply le_app_inj in X; [|assumption..]. destruct X as [<- <-]. erewrite dbind_ret by exact E. clear E.
  replace (2 * (len a / 2)) with (len a) by lia.
  match goal with |- context [dbind (ms_readData (len a)) ?f m (RBuf ?vv ?cc) ?tt] =>
    destruct (ms_readData_ok m vv cc tt _ (len a) R4) as [[X _]|(a' & d' & X & La & R5 & E)] end; [lia|lens; lia|].
  apply app_eq_len in X; [|congruence]. destruct X as [<- <-]. erewrite dbind_ret by exact E. clear E.
  erewrite dbind_ret; [|reflexivity]. erewrite dbind_ret; [|reflexivity].
  rewrite !view_drop_drop in *. rewrite !window_drop, ?N.add_0_r.
  match goal with |- context [ms_readData ?n] => set (k := n) end.
  destruct (N.le_gt_cases c (len d)) as [Hc|Hc].
  - assert (K : k = len d - c).
    { unfold k. rewrite sub_wrap; lia. }
    rewrite K.
    match goal with |- context [dbind (ms_readData ?n) ?f m (RBuf ?vv ?cc) ?tt] =>
      destruct (ms_readData_ok m vv cc tt _ n R5) as [[X _]|(d1 & d2 & X & Ld & _ & E)] end; [lia|lia|].
    erewrite dbind_ret by exact E. unfold dmod. cbn [ms_set_service ms_set_status ms_set_additional ms_set_data ms_service ms_status ms_additional ms_data].
    eexists. unfold ms_set_data, ms_set_additional, ms_set_status, ms_set_service. cbn [ms_service ms_status ms_additional ms_data].
    rewrite window_drop. replace (N.of_nat 1 + (N.of_nat 1 + (N.of_nat 1 + (N.of_nat 1 + len a))) + 0) with (4 + len a) by lia.
    reflexivity.
  - assert (K : positive_int k = None).
    { unfold positive_int, k, u64. 
      replace ((4 + len a + len d + 18446744073709551616 - (c + N.of_nat 1 + N.of_nat 1 + N.of_nat 1 + N.of_nat 1 + len a)) mod 18446744073709551616)
        with (18446744073709551616 - (c - len d)) by (rewrite N.mod_small; lia).
      destruct (N.ltb_spec 0 ((18446744073709551616 - (c - len d)) mod 4294967296)); [|reflexivity].
      destruct (N.ltb_spec ((18446744073709551616 - (c - len d)) mod 4294967296) 2147483648); [|reflexivity].
      exfalso. lia. }
    unfold ms_readData at 1. rewrite K. erewrite dbind_ret; [|reflexivity]. unfold dmod.
    unfold ms_set_data, ms_set_additional, ms_set_status, ms_set_service. cbn [ms_service ms_status ms_additional ms_data].
    eexists. replace (len d - c) with 0 by lia. rewrite window_0. reflexivity.
Qed.
(** Response data of 2 GiB or more is dropped: readData takes an int. *)
Lemma reply_decode_huge m v t sv rs st a d : reply_ok sv rs st a -> 2147483648 <= len d < 4294967296 ->
  reads m v (router_reply sv rs st a d) ->
  exists r s, ms_deserialize_len (len (router_reply sv rs st a d)) m (RBuf v 0) t = (Ret tt, m, r, s) /\ ms_data s = None.
Proof.
  intros O L H. destruct (router_reply_split sv rs st a d O) as (L1 & _ & _). rewrite L1. clear L1.
  rewrite router_reply_le in H by assumption. destruct O as (O1 & O2 & O3 & O4 & O5). unfold ms_deserialize_len.
  assert (F : fits 1 (len a / 2)) by (apply fits1; lia).
  apply fits1 in O1, O2, O3.
  erewrite dbind_ret; [|eapply int_buffer_read; [|exact H]; assumption].
  pose proof (reads_drop _ _ _ 1 H) as H1. rewrite (drop_app 1) in H1 by apply len_le.
  erewrite dbind_ret; [|eapply int_buffer_read; [|exact H1]; assumption].
  pose proof (reads_drop _ _ _ 1 H1) as H2. rewrite (drop_app 1) in H2 by apply len_le.
  erewrite dbind_ret; [|eapply int_buffer_read; [|exact H2]; assumption].
  pose proof (reads_drop _ _ _ 1 H2) as H3. rewrite (drop_app 1) in H3 by apply len_le.
  match goal with |- context [dbind (rd_local 1) ?f m (RBuf ?vv ?cc) ?tt] =>
    destruct (buf_local 1 m vv cc tt _ H3) as [[X _]|(x & r & X & Fx & R4 & E)] end; [lens; lia|].
  apply le_app_inj in X; [|assumption..]. destruct X as [<- <-]. erewrite dbind_ret by exact E. clear E.
  replace (2 * (len a / 2)) with (len a) by lia.
  match goal with |- context [dbind (ms_readData (len a)) ?f m (RBuf ?vv ?cc) ?tt] =>
    destruct (ms_readData_ok m vv cc tt _ (len a) R4) as [[X _]|(a' & d' & X & La & R5 & E)] end; [lia|lens; lia|].
  apply app_eq_len in X; [|congruence]. destruct X as [<- <-]. erewrite dbind_ret by exact E. clear E.
  erewrite dbind_ret; [|reflexivity]. erewrite dbind_ret; [|reflexivity].
  match goal with |- context [ms_readData ?n] => set (k := n) end.
  assert (K : positive_int k = None).
  { assert (Ek : k = len d) by (unfold k; rewrite sub_wrap; lia). rewrite Ek. unfold positive_int.
    rewrite N.mod_small by lia. destruct (N.ltb_spec (len d) 2147483648); [lia|]. rewrite andb_false_r. reflexivity. }
  unfold ms_readData at 1. rewrite K. erewrite dbind_ret; [|reflexivity]. do 2 eexists. split; reflexivity.
Qed.

(** ** Unconnected replies *)
Lemma rr_reply_decode m v c t bs : reads m v bs ->
  (exists i to xs rest d sv rs st a q t', rr_ok i to xs /\ bs = rr i to xs ++ rest /\ unconnected xs d /\
     reply_ok sv rs st a /\ d = router_reply sv rs st a q /\
     rrs_deserialize m (RBuf v c) t
     = (Ret tt, m, RBuf (view_drop v (len (rr i to xs))) (c + len (rr i to xs)), t') /\
     rr_reply_is m t' i to sv st a q) \/
  ((forall i to xs rest d sv rs st a q, rr_ok i to xs -> bs = rr i to xs ++ rest -> unconnected xs d ->
      reply_ok sv rs st a -> d <> router_reply sv rs st a q) /\
   (((forall i to xs rest, rr_ok i to xs -> bs = rr i to xs ++ rest -> ~ unconnected xs []) /\
     exists e s r t', is_a e LogicError = true /\ rrs_deserialize m (RBuf v c) t = (Throw e s, m, r, t')) \/
    (exists i to xs rest r t', rr_ok i to xs /\ bs = rr i to xs ++ rest /\ unconnected xs [] /\
       rrs_deserialize m (RBuf v c) t = (Undef NullDeref, m, r, t')))).
Proof.
  intros R. destruct (rrs_decode m v c t bs R) as [[N (r & t' & E)]|(i & to & xs & rest & O & Eb & [[N (s & r & t' & E)]|[[U (r & t' & E)]|(d & U & Z & [[N (r & t' & E)]|(sv & rs & st & a & q & Oq & Ed & E)])]])].
  - right. split; [intros i to xs rest d sv rs st a q O Eb; exfalso; exact (N _ _ _ _ O Eb)|].
    left. split; [intros i to xs rest O Eb; exfalso; exact (N _ _ _ _ O Eb)|].
    rewrite E. do 4 eexists. split; [|reflexivity]. reflexivity.
  - right. split.
    + intros i' to' xs' rest' d sv rs st a q O' Eb' U. rewrite Eb in Eb'. apply rr_inj in Eb'; [|assumption..].
      destruct Eb' as [X _]. injection X as <- <- <-. exfalso. exact (N d U).
    + left. split.
      { intros i' to' xs' rest' O' Eb' U. rewrite Eb in Eb'. apply rr_inj in Eb'; [|assumption..].
        destruct Eb' as [X _]. injection X as <- <- <-. exact (N [] U). }
      rewrite E. do 4 eexists. split; [|reflexivity]. reflexivity.
  - right. split.
    + intros i' to' xs' rest' d sv rs st a q O' Eb' U' _ Ed. rewrite Eb in Eb'. apply rr_inj in Eb'; [|assumption..].
      destruct Eb' as [X _]. injection X as <- <- <-. destruct U as [tl ->], U' as [tl' X].
      assert (X' : d = []) by congruence. rewrite X' in Ed. unfold router_reply in Ed. discriminate.
    + right. exists i, to, xs, rest, r, t'. auto.
  - right. split.
    + intros i' to' xs' rest' d' sv rs st a q O' Eb' U' Oq Ed. rewrite Eb in Eb'. apply rr_inj in Eb'; [|assumption..].
      destruct Eb' as [X _]. injection X as <- <- <-. destruct U as [tl ->], U' as [tl' X].
      assert (X' : d' = d) by congruence. rewrite X' in Ed. exact (N _ _ _ _ _ Oq Ed).
    + left. split.
      { intros i' to' xs' rest' O' Eb' U'. rewrite Eb in Eb'. apply rr_inj in Eb'; [|assumption..].
        destruct Eb' as [X _]. injection X as <- <- <-. destruct U as [tl ->], U' as [tl' X]. congruence. }
      rewrite E. do 4 eexists. split; [|reflexivity]. reflexivity.
  - left. exists i, to, xs, rest, d, sv, rs, st, a, q. eexists. do 5 (split; [assumption|]). split; [exact E|].
    unfold rr_reply_is. cbn [rr_iface rr_timeout rr_ext ms_service ms_status ms_additional ms_data].
    repeat (split; [reflexivity|]).
    destruct (router_reply_split sv rs st a q Oq) as (L1 & L2 & L3).
    assert (D : exists tl, drop 16 bs = d ++ tl).
    { destruct U as [tl ->]. exists (items tl ++ rest). rewrite Eb. unfold rr, cpf. repeat rewrite <- app_assoc.
      rewrite !items_cons. unfold item. cbn [fst snd]. rewrite app_nil_r. repeat rewrite <- app_assoc.
      rewrite (app_assoc (le 4 i)), (app_assoc _ (le 2 (len _))), (app_assoc _ (le 2 0)), (app_assoc _ (le 2 (len []))),
        (app_assoc _ (le 2 178)), (app_assoc _ (le 2 (len d))).
      apply drop_app. rewrite !len_app, !len_le. reflexivity. }
    destruct D as [tl D].
    assert (LB : 16 + (4 + len a + len q) + len tl = len bs).
    { pose proof (f_equal len D) as X. rewrite len_drop, len_app, Ed, L1 in X. lia. }
    split.
    + replace a with (take (len a) (drop 20 bs)) at 2.
      * apply window_holds; [assumption|lia].
      * change 20 with (16 + 4). rewrite <- drop_drop, D, Ed. unfold router_reply. repeat rewrite <- app_assoc.
        rewrite (drop_app 4) by reflexivity. apply take_app_len.
    + replace q with (take (len q) (drop (20 + len a) bs)) at 2.
      * apply window_holds; [assumption|lia].
      * replace (20 + len a) with (16 + (4 + len a)) by lia. rewrite <- drop_drop, D, Ed.
        unfold router_reply. repeat rewrite <- app_assoc. rewrite <- drop_drop, (drop_app 4) by reflexivity.
        rewrite drop_app_len. apply take_app_len.
Qed.

(** ** Paths *)
Lemma path_ops ops : forall p pad ss, Forall path_op_ok ops -> p = path_of pad ss ->
  fold_left do_path ops p = path_of (fst (fold_left path_spec ops (pad, ss))) (snd (fold_left path_spec ops (pad, ss))).
Proof.
  induction ops as [|o ops IH]; intros p pad ss F ->; [reflexivity|]. cbn [fold_left].
  pose proof (Forall_inv F) as Fo. pose proof (Forall_inv_tail F) as Ft.
  destruct o as [s| |b]; cbn [do_path path_spec fst snd].
  - apply IH; [assumption|]. destruct (add_segment_of s (path_of pad ss) Fo) as [H1 H2].
    destruct (add_segment s (path_of pad ss)) as [pd bf]. cbn [p_buf p_pad path_of] in *. subst. unfold path_of.
    rewrite flat_map_app. cbn [flat_map]. rewrite app_nil_r. reflexivity.
  - apply IH; [assumption|]. reflexivity.
  - apply IH; [assumption|]. reflexivity.
Qed.
Lemma path_build m ops pad : Forall path_op_ok ops ->
  let ss := snd (fold_left path_spec ops (pad, [])) in
  let pd := fst (fold_left path_spec ops (pad, [])) in
  let p := fold_left do_path ops (path_empty pad) in
  len ss < 256 ->
  path_getLength p = len (epath pd ss) /\ writes m (path_serialize p) (epath pd ss).
Proof.
  intros F ss pd p L. assert (E : p = path_of pd ss) by (apply path_ops; [assumption|reflexivity]).
  rewrite E. split; [apply path_length|apply path_serialize_writes; assumption].
Qed.
Lemma path_build_bytes ops pad : Forall path_op_ok ops ->
  let ss := snd (fold_left path_spec ops (pad, [])) in
  let p := fold_left do_path ops (path_empty pad) in
  let pd := fst (fold_left path_spec ops (pad, [])) in
  forall m, writes m (path_serialize p) ([octet (len ss mod 256)] ++ (if pd then [x00] else []) ++ flat_map segment_bytes ss).
Proof.
  intros F ss p pd m. assert (E : p = path_of pd ss) by (apply path_ops; [assumption|reflexivity]).
  rewrite E. unfold path_serialize, path_serialize_pad. cbn [p_buf p_pad path_of]. rewrite len_segments.
  replace (2 * len ss / 2) with (len ss) by lia.
  assert (B : len ss mod 256 < 256) by (apply N.mod_lt; discriminate).
  apply writes_seq; [rewrite <- le_1 by assumption; apply (writes_uint m 1 (u8 (len ss)))|].
  apply writes_seq; [|apply writes_bytes].
  destruct pd; [apply (writes_uint m 1 0)|apply writes_ret].
Qed.

(** ** Connection parameters *)
Lemma lor_disjoint a x k : a < 2 ^ k -> N.lor a (N.shiftl x k) = a + x * 2 ^ k.
Proof.
  intros H. rewrite N.shiftl_mul_pow2. rewrite <- N.lxor_lor, <- N.add_nocarry_lxor; [reflexivity|..].
  all: apply N.bits_inj; intros n; rewrite N.land_spec, N.bits_0; destruct (N.lt_ge_cases n k) as [K|K];
    [rewrite N.mul_pow2_bits_low by assumption; apply andb_false_r|].
  all: destruct (N.eq_dec a 0) as [->|Hz]; [rewrite N.bits_0; reflexivity|].
  all: rewrite (N.bits_above_log2 a); [reflexivity|]; apply N.log2_lt_pow2; [lia|];
    apply N.lt_le_trans with (2 ^ k); [assumption|]; apply N.pow_le_mono_r; [discriminate|assumption].
Qed.
Lemma params_word size variable priority type shared :
  calcConnectionParams size variable priority type shared
  = parameter_word (size mod 2 ^ 15) variable (priority mod 4) (type mod 4) shared.
Proof.
  unfold calcConnectionParams, parameter_word.
  change 0x7FFF with (N.ones 15). change 0x03 with (N.ones 2). rewrite !N.land_ones. change (2 ^ 2) with 4.
  assert (S : size mod 2 ^ 15 < 2 ^ 15) by (apply N.mod_lt; discriminate).
  assert (P : priority mod 4 < 4) by (apply N.mod_lt; discriminate).
  assert (T : type mod 4 < 4) by (apply N.mod_lt; discriminate).
  revert S P T. generalize (size mod 2 ^ 15) (priority mod 4) (type mod 4). intros s p t S P T.
  replace (if variable then 0x2000000 else 0) with (N.shiftl (if variable then 1 else 0) 25) by (destruct variable; reflexivity).
  replace (if shared then 0x80000000 else 0) with (N.shiftl (if shared then 1 else 0) 31) by (destruct shared; reflexivity).
  change (2 ^ 15) with 32768 in S.
  rewrite (lor_disjoint s (if variable then 1 else 0) 25) by (change (2 ^ 25) with 33554432; clear - S; lia). change (2 ^ 25) with 33554432.
  rewrite (lor_disjoint _ p 26) by (change (2 ^ 26) with 67108864; destruct variable; lia). change (2 ^ 26) with 67108864.
  rewrite (lor_disjoint _ t 29) by (change (2 ^ 29) with 536870912; destruct variable; lia). change (2 ^ 29) with 536870912.
  rewrite (lor_disjoint _ (if shared then 1 else 0) 31) by (change (2 ^ 31) with 2147483648; destruct variable; lia). change (2 ^ 31) with 2147483648.
  unfold u32. rewrite N.mod_small; destruct variable, shared; lia.
Qed.
Lemma params_fields size variable priority type shared : size < 2 ^ 15 -> priority < 4 -> type < 4 ->
  let w := calcConnectionParams size variable priority type shared in
  fits 4 w /\ w mod 2 ^ 25 = size /\ (w / 2 ^ 25) mod 2 = (if variable then 1 else 0) /\ (w / 2 ^ 26) mod 4 = priority /\
  (w / 2 ^ 28) mod 2 = 0 /\ (w / 2 ^ 29) mod 4 = type /\ w / 2 ^ 31 = (if shared then 1 else 0).
Proof.
  intros S P T w. unfold w. rewrite params_word. rewrite (N.mod_small size), (N.mod_small priority), (N.mod_small type) by assumption.
  unfold parameter_word. change (2 ^ 15) with 32768 in *. change (2 ^ 25) with 33554432. change (2 ^ 26) with 67108864.
  change (2 ^ 28) with 268435456. change (2 ^ 29) with 536870912. change (2 ^ 31) with 2147483648.
  split; [apply fits4; destruct variable, shared; lia|].
  destruct variable, shared; repeat split; lia.
Qed.
Lemma params_size size variable priority type shared : size < 65536 ->
  (calcConnectionParams size variable priority type shared mod 65536 = size <-> size < 32768).
Proof.
  intros S. rewrite params_word. unfold parameter_word. change (2 ^ 15) with 32768. change (2 ^ 25) with 33554432. change (2 ^ 26) with 67108864.
  change (2 ^ 29) with 536870912. change (2 ^ 31) with 2147483648.
  assert (P : priority mod 4 < 4) by (apply N.mod_lt; discriminate).
  assert (T : type mod 4 < 4) by (apply N.mod_lt; discriminate).
  revert P T. generalize (priority mod 4) (type mod 4). intros p t P T.
  destruct variable, shared; lia.
Qed.
