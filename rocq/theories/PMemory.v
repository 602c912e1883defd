(** Sequenced items, typed extraction and memory management of raw buffers. *)
From Verif Require Export Vocab3 PCodec3.

(** ** C30, C31 *)
Lemma seq_read {T} m r r' (q : seqitem T) num :
  (forall U get set (t : U), rd_uint 2 get set m r t = (Ret tt, m, r', set num t)) -> sq_busy q = false ->
  forall c : cls T,
  (forall o m' r'' b, c_des c m r' (sq_base q) = (o, m', r'', b) ->
     exists f, sq_deserialize c m r q = (o, m', r'', mkSeq b num f) /\ (o = Ret tt -> f = false) /\ (o <> Ret tt -> f = true)) /\
  (forall n o m' r'' b, own_length c -> 2 <= n -> n < 18446744073709551616 -> deserialize_len c (n - 2) m r' (sq_base q) = (o, m', r'', b) ->
     exists f, deserialize_len (sq_cls c) n m r q = (o, m', r'', mkSeq b num f) /\ (o = Ret tt -> f = false) /\ (o <> Ret tt -> f = true)).
Proof.
  intros R B c. destruct q as [b0 n0 bz]. cbn [sq_busy sq_base] in *. subst bz. split.
  - intros o m' r'' b E. unfold sq_deserialize, dbind, dget. cbn [sq_busy]. rewrite R.
    unfold dmod, on_base, dzoom. cbn [sq_put_num sq_put_busy sq_base sq_num]. rewrite E.
    destruct o as [[]|e s|u|]; (eexists; split; [reflexivity|split; [intros X; try discriminate X; reflexivity|intros X; try reflexivity; congruence]]).
  - intros n o m' r'' b OL H1 H2 E. unfold deserialize_len, sq_cls. cbn [c_deslen]. unfold sq_deserialize_len, dbind, dget. cbn [sq_busy].
    rewrite R. unfold dmod. cbn [sq_put_num sq_put_busy sq_base sq_num].
    assert (S : sq_sublen n = n - 2).
    { unfold sq_sublen, u64. replace (n + 18446744073709551616 - 2) with (n - 2 + 1 * 18446744073709551616) by lia.
      rewrite N.mod_add by lia. apply N.mod_small. lia. }
    rewrite S. unfold sq_base_deslen. unfold deserialize_len in E. unfold own_length in OL. destruct (c_deslen c) as [g|check].
    + unfold on_base, dzoom. cbn [sq_base sq_put_num sq_put_busy sq_num]. rewrite E.
      destruct o as [[]|e s|u|]; (eexists; split; [reflexivity|split; [intros X; try discriminate X; reflexivity|intros X; try reflexivity; congruence]]).
    + rewrite (OL 2 (n - 2)). destruct (check 0 (n - 2)) as [[e s]|].
      * unfold dthrow in *. injection E as <- <- <- <-.
        eexists; split; [reflexivity|split; [intros X; try discriminate X; reflexivity|intros X; try reflexivity; congruence]].
      * unfold sq_deserialize, dbind, dget, on_base, dzoom. cbn [sq_busy sq_base sq_put_num sq_put_busy sq_num]. rewrite E.
        destruct o as [[]|e s|u|]; (eexists; split; [reflexivity|split; [intros X; try discriminate X; reflexivity|intros X; try reflexivity; congruence]]).
Qed.
Lemma seq_decode_buffer {T} (c : cls T) m v cnt b0 n0 num rest : fits 2 num -> reads m v (le 2 num ++ rest) ->
  (forall o m' r b, c_des c m (RBuf (view_drop v 2) (cnt + 2)) b0 = (o, m', r, b) ->
     exists f, c_des (sq_cls c) m (RBuf v cnt) (mkSeq b0 n0 false) = (o, m', r, mkSeq b num f) /\ (o = Ret tt -> f = false)) /\
  (forall n o m' r b, own_length c -> 2 <= n -> n < 18446744073709551616 ->
     deserialize_len c (n - 2) m (RBuf (view_drop v 2) (cnt + 2)) b0 = (o, m', r, b) ->
     exists f, deserialize_len (sq_cls c) n m (RBuf v cnt) (mkSeq b0 n0 false) = (o, m', r, mkSeq b num f) /\ (o = Ret tt -> f = false)).
Proof.
  intros F R. assert (H : forall U get set (t : U), rd_uint 2 get set m (RBuf v cnt) t = (Ret tt, m, RBuf (view_drop v 2) (cnt + 2), set num t)).
  { intros. destruct (integers 2 num F) as (_ & _ & G & _). exact (G _ _ _ _ _ _ _ _ R). }
  destruct (seq_read m (RBuf v cnt) _ (mkSeq b0 n0 false) num H eq_refl c) as [A B]. cbn [sq_base] in *. split.
  - intros o m' r b E. destruct (A _ _ _ _ E) as (f & E1 & E2 & _). eauto.
  - intros n o m' r b OL H1 H2 E. destruct (B _ _ _ _ _ OL H1 H2 E) as (f & E1 & E2 & _). eauto.
Qed.
Lemma seq_decode_stream {T} (c : cls T) m d p b0 n0 num rest : fits 2 num -> drop p d = le 2 num ++ rest ->
  (forall o m' r b, c_des c m (RStr d (p + 2) false) b0 = (o, m', r, b) ->
     exists f, c_des (sq_cls c) m (RStr d p false) (mkSeq b0 n0 false) = (o, m', r, mkSeq b num f) /\ (o = Ret tt -> f = false)) /\
  (forall n o m' r b, own_length c -> 2 <= n -> n < 18446744073709551616 ->
     deserialize_len c (n - 2) m (RStr d (p + 2) false) b0 = (o, m', r, b) ->
     exists f, deserialize_len (sq_cls c) n m (RStr d p false) (mkSeq b0 n0 false) = (o, m', r, mkSeq b num f) /\ (o = Ret tt -> f = false)).
Proof.
  intros F R. assert (H : forall U get set (t : U), rd_uint 2 get set m (RStr d p false) t = (Ret tt, m, RStr d (p + 2) false, set num t)).
  { intros. destruct (integers 2 num F) as (_ & _ & _ & G). exact (G _ _ _ _ _ _ _ _ R). }
  destruct (seq_read m (RStr d p false) _ (mkSeq b0 n0 false) num H eq_refl c) as [A B]. cbn [sq_base] in *. split.
  - intros o m' r b E. destruct (A _ _ _ _ E) as (f & E1 & E2 & _). eauto.
  - intros n o m' r b OL H1 H2 E. destruct (B _ _ _ _ _ OL H1 H2 E) as (f & E1 & E2 & _). eauto.
Qed.
Lemma seq_decode_short {T} (c : cls T) m v cnt q bs n : sq_busy q = false -> reads m v bs -> len bs < 2 ->
  (exists s, c_des (sq_cls c) m (RBuf v cnt) q = (Throw LengthError s, m, RBuf v cnt, q)) /\
  (exists s, deserialize_len (sq_cls c) n m (RBuf v cnt) q = (Throw LengthError s, m, RBuf v cnt, q)).
Proof.
  intros B R L. pose proof (reads_len _ _ _ R).
  assert (E : forall U get set (t : U), rd_uint 2 get set m (RBuf v cnt) t = (Throw LengthError "Buffer too small to deserialize value", m, RBuf v cnt, t)).
  { intros. unfold rd_uint, rd_raw. change (N.of_nat 2) with 2. destruct (N.ltb_spec (v_len v) 2); [reflexivity|lia]. }
  split; eexists.
  - cbn [c_des sq_cls]. unfold sq_deserialize, dbind, dget. rewrite B, E. reflexivity.
  - unfold deserialize_len. cbn [c_deslen sq_cls]. unfold sq_deserialize_len, dbind, dget. rewrite B, E. reflexivity.
Qed.

(** After a failed decode of the data part, the object is stuck in the state in
    which no number is read. *)
Lemma seq_failed {T} (c : cls T) m v cnt b0 n0 num rest e s m' r b : fits 2 num -> reads m v (le 2 num ++ rest) ->
  c_des c m (RBuf (view_drop v 2) (cnt + 2)) b0 = (Throw e s, m', r, b) ->
  c_des (sq_cls c) m (RBuf v cnt) (mkSeq b0 n0 false) = (Throw e s, m', r, mkSeq b num true).
Proof.
  intros F R E. assert (H : forall U get set (t : U), rd_uint 2 get set m (RBuf v cnt) t = (Ret tt, m, RBuf (view_drop v 2) (cnt + 2), set num t)).
  { intros. destruct (integers 2 num F) as (_ & _ & G & _). exact (G _ _ _ _ _ _ _ _ R). }
  destruct (seq_read m (RBuf v cnt) _ (mkSeq b0 n0 false) num H eq_refl c) as [A _].
  cbn [c_des sq_cls]. destruct (A _ _ _ _ E) as (f & -> & _ & ->); [reflexivity|discriminate].
Qed.
Lemma seq_stuck {T} (c : cls T) m r b num o m' r' b' : c_des c m r b = (o, m', r', b') ->
  c_des (sq_cls c) m r (mkSeq b num true) = (o, m', r', mkSeq b' num true).
Proof.
  intros E. cbn [c_des sq_cls]. unfold sq_deserialize, dbind, dget, on_base, dzoom. cbn [sq_busy sq_base]. rewrite E.
  destruct o; reflexivity.
Qed.
Lemma seq_reuse_lost {T} (c : cls T) m v1 cnt1 b0 n0 num1 rest1 e s m1 r1 b1 :
  fits 2 num1 -> reads m v1 (le 2 num1 ++ rest1) ->
  c_des c m (RBuf (view_drop v1 2) (cnt1 + 2)) b0 = (Throw e s, m1, r1, b1) ->
  exists q, c_des (sq_cls c) m (RBuf v1 cnt1) (mkSeq b0 n0 false) = (Throw e s, m1, r1, q) /\
    forall m2 r2 o m3 r3 b3, c_des c m2 r2 b1 = (o, m3, r3, b3) ->
      exists q', c_des (sq_cls c) m2 r2 q = (o, m3, r3, q') /\ sq_num q' = num1 /\ sq_base q' = b3.
Proof.
  intros F R E. exists (mkSeq b1 num1 true). split; [exact (seq_failed _ _ _ _ _ _ _ _ _ _ _ _ _ F R E)|].
  intros. eexists. split; [apply seq_stuck; eassumption|]. split; reflexivity.
Qed.

(** An encapsulation header behind a sequence number: the right length is refused. *)
Lemma seq_header_refused m v cnt b0 n0 num cmd n ses st c0 c1 o : fits 2 num -> reads m v (le 2 num ++ header cmd n ses st c0 c1 o) ->
  exists s r q, deserialize_len (sq_cls hdr_cls) 26 m (RBuf v cnt) (mkSeq b0 n0 false) = (Throw LengthError s, m, r, q) /\ sq_busy q = true.
Proof.
  intros F R. unfold deserialize_len, sq_cls. cbn [c_deslen]. unfold sq_deserialize_len, dbind, dget. cbn [sq_busy].
  destruct (integers 2 num F) as (_ & _ & G & _). rewrite (G _ _ _ _ _ _ _ _ R). unfold dmod. change (sq_sublen 26) with 24.
  unfold sq_base_deslen, hdr_cls. cbn [c_deslen]. unfold hdr_check. change (hdr_getLength + 2 =? 24) with false. cbv iota. unfold dthrow. do 3 eexists. split; reflexivity.
Qed.
Lemma own_length_all : own_length ep_cls /\ own_length it_cls /\ own_length cpf_cls /\ own_length mq_cls /\ own_length ms_cls /\ own_length rr_base_cls /\
  own_length rrq_cls /\ own_length rrs_cls /\ own_length rg_cls /\ own_length sa_cls /\ own_length id_cls /\ own_length fo_cls /\ own_length fc_cls /\
  own_length fs_cls /\ own_length cs_cls /\ own_length sbuf_cls /\ (forall k, own_length (prim_cls k)) /\ ~ own_length hdr_cls.
Proof. repeat split. intros H. specialize (H 2 24). discriminate H. Qed.

(** ** C32 *)
Lemma copy_raw_typed {T} (c : cls T) src v m t o m' r t' : c_sb c = None -> raw src v ->
  deserialize_len c (v_len v) m (RBuf v 0) t = (o, m', r, t') -> copy_serializable c src m t = (o, m', t').
Proof.
  intros C [a ->] E. unfold copy_serializable, run_reader. cbn [s_length s_sbuf ser_of_sbuf sb_data]. rewrite C, E. reflexivity.
Qed.
Lemma copy_typed {T} (c : cls T) src bs m t o m' r t' : c_sb c = None -> s_sbuf src = None -> carries m src bs ->
  deserialize_len c (len bs) (m ++ [Some bs]) (RBuf (mkV (List.length m) 0 (len bs)) 0) t = (o, m', r, t') ->
  (exists any, nth_error m' (List.length m) = Some (Some any)) ->
  copy_serializable c src m t = (o, list_set m' (List.length m) None, t').
Proof.
  intros C S [L W] E [any A]. unfold copy_serializable. rewrite S, C, L. unfold alloc.
  rewrite (writes_fresh _ _ _ _ W) by lia.
  assert (H : run_reader (deserialize_len c (len bs)) (mkV (List.length m) 0 (len bs)) (m ++ [Some (bs ++ zeros (len bs - len bs))]) t = (o, m', t')).
  { unfold run_reader. rewrite N.sub_diag. change (zeros 0) with (@nil byte). rewrite app_nil_r. rewrite E. reflexivity. }
  rewrite H. unfold free. rewrite A. reflexivity.
Qed.
Lemma copy_raw_raw {T} (c : cls T) get put src v m t : c_sb c = Some (get, put) -> (forall s u, get (put s u) = s) -> raw src v ->
  exists t', copy_serializable c src m t = (Ret tt, m, t') /\ sb_data (get t') = v.
Proof.
  intros C G [a ->]. unfold copy_serializable. cbn [s_length s_sbuf ser_of_sbuf]. rewrite C. eexists. split; [reflexivity|]. rewrite G. reflexivity.
Qed.
Lemma copy_refused {T} (c : cls T) src m t : c_sb c <> None -> s_sbuf src = None ->
  exists s, copy_serializable c src m t = (Throw LogicError s, m, t).
Proof. intros C S. unfold copy_serializable. rewrite S. destruct (c_sb c); [eexists; reflexivity|congruence]. Qed.
(** A sequenced raw buffer advertises its number, also to the decoder, but is copied without it. *)
Lemma copy_sequenced_source {T} (c : cls T) num v m t o m' r t' : c_sb c = None ->
  deserialize_len c (2 + v_len v) m (RBuf v 0) t = (o, m', r, t') ->
  copy_serializable c (sq_ser num (ser_of_sbuf (sb_of_view v))) m t = (o, m', t').
Proof. intros C E. unfold copy_serializable, run_reader. cbn [s_length s_sbuf sq_ser ser_of_sbuf sb_of_view sb_data]. rewrite C, E. reflexivity. Qed.
(** So a class that is strict about its length refuses what it would have accepted. *)
Lemma copy_sequenced_strict num v m t cmd ses st c0 c1 o payload : frame_fits cmd ses st c0 c1 o payload -> reads m v (frame cmd ses st c0 c1 o payload) ->
  (exists t', copy_serializable ep_cls (ser_of_sbuf (sb_of_view v)) m t = (Ret tt, m, t')) /\
  exists s t', copy_serializable ep_cls (sq_ser num (ser_of_sbuf (sb_of_view v))) m t = (Throw LengthError s, m, t').
Proof.
  intros F R. pose proof (reads_len _ _ _ R) as L. split.
  - destruct (ep_decode_len _ _ 0 t _ (v_len v) R) as [[H _]|(cmd' & ses' & st' & c0' & c1' & o' & pl & rest & F' & L' & E & D)].
    { exfalso. apply (H cmd ses st c0 c1 o payload [] F); [symmetry; exact L|]. rewrite app_nil_r. reflexivity. }
    eexists. eapply (copy_raw_typed ep_cls _ v); [reflexivity|exists None; reflexivity|exact D].
  - destruct (ep_decode_len _ _ 0 t _ (2 + v_len v) R) as [[_ (s & r & t' & D)]|(cmd' & ses' & st' & c0' & c1' & o' & pl & rest & F' & L' & E & D)].
    + do 2 eexists. eapply copy_sequenced_source; [reflexivity|exact D].
    + exfalso. rewrite <- (app_nil_r (frame cmd ses st c0 c1 o payload)) in E. destruct (frame_inj _ _ _ _ _ _ _ _ _ _ _ _ _ _ _ _ F F' E) as (_ & -> & _).
      revert L L'. unfold frame. rewrite !len_app, !len_header. lia.
Qed.
Lemma copy_sequenced_lost : exists m num v bs t' m', reads m v bs /\
  carries m (sq_ser num (ser_of_sbuf (sb_of_view v))) (le 2 num ++ bs) /\
  copy_serializable (prim_cls 2) (sq_ser num (ser_of_sbuf (sb_of_view v))) m 0 = (Ret tt, m', t') /\
  le 2 t' <> take 2 (le 2 num ++ bs).
Proof.
  exists [Some [x07; x00]], 5, (mkV 0 0 2), [x07; x00]. do 2 eexists. split; [reflexivity|].
  split; [apply sq_carries; apply carries_sbuf; reflexivity|]. split; [vm_compute; reflexivity|]. vm_compute. discriminate.
Qed.

(** ** C33 *)
Definition sb_inv (ns : list N) (m : heap) (s : sbuf) : Prop :=
  (List.length ns <= List.length m)%nat /\ owned_by_caller ns m /\
  (forall b, (List.length ns <= b < List.length m)%nat -> sb_alloc s <> Some b -> nth_error m b = Some None) /\
  (forall b, sb_alloc s = Some b -> (List.length ns <= b)%nat /\ exists bs, nth_error m b = Some (Some bs)) /\
  (inside ns (sb_data s) \/
   exists b bs, sb_alloc s = Some b /\ nth_error m b = Some (Some bs) /\ v_blk (sb_data s) = b /\ v_off (sb_data s) + v_len (sb_data s) <= len bs).

Lemma inside_live ns m v : owned_by_caller ns m -> inside ns v ->
  v_len v = 0 \/ exists bs, nth_error m (v_blk v) = Some (Some bs) /\ v_off v + v_len v <= len bs.
Proof.
  intros O [H|(n & H1 & H2)]; [auto|]. right. destruct (O _ _ H1) as (bs & H3 & H4). exists bs. split; [assumption|lia].
Qed.
Lemma inv_live ns m s : sb_inv ns m s ->
  v_len (sb_data s) = 0 \/ exists bs, nth_error m (v_blk (sb_data s)) = Some (Some bs) /\ v_off (sb_data s) + v_len (sb_data s) <= len bs.
Proof.
  intros (L & O & F & A & [D|(b & bs & D1 & D2 & D3 & D4)]).
  - eapply inside_live; eassumption.
  - right. exists bs. rewrite D3. auto.
Qed.
Lemma live_reads m v : (v_len v = 0 \/ exists bs, nth_error m (v_blk v) = Some (Some bs) /\ v_off v + v_len v <= len bs) ->
  forall k, k <= v_len v -> exists got, load m (v_blk v) (v_off v) k = Ret got /\ len got = k.
Proof.
  intros H k K. unfold load. destruct (N.eqb_spec k 0) as [->|Z].
  - exists []. split; reflexivity.
  - destruct H as [H|(bs & -> & H)]; [lia|]. destruct (N.leb_spec (v_off v + k) (len bs)); [|lia].
    eexists. split; [reflexivity|]. rewrite len_take, len_drop. lia.
Qed.
(** Overwriting part of a block keeps sizes and liveness. *)
Lemma live_store ns m s v bs : sb_inv ns m s -> v = sb_data s -> len bs <= v_len v ->
  exists m', store m (v_blk v) (v_off v) bs = Ret m' /\ sb_inv ns m' s.
Proof.
  intros I -> K. pose proof (inv_live _ _ _ I) as V. unfold store. destruct (N.eqb_spec (len bs) 0) as [Z|Z]; [eauto|].
  destruct V as [V|(old & V1 & V2)]; [lia|]. rewrite V1. destruct (N.leb_spec (v_off (sb_data s) + len bs) (len old)); [|lia].
  eexists. split; [reflexivity|].
  set (new := take (v_off (sb_data s)) old ++ bs ++ drop (v_off (sb_data s) + len bs) old).
  assert (Ln : len new = len old) by (unfold new; rewrite !len_app, len_take, len_drop; lia).
  set (b := v_blk (sb_data s)) in *.
  assert (B : (b < List.length m)%nat) by (eapply nth_error_lt; eassumption).
  destruct I as (L & O & F & A & D).
  split; [rewrite length_list_set; assumption|]. split; [|split; [|split]].
  - intros b' n H'. destruct (PeanoNat.Nat.eq_dec b b') as [<-|NE].
    + rewrite nth_error_set_same by assumption. exists new. split; [reflexivity|]. destruct (O _ _ H') as (x & E1 & E2). congruence.
    + rewrite nth_error_set_other by assumption. apply O. assumption.
  - intros b' H' H2. rewrite length_list_set in H'. destruct (PeanoNat.Nat.eq_dec b b') as [<-|NE].
    + rewrite (F _ H' H2) in V1. discriminate.
    + rewrite nth_error_set_other by assumption. auto.
  - intros b' H'. destruct (A _ H') as (A1 & x & A2). split; [assumption|]. destruct (PeanoNat.Nat.eq_dec b b') as [<-|NE].
    + rewrite nth_error_set_same by assumption. eauto.
    + rewrite nth_error_set_other by assumption. eauto.
  - destruct D as [D|(b' & x & D1 & D2 & D3 & D4)]; [left; assumption|]. right. exists b', new. fold b in D3. subst b'.
    rewrite nth_error_set_same by assumption. assert (x = old) by congruence. subst x. repeat split; try assumption. lia.
Qed.
(** Releasing the owned block. *)
Lemma inv_release ns m s : sb_inv ns m s -> forall v, inside ns v ->
  exists m', sb_destroy m s = (Ret tt, m') /\ sb_inv ns m' (mkSB v None) /\ List.length m' = List.length m /\
    (sb_alloc s = None -> m' = m).
Proof.
  intros (L & O & F & A & D) v V. unfold sb_destroy. destruct (sb_alloc s) as [b|] eqn:E.
  - destruct (A b eq_refl) as (A1 & bs & A2). unfold free. rewrite A2. eexists. split; [reflexivity|].
    assert (B : (b < List.length m)%nat) by (eapply nth_error_lt; eassumption).
    split; [|split; [apply length_list_set|discriminate]].
    split; [rewrite length_list_set; assumption|]. split; [|split; [|split]]; cbn [sb_alloc sb_data].
    + intros b' n H'. assert (b' < List.length ns)%nat by (eapply nth_error_lt; eassumption).
      rewrite nth_error_set_other by lia. apply O. assumption.
    + intros b' H' _. rewrite length_list_set in H'. destruct (PeanoNat.Nat.eq_dec b b') as [<-|NE].
      * rewrite nth_error_set_same by assumption. reflexivity.
      * rewrite nth_error_set_other by assumption. apply F; [assumption|congruence].
    + discriminate.
    + left. assumption.
  - eexists. split; [reflexivity|]. split; [|split; reflexivity].
    split; [assumption|]. split; [assumption|]. split; [|split; cbn [sb_alloc sb_data]].
    + intros b H _. apply F; [assumption|discriminate].
    + discriminate.
    + left. assumption.
Qed.
Lemma inv_alloc ns m v n : sb_inv ns m (mkSB v None) ->
  sb_inv ns (m ++ [Some (zeros n)]) (mkSB (mkV (List.length m) 0 n) (Some (List.length m))).
Proof.
  intros (L & O & F & A & D). split; [rewrite app_length; simpl; lia|]. split; [|split; [|split]]; cbn [sb_alloc sb_data v_blk v_off v_len].
  - intros b k H. destruct (O _ _ H) as (x & H1 & H2). exists x. split; [|assumption]. rewrite nth_error_app1; [assumption|].
    eapply nth_error_lt; eassumption.
  - intros b H NE. rewrite app_length in H. simpl in H. destruct (PeanoNat.Nat.eq_dec b (List.length m)) as [->|NE2]; [congruence|].
    rewrite nth_error_app1 by lia. apply F; [lia|]. discriminate.
  - intros b H. injection H as <-. split; [assumption|]. eexists. apply nth_error_app_end.
  - right. do 2 eexists. split; [reflexivity|]. split; [apply nth_error_app_end|]. split; [reflexivity|]. rewrite len_zeros. lia.
Qed.
Lemma sb_delete_destroy m r s m' : sb_destroy m s = (Ret tt, m') -> sb_delete m r s = (Ret tt, m', r, mkSB (sb_data s) None).
Proof.
  unfold sb_destroy, sb_delete, dbind, dget. destruct s as [v [b|]]; cbn [sb_alloc sb_data].
  - unfold d_free, dmod. destruct (free m b); intros H; try discriminate. injection H as <-. reflexivity.
  - intros H. injection H as <-. reflexivity.
Qed.
Lemma rd_into_str ns m s d p f : sb_inv ns m s ->
  exists m' r, rd_into (T := sbuf) (sb_data s) m (RStr d p f) s = (Ret tt, m', r, s) /\ sb_inv ns m' s.
Proof.
  intros I. unfold rd_into. destruct (str_read d p f (v_len (sb_data s))) as [got r] eqn:E.
  assert (K : len got <= v_len (sb_data s)).
  { unfold str_read in E. destruct f; injection E as <- _; [apply N.le_0_l|rewrite len_take; lia]. }
  destruct (live_store ns m s _ got I eq_refl K) as (m' & -> & I'). eauto.
Qed.
Lemma sb_step_ok ns o m s : sb_inv ns m s -> sb_op_ok ns o ->
  exists r m' s', sb_step o m s = (r, m', s') /\ sound r /\ (r = Ret tt -> sb_inv ns m' s').
Proof.
  intros I V. pose proof I as I0. destruct I0 as (L & O & F & A & D). destruct o as [n d p f|n v|d p f|v|v|v|]; cbn [sb_op_ok sb_step] in *.
  - unfold sb_deserialize_len, dbind, rd_is_buffer, dget. destruct (n =? v_len (sb_data s)) eqn:E.
    + unfold dret. destruct (rd_into_str ns m s d p f I) as (m' & r & -> & I'). do 3 eexists. split; [reflexivity|]. split; [left; reflexivity|auto].
    + destruct (inv_release ns m s I null_view) as (m1 & R1 & R2 & R3 & R4); [left; reflexivity|].
      rewrite (sb_delete_destroy _ _ _ _ R1). unfold d_alloc, alloc, dmod.
      destruct (rd_into_str ns _ _ d p f (inv_alloc ns m1 null_view n R2)) as (m' & r & E1 & I'). rewrite E1.
      do 3 eexists. split; [reflexivity|]. split; [left; reflexivity|auto].
  - unfold sb_deserialize_len, dbind, rd_is_buffer, dget.
    destruct (inv_release ns m s I (view_take v n)) as (m1 & R1 & R2 & R3 & R4).
    { destruct V as [V|(k & V1 & V2)]; [left; unfold view_take; cbn [v_len]; lia|].
      right. exists k. unfold view_take; cbn [v_len v_off v_blk]. split; [assumption|lia]. }
    rewrite (sb_delete_destroy _ _ _ _ R1). unfold rd_view. destruct (v_len v <? n) eqn:E.
    + do 3 eexists. split; [reflexivity|]. split; [right; left; eauto|discriminate].
    + unfold dmod. cbn [sb_alloc]. do 3 eexists. split; [reflexivity|]. split; [left; reflexivity|auto].
  - unfold sb_deserialize, dbind, dget. destruct (rd_into_str ns m s d p f I) as (m' & r & -> & I').
    do 3 eexists. split; [reflexivity|]. split; [left; reflexivity|auto].
  - unfold sb_deserialize, dbind, dget, rd_into. destruct (N.ltb_spec (v_len v) (v_len (sb_data s))) as [E|E].
    + do 3 eexists. split; [reflexivity|]. split; [right; left; eauto|discriminate].
    + destruct (overlap (sb_data s) (view_take v (v_len (sb_data s)))).
      * do 3 eexists. split; [reflexivity|]. split; [right; right; reflexivity|discriminate].
      * destruct (live_reads m v (inside_live _ _ _ O V) (v_len (sb_data s)) E) as (got & -> & G).
        destruct (live_store ns m s _ got I eq_refl) as (m' & -> & I'); [lia|].
        do 3 eexists. split; [reflexivity|]. split; [left; reflexivity|auto].
  - destruct (inv_release ns m s I v V) as (m1 & R1 & R2 & R3 & R4). exists (Ret tt), m1, (mkSB v None).
    split; [|split; [left; reflexivity|auto]].
    revert R1. unfold sb_setData, sb_destroy. destruct (sb_alloc s) as [b|]; [|intros H; injection H as <-; reflexivity].
    destruct (free m b); intros H; try discriminate. injection H as <-. reflexivity.
  - do 3 eexists. split; [reflexivity|]. split; [left; reflexivity|]. intros _. unfold sb_assign_view.
    split; [assumption|]. split; [assumption|]. split; [exact F|]. split; [exact A|]. left. exact V.
  - unfold sb_serialize, w_view.
    destruct (live_reads m (sb_data s) (inv_live _ _ _ I) _ (N.le_refl _)) as (got & G1 & G2).
    unfold load_view. rewrite G1. cbn [w_bytes]. do 3 eexists. split; [reflexivity|]. split; [left; reflexivity|auto].
Qed.
Lemma sb_steps_ok ns os : forall m s, sb_inv ns m s -> Forall (sb_op_ok ns) os ->
  exists r m' s', sb_steps os m s = (r, m', s') /\ sound r /\ (r = Ret tt -> sb_inv ns m' s').
Proof.
  induction os as [|o os IH]; intros m s I V; cbn [sb_steps].
  - do 3 eexists. split; [reflexivity|]. split; [left; reflexivity|auto].
  - inversion V as [|? ? V1 V2]; subst. destruct (sb_step_ok ns o m s I V1) as (r & m' & s' & E & S & I').
    rewrite E. destruct S as [->|[(e & ->)| ->]].
    + apply IH; auto.
    + do 3 eexists. split; [reflexivity|]. split; [right; left; eauto|discriminate].
    + do 3 eexists. split; [reflexivity|]. split; [right; right; reflexivity|discriminate].
Qed.
Lemma sb_history ns m v os : owned_by_caller ns m -> List.length m = List.length ns -> inside ns v -> Forall (sb_op_ok ns) os ->
  exists r m' s', sb_steps os m (sb_of_view v) = (r, m', s') /\ sound r /\
    (r = Ret tt -> exists m'', sb_destroy m' s' = (Ret tt, m'') /\ owned_by_caller ns m'' /\ all_freed ns m'').
Proof.
  intros O L V F.
  assert (I : sb_inv ns m (sb_of_view v)).
  { split; [lia|]. split; [assumption|]. split; [intros b H; lia|]. split; [discriminate|]. left. exact V. }
  destruct (sb_steps_ok ns os m _ I F) as (r & m' & s' & E & S & I'). exists r, m', s'. split; [assumption|]. split; [assumption|].
  intros H. destruct (inv_release ns m' s' (I' H) null_view) as (m'' & R1 & (_ & R2 & R3 & _) & _); [left; reflexivity|].
  exists m''. split; [assumption|]. split; [assumption|]. intros b Hb. apply R3; [assumption|discriminate].
Qed.
(** Every allocation is also released if a history ends with an exception. *)
Lemma sb_step_fail ns o m s c e m' s' : sb_inv ns m s -> sb_op_ok ns o -> sb_step o m s = (Throw c e, m', s') ->
  exists m'', sb_destroy m' s' = (Ret tt, m'') /\ owned_by_caller ns m'' /\ all_freed ns m''.
Proof.
  intros I V E. destruct o as [n d p f|n v|d p f|v|v|v|]; cbn [sb_op_ok sb_step] in *.
  - exfalso. destruct (sb_step_ok ns (DecodeStream n d p f) m s I V) as (r & x & y & E1 & S & _). cbn [sb_step] in E1.
    revert E E1. unfold sb_deserialize_len, dbind, rd_is_buffer, dget. destruct (n =? v_len (sb_data s)).
    + unfold dret. destruct (rd_into_str ns m s d p f I) as (m1 & r1 & -> & _). discriminate.
    + destruct (inv_release ns m s I null_view) as (m1 & R1 & R2 & R3 & R4); [left; reflexivity|].
      rewrite (sb_delete_destroy _ _ _ _ R1). unfold d_alloc, alloc, dmod.
      destruct (rd_into_str ns _ _ d p f (inv_alloc ns m1 null_view n R2)) as (m2 & r2 & E3 & _). rewrite E3. discriminate.
  - revert E. unfold sb_deserialize_len, dbind, rd_is_buffer, dget.
    destruct (inv_release ns m s I null_view) as (m1 & R1 & (_ & R2 & R3 & _) & _); [left; reflexivity|].
    rewrite (sb_delete_destroy _ _ _ _ R1). unfold rd_view. destruct (v_len v <? n); unfold dmod; [|discriminate].
    intros H. injection H as <- <- <- <-. exists m1. split; [reflexivity|]. split; [assumption|]. intros b Hb. apply R3; [assumption|discriminate].
  - exfalso. revert E. unfold sb_deserialize, dbind, dget. destruct (rd_into_str ns m s d p f I) as (m1 & r & -> & _). discriminate.
  - revert E. unfold sb_deserialize, dbind, dget, rd_into. destruct (v_len v <? v_len (sb_data s)) eqn:B.
    + intros H. injection H as <- <- <- <-. destruct (inv_release ns m s I null_view) as (m1 & R1 & (_ & R2 & R3 & _) & _); [left; reflexivity|].
      exists m1. split; [assumption|]. split; [assumption|]. intros b Hb. apply R3; [assumption|discriminate].
    + destruct (overlap _ _); [discriminate|]. apply N.ltb_ge in B. pose proof I as (L & O & _).
      destruct (live_reads m v (inside_live _ _ _ O V) (v_len (sb_data s)) B) as (got & -> & G).
      destruct (live_store ns m s _ got I eq_refl) as (m2 & -> & I'); [lia|]. discriminate.
  - exfalso. destruct (inv_release ns m s I v V) as (m1 & R1 & _). revert R1 E. unfold sb_setData, sb_destroy.
    destruct (sb_alloc s) as [b|]; [|discriminate]. destruct (free m b); discriminate.
  - discriminate.
  - exfalso. revert E. unfold sb_serialize, w_view.
    destruct (live_reads m (sb_data s) (inv_live _ _ _ I) _ (N.le_refl _)) as (got & G1 & G2).
    unfold load_view. rewrite G1. discriminate.
Qed.

Lemma sb_steps_fail ns os : forall m s c e m' s', sb_inv ns m s -> Forall (sb_op_ok ns) os -> sb_steps os m s = (Throw c e, m', s') ->
  exists m'', sb_destroy m' s' = (Ret tt, m'') /\ owned_by_caller ns m'' /\ all_freed ns m''.
Proof.
  induction os as [|o os IH]; intros m s c e m' s' I V E; cbn [sb_steps] in E; [discriminate|].
  inversion V as [|? ? V1 V2]; subst. destruct (sb_step_ok ns o m s I V1) as (r & m1 & s1 & E1 & S & I1). rewrite E1 in E.
  destruct S as [->|[(x & ->)| ->]].
  - exact (IH _ _ _ _ _ _ (I1 eq_refl) V2 E).
  - injection E as <- <- <- <-. eapply sb_step_fail; eassumption.
  - discriminate.
Qed.
Lemma sb_history_fail ns m v os c e m' s' : owned_by_caller ns m -> List.length m = List.length ns -> inside ns v -> Forall (sb_op_ok ns) os ->
  sb_steps os m (sb_of_view v) = (Throw c e, m', s') ->
  exists m'', sb_destroy m' s' = (Ret tt, m'') /\ owned_by_caller ns m'' /\ all_freed ns m''.
Proof.
  intros O L V F E. eapply sb_steps_fail; [|eassumption|eassumption].
  split; [lia|]. split; [assumption|]. split; [intros b H; lia|]. split; [discriminate|]. left. exact V.
Qed.
(** ** C34 *)
Lemma copy_double_free m n d p f (t : sbuf) : 0 < n ->
  exists m1 r s1, sb_deserialize_len n m (RStr d p f) sb_empty = (Ret tt, m1, r, s1) /\
  exists t1, copy_serializable sbuf_cls (ser_of_sbuf s1) m1 t = (Ret tt, m1, t1) /\
  exists m2, sb_destroy m1 t1 = (Ret tt, m2) /\ fst (sb_destroy m2 s1) = Undef DoubleFree.
Proof.
  intros P. unfold sb_deserialize_len, dbind, rd_is_buffer, dget. cbn [sb_data sb_empty null_view v_len].
  destruct (N.eqb_spec n 0); [lia|]. unfold sb_delete, dbind, dget. cbn [sb_alloc sb_empty]. unfold dret, d_alloc, alloc, dmod. cbn [sb_data].
  assert (I : sb_inv [] (m ++ [Some (zeros n)]) (mkSB (mkV (List.length m) 0 n) (Some (List.length m))) \/ True) by (right; exact Logic.I).
  clear I. unfold rd_into. cbn [v_len v_blk v_off]. destruct (str_read d p f n) as [got r] eqn:E.
  assert (K : len got <= n) by (unfold str_read in E; destruct f; injection E as <- _; [apply N.le_0_l|rewrite len_take; lia]).
  assert (S : exists bs, store (m ++ [Some (zeros n)]) (List.length m) 0 got = Ret (m ++ [Some bs])).
  { unfold store. destruct (len got =? 0); [eauto|]. rewrite nth_error_app_end, len_zeros.
    destruct (N.leb_spec (0 + len got) n); [|lia]. rewrite list_set_app_end. eauto. }
  destruct S as [bs ->]. do 3 eexists. split; [reflexivity|]. eexists. split; [reflexivity|].
  unfold sb_destroy. cbn [sb_alloc]. unfold free at 1. rewrite nth_error_app_end. eexists. split; [reflexivity|].
  unfold free. rewrite list_set_app_end, nth_error_app_end. reflexivity.
Qed.
Lemma copy_viewing_ok m v a (t : sbuf) : a = None -> sb_alloc t = None ->
  exists t1, copy_serializable sbuf_cls (ser_of_sbuf (mkSB v a)) m t = (Ret tt, m, t1) /\
  sb_destroy m t1 = (Ret tt, m) /\ sb_destroy m (mkSB v a) = (Ret tt, m).
Proof. intros -> H. eexists. split; [reflexivity|]. split; reflexivity. Qed.

(** ** C35 *)
Lemma failed_decode_dangling m s b bs v bs' n c : sb_alloc s = Some b -> nth_error m b = Some (Some bs) ->
  v_blk (sb_data s) = b -> 0 < v_len (sb_data s) -> reads m v bs' -> len bs' < n ->
  exists e m' r s', sb_deserialize_len n m (RBuf v c) s = (Throw LengthError e, m', r, s') /\
    forall out, fst (fst (sb_serialize s' m' (WStr out))) = Undef UseAfterFree.
Proof.
  intros A B D P R L. unfold sb_deserialize_len, dbind, rd_is_buffer. unfold sb_delete, dbind, dget. rewrite A.
  unfold d_free, free. rewrite B. unfold dmod, rd_view. rewrite <- (reads_len _ _ _ R).
  destruct (N.ltb_spec (len bs') n); [|lia]. do 4 eexists. split; [reflexivity|]. intros out. cbn [sb_serialize].
  unfold sb_serialize, w_view. cbn [sb_data]. unfold load_view, load. destruct (N.eqb_spec (v_len (sb_data s)) 0); [lia|].
  rewrite D, nth_error_set_same by (eapply nth_error_lt; eassumption). reflexivity.
Qed.
Lemma failed_decode_viewing m s r n c e m' r' s' : sb_alloc s = None ->
  sb_deserialize_len n m r s = (Throw c e, m', r', s') -> m' = m /\ s' = s.
Proof.
  intros A. unfold sb_deserialize_len, dbind, rd_is_buffer. destruct r as [v cnt|d p f].
  - unfold sb_delete, dbind, dget. rewrite A. unfold dret, rd_view. destruct (v_len v <? n); unfold dmod; [|discriminate].
    intros H. injection H as <- <- <- <- <-. split; reflexivity.
  - unfold dget. destruct (n =? v_len (sb_data s)).
    + unfold dret, rd_into. destruct (str_read d p f (v_len (sb_data s))) as [got r]. unfold store.
      destruct (len got =? 0); [discriminate|]. destruct (nth_error m (v_blk (sb_data s))) as [[x|]|]; try discriminate.
      destruct (_ <=? _); discriminate.
    + unfold sb_delete, dbind, dget. rewrite A. unfold dret, d_alloc, alloc, dmod, rd_into. cbn [sb_data v_len v_blk v_off].
      destruct (str_read d p f n) as [got r]. unfold store.
      destruct (len got =? 0); [discriminate|]. rewrite nth_error_app_end. destruct (_ <=? _); discriminate.
Qed.
Lemma failed_fill m s r c e m' r' s' : sb_deserialize m r s = (Throw c e, m', r', s') -> m' = m /\ s' = s.
Proof.
  unfold sb_deserialize, dbind, dget, rd_into. destruct r as [v cnt|d p f].
  - destruct (v_len v <? v_len (sb_data s)); [intros H; injection H as <- <- <- <- <-; split; reflexivity|].
    destruct (overlap _ _); [discriminate|]. unfold load, store. destruct (_ =? 0).
    + change (len (@nil byte) =? 0) with true. cbv iota. discriminate.
    + destruct (nth_error m (v_blk v)) as [[x|]|]; try discriminate. destruct (_ <=? _); [|discriminate].
      destruct (_ =? 0); [discriminate|]. destruct (nth_error m (v_blk (sb_data s))) as [[y|]|]; try discriminate.
      destruct (_ <=? _); discriminate.
  - destruct (str_read d p f (v_len (sb_data s))) as [got r]. unfold store.
    destruct (len got =? 0); [discriminate|]. destruct (nth_error m (v_blk (sb_data s))) as [[x|]|]; try discriminate.
    destruct (_ <=? _); discriminate.
Qed.

(** ** C36 *)
Lemma extracted_dangling m src t0 cmd ses st c0 c1 o payload : frame_fits cmd ses st c0 c1 o payload -> payload <> [] ->
  s_sbuf src = None -> carries m src (frame cmd ses st c0 c1 o payload) ->
  exists m' p s, copy_serializable ep_cls src m t0 = (Ret tt, m', p) /\ ep_payload p = Some s /\
    forall out, fst (fst (s_serialize s m' (WStr out))) = Undef UseAfterFree.
Proof.
  intros F P S C. set (bs := frame cmd ses st c0 c1 o payload) in *.
  assert (R : reads (m ++ [Some bs]) (mkV (List.length m) 0 (len bs)) bs) by (apply reads_block, nth_error_app_end).
  destruct (ep_decode_len _ _ 0 t0 _ (len bs) R) as [[H _]|(cmd' & ses' & st' & c0' & c1' & o' & pl & rest & F' & L & E & D)].
  { exfalso. apply (H cmd ses st c0 c1 o payload [] F); [reflexivity|]. rewrite app_nil_r. reflexivity. }
  rewrite <- (app_nil_r bs) in E. destruct (frame_inj _ _ _ _ _ _ _ _ _ _ _ _ _ _ _ _ F F' E) as (_ & <- & _).
  assert (Pl : 0 < len payload) by (destruct payload; [congruence|rewrite len_cons; lia]).
  rewrite window_pos in D by assumption.
  pose proof (copy_typed ep_cls src bs m t0 _ _ _ _ eq_refl S C D) as G.
  rewrite G by (eexists; apply nth_error_app_end). do 3 eexists. split; [reflexivity|]. split; [reflexivity|].
  intros out. cbn [s_serialize ser_of_sbuf sb_of_view]. unfold sb_serialize, w_view. cbn [sb_data].
  unfold load_view, load, view_take, view_drop. cbn [v_blk v_off v_len].
  unfold bs. rewrite frame_len. cbn [sb_of_view sb_data v_blk v_len v_off]. destruct (N.eqb_spec (N.min (24 + len payload - N.min (24 + len payload) 24) (len payload)) 0); [lia|].
  rewrite list_set_app_end. cbn [sb_of_view sb_data v_blk v_len v_off].
  rewrite nth_error_app_end. reflexivity.
Qed.
