(** Decoding from a buffer does not change memory: all library classes. *)
From Verif Require Export PMemory.

Lemma k_ret {T A} (a : A) : keeps (T := T) (dret a).
Proof. intros m v c t. do 4 eexists. reflexivity. Qed.
Lemma k_throw {T A} e s : keeps (T := T) (A := A) (dthrow e s).
Proof. intros m v c t. do 4 eexists. reflexivity. Qed.
Lemma k_mod {T} (f : T -> T) : keeps (dmod f).
Proof. intros m v c t. do 4 eexists. reflexivity. Qed.
Lemma k_get {T} : keeps (@dget T).
Proof. intros m v c t. do 4 eexists. reflexivity. Qed.
Lemma k_outcome {T A} (x : outcome A) : keeps (T := T) (d_outcome x).
Proof. intros m v c t. do 4 eexists. reflexivity. Qed.
Lemma k_count {T} : keeps (@rd_count T).
Proof. intros m v c t. do 4 eexists. reflexivity. Qed.
Lemma k_at {T A} (l : list A) i : keeps (T := T) (d_at l i).
Proof. unfold d_at. destruct (nth_error l i); [apply k_ret|apply k_throw]. Qed.
Lemma k_bind {T A B} (x : D T A) (f : A -> D T B) : keeps x -> (forall a, keeps (f a)) -> keeps (dbind x f).
Proof.
  intros X F m v c t. unfold dbind. destruct (X m v c t) as (o & v1 & c1 & t1 & ->).
  destruct o; [apply F| | |]; do 4 eexists; reflexivity.
Qed.
Lemma k_raw {T} n (get : T -> list byte) set : keeps (rd_raw n get set).
Proof.
  intros m v c t. unfold rd_raw. destruct (v_len v <? n); [do 4 eexists; reflexivity|].
  destruct (load m (v_blk v) (v_off v) n); do 4 eexists; reflexivity.
Qed.
Lemma k_uint {T} k (get : T -> N) set : keeps (rd_uint k get set).
Proof. apply k_raw. Qed.
Lemma k_local {T} k : keeps (T := T) (rd_local k).
Proof.
  intros m v c t. unfold rd_local. destruct (v_len v <? N.of_nat k); [do 4 eexists; reflexivity|].
  destruct (load m (v_blk v) (v_off v) (N.of_nat k)); do 4 eexists; reflexivity.
Qed.
Lemma k_skip {T} n : keeps (T := T) (rd_skip n).
Proof. intros m v c t. unfold rd_skip. destruct (v_len v <? n); do 4 eexists; reflexivity. Qed.
Lemma k_zoom {T U A} (get : T -> U) put (x : D U A) : keeps x -> keeps (dzoom get put x).
Proof. intros X m v c t. unfold dzoom. destruct (X m v c (get t)) as (o & v1 & c1 & t1 & ->). do 4 eexists. reflexivity. Qed.
Lemma k_dlocal {T U} (u : U) x : keeps x -> keeps (T := T) (dlocal u x).
Proof.
  intros X m v c t. unfold dlocal. destruct (X m v c u) as (o & v1 & c1 & t1 & ->).
  destruct o; do 4 eexists; reflexivity.
Qed.
Lemma k_local_sb {T} n : keeps (T := T) (dlocal sb_empty (sb_deserialize_len n)).
Proof.
  intros m v c t. unfold dlocal, sb_deserialize_len, dbind, rd_is_buffer, sb_delete, dbind, dget. cbn [sb_alloc sb_empty].
  unfold dret, rd_view. destruct (v_len v <? n); unfold dmod; do 4 eexists; reflexivity.
Qed.
(** A raw buffer can only be decoded in place when it owns nothing. *)
Create HintDb keeps.
#[export] Hint Resolve k_ret k_throw k_mod k_get k_outcome k_count k_at k_raw k_uint k_local k_skip k_local_sb : keeps.
Ltac keep := repeat first
  [ solve [auto with keeps] | apply k_bind; [|intros ?] | apply k_zoom | match goal with |- keeps (if ?b then _ else _) => destruct b end ].

Lemma k_hdr : keeps hdr_deserialize. Proof. unfold hdr_deserialize. keep. Qed.
#[export] Hint Resolve k_hdr : keeps.
Lemma k_ep : keeps ep_deserialize. Proof. unfold ep_deserialize. keep. Qed.
Lemma k_ep_len n : keeps (ep_deserialize_len n). Proof. unfold ep_deserialize_len. keep. Qed.
Lemma k_it : keeps it_deserialize. Proof. unfold it_deserialize, it_deserializeData. keep. Qed.
Lemma k_it_len n : keeps (it_deserialize_len n). Proof. unfold it_deserialize_len, it_deserializeData. keep. Qed.
Lemma k_cpf : keeps cpf_deserialize.
Proof.
  unfold cpf_deserialize. keep. generalize (N.to_nat a0). clear. induction n; cbn [cpf_loop]; [apply k_ret|].
  apply k_bind; [apply k_dlocal, k_it|intros i]. keep.
Qed.
Lemma k_ms n : keeps (ms_deserialize_len n).
Proof. unfold ms_deserialize_len, ms_readData. keep; destruct (positive_int _); keep. Qed.
Lemma k_rg : keeps rg_deserialize. Proof. unfold rg_deserialize. keep. Qed.
Lemma k_sa : keeps sa_deserialize. Proof. unfold sa_deserialize. keep. Qed.
Lemma k_id : keeps id_deserialize. 
Proof. assert (H : keeps id_flat) by (unfold id_flat; keep). intros m v c t. rewrite id_flat_eq. apply H. Qed.
Lemma k_fs : keeps fs_deserialize. Proof. unfold fs_deserialize. keep. Qed.
Lemma k_cs : keeps cs_deserialize. Proof. unfold cs_deserialize. keep. Qed.

(** RR data: the item is raw because it was decoded from the buffer. *)
Definition raw_item (i : cpf_item) : Prop := it_data i = None \/ exists sb, it_data i = Some (ser_of_sbuf sb) /\ sb_alloc sb = None.
Lemma it_raw m v c o m' r i : it_deserialize m (RBuf v c) it_null = (o, m', r, i) -> raw_item i.
Proof.
  unfold it_deserialize, dbind, rd_uint, rd_raw, rd_local, it_deserializeData.
  destruct (v_len v <? _); [intros H; injection H as <- <- <- <-; left; reflexivity|].
  destruct (load _ _ _ _); try (intros H; injection H as <- <- <- <-; left; reflexivity).
  destruct (_ <? _); [intros H; injection H as <- <- <- <-; left; reflexivity|].
  destruct (load _ _ _ _); try (intros H; injection H as <- <- <- <-; left; reflexivity).
  destruct (0 <? _); [|unfold dmod; intros H; injection H as <- <- <- <-; left; reflexivity].
  unfold dlocal, sb_deserialize_len, dbind, rd_is_buffer, sb_delete, dbind, dget. cbn [sb_alloc sb_empty].
  unfold dret, rd_view, dmod. cbn [sb_alloc sb_empty]. cbv beta iota. match goal with |- context [if ?b then _ else _] => destruct b end; intros H; injection H as <- <- <- <-; right; eexists; split; reflexivity.
Qed.
Lemma cpf_loop_raw n : forall m v c its o m' r its', Forall raw_item its ->
  cpf_loop n m (RBuf v c) its = (o, m', r, its') -> Forall raw_item its'.
Proof.
  induction n; intros m v c its o m' r its' F; cbn [cpf_loop].
  - unfold dret. intros H. injection H as <- <- <- <-. assumption.
  - unfold dbind at 1, dlocal. destruct (it_deserialize m (RBuf v c) it_null) as [[[o1 m1] r1] i] eqn:E.
    destruct (k_it m v c it_null) as (oo & v1 & c1 & tt1 & E'). rewrite E' in E. injection E as <- <- <- <-.
    pose proof (it_raw _ _ _ _ _ _ _ E') as R. destruct oo.
    + unfold dbind, dmod. apply IHn. apply Forall_app. split; [assumption|]. constructor; [assumption|constructor].
    + intros H. injection H as <- <- <- <-. assumption.
    + intros H. injection H as <- <- <- <-. assumption.
    + intros H. injection H as <- <- <- <-. assumption.
Qed.
Lemma k_copy_raw {U} (c : cls U) i : c_sb c = None -> (forall n, keeps (deserialize_len c n)) -> raw_item i -> keeps (it_getDataAs c i).
Proof.
  intros C K R m v cnt t. unfold it_getDataAs, d_copy. destruct R as [->|(sb & -> & _)].
  - do 4 eexists. reflexivity.
  - unfold copy_serializable. cbn [s_length s_sbuf ser_of_sbuf]. rewrite C. unfold run_reader.
    destruct (K (v_len (sb_data sb)) m (sb_data sb) 0 t) as (o & v1 & c1 & t1 & ->). do 4 eexists. reflexivity.
Qed.
Lemma k_rr {X} (setData : cpf_item -> D (rr_data X) unit) : (forall i, raw_item i -> keeps (setData i)) -> keeps (rr_deserialize setData).
Proof.
  intros S. unfold rr_deserialize. apply k_bind; [apply k_uint|intros ?]. apply k_bind; [apply k_uint|intros ?].
  intros m v c t. unfold dbind at 1, dlocal. destruct (k_cpf m v c []) as (o & v1 & c1 & p & E). rewrite E.
  destruct o as [[]| | |]; try (do 4 eexists; reflexivity).
  assert (R : Forall raw_item p).
  { revert E. unfold cpf_deserialize, dbind, dmod. destruct (k_local (T := cpf_packet) 2 m v c []) as (o2 & v2 & c2 & p2 & E2). rewrite E2.
    destruct o2; try discriminate. assert (p2 = []) as ->.
    { revert E2. unfold rd_local. destruct (_ <? _); [discriminate|]. destruct (load _ _ _ _); try discriminate. intros H. injection H as <- <- <- <-. reflexivity. }
    apply cpf_loop_raw. constructor. }
  clear E. assert (U : Forall (fun i => unowned (it_data i)) p).
  { eapply Forall_impl; [|exact R]. intros i [->|(sb & -> & A)]; cbn [unowned]; eauto. }
  rewrite (finally_noop _ _ (drop_unowned p U)).
  destruct (cpf_getItemCount p <? 2); [apply k_throw|]. unfold d_at. destruct (nth_error p 0) as [i0|]; [|apply k_throw].
  apply k_bind; [apply k_ret|]. intros j. destruct (negb _); [apply k_throw|]. apply k_bind; [apply k_outcome|intros n0].
  destruct (negb _); [apply k_throw|]. destruct (nth_error p 1) as [i1|] eqn:E1; [|apply k_throw].
  intros m' v' c' t'. unfold dbind, dret. destruct (negb _); [apply k_throw|]. apply S.
  rewrite Forall_forall in R. apply R. eapply nth_error_In; eassumption.
Qed.
Lemma k_rrs : keeps rrs_deserialize.
Proof. apply k_rr. intros i R. apply k_zoom. apply k_copy_raw; [reflexivity|apply k_ms|assumption]. Qed.

Lemma k_virtual {T} check (x : D T unit) sb : keeps x -> keeps_cls (mkCls (DLVirtual check) x sb).
Proof.
  intros K. split; [exact K|]. intros n. unfold deserialize_len. cbn [c_deslen c_des]. destruct (check 0 n) as [[e s]|]; [apply k_throw|exact K].
Qed.
Lemma keeps_all :
  keeps_cls hdr_cls /\ keeps_cls ep_cls /\ keeps_cls it_cls /\ keeps_cls cpf_cls /\ keeps_cls mq_cls /\ keeps_cls ms_cls /\
  keeps_cls rr_base_cls /\ keeps_cls rrq_cls /\ keeps_cls rrs_cls /\ keeps_cls rg_cls /\ keeps_cls sa_cls /\ keeps_cls id_cls /\
  keeps_cls fo_cls /\ keeps_cls fc_cls /\ keeps_cls fs_cls /\ keeps_cls cs_cls /\ forall k, keeps_cls (prim_cls k).
Proof.
  repeat match goal with |- _ /\ _ => split end; try (intros k); try (apply k_virtual).
  - apply k_hdr.
  - split; [apply k_ep|intros n; apply k_ep_len].
  - split; [apply k_it|intros n; apply k_it_len].
  - apply k_cpf.
  - split; [|intros n]; apply k_throw.
  - split; [apply k_throw|intros n; apply k_ms].
  - apply k_rr. intros. apply k_ret.
  - apply k_rr. intros. apply k_throw.
  - apply k_rrs.
  - apply k_rg.
  - apply k_sa.
  - apply k_id.
  - split; [|intros n]; apply k_throw.
  - split; [|intros n]; apply k_throw.
  - apply k_fs.
  - apply k_cs.
  - apply k_uint.
Qed.
Lemma keeps_seq {T} (c : cls T) : keeps_cls c -> keeps_cls (sq_cls c).
Proof.
  intros [K1 K2].
  assert (S : keeps (sq_deserialize c)).
  { unfold sq_deserialize. apply k_bind; [apply k_get|intros q]. destruct (sq_busy q); [apply k_zoom, K1|].
    apply k_bind; [apply k_uint|intros _]. apply k_bind; [apply k_mod|intros _]. apply k_bind; [apply k_zoom, K1|intros _]. apply k_mod. }
  assert (B : forall n, keeps (sq_base_deslen c n)).
  { intros n. unfold sq_base_deslen. pose proof (K2 n) as H. unfold deserialize_len in H. destruct (c_deslen c); [apply k_zoom, H|].
    destruct (check 2 n) as [[e s]|]; [apply k_throw|exact S]. }
  split; [exact S|]. intros n. unfold deserialize_len, sq_cls. cbn [c_deslen]. unfold sq_deserialize_len.
  apply k_bind; [apply k_get|intros q]. destruct (sq_busy q); [apply B|].
  apply k_bind; [apply k_uint|intros _]. apply k_bind; [apply k_mod|intros _]. apply k_bind; [apply B|intros _]. apply k_mod.
Qed.
(** So extraction from a raw payload frees nothing. *)
Lemma copy_raw_keeps {T} (c : cls T) src v m t : c_sb c = None -> keeps_cls c -> raw src v ->
  exists o t', copy_serializable c src m t = (o, m, t').
Proof.
  intros C [_ K] R. destruct (K (v_len v) m v 0 t) as (o & v1 & c1 & t1 & E).
  exists o, t1. eapply copy_raw_typed; eassumption.
Qed.
