(** * PRest: lengths of decoded objects, one-way classes, reads into memory and from
    streams, the test socket (C03-C05, C63, C86, C87). *)
From Verif Require Export Vocab10 PLen PIo2 PLocal.
From Coq Require Import Arith.PeanoNat.
Local Open Scope N_scope.

(** ** Inversion of successful decodes *)
Lemma raw_inv {T} n (g : T -> list byte) s m v c t a m' r t' : rd_raw n g s m (RBuf v c) t = (Ret a, m', r, t') ->
  exists bs, len bs = n /\ m' = m /\ r = RBuf (view_drop v n) (c + n) /\ t' = s bs t.
Proof.
  unfold rd_raw. destruct (v_len v <? n); [discriminate|]. destruct (load m (v_blk v) (v_off v) n) as [bs| | |] eqn:E; try discriminate.
  intros H. injection H as <- <- <- <-. exists bs. split; [exact (load_len _ _ _ _ _ E)|auto].
Qed.
Lemma uint_inv {T} k (g : T -> N) s m v c t a m' r t' : rd_uint k g s m (RBuf v c) t = (Ret a, m', r, t') ->
  exists x, m' = m /\ r = RBuf (view_drop v (N.of_nat k)) (c + N.of_nat k) /\ t' = s x t.
Proof. unfold rd_uint. intros H. apply raw_inv in H. destruct H as (bs & _ & -> & -> & ->). exists (host_value bs). repeat split. Qed.
Lemma local_inv {T} k m v c (t : T) a m' r t' : rd_local k m (RBuf v c) t = (Ret a, m', r, t') ->
  exists bs, len bs = N.of_nat k /\ a = host_value bs /\ m' = m /\ r = RBuf (view_drop v (N.of_nat k)) (c + N.of_nat k) /\ t' = t.
Proof.
  unfold rd_local. destruct (v_len v <? N.of_nat k); [discriminate|]. destruct (load m (v_blk v) (v_off v) (N.of_nat k)) as [bs| | |] eqn:E; try discriminate.
  intros H. injection H as <- <- <- <-. exists bs. split; [exact (load_len _ _ _ _ _ E)|auto].
Qed.
Lemma skip_inv {T} n m v c (t : T) a m' r t' : rd_skip n m (RBuf v c) t = (Ret a, m', r, t') ->
  m' = m /\ r = RBuf (view_drop v n) (c + n) /\ t' = t.
Proof. unfold rd_skip. destruct (v_len v <? n); [discriminate|]. intros H. injection H as <- <- <- <-. auto. Qed.
Lemma view_inv {T} n m v c (t : T) a m' r t' : rd_view n m (RBuf v c) t = (Ret a, m', r, t') ->
  v_len a = n /\ m' = m /\ r = RBuf (view_drop v n) (c + n) /\ t' = t.
Proof.
  unfold rd_view. destruct (N.ltb_spec (v_len v) n); [discriminate|]. intros E. injection E as <- <- <- <-. cbn [view_take v_len].
  split; [lia|auto].
Qed.
Lemma delete_inv m v c t a m' r t' : sb_delete m (RBuf v c) t = (Ret a, m', r, t') -> r = RBuf v c.
Proof.
  unfold sb_delete, dbind, dget, d_free, dmod, dret. destruct (sb_alloc t) as [b|].
  - destruct (free m b); try discriminate. intros H. injection H as <- <- <- <-. reflexivity.
  - intros H. injection H as <- <- <- <-. reflexivity.
Qed.
Lemma sb_inv n m v c t a m' r t' : sb_deserialize_len n m (RBuf v c) t = (Ret a, m', r, t') ->
  v_len (sb_data t') = n /\ exists v', r = RBuf v' (c + n).
Proof.
  intros H. unfold sb_deserialize_len in H. apply bind_ret in H. destruct H as (b & m1 & r1 & t1 & E1 & H). injection E1 as <- <- <- <-.
  cbv iota in H. apply bind_ret in H. destruct H as (a2 & m2 & r2 & t2 & E2 & H). apply delete_inv in E2. subst r2.
  apply bind_ret in H. destruct H as (w & m3 & r3 & t3 & E3 & H). apply view_inv in E3. destruct E3 as (L & -> & -> & ->).
  unfold dmod in H. injection H as <- <- <- <-. cbn [sb_data]. split; [exact L|eauto].
Qed.
Lemma dlocal_inv {T U} (u : U) x m r (t : T) a m' r' t' : dlocal u x m r t = (Ret a, m', r', t') ->
  t' = t /\ exists b, x m r u = (Ret b, m', r', a).
Proof. unfold dlocal. destruct (x m r u) as [[[o m1] r1] u1]. destruct o; try discriminate. intros H. injection H as <- <- <- <-. eauto. Qed.
Lemma zoom_inv {T U A} (g : T -> U) p (x : D U A) m r t a m' r' t' : dzoom g p x m r t = (Ret a, m', r', t') ->
  exists u, t' = p u t /\ x m r (g t) = (Ret a, m', r', u).
Proof. unfold dzoom. destruct (x m r (g t)) as [[[o m1] r1] u1]. intros H. injection H as -> <- <- <-. eauto. Qed.
Lemma mod_inv {T} (f : T -> T) m r t a m' r' t' : dmod f m r t = (Ret a, m', r', t') -> m' = m /\ r' = r /\ t' = f t.
Proof. unfold dmod. intros H. injection H as <- <- <- <-. auto. Qed.
Lemma get_inv {T} m r (t : T) a m' r' t' : dget m r t = (Ret a, m', r', t') -> a = t /\ m' = m /\ r' = r /\ t' = t.
Proof. unfold dget. intros H. injection H as <- <- <- <-. auto. Qed.

Ltac next H := apply bind_ret in H; let a := fresh "a" in let m := fresh "m" in let r := fresh "r" in let t := fresh "t" in let E := fresh "E" in
  destruct H as (a & m & r & t & E & H); cbv beta in H.
Ltac fact E := first
  [ apply uint_inv in E; destruct E as (? & -> & -> & ->)
  | apply raw_inv in E; destruct E as (? & ? & -> & -> & ->)
  | apply local_inv in E; destruct E as (? & ? & -> & -> & -> & ->)
  | apply skip_inv in E; destruct E as (-> & -> & ->)
  | apply mod_inv in E; destruct E as (-> & -> & ->)
  | apply get_inv in E; destruct E as (-> & -> & -> & ->) ].
Ltac step H := apply bind_ret in H; let E := fresh "E" in destruct H as (? & ? & ? & ? & E & H); cbv beta in H; fact E.

(** ** C86 *)
Lemma tells_hdr : tells hdr_ser hdr_deserialize.
Proof. intros m v c t m' r t' H. destruct (a_hdr _ _ _ _ _ _ _ _ H) as (v' & ->). exists 24, v'. split; reflexivity. Qed.
Lemma sb_local {T} n m v c (t : T) a m' r t' : dlocal sb_empty (sb_deserialize_len n) m (RBuf v c) t = (Ret a, m', r, t') ->
  t' = t /\ v_len (sb_data a) = n /\ exists v', r = RBuf v' (c + n).
Proof. intros H. apply dlocal_inv in H. destruct H as (-> & b & H). apply sb_inv in H. destruct H as (L & v' & ->). eauto. Qed.
Lemma tells_ep : tells ep_ser ep_deserialize.
Proof.
  intros m v c t m' r t' H. unfold ep_deserialize in H. next H. apply zoom_inv in E. destruct E as (h & -> & E).
  destruct (a_hdr _ _ _ _ _ _ _ _ E) as (v1 & ->). clear E. step H. cbn [ep_set_header ep_header] in H.
  destruct (N.ltb_spec 0 (h_length h)) as [L|L].
  - next H. apply sb_local in E. destruct E as (-> & Ls & v2 & ->). fact H. exists (24 + h_length h), v2.
    split; [|f_equal; lia]. cbn. rewrite Ls. reflexivity.
  - fact H. exists 24, v1. split; reflexivity.
Qed.
Lemma tells_ep_len n : tells ep_ser (ep_deserialize_len n).
Proof.
  intros m v c t m' r t' H. unfold ep_deserialize_len in H. destruct (n <? hdr_getLength); [discriminate|]. next H. apply zoom_inv in E. destruct E as (h & -> & E).
  destruct (a_hdr _ _ _ _ _ _ _ _ E) as (v1 & ->). clear E. step H. cbn [ep_set_header ep_header] in H.
  destruct (negb _); [discriminate|]. destruct (N.ltb_spec 0 (h_length h)) as [L|L].
  - step H. next H. apply sb_local in E. destruct E as (-> & Ls & v2 & ->). fact H. exists (24 + h_length h), v2.
    split; [|f_equal; lia]. cbn. rewrite Ls. reflexivity.
  - fact H. exists 24, v1. split; reflexivity.
Qed.
Lemma tells_data n : n < 65536 -> forall m v c t m' r t', it_deserializeData n m (RBuf v c) t = (Ret tt, m', r, t') ->
  it_getLength t' = Ret (4 + n) /\ exists v', r = RBuf v' (c + n).
Proof.
  intros B m v c t m' r t' H. unfold it_deserializeData in H. destruct (N.ltb_spec 0 n) as [L|L].
  - step H. next H. apply sb_local in E. destruct E as (-> & Ls & v2 & ->). fact H. split; [|eauto].
    unfold it_getLength, it_getDataLength. cbn [it_set_data it_data opt_length ser_of_sbuf s_length obind]. rewrite Ls. rewrite u16_small by exact B. reflexivity.
  - fact H. replace n with 0 by lia. split; [reflexivity|]. exists v. f_equal. lia.
Qed.
Lemma local2 bs : len bs = N.of_nat 2 -> host_value bs < 65536.
Proof. exact (host_fits 2 bs). Qed.
Lemma tells_it : tells it_ser it_deserialize.
Proof.
  intros m v c t m' r t' H. unfold it_deserialize in H. step H. step H.
  match goal with L : len ?x = N.of_nat 2 |- _ => pose proof (local2 x L) as B end.
  destruct (tells_data _ B _ _ _ _ _ _ _ H) as (L & v' & ->). do 2 eexists. split; [exact L|f_equal; lia].
Qed.
Lemma tells_it_len n : tells it_ser (it_deserialize_len n).
Proof.
  intros m v c t m' r t' H. unfold it_deserialize_len in H. destruct (n <? 4); [discriminate|]. step H. step H.
  match goal with L : len ?x = N.of_nat 2 |- _ => pose proof (local2 x L) as B end.
  destruct (n <? _); [discriminate|]. destruct (tells_data _ B _ _ _ _ _ _ _ H) as (L & v' & ->). do 2 eexists. split; [exact L|f_equal; lia].
Qed.
Lemma cpf_len_from l : forall k, fold_left (fun acc i => obind acc (fun l => obind (it_getLength i) (fun n => Ret (l + n)))) l k
  = obind k (fun k => obind (fold_left (fun acc i => obind acc (fun l => obind (it_getLength i) (fun n => Ret (l + n)))) l (Ret 0)) (fun n => Ret (k + n))).
Proof.
  induction l as [|i l IH]; intros k; cbn [fold_left].
  - destruct k; cbn [obind]; try reflexivity. f_equal. lia.
  - rewrite IH. symmetry. destruct k; cbn [obind]; try reflexivity. rewrite IH. destruct (it_getLength i); cbn [obind]; try reflexivity.
    destruct (fold_left _ l (Ret 0)); cbn [obind]; try reflexivity. f_equal. lia.
Qed.
Lemma cpf_len_app l i k n : cpf_getLength l = Ret k -> it_getLength i = Ret n -> cpf_getLength (l ++ [i]) = Ret (k + n).
Proof. unfold cpf_getLength. intros H I. rewrite fold_left_app, H. cbn [fold_left obind]. rewrite I. reflexivity. Qed.
Lemma tells_loop j : forall m v c t m' r t' k, cpf_getLength t = Ret k -> cpf_loop j m (RBuf v c) t = (Ret tt, m', r, t') ->
  exists n v', cpf_getLength t' = Ret (k + n) /\ r = RBuf v' (c + n).
Proof.
  induction j as [|j IH]; intros m v c t m' r t' k K H; cbn [cpf_loop] in H.
  - injection H as <- <- <-. exists 0, v. split; [rewrite K; f_equal; lia|f_equal; lia].
  - next H. apply dlocal_inv in E. destruct E as (-> & [] & E). destruct (tells_it _ _ _ _ _ _ _ E) as (n & v1 & L & ->). step H.
    destruct (IH _ _ _ _ _ _ _ _ (cpf_len_app _ _ _ _ K L) H) as (n2 & v2 & L2 & ->). exists (n + n2), v2. rewrite L2. split; f_equal; lia.
Qed.
Lemma tells_cpf : tells cpf_ser cpf_deserialize.
Proof.
  intros m v c t m' r t' H. unfold cpf_deserialize in H. step H. step H.
  destruct (tells_loop _ _ _ _ [] _ _ _ 2 eq_refl H) as (n & v' & L & ->). exists (2 + n), v'. split; [exact L|f_equal; lia].
Qed.
Lemma tells_rg : tells rg_ser rg_deserialize.
Proof. intros m v c t m' r t' H. unfold rg_deserialize in H. step H. fact H. do 2 eexists. split; [reflexivity|]. change rg_getLength with 4. f_equal. lia. Qed.
Lemma tells_sa : tells sa_ser sa_deserialize.
Proof. intros m v c t m' r t' H. unfold sa_deserialize in H. step H. fact H. do 2 eexists. split; [reflexivity|]. change sa_getLength with 8. f_equal. lia. Qed.
Lemma tells_prim k : tells (prim_ser k) (prim_des k).
Proof. intros m v c t m' r t' H. unfold prim_des in H. fact H. do 2 eexists. split; reflexivity. Qed.
Lemma tells_sb n : tells ser_of_sbuf (sb_deserialize_len n).
Proof. intros m v c t m' r t' H. apply sb_inv in H. destruct H as (L & v' & ->). exists n, v'. split; [cbn; rewrite L|]; reflexivity. Qed.
Lemma tells_sb_plain : tells ser_of_sbuf sb_deserialize.
Proof.
  intros m v c t m' r t' H. unfold sb_deserialize in H. step H. unfold rd_into in H. destruct (v_len v <? _); [discriminate|]. destruct (overlap _ _); [discriminate|].
  destruct (load _ _ _ _); try discriminate. destruct (store _ _ _ _); try discriminate. injection H as <- <- <-. do 2 eexists. split; reflexivity.
Qed.
Lemma tells_fs : tells fs_ser fs_deserialize.
Proof.
  intros m v c t m' r t' H. unfold fs_deserialize in H. do 9 step H. destruct (0 <? host_value _).
  - next H. apply sb_local in E. destruct E as (-> & Ls & v2 & ->). fact H. eexists. exists v2. split; [unfold fs_ser, fs_getLength; cbn [s_length fs_set_data fs_data cs_data opt_length ser_of_sbuf obind]; rewrite Ls; reflexivity|]. f_equal. lia.
  - fact H. do 2 eexists. split; [reflexivity|]. change (4 + 4 + 2 + 2 + 4 + 4 + 4 + 2 + 0) with 26. f_equal. lia.
Qed.
Lemma tells_cs : tells cs_ser cs_deserialize.
Proof.
  intros m v c t m' r t' H. unfold cs_deserialize in H. do 5 step H. destruct (0 <? host_value _).
  - next H. apply sb_local in E. destruct E as (-> & Ls & v2 & ->). fact H. eexists. exists v2. split; [unfold cs_ser, cs_getLength; cbn [s_length fs_set_data fs_data cs_data opt_length ser_of_sbuf obind]; rewrite Ls; reflexivity|]. f_equal. lia.
  - fact H. do 2 eexists. split; [reflexivity|]. change (2 + 2 + 4 + 2 + 0) with 10. f_equal. lia.
Qed.
Lemma read_data_inv n m v c t a m' r t' : ms_readData n m (RBuf v c) t = (Ret a, m', r, t') ->
  exists k v', opt_length a = Ret k /\ r = RBuf v' (c + k) /\ t' = t.
Proof.
  unfold ms_readData. destruct (positive_int n) as [i|].
  - intros H. next H. apply sb_local in E. destruct E as (-> & Ls & v2 & ->). injection H as <- <- <- <-. exists i, v2. cbn. rewrite Ls. auto.
  - intros H. injection H as <- <- <- <-. exists 0, v. split; [reflexivity|]. split; [f_equal; lia|reflexivity].
Qed.
Lemma tells_ms n : tells ms_ser (ms_deserialize_len n).
Proof.
  intros m v c t m' r t' H. unfold ms_deserialize_len in H. do 4 step H. next H. apply read_data_inv in E. destruct E as (k & v2 & A & -> & ->).
  step H. next H. cbn [rd_count] in E. injection E as <- <- <- <-. next H. apply read_data_inv in E. destruct E as (k2 & v3 & A2 & -> & ->). fact H.
  exists (4 + k + k2), v3. split; [|f_equal; lia].
  unfold ms_ser, ms_getLength. cbn [s_length ms_set_data ms_set_additional ms_additional ms_data]. rewrite A, A2. reflexivity.
Qed.
Lemma name_inv n m v c i a m' r i' : rd_name n m (RBuf v c) i = (Ret a, m', r, i') -> len (id_name i) = n ->
  len (id_name i') = n /\ m' = m /\ exists v', r = RBuf v' (c + n).
Proof.
  intros H L. unfold rd_name in H. step H. destruct (_ <? n); [discriminate|]. apply raw_inv in H. destruct H as (bs & B & -> & -> & ->).
  cbn [id_set_name id_name]. rewrite drop_all by lia. rewrite app_nil_r. eauto.
Qed.
Lemma tells_id : tells id_ser id_deserialize.
Proof.
  intros m v c t m' r t' H. unfold id_deserialize in H. do 10 step H. next H. apply name_inv in E; [|cbn [id_set_name id_name]; apply len_resize].
  destruct E as (L & -> & v' & ->). fact H. do 2 eexists. split; [reflexivity|]. unfold id_getLength. cbn [id_set_state id_name]. rewrite L. f_equal. lia.
Qed.
(** A sequenced item, unless a decode is under way on it already (C31). *)
Lemma tells_sq {T} (out : T -> ser) (k : cls T) : tells out (c_des k) -> forall m v c q m' r q', sq_busy q = false ->
  sq_deserialize k m (RBuf v c) q = (Ret tt, m', r, q') ->
  exists n v', s_length (sq_ser (sq_num q') (out (sq_base q'))) = Ret n /\ r = RBuf v' (c + n).
Proof.
  intros K m v c q m' r q' B H. unfold sq_deserialize in H. step H. rewrite B in H. step H. step H. next H. unfold on_base in E. apply zoom_inv in E.
  destruct E as (u & -> & E). destruct a. destruct (K _ _ _ _ _ _ _ E) as (n & v' & L & ->). fact H. exists (2 + n), v'.
  cbn [s_length sq_ser sq_base sq_put_base sq_put_busy]. rewrite L. split; [reflexivity|]. f_equal. lia.
Qed.
Lemma tells_classes :
  tells hdr_ser hdr_deserialize /\ tells ep_ser ep_deserialize /\ (forall n, tells ep_ser (ep_deserialize_len n)) /\
  tells it_ser it_deserialize /\ (forall n, tells it_ser (it_deserialize_len n)) /\ tells cpf_ser cpf_deserialize /\
  (forall n, tells ms_ser (ms_deserialize_len n)) /\ tells rg_ser rg_deserialize /\ tells sa_ser sa_deserialize /\
  tells id_ser id_deserialize /\ tells fs_ser fs_deserialize /\ tells cs_ser cs_deserialize /\
  (forall k, tells (prim_ser k) (prim_des k)) /\ (forall n, tells ser_of_sbuf (sb_deserialize_len n)) /\ tells ser_of_sbuf sb_deserialize.
Proof.
  split; [exact tells_hdr|]. split; [exact tells_ep|]. split; [exact tells_ep_len|]. split; [exact tells_it|]. split; [exact tells_it_len|].
  split; [exact tells_cpf|]. split; [exact tells_ms|]. split; [exact tells_rg|]. split; [exact tells_sa|]. split; [exact tells_id|].
  split; [exact tells_fs|]. split; [exact tells_cs|]. split; [exact tells_prim|]. split; [exact tells_sb|exact tells_sb_plain].
Qed.
Lemma rr_lengths :
  (forall m v c t i to xs rest d, reads m v (rr i to xs ++ rest) -> rr_ok i to xs -> unconnected xs d -> exists t',
     rr_deserialize (fun _ => dret tt) m (RBuf v c) t = (Ret tt, m, RBuf (view_drop v (len (rr i to xs))) (c + len (rr i to xs)), t') /\
     s_length (rr_base_ser t') = Ret 16 /\ 16 + len d <= len (rr i to xs)) /\
  (forall t, exists s, s_length (rrs_ser t) = Throw LogicError s).
Proof.
  split.
  - intros m v c t i to xs rest d R K U. destruct (rr_decode (fun _ => dret tt) m v c t _ R) as [[H _]|(i' & to' & xs' & rest' & K' & E & H)].
    { destruct (H i to xs rest K eq_refl). }
    pose proof (rr_inj i to xs rest i' to' xs' rest' K K' E) as [Q _]. injection Q as <- <- <-.
    destruct H as [[H _]|(d' & U' & _ & H)]; [destruct (H d U)|]. exists (mkRR i to (rr_ext t)). split; [exact H|]. split; [reflexivity|].
    destruct U as (tl & ->). unfold rr, cpf, items. cbn [flat_map]. rewrite !len_app, !len_le. unfold item. cbn [fst snd]. rewrite !len_app, !len_le.
    change (N.of_nat 4) with 4. change (N.of_nat 2) with 2. lia.
  - intros t. eexists. reflexivity.
Qed.

(** ** C87 *)
Lemma one_way : never_decodes mq_cls /\ never_decodes fo_cls /\ never_decodes fc_cls /\
  (forall s, never_encodes (ms_ser s)) /\ (forall s, never_encodes (fs_ser s)) /\ (forall s, never_encodes (cs_ser s)).
Proof.
  assert (N : forall T (c : cls T) s, c_des c = dthrow LogicError s -> (exists f, c_deslen c = DLDirect f /\ forall n, f n = dthrow LogicError s) -> never_decodes c).
  { intros T c s D (f & F & L) m r t. split; [exists s; unfold deserialize; rewrite D; reflexivity|]. intros n. exists s. unfold deserialize_len. rewrite F, L. reflexivity. }
  split; [eapply N; [reflexivity|eexists; split; reflexivity]|]. split; [eapply N; [reflexivity|eexists; split; reflexivity]|].
  split; [eapply N; [reflexivity|eexists; split; reflexivity]|].
  split; [|split]; intros s m w; eexists; reflexivity.
Qed.
Lemma reply_without_length m r t : exists s, deserialize ms_cls m r t = (Throw LogicError s, m, r, t).
Proof. eexists. reflexivity. Qed.

(** ** C03: reads into memory *)
Lemma store_only m dst old bs : reads m dst old -> len bs = v_len dst ->
  exists m', store m (v_blk dst) (v_off dst) bs = Ret m' /\ only_wrote m m' dst bs.
Proof.
  intros R L. unfold store. destruct (N.eqb_spec (len bs) 0) as [Z|Z].
  { exists m. split; [reflexivity|]. split; [|auto]. assert (bs = []) as -> by (apply len_0; exact Z). apply reads_nil. lia. }
  unfold reads, load_view, load in R. destruct (N.eqb_spec (v_len dst) 0); [lia|]. destruct (nth_error m (v_blk dst)) as [[b|]|] eqn:E; try discriminate.
  destruct (N.leb_spec (v_off dst + v_len dst) (len b)) as [B|]; [|discriminate]. rewrite L. destruct (N.leb_spec (v_off dst + v_len dst) (len b)); [|lia].
  eexists. split; [reflexivity|]. set (b' := take (v_off dst) b ++ bs ++ drop (v_off dst + v_len dst) b).
  assert (Lt : len (take (v_off dst) b) = v_off dst) by (rewrite len_take; lia).
  assert (Lb : len b' = len b) by (unfold b'; rewrite !len_app, len_drop, Lt, L; lia).
  assert (S : nth_error (list_set m (v_blk dst) (Some b')) (v_blk dst) = Some (Some b')) by (apply nth_error_set_same; eapply nth_error_lt; eauto).
  split.
  - unfold reads, load_view, load. destruct (N.eqb_spec (v_len dst) 0); [lia|]. rewrite S, Lb. destruct (N.leb_spec (v_off dst + v_len dst) (len b)); [|lia].
    f_equal. unfold b'. rewrite drop_app by exact Lt. apply take_app. exact L.
  - intros w x D W. destruct (N.eqb_spec (v_len w) 0) as [Zw|Zw].
    { apply reads_len in W as Lw. assert (x = []) as -> by (apply len_0; lia). apply reads_nil. exact Zw. }
    unfold reads, load_view, load in *. destruct (N.eqb_spec (v_len w) 0); [lia|].
    destruct (Nat.eq_dec (v_blk w) (v_blk dst)) as [Q|Q]; [|rewrite nth_error_set_other by congruence; exact W].
    rewrite Q in *. rewrite S. rewrite E in W. rewrite Lb. destruct (N.leb_spec (v_off w + v_len w) (len b)); [|discriminate]. rewrite <- W. f_equal.
    destruct D as [D|[D|[D|[D|D]]]]; [lia|lia|congruence| |].
    + rewrite !take_drop_comm. f_equal. unfold b'. rewrite take_app_l by (rewrite Lt; lia). rewrite take_take.
      f_equal. lia.
    + f_equal. unfold b'. rewrite app_assoc. replace (v_off w) with (v_off dst + v_len dst + (v_off w - v_off dst - v_len dst)) by lia.
      rewrite <- !(drop_drop (v_off w - v_off dst - v_len dst) (v_off dst + v_len dst)). f_equal. apply drop_app. rewrite len_app, Lt, L. reflexivity.
Qed.
Lemma overlap_disjoint v w : overlap v w = false <-> disjoint_views v w.
Proof.
  unfold overlap, disjoint_views. destruct (N.eqb_spec (v_len v) 0); [cbn; rewrite !andb_false_r; tauto|].
  destruct (N.eqb_spec (v_len w) 0); [cbn; rewrite !andb_false_r; tauto|]. cbn [negb]. rewrite !andb_true_r.
  destruct (Nat.eqb_spec (v_blk v) (v_blk w)); [|cbn; tauto]. destruct (N.ltb_spec (v_off v) (v_off w + v_len w)); cbn [andb]; [|split; [intros _; do 4 right; lia|reflexivity]].
  destruct (N.ltb_spec (v_off w) (v_off v + v_len v)); cbn [andb]; [split; [discriminate|intros [?|[?|[?|[?|?]]]]; [lia|lia|congruence|lia|lia]]|split; [intros _; do 3 right; left; lia|reflexivity]].
Qed.
Lemma into_ok {T} m v c (t : T) bs dst old : reads m v bs -> reads m dst old -> v_len dst <= len bs -> disjoint_views dst (view_take v (v_len dst)) ->
  exists m', rd_into dst m (RBuf v c) t = (Ret tt, m', RBuf (view_drop v (v_len dst)) (c + v_len dst), t) /\
    only_wrote m m' dst (take (v_len dst) bs).
Proof.
  intros R Rd L D. pose proof (reads_len _ _ _ R) as Lv. unfold rd_into. destruct (N.ltb_spec (v_len v) (v_len dst)); [lia|].
  apply overlap_disjoint in D. rewrite D. pose proof (reads_take m v bs (v_len dst) R) as K. unfold reads, load_view in K.
  cbn [view_take v_blk v_off v_len] in K. rewrite N.min_r in K by lia. rewrite K.
  destruct (store_only m dst old (take (v_len dst) bs) Rd) as (m' & E & O); [rewrite len_take; lia|]. rewrite E. eauto.
Qed.
Lemma into_overlap {T} m v c (t : T) dst : v_len dst <= v_len v -> ~ disjoint_views dst (view_take v (v_len dst)) ->
  rd_into dst m (RBuf v c) t = (Undef OverlappingCopy, m, RBuf v c, t).
Proof.
  intros L D. unfold rd_into. destruct (N.ltb_spec (v_len v) (v_len dst)); [lia|]. destruct (overlap dst (view_take v (v_len dst))) eqn:E; [reflexivity|].
  destruct (D (proj1 (overlap_disjoint _ _) E)).
Qed.
Lemma into_short {T} m v c (t : T) dst : v_len v < v_len dst -> exists s, rd_into dst m (RBuf v c) t = (Throw LengthError s, m, RBuf v c, t).
Proof. intros L. unfold rd_into. destruct (N.ltb_spec (v_len v) (v_len dst)); [|lia]. eauto. Qed.
Lemma into_stream {T} m d p (t : T) dst old : reads m dst old -> v_len dst <= len (drop p d) ->
  exists m', rd_into dst m (RStr d p false) t = (Ret tt, m', RStr d (p + v_len dst) false, t) /\ only_wrote m m' dst (take (v_len dst) (drop p d)).
Proof.
  intros Rd L. unfold rd_into. rewrite (str_read_ok d p (v_len dst) (take (v_len dst) (drop p d)) (drop (v_len dst) (drop p d))); [|symmetry; apply take_drop|rewrite len_take; lia].
  destruct (store_only m dst old (take (v_len dst) (drop p d)) Rd) as (m' & E & O); [rewrite len_take; lia|]. rewrite E. eauto.
Qed.

(** ** C04, C05: reads from a stream *)
Lemma host_le k bs : len bs = N.of_nat k -> le k (host_value bs) = bs.
Proof. intros L. rewrite host_value_num. apply le_num_k. exact L. Qed.
Lemma sget_ok o m d p t : p <= len d -> on_stream o -> size o <= len (drop p d) ->
  exists g, do_get o m (RStr d p false) t = (Ret tt, m, RStr d (p + size o) false, t ++ [g]) /\ got_is m o (take (size o) (drop p d)) g.
Proof.
  intros B P L. assert (S : str_read d p false (size o) = (take (size o) (drop p d), RStr d (p + size o) false)).
  { apply (str_read_ok d p _ _ (drop (size o) (drop p d))); [symmetry; apply take_drop|rewrite len_take; lia]. }
  assert (Lt : len (take (size o) (drop p d)) = size o) by (rewrite len_take; lia).
  destruct o as [n|k|k|n|n]; cbn [do_get size got_is on_stream] in *; try contradiction.
  - unfold rd_raw. rewrite S. eexists. split; [reflexivity|]. rewrite (drop_all _ []) by apply N.le_0_l. rewrite app_nil_r. reflexivity.
  - unfold rd_uint, rd_raw. rewrite S. eexists. split; [reflexivity|]. rewrite Lt, (drop_all _ (host_bytes _ _)) by (rewrite len_host_bytes; lia). rewrite app_nil_r.
    eexists. split; [reflexivity|]. split; [apply host_fits; exact Lt|symmetry; apply host_le; exact Lt].
  - unfold dbind, rd_local. rewrite S, Lt. destruct (N.ltb_spec (N.of_nat k) (N.of_nat k)); [lia|]. eexists. split; [reflexivity|].
    eexists. split; [reflexivity|]. split; [apply host_fits; exact Lt|symmetry; apply host_le; exact Lt].
  - unfold dbind, rd_skip. rewrite len_drop in L. destruct (N.leb_spec (p + n) (len d)); [|lia]. eexists. split; reflexivity.
Qed.
Lemma sgets_ok os : forall m d p t, p <= len d -> Forall on_stream os -> total os <= len (drop p d) ->
  exists gs, do_gets os m (RStr d p false) t = (Ret tt, m, RStr d (p + total os) false, t ++ gs) /\ gots_are m os (drop p d) gs.
Proof.
  induction os as [|o os IH]; intros m d p t B F L; cbn [do_gets].
  - exists []. change (total []) with 0. rewrite N.add_0_r, app_nil_r. split; [reflexivity|exact Logic.I].
  - change (total (o :: os)) with (size o + total os) in *. apply Forall_cons_iff in F. destruct F as [P F]. rewrite len_drop in L.
    destruct (sget_ok o m d p t B P) as (g & E & G); [rewrite len_drop; lia|]. erewrite dbind_ret by exact E.
    destruct (IH m d (p + size o) (t ++ [g])) as (gs & E' & G'); [lia|exact F|rewrite len_drop; lia|].
    exists (g :: gs). rewrite E', <- app_assoc. replace (p + size o + total os) with (p + (size o + total os)) by lia.
    split; [reflexivity|]. split; [exact G|]. rewrite drop_drop. exact G'.
Qed.
Lemma drop_zeros k n : k <= n -> drop k (zeros n) = zeros (n - k).
Proof.
  intros L. unfold zeros, drop. replace (N.to_nat n) with (N.to_nat k + N.to_nat (n - k))%nat by lia. rewrite repeat_app.
  rewrite skipn_app, skipn_all2 by (rewrite repeat_length; lia). rewrite repeat_length, PeanoNat.Nat.sub_diag. reflexivity.
Qed.
Lemma num_zeros k : num (zeros (N.of_nat k)) = 0.
Proof. unfold zeros. rewrite Nnat.Nat2N.id. induction k as [|k IH]; cbn [repeat num]; [reflexivity|]. rewrite IH. reflexivity. Qed.
Lemma le_zero k : le k 0 = zeros (N.of_nat k).
Proof. rewrite <- (le_num_k k (zeros (N.of_nat k))) by apply len_zeros. f_equal. rewrite num_zeros. reflexivity. Qed.
Lemma part_int k p : len p <= N.of_nat k ->
  exists v, GotInt (host_value (p ++ drop (len p) (host_bytes k 0))) = GotInt v /\ fits k v /\ le k v = p ++ zeros (N.of_nat k - len p).
Proof.
  intros L. rewrite host_bytes_le, le_zero, drop_zeros by exact L. eexists. split; [reflexivity|].
  assert (K : len (p ++ zeros (N.of_nat k - len p)) = N.of_nat k) by (rewrite len_app, len_zeros; lia).
  split; [apply host_fits; exact K|apply host_le; exact K].
Qed.
Lemma sget_short o m d p t : p <= len d -> plain o -> len (drop p d) < size o ->
  exists g p', do_get o m (RStr d p false) t = (Ret tt, m, RStr d p' true, t ++ [g]) /\ got_part o (drop p d) g.
Proof.
  intros B P L. assert (S : str_read d p false (size o) = (drop p d, RStr d (p + len (drop p d)) true)).
  { unfold str_read. rewrite take_all by lia. destruct (N.ltb_spec (len (drop p d)) (size o)); [reflexivity|lia]. }
  destruct o as [n|k|k|n|n]; cbn [do_get size got_part plain] in *; try contradiction.
  - unfold rd_raw. rewrite S. do 2 eexists. split; [reflexivity|]. rewrite (drop_all _ []) by apply N.le_0_l. rewrite app_nil_r. reflexivity.
  - unfold rd_uint, rd_raw. rewrite S. do 2 eexists. split; [reflexivity|]. apply part_int. lia.
  - unfold dbind, rd_skip. rewrite len_drop in L. destruct (N.leb_spec (p + n) (len d)); [lia|]. do 2 eexists. split; reflexivity.
Qed.
Lemma sget_failed o m d p t : plain o ->
  exists g, do_get o m (RStr d p true) t = (Ret tt, m, RStr d p true, t ++ [g]) /\ got_part o [] g.
Proof.
  intros P. destruct o as [n|k|k|n|n]; cbn [do_get size got_part plain] in *; try contradiction.
  - eexists. split; [reflexivity|]. reflexivity.
  - eexists. split; [reflexivity|]. apply (part_int k []). apply N.le_0_l.
  - eexists. split; reflexivity.
Qed.
Lemma sgets_failed os : forall m d p t, Forall plain os ->
  exists gs, do_gets os m (RStr d p true) t = (Ret tt, m, RStr d p true, t ++ gs) /\ Forall2 (fun o g => got_part o [] g) os gs.
Proof.
  induction os as [|o os IH]; intros m d p t F; cbn [do_gets].
  - exists []. rewrite app_nil_r. split; [reflexivity|constructor].
  - apply Forall_cons_iff in F. destruct F as [P F]. destruct (sget_failed o m d p t P) as (g & E & G). erewrite dbind_ret by exact E.
    destruct (IH m d p (t ++ [g]) F) as (gs & E' & G'). exists (g :: gs). rewrite E', <- app_assoc. split; [reflexivity|constructor; assumption].
Qed.
Lemma gets_app os1 os2 : forall m r t m1 r1 t1, do_gets os1 m r t = (Ret tt, m1, r1, t1) -> do_gets (os1 ++ os2) m r t = do_gets os2 m1 r1 t1.
Proof.
  induction os1 as [|o os1 IH]; intros m r t m1 r1 t1 H; cbn [do_gets List.app] in *.
  - injection H as <- <- <-. reflexivity.
  - apply bind_ret in H. destruct H as ([] & m2 & r2 & t2 & E & H). erewrite dbind_ret by exact E. apply IH. exact H.
Qed.
Lemma sgets_short os1 o os2 m d p t : p <= len d -> Forall plain (os1 ++ o :: os2) ->
  total os1 <= len (drop p d) < total os1 + size o ->
  exists p' gs1 g gs2, do_gets (os1 ++ o :: os2) m (RStr d p false) t = (Ret tt, m, RStr d p' true, t ++ gs1 ++ g :: gs2) /\
    gots_are m os1 (drop p d) gs1 /\ got_part o (drop (total os1) (drop p d)) g /\ Forall2 (fun o g => got_part o [] g) os2 gs2.
Proof.
  intros B F [L1 L2]. apply Forall_app in F. destruct F as [F1 F2]. apply Forall_cons_iff in F2. destruct F2 as [P F2].
  destruct (sgets_ok os1 m d p t B) as (gs1 & E1 & G1); [|exact L1|].
  { eapply Forall_impl; [|exact F1]. intros []; cbn; auto. }
  rewrite (gets_app _ _ _ _ _ _ _ _ E1). cbn [do_gets]. rewrite len_drop in *.
  destruct (sget_short o m d (p + total os1) (t ++ gs1)) as (g & p' & E2 & G2); [lia|exact P|rewrite len_drop; lia|].
  erewrite dbind_ret by exact E2. destruct (sgets_failed os2 m d p' ((t ++ gs1) ++ [g]) F2) as (gs2 & E3 & G3).
  exists p', gs1, g, gs2. rewrite E3, <- !app_assoc. rewrite drop_drop. auto.
Qed.
Lemma failed_count {T} m d p (t : T) : rd_count m (RStr d p true) t = (Ret (2 ^ 64 - 1), m, RStr d p true, t).
Proof. reflexivity. Qed.

(** ** C63 *)
Lemma ts_counts_from msgs : forall t, ts_tx_count t <= 4096 -> fst (ts_sends msgs t) = accepted (4096 - ts_tx_count t) msgs.
Proof.
  induction msgs as [|m ms IH]; intros t C; cbn [ts_sends accepted]; [reflexivity|].
  unfold ts_send. set (t1 := mkTS _ _ _ _ _ _ _). specialize (IH t1). destruct (ts_sends ms t1) as [ns t2]. cbn [fst] in *.
  unfold t1 in IH. cbn [ts_tx_count] in IH. rewrite IH by lia. destruct (N.leb_spec (len m) (4096 - ts_tx_count t)).
  - rewrite N.min_l by lia. f_equal. f_equal. lia.
  - rewrite N.min_r by lia. f_equal. f_equal. lia.
Qed.
Lemma ts_counts msgs junk rx : fst (ts_sends msgs (ts_make junk rx)) = accepted 4096 msgs.
Proof. apply (ts_counts_from msgs (ts_make junk rx)). apply N.le_0_l. Qed.
Lemma ts_clear_keeps msgs junk rx : len junk = 4096 -> 8 <= len (List.concat msgs) <= 4096 ->
  let t := ts_clear (snd (ts_sends msgs (ts_make junk rx))) in
  ts_tx_count t = 0 /\ take (len (List.concat msgs)) (ts_tx t) = zeros 8 ++ drop 8 (List.concat msgs).
Proof.
  intros J [L1 L2]. pose proof (ts_records msgs junk rx J) as H. destruct (ts_sends msgs (ts_make junk rx)) as [ns t]. cbn [snd].
  destruct H as [A B]. rewrite N.min_r in A by exact L2. rewrite A in B. rewrite (take_all 4096) in B by exact L2. split; [reflexivity|].
  unfold ts_clear. cbn [ts_tx]. set (n := len (List.concat msgs)) in *. replace n with (8 + (n - 8)) at 1 by lia. rewrite take_plus.
  rewrite take_app by apply len_zeros. rewrite drop_app by apply len_zeros. f_equal. rewrite take_drop_comm. f_equal. rewrite <- B. f_equal. lia.
Qed.
Lemma wrappers_refuse :
  (forall m v c t bs a m' r t', reads m v bs -> deserialize rrq_cls m (RBuf v c) t <> (Ret a, m', r, t')) /\
  (forall m v c t i to xs rest d, reads m v (rr i to xs ++ rest) -> rr_ok i to xs -> unconnected xs d ->
     exists s r t', deserialize rrq_cls m (RBuf v c) t = (Throw LogicError s, m, r, t') /\ rr_iface t' = i /\ rr_timeout t' = to) /\
  (forall m t out, exists e, s_serialize (rrs_ser t) m (WStr out) = (Throw LogicError e, m, WStr (out ++ le 4 (rr_iface t) ++ le 2 (rr_timeout t)))).
Proof.
  split; [|split].
  - intros m v c t bs a m' r t' R. unfold deserialize, rrq_cls. cbn [c_des].
    destruct (rr_decode (fun _ => dthrow LogicError "Not implemented") m v c t _ R) as [[_ (r1 & t1 & ->)]|(i & to & xs & rest & _ & _ & [[_ (s & r1 & t1 & ->)]|(d & _ & _ & ->)])]; discriminate.
  - intros m v c t i to xs rest d R K U. unfold deserialize, rrq_cls. cbn [c_des].
    destruct (rr_decode (fun _ => dthrow LogicError "Not implemented") m v c t _ R) as [[H _]|(i' & to' & xs' & rest' & K' & E & H)].
    { destruct (H i to xs rest K eq_refl). }
    pose proof (rr_inj i to xs rest i' to' xs' rest' K K' E) as [Q _]. injection Q as <- <- <-.
    destruct H as [[H _]|(d' & U' & _ & H)]; [destruct (H d U)|]. rewrite H. do 3 eexists. split; [reflexivity|split; reflexivity].
  - intros m t out. eexists. unfold rrs_ser, rr_ser, rr_serialize, w_with, w_uint, w_bytes, wseq. cbn [s_serialize]. rewrite <- app_assoc, !host_bytes_le. reflexivity.
Qed.
