(** Proofs for C136. *)
From Verif Require Export Vocab39 PSend.
Local Open Scope N_scope.

Lemma word_pos z : word z -> 4294967296 <= z <= 18446744073709551616. Proof. intros (k & -> & K). lia. Qed.
(** ** Lengths *)
Lemma sz_add z a b : z <> 0 -> sz z (sz z a + b) = sz z (a + b). Proof. intros Z. unfold sz. apply N.add_mod_idemp_l. exact Z. Qed.
Lemma sz_add_r z a b : z <> 0 -> sz z (a + sz z b) = sz z (a + b). Proof. intros Z. unfold sz. apply N.add_mod_idemp_r. exact Z. Qed.
Lemma sz_idem z a : z <> 0 -> sz z (sz z a) = sz z a. Proof. intros Z. unfold sz. apply N.mod_mod. exact Z. Qed.
Lemma u16_sz z n : word z -> u16 (sz z n) = u16 n.
Proof.
  intros (k & -> & K). unfold u16, sz. rewrite (N.div_mod n (k * 4294967296)) at 2 by lia.
  replace (k * 4294967296 * (n / (k * 4294967296)) + n mod (k * 4294967296)) with (n mod (k * 4294967296) + (k * 65536 * (n / (k * 4294967296))) * 65536) by lia.
  rewrite N.mod_add by lia. reflexivity.
Qed.
Lemma opt_z z p : z <> 0 -> opt_length_z z p = olen_z z (opt_length p).
Proof. intros Z. destruct p; [reflexivity|]. change (@Ret N 0 = Ret (0 mod z)). rewrite N.mod_0_l by exact Z. reflexivity. Qed.
Lemma ep_len_z z p : word z -> same_length z (ep_getLength_z z p) (ep_getLength p).
Proof.
  intros Z. pose proof (word_pos z Z). unfold same_length, ep_getLength_z, ep_getLength. rewrite opt_z by lia. destruct (opt_length _); try reflexivity. cbn [obind olen_z]. rewrite sz_add_r by lia. reflexivity.
Qed.
Lemma it_data_z z i : word z -> it_getDataLength_z z i = it_getDataLength i.
Proof.
  intros Z. pose proof (word_pos z Z). unfold it_getDataLength_z, it_getDataLength. rewrite opt_z by lia. destruct (opt_length _); try reflexivity. cbn [obind olen_z]. rewrite u16_sz by exact Z. reflexivity.
Qed.
Lemma it_len_z z i : word z -> it_getLength_z z i = it_getLength i.
Proof.
  intros Z. pose proof (word_pos z Z). unfold it_getLength_z, it_getLength. rewrite it_data_z by exact Z. unfold it_getDataLength. destruct (opt_length _); try reflexivity. cbn [obind]. f_equal.
  unfold sz, u16. apply N.mod_small. pose proof (N.mod_lt a 65536). lia.
Qed.
Lemma cpf_fold_z z p : word z -> forall a b, same_length z a b ->
  same_length z (fold_left (fun acc i => obind acc (fun l => obind (it_getLength_z z i) (fun n => Ret (sz z (l + n))))) p a)
                (fold_left (fun acc i => obind acc (fun l => obind (it_getLength i) (fun n => Ret (l + n)))) p b).
Proof.
  intros Z. pose proof (word_pos z Z). induction p as [|i p IH]; intros a b E; cbn [fold_left]; [exact E|]. apply IH. unfold same_length in *. subst a.
  destruct b; try reflexivity. cbn [obind]. rewrite it_len_z by exact Z. destruct (it_getLength i); try reflexivity. cbn [obind]. unfold sz. rewrite N.add_mod_idemp_l by lia. reflexivity.
Qed.
Lemma cpf_len_z z p : word z -> same_length z (cpf_getLength_z z p) (cpf_getLength p).
Proof. intros Z. apply cpf_fold_z; [exact Z|reflexivity]. Qed.
Lemma mq_len_z z q : word z -> same_length z (mq_getLength_z z q) (mq_getLength q).
Proof.
  intros Z. pose proof (word_pos z Z). unfold same_length, mq_getLength_z, mq_getLength. rewrite opt_z by lia. destruct (opt_length _); try reflexivity. cbn [obind olen_z]. rewrite sz_add, sz_add_r by lia. reflexivity.
Qed.
Lemma ms_len_z z q : word z -> same_length z (ms_getLength_z z q) (ms_getLength q).
Proof.
  intros Z. pose proof (word_pos z Z). unfold same_length, ms_getLength_z, ms_getLength. rewrite !opt_z by lia. destruct (opt_length (ms_additional q)) as [a| | |]; try reflexivity. cbn [obind olen_z].
  destruct (opt_length (ms_data q)) as [d| | |]; try reflexivity. cbn [obind olen_z]. rewrite sz_add, sz_add_r by lia. f_equal. rewrite N.add_comm, N.add_assoc, sz_add_r by lia. unfold sz. f_equal. lia.
Qed.
Lemma rr_len_z z d : word z -> same_length z (rr_getLength_z z d) (rr_getLength d).
Proof.
  intros Z. pose proof (word_pos z Z). unfold same_length, rr_getLength_z, rr_getLength. destruct d as [d| | |]; try reflexivity. cbn [obind]. rewrite !opt_z by lia. destruct (opt_length d); try reflexivity. cbn [obind olen_z]. rewrite sz_add_r by lia. reflexivity.
Qed.
Lemma sq_len_z z num b : word z -> same_length z (sq_getLength_z z b) (s_length (sq_ser num b)).
Proof.
  intros Z. pose proof (word_pos z Z). unfold same_length, sq_getLength_z, sq_ser. cbn [s_length]. destruct (s_length b); try reflexivity. cbn [obind olen_z]. rewrite sz_add_r by lia. reflexivity.
Qed.

(** ** Replies *)
Definition keeps {T A} (z : N) (x : D T A) : Prop := forall m r t o m' r' t', in_memory z r -> x m r t = (o, m', r', t') -> in_memory z r'.
Lemma k_bind {T A B} z (x : D T A) (f : A -> D T B) : keeps z x -> (forall a, keeps z (f a)) -> keeps z (dbind x f).
Proof.
  intros X F m r t o m' r' t' I E. unfold dbind in E. destruct (x m r t) as [[[o1 m1] r1] t1] eqn:Q. pose proof (X _ _ _ _ _ _ _ I Q) as I1.
  destruct o1; [exact (F _ _ _ _ _ _ _ _ I1 E)|injection E as _ _ <- _; exact I1 ..].
Qed.
Lemma k_same {T A} z (x : D T A) : (forall m r t, exists o m' t', x m r t = (o, m', r, t')) -> keeps z x.
Proof. intros H m r t o m' r' t' I E. destruct (H m r t) as (o1 & m1 & t1 & Q). rewrite Q in E. injection E as _ _ <- _. exact I. Qed.
Lemma in_drop z v c n : v_len v <? n = false -> c + v_len v < z -> c + n + v_len (view_drop v n) < z.
Proof. intros L I. apply N.ltb_ge in L. unfold view_drop. cbn [v_len]. lia. Qed.
Lemma in_str z d p f n got r' : p < z -> len d < z -> str_read d p f n = (got, r') -> in_memory z r'.
Proof.
  intros P L E. unfold str_read in E. destruct f; injection E as <- <-; cbn [in_memory]; (split; [|exact L]); [exact P|].
  pose proof (len_take n (drop p d)) as Q. pose proof (len_drop p d) as Q2. lia.
Qed.
Lemma k_raw {T} z n g s : keeps z (@rd_raw T n g s).
Proof.
  intros m r t o m' r' t' I E. unfold rd_raw in E. destruct r as [v c|d p f].
  - destruct (v_len v <? n) eqn:L; [injection E as _ _ <- _; exact I|]. destruct (load _ _ _ _); injection E as _ _ <- _; try exact I. cbn [in_memory] in *. apply in_drop; assumption.
  - destruct I as [H H0]. destruct (str_read d p f n) as [got r1] eqn:Q. injection E as _ _ <- _. exact (in_str _ _ _ _ _ _ _ H H0 Q).
Qed.
Lemma k_local {T} z k : keeps z (@rd_local T k).
Proof.
  intros m r t o m' r' t' I E. unfold rd_local in E. destruct r as [v c|d p f].
  - destruct (v_len v <? N.of_nat k) eqn:L; [injection E as _ _ <- _; exact I|]. destruct (load _ _ _ _); injection E as _ _ <- _; try exact I. cbn [in_memory] in *. apply in_drop; assumption.
  - destruct I as [H H0]. destruct (str_read d p f _) as [got r1] eqn:Q. destruct (len got <? N.of_nat k); injection E as _ _ <- _; exact (in_str _ _ _ _ _ _ _ H H0 Q).
Qed.
Lemma k_view {T} z n : keeps z (@rd_view T n).
Proof.
  intros m r t o m' r' t' I E. unfold rd_view in E. destruct r as [v c|d p f]; [|injection E as _ _ <- _; exact I].
  destruct (v_len v <? n) eqn:L; injection E as _ _ <- _; [exact I|]. cbn [in_memory] in *. apply in_drop; assumption.
Qed.
Lemma k_into {T} z v0 : keeps z (@rd_into T v0).
Proof.
  intros m r t o m' r' t' I E. unfold rd_into in E. destruct r as [v c|d p f].
  - destruct (v_len v <? v_len v0) eqn:L; [injection E as _ _ <- _; exact I|]. destruct (overlap _ _); [injection E as _ _ <- _; exact I|].
    destruct (load _ _ _ _); [destruct (store _ _ _ _)|..]; injection E as _ _ <- _; try exact I. cbn [in_memory] in *. apply in_drop; assumption.
  - destruct I as [H H0]. destruct (str_read d p f _) as [got r1] eqn:Q. destruct (store _ _ _ _); injection E as _ _ <- _; exact (in_str _ _ _ _ _ _ _ H H0 Q).
Qed.
Lemma k_sb z n : keeps z (sb_deserialize_len n).
Proof.
  assert (Del : keeps z sb_delete).
  { apply k_bind; [apply k_same; intros; do 3 eexists; reflexivity|]. intros s. destruct (sb_alloc s); [|apply k_same; intros; do 3 eexists; reflexivity].
    apply k_bind; [apply k_same; intros m r t; unfold d_free; destruct (free m n0); do 3 eexists; reflexivity|]. intros _. apply k_same. intros. do 3 eexists. reflexivity. }
  apply k_bind; [apply k_same; intros; do 3 eexists; reflexivity|]. intros [].
  - apply k_bind; [exact Del|]. intros _. apply k_bind; [apply k_view|]. intros v. apply k_same. intros. do 3 eexists. reflexivity.
  - apply k_bind; [apply k_same; intros; do 3 eexists; reflexivity|]. intros s. apply k_bind.
    + destruct (_ =? _); [apply k_same; intros; do 3 eexists; reflexivity|]. apply k_bind; [exact Del|]. intros _.
      apply k_bind; [apply k_same; intros; do 3 eexists; reflexivity|]. intros b. apply k_same. intros. do 3 eexists. reflexivity.
    + intros _. apply k_bind; [apply k_same; intros; do 3 eexists; reflexivity|]. intros s'. apply k_into.
Qed.
Lemma k_dlocal {T U} z (u : U) (x : D U unit) : keeps z x -> keeps z (@dlocal T U u x).
Proof.
  intros X m r t o m' r' t' I E. unfold dlocal in E. destruct (x m r u) as [[[o1 m1] r1] t1] eqn:Q. pose proof (X _ _ _ _ _ _ _ I Q). destruct o1; injection E as _ _ <- _; assumption.
Qed.
Lemma k_data z n : keeps z (ms_readData n).
Proof.
  unfold ms_readData. destruct (positive_int n); [|apply k_same; intros; do 3 eexists; reflexivity].
  apply k_bind; [apply k_dlocal, k_sb|]. intros s. apply k_same. intros. do 3 eexists. reflexivity.
Qed.
Lemma same_bind {T A B} z (x : D T A) (f g : A -> D T B) : keeps z x -> (forall a m r t, in_memory z r -> f a m r t = g a m r t) -> forall m r t, in_memory z r -> dbind x f m r t = dbind x g m r t.
Proof.
  intros X F m r t I. unfold dbind. destruct (x m r t) as [[[o1 m1] r1] t1] eqn:Q. pose proof (X _ _ _ _ _ _ _ I Q). destruct o1; [apply F; assumption|reflexivity ..].
Qed.
Lemma positive_z z n c : word z -> c < z -> c <= 18446744073709551616 -> positive_int (sz_sub z n c) = positive_int (u64 (n + 18446744073709551616 - c)).
Proof.
  intros (k & -> & K) C C2. unfold positive_int.
  assert (E : sz_sub (k * 4294967296) n c mod 4294967296 = u64 (n + 18446744073709551616 - c) mod 4294967296); [|rewrite E; reflexivity].
  unfold sz_sub, sz, u64. rewrite (N.mod_small c) by exact C.
  assert (A : forall x j, 0 < j -> (x mod (j * 4294967296)) mod 4294967296 = x mod 4294967296).
  { intros x j J. rewrite (N.div_mod x (j * 4294967296)) at 2 by lia.
    replace (j * 4294967296 * (x / (j * 4294967296)) + x mod (j * 4294967296)) with (x mod (j * 4294967296) + (j * (x / (j * 4294967296))) * 4294967296) by lia. rewrite N.mod_add by lia. reflexivity. }
  rewrite A by lia. change 18446744073709551616 with (4294967296 * 4294967296) at 2. rewrite A by lia.
  rewrite <- N.add_mod_idemp_l by lia. rewrite A by lia. rewrite N.add_mod_idemp_l by lia.
  replace (n + (k * 4294967296 - c)) with (n + (k * 4294967296 - c)) by reflexivity.
  rewrite <- (N.mod_add (n + (k * 4294967296 - c)) 4294967296 4294967296) by lia.
  rewrite <- (N.mod_add (n + 18446744073709551616 - c) k 4294967296) by lia. f_equal. lia.
Qed.
Lemma reply_z z n : word z -> forall m r t, in_memory z r -> ms_deserialize_len_z z n m r t = ms_deserialize_len n m r t.
Proof.
  intros W m r t I. pose proof (word_pos z W) as P. unfold ms_deserialize_len_z, ms_deserialize_len.
  apply (same_bind z); [apply k_raw| |exact I]. intros _ m1 r1 t1 I1. apply (same_bind z); [apply k_raw| |exact I1]. intros _ m2 r2 t2 I2.
  apply (same_bind z); [apply k_raw| |exact I2]. intros _ m3 r3 t3 I3. apply (same_bind z); [apply k_local| |exact I3]. intros al m4 r4 t4 I4.
  apply (same_bind z); [apply k_data| |exact I4]. intros a m5 r5 t5 I5. apply (same_bind z); [apply k_same; intros; do 3 eexists; reflexivity| |exact I5]. intros _ m6 r6 t6 I6.
  unfold dbind at 1 3. unfold rd_count_z, rd_count. destruct r6 as [v c|d p f]; cbn [in_memory] in I6.
  - unfold ms_readData. unfold sz at 1. rewrite (N.mod_small c) by lia. rewrite positive_z by (try exact W; lia). reflexivity.
  - destruct I6. unfold ms_readData. destruct f.
    + rewrite (positive_z z n (z - 1)) by (try exact W; lia).
      assert (E : positive_int (u64 (n + 18446744073709551616 - (z - 1))) = positive_int (u64 (n + 18446744073709551616 - 18446744073709551615))); [|rewrite E; reflexivity].
      destruct W as (k & -> & K). unfold positive_int.
      assert (E : u64 (n + 18446744073709551616 - (k * 4294967296 - 1)) mod 4294967296 = u64 (n + 18446744073709551616 - 18446744073709551615) mod 4294967296); [|rewrite E; reflexivity].
      unfold u64. change 18446744073709551616 with (4294967296 * 4294967296) at 2 4.
      assert (A : forall x, (x mod (4294967296 * 4294967296)) mod 4294967296 = x mod 4294967296).
      { intros x. rewrite (N.div_mod x (4294967296 * 4294967296)) at 2 by lia.
        replace (4294967296 * 4294967296 * (x / (4294967296 * 4294967296)) + x mod (4294967296 * 4294967296)) with (x mod (4294967296 * 4294967296) + (4294967296 * (x / (4294967296 * 4294967296))) * 4294967296) by lia. rewrite N.mod_add by lia. reflexivity. }
      rewrite !A. replace (n + 18446744073709551616 - (k * 4294967296 - 1)) with (n + 1 + (4294967296 - k) * 4294967296) by lia.
      rewrite N.mod_add by lia. f_equal. lia.
    + unfold sz at 1. rewrite (N.mod_small p) by lia. rewrite positive_z by (try exact W; lia). reflexivity.
Qed.

(** ** Sequenced items *)
Lemma sub_long z n : word z -> 2 <= n -> n < z -> sz_sub z n 2 = sq_sublen n.
Proof.
  intros W L U. pose proof (word_pos z W) as P. unfold sz_sub, sz, sq_sublen, u64. rewrite (N.mod_small n), (N.mod_small 2) by lia.
  replace (n + (z - 2)) with (n - 2 + 1 * z) by lia. rewrite N.mod_add, N.mod_small by lia.
  replace (n + 18446744073709551616 - 2) with (n - 2 + 1 * 18446744073709551616) by lia. rewrite N.mod_add, N.mod_small by lia. reflexivity.
Qed.
Lemma sub_short z n : word z -> n < 2 -> z - 2 <= sz_sub z n 2 /\ z - 2 <= sq_sublen n.
Proof.
  intros W U. pose proof (word_pos z W) as P. unfold sz_sub, sz, sq_sublen, u64. rewrite (N.mod_small n), (N.mod_small 2) by lia.
  rewrite N.mod_small by lia. rewrite N.mod_small by lia. lia.
Qed.
Lemma seq_long {T} z (c : cls T) n m r q : word z -> 2 <= n -> n < z -> sq_deserialize_len_z z c n m r q = sq_deserialize_len c n m r q.
Proof. intros W L U. unfold sq_deserialize_len_z, sq_deserialize_len. rewrite sub_long by assumption. reflexivity. Qed.
Lemma seq_real {T} z (c : cls T) n m r q : word z -> n < 2 -> checks_real z c -> sq_deserialize_len_z z c n m r q = sq_deserialize_len c n m r q.
Proof.
  intros W U C. destruct (sub_short z n W U) as [A B]. unfold sq_deserialize_len_z, sq_deserialize_len.
  assert (E : sq_base_deslen c (sz_sub z n 2) = sq_base_deslen c (sq_sublen n)); [|rewrite E; reflexivity].
  unfold sq_base_deslen. unfold checks_real in C. destruct (c_deslen c) as [f|check]; [destruct C|]. rewrite (C 2 _ _ A B). reflexivity.
Qed.
Lemma sb_long a b v k m s : v_len v < a -> v_len v < b -> sb_deserialize_len a m (RBuf v k) s = sb_deserialize_len b m (RBuf v k) s.
Proof.
  intros A B.   assert (D : exists o m' s', sb_delete m (RBuf v k) s = (o, m', RBuf v k, s')).
  { unfold sb_delete, dbind, dget. destruct (sb_alloc s); [|do 3 eexists; reflexivity]. unfold d_free. destruct (free m n); do 3 eexists; reflexivity. }
  destruct D as (o & m' & s' & E). unfold sb_deserialize_len, dbind, rd_is_buffer, rd_view. rewrite E. destruct o; try reflexivity.
  destruct (N.ltb_spec (v_len v) a); [|lia]. destruct (N.ltb_spec (v_len v) b); [|lia]. reflexivity.
Qed.
Lemma seq_raw z n m v k q : word z -> n < 2 -> v_len v < z - 2 -> sq_deserialize_len_z z sbuf_cls n m (RBuf v k) q = sq_deserialize_len sbuf_cls n m (RBuf v k) q.
Proof.
  intros W U L. destruct (sub_short z n W U) as [A B].
  assert (E : forall v k m q, v_len v < z - 2 -> sq_base_deslen sbuf_cls (sz_sub z n 2) m (RBuf v k) q = sq_base_deslen sbuf_cls (sq_sublen n) m (RBuf v k) q).
  { intros v' k' m' q' L'. unfold sq_base_deslen. cbn [sbuf_cls c_deslen]. unfold on_base, dzoom. rewrite (sb_long (sz_sub z n 2) (sq_sublen n)) by lia. reflexivity. }
  unfold sq_deserialize_len_z, sq_deserialize_len, dbind, dget. destruct (sq_busy q); [apply E; exact L|].
  unfold rd_uint, rd_raw. destruct (v_len v <? N.of_nat 2) eqn:Q; [reflexivity|]. destruct (load _ _ _ _); try reflexivity.
  unfold dmod. rewrite E by (unfold view_drop; cbn [v_len]; lia). reflexivity.
Qed.

(** ** Sending and copying *)
Lemma olen_small z (n : N) : n < z -> olen_z z (Ret n) = Ret n.
Proof. intros L. unfold olen_z, obind, sz. rewrite N.mod_small by exact L. reflexivity. Qed.
Lemma send_z z i s bs w : word z -> carries (w_mem w) s bs ->
  (len bs < z -> sock_send_ser i (host_ser z s) w = sock_send_ser i s w) /\
  (z <= len bs -> exists e w', sock_send_ser i (host_ser z s) w = (Throw LengthError e, w') /\ w_net w' = w_net w /\ w_se w' = w_se w /\ hext (w_mem w) (w_mem w')).
Proof.
  intros W [L C]. pose proof (word_pos z W) as P. split; intros Q.
  - unfold sock_send_ser, host_ser. cbn [s_length s_serialize]. rewrite L, olen_small by exact Q. reflexivity.
  - erewrite (send_ser_short i (host_ser z s) bs (len bs mod z)); [|cbn [host_ser s_length]; rewrite L; reflexivity|exact C|].
    + do 2 eexists. split; [reflexivity|]. split; [reflexivity|]. split; [reflexivity|]. cbn [set_mem w_mem]. apply hext_app.
    + pose proof (N.mod_lt (len bs) z). lia.
Qed.
Lemma copy_z {T} z (c : cls T) s bs m t : word z -> carries m s bs ->
  (len bs < z -> copy_serializable c (host_ser z s) m t = copy_serializable c s m t) /\
  (z <= len bs -> s_sbuf s = None -> c_sb c = None -> exists e m', copy_serializable c (host_ser z s) m t = (Throw LengthError e, m', t) /\ hext m m').
Proof.
  intros W [L C]. pose proof (word_pos z W) as P. split; intros Q.
  - unfold copy_serializable, host_ser. cbn [s_length s_serialize s_sbuf]. rewrite L, olen_small by exact Q. reflexivity.
  - intros N1 N2. unfold copy_serializable, host_ser. cbn [s_length s_serialize s_sbuf]. rewrite N1, N2, L. unfold olen_z, obind, sz.
    assert (S : len bs mod z < len bs) by (pose proof (N.mod_lt (len bs) z); lia).
    destruct (writes_fresh_short _ _ _ _ C S) as (junk & w' & J & E). unfold alloc. rewrite E.
    assert (F : free (m ++ [Some junk]) (List.length m) = Ret (m ++ [None])).
    { unfold free. rewrite nth_error_app2, PeanoNat.Nat.sub_diag by lia. cbn [nth_error]. f_equal. clear. induction m as [|x m IH]; [reflexivity|]. cbn [app List.length list_set]. rewrite IH. reflexivity. }
    rewrite F. do 2 eexists. split; [reflexivity|]. apply hext_app.
Qed.
