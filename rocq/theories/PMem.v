(** Lemmas on memory and writers. *)
From Coq Require Import PeanoNat.
From Verif Require Export PBase Vocab.

Lemma nth_error_set_same {A} (l : list A) i x : (i < List.length l)%nat -> nth_error (list_set l i x) i = Some x.
Proof.
  revert i. induction l as [|y l IH]; intros i H; [cbn in H; lia|]. destruct i; [reflexivity|].
  cbn. apply IH. cbn in H. lia.
Qed.
Lemma nth_error_set_other {A} (l : list A) i j x : i <> j -> nth_error (list_set l i x) j = nth_error l j.
Proof.
  revert i j. induction l as [|y l IH]; intros i j H; [reflexivity|].
  destruct i, j; try reflexivity; [congruence|]. cbn. apply IH. congruence.
Qed.
Lemma length_list_set {A} (l : list A) i x : List.length (list_set l i x) = List.length l.
Proof. revert i. induction l; intros [|i]; cbn; auto. Qed.
Lemma list_set_same {A} (l : list A) i x : nth_error l i = Some x -> list_set l i x = l.
Proof.
  revert i. induction l as [|y l IH]; intros i H; [reflexivity|]. destruct i; cbn in *.
  - congruence.
  - f_equal. apply IH. assumption.
Qed.
Lemma list_set_set {A} (l : list A) i x y : list_set (list_set l i x) i y = list_set l i y.
Proof. revert i. induction l; intros [|i]; cbn; congruence. Qed.
Lemma nth_error_lt {A} (l : list A) i x : nth_error l i = Some x -> (i < List.length l)%nat.
Proof. intros H. apply nth_error_Some. congruence. Qed.
Lemma list_set_app_end {A} (l : list A) x y : list_set (l ++ [x]) (List.length l) y = l ++ [y].
Proof. induction l; cbn; congruence. Qed.
Lemma nth_error_app_end {A} (l : list A) x : nth_error (l ++ [x]) (List.length l) = Some x.
Proof. induction l; cbn; auto. Qed.

(** ** Reading through views *)

Lemma load_len m b o n bs : load m b o n = Ret bs -> len bs = n.
Proof.
  unfold load. destruct (N.eqb_spec n 0) as [->|]; [intros [= <-]; reflexivity|].
  destruct (nth_error m b) as [[bl|]|]; try discriminate.
  destruct (N.leb_spec (o + n) (len bl)); [|discriminate]. intros [= <-].
  rewrite len_take, len_drop. lia.
Qed.
Lemma reads_len m v bs : reads m v bs -> len bs = v_len v.
Proof. apply load_len. Qed.

Lemma load_split m b o n k bs :
  load m b o n = Ret bs -> k <= n ->
  load m b o k = Ret (take k bs) /\ load m b (o + k) (n - k) = Ret (drop k bs).
Proof.
  intros H Hk. pose proof (load_len _ _ _ _ _ H) as L. unfold load in *.
  destruct (N.eqb_spec n 0) as [->|Hn].
  - assert (k = 0) by lia. subst k. injection H as <-. split; reflexivity.
  - destruct (nth_error m b) as [[bl|]|]; try discriminate.
    destruct (N.leb_spec (o + n) (len bl)) as [Hle|]; [|discriminate]. injection H as <-.
    split.
    + destruct (N.eqb_spec k 0) as [->|]; [reflexivity|].
      destruct (N.leb_spec (o + k) (len bl)); [|lia]. rewrite take_take. repeat f_equal. lia.
    + destruct (N.eqb_spec (n - k) 0).
      * rewrite drop_all; [reflexivity|]. rewrite len_take. lia.
      * destruct (N.leb_spec (o + k + (n - k)) (len bl)); [|lia].
        rewrite <- (drop_drop k o). rewrite (take_drop_comm (n - k) k). repeat f_equal. lia.
Qed.
Lemma reads_take m v bs n : reads m v bs -> reads m (view_take v n) (take n bs).
Proof.
  intros H. pose proof (reads_len _ _ _ H) as L. unfold reads, load_view, view_take in *. cbn.
  destruct (load_split _ _ _ _ (N.min (v_len v) n) _ H) as [H1 _]; [lia|]. rewrite H1. f_equal.
  destruct (N.le_ge_cases (v_len v) n).
  - rewrite !take_all by lia. reflexivity.
  - f_equal. lia.
Qed.
Lemma reads_drop m v bs n : reads m v bs -> reads m (view_drop v n) (drop n bs).
Proof.
  intros H. pose proof (reads_len _ _ _ H) as L. unfold reads, load_view, view_drop in *. cbn.
  destruct (load_split _ _ _ _ (N.min (v_len v) n) _ H) as [_ H1]; [lia|]. rewrite H1. f_equal.
  destruct (N.le_ge_cases (v_len v) n).
  - rewrite !drop_all by lia. reflexivity.
  - f_equal. lia.
Qed.
Lemma reads_prefix m v bs n : reads m v bs -> n <= len bs -> load m (v_blk v) (v_off v) n = Ret (take n bs).
Proof.
  intros H Hn. rewrite (reads_len _ _ _ H) in Hn. apply (load_split _ _ _ _ n _ H Hn).
Qed.
Lemma reads_app m v a b : reads m v (a ++ b) ->
  reads m (view_take v (len a)) a /\ reads m (view_drop v (len a)) b.
Proof.
  intros H. split.
  - pose proof (reads_take _ _ _ (len a) H) as T. rewrite take_app_len in T. exact T.
  - pose proof (reads_drop _ _ _ (len a) H) as T. rewrite drop_app_len in T. exact T.
Qed.
Lemma reads_block m b bs : nth_error m b = Some (Some bs) -> reads m (mkV b 0 (len bs)) bs.
Proof.
  intros H. unfold reads, load_view, load. cbn [v_blk v_off v_len]. destruct (N.eqb_spec (len bs) 0) as [E|E].
  - rewrite (len_0 _ E). reflexivity.
  - rewrite H. destruct (N.leb_spec (0 + len bs) (len bs)); [|lia].
    rewrite drop_0, take_all by lia. reflexivity.
Qed.
Lemma reads_nil m v : v_len v = 0 -> reads m v [].
Proof. intros H. unfold reads, load_view, load. rewrite H. reflexivity. Qed.

Lemma hext_refl m : hext m m. Proof. unfold hext. auto. Qed.
Lemma hext_trans a b c : hext a b -> hext b c -> hext a c. Proof. unfold hext. auto. Qed.
Lemma hext_app m x : hext m (m ++ x).
Proof. intros b bl H. rewrite nth_error_app1; [assumption|]. eapply nth_error_lt; eauto. Qed.
Lemma load_hext m m' b o n bs : hext m m' -> load m b o n = Ret bs -> load m' b o n = Ret bs.
Proof.
  intros E. unfold load. destruct (n =? 0); [auto|].
  destruct (nth_error m b) as [[bl|]|] eqn:F; try discriminate. rewrite (E _ _ F). auto.
Qed.
Lemma reads_hext m m' v bs : hext m m' -> reads m v bs -> reads m' v bs.
Proof. intros E. unfold reads, load_view. apply load_hext. assumption. Qed.

(** ** Writers *)

Lemma w_bytes_ok m b x old post bs c :
  nth_error m b = Some (Some (x ++ old ++ post)) -> len bs <= len old ->
  w_bytes bs m (WBuf (mkV b (len x) (len old)) c)
  = (Ret tt, list_set m b (Some (x ++ bs ++ drop (len bs) old ++ post)),
     WBuf (mkV b (len x + len bs) (len old - len bs)) (c + len bs)).
Proof.
  intros H L. unfold w_bytes. cbn. destruct (N.ltb_spec (len old) (len bs)); [lia|].
  unfold store. destruct (N.eqb_spec (len bs) 0) as [E|E].
  - rewrite (len_0 _ E). cbn [List.app]. rewrite len_nil, drop_0. rewrite list_set_same by assumption.
    unfold view_drop. cbn. rewrite N.min_0_r. reflexivity.
  - rewrite H. rewrite !len_app. destruct (N.leb_spec (len x + len bs) (len x + (len old + len post))); [|lia].
    repeat f_equal.
    + apply take_app_len.
    + rewrite <- drop_drop. rewrite drop_app_len. rewrite <- (take_drop (len bs) old) at 1.
      rewrite <- app_assoc. apply drop_app. rewrite len_take. lia.
    + unfold view_drop. cbn. f_equal; lia.
Qed.
Lemma w_bytes_short m v bs c : v_len v < len bs ->
  w_bytes bs m (WBuf v c) = (Throw LengthError "Buffer to small to serialize value", m, WBuf v c).
Proof. intros H. unfold w_bytes. destruct (N.ltb_spec (v_len v) (len bs)); [reflexivity|lia]. Qed.

(** All pieces accepted. *)
Lemma wpieces_ok ps : forall m b x old post c,
  nth_error m b = Some (Some (x ++ old ++ post)) -> len (concats ps) <= len old ->
  wpieces ps m (WBuf (mkV b (len x) (len old)) c)
  = (Ret tt, list_set m b (Some (x ++ concats ps ++ drop (len (concats ps)) old ++ post)),
     WBuf (mkV b (len x + len (concats ps)) (len old - len (concats ps))) (c + len (concats ps))).
Proof.
  induction ps as [|p ps IH]; intros m b x old post c H L; cbn [wpieces].
  - unfold wret, concats. cbn [List.concat List.app]. rewrite len_nil, drop_0, N.sub_0_r, !N.add_0_r.
    rewrite list_set_same by assumption. reflexivity.
  - unfold concats in *. cbn [List.concat] in *. rewrite len_app in *. unfold wseq.
    rewrite (w_bytes_ok m b x old post p c H) by lia.
    assert (Hb : (b < List.length m)%nat) by (eapply nth_error_lt; eauto).
    specialize (IH (list_set m b (Some (x ++ p ++ drop (len p) old ++ post))) b (x ++ p) (drop (len p) old) post (c + len p)).
    rewrite len_app, len_drop in IH. rewrite IH.
    + rewrite list_set_set, drop_drop, <- !app_assoc.
      replace (len x + len p + len (List.concat ps)) with (len x + (len p + len (List.concat ps))) by lia.
      replace (c + len p + len (List.concat ps)) with (c + (len p + len (List.concat ps))) by lia.
      replace (len old - len p - len (List.concat ps)) with (len old - (len p + len (List.concat ps))) by lia.
      reflexivity.
    + rewrite nth_error_set_same by assumption. rewrite <- !app_assoc. reflexivity.
    + lia.
Qed.

(** The first piece that does not fit is refused; what was accepted stays. *)
Lemma wpieces_short ps : forall m b x old post c,
  nth_error m b = Some (Some (x ++ old ++ post)) -> len old < len (concats ps) ->
  exists ps1 p ps2, ps = ps1 ++ p :: ps2 /\ len (concats ps1) <= len old < len (concats ps1) + len p /\
  wpieces ps m (WBuf (mkV b (len x) (len old)) c)
  = (Throw LengthError "Buffer to small to serialize value",
     list_set m b (Some (x ++ concats ps1 ++ drop (len (concats ps1)) old ++ post)),
     WBuf (mkV b (len x + len (concats ps1)) (len old - len (concats ps1))) (c + len (concats ps1))).
Proof.
  induction ps as [|p ps IH]; intros m b x old post c H L; cbn [wpieces].
  - unfold concats in L. cbn [List.concat] in L. rewrite len_nil in L. lia.
  - unfold concats in L. cbn [List.concat] in L. rewrite len_app in L.
    destruct (N.lt_ge_cases (len old) (len p)) as [Hp|Hp].
    + exists [], p, ps. unfold concats. cbn [List.concat List.app]. rewrite len_nil.
      split; [reflexivity|]. split; [lia|]. unfold wseq. rewrite w_bytes_short by assumption.
      rewrite drop_0, !N.add_0_r, N.sub_0_r, list_set_same by assumption. reflexivity.
    + assert (Hb : (b < List.length m)%nat) by (eapply nth_error_lt; eauto).
      specialize (IH (list_set m b (Some (x ++ p ++ drop (len p) old ++ post))) b (x ++ p) (drop (len p) old) post (c + len p)).
      rewrite len_app, len_drop in IH. destruct IH as (ps1 & q & ps2 & -> & Hl & E).
      * rewrite nth_error_set_same by assumption. rewrite <- !app_assoc. reflexivity.
      * unfold concats. lia.
      * exists (p :: ps1), q, ps2. unfold concats in *. cbn [List.concat]. rewrite len_app.
        split; [reflexivity|]. split; [lia|]. unfold wseq. rewrite (w_bytes_ok m b x old post p c H) by lia.
        rewrite E. rewrite list_set_set, drop_drop, <- !app_assoc.
        replace (len x + len p + len (List.concat ps1)) with (len x + (len p + len (List.concat ps1))) by lia.
        replace (c + len p + len (List.concat ps1)) with (c + (len p + len (List.concat ps1))) by lia.
        replace (len old - len p - len (List.concat ps1)) with (len old - (len p + len (List.concat ps1))) by lia.
        reflexivity.
Qed.

Lemma wpieces_stream ps m out : wpieces ps m (WStr out) = (Ret tt, m, WStr (out ++ concats ps)).
Proof.
  revert out. induction ps as [|p ps IH]; intros out; cbn [wpieces]; unfold concats; cbn [List.concat].
  - rewrite app_nil_r. reflexivity.
  - unfold wseq. cbn. rewrite IH, <- app_assoc. reflexivity.
Qed.

Lemma wseq_assoc x y z m w : ((x ;; y) ;; z) m w = (x ;; (y ;; z)) m w.
Proof. unfold wseq. destruct (x m w) as [[[?|? ?|?|] ?] ?]; reflexivity. Qed.
Lemma wpieces_app ps qs m w : wpieces (ps ++ qs) m w = (wpieces ps ;; wpieces qs) m w.
Proof.
  revert m w. induction ps as [|p ps IH]; intros m w; cbn [wpieces List.app]; [reflexivity|].
  rewrite wseq_assoc. unfold wseq at 1. unfold wseq at 1.
  destruct (w_bytes p m w) as [[[?|? ?|?|] m'] w']; try reflexivity.
  apply IH.
Qed.


Lemma store_hext m m' b o bs m'' :
  hext m m' -> (forall bl, nth_error m b <> Some (Some bl)) -> store m' b o bs = Ret m'' -> hext m m''.
Proof.
  intros E F. unfold store. destruct (len bs =? 0); [intros [= <-]; assumption|].
  destruct (nth_error m' b) as [[bl|]|] eqn:G; try discriminate.
  destruct (o + len bs <=? len bl); [|discriminate]. intros [= <-] c cl H.
  destruct (Nat.eq_dec b c) as [->|]; [exfalso; eapply F; eauto|].
  rewrite nth_error_set_other by assumption. auto.
Qed.
Lemma w_bytes_hext m m' w bs o m'' w' :
  hext m m' -> fresh m w -> w_bytes bs m' w = (o, m'', w') -> hext m m'' /\ fresh m w'.
Proof.
  intros E F. destruct w as [v c|out|out room [|]]; cbn.
  - destruct (v_len v <? len bs); [intros [= <- <- <-]; auto|].
    destruct (store m' (v_blk v) (v_off v) bs) eqn:S; intros [= <- <- <-]; auto.
    split; [|exact F]. eapply store_hext; eauto.
  - intros [= <- <- <-]. auto.
  - intros [= <- <- <-]. auto.
  - intros [= <- <- <-]. destruct (len bs <=? room); auto.
Qed.
Lemma wpieces_hext ps : forall m m' w o m'' w',
  hext m m' -> fresh m w -> wpieces ps m' w = (o, m'', w') -> hext m m'' /\ fresh m w'.
Proof.
  induction ps as [|p ps IH]; cbn [wpieces]; intros m m' w o m'' w' E F.
  - intros [= <- <- <-]. auto.
  - unfold wseq. destruct (w_bytes p m' w) as [[o1 m1] w1] eqn:B.
    destruct (w_bytes_hext _ _ _ _ _ _ _ E F B) as [E1 F1].
    destruct o1; [|intros [= <- <- <-]; auto..]. apply IH; assumption.
Qed.

Lemma wr_ret m : wr m wret []. Proof. intros m' w _ _. reflexivity. Qed.
Lemma wr_bytes m bs : wr m (w_bytes bs) [bs].
Proof. intros m' w _ _. cbn. unfold wseq. destruct (w_bytes bs m' w) as [[[[]|? ?|?|] ?] ?]; reflexivity. Qed.
Lemma wr_uint m k v : wr m (w_uint k v) [le k v].
Proof. unfold w_uint. rewrite host_bytes_le. apply wr_bytes. Qed.
Lemma wr_seq m x y ps qs : wr m x ps -> wr m y qs -> wr m (x ;; y) (ps ++ qs).
Proof.
  intros Hx Hy m' w E F. rewrite wpieces_app. unfold wseq. rewrite (Hx m' w E F).
  destruct (wpieces ps m' w) as [[o m1] w1] eqn:P.
  destruct (wpieces_hext _ _ _ _ _ _ _ E F P). destruct o; try reflexivity. apply Hy; assumption.
Qed.
Lemma wr_hext m n x ps : hext m n -> wr m x ps -> wr n x ps.
Proof.
  intros E H m' w E' F. apply H; [eapply hext_trans; eauto|].
  destruct w; [|exact I..]. intros bl Hb. apply (F bl). apply E. assumption.
Qed.
Lemma wr_view m v bs : reads m v bs -> wr m (w_view v) [bs].
Proof.
  intros H m' w E F. pose proof (reads_len _ _ _ H) as L. pose proof (reads_hext _ _ _ _ E H) as H'.
  unfold reads in H'.
  assert (K : wpieces [bs] m' w = w_bytes bs m' w).
  { cbn. unfold wseq. destruct (w_bytes bs m' w) as [[[[]|? ?|?|] ?] ?]; reflexivity. }
  rewrite K. destruct w as [d c|out|out room fail]; unfold w_view.
  - destruct (N.ltb_spec (v_len d) (v_len v)) as [S|S].
    + rewrite w_bytes_short by lia. reflexivity.
    + assert (O : overlap v (view_take d (v_len v)) = false).
      { unfold overlap. cbn. destruct (N.eqb_spec (v_len v) 0) as [Z|Z]; [cbn; rewrite !andb_false_r; reflexivity|].
        destruct (Nat.eqb_spec (v_blk v) (v_blk d)) as [B|B]; [|reflexivity].
        exfalso. unfold reads, load_view, load in H. destruct (N.eqb_spec (v_len v) 0); [lia|].
        rewrite B in H. cbn in F. destruct (nth_error m (v_blk d)) as [[bl|]|] eqn:G; try discriminate.
        exact (F bl eq_refl). }
      rewrite O, H'. reflexivity.
  - rewrite H'. reflexivity.
  - rewrite H'. reflexivity.
Qed.
Lemma wr_eq m x ps qs : ps = qs -> wr m x ps -> wr m x qs.
Proof. intros ->. auto. Qed.


Lemma writes_ret m : writes m wret []. Proof. exists []. split; [reflexivity|apply wr_ret]. Qed.
Lemma writes_bytes m bs : writes m (w_bytes bs) bs.
Proof. exists [bs]. split; [apply app_nil_r|apply wr_bytes]. Qed.
Lemma writes_uint m k v : writes m (w_uint k v) (le k v).
Proof. unfold w_uint. rewrite host_bytes_le. apply writes_bytes. Qed.
Lemma writes_seq m x y a b : writes m x a -> writes m y b -> writes m (x ;; y) (a ++ b).
Proof.
  intros (ps & <- & Hx) (qs & <- & Hy). exists (ps ++ qs). split; [|apply wr_seq; assumption].
  unfold concats. apply concat_app.
Qed.
Lemma writes_view m v bs : reads m v bs -> writes m (w_view v) bs.
Proof. intros H. exists [bs]. split; [apply app_nil_r|apply wr_view; assumption]. Qed.
Lemma writes_hext m n x bs : hext m n -> writes m x bs -> writes n x bs.
Proof. intros E (ps & H & K). exists ps. split; [assumption|eapply wr_hext; eauto]. Qed.
Lemma carries_hext m n s bs : hext m n -> carries m s bs -> carries n s bs.
Proof. intros E [H K]. split; [assumption|eapply writes_hext; eauto]. Qed.
Lemma carries_opt_hext m n p bs : hext m n -> carries_opt m p bs -> carries_opt n p bs.
Proof. destruct p; cbn; [apply carries_hext|auto]. Qed.

Lemma carries_prim m k v : carries m (prim_ser k v) (le k v).
Proof. split; [cbn; rewrite len_le; reflexivity|apply writes_uint]. Qed.
Lemma carries_sbuf m s bs : reads m (sb_data s) bs -> carries m (ser_of_sbuf s) bs.
Proof. intros H. split; [cbn; rewrite (reads_len _ _ _ H); reflexivity|apply writes_view; assumption]. Qed.

(** Serializing into a buffer. *)
Lemma writes_buffer m x bs : writes m x bs -> forall m' b pre old post c,
  hext m m' -> (forall bl, nth_error m b <> Some (Some bl)) ->
  nth_error m' b = Some (Some (pre ++ old ++ post)) -> len bs <= len old ->
  x m' (WBuf (mkV b (len pre) (len old)) c)
  = (Ret tt, list_set m' b (Some (pre ++ bs ++ drop (len bs) old ++ post)),
     WBuf (mkV b (len pre + len bs) (len old - len bs)) (c + len bs)).
Proof.
  intros (ps & <- & H) m' b pre old post c E F G L. rewrite (H m' (WBuf (mkV b (len pre) (len old)) c) E F). apply wpieces_ok; assumption.
Qed.
Lemma writes_buffer_short m x bs : writes m x bs -> forall m' b pre old post c,
  hext m m' -> (forall bl, nth_error m b <> Some (Some bl)) ->
  nth_error m' b = Some (Some (pre ++ old ++ post)) -> len old < len bs ->
  exists acc w', len acc <= len old /\ (exists tail, bs = acc ++ tail) /\
  x m' (WBuf (mkV b (len pre) (len old)) c)
  = (Throw LengthError "Buffer to small to serialize value",
     list_set m' b (Some (pre ++ acc ++ drop (len acc) old ++ post)), w').
Proof.
  intros (ps & <- & H) m' b pre old post c E F G L. rewrite (H m' (WBuf (mkV b (len pre) (len old)) c) E F).
  destruct (wpieces_short ps m' b pre old post c G L) as (ps1 & p & ps2 & -> & Hl & ->).
  exists (concats ps1). eexists. split; [lia|]. split; [|reflexivity].
  exists (concats (p :: ps2)). unfold concats. apply concat_app.
Qed.
Lemma writes_stream m x bs : writes m x bs -> forall m' out, hext m m' ->
  x m' (WStr out) = (Ret tt, m', WStr (out ++ bs)).
Proof. intros (ps & <- & H) m' out E. rewrite (H m' (WStr out) E I). apply wpieces_stream. Qed.

(** On a stream that does not take everything. *)
Lemma wpieces_failed ps m out room : wpieces ps m (WLim out room true) = (Ret tt, m, WLim out room true).
Proof. induction ps as [|p ps IH]; cbn [wpieces]; [reflexivity|]. unfold wseq. cbn [w_bytes]. exact IH. Qed.
Lemma wpieces_lim ps m out room : wpieces ps m (WLim out room false)
  = (Ret tt, m, if len (concats ps) <=? room then WLim (out ++ concats ps) (room - len (concats ps)) false else WLim (out ++ take room (concats ps)) 0 true).
Proof.
  revert out room. induction ps as [|p ps IH]; intros out room; cbn [wpieces]; unfold concats; cbn [List.concat].
  - unfold wret. change (len (@nil byte)) with 0. destruct (N.leb_spec 0 room); [|lia]. rewrite app_nil_r, N.sub_0_r. reflexivity.
  - unfold wseq. cbn [w_bytes]. rewrite (len_app p). destruct (N.leb_spec (len p) room) as [A|A].
    + rewrite IH. unfold concats. destruct (N.leb_spec (len (List.concat ps)) (room - len p)) as [B|B].
      * destruct (N.leb_spec (len p + len (List.concat ps)) room); [|lia]. rewrite <- app_assoc. do 2 f_equal. lia.
      * destruct (N.leb_spec (len p + len (List.concat ps)) room); [lia|]. rewrite <- app_assoc. do 3 f_equal.
        rewrite take_app_ge by lia. reflexivity.
    + rewrite wpieces_failed. destruct (N.leb_spec (len p + len (List.concat ps)) room); [lia|]. rewrite take_app_l by lia. reflexivity.
Qed.
Lemma writes_lim m x bs : writes m x bs -> forall m' out room, hext m m' ->
  x m' (WLim out room false) = (Ret tt, m', if len bs <=? room then WLim (out ++ bs) (room - len bs) false else WLim (out ++ take room bs) 0 true).
Proof. intros (ps & <- & H) m' out room E. rewrite (H m' (WLim out room false) E I). apply wpieces_lim. Qed.
Lemma writes_failed m x bs : writes m x bs -> forall m' out room, hext m m' -> x m' (WLim out room true) = (Ret tt, m', WLim out room true).
Proof. intros (ps & <- & H) m' out room E. rewrite (H m' (WLim out room true) E I). apply wpieces_failed. Qed.

(** In a fresh zeroed block of [n] bytes. *)
Lemma writes_fresh m x bs n : writes m x bs -> len bs <= n ->
  x (m ++ [Some (zeros n)]) (WBuf (mkV (List.length m) 0 n) 0)
  = (Ret tt, m ++ [Some (bs ++ zeros (n - len bs))], WBuf (mkV (List.length m) (len bs) (n - len bs)) (len bs)).
Proof.
  intros H L. pose proof (writes_buffer m x bs H (m ++ [Some (zeros n)]) (List.length m) [] (zeros n) [] 0) as K.
  rewrite len_nil, len_zeros in K. rewrite K.
  - cbn [List.app]. rewrite app_nil_r. rewrite list_set_app_end.
    replace (drop (len bs) (zeros n)) with (zeros (n - len bs)).
    + reflexivity.
    + unfold drop, zeros. clear. rewrite N2Nat.inj_sub. generalize (N.to_nat n) as a. generalize (N.to_nat (len bs)) as b.
      induction b; intros a; [rewrite Nat.sub_0_r; reflexivity|]. destruct a; [reflexivity|]. cbn. apply IHb.
  - apply hext_app.
  - intros bl Hb. apply nth_error_lt in Hb. lia.
  - rewrite nth_error_app_end. rewrite app_nil_r. reflexivity.
  - assumption.
Qed.
Lemma writes_fresh_short m x bs n : writes m x bs -> n < len bs ->
  exists junk w', len junk = n /\ x (m ++ [Some (zeros n)]) (WBuf (mkV (List.length m) 0 n) 0)
  = (Throw LengthError "Buffer to small to serialize value", m ++ [Some junk], w').
Proof.
  intros H L. pose proof (writes_buffer_short m x bs H (m ++ [Some (zeros n)]) (List.length m) [] (zeros n) [] 0) as K.
  rewrite len_nil, len_zeros in K. destruct K as (acc & w' & Ha & _ & K).
  - apply hext_app.
  - intros bl Hb. apply nth_error_lt in Hb. lia.
  - rewrite nth_error_app_end. rewrite app_nil_r. reflexivity.
  - assumption.
  - rewrite K. rewrite list_set_app_end. eexists. exists w'. split; [|reflexivity].
    cbn [List.app]. rewrite app_nil_r, len_app, len_drop, len_zeros. lia.
Qed.
