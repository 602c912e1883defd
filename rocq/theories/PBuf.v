(** Sequences of writes and reads on a buffer. *)
From Coq Require Import PeanoNat.
From Verif Require Export PEnc.

Lemma store_reads_other m b pre old post v p : nth_error m b = Some (Some (pre ++ old ++ post)) ->
  reads m v p -> (v_blk v <> b \/ p = []) -> reads (list_set m b None) v p.
Proof.
  intros Hb R [Hv| ->].
  - unfold reads, load_view, load in *. rewrite nth_error_set_other by congruence. exact R.
  - apply reads_len in R. apply reads_nil. change (len (@nil byte)) with 0 in R. congruence.
Qed.
Lemma hext_forget m b : hext (list_set m b None) m.
Proof.
  intros c bl H. destruct (Nat.eq_dec b c) as [<-|N].
  - destruct (nth_error m b) eqn:E.
    + rewrite nth_error_set_same in H by (eapply nth_error_lt; eauto). discriminate.
    + apply nth_error_lt in H. rewrite length_list_set in H. apply nth_error_None in E. lia.
  - rewrite nth_error_set_other in H by assumption. exact H.
Qed.
Lemma fresh_forget m b o n c : fresh (list_set m b None) (WBuf (mkV b o n) c).
Proof.
  intros bl H. cbn [v_blk] in H. pose proof (hext_forget m b b bl H) as G.
  rewrite nth_error_set_same in H by (eapply nth_error_lt; eauto). discriminate.
Qed.
Lemma puts_wr m b pre old post os ps : nth_error m b = Some (Some (pre ++ old ++ post)) ->
  Forall2 (put_piece m b) os ps -> wr (list_set m b None) (do_puts os) ps.
Proof.
  intros Hb. induction 1 as [|o p os ps H _ IH]; cbn [do_puts]; [apply wr_ret|].
  apply (wr_seq _ _ _ [p]); [|exact IH].
  destruct o; cbn [do_put put_piece] in *.
  - subst. apply wr_bytes.
  - subst. apply wr_uint.
  - destruct H as [R D]. apply wr_view. eapply store_reads_other; eauto.
Qed.

Lemma puts_ok m b pre old post c os ps :
  nth_error m b = Some (Some (pre ++ old ++ post)) -> Forall2 (put_piece m b) os ps ->
  len (concats ps) <= len old ->
  exists m', do_puts os m (WBuf (mkV b (len pre) (len old)) c)
    = (Ret tt, m', WBuf (mkV b (len pre + len (concats ps)) (len old - len (concats ps))) (c + len (concats ps))) /\
    nth_error m' b = Some (Some (pre ++ concats ps ++ drop (len (concats ps)) old ++ post)) /\
    (forall b', b' <> b -> nth_error m' b' = nth_error m b').
Proof.
  intros Hb F L. pose proof (puts_wr _ _ _ _ _ _ _ Hb F) as Hw.
  rewrite (Hw m (WBuf (mkV b (len pre) (len old)) c) (hext_forget m b) (fresh_forget m b _ _ c)).
  rewrite (wpieces_ok ps m b pre old post c Hb L). eexists. split; [reflexivity|].
  rewrite nth_error_set_same by (eapply nth_error_lt; eauto). split; [reflexivity|].
  intros b' Hn. apply nth_error_set_other. congruence.
Qed.
Lemma puts_short m b pre old post c os ps :
  nth_error m b = Some (Some (pre ++ old ++ post)) -> Forall2 (put_piece m b) os ps ->
  len old < len (concats ps) ->
  exists ps1 p ps2 m', ps = ps1 ++ p :: ps2 /\ len (concats ps1) <= len old < len (concats ps1) + len p /\
    do_puts os m (WBuf (mkV b (len pre) (len old)) c)
    = (Throw LengthError "Buffer to small to serialize value", m',
       WBuf (mkV b (len pre + len (concats ps1)) (len old - len (concats ps1))) (c + len (concats ps1))) /\
    nth_error m' b = Some (Some (pre ++ concats ps1 ++ drop (len (concats ps1)) old ++ post)) /\
    (forall b', b' <> b -> nth_error m' b' = nth_error m b').
Proof.
  intros Hb F L. pose proof (puts_wr _ _ _ _ _ _ _ Hb F) as Hw.
  rewrite (Hw m (WBuf (mkV b (len pre) (len old)) c) (hext_forget m b) (fresh_forget m b _ _ c)).
  destruct (wpieces_short ps m b pre old post c Hb L) as (ps1 & p & ps2 & -> & Hl & E).
  exists ps1, p, ps2. eexists. split; [reflexivity|]. split; [exact Hl|]. split; [exact E|].
  rewrite nth_error_set_same by (eapply nth_error_lt; eauto). split; [reflexivity|].
  intros b' Hn. apply nth_error_set_other. congruence.
Qed.

(** ** Reads *)
Lemma get_ok o m v c t bs : reads m v bs -> size o <= len bs ->
  exists g, do_get o m (RBuf v c) t = (Ret tt, m, RBuf (view_drop v (size o)) (c + size o), t ++ [g]) /\
    got_is m o (take (size o) bs) g.
Proof.
  intros H L. destruct o as [n|k|k|n|n]; cbn [do_get size got_is] in *.
  - destruct (buf_raw n (fun _ => []) (fun bs t => t ++ [GotBytes bs]) m v c t bs H) as [[S _]|(a & rest & -> & La & _ & E)]; [lia|].
    rewrite E. eexists. split; [reflexivity|]. rewrite (take_app n) by assumption. reflexivity.
  - destruct (buf_uint k (fun _ => 0) (fun v t => t ++ [GotInt v]) m v c t bs H) as [[S _]|(x & rest & -> & F & _ & E)]; [lia|].
    rewrite E. eexists. split; [reflexivity|]. exists x. split; [reflexivity|]. split; [assumption|].
    apply take_app, len_le.
  - destruct (@buf_local (list got) k m v c t bs H) as [[S _]|(x & rest & -> & F & _ & E)]; [lia|].
    erewrite dbind_ret by exact E. eexists. split; [reflexivity|]. exists x. split; [reflexivity|]. split; [assumption|].
    apply take_app, len_le.
  - pose proof (reads_len _ _ _ H) as Lv. unfold dbind, rd_view. destruct (N.ltb_spec (v_len v) n); [lia|].
    eexists. split; [reflexivity|]. eexists. split; [reflexivity|]. apply reads_take. assumption.
  - pose proof (reads_len _ _ _ H) as Lv. unfold dbind, rd_skip. destruct (N.ltb_spec (v_len v) n); [lia|].
    eexists. split; reflexivity.
Qed.
Lemma get_short o m v c t bs : reads m v bs -> len bs < size o ->
  exists s, do_get o m (RBuf v c) t = (Throw LengthError s, m, RBuf v c, t).
Proof.
  intros H L. pose proof (reads_len _ _ _ H) as Lv. destruct o as [n|k|k|n|n]; cbn [do_get size] in *.
  - unfold rd_raw. destruct (N.ltb_spec (v_len v) n); [|lia]. eexists. reflexivity.
  - unfold rd_uint, rd_raw. destruct (N.ltb_spec (v_len v) (N.of_nat k)); [|lia]. eexists. reflexivity.
  - unfold dbind, rd_local. destruct (N.ltb_spec (v_len v) (N.of_nat k)); [|lia]. eexists. reflexivity.
  - unfold dbind, rd_view. destruct (N.ltb_spec (v_len v) n); [|lia]. eexists. reflexivity.
  - unfold dbind, rd_skip. destruct (N.ltb_spec (v_len v) n); [|lia]. eexists. reflexivity.
Qed.
Lemma gets_ok os : forall m v c t bs, reads m v bs -> total os <= len bs ->
  exists gs, do_gets os m (RBuf v c) t = (Ret tt, m, RBuf (view_drop v (total os)) (c + total os), t ++ gs) /\
    gots_are m os bs gs /\ reads m (view_drop v (total os)) (drop (total os) bs).
Proof.
  induction os as [|o os IH]; intros m v c t bs H L; cbn [do_gets].
  - exists []. change (total []) with 0. rewrite view_drop_0, N.add_0_r, app_nil_r. split; [reflexivity|]. split; [exact I|exact H].
  - change (total (o :: os)) with (size o + total os) in *.
    destruct (get_ok o m v c t bs H) as (g & E & G); [lia|]. erewrite dbind_ret by exact E.
    destruct (IH m (view_drop v (size o)) (c + size o) (t ++ [g]) (drop (size o) bs)) as (gs & E' & G' & R').
    + apply reads_drop. assumption.
    + rewrite len_drop. lia.
    + exists (g :: gs). rewrite E'. rewrite view_drop_drop in *. rewrite drop_drop in R'.
      rewrite <- app_assoc. cbn [List.app]. replace (c + size o + total os) with (c + (size o + total os)) by lia.
      split; [reflexivity|]. split; [split; assumption|assumption].
Qed.
Lemma gets_short os : forall m v c t bs, reads m v bs -> len bs < total os ->
  exists os1 o os2 gs s, os = os1 ++ o :: os2 /\ total os1 <= len bs < total os1 + size o /\
    do_gets os m (RBuf v c) t
    = (Throw LengthError s, m, RBuf (view_drop v (total os1)) (c + total os1), t ++ gs) /\
    gots_are m os1 bs gs.
Proof.
  induction os as [|o os IH]; intros m v c t bs H L; cbn [do_gets].
  - change (total []) with 0 in L. lia.
  - change (total (o :: os)) with (size o + total os) in *.
    destruct (N.lt_ge_cases (len bs) (size o)) as [S|S].
    + destruct (get_short o m v c t bs H S) as [s E]. exists [], o, os, [], s. change (total []) with 0.
      split; [reflexivity|]. split; [lia|]. rewrite (dbind_throw _ _ _ _ _ _ _ _ _ _ E).
      rewrite view_drop_0, N.add_0_r, app_nil_r. split; [reflexivity|exact I].
    + destruct (get_ok o m v c t bs H S) as (g & E & G). erewrite dbind_ret by exact E.
      destruct (IH m (view_drop v (size o)) (c + size o) (t ++ [g]) (drop (size o) bs)) as (os1 & o' & os2 & gs & s & -> & B & E' & G').
      * apply reads_drop. assumption.
      * rewrite len_drop. lia.
      * rewrite len_drop in B. exists (o :: os1), o', os2, (g :: gs), s.
        change (total (o :: os1)) with (size o + total os1).
        split; [reflexivity|]. split; [lia|]. rewrite E', view_drop_drop, <- app_assoc. cbn [List.app].
        replace (c + size o + total os1) with (c + (size o + total os1)) by lia.
        split; [reflexivity|]. split; assumption.
Qed.

(** ** Integers on both back ends *)
Lemma str_read_ok d p n a rest : drop p d = a ++ rest -> len a = n ->
  str_read d p false n = (a, RStr d (p + n) false).
Proof.
  intros H L. unfold str_read. rewrite H, (take_app n) by assumption. rewrite L.
  destruct (N.ltb_spec n n); [lia|reflexivity].
Qed.
Lemma drop_next {A} p n (d a rest : list A) : drop p d = a ++ rest -> len a = n -> drop (p + n) d = rest.
Proof. intros H L. rewrite <- drop_drop, H. apply drop_app. assumption. Qed.
Lemma str_raw {T} n (get : T -> list byte) set m d p t a rest : drop p d = a ++ rest -> len a = n ->
  len (get t) = n ->
  rd_raw n get set m (RStr d p false) t = (Ret tt, m, RStr d (p + n) false, set a t).
Proof.
  intros H L G. unfold rd_raw. rewrite (str_read_ok d p n a rest H L). rewrite drop_all by lia.
  rewrite app_nil_r. reflexivity.
Qed.
Lemma str_uint {T} k (get : T -> N) set m d p t x rest : drop p d = le k x ++ rest -> fits k x ->
  rd_uint k get set m (RStr d p false) t = (Ret tt, m, RStr d (p + N.of_nat k) false, set x t).
Proof.
  intros H F. unfold rd_uint. erewrite str_raw; [|exact H|apply len_le|apply len_host_bytes].
  rewrite host_value_num, num_le by assumption. reflexivity.
Qed.
Lemma str_local {T} k m d p (t : T) x rest : drop p d = le k x ++ rest -> fits k x ->
  rd_local k m (RStr d p false) t = (Ret x, m, RStr d (p + N.of_nat k) false, t).
Proof.
  intros H F. unfold rd_local. rewrite (str_read_ok d p (N.of_nat k) (le k x) rest H (len_le k x)). rewrite len_le.
  destruct (N.ltb_spec (N.of_nat k) (N.of_nat k)); [lia|]. rewrite host_value_num, num_le by assumption. reflexivity.
Qed.
