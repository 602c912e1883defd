(** Lemmas on readers. *)
From Verif Require Export PMem Packets.

Notation SHORT := "Buffer too small to deserialize value"%string (only parsing).

Lemma view_drop_drop v a b : view_drop (view_drop v a) b = view_drop v (a + b).
Proof. unfold view_drop. cbn. f_equal; lia. Qed.
Lemma view_drop_0 v : view_drop v 0 = v.
Proof. destruct v as [b o n]. unfold view_drop. cbn [v_blk v_off v_len]. f_equal; lia. Qed.
Lemma view_take_len v n : v_len (view_take v n) = N.min (v_len v) n. Proof. reflexivity. Qed.
Lemma view_take_take v a b : view_take (view_take v a) b = view_take v (N.min a b).
Proof. unfold view_take. cbn. f_equal. lia. Qed.

Section Bind.
  Context {T A B : Type} (x : D T A) (f : A -> D T B).
  Lemma dbind_ret m r t a m' r' t' : x m r t = (Ret a, m', r', t') -> dbind x f m r t = f a m' r' t'.
  Proof. intros H. unfold dbind. rewrite H. reflexivity. Qed.
  Lemma dbind_throw m r t c s m' r' t' :
    x m r t = (Throw c s, m', r', t') -> dbind x f m r t = (Throw c s, m', r', t').
  Proof. intros H. unfold dbind. rewrite H. reflexivity. Qed.
End Bind.

Section Buf.
  Context {T : Type}.
  Implicit Types (m : heap) (v : view) (c : N) (t : T) (bs : list byte).

  Lemma buf_raw n (get : T -> list byte) set m v c t bs : reads m v bs ->
    (len bs < n /\ rd_raw n get set m (RBuf v c) t = (Throw LengthError SHORT, m, RBuf v c, t)) \/
    (exists a rest, bs = a ++ rest /\ len a = n /\ reads m (view_drop v n) rest /\
      rd_raw n get set m (RBuf v c) t = (Ret tt, m, RBuf (view_drop v n) (c + n), set a t)).
  Proof.
    intros H. pose proof (reads_len _ _ _ H) as L. unfold rd_raw.
    destruct (N.ltb_spec (v_len v) n) as [S|S].
    - left. split; [lia|reflexivity].
    - right. exists (take n bs), (drop n bs). rewrite take_drop, len_take.
      split; [reflexivity|]. split; [lia|]. split; [apply reads_drop; assumption|].
      rewrite (reads_prefix _ _ _ n H) by lia. reflexivity.
  Qed.
  Lemma buf_uint k (get : T -> N) set m v c t bs : reads m v bs ->
    (len bs < N.of_nat k /\ rd_uint k get set m (RBuf v c) t = (Throw LengthError SHORT, m, RBuf v c, t)) \/
    (exists x rest, bs = le k x ++ rest /\ fits k x /\ reads m (view_drop v (N.of_nat k)) rest /\
      rd_uint k get set m (RBuf v c) t = (Ret tt, m, RBuf (view_drop v (N.of_nat k)) (c + N.of_nat k), set x t)).
  Proof.
    intros H. unfold rd_uint.
    destruct (buf_raw (N.of_nat k) (fun t => host_bytes k (get t)) (fun bs => set (host_value bs)) m v c t bs H)
      as [[L E]|(a & rest & -> & La & R & E)]; [left; auto|right].
    exists (num a), rest. rewrite le_num_k by assumption. split; [reflexivity|].
    split; [apply fits_num; assumption|]. split; [assumption|]. rewrite E, host_value_num. reflexivity.
  Qed.
  Lemma buf_local k m v c t bs : reads m v bs ->
    (len bs < N.of_nat k /\ rd_local k m (RBuf v c) t = (Throw LengthError SHORT, m, RBuf v c, t)) \/
    (exists x rest, bs = le k x ++ rest /\ fits k x /\ reads m (view_drop v (N.of_nat k)) rest /\
      rd_local k m (RBuf v c) t = (Ret x, m, RBuf (view_drop v (N.of_nat k)) (c + N.of_nat k), t)).
  Proof.
    intros H. pose proof (reads_len _ _ _ H) as L. unfold rd_local.
    destruct (N.ltb_spec (v_len v) (N.of_nat k)) as [S|S].
    - left. split; [lia|reflexivity].
    - right. exists (num (take (N.of_nat k) bs)), (drop (N.of_nat k) bs).
      assert (La : len (take (N.of_nat k) bs) = N.of_nat k) by (rewrite len_take; lia).
      rewrite le_num_k by assumption. rewrite take_drop. split; [reflexivity|].
      split; [apply fits_num; assumption|]. split; [apply reads_drop; assumption|].
      rewrite (reads_prefix _ _ _ _ H) by lia. rewrite host_value_num. reflexivity.
  Qed.
  Lemma buf_skip n m v c t bs : reads m v bs ->
    (len bs < n /\ rd_skip n m (RBuf v c) t = (Throw LengthError "End of buffer reached skipping forward", m, RBuf v c, t)) \/
    (exists a rest, bs = a ++ rest /\ len a = n /\ reads m (view_drop v n) rest /\
      rd_skip n m (RBuf v c) t = (Ret tt, m, RBuf (view_drop v n) (c + n), t)).
  Proof.
    intros H. pose proof (reads_len _ _ _ H) as L. unfold rd_skip.
    destruct (N.ltb_spec (v_len v) n) as [S|S].
    - left. split; [lia|reflexivity].
    - right. exists (take n bs), (drop n bs). rewrite take_drop, len_take.
      split; [reflexivity|]. split; [lia|]. split; [apply reads_drop; assumption|reflexivity].
  Qed.
  (** Reading a raw buffer of [n] bytes as a local object: a window on the input. *)
  Lemma buf_sb n m v c t bs : reads m v bs ->
    (len bs < n /\ exists r', dlocal sb_empty (sb_deserialize_len n) m (RBuf v c) t = (Throw LengthError SHORT, m, r', t)) \/
    (exists a rest, bs = a ++ rest /\ len a = n /\ reads m (view_take v n) a /\ reads m (view_drop v n) rest /\
      dlocal sb_empty (sb_deserialize_len n) m (RBuf v c) t
      = (Ret (sb_of_view (view_take v n)), m, RBuf (view_drop v n) (c + n), t)).
  Proof.
    intros H. pose proof (reads_len _ _ _ H) as L.
    unfold dlocal, sb_deserialize_len, dbind, rd_is_buffer, sb_delete, dget, rd_view, dmod, dret, sb_empty, dbind, dget.
    cbv beta iota zeta. cbn [sb_alloc sb_data]. cbv beta iota zeta. destruct (N.ltb_spec (v_len v) n) as [S|S].
    - left. split; [lia|]. eexists. reflexivity.
    - right. exists (take n bs), (drop n bs). rewrite take_drop, len_take.
      split; [reflexivity|]. split; [lia|]. split; [apply reads_take; assumption|].
      split; [apply reads_drop; assumption|reflexivity].
  Qed.
End Buf.

(** Symbolic execution of a decoder on a buffer: one read, naming the value read.
    In the branch where the read does not fit, the whole decode has thrown. *)
Tactic Notation "duint" ident(x) :=
  match goal with
  | H : reads ?m ?v ?bs |- context [@dbind ?TT ?AA ?BB (rd_uint ?k ?g ?s) ?f ?m (RBuf ?v ?c) ?t] =>
      let E := fresh "E" in let r := fresh "rest" in let L := fresh "L" in
      let F := fresh "F" in let R := fresh "R" in
      destruct (@buf_uint TT k g s m v c t bs H) as [[L E]|(x & r & -> & F & R & E)];
      [rewrite (dbind_throw _ f _ _ _ _ _ _ _ _ E); clear E
      |rewrite (dbind_ret _ f _ _ _ _ _ _ _ E); clear E; rewrite ?view_drop_drop in R |- *; clear H; rename R into H; try rename r into rest]
  | H : reads ?m ?v ?bs |- context [@dbind ?TT ?AA ?BB (rd_local ?k) ?f ?m (RBuf ?v ?c) ?t] =>
      let E := fresh "E" in let r := fresh "rest" in let L := fresh "L" in
      let F := fresh "F" in let R := fresh "R" in
      destruct (@buf_local TT k m v c t bs H) as [[L E]|(x & r & -> & F & R & E)];
      [rewrite (dbind_throw _ f _ _ _ _ _ _ _ _ E); clear E
      |rewrite (dbind_ret _ f _ _ _ _ _ _ _ E); clear E; rewrite ?view_drop_drop in R |- *; clear H; rename R into H; try rename r into rest]
  | H : reads ?m ?v ?bs |- context [@rd_uint ?TT ?k ?g ?s ?m (RBuf ?v ?c) ?t] =>
      let E := fresh "E" in let r := fresh "rest" in let L := fresh "L" in
      let F := fresh "F" in let R := fresh "R" in
      destruct (@buf_uint TT k g s m v c t bs H) as [[L E]|(x & r & -> & F & R & E)];
      [rewrite E; clear E
      |rewrite E; clear E; rewrite ?view_drop_drop in R |- *; clear H; rename R into H; try rename r into rest]
  end.
Tactic Notation "draw" ident(x) :=
  match goal with
  | H : reads ?m ?v ?bs |- context [@dbind ?TT ?AA ?BB (rd_raw ?k ?g ?s) ?f ?m (RBuf ?v ?c) ?t] =>
      let E := fresh "E" in let r := fresh "rest" in let L := fresh "L" in
      let R := fresh "R" in
      destruct (@buf_raw TT k g s m v c t bs H) as [[L E]|(x & r & -> & L & R & E)];
      [rewrite (dbind_throw _ f _ _ _ _ _ _ _ _ E); clear E
      |rewrite (dbind_ret _ f _ _ _ _ _ _ _ E); clear E; rewrite ?view_drop_drop in R |- *; clear H; rename R into H; try rename r into rest]
  | H : reads ?m ?v ?bs |- context [@dbind ?TT ?AA ?BB (rd_skip ?k) ?f ?m (RBuf ?v ?c) ?t] =>
      let E := fresh "E" in let r := fresh "rest" in let L := fresh "L" in
      let R := fresh "R" in
      destruct (@buf_skip TT k m v c t bs H) as [[L E]|(x & r & -> & L & R & E)];
      [rewrite (dbind_throw _ f _ _ _ _ _ _ _ _ E); clear E
      |rewrite (dbind_ret _ f _ _ _ _ _ _ _ E); clear E; rewrite ?view_drop_drop in R |- *; clear H; rename R into H; try rename r into rest]
  | H : reads ?m ?v ?bs |- context [@dbind ?TT ?AA ?BB (dlocal sb_empty (sb_deserialize_len ?n)) ?f ?m (RBuf ?v ?c) ?t] =>
      let E := fresh "E" in let r := fresh "rest" in let L := fresh "L" in
      let R := fresh "R" in let R' := fresh "R" in let q := fresh "rdr" in
      destruct (@buf_sb TT n m v c t bs H) as [[L [q E]]|(x & r & -> & L & R' & R & E)];
      [rewrite (dbind_throw _ f _ _ _ _ _ _ _ _ E); clear E
      |rewrite (dbind_ret _ f _ _ _ _ _ _ _ E); clear E; rewrite ?view_drop_drop in R |- *; clear H; rename R into H; try rename r into rest]
  end.

(** Lengths of byte strings built from fields. *)
Ltac lens := rewrite ?len_app, ?len_le, ?len_cons, ?len_nil in *.

Lemma window_holds m v bs off n : reads m v bs -> off + n <= len bs ->
  holds m (window v off n) (take n (drop off bs)).
Proof.
  intros H L. unfold holds, window. destruct (N.eqb_spec n 0) as [->|Z]; [reflexivity|].
  split.
  - intros E. apply (f_equal len) in E. rewrite len_take, len_drop, len_nil in E. lia.
  - exists (sb_of_view (view_take (view_drop v off) n)). split; [reflexivity|]. cbn [sb_data sb_of_view].
    apply reads_take, reads_drop. assumption.
Qed.
Lemma holds_carries m p bs : holds m p bs -> carries_opt m p bs.
Proof.
  destruct p as [s|]; [|auto]. intros (_ & sb & -> & R). apply carries_sbuf. assumption.
Qed.
Lemma holds_hext m n p bs : hext m n -> holds m p bs -> holds n p bs.
Proof.
  intros E. destruct p as [s|]; cbn; [|auto]. intros (Z & sb & -> & R). split; [assumption|].
  exists sb. split; [reflexivity|]. eapply reads_hext; eauto.
Qed.
Lemma holds_inj m p a b : holds m p a -> holds m p b -> a = b.
Proof.
  destruct p as [s|]; cbn; [|congruence]. intros (_ & sb & E & R) (_ & sb' & E' & R').
  assert (sb = sb') by (rewrite E in E'; unfold ser_of_sbuf in E'; congruence). subst. unfold reads in *. congruence.
Qed.

(** The name is resized before it is read into. *)
Definition id_flat : D identity unit :=
  rd_uint 2 id_version id_set_version ;;;
  rd_raw 16 id_sockaddr id_set_sockaddr ;;;
  rd_uint 2 id_vendor id_set_vendor ;;;
  rd_uint 2 id_device id_set_device ;;;
  rd_uint 2 id_product id_set_product ;;;
  rd_raw 2 id_revision id_set_revision ;;;
  rd_uint 2 id_status id_set_status ;;;
  rd_uint 4 id_serial id_set_serial ;;;
  n <- rd_local 1 ;;;
  dmod (fun i => id_set_name (resize n (id_name i)) i) ;;;
  rd_raw n id_name id_set_name ;;;
  rd_uint 1 id_state id_set_state.
Lemma dbind_ext {T A B} (x : D T A) (f g : A -> D T B) : (forall a m r t, f a m r t = g a m r t) -> forall m r t, dbind x f m r t = dbind x g m r t.
Proof. intros H m r t. unfold dbind. destruct (x m r t) as [[[[a|c s|u|] m'] r'] t']; auto. Qed.
Lemma len_resize n s : len (resize n s) = n.
Proof. unfold resize. rewrite len_app, len_zeros, len_take. lia. Qed.
Lemma name_flat n m r t : len (id_name t) = n -> rd_name n m r t = rd_raw n id_name id_set_name m r t.
Proof.
  intros L. unfold rd_name, dbind, dget. rewrite L, N.ltb_irrefl. unfold rd_raw. destruct r as [v c|d p f].
  - destruct (v_len v <? n); [reflexivity|]. destruct (load m (v_blk v) (v_off v) n); try reflexivity. rewrite drop_all by lia. rewrite app_nil_r. reflexivity.
  - destruct (str_read d p f n) as [got r']. rewrite take_all, (drop_all n) by lia. rewrite app_nil_r. reflexivity.
Qed.
Lemma id_flat_eq : forall m r t, id_deserialize m r t = id_flat m r t.
Proof.
  unfold id_deserialize, id_flat. do 8 (apply dbind_ext; intros _). apply dbind_ext. intros n m r t.
  unfold dbind, dmod. rewrite name_flat by apply len_resize. reflexivity.
Qed.
