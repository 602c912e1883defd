(** Split replies and the transport. *)
From Verif Require Export PThreads Transport.

Lemma first_piece_incomplete a b : first_piece a b -> forall cmd ses payload, ~ reply_frame a cmd ses payload.
Proof.
  intros (N & c & s & st & c0 & c1 & o & pl & F & E) cmd ses p (st' & c0' & c1' & o' & rest & F' & E').
  assert (A : reply_frame (a ++ b) c s pl) by (exists st, c0, c1, o, []; rewrite app_nil_r; auto).
  assert (B : reply_frame (a ++ b) cmd ses p) by (exists st', c0', c1', o', (rest ++ b); rewrite E', <- app_assoc; auto).
  destruct (reply_frame_inj _ _ _ _ _ _ _ A B) as (<- & <- & <-). rewrite E' in E. apply (f_equal len) in E.
  unfold frame, header in E. rewrite !len_app, !len_le in E. apply N. destruct b; [reflexivity|]. rewrite len_cons in E. lia.
Qed.
Lemma incomplete_answers id got : (forall cmd ses payload, ~ reply_frame got cmd ses payload) ->
  (forall sv st a d, ~ answers id got sv st a d) /\ ~ crashes id got /\ (forall ses, ~ registers id got ses) /\ ~ registers_empty id got.
Proof.
  intros N. split; [|split; [|split]].
  - intros sv st a d (ses & p & H & _). exact (N _ _ _ H).
  - intros (ses & p & H & _). exact (N _ _ _ H).
  - intros ses (p & H & _). exact (N _ _ _ H).
  - intros (ses & H & _). exact (N _ _ _ H).
Qed.
Lemma carries_opt_inj m d a b : carries_opt m d a -> carries_opt m d b -> a = b.
Proof. destruct d; cbn; [apply carries_inj|congruence]. Qed.
Lemma split_reply u o w r w' bs a b : session_ok w -> user_memory u w -> op_ok u o -> awaits o -> ~ silent o w ->
  request_of u o (w_se w) bs -> reply_of (w_ctl w) bs = Reply a -> first_piece a b -> step o w = (r, w') ->
  (exists s, r = Throw RuntimeError s \/ (is_open_close o /\ r = Throw SystemError s)) /\
  (~ is_open_close o -> so_recv (w_ctl w') = tl (so_recv (w_ctl w))).
Proof.
  intros (R & I & F) (UH & UN) K Aw Si Rq Er P S.
  pose proof (first_piece_incomplete a b P) as Nf. destruct (incomplete_answers (se_id (w_se w)) a Nf) as (Na & Nc & Nr & Ne).
  assert (L : so_recv (left_of (w_ctl w) bs) = tl (so_recv (w_ctl w))).
  { unfold left_of, reply_of, talk in *. destruct (sent (w_ctl w) bs); [|discriminate]. destruct (so_recv (w_ctl w)) as [|[]]; reflexivity. }
  destruct o as [h p q| |T c t x y z|x y z d|a1 b1|n| |p]; cbn [step op_ok request_of silent awaits] in *; try contradiction.
  - subst bs. destruct (session_open_spec w h p q R) as (o & w1 & E & X). rewrite (mbind_unit _ (fun _ => RUnit) _ _ _ E) in S. injection S as <- <-.
    split; [|intros Y; destruct (Y Logic.I)]. destruct X as (_ & _ & _ & X).
    destruct (open_fails (w_ctl w)); [destruct Si; auto|]. destruct (open_fails (w_io w)); [destruct Si; auto|].
    destruct X as (tail & O & _). unfold open_outcome in O. rewrite Er in O.
    destruct O as [(ses & X & _)|[(X & _)|(_ & _ & _ & _ & X)]]; [destruct (Nr _ X)|destruct (Ne X)|].
    destruct (closed (w_ctl w) (w_io w)); destruct X as [s ->]; exists s; [left; reflexivity|right; split; [exact Logic.I|reflexivity]].
  - subst bs. destruct K as (Kx & Ky & Kz & _). unfold getSingleAttributeSerializable in S. rewrite path_cia_of in S by assumption.
    destruct (rr_command w 0x0E false [SClass x; SInstance y; SAttribute z] None [] R eq_refl eq_refl) as (o & w1 & E & X & O).
    rewrite E in S. unfold rr_outcome in O. change (request 0x6F _ _) with (get_request (se_id (w_se w)) x y z) in O, X. rewrite Er in O.
    destruct O as [(? & ? & ? & ? & X1 & _)|[(X1 & _)|(_ & _ & s & ->)]]; [destruct (Na _ _ _ _ X1)|destruct (Nc X1)|].
    injection S as <- <-. split; [exists s; left; reflexivity|]. intros _. destruct X as (_ & _ & _ & _ & _ & _ & ->). exact L.
  - destruct K as (Kx & Ky & Kz & data & Kc & _). destruct Rq as (data' & C' & ->). rewrite (carries_opt_inj _ _ _ _ C' Kc) in *.
    destruct (set_attribute w x y z d data R Kx Ky Kz (carries_opt_hext _ _ _ _ UH Kc)) as (o & w1 & E & X & O).
    rewrite (mbind_unit _ (fun _ => RUnit) _ _ _ E) in S. injection S as <- <-. cbv zeta in O. rewrite Er in O.
    destruct O as [((? & ? & ? & X1) & _)|[(X1 & _)|(_ & _ & s & ->)]]; [destruct (Na _ _ _ _ X1)|destruct (Nc X1)|].
    split; [exists s; left; reflexivity|]. intros _. destruct X as (_ & _ & _ & _ & _ & _ & ->). exact L.
  - subst bs. destruct K as [Ka Kb]. destruct (create_connection w a1 b1 R Ka Kb) as (o & w1 & E & X & _ & O).
    rewrite (mbind_unit _ (fun n => RNumber n) _ _ _ E) in S. injection S as <- <-. unfold create_outcome in O. cbv zeta in O. rewrite Er in O.
    split; [|intros _; destruct X as (_ & _ & _ & _ & _ & ->); exact L].
    destruct O as [(?&?&d'&?&?&?&?&?&A'&_)|(_ & [(?&?&d'&?&?&?&?&?&?&?&?&A'&_)|[(?&?&d'&?&A'&_)|[([A'|(?&?&A')] & _)|(_ & _ & s & ->)]]])];
      try (destruct (Na _ _ _ _ A')). { destruct (Nc A'). } exists s. left. reflexivity.
  - destruct Rq as (c & En & ->). assert (T : cn_tick_size c < 256 /\ cn_ticks c < 256) by (rewrite Forall_forall in F; apply F; eapply nth_error_In; eassumption).
    destruct T as [T1 T2]. destruct (close_connection w n c R En T1 T2) as (o & w1 & E & X & O). rewrite (mbind_unit _ (fun _ => RUnit) _ _ _ E) in S. injection S as <- <-.
    unfold drop_conn_outcome in O. cbv zeta in O. rewrite Er in O.
    split; [|intros _; destruct X as (_ & _ & _ & _ & _ & ->); exact L].
    destruct O as [(?&?&d'&A'&_)|(_ & [(?&?&d'&?&?&?&?&A'&_)|[(?&?&d'&?&A'&_)|[([A'|(?&?&A')] & _)|(_ & _ & s & ->)]]])];
      try (destruct (Na _ _ _ _ A')). { destruct (Nc A'). } exists s. left. reflexivity.
Qed.

(** Segments that fit the receive buffer are delivered one by one. *)
Lemma tcp_segments max segs : 0 < max -> Forall (fun s => s <> [] /\ len s <= max) segs -> tcp_script max segs = map RxData segs.
Proof.
  intros M F. unfold tcp_script. induction F as [|s segs [N1 L] F IH]; [reflexivity|]. cbn [flat_map map]. rewrite IH.
  destruct s as [|x s]; [contradiction|]. cbn [List.length tcp_pieces]. rewrite take_all by exact L. rewrite drop_all by exact L.
  destruct (List.length s); reflexivity.
Qed.
(** Longer ones come in pieces of the size of the buffer, none lost. *)
Lemma tcp_pieces_whole max : 0 < max -> forall f seg, len seg <= N.of_nat f ->
  exists ds, tcp_pieces f max seg = map RxData ds /\ List.concat ds = seg /\ Forall (fun d => d <> [] /\ len d <= max) ds.
Proof.
  intros M. induction f as [|f IH]; intros seg L.
  - exists []. destruct seg; [repeat split; constructor|rewrite len_cons in L; lia].
  - destruct seg as [|x seg]; [exists []; repeat split; constructor|].
    destruct (IH (drop max (x :: seg))) as (ds & E & C & F); [rewrite len_drop; rewrite len_cons in *; lia|].
    exists (take max (x :: seg) :: ds). cbn [tcp_pieces map List.concat]. rewrite E, C, take_drop.
    split; [reflexivity|]. split; [reflexivity|]. constructor; [|exact F]. split.
    + intros N0. apply (f_equal len) in N0. rewrite len_take, len_cons in N0. change (len (@nil byte)) with 0 in N0. lia.
    + rewrite len_take. lia.
Qed.
Lemma tcp_stream max segs : 0 < max ->
  exists ds, tcp_script max segs = map RxData ds /\ List.concat ds = List.concat segs /\ Forall (fun d => d <> [] /\ len d <= max) ds.
Proof.
  intros M. induction segs as [|s segs (ds & E & C & F)]; [exists []; repeat split; constructor|].
  destruct (tcp_pieces_whole max M (List.length s) s) as (d0 & E0 & C0 & F0); [unfold len; lia|].
  exists (d0 ++ ds). unfold tcp_script in *. cbn [flat_map]. rewrite E0, E, map_app, concat_app, C0, C. cbn [List.concat].
  split; [reflexivity|]. split; [reflexivity|]. apply Forall_app. auto.
Qed.
