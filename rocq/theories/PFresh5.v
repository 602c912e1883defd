(** * Decoding from buffers takes nothing from new memory (C109) *)
From Verif Require Export PFresh4.

Definition agrees {T A} (f g : D T A) : Prop := forall m v c t, g m (RBuf v c) t = f m (RBuf v c) t.
(** Decoding from a buffer leaves a buffer. *)
Definition stays {T A} (f : D T A) : Prop := forall m v c t o m' r' t', f m (RBuf v c) t = (o, m', r', t') -> exists v' c', r' = RBuf v' c'.
Lemma ag_refl {T A} (f : D T A) : agrees f f. Proof. intros m v c t. reflexivity. Qed.
Lemma ag_bind {T A B} (f g : D T A) (k h : A -> D T B) : agrees f g -> stays f -> (forall a, agrees (k a) (h a)) -> agrees (dbind f k) (dbind g h).
Proof.
  intros F S0 K m v c t. unfold dbind. rewrite F. destruct (f m (RBuf v c) t) as [[[o m1] r1] t1] eqn:E. destruct (S0 _ _ _ _ _ _ _ _ E) as (v1 & c1 & ->).
  destruct o; [apply K|reflexivity..].
Qed.
Lemma ag_local {T U} (u : U) (f g : D U unit) : agrees f g -> agrees (T := T) (dlocal u f) (dlocal u g).
Proof. intros F m v c t. unfold dlocal. rewrite F. reflexivity. Qed.
Lemma st_ret {T A} (a : A) : stays (@dret T A a). Proof. intros m v c t o m' r' t' H. injection H as <- <- <- <-. eauto. Qed.
Lemma st_mod {T} f : stays (@dmod T f). Proof. intros m v c t o m' r' t' H. injection H as <- <- <- <-. eauto. Qed.
Lemma st_get {T} : stays (@dget T). Proof. intros m v c t o m' r' t' H. injection H as <- <- <- <-. eauto. Qed.
Lemma st_bind {T A B} (f : D T A) (k : A -> D T B) : stays f -> (forall a, stays (k a)) -> stays (dbind f k).
Proof.
  intros F K m v c t o m' r' t'. unfold dbind. destruct (f m (RBuf v c) t) as [[[o1 m1] r1] t1] eqn:E. destruct (F _ _ _ _ _ _ _ _ E) as (v1 & c1 & ->).
  destruct o1; [apply K|..]; intros H; injection H as <- <- <- <-; eauto.
Qed.
Lemma st_local {T U} (u : U) (f : D U unit) : stays f -> stays (T := T) (dlocal u f).
Proof.
  intros F m v c t o m' r' t'. unfold dlocal. destruct (f m (RBuf v c) u) as [[[o1 m1] r1] t1] eqn:E. destruct (F _ _ _ _ _ _ _ _ E) as (v1 & c1 & ->).
  destruct o1; intros H; injection H as <- <- <- <-; eauto.
Qed.
Lemma st_zoom {T U} (get : T -> U) set (f : D U unit) : stays f -> stays (dzoom get set f).
Proof.
  intros F m v c t o m' r' t'. unfold dzoom. destruct (f m (RBuf v c) (get t)) as [[[o1 m1] r1] t1] eqn:E. destruct (F _ _ _ _ _ _ _ _ E) as (v1 & c1 & ->).
  intros H; injection H as <- <- <- <-; eauto.
Qed.
Lemma st_raw {T} n (get : T -> list byte) set : stays (rd_raw n get set).
Proof.
  intros m v c t o m' r' t'. unfold rd_raw. destruct (_ <? _); [intros H; injection H as <- <- <- <-; eauto|].
  destruct (load _ _ _ _); intros H; injection H as <- <- <- <-; eauto.
Qed.
Lemma st_uint {T} k (get : T -> N) set : stays (rd_uint k get set). Proof. apply st_raw. Qed.
Lemma st_number {T} k : stays (@rd_local T k).
Proof.
  intros m v c t o m' r' t'. unfold rd_local. destruct (_ <? _); [intros H; injection H as <- <- <- <-; eauto|].
  destruct (load _ _ _ _); intros H; injection H as <- <- <- <-; eauto.
Qed.
Lemma st_leaves {T A} (f : D T A) : leaves f -> stays f.
Proof. intros F m v c t o m' r' t' H. rewrite (F _ _ _ _ _ _ _ H). eauto. Qed.
Lemma lv_delete : leaves sb_delete.
Proof. unfold sb_delete. intros m r t o m' r' t'. unfold dbind, dget. destruct (sb_alloc t) as [b|]; [|intros H; injection H as <- <- <- <-; reflexivity].
  unfold d_free. destruct (free m b); intros H; injection H as <- <- <- <-; reflexivity. Qed.
Lemma st_buffer n : stays (sb_deserialize_len n).
Proof.
  intros m v c t o m' r' t'. unfold sb_deserialize_len. unfold dbind at 1, rd_is_buffer. revert m v c t o m' r' t'.
  change (stays (sb_delete ;;; (w <- rd_view n ;;; dmod (fun s => mkSB w (sb_alloc s))))).
  apply st_bind; [apply st_leaves, lv_delete|intros _]. apply st_bind; [|intros; apply st_mod].
  intros m v c t o m' r' t'. unfold rd_view. destruct (_ <? _); intros H; injection H as <- <- <- <-; eauto.
Qed.
Lemma ag_buffer g n : agrees (sb_deserialize_len n) (sb_deserialize_len_g g n).
Proof. intros m v c t. reflexivity. Qed.
Lemma st_header : stays hdr_deserialize.
Proof. unfold hdr_deserialize. repeat lazymatch goal with |- forall _, _ => intro | |- stays (dbind _ _) => apply st_bind | |- stays (dret _) => apply st_ret | |- stays _ => apply st_raw end. Qed.
Lemma ag_packet g : agrees ep_deserialize (ep_deserialize_g g).
Proof.
  unfold ep_deserialize, ep_deserialize_g. apply ag_bind; [apply ag_refl|apply st_zoom, st_header|intros _]. apply ag_bind; [apply ag_refl|apply st_get|intros p].
  destruct (0 <? _); [|apply ag_refl]. apply ag_bind; [apply ag_local, ag_buffer|apply st_local, st_buffer|intros; apply ag_refl].
Qed.
Lemma ag_item g : agrees it_deserialize (it_deserialize_g g).
Proof.
  unfold it_deserialize, it_deserialize_g, it_deserializeData. apply ag_bind; [apply ag_refl|apply st_uint|intros _]. apply ag_bind; [apply ag_refl|apply st_number|intros n].
  destruct (0 <? n); [|apply ag_refl]. apply ag_bind; [apply ag_refl|apply st_mod|intros _].
  apply ag_bind; [apply ag_local, ag_buffer|apply st_local, st_buffer|intros; apply ag_refl].
Qed.
Lemma st_item : stays it_deserialize.
Proof.
  unfold it_deserialize, it_deserializeData. apply st_bind; [apply st_uint|intros _]. apply st_bind; [apply st_number|intros n].
  destruct (0 <? n); [|apply st_mod]. apply st_bind; [apply st_mod|intros _]. apply st_bind; [apply st_local, st_buffer|intros; apply st_mod].
Qed.
Lemma ag_loop g n : agrees (cpf_loop n) (cpf_loop_g g n).
Proof.
  induction n as [|n IH]; cbn [cpf_loop cpf_loop_g]; [apply ag_refl|]. apply ag_bind; [apply ag_local, ag_item|apply st_local, st_item|intros i].
  apply ag_bind; [apply ag_refl|apply st_mod|intros _; exact IH].
Qed.
Lemma ag_items g : agrees cpf_deserialize (cpf_deserialize_g g).
Proof.
  unfold cpf_deserialize, cpf_deserialize_g. apply ag_bind; [apply ag_refl|apply st_mod|intros _]. apply ag_bind; [apply ag_refl|apply st_number|intros n; apply ag_loop].
Qed.
Lemma st_loop n : stays (cpf_loop n).
Proof.
  induction n as [|n IH]; cbn [cpf_loop]; [apply st_ret|]. apply st_bind; [apply st_local, st_item|intros i].
  apply st_bind; [apply st_mod|intros _; exact IH].
Qed.
Lemma st_items : stays cpf_deserialize.
Proof. unfold cpf_deserialize. apply st_bind; [apply st_mod|intros _]. apply st_bind; [apply st_number|intros n; apply st_loop]. Qed.
Lemma ag_rr {X} g (setData : cpf_item -> D (rr_data X) unit) : agrees (rr_deserialize setData) (rr_deserialize_g g setData).
Proof.
  unfold rr_deserialize, rr_deserialize_g. apply ag_bind; [apply ag_refl|apply st_uint|intros _]. apply ag_bind; [apply ag_refl|apply st_uint|intros _].
  apply ag_bind; [apply ag_local, ag_items|apply st_local, st_items|intros; apply ag_refl].
Qed.
Lemma buffers_filled g m v c :
  (forall n t, sb_deserialize_len_g g n m (RBuf v c) t = sb_deserialize_len n m (RBuf v c) t) /\
  (forall t, ep_deserialize_g g m (RBuf v c) t = ep_deserialize m (RBuf v c) t) /\
  (forall t, cpf_deserialize_g g m (RBuf v c) t = cpf_deserialize m (RBuf v c) t) /\
  (forall t, rrs_deserialize_g g m (RBuf v c) t = rrs_deserialize m (RBuf v c) t) /\
  (forall t, rr_base_deserialize_g g m (RBuf v c) t = c_des rr_base_cls m (RBuf v c) t).
Proof.
  split; [intros; apply ag_buffer|]. split; [intros; apply ag_packet|]. split; [intros; apply ag_items|]. split; intros; apply (ag_rr g _ m v c t).
Qed.
