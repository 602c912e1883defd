(** The identity scanner. *)
From Verif Require Export PSession4 PHistory2 Vocab5.

Lemma listed_inj got xs ys : listed got xs -> listed got ys -> xs = ys.
Proof.
  intros (s & p & r & F & O & ->) (s' & p' & r' & F' & O' & ->).
  destruct (reply_frame_inj _ _ _ _ _ _ _ F F') as (_ & _ & E).
  exact (proj1 (cpf_inj _ _ _ _ O O' E)).
Qed.

Lemma listed_frame got xs : listed got xs -> exists ses payload, reply_frame got 0x63 ses payload /\ payload <> [].
Proof.
  intros (s & p & r & F & O & ->). exists s, (cpf xs ++ r). split; [exact F|].
  intros E. apply (f_equal len) in E. rewrite len_app, len_cpf in E. change (len (@nil byte)) with 0 in E. lia.
Qed.

Lemma identity_fits_make ve ad vn dv pr rv st sn nm sta :
  (fits 2 ve /\ len ad = 16 /\ fits 2 vn /\ fits 2 dv /\ fits 2 pr /\ len rv = 2 /\ fits 2 st /\ fits 4 sn /\
      len nm < 256 /\ sta < 256) -> identity_fits (mkId ve ad vn dv pr rv st sn nm sta).
Proof. intros H. exact H. Qed.

Lemma scan_one m b bl got tail : nth_error m b = Some (Some bl) -> len bl = 4096 -> bl = got ++ tail ->
  exists o, scan_handle false (len got) b m = (o, m) /\ scan_outcome got o.
Proof.
  intros Hb Lb El. unfold scan_handle, scan_body.
  assert (R : reads m (view_take (mkV b 0 4096) (len got)) got).
  { assert (R0 : reads m (mkV b 0 4096) bl).
    { unfold reads, load_view. cbn [v_blk v_off v_len]. rewrite <- Lb. destruct (len bl =? 0) eqn:Z; [lia|]. apply load_all. exact Hb. }
    apply (reads_take _ _ _ (len got)) in R0. rewrite El, take_app_len in R0. exact R0. }
  set (v := view_take (mkV b 0 4096) (len got)) in *. clearbody v.
  unfold dbind at 1. unfold dlocal at 1.
  destruct (ep_decode m v 0 (ep_make0 0 0) got R) as [[Nf (r' & p' & E)]|(cmd & ses & st & c0 & c1 & o & payload & rest & Ff & Eg & E)]; rewrite E; clear E.
  { cbn. eexists. split; [reflexivity|]. right; right. exists ScanTooShort. split; [|reflexivity].
    left. intros c ses payload (st & c0 & c1 & o & rest & F & ->). eapply Nf; [exact F|reflexivity]. }
  assert (RF : reply_frame got cmd ses payload) by (exists st, c0, c1, o, rest; auto).
  cbn [ep_header h_command]. unfold EIP_CMD_LIST_IDENTITY.
  destruct (cmd =? 0x63) eqn:Ec; cbn [negb].
  2:{ eexists. split; [reflexivity|]. right; right. exists (ScanWrongCommand cmd). split; [|reflexivity].
      split; [intros ->; discriminate|eauto]. }
  apply N.eqb_eq in Ec. subst cmd.
  assert (Hp : holds m (window v 24 (len payload)) payload) by (rewrite Eg in R; exact (frame_payload_window _ _ _ _ _ _ _ _ _ _ R)).
  unfold dbind at 1. unfold dlocal at 1. unfold ep_getPayloadAs. cbn [ep_payload].
  destruct payload as [|b0 p0] eqn:Ep.
  { change (len (@nil byte)) with 0. rewrite window_0. cbn [d_copy].
    eexists. split; [reflexivity|]. right; left. split; [left; eauto|reflexivity]. }
  rewrite <- Ep in *. assert (Zp : payload <> []) by (rewrite Ep; discriminate). clear Ep b0 p0.
  match goal with |- context[d_copy cpf_cls ?p m ?r ?t] =>
    destruct (copy_holds cpf_cls m p payload r t Hp Zp eq_refl) as (w & Rw & _ & E) end.
  rewrite E; clear E. unfold run_reader, deserialize_len, cpf_cls. cbn [c_deslen c_des no_check].
  destruct (cpf_decode m w 0 [] payload Rw) as [[Nc (r' & p' & E)]|(xs & rest' & Oc & Ec & E)]; rewrite E; clear E.
  { cbn. eexists. split; [reflexivity|]. right; right. exists ScanTooShort. split; [|reflexivity].
    right; left. exists ses, payload. split; [exact RF|]. split; [exact Zp|].
    intros xs (ses' & pl' & r & F' & Oc & E'). destruct (reply_frame_inj _ _ _ _ _ _ _ RF F') as (_ & _ & <-). eapply Nc; eauto. }
  assert (Li : listed got xs) by (exists ses, payload, rest'; auto).
  assert (Hi : Forall2 (item_is m) (item_windows w 2 xs) xs) by (eapply cpf_windows_is; rewrite <- Ec; exact Rw).
  assert (Ln : cpf_getItemCount (item_windows w 2 xs) = len xs).
  { unfold cpf_getItemCount. pose proof (Forall2_len _ _ _ Hi) as L. unfold len at 1. rewrite L. apply u16_small. exact (proj2 Oc). }
  rewrite Ln. destruct xs as [|[ty d] xs].
  { cbn. eexists. split; [reflexivity|]. right; right. exists ScanNoItems. split; [exact Li|reflexivity]. }
  assert (G : (len ((ty, d) :: xs) <? 1) = false) by (rewrite len_cons; lia). rewrite G. clear G Ln.
  cbn [item_windows fst snd] in Hi |- *. unfold d_at. cbn [nth_error]. unfold dbind at 1. unfold dret at 1. cbn [it_type].
  unfold EIP_ITEM_LIST_IDENTITY_RESPONSE.
  destruct (ty =? 0x0C) eqn:Et; cbn [negb].
  2:{ eexists. split; [reflexivity|]. right; right. exists (ScanWrongItem ty). split; [|reflexivity].
      split; [intros ->; discriminate|eauto]. }
  apply N.eqb_eq in Et. subst ty.
  apply Forall2_head in Hi. destruct Hi as [[_ Hd] _]. cbn [it_data snd] in Hd.
  unfold dbind at 1. unfold dlocal at 1. unfold it_getDataAs. cbn [it_data].
  destruct d as [|b0 d0] eqn:Ed.
  { change (len (@nil byte)) with 0. rewrite window_0. cbn [d_copy].
    eexists. split; [reflexivity|]. right; left. split; [right; eauto|reflexivity]. }
  rewrite <- Ed in *. assert (Zd : d <> []) by (rewrite Ed; discriminate). clear Ed b0 d0.
  match goal with |- context[d_copy id_cls ?p m ?r ?t] =>
    destruct (copy_holds id_cls m p d r t Hd Zd eq_refl) as (u & Ru & _ & E) end.
  rewrite E; clear E. unfold run_reader, deserialize_len, id_cls. cbn [c_deslen c_des no_check].
  destruct (id_decode m u 0 id_make d Ru) as [[Ni (r' & i' & E)]|(ve & ad & vn & dv & pr & rv & sts & sn & nm & sta & rest2 & Fi & Ei & E)]; rewrite E; clear E.
  - cbn. eexists. split; [reflexivity|]. right; right. exists ScanTooShort. split; [|reflexivity].
    right; right. exists d, xs. split; [exact Zd|]. split; [exact Li|].
    intros i (d' & xs' & rest2 & Li' & Fi & Ei). pose proof (listed_inj _ _ _ Li Li') as Q. injection Q as <- <-.
    destruct i as [ve ad vn dv pr rv sts sn nm sta].
    destruct Fi as (_ & La & _ & _ & _ & Lr & _ & _ & Lnm & _). cbn [id_sockaddr id_revision id_name] in *.
    eapply (Ni ve ad vn dv pr rv sts sn nm sta rest2); eauto.
  - eexists. split; [reflexivity|]. left. eexists. split; [|reflexivity].
    exists d, xs, rest2. split; [exact Li|]. split; [apply identity_fits_make; exact Fi|]. exact Ei.
Qed.
