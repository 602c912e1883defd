(** Concrete counterexamples and small corollaries for the codec properties. *)
From Verif Require Export PSend2.
From Verif Require Import Tests.

Lemma ep_stream_truncated :
  exists cmd ses payload pre tail, frame_fits cmd ses 0 0 0 0 payload /\
    frame cmd ses 0 0 0 0 payload = pre ++ tail /\ tail <> [] /\
    exists m r p, ep_deserialize [] (RStr pre 0 false) (ep_make0 0 0) = (Ret tt, m, r, p).
Proof.
  exists 0x65, 1, [x01; x00; x00; x00], (header 0x65 4 1 0 0 0 0), [x01; x00; x00; x00].
  split; [repeat split|]. split; [reflexivity|]. split; [discriminate|]. vm_compute. do 3 eexists. reflexivity.
Qed.
Lemma all_exact : forall m,
  (forall h, exact m (hdr_ser h)) /\
  (forall p, exact_opt m (ep_payload p) -> exact m (ep_ser p)) /\
  (forall i, exact_opt m (it_data i) -> (forall n, opt_length (it_data i) = Ret n -> n < 65536) -> exact m (it_ser i)) /\
  (forall p, Forall (fun i => exact_opt m (it_data i) /\ forall n, opt_length (it_data i) = Ret n -> n < 65536) p ->
     exact m (cpf_ser p)) /\
  (forall q, exact_opt m (mq_data q) -> exact m (mq_ser q)) /\
  (forall r, exact_opt m (mq_data (rr_ext r)) -> exact m (rrq_ser r)) /\
  (forall r, exact m (rr_base_ser r)) /\
  (forall g, exact m (rg_ser g)) /\ (forall g, exact m (sa_ser g)) /\
  (forall n s, exact m s -> exact m (sq_ser n s)) /\
  (forall k v, exact m (prim_ser k v)) /\
  (forall s bs, reads m (sb_data s) bs -> exact m (ser_of_sbuf s)) /\
  (forall i, len (id_sockaddr i) = 16 -> len (id_revision i) = 2 -> len (id_name i) < 256 -> exact m (id_ser i)) /\
  (forall f, exact m (fo_ser f)) /\
  (forall f, p_pad (fc_path f) = false -> exact m (fc_ser f)).
Proof.
  intros m. split; [apply exact_header|]. split; [apply exact_packet|]. split; [apply exact_item|]. split; [apply exact_cpf|].
  split; [apply exact_router_request|]. split; [apply exact_rr_request|]. split; [apply exact_rr|]. split; [apply exact_registration|].
  split; [apply exact_seq_address|]. split; [apply exact_seq_data|]. split; [apply exact_prim|]. split; [apply exact_sbuf|].
  split; [apply exact_identity|]. split; [apply exact_forward_open|]. apply exact_forward_close.
Qed.
Lemma send_message i s bs w : carries (w_mem w) s bs ->
  exists o w', sock_send_ser i s w = (o, w') /\
    ((exists n, o = Ret n /\ w_net w' = w_net w ++ [ESend i bs (Some n)]) \/
     (exists e, o = Throw SystemError e /\ w_net w' = w_net w ++ [ESend i bs None])) /\
    w_se w' = w_se w /\ hext (w_mem w) (w_mem w').
Proof.
  intros C. rewrite (send_ser _ _ _ _ C). do 2 eexists. split; [reflexivity|].
  destruct (sock_send_shape i bs w) as (o & w' & -> & Hm & Hs & Hr & H & _). cbn [fst snd w_net w_se w_mem set_mem].
  split; [|split; [exact Hs|]].
  - destruct H as [H|[-> H]]; [left; exact H|right; eauto].
  - intros b bl Hb. rewrite nth_error_app1; [assumption|]. eapply nth_error_lt; eauto.
Qed.
Definition dthrow_w (c : exn_class) (s : string) : W := fun m w => (Throw c s, m, w).
Lemma header_short m v c h0 bs : reads m v bs -> len bs < 24 ->
  exists s r h, hdr_deserialize m (RBuf v c) h0 = (Throw LengthError s, m, r, h).
Proof.
  intros R L. destruct (hdr_decode m v c h0 bs R) as [[_ (r & h & E)]|(cmd & n & ses & st & c0 & c1 & o & rest & F & E & _)].
  - rewrite E. do 3 eexists. reflexivity.
  - exfalso. rename F into E1. clear E. rename E1 into E. apply (f_equal len) in E. unfold header in E. revert E. lens. lia.
Qed.
Lemma rr_reply_crash : exists m v bs r t', reads m v bs /\
  rrs_deserialize m (RBuf v 0) rrs_make = (Undef NullDeref, m, r, t').
Proof.
  set (bs := rr 0 0 [(0, []); (0xB2, [])]). exists [Some bs], (mkV 0 0 (len bs)), bs. do 2 eexists.
  split; vm_compute; reflexivity.
Qed.
Lemma huge_reply_exists : exists m v d, 2147483648 <= len d < 4294967296 /\ reads m v (router_reply 0x8E 0 0 [] d).
Proof.
  set (d := zeros 2147483648). exists [Some (router_reply 0x8E 0 0 [] d)], (mkV 0 0 (len (router_reply 0x8E 0 0 [] d))), d.
  split; [|apply reads_block; reflexivity]. unfold d. rewrite len_zeros. lia.
Qed.
Lemma count_matters : exists m v bs s0 s24 r0 r24, reads m v bs /\
  ms_deserialize_len (len bs) m (RBuf v 0) ms_make = (Ret tt, m, r0, s0) /\
  ms_deserialize_len (len bs) m (RBuf v 24) ms_make = (Ret tt, m, r24, s24) /\
  ms_data s0 <> None /\ ms_data s24 = None.
Proof.
  set (bs := router_reply 0x8E 0 0 [] [x05; x06]). exists [Some bs], (mkV 0 0 (len bs)), bs. do 4 eexists.
  split; [reflexivity|]. split; [vm_compute; reflexivity|]. split; [vm_compute; reflexivity|]. split; [discriminate|reflexivity].
Qed.
Lemma path_wraps : exists ops, Forall path_op_ok ops /\
  len (snd (fold_left path_spec ops (false, []))) = 256 /\
  forall m, exists bs, writes m (path_serialize (fold_left do_path ops (path_empty false))) (octet 0 :: bs).
Proof.
  exists (repeat (PAdd (SClass 1)) 256). split; [|split].
  - apply Forall_forall. intros x H. apply repeat_spec in H. subst x. reflexivity.
  - vm_compute. reflexivity.
  - intros m. exists (flat_map segment_bytes (snd (fold_left path_spec (repeat (PAdd (SClass 1)) 256) (false, [])))).
    pose proof (path_build_bytes (repeat (PAdd (SClass 1)) 256) false) as H. cbv zeta in H.
    replace (len (snd (fold_left path_spec (repeat (PAdd (SClass 1)) 256) (false, [])))) with 256 in H by (vm_compute; reflexivity).
    replace (fst (fold_left path_spec (repeat (PAdd (SClass 1)) 256) (false, []))) with false in H by (vm_compute; reflexivity).
    apply H. apply Forall_forall. intros x Hx. apply repeat_spec in Hx. subst x. reflexivity.
Qed.
Lemma size_lost : exists size, size < 65536 /\ calcConnectionParams size false 2 2 false mod 65536 <> size.
Proof. exists 0x8000. split; vm_compute; [reflexivity|discriminate]. Qed.
Lemma zeros_big n : n <= len (zeros n).
Proof. rewrite len_zeros. lia. Qed.
Lemma carries_zeros n : carries [Some (zeros n)] (ser_of_sbuf (sb_of_view (mkV 0 0 n))) (zeros n).
Proof.
  apply carries_sbuf. cbn [sb_of_view sb_data].
  pose proof (reads_block [Some (zeros n)] 0 (zeros n) eq_refl) as H. rewrite len_zeros in H. exact H.
Qed.
