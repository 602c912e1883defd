(** * Lemmas for C103, C104 *)
From Verif Require Export Vocab15 PStream PKeeps.
From Coq Require Import Lia.

Lemma ep_stream_at m d p p0 cmd ses st c0 c1 o payload rest : frame_fits cmd ses st c0 c1 o payload ->
  drop p d = frame cmd ses st c0 c1 o payload ++ rest ->
  ep_deserialize m (RStr d p false) p0
    = (Ret tt, m ++ live (blk payload), RStr d (p + len (frame cmd ses st c0 c1 o payload)) false,
       mkEP (mkHdr cmd (len payload) ses st c0 c1 o) (own (List.length m) payload)).
Proof.
  intros (F1 & F2 & F3 & F4 & F5 & F6 & F7) H. rewrite frame_len. unfold frame in H. rewrite <- app_assoc in H.
  assert (Fn : fits 2 (len payload)) by (apply fits2; assumption).
  unfold ep_deserialize. erewrite dbind_ret.
  2:{ unfold dzoom. rewrite (hdr_stream m d p (ep_header p0) _ _ _ _ _ _ _ _ F1 Fn F2 F3 F4 F5 F6 H). reflexivity. }
  apply (drop_next _ 24) in H; [|apply len_header].
  erewrite dbind_ret; [|reflexivity]. cbn [ep_header ep_set_header h_length]. unfold own, blk.
  destruct (N.eqb_spec (len payload) 0) as [Z|Z].
  - rewrite Z. change (0 <? 0) with false. cbv iota. unfold dmod. cbn [ep_set_payload_field ep_set_header ep_header live List.map].
    rewrite app_nil_r. replace (p + (24 + 0)) with (p + 24) by lia. reflexivity.
  - destruct (N.ltb_spec 0 (len payload)); [|lia].
    erewrite dbind_ret; [|eapply str_sb; [exact H|reflexivity|assumption]].
    unfold dmod. cbn [ep_set_payload_field ep_set_header ep_header live List.map].
    replace (p + 24 + len payload) with (p + (24 + len payload)) by lia. reflexivity.
Qed.

(** ** Decoded from a buffer: nothing is owned *)
Lemma drop_unowned_data m d : unowned d -> drop_data m d = (Ret tt, m).
Proof.
  destruct d as [s|]; cbn [unowned drop_data]; [|reflexivity]. intros (sb & -> & E). cbn [s_length s_sbuf ser_of_sbuf].
  unfold sb_destroy. rewrite E. reflexivity.
Qed.
Lemma cpf_destroy_unowned l m : Forall (fun i => unowned (it_data i)) l -> cpf_destroy m l = (Ret tt, m).
Proof.
  induction 1 as [|i l U F IH]; cbn [cpf_destroy]; [reflexivity|]. rewrite (drop_unowned_data _ _ U). exact IH.
Qed.
Lemma ep_unowned m v c p0 m' r p : ep_deserialize m (RBuf v c) p0 = (Ret tt, m', r, p) -> unowned (ep_payload p).
Proof.
  unfold ep_deserialize. unfold dbind at 1.
  destruct (k_zoom ep_header ep_set_header _ k_hdr m v c p0) as (o & v1 & c1 & t1 & ->). destruct o as [[]| | |]; try discriminate.
  unfold dbind at 1, dget. destruct (0 <? _).
  - unfold dlocal, sb_deserialize_len, dbind, rd_is_buffer, sb_delete, dbind, dget. unfold dret, rd_view, dmod.
    cbn [sb_alloc sb_empty]. cbv beta iota. destruct (v_len v1 <? _); [discriminate|]. intros H. injection H as <- <- <-.
    cbn [ep_payload ep_set_payload_field unowned]. eexists. split; reflexivity.
  - unfold dmod. intros H. injection H as <- <- <-. exact Logic.I.
Qed.
Lemma cpf_unowned m v c p0 m' r l : cpf_deserialize m (RBuf v c) p0 = (Ret tt, m', r, l) -> Forall (fun i => unowned (it_data i)) l.
Proof.
  intros E. assert (R : Forall raw_item l).
  { revert E. unfold cpf_deserialize. unfold dbind at 1, dmod. unfold dbind at 1.
    destruct (k_local (T := cpf_packet) 2 m v c []) as (o2 & v2 & c2 & p2 & E2). rewrite E2.
    destruct o2; try discriminate. assert (p2 = []) as ->.
    { revert E2. unfold rd_local. destruct (_ <? _); [discriminate|]. destruct (load _ _ _ _); try discriminate. intros H. injection H as <- <- <- <-. reflexivity. }
    apply cpf_loop_raw. constructor. }
  eapply Forall_impl; [|exact R]. intros i [->|(sb & -> & A)]; cbn [unowned]; eauto.
Qed.
Lemma ep_end_buffer m v c p0 m' r p : ep_deserialize m (RBuf v c) p0 = (Ret tt, m', r, p) ->
  m' = m /\ ep_destroy m p = (Ret tt, m) /\ forall q, ep_replace q m p = (Ret tt, m, ep_set_payload_field q p).
Proof.
  intros E. assert (m' = m).
  { destruct (k_ep m v c p0) as (o & v1 & c1 & t1 & K). rewrite K in E. congruence. }
  apply ep_unowned in E. unfold ep_destroy, ep_replace. rewrite (drop_unowned_data _ _ E). auto.
Qed.
Lemma cpf_end_buffer m v c p0 m' r l : cpf_deserialize m (RBuf v c) p0 = (Ret tt, m', r, l) -> m' = m /\ cpf_destroy m l = (Ret tt, m).
Proof.
  intros E. assert (m' = m).
  { destruct (k_cpf m v c p0) as (o & v1 & c1 & t1 & K). rewrite K in E. congruence. }
  apply cpf_unowned in E. rewrite (cpf_destroy_unowned _ _ E). auto.
Qed.

(** ** Decoded from a stream: what was extracted dangles *)
Lemma windows_freed m b n xs : nth_error m b = Some None -> forall off, off + len (items xs) <= n ->
  Forall2 (item_freed m) (item_windows (mkV b 0 n) off xs) xs.
Proof.
  intros H. induction xs as [|x xs IH]; intros off L; cbn [item_windows]; constructor.
  - split; [reflexivity|]. cbn [it_data]. rewrite items_cons, len_app, len_item in L. apply window_dangling; [lia|assumption].
  - apply IH. rewrite items_cons, len_app, len_item in L. lia.
Qed.
Lemma extracted_end m d p p0 cmd ses st c0 c1 o xs rest l0 : frame_fits cmd ses st c0 c1 o (cpf xs) -> cpf_ok xs ->
  drop p d = frame cmd ses st c0 c1 o (cpf xs) ++ rest ->
  exists m1 r1 pk l m2, ep_deserialize m (RStr d p false) p0 = (Ret tt, m1, r1, pk) /\
    (forall r, ep_getPayloadAs cpf_cls pk m1 r l0 = (Ret tt, m1, r, l)) /\ Forall2 (item_is m1) l xs /\
    ep_destroy m1 pk = (Ret tt, m2) /\ (forall q, ep_replace q m1 pk = (Ret tt, m2, ep_set_payload_field q pk)) /\
    hext m m2 /\ Forall2 (item_freed m2) l xs.
Proof.
  intros F O H. pose proof (ep_stream_at m d p p0 _ _ _ _ _ _ _ _ F H) as E. rewrite E. clear E.
  assert (Z : len (cpf xs) <> 0) by (rewrite len_cpf; lia).
  unfold blk, own. destruct (N.eqb_spec (len (cpf xs)) 0); [lia|]. cbn [live List.map].
  set (b := List.length m). set (m1 := m ++ [Some (cpf xs)]). set (v := mkV b 0 (len (cpf xs))).
  assert (R : reads m1 v (cpf xs)) by (apply reads_block; apply nth_error_app_end).
  assert (C : cpf_deserialize m1 (RBuf v 0) l0 = (Ret tt, m1, RBuf (view_drop v (len (cpf xs))) (0 + len (cpf xs)), item_windows v 2 xs)).
  { destruct (cpf_decode m1 v 0 l0 _ R) as [[N _]|(ys & r' & Oy & X & E)].
    - exfalso. eapply (N xs []); [exact O|]. rewrite app_nil_r. reflexivity.
    - rewrite <- (app_nil_r (cpf xs)) in X. apply cpf_inj in X; [|assumption..]. destruct X as [<- _]. exact E. }
  assert (DD : drop_data m1 (Some (ser_of_sbuf (mkSB v (Some b)))) = (Ret tt, m ++ [None])).
  { cbn [drop_data s_length s_sbuf ser_of_sbuf]. unfold sb_destroy. cbn [sb_alloc]. unfold free, m1, b. rewrite nth_error_app_end, list_set_app_end. reflexivity. }
  exists m1. eexists. eexists. exists (item_windows v 2 xs), (m ++ [None]). split; [reflexivity|]. split.
  { intros r. unfold ep_getPayloadAs, d_copy. cbn [ep_payload]. unfold copy_serializable. cbn [s_length s_sbuf ser_of_sbuf c_sb cpf_cls sb_data].
    unfold run_reader, deserialize_len. cbn [c_deslen cpf_cls no_check c_des]. rewrite C. reflexivity. }
  split; [eapply (cpf_windows_is m1 v xs []); rewrite app_nil_r; exact R|].
  unfold ep_destroy, ep_replace. cbn [ep_payload]. rewrite DD. split; [reflexivity|]. split; [reflexivity|]. split.
  - intros i bl E. rewrite nth_error_app1; [assumption|eapply nth_error_lt; eassumption].
  - apply windows_freed; [apply nth_error_app_end|]. rewrite len_cpf. lia.
Qed.
(** A raw buffer taken from the payload shares the block: used after free, deleted twice. *)
Lemma raw_end m d p p0 cmd ses st c0 c1 o payload rest sb0 : frame_fits cmd ses st c0 c1 o payload -> payload <> [] ->
  drop p d = frame cmd ses st c0 c1 o payload ++ rest ->
  exists m1 r1 pk sb m2, ep_deserialize m (RStr d p false) p0 = (Ret tt, m1, r1, pk) /\
    (forall r, ep_getPayloadAs sbuf_cls pk m1 r sb0 = (Ret tt, m1, r, sb)) /\ reads m1 (sb_data sb) payload /\
    ep_destroy m1 pk = (Ret tt, m2) /\ load_view m2 (sb_data sb) = Undef UseAfterFree /\ fst (sb_destroy m2 sb) = Undef DoubleFree.
Proof.
  intros F Z H. pose proof (ep_stream_at m d p p0 _ _ _ _ _ _ _ _ F H) as E. rewrite E. clear E.
  unfold blk, own. destruct (N.eqb_spec (len payload) 0) as [L|L]; [apply len_0 in L; congruence|]. cbn [live List.map].
  do 5 eexists. split; [reflexivity|]. split; [intros r; reflexivity|]. split; [apply reads_block; apply nth_error_app_end|].
  unfold ep_destroy. cbn [ep_payload drop_data s_length s_sbuf ser_of_sbuf]. unfold sb_destroy at 1. cbn [sb_alloc]. unfold free at 1.
  rewrite nth_error_app_end, list_set_app_end. split; [reflexivity|]. cbn [sb_data].
  unfold load_view, load, sb_destroy, free. cbn [v_len v_blk v_off sb_alloc]. rewrite !nth_error_app_end.
  destruct (N.eqb_spec (len payload) 0); [lia|]. auto.
Qed.
