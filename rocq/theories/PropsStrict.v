(** * C132: With exceptions enabled on the stream, a truncated message is always reported.
    Statements only; the proofs are in PStrict.v. *)
From Verif Require Import Spec Vocab35 PStrict.
Local Open Scope N_scope.

(** While the data last, a decode is the same as from a stream without exceptions; when they
    do not, it raises. *)
Theorem C132_same : same_or_raises hdr_deserialize hdr_deserialize_x /\ same_or_raises ep_deserialize ep_deserialize_x /\
  (forall n, same_or_raises (ep_deserialize_len n) (ep_deserialize_len_x n)) /\ same_or_raises it_deserialize it_deserialize_x /\
  (forall n, same_or_raises (it_deserialize_len n) (it_deserialize_len_x n)) /\ same_or_raises cpf_deserialize cpf_deserialize_x /\
  (forall n, same_or_raises (ms_deserialize_len n) (ms_deserialize_len_x n)) /\ same_or_raises rrs_deserialize rrs_deserialize_x /\
  same_or_raises rg_deserialize rg_deserialize_x /\ same_or_raises sa_deserialize sa_deserialize_x /\ (forall k, same_or_raises (prim_des k) (prim_des_x k)) /\
  same_or_raises id_deserialize id_deserialize_x /\ same_or_raises fs_deserialize fs_deserialize_x /\ same_or_raises cs_deserialize cs_deserialize_x.
Proof. exact strict_same. Qed.
Print Assumptions C132_same.
(** Without exceptions a packet of which two bytes are missing is taken for complete. *)
Example C132_example_same : let d := frame 0x6F 7 0 0 0 0 [x01; x02] in
  (exists t, ep_deserialize [] (RStr (d ++ [x09]) 0 false) (ep_make0 0 0) = (Ret tt, [Some [x01; x02]], RStr (d ++ [x09]) 26 false, t) /\
     ep_deserialize_x [] (RStr (d ++ [x09]) 0 false) (ep_make0 0 0) = (Ret tt, [Some [x01; x02]], RStr (d ++ [x09]) 26 false, t)) /\
  (exists m t, ep_deserialize [] (RStr (take 24 d) 0 false) (ep_make0 0 0) = (Ret tt, m, RStr (take 24 d) 24 true, t)) /\
  raises ep_deserialize_x [] (take 24 d) 0 (ep_make0 0 0).
Proof.
  cbv zeta. split; [|split].
  - eexists. split; vm_compute; reflexivity.
  - do 2 eexists. vm_compute. reflexivity.
  - do 3 eexists. vm_compute. reflexivity.
Qed.
(** What is decoded from some data is not decoded from less. *)
Theorem C132_truncated : needs_all hdr_deserialize_x /\ needs_all ep_deserialize_x /\
  (forall n, needs_all (ep_deserialize_len_x n)) /\ needs_all it_deserialize_x /\
  (forall n, needs_all (it_deserialize_len_x n)) /\ needs_all cpf_deserialize_x /\
  (forall n, needs_all (ms_deserialize_len_x n)) /\ needs_all rrs_deserialize_x /\
  needs_all rg_deserialize_x /\ needs_all sa_deserialize_x /\ (forall k, needs_all (prim_des_x k)) /\
  needs_all id_deserialize_x /\ needs_all fs_deserialize_x /\ needs_all cs_deserialize_x.
Proof. exact strict_needs. Qed.
Print Assumptions C132_truncated.
Example C132_example_truncated : exists m r t, rrs_deserialize_x [] (RStr (rr 0 9 [(0, []); (0xB2, router_reply 0xCC 0 0 [] [x05])]) 0 false) rrs_make = (Ret tt, m, r, t) /\
  r = RStr (rr 0 9 [(0, []); (0xB2, router_reply 0xCC 0 0 [] [x05])]) 21 false /\
  raises rrs_deserialize_x [] (take 20 (rr 0 9 [(0, []); (0xB2, router_reply 0xCC 0 0 [] [x05])])) 0 rrs_make.
Proof.
  do 3 eexists. split; [vm_compute; reflexivity|]. split; [vm_compute; reflexivity|]. do 3 eexists. vm_compute. reflexivity.
Qed.
(** Sequenced items. *)
Theorem C132_sequenced :
  (forall k, same_or_raises (sq_deserialize (prim_cls k)) (sq_deserialize_x (prim_des_x k)) /\ needs_all (sq_deserialize_x (prim_des_x k))) /\
  (same_or_raises (sq_deserialize it_cls) (sq_deserialize_x it_deserialize_x) /\ needs_all (sq_deserialize_x it_deserialize_x)) /\
  (forall n, same_or_raises (sq_deserialize_len it_cls n) (sq_deserialize_x (it_deserialize_len_x (sq_sublen n))) /\ needs_all (sq_deserialize_x (it_deserialize_len_x (sq_sublen n)))) /\
  (same_or_raises (sq_deserialize rg_cls) (sq_deserialize_x rg_deserialize_x) /\ needs_all (sq_deserialize_x rg_deserialize_x)) /\
  (same_or_raises (sq_deserialize rrs_cls) (sq_deserialize_x rrs_deserialize_x) /\ needs_all (sq_deserialize_x rrs_deserialize_x)).
Proof. exact strict_seq. Qed.
Print Assumptions C132_sequenced.
Example C132_example_sequenced : exists q, sq_deserialize_x (prim_des_x 4) [] (RStr [x07; x00; x01; x00; x00; x00] 0 false) (mkSeq 0 0 false)
  = (Ret tt, [], RStr [x07; x00; x01; x00; x00; x00] 6 false, q) /\ sq_num q = 7 /\ sq_base q = 1.
Proof. eexists. split; [vm_compute; reflexivity|]. split; reflexivity. Qed.

(** Messages in wire format of which the end is missing, at any place of a stream. *)
Theorem C132_frame : forall m d p x k cmd ses st c0 c1 o payload, frame_fits cmd ses st c0 c1 o payload -> p <= len d ->
  k < len (frame cmd ses st c0 c1 o payload) -> drop p d = take k (frame cmd ses st c0 c1 o payload) -> raises ep_deserialize_x m d p x.
Proof. exact cut_frame. Qed.
Print Assumptions C132_frame.
Example C132_example_frame : frame_fits 0x6F 7 0 0 0 0 [x01; x02] /\ 1 <= len ([x55] ++ take 25 (frame 0x6F 7 0 0 0 0 [x01; x02])) /\
  25 < len (frame 0x6F 7 0 0 0 0 [x01; x02]) /\ drop 1 ([x55] ++ take 25 (frame 0x6F 7 0 0 0 0 [x01; x02])) = take 25 (frame 0x6F 7 0 0 0 0 [x01; x02]).
Proof. split; [unfold frame_fits; repeat split; reflexivity|]. split; [discriminate|]. split; reflexivity. Qed.
Theorem C132_item : forall m d p x k y, item_ok y -> p <= len d -> k < len (item y) -> drop p d = take k (item y) -> raises it_deserialize_x m d p x.
Proof. exact cut_item. Qed.
Print Assumptions C132_item.
Example C132_example_item : item_ok (0xB2, [x01; x02]) /\ 5 < len (item (0xB2, [x01; x02])) /\ drop 0 (take 5 (item (0xB2, [x01; x02]))) = take 5 (item (0xB2, [x01; x02])).
Proof. split; [split; reflexivity|]. split; reflexivity. Qed.
Theorem C132_items : forall m d p x k xs, cpf_ok xs -> p <= len d -> k < len (cpf xs) -> drop p d = take k (cpf xs) -> raises cpf_deserialize_x m d p x.
Proof. exact cut_items. Qed.
Print Assumptions C132_items.
(** Cut between two items, so that the first is complete. *)
Example C132_example_items : cpf_ok [(0, [x01]); (0xB2, [x02])] /\ 7 < len (cpf [(0, [x01]); (0xB2, [x02])]) /\
  drop 0 (take 7 (cpf [(0, [x01]); (0xB2, [x02])])) = take 7 (cpf [(0, [x01]); (0xB2, [x02])]).
Proof. split; [split; [repeat constructor; reflexivity|reflexivity]|]. split; reflexivity. Qed.
Theorem C132_reply : forall m d p x k h to xs, rr_ok h to xs -> p <= len d -> k < len (rr h to xs) -> drop p d = take k (rr h to xs) -> raises rrs_deserialize_x m d p x.
Proof. exact cut_rr. Qed.
Print Assumptions C132_reply.
Example C132_example_reply : rr_ok 0 9 [(0, []); (0xB2, [x02])] /\ 16 < len (rr 0 9 [(0, []); (0xB2, [x02])]) /\
  drop 0 (take 16 (rr 0 9 [(0, []); (0xB2, [x02])])) = take 16 (rr 0 9 [(0, []); (0xB2, [x02])]).
Proof. split; [split; [reflexivity|split; [reflexivity|split; [repeat constructor; reflexivity|reflexivity]]]|]. split; reflexivity. Qed.
Theorem C132_registration : forall m d p x k v o, fits 2 v -> fits 2 o -> p <= len d -> k < 4 -> drop p d = take k (registration v o) -> raises rg_deserialize_x m d p x.
Proof. exact cut_rg. Qed.
Print Assumptions C132_registration.
Theorem C132_address : forall m d p x k c s, fits 4 c -> fits 4 s -> p <= len d -> k < 8 -> drop p d = take k (seq_address c s) -> raises sa_deserialize_x m d p x.
Proof. exact cut_sa. Qed.
Print Assumptions C132_address.
Theorem C132_number : forall w m d p x k v, fits w v -> p <= len d -> k < N.of_nat w -> drop p d = take k (le w v) -> raises (prim_des_x w) m d p x.
Proof. exact cut_prim. Qed.
Print Assumptions C132_number.
Example C132_example_numbers : fits 2 1 /\ fits 2 0 /\ drop 0 [x01; x00; x00] = take 3 (registration 1 0) /\
  fits 4 3 /\ fits 4 4 /\ drop 0 (take 7 (seq_address 3 4)) = take 7 (seq_address 3 4) /\ drop 0 [x01] = take 1 (le 2 1).
Proof. repeat split. Qed.
Theorem C132_identity : forall m d p x k i, identity_fits i -> p <= len d -> k < len (identity_of i) -> drop p d = take k (identity_of i) -> raises id_deserialize_x m d p x.
Proof. exact cut_id. Qed.
Print Assumptions C132_identity.
Example C132_example_identity : let i := mkId 1 (zeros 16) 2 3 4 [x01; x02] 5 6 [x41; x42] 7 in
  identity_fits i /\ 35 < len (identity_of i) /\ drop 0 (take 35 (identity_of i)) = take 35 (identity_of i).
Proof. cbv zeta. split; [repeat split; reflexivity|]. split; reflexivity. Qed.
Theorem C132_opened : forall m d p x k o2t t2o sn v g oa ta rs app, fits 4 o2t -> fits 4 t2o -> fits 2 sn -> fits 2 v -> fits 4 g -> fits 4 oa -> fits 4 ta ->
  len app mod 2 = 0 -> len app < 512 -> p <= len d -> k < len (forward_open_reply o2t t2o sn v g oa ta rs app) ->
  drop p d = take k (forward_open_reply o2t t2o sn v g oa ta rs app) -> raises fs_deserialize_x m d p x.
Proof. exact cut_fs. Qed.
Print Assumptions C132_opened.
Theorem C132_closed : forall m d p x k sn v g rs app, fits 2 sn -> fits 2 v -> fits 4 g -> len app mod 2 = 0 -> len app < 512 -> p <= len d ->
  k < len (forward_close_reply sn v g rs app) -> drop p d = take k (forward_close_reply sn v g rs app) -> raises cs_deserialize_x m d p x.
Proof. exact cut_cs. Qed.
Print Assumptions C132_closed.
Example C132_example_opened : len [x01; x02] mod 2 = 0 /\ 27 < len (forward_open_reply 1 2 3 4 5 6 7 x00 [x01; x02]) /\
  drop 0 (take 27 (forward_open_reply 1 2 3 4 5 6 7 x00 [x01; x02])) = take 27 (forward_open_reply 1 2 3 4 5 6 7 x00 [x01; x02]) /\
  9 < len (forward_close_reply 3 4 5 x00 []) /\ drop 0 (take 9 (forward_close_reply 3 4 5 x00 [])) = take 9 (forward_close_reply 3 4 5 x00 []).
Proof. repeat split. Qed.

(** What the exception leaves behind.  Nothing is taken for good except what the object now
    owns; a payload or data read into a local is given up, one read into a member stays there,
    filled up with zeros. *)
Theorem C132_buffer_left : forall n m d p, 0 < n -> let got := take n (drop p d) in
  sb_deserialize_len_x n m (RStr d p false) sb_empty =
    (if len got <? n then ios_failure else Ret tt, m ++ [Some (padded n got)], RStr d (p + len got) (len got <? n), mkSB (mkV (List.length m) 0 n) (Some (List.length m))).
Proof. exact buffer_left. Qed.
Print Assumptions C132_buffer_left.
Example C132_example_buffer_left : padded 4 [x01; x02] = [x01; x02; x00; x00] /\ take 4 (drop 1 [x09; x01; x02]) = [x01; x02].
Proof. split; reflexivity. Qed.
(** A buffer object that has memory already: the bytes that came are put there, nothing else
    changes. *)
Theorem C132_into_left : forall m d p s b pre old post, nth_error m b = Some (Some (pre ++ old ++ post)) -> sb_data s = mkV b (len pre) (len old) ->
  let got := take (len old) (drop p d) in 0 < len got ->
  let m' := list_set m b (Some (pre ++ got ++ drop (len got) old ++ post)) in
  sb_deserialize_x m (RStr d p false) s = (if len got <? len old then ios_failure else Ret tt, m', RStr d (p + len got) (len got <? len old), s) /\
  sb_deserialize_len_x (len old) m (RStr d p false) s = (if len got <? len old then ios_failure else Ret tt, m', RStr d (p + len got) (len got <? len old), s).
Proof. exact into_left. Qed.
Print Assumptions C132_into_left.
Example C132_example_into_left : exists r s, sb_deserialize_x [Some [x01; x02; x03; x04]] (RStr [x09] 0 false) (mkSB (mkV 0 1 2) None) = (ios_failure, [Some [x01; x09; x03; x04]], r, s) /\
  nth_error [Some [x01; x02; x03; x04]] 0 = Some (Some ([x01] ++ [x02; x03] ++ [x04])).
Proof. do 2 eexists. split; vm_compute; reflexivity. Qed.
Theorem C132_packet_left : forall m d p x m2 r2 x2, ep_deserialize_x m (RStr d p false) x = (ios_failure, m2, r2, x2) ->
  exists z, m2 = m ++ z /\ spare z /\ ep_payload x2 = ep_payload x.
Proof. exact packet_left. Qed.
Print Assumptions C132_packet_left.
Theorem C132_told_left : forall n m d p x m2 r2 x2, ep_deserialize_len_x n m (RStr d p false) x = (ios_failure, m2, r2, x2) ->
  (m2 = m /\ ep_payload x2 = ep_payload x) \/ exists bs, m2 = m ++ [Some bs] /\ own_blocks false (List.length m) [bs] [mkItem 0 (ep_payload x2)].
Proof. exact told_left. Qed.
Print Assumptions C132_told_left.
Example C132_example_left : let d := take 25 (frame 0x6F 7 0 0 0 0 [x01; x02]) in
  (exists r x, ep_deserialize_x [] (RStr d 0 false) (ep_make0 0 0) = (ios_failure, [None], r, x)) /\
  (exists r x, ep_deserialize_len_x 26 [] (RStr d 0 false) (ep_make0 0 0) = (ios_failure, [Some [x01; x00]], r, x)).
Proof. cbv zeta. split; do 2 eexists; vm_compute; reflexivity. Qed.
Theorem C132_item_left : forall m d p x m2 r2 x2, it_deserialize_x m (RStr d p false) x = (ios_failure, m2, r2, x2) ->
  (m2 = m /\ it_data x2 = it_data x) \/ exists bs, m2 = m ++ map Some bs /\ own_blocks false (List.length m) bs [x2].
Proof. exact item_left. Qed.
Print Assumptions C132_item_left.
Theorem C132_items_left : forall m d p x m2 r2 x2, cpf_deserialize_x m (RStr d p false) x = (ios_failure, m2, r2, x2) ->
  exists bs z, m2 = m ++ map Some bs ++ z /\ own_blocks false (List.length m) bs x2 /\ spare z /\ cpf_destroy m2 x2 = (Ret tt, m ++ given_back bs ++ z).
Proof. exact items_left. Qed.
Print Assumptions C132_items_left.
Example C132_example_items_left :
  (exists r x, it_deserialize_x [] (RStr (take 5 (item (0xB2, [x01; x02]))) 0 false) it_null = (ios_failure, [Some [x01; x00]], r, x)) /\
  (exists r x, cpf_deserialize_x [] (RStr (take 11 (cpf [(0, [x01]); (0xB2, [x02])])) 0 false) [] = (ios_failure, [Some [x01]; None], r, x) /\ List.length x = 1%nat).
Proof. split; [do 2 eexists; vm_compute; reflexivity|]. do 2 eexists. split; [vm_compute; reflexivity|]. reflexivity. Qed.
Theorem C132_router_left : forall n m d p x m2 r2 x2, ms_deserialize_len_x n m (RStr d p false) x = (ios_failure, m2, r2, x2) ->
  ms_data x2 = ms_data x /\ exists bs z, m2 = m ++ map Some bs ++ z /\ spare z /\
    ((bs = [] /\ ms_additional x2 = ms_additional x) \/ own_blocks false (List.length m) bs [mkItem 0 (ms_additional x2)]).
Proof. exact ms_left. Qed.
Print Assumptions C132_router_left.
Theorem C132_reply_left : forall m d p x m2 p2 x2, rrs_deserialize_x m (RStr d p false) x = (ios_failure, m2, RStr d p2 true, x2) ->
  exists bs z, m2 = m ++ given_back bs ++ z /\ spare z /\ rr_ext x2 = rr_ext x.
Proof. exact rrs_left. Qed.
Print Assumptions C132_reply_left.
Example C132_example_router_left :
  (exists r x, ms_deserialize_len_x 10 [] (RStr (router_reply 0xCC 0 1 [x01; x02] [x05]) 0 false) ms_make = (ios_failure, [Some [x01; x02]; None], r, x)) /\
  (exists r x, rrs_deserialize_x [] (RStr (take 17 (rr 0 9 [(0, [x07]); (0xB2, [x02; x03])])) 0 false) rrs_make = (ios_failure, [None; None], r, x)).
Proof. split; do 2 eexists; vm_compute; reflexivity. Qed.
Theorem C132_success_left : forall m d p m2 r2,
  (forall x x2, fs_deserialize_x m (RStr d p false) x = (ios_failure, m2, r2, x2) -> exists z, m2 = m ++ z /\ spare z /\ fs_data x2 = fs_data x) /\
  (forall x x2, cs_deserialize_x m (RStr d p false) x = (ios_failure, m2, r2, x2) -> exists z, m2 = m ++ z /\ spare z /\ cs_data x2 = cs_data x).
Proof. exact success_left. Qed.
Print Assumptions C132_success_left.
Theorem C132_plain_left : forall m d p m2 r2,
  (forall x x2, hdr_deserialize_x m (RStr d p false) x = (ios_failure, m2, r2, x2) -> m2 = m) /\
  (forall x x2, rg_deserialize_x m (RStr d p false) x = (ios_failure, m2, r2, x2) -> m2 = m) /\
  (forall x x2, sa_deserialize_x m (RStr d p false) x = (ios_failure, m2, r2, x2) -> m2 = m) /\
  (forall k x x2, prim_des_x k m (RStr d p false) x = (ios_failure, m2, r2, x2) -> m2 = m) /\
  (forall x x2, id_deserialize_x m (RStr d p false) x = (ios_failure, m2, r2, x2) -> m2 = m).
Proof. exact plain_left. Qed.
Print Assumptions C132_plain_left.
Example C132_example_success_left :
  (exists r x, fs_deserialize_x [] (RStr (take 27 (forward_open_reply 1 2 3 4 5 6 7 x00 [x01; x02])) 0 false) (mkFOS 0 0 0 0 0 0 0 None) = (ios_failure, [None], r, x)) /\
  (exists r x, rg_deserialize_x [] (RStr [x01] 0 false) (mkReg 0 0) = (ios_failure, [], r, x)).
Proof. split; do 2 eexists; vm_compute; reflexivity. Qed.
(** A sequenced item of which the number was read and the rest was not stays marked as busy:
    its next decode reads no number (cf. C31). *)
Theorem C132_sequenced_left : forall T (X : D T unit) m d p q, sq_busy q = false -> 2 <= len (drop p d) -> (forall t, raises X m d (p + 2) t) ->
  exists m2 r2 q2, sq_deserialize_x X m (RStr d p false) q = (ios_failure, m2, r2, q2) /\ sq_busy q2 = true.
Proof. exact @sq_stuck. Qed.
Print Assumptions C132_sequenced_left.
Example C132_example_sequenced_left : 2 <= len (drop 0 [x07; x00; x01]) /\ forall t, raises (prim_des_x 4) [] [x07; x00; x01] (0 + 2) t.
Proof. split; [discriminate|]. intros t. do 3 eexists. vm_compute. reflexivity. Qed.
