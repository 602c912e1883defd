(** * C128: Objects survive a decode that runs out of memory.
    Statements only; the proofs are in PScarce.v. *)
From Verif Require Import Spec PScarce.
Local Open Scope N_scope.

(** While memory can be had the decoders are those of Packets.v. *)
Theorem C128_same : forall su, plenty su ->
  (forall n m r s, sb_deserialize_len_o su n m r s = sb_deserialize_len n m r s) /\
  (forall m r x, ep_deserialize_o su m r x = ep_deserialize m r x) /\
  (forall n m r x, ep_deserialize_len_o su n m r x = ep_deserialize_len n m r x) /\
  (forall m r x, it_deserialize_o su m r x = it_deserialize m r x) /\
  (forall m r x, cpf_deserialize_o su m r x = cpf_deserialize m r x) /\
  (forall n m r x, ms_deserialize_len_o su n m r x = ms_deserialize_len n m r x) /\
  (forall m r x, rrs_deserialize_o su m r x = rrs_deserialize m r x).
Proof. exact enough. Qed.
Print Assumptions C128_same.
Example C128_example_same : plenty ample /\ exists m' r' x, ep_deserialize_o ample [] (RStr (frame 0x6F 7 0 0 0 0 [x01; x02]) 0 false) (ep_make0 0 0) = (Ret tt, m', r', x) /\ m' = [Some [x01; x02]].
Proof. split; [repeat split|]. do 3 eexists. split; vm_compute; reflexivity. Qed.
(** A packet: no memory is taken or given back, and the payload it had is still its payload;
    told its length, it has that or an empty one.
    Missing in the [_partial] theorems: buffer objects that hold a block of their own. *)
Theorem C128_packet_partial : forall su m r x,
  ep_deserialize_o su m r x = ep_deserialize m r x \/
  exists r' x', ep_deserialize_o su m r x = (bad_alloc, m, r', x') /\ ep_payload x' = ep_payload x /\ refuses su.
Proof. exact packet_o. Qed.
Print Assumptions C128_packet_partial.
Theorem C128_told_partial : forall su n m r x,
  ep_deserialize_len_o su n m r x = ep_deserialize_len n m r x \/
  exists r' x', ep_deserialize_len_o su n m r x = (bad_alloc, m, r', x') /\ kept_or_empty (ep_payload x) (ep_payload x') /\ refuses su.
Proof. exact packet_len_o. Qed.
Print Assumptions C128_told_partial.
(** An item: the data it had, or empty data. *)
Theorem C128_item_partial : forall su m r x,
  it_deserialize_o su m r x = it_deserialize m r x \/
  exists r' x', it_deserialize_o su m r x = (bad_alloc, m, r', x') /\ kept_or_empty (it_data x) (it_data x') /\ refuses su.
Proof. exact one_item_o. Qed.
Print Assumptions C128_item_partial.
(** A list of items: it has the items decoded so far; the blocks taken and not yet given
    back are theirs, one each, and destroying them gives all of it back. *)
Theorem C128_items_partial : forall su m r x,
  cpf_deserialize_o su m r x = cpf_deserialize m r x \/
  exists r' bs z x', cpf_deserialize_o su m r x = (bad_alloc, m ++ map Some bs ++ z, r', x') /\ own_blocks (from_buffer r) (List.length m) bs x' /\ spare z /\
    cpf_destroy (m ++ map Some bs ++ z) x' = (Ret tt, m ++ given_back bs ++ z) /\ refuses su.
Proof. exact items_end_o. Qed.
Print Assumptions C128_items_partial.
(** A router reply: the data are as before; the additional status is, or is the new one, which
    then has the only block taken, if one was taken. *)
Theorem C128_router_partial : forall su n m r x,
  ms_deserialize_len_o su n m r x = ms_deserialize_len n m r x \/
  exists r' bs x', ms_deserialize_len_o su n m r x = (bad_alloc, m ++ map Some bs, r', x') /\ ms_data x' = ms_data x /\
    (bs = [] /\ ms_additional x' = ms_additional x \/ own_blocks (from_buffer r) (List.length m) bs [mkItem 0 (ms_additional x')]) /\ refuses su.
Proof. exact router_end_o. Qed.
Print Assumptions C128_router_partial.
(** An unconnected reply: its data are as before, and what its items took is given back. *)
Theorem C128_reply_partial : forall su m r x,
  rrs_deserialize_o su m r x = rrs_deserialize m r x \/
  exists r' bs x', rrs_deserialize_o su m r x = (bad_alloc, m ++ given_back bs, r', x') /\ ms_data (rr_ext x') = ms_data (rr_ext x) /\ refuses su.
Proof. exact reply_o. Qed.
Print Assumptions C128_reply_partial.
(** A buffer object that refers to the memory of someone else is not changed. *)
Theorem C128_plain_partial : forall su n m r s, sb_alloc s = None ->
  sb_deserialize_len_o su n m r s = sb_deserialize_len n m r s \/
  sb_deserialize_len_o su n m r s = (bad_alloc, m, r, s) /\ su_bytes su m r n = false.
Proof. exact plain_o. Qed.
Print Assumptions C128_plain_partial.
(** Memory for more than three bytes of data or for a second item cannot be had: a packet of
    four bytes, items of which the first has five or which are two; and a reply in a
    buffer for the data of which there is no object. *)
Example C128_example :
  let su := mkSupply (fun _ _ n => n <=? 3) (fun _ _ => true) (fun _ _ l => len l <? 1) in
  let few := mkSupply (fun _ _ _ => true) (fun _ r => match r with RBuf _ c => c <? 1 | _ => true end) (fun _ _ _ => true) in
  let bytes := rr 0 0 [(0, []); (0xB2, router_reply 0x8E 0 0 [] [x01])] in
  (exists r x, ep_deserialize_o su [] (RStr (frame 0x6F 7 0 0 0 0 [x01; x02; x03; x04]) 0 false) (ep_make0 0 0) = (bad_alloc, [], r, x) /\ ep_payload x = None) /\
  (exists r x, it_deserialize_o su [] (RStr (item (0xB1, [x01; x02; x03; x04; x05])) 0 false) it_null = (bad_alloc, [], r, x) /\ it_data x = Some (ser_of_sbuf sb_empty)) /\
  (exists r x, cpf_deserialize_o su [] (RStr (cpf [(0xA1, [x01; x02]); (0xB1, [x01; x02; x03])]) 0 false) [] = (bad_alloc, [Some [x01; x02]; None], r, x) /\ len x = 1) /\
  (exists r x, rrs_deserialize_o su [] (RStr (rr 0 0 [(0xA1, [x01; x02]); (0xB2, router_reply 0x8E 0 0 [] [x01])]) 0 false) rrs_make = (bad_alloc, [None], r, x)) /\
  (exists r x, ms_deserialize_len_o few 5 [Some (router_reply 0x8E 0 0 [] [x01])] (RBuf (mkV 0 0 5) 0) ms_make = (bad_alloc, [Some (router_reply 0x8E 0 0 [] [x01])], r, x) /\ ms_service x = 0x8E) /\
  (exists r x, rrs_deserialize_o few [] (RStr bytes 0 false) rrs_make = (bad_alloc, [None], r, x)) /\
  sb_deserialize_len_o su 4 [Some [x09]] (RStr [x01; x02; x03; x04] 0 false) (sb_of_view (mkV 0 0 1)) = (bad_alloc, [Some [x09]], RStr [x01; x02; x03; x04] 0 false, sb_of_view (mkV 0 0 1)).
Proof.
  cbv zeta. split; [do 2 eexists; split; [vm_compute; reflexivity|reflexivity]|]. split; [do 2 eexists; split; [vm_compute; reflexivity|reflexivity]|].
  split; [do 2 eexists; split; [vm_compute; reflexivity|reflexivity]|]. split; [do 2 eexists; vm_compute; reflexivity|].
  split; [do 2 eexists; split; [vm_compute; reflexivity|reflexivity]|]. split; [do 2 eexists; vm_compute; reflexivity|]. vm_compute; reflexivity.
Qed.

(** ** Violated for a buffer object that holds a block of its own *)
(** The block is deleted before the new one is asked for. When that fails, the object still
    refers to it: reading or serializing the object, or decoding as many bytes as it seems to
    have into it, uses freed memory. *)
Theorem C128_owner_refuted : forall su n m d p f b k bl, nth_error m b = Some (Some bl) -> 0 < k -> n <> k -> (forall m', free m b = Ret m' -> su_bytes su m' (RStr d p f) n = false) ->
  let s := mkSB (mkV b 0 k) (Some b) in
  exists m' s', sb_deserialize_len_o su n m (RStr d p f) s = (bad_alloc, m', RStr d p f, s') /\
    sb_data s' = sb_data s /\ nth_error m' b = Some None /\ load_view m' (sb_data s') = Undef UseAfterFree /\
    (forall out, fst (fst (sb_serialize s' m' (WStr out))) = Undef UseAfterFree) /\
    (forall d' p', k <= len (drop p' d') -> match sb_deserialize_len k m' (RStr d' p' false) s' with (o, _, _, _) => o = Undef UseAfterFree end) /\
    sb_destroy m' s' = (Ret tt, m').
Proof. exact owner_o. Qed.
Print Assumptions C128_owner_refuted.
(** Two bytes decoded from a stream, then a promise of nine that cannot be had. *)
Example C128_example_owner :
  let su := mkSupply (fun _ _ n => n <=? 3) (fun _ _ => true) (fun _ _ _ => true) in
  sb_deserialize_len_o su 2 [] (RStr [x01; x02; x03] 0 false) sb_empty = (Ret tt, [Some [x01; x02]], RStr [x01; x02; x03] 2 false, mkSB (mkV 0 0 2) (Some 0%nat)) /\
  sb_deserialize_len_o su 9 [Some [x01; x02]] (RStr [x01; x02; x03] 2 false) (mkSB (mkV 0 0 2) (Some 0%nat)) = (bad_alloc, [None], RStr [x01; x02; x03] 2 false, mkSB (mkV 0 0 2) None).
Proof. split; vm_compute; reflexivity. Qed.
