(** * C129: Copies of a packet share its data and do not notice each other.
    C130: A packet stays whole when its payload is decoded into through a pointer to it.
    Statements only; the proofs are in PCopies.v. *)
From Verif Require Import Spec Vocab33 PCopies.
Local Open Scope N_scope.

(** A program: a packet read from a stream is copied, the original is decoded into again,
    from the caller's buffer; the payload of the copy is put into a list of items, which is
    copied; then the copy of the packet ends. *)
Definition buffer_129 : list byte := frame 0x65 5 0 0 0 0 [x07; x08; x09].
Definition memory_129 : heap := [Some buffer_129].
Definition program_129 : list deal :=
  [KNew 0 0; KDecode 0 (RStr (frame 0x6F 7 0 0 0 0 [x01; x02]) 0 false); KCopy 0;
   KDecode 0 (RBuf (mkV 0 0 27) 0); KGet 1; KItems; KPush 3 0xB1 2; KCopy 3; KEnd 1; KEnd 2].
Definition run_129 (l : list deal) (s : desk) : desk := match run_deals l s with Some s' => s' | None => begun [] end.
Definition after_129 (n : nat) : desk := run_129 (firstn n program_129) (begun memory_129).
Example C129_example_runs : reaches memory_129 program_129 (after_129 10) /\ reaches memory_129 (firstn 4 program_129) (after_129 4).
Proof.
  split; (apply run_reaches; [repeat constructor; exists buffer_129; vm_compute; reflexivity|vm_compute; reflexivity]).
Qed.
(** The original has what was decoded last, the copy what it had when it was made. *)
Example C129_example_shows :
  option_map (shows (after_129 4)) (var_of (after_129 4) 0) = Some [Some (Ret [x07; x08; x09])] /\
  option_map (shows (after_129 4)) (var_of (after_129 4) 1) = Some [Some (Ret [x01; x02])] /\
  dk_mem (after_129 4) = [Some buffer_129; Some [x01; x02]].
Proof. repeat split; vm_compute; reflexivity. Qed.
(** Only the lists of items have the pointer now: the data are there, once. *)
Example C129_example_items :
  option_map (shows (after_129 10)) (var_of (after_129 10) 4) = Some [Some (Ret [x01; x02])] /\
  dk_mem (after_129 10) = [Some buffer_129; Some [x01; x02]] /\
  dk_mem (run_129 [KEnd 3] (after_129 10)) = [Some buffer_129; Some [x01; x02]] /\
  dk_mem (run_129 [KEnd 3; KEnd 4] (after_129 10)) = [Some buffer_129; None].
Proof. repeat split; vm_compute; reflexivity. Qed.

(** Whatever a program does, nothing is read, counted or given back that is not there; the
    only undefined step is that a count or length a stream does not have is used. *)
Theorem C129_safe : forall m0 l s a, reaches m0 l s -> fair m0 a -> makes_sense a s -> harmless a (fst (perform a s)).
Proof. exact copies_safe. Qed.
Print Assumptions C129_safe.
Example C129_example_safe : makes_sense (KAssign 0 1) (after_129 4) /\ fst (perform (KDecode 3 (RStr [x01] 0 false)) (after_129 10)) = Undef Indeterminate.
Proof. split; [eexists; eexists; split; [vm_compute; reflexivity|split; [vm_compute; reflexivity|reflexivity]]|vm_compute; reflexivity]. Qed.
(** All data of all variables can be read. *)
Theorem C129_readable : forall m0 l s k t p, reaches m0 l s -> var_of s k = Some t -> In p (pointers t) -> p = None \/ exists bs, data_of s p = Some (Ret bs).
Proof. exact copies_readable. Qed.
Print Assumptions C129_readable.
(** What is done to one variable changes no other and nothing it shows, also when it raises;
    and the caller's memory stays as it is. *)
Theorem C129_kept : forall m0 l s a o s' k t, reaches m0 l s -> fair m0 a -> perform a s = (o, s') -> done o -> target a <> Some k -> var_of s k = Some t ->
  var_of s' k = Some t /\ shows s' t = shows s t.
Proof. exact copies_kept. Qed.
Print Assumptions C129_kept.
Theorem C129_caller : forall m0 l s b, reaches m0 l s -> (b < List.length m0)%nat -> nth_error (dk_mem s) b = nth_error m0 b.
Proof. exact copies_caller. Qed.
Print Assumptions C129_caller.
Example C129_example_kept : exists s', perform (KDecode 0 (RBuf (mkV 0 0 26) 0)) (after_129 4) = (Throw LengthError "Buffer too small to deserialize value", s') /\
  var_of s' 1 = var_of (after_129 4) 1 /\ option_map (shows s') (var_of s' 1) = Some [Some (Ret [x01; x02])].
Proof. eexists. split; [vm_compute; reflexivity|]. split; vm_compute; reflexivity. Qed.
(** A copy, an assigned variable and a pointer from getPayload show what the original does;
    a copy takes no memory for data. *)
Theorem C129_copied : forall m0 l s i t, reaches m0 l s -> var_of s i = Some t ->
  exists s', perform (KCopy i) s = (Ret tt, s') /\ dk_mem s' = dk_mem s /\ var_of s' (List.length (dk_vars s)) = Some t /\ shows s' t = shows s t.
Proof. exact copies_copied. Qed.
Print Assumptions C129_copied.
Theorem C129_assigned : forall m0 l s i j t u, reaches m0 l s -> var_of s i = Some t -> var_of s j = Some u -> same_class t u = true ->
  exists s', perform (KAssign i j) s = (Ret tt, s') /\ var_of s' i = Some u /\ shows s' u = shows s u.
Proof. exact copies_assigned. Qed.
Print Assumptions C129_assigned.
Theorem C129_got : forall m0 l s i p, reaches m0 l s -> var_of s i = Some (TPacket p) ->
  exists s', perform (KGet i) s = (Ret tt, s') /\ dk_mem s' = dk_mem s /\ var_of s' (List.length (dk_vars s)) = Some (TPtr (snd p)) /\ data_of s' (snd p) = data_of s (snd p).
Proof. exact copies_got. Qed.
Print Assumptions C129_got.
Example C129_example_assigned :
  let s' := snd (perform (KAssign 0 1) (after_129 4)) in let s2 := snd (perform (KAssign 1 1) (after_129 4)) in
  option_map (shows s') (var_of s' 0) = Some [Some (Ret [x01; x02])] /\ option_map (shows s2) (var_of s2 1) = Some [Some (Ret [x01; x02])].
Proof. split; vm_compute; reflexivity. Qed.
(** Decoding and setPayload are those of Packets.v, with pointers: the same outcome and
    values; what is missing from the memory was given back. *)
Theorem C129_decode : forall m0 l s i p r, reaches m0 l s -> var_of s i = Some (TPacket p) -> keeps_input m0 r ->
  exists o s' p' m2 r2, perform (KDecode i r) s = (o, s') /\ var_of s' i = Some (TPacket p') /\
    ep_deserialize (dk_mem s) r (packet_of s p) = (o, m2, r2, packet_of s' p') /\ given_from (dk_mem s') m2.
Proof. exact decoded. Qed.
Print Assumptions C129_decode.
Theorem C129_decode_len : forall m0 l s i p n r, reaches m0 l s -> var_of s i = Some (TPacket p) -> keeps_input m0 r ->
  exists o s' p' m2 r2, perform (KDecodeLen i n r) s = (o, s') /\ var_of s' i = Some (TPacket p') /\
    ep_deserialize_len n (dk_mem s) r (packet_of s p) = (o, m2, r2, packet_of s' p') /\ given_from (dk_mem s') m2.
Proof. exact decoded_len. Qed.
Print Assumptions C129_decode_len.
Theorem C129_decode_items : forall m0 l s i x r, reaches m0 l s -> var_of s i = Some (TItems x) -> keeps_input m0 r ->
  exists o s' x' m2 r2 y, perform (KDecode i r) s = (o, s') /\ var_of s' i = Some (TItems x') /\
    cpf_deserialize (dk_mem s) r (items_of s x) = (o, m2, r2, y) /\ (done o -> y = items_of s' x' /\ given_from (dk_mem s') m2).
Proof. exact decoded_items. Qed.
Print Assumptions C129_decode_items.
Theorem C129_set : forall m0 l s i j p q, reaches m0 l s -> var_of s i = Some (TPacket p) -> var_of s j = Some (TPtr q) ->
  exists s' p', perform (KSet i j) s = (Ret tt, s') /\ var_of s' i = Some (TPacket p') /\
    ep_setPayload (option_map ser_of_sbuf (object s q)) (packet_of s p) = Ret (packet_of s' p') /\ snd p' = q.
Proof. exact was_set. Qed.
Print Assumptions C129_set.
Example C129_example_decode :
  let s' := snd (perform (KDecode 3 (RStr ([x02; x00] ++ [xb1; x00; x02; x00; x05; x06] ++ [x00; x00; x00; x00]) 0 false)) (after_129 10)) in
  option_map (shows s') (var_of s' 3) = Some [Some (Ret [x05; x06]); None] /\ option_map (shows s') (var_of s' 4) = Some [Some (Ret [x01; x02])] /\
  dk_mem s' = [Some buffer_129; Some [x01; x02]; Some [x05; x06]].
Proof. repeat split; vm_compute; reflexivity. Qed.
(** The reply of a device has two pointers; decoding it is that of Packets.v, and its getters
    give a pointer to the same data. *)
Theorem C129_decode_reply : forall m0 l s i p n r, reaches m0 l s -> var_of s i = Some (TReply p) -> keeps_input m0 r ->
  exists o s' p' m2 r2 y, perform (KDecodeLen i n r) s = (o, s') /\ var_of s' i = Some (TReply p') /\
    ms_deserialize_len n (dk_mem s) r (reply_of s p) = (o, m2, r2, y) /\ (done o -> y = reply_of s' p' /\ given_from (dk_mem s') m2).
Proof. exact decoded_reply. Qed.
Print Assumptions C129_decode_reply.
Theorem C129_got_reply : forall m0 l s i p, reaches m0 l s -> var_of s i = Some (TReply p) ->
  (exists s', perform (KGetStatus i) s = (Ret tt, s') /\ dk_mem s' = dk_mem s /\ var_of s' (List.length (dk_vars s)) = Some (TPtr (fst (snd p))) /\ data_of s' (fst (snd p)) = data_of s (fst (snd p))) /\
  (exists s', perform (KGetData i) s = (Ret tt, s') /\ dk_mem s' = dk_mem s /\ var_of s' (List.length (dk_vars s)) = Some (TPtr (snd (snd p))) /\ data_of s' (snd (snd p)) = data_of s (snd (snd p))).
Proof. exact got_reply. Qed.
Print Assumptions C129_got_reply.
(** A reply from a stream, with status words and data; its data are asked for; then a reply
    without either is decoded into it, from a buffer that ends there: the data stay, for the
    pointer that was asked for, and the status words are given back. *)
Definition reply_129 : list deal :=
  [KReply; KDecodeLen 0 8 (RStr ([x8e; x00; x01; x01; x0a; x0b] ++ [x05; x06]) 0 false); KGetData 0; KCopy 0].
Definition replied_129 : desk := run_129 reply_129 (begun memory_129).
Example C129_example_reply : reaches memory_129 reply_129 replied_129 /\
  option_map (shows replied_129) (var_of replied_129 0) = Some [Some (Ret [x0a; x0b]); Some (Ret [x05; x06])] /\
  (let s' := snd (perform (KEnd 2) (snd (perform (KDecodeLen 0 4 (RBuf (mkV 0 4 4) 0)) replied_129))) in
   option_map (shows s') (var_of s' 0) = Some [None; None] /\ option_map (shows s') (var_of s' 1) = Some [Some (Ret [x05; x06])] /\
   dk_mem s' = [Some buffer_129; None; Some [x05; x06]]) /\
  exists s', perform (KDecodeLen 0 9 (RBuf (mkV 0 4 8) 0)) replied_129 = (Throw LengthError "Buffer too small to deserialize value", s') /\
    option_map (shows s') (var_of s' 0) = Some [None; Some (Ret [x05; x06])] /\ option_map (shows s') (var_of s' 2) = Some [Some (Ret [x0a; x0b]); Some (Ret [x05; x06])].
Proof.
  split; [apply run_reaches; [repeat constructor; exists buffer_129; vm_compute; reflexivity|vm_compute; reflexivity]|]. split; [vm_compute; reflexivity|]. split; [cbv zeta; repeat split; vm_compute; reflexivity|].
  eexists. split; [vm_compute; reflexivity|]. split; vm_compute; reflexivity.
Qed.
(** Memory: every block that was taken and not given back is the data of a pointer some
    variable has; when the variables have ended, all is given back. *)
Theorem C129_memory : forall m0 l s b bs, reaches m0 l s -> (List.length m0 <= b)%nat -> nth_error (dk_mem s) b = Some (Some bs) ->
  exists k t p sb, var_of s k = Some t /\ In p (pointers t) /\ object s p = Some sb /\ sb_alloc sb = Some b.
Proof. exact copies_memory. Qed.
Print Assumptions C129_memory.
Theorem C129_ended : forall m0 l s, reaches m0 l s -> (forall k, var_of s k = None) -> forall b, nth_error (dk_mem s) b = nth_error m0 b \/ nth_error (dk_mem s) b = Some None.
Proof. exact copies_ended. Qed.
Print Assumptions C129_ended.
(** Objects: the count of each is the number of pointers to it the variables have, so none
    stays that no variable can reach. *)
Theorem C129_count : forall m0 l s q n sb, reaches m0 l s -> nth_error (dk_cells s) q = Some (n, sb) -> n = holders s q.
Proof. exact copies_count. Qed.
Print Assumptions C129_count.
Example C129_example_count : map fst (dk_cells replied_129) = [2; 3] /\ holders replied_129 0 = 2 /\ holders replied_129 1 = 3.
Proof. repeat split; vm_compute; reflexivity. Qed.
Example C129_example_ended : let s' := run_129 [KEnd 0; KEnd 3; KEnd 4] (after_129 10) in dk_vars s' = [None; None; None; None; None] /\ dk_mem s' = [Some buffer_129; None].
Proof. split; vm_compute; reflexivity. Qed.

(** ** C130 *)
(** From a buffer that is large enough, all data can be read afterwards; the object decoded
    into has the bytes, and all others have what they had.
    Missing in the [_partial] theorem: buffers that are too small, streams, and the header. *)
Theorem C130_buffer_partial : forall m0 l s i q v k n, reaches m0 l s -> var_of s i = Some (TPtr (Some q)) -> keeps_view m0 v -> n <= v_len v ->
  exists s', through i n (RBuf v k) s = (Ret tt, s') /\ dk_vars s' = dk_vars s /\ object s' (Some q) = Some (sb_of_view (view_take v n)) /\
    (forall j t p, var_of s' j = Some t -> In p (pointers t) -> p = None \/ exists bs, data_of s' p = Some (Ret bs)) /\
    (forall j t p, var_of s' j = Some t -> In p (pointers t) -> p <> Some q -> data_of s' p = data_of s p) /\
    (forall b, (b < List.length m0)%nat -> nth_error (dk_mem s') b = nth_error m0 b).
Proof. exact through_buffer. Qed.
Print Assumptions C130_buffer_partial.
Definition pointer_130 : desk := after_129 5.
Example C130_example : reaches memory_129 (firstn 5 program_129) pointer_130 /\ var_of pointer_130 2 = Some (TPtr (Some 0%nat)) /\
  let s' := snd (through 2 3 (RBuf (mkV 0 24 3) 0) pointer_130) in
  option_map (shows pointer_130) (var_of pointer_130 1) = Some [Some (Ret [x01; x02])] /\ option_map (shows s') (var_of s' 1) = Some [Some (Ret [x07; x08; x09])] /\
  dk_mem s' = [Some buffer_129; None].
Proof.
  split; [apply run_reaches; [repeat constructor; exists buffer_129; vm_compute; reflexivity|vm_compute; reflexivity]|]. repeat split; vm_compute; reflexivity.
Qed.
(** The packet the payload is of does not notice: its header says another length than the
    payload has, whenever they differ. *)
Theorem C130_length_refuted : forall m0 l s i k p q v c n, reaches m0 l s -> var_of s i = Some (TPtr (Some q)) -> var_of s k = Some (TPacket p) -> snd p = Some q -> keeps_view m0 v -> n <= v_len v -> n <> h_length (fst p) ->
  exists s' sb, through i n (RBuf v c) s = (Ret tt, s') /\ var_of s' k = Some (TPacket p) /\ object s' (snd p) = Some sb /\ v_len (sb_data sb) <> h_length (fst p).
Proof. exact through_length. Qed.
Print Assumptions C130_length_refuted.
Example C130_example_length : exists p, var_of pointer_130 1 = Some (TPacket p) /\ snd p = Some 0%nat /\ h_length (fst p) = 2.
Proof. eexists. split; [vm_compute; reflexivity|]. split; reflexivity. Qed.
(** From a buffer that is too small, an object that has memory of its own gives it back and
    raises; all who have the pointer refer to that memory still. *)
Theorem C130_short_refuted : forall m0 l s i q sb b v k n, reaches m0 l s -> var_of s i = Some (TPtr (Some q)) -> object s (Some q) = Some sb -> sb_alloc sb = Some b -> v_len (sb_data sb) <> 0 -> v_len v < n ->
  exists s', through i n (RBuf v k) s = (Throw LengthError "Buffer too small to deserialize value", s') /\ dk_vars s' = dk_vars s /\ data_of s' (Some q) = Some (Undef UseAfterFree).
Proof. exact through_short. Qed.
Print Assumptions C130_short_refuted.
Example C130_example_short : option_map sb_alloc (object pointer_130 (Some 0%nat)) = Some (Some 1%nat) /\
  let s' := snd (through 2 4 (RBuf (mkV 0 24 3) 0) pointer_130) in option_map (shows s') (var_of s' 1) = Some [Some (Undef UseAfterFree)].
Proof. split; vm_compute; reflexivity. Qed.
(** From a stream, an object of the same length that refers to the caller's memory is filled
    there. *)
Theorem C130_stream_refuted : forall m0 l s i q sb d p bs, reaches m0 l s -> var_of s i = Some (TPtr (Some q)) -> object s (Some q) = Some sb -> sb_alloc sb = None ->
  take (v_len (sb_data sb)) (drop p d) = bs -> len bs = v_len (sb_data sb) ->
  exists s' old, through i (v_len (sb_data sb)) (RStr d p false) s = (Ret tt, s') /\ load_view m0 (sb_data sb) = Ret old /\ load_view (dk_mem s') (sb_data sb) = Ret bs.
Proof. exact through_stream. Qed.
Print Assumptions C130_stream_refuted.
Example C130_example_stream : exists s s', reaches memory_129 [KRaw (mkV 0 24 3)] s /\ through 0 3 (RStr [x0a; x0b; x0c] 0 false) s = (Ret tt, s') /\
  dk_mem s = [Some buffer_129] /\ dk_mem s' = [Some (take 24 buffer_129 ++ [x0a; x0b; x0c])] /\ drop 24 buffer_129 = [x07; x08; x09].
Proof.
  eexists. eexists. split; [apply run_reaches; [repeat constructor; exists (drop 24 buffer_129); vm_compute; reflexivity|vm_compute; reflexivity]|]. split; [vm_compute; reflexivity|]. split; [reflexivity|]. split; vm_compute; reflexivity.
Qed.
