(** * C131: A copy of a packet is sent as the packet was when it was copied.
    Statements only; the proofs are in PSent.v. *)
From Verif Require Import Vocab34 PSent PCopies.
Local Open Scope N_scope.

(** Every packet, list of items and object can be sent; the bytes are those of the fields and
    of the data it shows. *)
Theorem C131_sent : forall m0 l s k t bs, reaches m0 l s -> var_of s k = Some t -> wire s t = Some bs ->
  exists x, to_send s t = Some x /\ writes (dk_mem s) (s_serialize x) bs.
Proof. exact wire_written. Qed.
Print Assumptions C131_sent.
(** They stay those bytes while other variables are decoded into, assigned or ended. *)
Theorem C131_kept : forall m0 l0 l s s' k t bs, reaches m0 l0 s -> var_of s k = Some t -> goes_on m0 k l s s' -> wire s t = Some bs ->
  exists x, var_of s' k = Some t /\ to_send s' t = Some x /\ writes (dk_mem s') (s_serialize x) bs.
Proof. exact sent_kept. Qed.
Print Assumptions C131_kept.
(** What was copied or assigned is sent as the original was then, whatever becomes of the
    original. *)
Theorem C131_copied : forall m0 l0 l s s1 s' i t bs, reaches m0 l0 s -> var_of s i = Some t -> perform (KCopy i) s = (Ret tt, s1) -> goes_on m0 (List.length (dk_vars s)) l s1 s' -> wire s t = Some bs ->
  exists x, var_of s' (List.length (dk_vars s)) = Some t /\ to_send s' t = Some x /\ writes (dk_mem s') (s_serialize x) bs.
Proof. exact copy_sent. Qed.
Print Assumptions C131_copied.
Theorem C131_assigned : forall m0 l0 l s s1 s' i j t u bs, reaches m0 l0 s -> var_of s i = Some t -> var_of s j = Some u -> same_class t u = true -> perform (KAssign i j) s = (Ret tt, s1) -> goes_on m0 i l s1 s' -> wire s u = Some bs ->
  exists x, var_of s' i = Some u /\ to_send s' u = Some x /\ writes (dk_mem s') (s_serialize x) bs.
Proof. exact assigned_sent. Qed.
Print Assumptions C131_assigned.

(** A packet is read from a stream and copied; then the original is decoded into from the
    caller's buffer, a decode of it raises, and it ends. The copy is sent as it was read. *)
Definition memory_131 : heap := [Some (frame 0x65 5 0 0 0 0 [x07; x08; x09])].
Definition first_131 : list deal := [KNew 0 0; KDecode 0 (RStr (frame 0x6F 7 0 0 0 0 [x01; x02]) 0 false)].
Definition then_131 : list deal := [KDecode 0 (RBuf (mkV 0 0 27) 0); KDecode 0 (RBuf (mkV 0 0 20) 0); KEnd 0].
Example C131_example : exists s s1 s' t, reaches memory_131 first_131 s /\ var_of s 0 = Some t /\ perform (KCopy 0) s = (Ret tt, s1) /\ goes_on memory_131 1 then_131 s1 s' /\
  wire s t = Some (frame 0x6F 7 0 0 0 0 [x01; x02]) /\ dk_mem s' = memory_131 ++ [Some [x01; x02]] /\ var_of s' 0 = None.
Proof.
  eexists. eexists. eexists. eexists. split; [apply run_reaches; [repeat constructor|vm_compute; reflexivity]|]. split; [vm_compute; reflexivity|]. split; [vm_compute; reflexivity|].
  split; [split; [|split; [repeat constructor; discriminate|vm_compute; reflexivity]]|split; [vm_compute; reflexivity|split; vm_compute; reflexivity]].
  repeat constructor; [exists (frame 0x65 5 0 0 0 0 [x07; x08; x09])|exists (take 20 (frame 0x65 5 0 0 0 0 [x07; x08; x09]))]; vm_compute; reflexivity.
Qed.
(** Two items that share one object are both sent with its data. *)
Example C131_example_items : exists s t, reaches memory_131 [KRaw (mkV 0 24 3); KItems; KPush 1 0xB1 0; KPush 1 0xB2 0; KEnd 0] s /\ var_of s 1 = Some t /\ wire s t = Some (cpf [(0xB1, [x07; x08; x09]); (0xB2, [x07; x08; x09])]).
Proof. eexists. eexists. split; [apply run_reaches; [repeat constructor; exists [x07; x08; x09]; vm_compute; reflexivity|vm_compute; reflexivity]|]. split; vm_compute; reflexivity. Qed.
