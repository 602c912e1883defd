(** * Properties C69 - : memory balance, exceptions, and more.

    Statements only; every proof is in the P*.v files.  The words used are defined in
    Spec.v (byte formats) and Vocab2.v - Vocab6.v. *)
From Verif Require Import PMore.

(** ** C69 Calls leave no memory behind *)
(** copy_serializable, for every source object and destination class that are balanced themselves. *)
Theorem C69_copy : forall (U : Type) (c : cls U) s m t o m' t', balanced_ser s -> c_sb c <> None \/ balanced_cls c ->
  copy_serializable c s m t = (o, m', t') -> came_back o -> same_blocks m m'.
Proof. exact @copy_balanced. Qed.
Print Assumptions C69_copy.
(** Every history of operations, whether they return or raise. *)
Theorem C69_history : forall ops w rs w', Forall op_balanced ops -> exec ops w = (rs, w') -> Forall came_back rs ->
  same_blocks (w_mem w) (w_mem w').
Proof. exact exec_balanced. Qed.
Print Assumptions C69_history.
(** The library's own objects are balanced. *)
Theorem C69_library :
  (forall p, balanced_opt (ep_payload p) -> balanced_ser (ep_ser p)) /\
  (forall p, Forall (fun i => balanced_opt (it_data i)) p -> balanced_ser (cpf_ser p)) /\
  (forall r, balanced_opt (mq_data (rr_ext r)) -> balanced_ser (rrq_ser r)) /\
  (forall q, balanced_opt (mq_data q) -> balanced_ser (mq_ser q)) /\
  (forall n s, balanced_ser s -> balanced_ser (sq_ser n s)) /\
  (forall s, balanced_ser (ser_of_sbuf s)) /\ (forall k v, balanced_ser (prim_ser k v)) /\
  (forall g, balanced_ser (rg_ser g)) /\ (forall g, balanced_ser (sa_ser g)) /\ (forall g, balanced_ser (id_ser g)) /\
  (forall f, balanced_ser (fo_ser f)) /\ (forall f, balanced_ser (fc_ser f)) /\
  balanced_cls hdr_cls /\ balanced_cls ep_cls /\ balanced_cls it_cls /\ balanced_cls cpf_cls /\ balanced_cls ms_cls /\ balanced_cls rrs_cls /\
  balanced_cls rg_cls /\ balanced_cls sa_cls /\ balanced_cls id_cls /\ balanced_cls fs_cls /\ balanced_cls cs_cls /\ forall k, balanced_cls (prim_cls k).
Proof. exact library_balanced. Qed.
Print Assumptions C69_library.
Example C69_example : exists rs w', let ops := [OpSet 1 2 3 (Some (prim_ser 2 5)); OpSendIO [io_item]; OpGet N (prim_cls 2) 0 1 1 1] in
  Forall op_balanced ops /\ exec ops (w9 [] []) = (rs, w') /\ len rs = 1 /\
  exists rs2 w2, exec ops (w9 [RxData (explicit_reply 9 0x90 0 []); RxFail] []) = (rs2, w2) /\ len rs2 = 3 /\ Forall came_back rs2 /\
    w_mem w2 <> w_mem (w9 [RxData (explicit_reply 9 0x90 0 []); RxFail] []).
Proof.
  do 2 eexists. cbv zeta. split.
  { apply Forall_cons; [exact (bal_prim _ _)|]. apply Forall_cons; [apply Forall_cons; [exact (bal_prim _ _)|constructor]|].
    apply Forall_cons; [right; exact (balanced_keeps _ (prim_keeps 2))|constructor]. }
  split; [vm_compute; reflexivity|]. split; [reflexivity|]. do 2 eexists. split; [vm_compute; reflexivity|]. split; [reflexivity|].
  split; [repeat (apply Forall_cons; [unfold came_back; eauto 6|]); constructor|vm_compute; discriminate].
Qed.
Example C69_example_copy : exists o m' t', copy_serializable (prim_cls 2) (prim_ser 1 5) [] 7 = (o, m', t') /\ came_back o /\ m' <> [].
Proof. do 3 eexists. split; [vm_compute; reflexivity|]. split; [right; eauto|discriminate]. Qed.

(** ** C70 Operations raise only the errors they are documented to raise *)
Theorem C70_operations : forall o w e s w', op_encodes o w -> step o w = (Throw e s, w') -> may_raise o e.
Proof. exact step_raises. Qed.
Print Assumptions C70_operations.
(** Decoding a reply class of the library from a buffer raises length_error and nothing else. *)
Theorem C70_decoding :
  (forall e, decode_raises hdr_cls e -> e = LengthError) /\ (forall e, decode_raises ep_cls e -> e = LengthError) /\
  (forall e, decode_raises it_cls e -> e = LengthError) /\ (forall e, decode_raises cpf_cls e -> e = LengthError) /\
  (forall e, decode_raises ms_cls e -> e = LengthError) /\ (forall e, decode_raises rg_cls e -> e = LengthError) /\
  (forall e, decode_raises sa_cls e -> e = LengthError) /\ (forall e, decode_raises id_cls e -> e = LengthError) /\
  (forall e, decode_raises fs_cls e -> e = LengthError) /\ (forall e, decode_raises cs_cls e -> e = LengthError) /\
  (forall e, decode_raises sbuf_cls e -> e = LengthError) /\ (forall k e, decode_raises (prim_cls k) e -> e = LengthError).
Proof. exact library_raises. Qed.
Print Assumptions C70_decoding.
Example C70_example : exists s w', step (OpOpen "h" "p" "q") (w9 [RxData [x00]] []) = (Throw RuntimeError s, w').
Proof. do 2 eexists. vm_compute. reflexivity. Qed.
Example C70_example_get : exists s w', step (OpGet N (prim_cls 4) 0 1 1 1) (w9 [RxData (explicit_reply 9 0x8E 0 [x01; x02])] []) = (Throw LengthError s, w') /\
  decode_raises (prim_cls 4) LengthError.
Proof.
  do 2 eexists. split; [vm_compute; reflexivity|]. exists 0, [], (mkV 0 0 0), 0, 0. do 4 eexists. vm_compute. reflexivity.
Qed.
