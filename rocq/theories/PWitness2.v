(** Concrete counterexamples for the memory properties. *)
From Verif Require Export PKeeps.


Lemma seq_reuse_witness : exists m v1 v2 num s m1 r1 q,
  c_des (sq_cls (prim_cls 2)) m (RBuf v1 0) (sq_make 0 0) = (Throw LengthError s, m1, r1, q) /\
  (exists m2 r2, c_des (sq_cls (prim_cls 2)) m (RBuf v2 0) (sq_make 0 0) = (Ret tt, m2, r2, mkSeq 7 num false)) /\
  exists m2 r2 q2, c_des (sq_cls (prim_cls 2)) m1 (RBuf v2 0) q = (Ret tt, m2, r2, q2) /\ sq_num q2 <> num /\ sq_base q2 <> 7.
Proof.
  exists [Some [x01; x00; x05]; Some [x02; x00; x07; x00]], (mkV 0 0 3), (mkV 1 0 4), 2. do 4 eexists.
  split; [vm_compute; reflexivity|]. split; [do 2 eexists; vm_compute; reflexivity|].
  do 3 eexists. split; [vm_compute; reflexivity|]. split; discriminate.
Qed.
Lemma copy_sequenced_destination : exists m v bs t', reads m v bs /\
  copy_serializable (sq_cls sbuf_cls) (ser_of_sbuf (sb_of_view v)) m (sq_make sb_empty 0) = (Ret tt, m, t') /\
  le 2 (sq_num t') <> take 2 bs /\ reads m (sb_data (sq_base t')) bs.
Proof.
  exists [Some [x05; x00; x09]], (mkV 0 0 3), [x05; x00; x09]. eexists. split; [reflexivity|]. split; [reflexivity|].
  split; [vm_compute; discriminate|reflexivity].
Qed.
