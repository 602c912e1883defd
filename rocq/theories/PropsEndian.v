(** * Property C115: hosts of either byte order.

    Statements only; every proof is in PEndian.v.  The words used are defined in Spec.v
    and Vocab21.v, hosts and the fields of messages in Endian.v. *)
From Verif Require Import Vocab21 PEndian PBase.
Local Open Scope N_scope.

(** ** C115 Messages do not depend on the byte order of the host: violated *)
(** A little endian host writes the format of the protocol. *)
Theorem C115_little_partial :
  (forall cmd n ses st c0 c1 o payload, wire Little (header_fields cmd n ses st c0 c1 o ++ [FBytes payload]) = header cmd n ses st c0 c1 o ++ payload) /\
  wire Little register_fields = request 0x65 0 (registration 1 0) /\
  (forall tick ticks o2t t2o sn vendor orig mult orpi opar trpi tpar type path, tick < 256 -> ticks < 256 -> mult < 256 -> type < 256 ->
     wire Little (open_fields tick ticks o2t t2o sn vendor orig mult orpi opar trpi tpar type path)
     = forward_open tick ticks o2t t2o sn vendor orig mult orpi opar trpi tpar type path).
Proof. exact (conj little_header (conj little_register little_open)). Qed.
Print Assumptions C115_little_partial.
(** Hosts of the same order understand each other. *)
Theorem C115_same_order_partial : forall h fs rest, Forall field_fits fs -> unwire h fs (wire h fs ++ rest) = fs.
Proof. exact unwire_wire. Qed.
Print Assumptions C115_same_order_partial.
(** Hosts of different orders write the same bytes for those messages only whose integers
    read the same from both ends. *)
Theorem C115_bytes_refuted : forall fs, wire Big fs = wire Little fs <-> Forall symmetric fs.
Proof. exact wires_equal. Qed.
Print Assumptions C115_bytes_refuted.
(** A target takes every command of a big endian client for another. *)
Theorem C115_command_refuted : forall cmd n ses st c0 c1 o rest, fits 2 cmd -> cmd mod 256 <> cmd / 256 ->
  num (take 2 (wire Big (header_fields cmd n ses st c0 c1 o) ++ rest)) <> cmd.
Proof. exact other_command. Qed.
Print Assumptions C115_command_refuted.
(** So it does the registration that every session begins with. *)
Theorem C115_register_refuted : forall rest, num (take 2 (wire Big register_fields ++ rest)) = 0x6500.
Proof. exact register_misread. Qed.
Print Assumptions C115_register_refuted.
Example C115_example : Forall field_fits register_fields /\ ~ Forall symmetric register_fields /\ fits 2 0x65 /\ 0x65 mod 256 <> 0x65 / 256 /\
  map Byte.to_N (wire Big register_fields) = [0; 0x65; 0; 4; 0; 0; 0; 0; 0; 0; 0; 0; 0; 0; 0; 0; 0; 0; 0; 0; 0; 0; 0; 0; 0; 1; 0; 0].
Proof.
  split; [repeat constructor; reflexivity|]. split; [intros F; inversion F as [|? ? E _]; subst; vm_compute in E; discriminate|].
  split; [reflexivity|]. split; [discriminate|]. vm_compute. reflexivity.
Qed.
Example C115_example_symmetric : Forall symmetric [FInt 2 0x6565; FInt 4 0; FBytes [x01; x02]] /\ wire Big [FInt 2 0x6565] = [x65; x65].
Proof. split; [repeat constructor; vm_compute; reflexivity|]. vm_compute. reflexivity. Qed.
