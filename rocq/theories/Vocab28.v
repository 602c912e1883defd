(** * Vocab28: what the scanner logs about an answer, C123.
    Only definitions. *)
From Verif Require Export Vocab12.

(** A datagram that starts with a list-identity reply: session handle, status, context and
    options of its header, its items, and what follows the frame. *)
Definition answer_parts (got : list byte) (ses st c0 c1 o : N) (after : list byte) (xs : list (N * list byte)) : Prop :=
  exists payload rest, frame_fits 0x63 ses st c0 c1 o payload /\ got = frame 0x63 ses st c0 c1 o payload ++ after /\ cpf_ok xs /\ payload = cpf xs ++ rest.
(** Something about it is not as it should be. *)
Definition odd_answer (ses st c0 c1 o : N) (after : list byte) (xs : list (N * list byte)) : Prop := ses <> 0 \/ odd_frame st c0 c1 o after \/ 1 < len xs.
(** The results that are errors of the network or of the device. *)
Definition turned_down (r : scan_result) : Prop :=
  match r with ScanReceiveError | ScanWrongCommand _ | ScanNoItems | ScanWrongItem _ => True | ScanIdentity _ | ScanTooShort => False end.
