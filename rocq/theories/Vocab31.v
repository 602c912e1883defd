(** * Vocab31: words for what a session's log says about itself, C126 - C127.  Only definitions. *)
From Verif Require Export Vocab12.

(** The log calls with this format. *)
Definition with_format (f : string) (l : list logc) : list logc := filter (fun x => String.eqb (lg_fmt x) f) l.
Definition msg_opened : string := "Successfully opened session ID %zu".
Definition msg_closed : string := "Session closed".
Definition msg_leftover : string := "IO packet received with %zu bytes, but only %zu bytes used".
Definition msg_o2t : string := "Replacing our o_to_t connection ID (%zu) with connection ID provided by target (%zu)".
Definition msg_t2o : string := "Replacing our t_to_o connection ID (%zu) with connection ID provided by target (%zu)".

(** A reply to the registration, taken apart, and what is not as it should be about it. *)
Definition registration_parts (got : list byte) (ses st c0 c1 o : N) (payload after : list byte) : Prop :=
  frame_fits 0x65 ses st c0 c1 o payload /\ got = frame 0x65 ses st c0 c1 o payload ++ after.
Definition odd_registration (st c0 c1 o : N) (payload after : list byte) : Prop :=
  odd_frame st c0 c1 o after \/ payload <> registration 1 0.
(** The line about an identifier: only when the target gave another one than was asked for. *)
Definition replaced (f : string) (ours theirs : N) : list logc :=
  if ours =? theirs then [] else [mkLog Inform f [AU32 ours; AU32 theirs]].
(** The calls these lines belong to. *)
Definition own_formats : list string := [msg_opened; msg_closed; msg_leftover; msg_o2t; msg_t2o].
Definition speaks (f : string) (o : op) : Prop :=
  match o with
  | OpOpen _ _ _ => f = msg_opened
  | OpClose => f = msg_closed
  | OpReceiveIO => f = msg_leftover
  | OpCreate _ _ => f = msg_o2t \/ f = msg_t2o
  | _ => False
  end.
(** The line about bytes of a datagram that are not part of its items. *)
Definition leftover (xs : list (N * list byte)) (rest : list byte) : list logc :=
  match rest with [] => [] | _ => [mkLog Warn msg_leftover [ASize (len (cpf xs ++ rest)); ASize (len (cpf xs))]] end.
Definition alarming (x : logc) : bool := match lg_level x with Warn | Error => true | _ => false end.
