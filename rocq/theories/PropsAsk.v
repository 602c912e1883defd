(** * Property C110: what the bytes on the control connection say.

    Statements only; every proof is in the P*.v files.  The words used are defined in
    Spec.v (byte formats) and Vocab2.v - Vocab18.v. *)
From Verif Require Import PAsk2.

(** ** C110 The bytes a session sends determine what was asked: violated for sizes from 32768 *)
(** Two histories of calls that put the same bytes on the control socket, however the
    bytes are divided, sent the same frames, and call by call asked for the same thing. *)
Theorem C110_history_partial : forall u u' ops ops' w w' rs rs' v v' es es',
  session_ok w -> user_memory u w -> Forall (op_ok u) ops -> Forall typed ops -> in_types (w_se w) -> exec ops w = (rs, v) -> gained w v es ->
  session_ok w' -> user_memory u' w' -> Forall (op_ok u') ops' -> Forall typed ops' -> in_types (w_se w') -> exec ops' w' = (rs', v') -> gained w' v' es' ->
  ctl_bytes es = ctl_bytes es' ->
  ctl_frames es = ctl_frames es' /\
  Forall2 (fun x y => same_request u u' (snd x) (snd y) (fst x) (fst y)) (asking ops w) (asking ops' w').
Proof. exact bytes_determine. Qed.
Print Assumptions C110_history_partial.
(** What is asked determines the bytes. *)
Theorem C110_converse_partial : forall u u' o o' s s' bs bs', same_request u u' s s' o o' -> asked u o s bs -> asked u' o' s' bs' ->
  usual_ticks s -> usual_ticks s' -> bs = bs'.
Proof. exact same_bytes. Qed.
Print Assumptions C110_converse_partial.
(** Every session ever reached has its numbers within their types. *)
Theorem C110_types_partial : forall m ctl io vd sr sn0 cid0 ops rs w', exec ops (session_make m ctl io vd sr sn0 cid0) = (rs, w') ->
  in_types (w_se w') /\ usual_ticks (w_se w').
Proof. exact history_types. Qed.
Print Assumptions C110_types_partial.
(** A request to close names one connection, as long as no two share their numbers (C48). *)
Theorem C110_close_partial : forall s n n' c c', numbers_ok s ->
  nth_error (se_conns s) (N.to_nat n) = Some c -> nth_error (se_conns s) (N.to_nat n') = Some c' -> close_request s c = close_request s c' -> n = n'.
Proof. exact close_names. Qed.
Print Assumptions C110_close_partial.
(** Connections of 110 bytes and of 32878 bytes are asked for with the same bytes. *)
Theorem C110_size_refuted : exists a b rs rs' v v' es es', ci_size a <> ci_size b /\ info_fits a /\ info_fits b /\
  exec [OpCreate a ci0] (w9 [] []) = (rs, v) /\ gained (w9 [] []) v es /\ exec [OpCreate b ci0] (w9 [] []) = (rs', v') /\ gained (w9 [] []) v' es' /\
  len (ctl_bytes es) = 94 /\ ctl_bytes es = ctl_bytes es'.
Proof. exact sizes_alike. Qed.
Print Assumptions C110_size_refuted.

(** A value of its own in one history, the same bytes in the caller's memory in the other,
    which also does I/O and ends on a lost reply. *)
Example C110_example : 
  session_ok ask_a /\ user_memory [] ask_a /\ Forall (op_ok []) ops_a /\ Forall typed ops_a /\ in_types (w_se ask_a) /\
  session_ok ask_b /\ user_memory mem_b ask_b /\ Forall (op_ok mem_b) ops_b /\ Forall typed ops_b /\ in_types (w_se ask_b) /\
  exists rs v es rs' v' es', exec ops_a ask_a = (rs, v) /\ gained ask_a v es /\ exec ops_b ask_b = (rs', v') /\ gained ask_b v' es' /\
    ctl_bytes es = ctl_bytes es' /\ len (ctl_frames es) = 2 /\ len (asking ops_b ask_b) = 2 /\ len (calls ops_b ask_b) = 4.
Proof. exact ask_example. Qed.
Example C110_example_close : let w := w9 [RxData (fo_reply 7); RxData (fo_reply 8)] [] in
  exists rs v c c', exec [OpCreate ci0 ci0; OpCreate ci0 ci0] w = (rs, v) /\ numbers_ok (w_se v) /\
    nth_error (se_conns (w_se v)) 0 = Some c /\ nth_error (se_conns (w_se v)) 1 = Some c' /\ close_request (w_se v) c <> close_request (w_se v) c'.
Proof. exact ask_example_close. Qed.
