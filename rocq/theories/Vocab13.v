(** * Vocab13: words for the properties of shared objects and of limited streams. *)
From Verif Require Export Vocab12 Refs.
Local Open Scope N_scope.

(** The number of connections a history tries to create. *)
Definition creates (ops : list op) : N := len (filter (fun o => match o with OpCreate _ _ => true | _ => false end) ops).
(** The history closes no connection with this number or a lower one. *)
Definition closes_above (k : nat) (ops : list op) : Prop :=
  Forall (fun o => match o with OpCloseConnection m => (k < N.to_nat m)%nat | _ => True end) ops.
(** The connection is open. *)
Definition open_in (c : connection) (s : vstate) : Prop := In c (se_conns (w_se (fst s))).

(** These bytes are one frame with this payload. *)
Definition frames_payload (wire payload : list byte) : Prop :=
  exists cmd ses st c0 c1 o, frame_fits cmd ses st c0 c1 o payload /\ wire = frame cmd ses st c0 c1 o payload.
(** The last edit computed the length. *)
Definition computes_length (e : pedit) : Prop := match e with PSet _ | PUpdate => True | PChange _ => False end.
(** A change by whoever else has the payload. *)
Definition is_change (e : pedit) : Prop := match e with PChange _ => True | _ => False end.
(** What the object writes to an empty stream that takes everything. *)
Definition runs_to (s : ser) (bs : list byte) : Prop := s_serialize s [] (WStr []) = (Ret tt, [], WStr bs).
