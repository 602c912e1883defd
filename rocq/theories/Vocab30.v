(** * Vocab30: words for I/O between explicit messages, C125.  Only definitions. *)
From Verif Require Export Vocab17.

(** Calls that use the control socket; calls that use the I/O socket. open and close use both. *)
Definition on_control (o : op) : bool :=
  match o with OpGet _ _ _ _ _ _ | OpSet _ _ _ _ | OpCreate _ _ | OpCloseConnection _ => true | _ => false end.
Definition on_io (o : op) : bool := match o with OpReceiveIO | OpSendIO _ => true | _ => false end.
(** What is sent and received on the I/O socket. *)
Definition io_talk (es : list event) : list event :=
  flat_map (fun e => match e with ESend Io _ _ | ERecv Io _ => [e] | _ => [] end) es.

(** What the caller holds after a call beside its result: the value of an attribute, or
    the types and bytes of the items. *)
Inductive gets := Nothing | Value (T : Type) (t : T) | Items (l : list (N * option (outcome (list byte)))).
Definition item_bytes (m : heap) (i : cpf_item) : N * option (outcome (list byte)) :=
  (it_type i, match it_data i with Some s => match s_sbuf s with Some sb => Some (load_view m (sb_data sb)) | None => None end | None => None end).
Definition got_by (o : op) (w : world) (r : outcome result) (w' : world) : gets :=
  match o, r with
  | OpGet T c t x y z, Ret _ => match getSingleAttributeSerializable c x y z t w with (_, t', _) => Value T t' end
  | OpReceiveIO, Ret (RItems p) => Items (map (item_bytes (w_mem w')) p)
  | _, _ => Nothing
  end.
(** The calls made, each with its result and what the caller holds right after it. *)
Definition record (ops : list op) (w : world) : list (op * outcome result * gets) :=
  map (fun x => match x with (o, w1, r, w2) => (o, r, got_by o w1 r w2) end) (calls ops w).
Definition of_control (x : op * outcome result * gets) : bool := on_control (fst (fst x)).
Definition of_io (x : op * outcome result * gets) : bool := on_io (fst (fst x)).
(** No call of the history ended the program. *)
Definition all_made (ops : list op) (w : world) : Prop := List.length (calls ops w) = List.length ops /\ Forall (fun x => no_ub (snd (fst x))) (calls ops w).
Definition after_calls (ops : list op) (w : world) : world := snd (exec ops w).
(** The control side of two worlds is the same; the I/O side is. *)
Definition same_control (w v : world) : Prop := w_se w = w_se v /\ w_ctl w = w_ctl v /\ ctl_talk (w_net w) = ctl_talk (w_net v).
Definition same_io (w v : world) : Prop := w_io w = w_io v /\ io_talk (w_net w) = io_talk (w_net v).
(** Either an explicit message or I/O. *)
Definition mixed (o : op) : Prop := on_control o = true \/ on_io o = true.
