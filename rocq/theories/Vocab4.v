(** * Vocab4: words for the history theorems (C40, C48 - C52). Only definitions. *)
From Verif Require Export Vocab2 Vocab3.

(** The calls a history makes, with the world before and after each. *)
Fixpoint calls (ops : list op) (w : world) : list (op * world * outcome result * world) :=
  match ops with
  | [] => []
  | o :: ops' =>
      let (r, w') := step o w in
      (o, w, r, w') :: match r with Ret _ | Throw _ _ => calls ops' w' | _ => [] end
  end.

Definition is_open_close (o : op) : Prop := match o with OpOpen _ _ _ | OpClose => True | _ => False end.
Definition is_connection_op (o : op) : Prop := match o with OpCreate _ _ | OpCloseConnection _ => True | _ => False end.
Definition returned {A} (o : outcome A) : Prop := exists a, o = Ret a.

(** The connection attempts of a history: the session at each createConnection. *)
Definition attempts (ops : list op) (w : world) : list session :=
  flat_map (fun x => match x with (OpCreate _ _, w1, _, _) => [w_se w1] | _ => [] end) (calls ops w).

(** The frames handed to the control socket. *)
Definition ctl_frames (es : list event) : list (list byte) :=
  flat_map (fun e => match e with ESend Ctl bs _ => [bs] | _ => [] end) es.

(** Sends and receives on the control socket. *)
Definition ctl_talk (es : list event) : list event :=
  flat_map (fun e => match e with ESend Ctl _ _ | ERecv Ctl _ => [e] | _ => [] end) es.

(** Memory the user's objects live in: the blocks of [u] are in the client's memory,
    none of them is the receive buffer. *)
Definition user_memory (u : heap) (w : world) : Prop :=
  hext u (w_mem w) /\ forall bl, nth_error u (w_rbuf w) <> Some (Some bl).
(** Decoding from readable memory changes nothing in memory, stays inside it, and
    returns or raises. *)
Definition tame {T A} (x : D T A) : Prop :=
  forall m v c t bs, reads m v bs -> exists o v' c' t' bs', x m (RBuf v c) t = (o, m, RBuf v' c', t') /\
    reads m v' bs' /\ ((exists a, o = Ret a) \/ exists e s, o = Throw e s).
Definition tame_cls {T} (c : cls T) : Prop := forall n, tame (deserialize_len c n).
(** Arguments within their C++ types and objects that serialize as bytes, kept in
    [u]; attribute data that fits one frame; decoding classes as the library's. *)
Definition op_ok (u : heap) (o : op) : Prop :=
  match o with
  | OpGet T c t x y z => x < 256 /\ y < 256 /\ z < 256 /\ (c_sb c <> None \/ keeps_cls c)
  | OpSet x y z d => x < 256 /\ y < 256 /\ z < 256 /\ exists bs, carries_opt u d bs /\ len bs < 65512
  | OpCreate a b => ci_assembly a < 256 /\ ci_assembly b < 256
  | OpSendIO p => exists xs, carries u (cpf_ser p) (cpf xs)
  | _ => True
  end.
(** A session as the constructor leaves it, or later. *)
Definition session_ok (w : world) : Prop :=
  rbuf_ok w /\ fits 4 (se_id (w_se w)) /\ Forall (fun c => cn_tick_size c < 256 /\ cn_ticks c < 256) (se_conns (w_se w)).

(** The request an operation makes, from the session at the call. *)
Definition request_of (u : heap) (o : op) (s : session) (bs : list byte) : Prop :=
  match o with
  | OpOpen _ _ _ => bs = register_request
  | OpClose => bs = unregister (se_id s)
  | OpGet _ _ _ x y z => bs = get_request (se_id s) x y z
  | OpSet x y z d => exists data, carries_opt u d data /\ bs = set_request (se_id s) x y z data
  | OpCreate a b => bs = open_request s a b
  | OpCloseConnection n => exists c, nth_error (se_conns s) (N.to_nat n) = Some c /\ bs = close_request s c
  | OpReceiveIO | OpSendIO _ => False
  end.
(** The session handle it carries. *)
Definition handle_of (o : op) (s : session) : N := match o with OpOpen _ _ _ => 0 | _ => se_id s end.
(** The calls that make none: I/O, a socket that cannot be opened, a number that
    designates no connection. *)
Definition silent (o : op) (w : world) : Prop :=
  match o with
  | OpOpen _ _ _ => open_fails (w_ctl w) = true \/ open_fails (w_io w) = true
  | OpCloseConnection n => nth_error (se_conns (w_se w)) (N.to_nat n) = None
  | OpReceiveIO | OpSendIO _ => True
  | _ => False
  end.
(** What one call puts on the control socket: nothing, or its request as one complete
    frame, once, and then at most one receive. *)
Definition one_frame (u : heap) (o : op) (w w' : world) : Prop :=
  exists es, w_net w' = w_net w ++ es /\
  ((silent o w /\ ctl_talk es = []) \/
   (~ silent o w /\ exists bs cmd payload n, request_of u o (w_se w) bs /\
      bs = frame cmd (handle_of o (w_se w)) 0 0 0 0 payload /\ frame_fits cmd (handle_of o (w_se w)) 0 0 0 0 payload /\
      (ctl_talk es = [ESend Ctl bs n] \/ exists got, ctl_talk es = [ESend Ctl bs n; ERecv Ctl got]))).

(** The causes of undefined behaviour: a reply of one of the crashing forms, or a
    number that designates no connection. *)
Definition crash_cause (o : op) (w : world) : Prop :=
  let s := w_se w in
  let replied bs P := exists got, reply_of (w_ctl w) bs = Reply got /\ P got in
  let no_data got := crashes (se_id s) got \/ exists sv a, answers (se_id s) got sv 0 a [] in
  match o with
  | OpOpen _ _ _ => replied register_request (registers_empty (se_id s))
  | OpGet _ _ _ x y z => replied (get_request (se_id s) x y z) no_data
  | OpSet x y z _ => exists data, replied (set_request (se_id s) x y z data) (crashes (se_id s))
  | OpCreate a b => replied (open_request s a b) no_data
  | OpCloseConnection n =>
      match nth_error (se_conns s) (N.to_nat n) with
      | None => True
      | Some c => replied (close_request s c) no_data
      end
  | OpClose | OpReceiveIO | OpSendIO _ => False
  end.
