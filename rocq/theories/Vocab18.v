(** * Vocab18: words for what the bytes of requests say, C110.  Only definitions. *)
From Verif Require Export Vocab5 Vocab7.

(** The numbers of a session and of a connection request are within their C++ types
    (session.h:214-217, eip_types.h:97-105). *)
Definition in_types (s : session) : Prop :=
  key_fits (se_next_sn s, se_vendor s, se_serial s) /\ fits 4 (se_next_id s) /\ Forall (fun c => key_fits (conn_key c)) (se_conns s).
Definition info_fits (i : conn_info) : Prop := ci_assembly i < 256 /\ fits 2 (ci_size i) /\ fits 4 (ci_rpi i).
Definition typed (o : op) : Prop := match o with OpCreate a b => info_fits a /\ info_fits b | _ => True end.

(** Two directions of a connection the target cannot tell apart by the request. *)
Definition same_info (a b : conn_info) : Prop :=
  ci_assembly a = ci_assembly b /\ ci_rpi a = ci_rpi b /\ ci_size a mod 2 ^ 15 = ci_size b mod 2 ^ 15.
(** Two calls, made in sessions [s] and [s'] with data in [u] and [u'], that ask the target
    for the same thing. *)
Definition same_request (u u' : heap) (s s' : session) (o o' : op) : Prop :=
  match o, o' with
  | OpOpen _ _ _, OpOpen _ _ _ => True
  | OpClose, OpClose => se_id s = se_id s'
  | OpGet _ _ _ x y z, OpGet _ _ _ x' y' z' => se_id s = se_id s' /\ (x, y, z) = (x', y', z')
  | OpSet x y z d, OpSet x' y' z' d' => se_id s = se_id s' /\ (x, y, z) = (x', y', z') /\ exists data, carries_opt u d data /\ carries_opt u' d' data
  | OpCreate a b, OpCreate a' b' =>
      se_id s = se_id s' /\ (se_next_sn s, se_vendor s, se_serial s) = (se_next_sn s', se_vendor s', se_serial s') /\
      se_next_id s = se_next_id s' /\ same_info a a' /\ same_info b b'
  | OpCloseConnection n, OpCloseConnection n' => se_id s = se_id s' /\
      exists c c', nth_error (se_conns s) (N.to_nat n) = Some c /\ nth_error (se_conns s') (N.to_nat n') = Some c' /\ conn_key c = conn_key c'
  | _, _ => False
  end.

(** Every connection has the time ticks the code gives it (connection.cpp:42-43). *)
Definition usual_ticks (s : session) : Prop := Forall (fun c => cn_tick_size c = 6 /\ cn_ticks c = 80) (se_conns s).
(** A call, made in session [s] with data in [u], asks for something with the bytes [bs]. *)
Definition asked (u : heap) (o : op) (s : session) (bs : list byte) : Prop :=
  request_of u o s bs /\ op_ok u o /\ typed o /\ in_types s /\ fits 4 (se_id s).

(** The calls of a history that put something on the control socket, with the session each
    was made in. *)
Definition asks (x : op * world * outcome result * world) : bool :=
  match x with (_, w1, _, w2) => PeanoNat.Nat.ltb (List.length (ctl_frames (w_net w1))) (List.length (ctl_frames (w_net w2))) end.
Definition asking (ops : list op) (w : world) : list (op * session) :=
  map (fun x => match x with (o, w1, _, _) => (o, w_se w1) end) (filter asks (calls ops w)).
(** All they put there, in order, without boundaries. *)
Definition ctl_bytes (es : list event) : list byte := List.concat (ctl_frames es).
