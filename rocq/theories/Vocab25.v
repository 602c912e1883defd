(** * Vocab25: which connection received data belongs to, C120.
    Only definitions. *)
From Verif Require Export Vocab4.
Local Open Scope N_scope.

(** The call, if it created a connection, was granted the T->O id it proposed (the second of
    the two numbers it took): what a target does that leaves the choice to the consumer, as
    the CIP specification asks for point to point connections. *)
Definition echoes (x : op * world * outcome result * world) : Prop :=
  match x with
  | (OpCreate a b, w, _, _) => forall got sv ad d o2t t2o sn vn os oa ta,
      reply_of (w_ctl w) (open_request (w_se w) a b) = Reply got -> answers (se_id (w_se w)) got sv 0 ad d -> opened d o2t t2o sn vn os oa ta ->
      t2o = (se_next_id (w_se w) + 1) mod 2 ^ 32
  | _ => True
  end.
(** Data received: its address item names the connection by its T->O id. *)
Definition belongs (c : connection) (address : seq_addr) : Prop := sa_connection address = cn_t2o_id c.
