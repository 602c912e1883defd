(** * Vocab16: words for abandoned calls, C105 - C107.  Only definitions. *)
From Verif Require Export Cuts Vocab9.

(** The members of the session while an unfinished call is under way: as before, but that
    the making of a connection has taken none, some or all of its numbers, or is complete
    but for its return. *)
Definition half_way (o : op) (w w' : world) : Prop :=
  let s := w_se w in
  match o with
  | OpCreate _ _ =>
      w_se w' = s \/
      w_se w' = set_counters ((se_next_sn s + 1) mod 65536) (se_next_id s) s \/
      w_se w' = set_counters ((se_next_sn s + 1) mod 65536) ((se_next_id s + 1) mod 4294967296) s \/
      w_se w' = set_counters ((se_next_sn s + 1) mod 65536) ((se_next_id s + 2) mod 4294967296) s \/
      exists n, step o w = (Ret (RNumber n), w')
  | _ => w_se w' = s
  end.

(** The control socket when the request was handed over and the reply not yet fetched. *)
Definition sending (k : sock) : sock := mkSock (so_open k) (tl (so_send k)) (so_recv k) (so_close k).
(** Nothing was sent or received on the control socket. *)
Definition unsent (w w' : world) : Prop := w_ctl w' = w_ctl w /\ w_net w' = w_net w.
(** Where a call that makes the request [bs] was abandoned. *)
Inductive interrupted (w : world) (bs : list byte) (w' : world) : Prop :=
| awaiting n : sent (w_ctl w) bs = Some n -> w_ctl w' = sending (w_ctl w) -> w_net w' = w_net w ++ [ESend Ctl bs (Some n)] -> interrupted w bs w'
| answered got : reply_of (w_ctl w) bs = Reply got -> w_ctl w' = left_of (w_ctl w) bs -> w_net w' = w_net w ++ events (w_ctl w) bs -> interrupted w bs w'.

(** The calls of such a history: what was called, where it started, what came of it,
    where it ended. *)
Fixpoint cut_calls (l : list (nat * op)) (w : world) : list (op * world * option (outcome result) * world) :=
  match l with
  | [] => []
  | (k, o) :: l' =>
      match cut k (op_p o) w with
      | (Some (Undef u), w') => [(o, w, Some (Undef u), w')]
      | (Some Stuck, w') => [(o, w, Some Stuck, w')]
      | (r, w') => (o, w, r, w') :: cut_calls l' w'
      end
  end.
(** The members at the start of each attempt to make a connection that sent something. *)
Definition cut_attempts (l : list (nat * op)) (w : world) : list session :=
  flat_map (fun x => match x with (OpCreate _ _, w1, _, w2) => if len (w_net w1) <? len (w_net w2) then [w_se w1] else [] | _ => [] end) (cut_calls l w).
