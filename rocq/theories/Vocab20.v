(** * Vocab20: several clients of one target, C113.
    Only definitions. *)
From Verif Require Export Vocab19.

(** A target that several sessions talk to: its attributes and the connections it has open,
    whoever opened them. *)
Record server := mkServer { sv_attr : N * N * N -> option (list byte); sv_conns : list (N * N * N) }.
(** The same target to a session with this handle, as in Vocab7.v. *)
Definition seen (id : N) (s : server) : target := mkTarget id (sv_attr s) (sv_conns s).
(** The connections opened by the originator with this vendor id and serial number. *)
Definition owns (vendor serial : N) (k : N * N * N) : bool := let '(_, v, s) := k in (v =? vendor) && (s =? serial).
Definition conns_of (s : session) (sv : server) : list (N * N * N) := filter (owns (se_vendor s) (se_serial s)) (sv_conns sv).

(** Clients, each with its memory and its session; they run in turns, in any order, one call
    at a time, against the one target. A client that ran into undefined behaviour is out. *)
Record party := mkParty { pt_mem : heap; pt_prog : client; pt_world : world }.
Definition goes_on (next : outcome told -> client) (o : outcome told) : client :=
  match o with Ret _ | Throw _ _ => next o | _ => Stop end.
Inductive joint : server -> list party -> list (nat * wish * outcome told) -> server -> list party -> Prop :=
| joint_nil s ps : joint s ps [] s ps
| joint_call s ps i u a next w o w' es s1 l s' ps' : nth_error ps i = Some (mkParty u (Call a next) w) ->
    perform a w = (o, w') -> gained w w' es -> conforms (seen (se_id (w_se w)) s) (ctl_talk es) (seen (se_id (w_se w)) s1) ->
    joint s1 (list_set ps i (mkParty u (goes_on next o) w')) l s' ps' ->
    joint s ps ((i, a, o) :: l) s' ps'.

(** A client and the target agree on the client's connections. *)
Definition party_ok (s : server) (p : party) : Prop :=
  let w := pt_world p in
  session_ok w /\ user_memory (pt_mem p) w /\ client_ok (pt_mem p) (pt_prog p) /\ numbers_ok (w_se w) /\
  se_id (w_se w) <> 0 /\ map conn_key (se_conns (w_se w)) = conns_of (w_se w) s.
(** No two clients go by the same vendor id and serial number. *)
Definition who (p : party) : N * N := (se_vendor (w_se (pt_world p)), se_serial (w_se (pt_world p))).
Definition strangers (ps : list party) : Prop := NoDup (map who ps).

(** The state machine: the target, and every client's next connection serial number. *)
Inductive acts (u : heap) (vendor serial : N) : server * N -> wish -> outcome told -> server * N -> Prop :=
| acts_get s sn k junk x y z v rest : sv_attr s (x, y, z) = Some (le k v ++ rest) -> fits k v -> le k v ++ rest <> [] ->
    acts u vendor serial (s, sn) (AskGet k junk x y z) (Ret (Value v)) (s, sn)
| acts_get_short s sn k junk x y z d m : sv_attr s (x, y, z) = Some d -> d <> [] -> len d < N.of_nat k ->
    acts u vendor serial (s, sn) (AskGet k junk x y z) (Throw LengthError m) (s, sn)
| acts_get_empty s sn k junk x y z : sv_attr s (x, y, z) = Some [] ->
    acts u vendor serial (s, sn) (AskGet k junk x y z) (Undef NullDeref) (s, sn)
| acts_set s sn x y z d data : carries_opt u d data ->
    acts u vendor serial (s, sn) (AskSet x y z d) (Ret Done)
      (mkServer (fun k => if triple_dec k (x, y, z) then Some data else sv_attr s k) (sv_conns s), sn)
| acts_join s sn a b : ~ In (sn, vendor, serial) (sv_conns s) ->
    acts u vendor serial (s, sn) (AskJoin a b) (Ret (Number (len (filter (owns vendor serial) (sv_conns s)))))
      (mkServer (sv_attr s) (sv_conns s ++ [(sn, vendor, serial)]), (sn + 1) mod 2 ^ 16)
| acts_leave s sn n key : nth_error (filter (owns vendor serial) (sv_conns s)) (N.to_nat n) = Some key ->
    acts u vendor serial (s, sn) (AskLeave n) (Ret Done) (mkServer (sv_attr s) (remove triple_dec key (sv_conns s)), sn)
| acts_refused s sn a m : (forall n, a = AskLeave n -> nth_error (filter (owns vendor serial) (sv_conns s)) (N.to_nat n) <> None) ->
    acts u vendor serial (s, sn) a (Throw RuntimeError m) (s, tried a sn)
| acts_unsent s sn a m : (forall n, a = AskLeave n -> nth_error (filter (owns vendor serial) (sv_conns s)) (N.to_nat n) <> None) ->
    acts u vendor serial (s, sn) a (Throw SystemError m) (s, tried a sn)
| acts_astray s sn n : nth_error (filter (owns vendor serial) (sv_conns s)) (N.to_nat n) = None ->
    acts u vendor serial (s, sn) (AskLeave n) (Undef VecOutOfBounds) (s, sn).
(** [ids]: what clients go by; [us]: their memories; the list: their next serial numbers. *)
Inductive in_turn (us : list heap) (ids : list (N * N)) : server -> list N -> list (nat * wish * outcome told) -> server -> list N -> Prop :=
| in_turn_nil s sns : in_turn us ids s sns [] s sns
| in_turn_call s sns i u vendor serial sn a o s1 sn1 l s' sns' :
    nth_error us i = Some u -> nth_error ids i = Some (vendor, serial) -> nth_error sns i = Some sn ->
    acts u vendor serial (s, sn) a o (s1, sn1) -> in_turn us ids s1 (list_set sns i sn1) l s' sns' ->
    in_turn us ids s sns ((i, a, o) :: l) s' sns'.
(** A call that wrote the attribute. *)
Definition writes_to (x y z : N) (c : nat * wish * outcome told) : Prop := exists i d r, c = (i, AskSet x y z d, Ret r).
