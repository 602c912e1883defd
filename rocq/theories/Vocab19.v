(** * Vocab19: client programs and the state machine of the target they see, C112.
    Only definitions. *)
From Verif Require Export Vocab7 Vocab5.

(** A client program: calls it makes, each depending on all it was told before. *)
Inductive wish :=
| AskGet (k : nat) (junk : N) (x y z : N)   (* getSingleAttribute<T>, T of k bytes *)
| AskSet (x y z : N) (d : option ser)
| AskJoin (a b : conn_info)                 (* createConnection *)
| AskLeave (n : N).                         (* closeConnection *)
Inductive told := Value (v : N) | Done | Number (n : N).
Inductive client := Stop | Call (a : wish) (next : outcome told -> client).

(** Running it on a session (session.h:105-163). It goes on after exceptions. *)
Definition perform (a : wish) : M told :=
  match a with
  | AskGet k junk x y z => let* v := getSingleAttribute k junk x y z in mret (Value v)
  | AskSet x y z d => do* setSingleAttributeSerializable x y z d in mret Done
  | AskJoin a b => let* n := createConnection a b in mret (Number n)
  | AskLeave n => do* closeConnection n in mret Done
  end.
Fixpoint play (c : client) (w : world) : list (wish * outcome told) * world :=
  match c with
  | Stop => ([], w)
  | Call a next =>
      match perform a w with
      | (Ret r, w') => let (l, w'') := play (next (Ret r)) w' in ((a, Ret r) :: l, w'')
      | (Throw e s, w') => let (l, w'') := play (next (Throw e s)) w' in ((a, Throw e s) :: l, w'')
      | (o, w') => ([(a, o)], w')
      end
  end.
Definition wish_ok (u : heap) (a : wish) : Prop :=
  match a with
  | AskGet k junk x y z => x < 256 /\ y < 256 /\ z < 256
  | AskSet x y z d => x < 256 /\ y < 256 /\ z < 256 /\ exists bs, carries_opt u d bs /\ len bs < 65512
  | AskJoin a b => ci_assembly a < 256 /\ ci_assembly b < 256
  | AskLeave n => True
  end.
Fixpoint client_ok (u : heap) (c : client) : Prop :=
  match c with Stop => True | Call a next => wish_ok u a /\ forall o, client_ok u (next o) end.

(** The state machine: the target, and the next connection serial number of the client. *)
Definition state := (target * N)%type.
(** The client's attempt to open a connection uses up a serial number whatever happens. *)
Definition tried (a : wish) (sn : N) : N := match a with AskJoin _ _ => (sn + 1) mod 2 ^ 16 | _ => sn end.
(** The target does what it is asked; the client is told so. *)
Inductive does (u : heap) (vendor serial : N) : state -> wish -> outcome told -> state -> Prop :=
| does_get t sn k junk x y z v rest : tg_attr t (x, y, z) = Some (le k v ++ rest) -> fits k v -> le k v ++ rest <> [] ->
    does u vendor serial (t, sn) (AskGet k junk x y z) (Ret (Value v)) (t, sn)
| does_get_short t sn k junk x y z d s : tg_attr t (x, y, z) = Some d -> d <> [] -> len d < N.of_nat k ->
    does u vendor serial (t, sn) (AskGet k junk x y z) (Throw LengthError s) (t, sn)
| does_get_empty t sn k junk x y z : tg_attr t (x, y, z) = Some [] ->   (* see C43 *)
    does u vendor serial (t, sn) (AskGet k junk x y z) (Undef NullDeref) (t, sn)
| does_set t sn x y z d data : carries_opt u d data ->
    does u vendor serial (t, sn) (AskSet x y z d) (Ret Done) (put_attr (x, y, z) data t, sn)
| does_join t sn a b : ~ In (sn, vendor, serial) (tg_conns t) ->
    does u vendor serial (t, sn) (AskJoin a b) (Ret (Number (len (tg_conns t)))) (with_conns (tg_conns t ++ [(sn, vendor, serial)]) t, (sn + 1) mod 2 ^ 16)
| does_leave t sn n key : nth_error (tg_conns t) (N.to_nat n) = Some key ->
    does u vendor serial (t, sn) (AskLeave n) (Ret Done) (with_conns (remove triple_dec key (tg_conns t)) t, sn).
(** The call makes a request at all. *)
Definition requests (t : target) (a : wish) : Prop :=
  match a with AskLeave n => nth_error (tg_conns t) (N.to_nat n) <> None | _ => True end.
(** What a whole program is told, with the talk on the control socket that goes with it: the
    client is told of success exactly when the reply has general status 0. *)
Inductive runs (u : heap) (id vendor serial : N) : state -> list (wish * outcome told) -> list event -> state -> Prop :=
| runs_nil s : runs u id vendor serial s [] [] s
| runs_served s a o s1 l es s' bs got sv ad d : does u vendor serial s a o s1 -> answers id got sv 0 ad d -> runs u id vendor serial s1 l es s' ->
    runs u id vendor serial s ((a, o) :: l) (ESend Ctl bs (Some (len bs)) :: ERecv Ctl (Some got) :: es) s'
| runs_refused t sn a m l es s' bs got sv st ad d : requests t a -> st <> 0 -> answers id got sv st ad d -> runs u id vendor serial (t, tried a sn) l es s' ->
    runs u id vendor serial (t, sn) ((a, Throw RuntimeError m) :: l) (ESend Ctl bs (Some (len bs)) :: ERecv Ctl (Some got) :: es) s'
| runs_unsent t sn a m l es s' bs : requests t a -> runs u id vendor serial (t, tried a sn) l es s' ->
    runs u id vendor serial (t, sn) ((a, Throw SystemError m) :: l) (ESend Ctl bs None :: es) s'
| runs_astray t sn n : ~ requests t (AskLeave n) ->   (* see C49 *)
    runs u id vendor serial (t, sn) [(AskLeave n, Undef VecOutOfBounds)] [] (t, sn).
