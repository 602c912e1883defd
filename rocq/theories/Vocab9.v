(** * Vocab9: words for any number of threads, C80 - C83.  Only definitions. *)
From Verif Require Export Procs Vocab8.

(** Decoding reads no memory but the block it decodes from, and changes none. *)
Definition local_dec {T A} (x : D T A) : Prop :=
  forall m m' v c t, nth_error m (v_blk v) = nth_error m' (v_blk v) ->
  exists o v' c' t', x m (RBuf v c) t = (o, m, RBuf v' c', t') /\ x m' (RBuf v c) t = (o, m', RBuf v' c', t').
Definition local_cls {T} (c : cls T) : Prop := forall n, local_dec (deserialize_len c n).
(** The calls of [op_ok] whose decoding classes are as the library's. *)
Definition call_ok (u : heap) (o : op) : Prop :=
  op_ok u o /\ match o with OpGet T c t x y z => c_sb c <> None \/ local_cls c | _ => True end.

(** ** Threads *)
(** A thread that makes the calls [snd job] on object [fst job]. *)
Definition start (job : nat * list op) : thread (list (outcome result)) := mkTh (fst job) (exec_p (snd job)).
(** The calls are proper and the object exists. *)
Definition job_ok (u : heap) (s : pool) (job : nat * list op) : Prop :=
  Forall (call_ok u) (snd job) /\ exists ob, alive s (fst job) ob.
(** How many atomic steps a program takes when nothing interferes. *)
Fixpoint steps {A} (p : prog A) (w : world) : nat :=
  match p with
  | PEnd _ => O
  | PDo x k => let (o, w') := x w in S (steps (k o) w')
  end.
(** How many turns the schedule gives to thread [k]. *)
Definition turns_of (k : nat) (sched : list nat) : nat := List.length (filter (Nat.eqb k) sched).
Definition ended {A} (p : prog A) : Prop := exists o, p = PEnd o.
(** The calls that use the control socket and the session's members only. *)
Definition explicit (o : op) : Prop :=
  match o with OpGet _ _ _ _ _ _ | OpSet _ _ _ _ | OpCreate _ _ | OpCloseConnection _ => True | _ => False end.
Definition io_send (o : op) : Prop := match o with OpSendIO _ => True | _ => False end.
(** Object [i] of the pool is as the world [w] has it: members, sockets, traffic, buffer. *)
Definition object_is (s : pool) (i : nat) (ob : object) (w : world) : Prop :=
  alive s i (mkObj (w_se w) (ob_buf ob) (ob_link ob)) /\ linked s ob (mkLink (w_ctl w) (w_io w) (w_net w)) /\
  nth_error (st_mem s) (ob_buf ob) = nth_error (w_mem w) (ob_buf ob).
(** ... but for the I/O socket and what was sent on it. *)
Definition commands_are (s : pool) (i : nat) (ob : object) (w : world) : Prop :=
  exists l, alive s i (mkObj (w_se w) (ob_buf ob) (ob_link ob)) /\ linked s ob l /\ l_ctl l = w_ctl w /\ ctl_talk (l_net l) = ctl_talk (w_net w) /\
  nth_error (st_mem s) (ob_buf ob) = nth_error (w_mem w) (ob_buf ob).

(** A thread that reads an attribute of object [i]; threads that do other things beside it. *)
Definition reading {T} (i : nat) (c : cls T) (t : T) (x y z : N) : thread (option T) := mkTh i (let% a := get_p c t x y z in pret (Some a)).
Definition beside {T} (job : nat * list op) : thread (option T) := mkTh (fst job) (do% exec_p (snd job) in pret None).

(** ** Calls under a lock *)
(** A thread that holds a lock during each call: the call is one step. *)
Fixpoint locked (ops : list op) : prog (list (outcome result)) :=
  match ops with
  | [] => pret []
  | o :: ops' => PDo (step o) (fun r =>
      match r with
      | Ret _ | Throw _ _ => let% rs := locked ops' in pret (r :: rs)
      | _ => pret [r]
      end)
  end.
(** The calls in the order the schedule makes them, with the threads that make them. *)
Fixpoint merge (sched : list nat) (jobs : list (list op)) : list (nat * op) :=
  match sched with
  | [] => []
  | k :: sched' =>
      match nth_error jobs k with
      | Some (o :: ops) => (k, o) :: merge sched' (list_set jobs k ops)
      | _ => merge sched' jobs
      end
  end.
(** The results that belong to thread [k]. *)
Fixpoint results_of {A B} (k : nat) (order : list (nat * A)) (rs : list B) : list B :=
  match order, rs with
  | (j, _) :: order', r :: rs' => if Nat.eqb k j then r :: results_of k order' rs' else results_of k order' rs'
  | _, _ => []
  end.
(** The calls that belong to it. *)
Definition calls_of {A} (k : nat) (order : list (nat * A)) : list A := map snd (filter (fun x => Nat.eqb k (fst x)) order).
Definition no_ub {A} (o : outcome A) : Prop := match o with Ret _ | Throw _ _ => True | _ => False end.
