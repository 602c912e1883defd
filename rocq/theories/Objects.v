(** * Objects: several Session objects.

    Session declares no copy constructor and no assignment (session.h:61-247), so the
    implicit memberwise ones apply: the sockets are shared (shared_ptr members,
    session.h:209-210), everything else is copied.  An object is its fields, the block
    that is its recv_buffer_ (session.h:212) and the pair of sockets it points to. *)
From Verif Require Export Session.

(** A control socket and an I/O socket, with the calls made on them. *)
Record link := mkLink { l_ctl : sock; l_io : sock; l_net : list event }.
(** session.h:209-219; [ob_link] stands for socket_ and io_socket_. *)
Record object := mkObj { ob_se : session; ob_buf : nat; ob_link : nat }.
(** Destroyed objects are [None]. *)
Record pool := mkPool { st_mem : heap; st_links : list link; st_objs : list (option object) }.

Definition world_of (s : pool) (ob : object) (l : link) : world :=
  mkW (st_mem s) (l_ctl l) (l_io l) (l_net l) (ob_se ob) (ob_buf ob).
Definition back (s : pool) (i : nat) (ob : object) (w : world) : pool :=
  mkPool (w_mem w) (list_set (st_links s) (ob_link ob) (mkLink (w_ctl w) (w_io w) (w_net w)))
          (list_set (st_objs s) i (Some (mkObj (w_se w) (w_rbuf w) (ob_link ob)))).

(** A member function called on object [i]. *)
Definition on {A} (i : nat) (x : M A) (s : pool) : outcome A * pool :=
  match nth_error (st_objs s) i with
  | Some (Some ob) =>
      match nth_error (st_links s) (ob_link ob) with
      | Some l => let (o, w) := x (world_of s ob l) in (o, back s i ob w)
      | None => (Undef WildAccess, s)
      end
  | Some None => (Undef UseAfterFree, s)
  | None => (Undef WildAccess, s)
  end.

(** Session::Session, src/session.cpp:51-63: [gen] is the generator (mt19937 seeded with
    std::time(0), its first number and one of the uniform distribution): the start values
    are a function of the time in seconds. *)
Definition new_session (gen : N -> N * N) (time vendor serial : N) (link : nat) (s : pool) : nat * pool :=
  let (cid0, sn0) := gen time in
  let w := session_make (st_mem s) (mkSock [] [] [] []) (mkSock [] [] [] []) vendor serial sn0 cid0 in
  (List.length (st_objs s), mkPool (w_mem w) (st_links s) (st_objs s ++ [Some (mkObj (w_se w) (w_rbuf w) link)])).

(** The implicit copy constructor (session.h:61-247). *)
Definition copy_session (i : nat) (s : pool) : outcome nat * pool :=
  match nth_error (st_objs s) i with
  | Some (Some ob) =>
      match load (st_mem s) (ob_buf ob) 0 4096 with
      | Ret bs => let (b, m) := alloc (st_mem s) bs in
                  (Ret (List.length (st_objs s)), mkPool m (st_links s) (st_objs s ++ [Some (mkObj (ob_se ob) b (ob_link ob))]))
      | Throw c e => (Throw c e, s)
      | Undef u => (Undef u, s)
      | Stuck => (Stuck, s)
      end
  | Some None => (Undef UseAfterFree, s)
  | None => (Undef WildAccess, s)
  end.

(** ~Session (src/session.cpp:65-78), then the end of the object and its array. *)
Definition destroy_session (i : nat) (s : pool) : outcome unit * pool :=
  match on i session_destroy s with
  | (Ret _, s') =>
      match nth_error (st_objs s') i with
      | Some (Some ob) =>
          match free (st_mem s') (ob_buf ob) with
          | Ret m => (Ret tt, mkPool m (st_links s') (list_set (st_objs s') i None))
          | Throw c e => (Throw c e, s')
          | Undef u => (Undef u, s')
          | Stuck => (Stuck, s')
          end
      | _ => (Undef UseAfterFree, s')
      end
  | r => r
  end.

(** The implicit assignment [i = j] (session.h:61-247; used by test/session_test.cpp:58):
    member by member, so the array recv_buffer_ is copied in place and the sockets of [i]
    are let go; ~Session does not run for what [i] was. *)
Definition assign_session (i j : nat) (s : pool) : outcome unit * pool :=
  match nth_error (st_objs s) i, nth_error (st_objs s) j with
  | Some (Some a), Some (Some b) =>
      match obind (load (st_mem s) (ob_buf b) 0 4096) (fun bs => store (st_mem s) (ob_buf a) 0 bs) with
      | Ret m => (Ret tt, mkPool m (st_links s) (list_set (st_objs s) i (Some (mkObj (ob_se b) (ob_buf a) (ob_link b)))))
      | Throw c e => (Throw c e, s)
      | Undef u => (Undef u, s)
      | Stuck => (Stuck, s)
      end
  | Some None, _ | _, Some None => (Undef UseAfterFree, s)
  | _, _ => (Undef WildAccess, s)
  end.

(** What a program does with session objects; it catches every exception. *)
Inductive act :=
| ANew (gen : N -> N * N) (time vendor serial : N) (link : nat)
| ACopy (i : nat)
| AAssign (i j : nat)
| ADestroy (i : nat)
| ACall (i : nat) (o : op).

Definition act_step (a : act) (s : pool) : outcome unit * pool :=
  match a with
  | ANew gen time vendor serial link => (Ret tt, snd (new_session gen time vendor serial link s))
  | ACopy i =>
      match copy_session i s with
      | (Ret _, s') => (Ret tt, s') | (Throw c e, s') => (Throw c e, s') | (Undef u, s') => (Undef u, s') | (Stuck, s') => (Stuck, s')
      end
  | AAssign i j => assign_session i j s
  | ADestroy i => destroy_session i s
  | ACall i o =>
      match on i (step o) s with
      | (Ret _, s') => (Ret tt, s') | (Throw c e, s') => (Throw c e, s') | (Undef u, s') => (Undef u, s') | (Stuck, s') => (Stuck, s')
      end
  end.

(** A history; it ends at undefined behaviour or blocking. *)
Fixpoint run_acts (acts : list act) (s : pool) : list (outcome unit) * pool :=
  match acts with
  | [] => ([], s)
  | a :: acts' =>
      match act_step a s with
      | (Ret r, s') => let (rs, s'') := run_acts acts' s' in (Ret r :: rs, s'')
      | (Throw c e, s') => let (rs, s'') := run_acts acts' s' in (Throw c e :: rs, s'')
      | (x, s') => ([x], s')
      end
  end.
