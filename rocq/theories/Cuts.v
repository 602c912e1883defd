(** * Calls that are abandoned half-way

    An exception that no handler of src/session.cpp catches can leave a call between any two
    of its steps: std::bad_alloc from one of its allocations (the payloads made with
    make_shared, the vector of Socket::send, socket/socket.h:90, connections_.push_back,
    src/session.cpp:317), or the interruption of a boost thread; the handlers at
    src/session.cpp:97-132, :254-279 catch std::length_error and std::logic_error only.
    Steps are those of Procs.v; an exception inside a step is before or after its effect. *)
From Verif Require Export Procs.

(** The call is abandoned when it has made [k] steps and is not finished ([None]). *)
Fixpoint cut {A} (k : nat) (p : prog A) (w : world) : option (outcome A) * world :=
  match p, k with
  | PEnd o, _ => (Some o, w)
  | PDo _ _, O => (None, w)
  | PDo x f, S k' => let (o, w') := x w in cut k' (f o) w'
  end.
(** A caller that goes on with the next call, whether a call returned, raised or was
    abandoned ([exec] of Session.v). *)
Fixpoint exec_cut (l : list (nat * op)) (w : world) : list (option (outcome result)) * world :=
  match l with
  | [] => ([], w)
  | (k, o) :: l' =>
      match cut k (op_p o) w with
      | (Some (Undef u), w') => ([Some (Undef u)], w')
      | (Some Stuck, w') => ([Some Stuck], w')
      | (r, w') => let (rs, w'') := exec_cut l' w' in (r :: rs, w'')
      end
  end.
