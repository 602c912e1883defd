(** * ScanNet: IOScanner objects on a boost io_service

    Scanner.v is about one datagram.  Here are the objects themselves: any number of scanners that
    share an io_service, made, used and destroyed in any order.  The io_service is as its
    documentation says: run() calls completed handlers until no operation is pending, then the
    service is stopped, and run() of a stopped service returns at once until reset() is called;
    closing a socket completes its pending operation with an error.  One thread. *)
From Verif Require Export Scanner Net.
Local Open Scope N_scope.

(** What the world is at the moment of a call: names, and which addresses are broadcast addresses. *)
Record snet := mkSnet { sn_resolve : string -> string -> list endpoint; sn_bcast : endpoint -> bool }.

(** IOScanner, io_scanner.h:44-74: hostname_; whether the object exists; whether a receive is pending
    on socket_; whether socket_ has a port (a UDP socket gets one with the first send_to, also if that is refused). *)
Record scanner := mkScan { sc_host : string; sc_alive : bool; sc_armed : bool; sc_port : bool }.
(** The io_service and what happened: handlers that are due though their object is gone; stopped;
    datagrams sent; what handlers reported. *)
Record service := mkSvc { sv_all : list scanner; sv_due : list nat; sv_stopped : bool;
  sv_sent : list (nat * endpoint * list byte); sv_reports : list (nat * outcome scan_result) }.
Definition sv_new : service := mkSvc [] [] false [] [].
Definition sv_stop (b : bool) (s : service) : service := mkSvc (sv_all s) (sv_due s) b (sv_sent s) (sv_reports s).

(** Constructor, src/io_scanner.cpp:49-59: open (raises when there is no descriptor), one receive. *)
Definition sc_new (name : string) (room : bool) (s : service) : outcome unit * service :=
  if room then (Ret tt, mkSvc (sv_all s ++ [mkScan name true true false]) (sv_due s) (sv_stopped s) (sv_sent s) (sv_reports s))
  else (Throw SystemError "Too many open files", s).

(** sendListIdentityRequest, :61-74.  socket_ has no option broadcast, so send_to a broadcast
    address is refused (EACCES); Linux has given the socket a port by then. *)
Definition sc_request (k : nat) (e : snet) (s : service) : outcome unit * service :=
  match nth_error (sv_all s) k with
  | Some (mkScan name true armed port) =>
      match sn_resolve e name "44818" with
      | [] => (Throw SystemError "Host not found", s)
      | r :: _ =>
          match scan_request [] with
          | Ret bs =>
              if sn_bcast e r then (Throw SystemError "Permission denied", mkSvc (list_set (sv_all s) k (mkScan name true armed true)) (sv_due s) (sv_stopped s) (sv_sent s) (sv_reports s))
              else (Ret tt, mkSvc (list_set (sv_all s) k (mkScan name true armed true)) (sv_due s) (sv_stopped s) (sv_sent s ++ [(k, r, bs)]) (sv_reports s))
          | Throw c x => (Throw c x, s) | Undef u => (Undef u, s) | Stuck => (Stuck, s)
          end
      end
  | _ => (Undef UseAfterFree, s)
  end.

(** handleListIdentityResponse, :76-158, for a datagram or a receive error; recv_buf_ is that of the
    scanner and is used once, as the handler starts no other receive. *)
Definition sc_answer (x : unit + list byte) : outcome scan_result := match scan_run [] [x] with o :: _ => o | [] => Stuck end.
Definition sc_report (k : nat) (c : scanner) (o : outcome scan_result) (s : service) : service :=
  mkSvc (list_set (sv_all s) k (mkScan (sc_host c) (sc_alive c) false (sc_port c))) (sv_due s) (sv_stopped s) (sv_sent s) (sv_reports s ++ [(k, o)]).
(** io_service::run (:164): [arr] is what arrives from now on, for each datagram the scanner whose
    socket it reaches.  What reaches a socket without port or without pending receive is not read. *)
Fixpoint sv_wait (arr : list (nat * (unit + list byte))) (s : service) : outcome unit * service :=
  if existsb sc_armed (sv_all s) then
    match arr with
    | [] => (Stuck, s)
    | (k, x) :: arr' =>
        match nth_error (sv_all s) k with
        | Some c =>
            if sc_armed c && sc_port c then
              match sc_answer x with
              | Ret r => sv_wait arr' (sc_report k c (Ret r) s)
              | Throw e t => (Throw e t, sc_report k c (Throw e t) s)
              | Undef u => (Undef u, sc_report k c (Undef u) s)
              | Stuck => (Stuck, sc_report k c Stuck s)
              end
            else sv_wait arr' s
        | None => sv_wait arr' s
        end
    end
  else (Ret tt, sv_stop true s).
(** A handler that is due is called first; [this] is an object that is gone. *)
Definition sv_run (arr : list (nat * (unit + list byte))) (s : service) : outcome unit * service :=
  if sv_stopped s then (Ret tt, s)
  else match sv_due s with _ :: _ => (Undef UseAfterFree, s) | [] => sv_wait arr s end.
(** run, :160-165. *)
Definition sc_run (k : nat) (e : snet) (arr : list (nat * (unit + list byte))) (s : service) : outcome unit * service :=
  match sc_request k e s with
  | (Ret _, s1) => sv_run arr s1
  | z => z
  end.

(** Destructor, io_scanner.h:49-52: close completes the pending receive. *)
Definition sc_destroy (k : nat) (s : service) : outcome unit * service :=
  match nth_error (sv_all s) k with
  | Some (mkScan name true armed port) =>
      (Ret tt, mkSvc (list_set (sv_all s) k (mkScan name false false false)) (if armed then sv_due s ++ [k] else sv_due s) (sv_stopped s) (sv_sent s) (sv_reports s))
  | _ => (Undef DoubleFree, s)
  end.

(** What a program does; [SReset] is io_service::reset(), called by the program. *)
Inductive scall := SNew (name : string) (room : bool) | SRequest (k : nat) (e : snet) | SRun (k : nat) (e : snet) (arr : list (nat * (unit + list byte)))
| SDestroy (k : nat) | SReset.
Definition sdo (c : scall) (s : service) : outcome unit * service :=
  match c with
  | SNew name room => sc_new name room s
  | SRequest k e => sc_request k e s
  | SRun k e arr => sc_run k e arr s
  | SDestroy k => sc_destroy k s
  | SReset => (Ret tt, sv_stop false s)
  end.
Fixpoint sdo_all (cs : list scall) (s : service) : list (outcome unit) * service :=
  match cs with
  | [] => ([], s)
  | c :: cs' =>
      let (o, s1) := sdo c s in
      match o with
      | Undef _ | Stuck => ([o], s1)
      | _ => let (os, s2) := sdo_all cs' s1 in (o :: os, s2)
      end
  end.
