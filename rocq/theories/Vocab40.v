(** * Vocab40: words for C137, scanners on an io_service.  Only definitions. *)
From Verif Require Export Vocab11 ScanNet.
Local Open Scope N_scope.

(** Scanner [k] exists; it waits for an answer; it has a port, as it has asked (or tried to ask a broadcast address). *)
Definition exists_scanner (s : service) (k : nat) : Prop := exists c, nth_error (sv_all s) k = Some c /\ sc_alive c = true.
Definition listens (s : service) (k : nat) : Prop := exists c, nth_error (sv_all s) k = Some c /\ sc_armed c = true.
Definition has_asked (s : service) (k : nat) : Prop := exists c, nth_error (sv_all s) k = Some c /\ sc_port c = true.
(** Scanner [k] is to ask [r]: the first address of its name. *)
Definition targets (s : service) (k : nat) (e : snet) (r : endpoint) : Prop :=
  exists c rs, nth_error (sv_all s) k = Some c /\ sc_alive c = true /\ sn_resolve e (sc_host c) "44818" = r :: rs.
(** Nothing is due and run would wait. *)
Definition usable (s : service) : Prop := sv_stopped s = false /\ sv_due s = [].
(** Reports about scanner [k]. *)
Definition reports_of (k : nat) (l : list (nat * outcome scan_result)) : list (outcome scan_result) :=
  map snd (filter (fun x => Nat.eqb (fst x) k) l).
(** [x] is the first thing that reaches scanner [k]. *)
Definition first_for (k : nat) (arr : list (nat * (unit + list byte))) (x : unit + list byte) : Prop :=
  exists a b, arr = a ++ (k, x) :: b /\ forall y, In y a -> fst y <> k.
(** None of what arrives is one of the two crashing forms of C57. *)
Definition no_crash (arr : list (nat * (unit + list byte))) : Prop := forall k bs, In (k, inr bs) arr -> ~ scan_crashes (take 4096 bs).
(** The program has done nothing wrong: the call names a scanner that exists. *)
Definition names_existing (s : service) (c : scall) : Prop :=
  match c with SRequest k _ | SRun k _ _ | SDestroy k => exists_scanner s k | _ => True end.
(** A program that names only scanners that exist, destroys none that listens, and meets no crashing datagram. *)
Fixpoint careful (cs : list scall) (s : service) : Prop :=
  match cs with
  | [] => True
  | c :: cs' => names_existing s c /\ (forall k, c = SDestroy k -> ~ listens s k) /\ (forall k e arr, c = SRun k e arr -> no_crash arr) /\ careful cs' (snd (sdo c s))
  end.
(** A call that does not meet a broadcast address. *)
Definition one_host (c : scall) : Prop := match c with SRequest _ e | SRun _ e _ => forall r, sn_bcast e r = false | _ => True end.
