(** * Vocab24: who holds a socket, C118.
    Only definitions. *)
From Verif Require Export Vocab23 Owners.
Local Open Scope N_scope.

(** A session: its two pointers and its state. *)
Record holder := mkHold { hl_ctl : ptr; hl_io : ptr; hl_world : world }.
(** A program: the sockets, its shared_ptr variables and its sessions; what has ended is
    [None]. *)
Record scene := mkScene { sc_cells : cells; sc_vars : list (option ptr); sc_objs : list (option holder) }.
Definition nobody : scene := mkScene (mkCells (mkHost [] [] []) [] []) [] [].
Definition var (s : scene) (v : nat) (p : ptr) : Prop := nth_error (sc_vars s) v = Some (Some p).
Definition obj (s : scene) (i : nat) (x : holder) : Prop := nth_error (sc_objs s) i = Some (Some x).

(** The events of a session happen on the sockets it points to. *)
Definition on_its (x : holder) (h : host) (es : list event) (h' : host) : Prop :=
  (es = [] /\ h' = h) \/
  exists t u, hl_ctl x = Some (STcp t) /\ hl_io x = Some (SUdp u) /\ plays (mkPost t u [] (hl_world x)) h es h'.
Definition with_host (h : host) (c : cells) : cells := mkCells h (ce_tcp c) (ce_udp c).

(** What a program does. The state of a copy is the copied one, its future its own. *)
Inductive deed :=
| DTcp | DUdp (addr port : N) | DNull | DCopy (v : nat) | DDrop (v : nat)
| DSession (v1 v2 : nat) | DCopySession (i : nat) | DAssign (i j : nat) | DEnd (i : nat) | DCall (i : nat) (o : op).
Inductive does_to (s : scene) : deed -> list event -> scene -> Prop :=
| do_tcp p c : make_tcp (sc_cells s) = (p, c) -> does_to s DTcp [] (mkScene c (sc_vars s ++ [Some p]) (sc_objs s))
| do_udp a n p c : make_udp a n (sc_cells s) = (p, c) -> does_to s (DUdp a n) [] (mkScene c (sc_vars s ++ [Some p]) (sc_objs s))
| do_null : does_to s DNull [] (mkScene (sc_cells s) (sc_vars s ++ [Some None]) (sc_objs s))
| do_copy v p c : var s v p -> retain p (sc_cells s) = Ret c -> does_to s (DCopy v) [] (mkScene c (sc_vars s ++ [Some p]) (sc_objs s))
| do_drop v p c : var s v p -> release p (sc_cells s) = Ret c -> does_to s (DDrop v) [] (mkScene c (list_set (sc_vars s) v None) (sc_objs s))
| do_session v1 v2 p q c w : var s v1 p -> var s v2 q -> construct_ptrs p q (sc_cells s) = Ret c -> session_ok w -> se_id (w_se w) = 0 ->
    does_to s (DSession v1 v2) [] (mkScene c (sc_vars s) (sc_objs s ++ [Some (mkHold p q w)]))
| do_copy_session i x c w : obj s i x -> copy_ptrs (hl_ctl x) (hl_io x) (sc_cells s) = Ret c -> session_ok w -> w_se w = w_se (hl_world x) ->
    does_to s (DCopySession i) [] (mkScene c (sc_vars s) (sc_objs s ++ [Some (mkHold (hl_ctl x) (hl_io x) w)]))
| do_assign i j x y c w : obj s i x -> obj s j y -> assign_ptrs (hl_ctl x) (hl_io x) (hl_ctl y) (hl_io y) (sc_cells s) = Ret c ->
    session_ok w -> w_se w = w_se (hl_world y) ->
    does_to s (DAssign i j) [] (mkScene c (sc_vars s) (list_set (sc_objs s) i (Some (mkHold (hl_ctl y) (hl_io y) w))))
| do_end i x w es h c : obj s i x -> session_destroy (hl_world x) = (Ret tt, w) -> gained (hl_world x) w es -> on_its x (ce_host (sc_cells s)) es h ->
    end_ptrs (hl_ctl x) (hl_io x) (with_host h (sc_cells s)) = Ret c -> does_to s (DEnd i) es (mkScene c (sc_vars s) (list_set (sc_objs s) i None))
| do_step i x o r w es h : obj s i x -> op_ok [] o -> step o (hl_world x) = (r, w) -> gained (hl_world x) w es -> on_its x (ce_host (sc_cells s)) es h ->
    does_to s (DCall i o) es (mkScene (with_host h (sc_cells s)) (sc_vars s) (list_set (sc_objs s) i (Some (mkHold (hl_ctl x) (hl_io x) w)))).
Inductive history : scene -> list (deed * list event) -> scene -> Prop :=
| history_nil s : history s [] s
| history_deed s d es s1 l s' : does_to s d es s1 -> history s1 l s' -> history s ((d, es) :: l) s'.

(** How many pointers there are to a socket. *)
Definition same_what (a b : what) : bool :=
  match a, b with STcp i, STcp j | SUdp i, SUdp j => Nat.eqb i j | _, _ => false end.
Definition points (t : what) (p : ptr) : N := match p with Some x => if same_what x t then 1 else 0 | None => 0 end.
Fixpoint total {A} (f : A -> N) (l : list A) : N := match l with [] => 0 | x :: l' => f x + total f l' end.
Definition held_by (t : what) (s : scene) : N :=
  total (fun v => match v with Some p => points t p | None => 0 end) (sc_vars s) +
  total (fun o => match o with Some x => points t (hl_ctl x) + points t (hl_io x) | None => 0 end) (sc_objs s).
(** The socket was made. *)
Definition made (t : what) (s : scene) : Prop :=
  match t with
  | STcp i => (i < List.length (ho_tcp (ce_host (sc_cells s))))%nat
  | SUdp i => (i < List.length (ho_udp (ce_host (sc_cells s))))%nat
  end.
(** Its descriptor is closed. *)
Definition is_shut (t : what) (h : host) : Prop :=
  match t with
  | STcp i => tcp_at h i TClosed
  | SUdp i => exists u, udp_at h i u /\ us_fd u = FClosed
  end.
(** Its state is unchanged. *)
Definition same_socket (t : what) (h h' : host) : Prop :=
  match t with STcp i => nth_error (ho_tcp h') i = nth_error (ho_tcp h) i | SUdp i => nth_error (ho_udp h') i = nth_error (ho_udp h) i end.
