(** * Properties C98-C100: limited streams, references to connections, payload lengths.
    Each proof is one [exact]. *)
From Verif Require Import PRefs.
Local Open Scope N_scope.

(** ** C98: A write that the stream does not accept is reported *)
Theorem C98_whole_partial : forall m x bs out room, writes m x bs -> len bs <= room ->
  x m (WLim out room false) = (Ret tt, m, WLim (out ++ bs) (room - len bs) false) /\ w_count (WLim (out ++ bs) (room - len bs) false) = len out + len bs.
Proof. exact lim_whole. Qed.
Print Assumptions C98_whole_partial.
Theorem C98_silent_refuted : forall m x bs y more out room, writes m x bs -> writes m y more -> room < len bs ->
  exists w, x m (WLim out room false) = (Ret tt, m, w) /\ w = WLim (out ++ take room bs) 0 true /\ out ++ take room bs <> out ++ bs /\
    y m w = (Ret tt, m, w) /\ w_count w = 2 ^ 64 - 1.
Proof. exact lim_silent. Qed.
Print Assumptions C98_silent_refuted.
Example C98_example : writes [] (s_serialize (prim_ser 4 0x01020304)) (le 4 0x01020304) /\
  s_serialize (prim_ser 4 0x01020304) [] (WLim [] 3 false) = (Ret tt, [], WLim [x04; x03; x02] 0 true).
Proof. exact lim_example. Qed.

(** ** C99: A reference from getConnection designates its connection while it is open *)
Theorem C99_kept_partial : forall g s n c, nth_error (se_conns (w_se (fst s))) (N.to_nat n) = Some c ->
  exists r, take_ref n s = Ret r /\ deref r s = Ret c /\
  forall ops rs s', v_exec g ops s = (rs, s') -> v_size s + creates ops <= vc_cap (snd s) -> closes_above (N.to_nat n) ops -> deref r s' = Ret c.
Proof. exact take_kept. Qed.
Print Assumptions C99_kept_partial.
Example C99_example : exists c rs s', nth_error (se_conns (w_se (fst (after1 2)))) 0 = Some c /\
  v_exec (fun n => 2 * n) [OpCreate ci0 ci0] (after1 2) = (rs, s') /\ rs = [Ret (RNumber 1)] /\
  v_size (after1 2) + creates [OpCreate ci0 ci0] <= vc_cap (snd (after1 2)) /\ v_size s' = 2 /\ cn_sn c = 7.
Proof. exact kept_example. Qed.
(** Creating a connection when the vector is full leaves every reference dangling. *)
Theorem C99_grow_refuted : forall g a b s n s' r c, v_step g (OpCreate a b) s = (Ret n, s') -> v_size s = vc_cap (snd s) ->
  deref r s = Ret c -> deref r s' = Undef UseAfterFree /\ open_in c s'.
Proof. exact ref_grow. Qed.
Print Assumptions C99_grow_refuted.
Example C99_grow_example : exists r c n s', take_ref 0 (after1 1) = Ret r /\ deref r (after1 1) = Ret c /\ v_size (after1 1) = vc_cap (snd (after1 1)) /\
  v_step (fun n => 2 * n) (OpCreate ci0 ci0) (after1 1) = (Ret n, s').
Proof. exact grow_example. Qed.
(** Closing a connection makes references to later ones designate their successors. *)
Theorem C99_shift_refuted : forall g k s n s' r c, v_step g (OpCloseConnection k) s = (Ret n, s') -> v_size s <= vc_cap (snd s) ->
  deref r s = Ret c -> (N.to_nat k <= rf_index r)%nat ->
  deref r s' = match nth_error (se_conns (w_se (fst s))) (S (rf_index r)) with Some d => Ret d | None => Undef UseAfterFree end /\
  ((N.to_nat k < rf_index r)%nat -> open_in c s').
Proof. exact ref_shift. Qed.
Print Assumptions C99_shift_refuted.
Example C99_shift_example : exists r c n s', take_ref 1 (after2 2) = Ret r /\ deref r (after2 2) = Ret c /\ v_size (after2 2) <= vc_cap (snd (after2 2)) /\
  v_step (fun n => 2 * n) (OpCloseConnection 0) (after2 2) = (Ret n, s') /\ (N.to_nat 0 < rf_index r)%nat /\ deref r s' = Undef UseAfterFree.
Proof. exact shift_example. Qed.

(** ** C100: The length in a packet's header is that of the payload that is sent *)
Theorem C100_framed_partial : forall m cmd handle es e q bs cs p bs', p_edits (es ++ [e]) (ep_make0 cmd handle) = Ret q -> computes_length e ->
  carries_opt m (ep_payload q) bs -> Forall is_change cs -> p_edits cs q = Ret p -> carries_opt m (ep_payload p) bs' -> len bs' = len bs ->
  carries m (ep_ser p) (frame cmd handle 0 0 0 0 bs').
Proof. exact framed. Qed.
Print Assumptions C100_framed_partial.
Example C100_example : exists q p, p_edits ([PSet None; PChange (prim_ser 2 5)] ++ [PSet (Some (prim_ser 2 513))]) (ep_make0 0x6F 9) = Ret q /\
  carries_opt [] (ep_payload q) (le 2 513) /\ p_edits [PChange (prim_ser 2 7)] q = Ret p /\ carries_opt [] (ep_payload p) (le 2 7) /\
  runs_to (ep_ser p) (request 0x6F 9 (le 2 7)).
Proof. exact framed_example. Qed.
(** After a change of the payload's size the old length is sent: the receiver takes the
    beginning of the payload, or finds the packet incomplete. *)
Theorem C100_stale_refuted : forall m cmd handle es e q bs cs p bs', fits 2 cmd -> fits 4 handle ->
  p_edits (es ++ [e]) (ep_make0 cmd handle) = Ret q -> computes_length e -> carries_opt m (ep_payload q) bs -> len bs < 65536 ->
  Forall is_change cs -> p_edits cs q = Ret p -> carries_opt m (ep_payload p) bs' -> len bs' <> len bs ->
  exists wire, carries m (ep_ser p) wire /\ ~ frames_payload wire bs' /\
  forall mm v c p0, reads mm v wire ->
    (len bs < len bs' -> exists r pk, ep_deserialize mm (RBuf v c) p0 = (Ret tt, mm, r, pk) /\ holds mm (ep_payload pk) (take (len bs) bs')) /\
    (len bs' < len bs -> exists s r pk, ep_deserialize mm (RBuf v c) p0 = (Throw LengthError s, mm, r, pk)).
Proof. exact stale. Qed.
Print Assumptions C100_stale_refuted.
Example C100_stale_example : exists q p, p_edits ([] ++ [PSet (Some (prim_ser 2 513))]) (ep_make0 0x6F 9) = Ret q /\
  carries_opt [] (ep_payload q) (le 2 513) /\ p_edits [PChange (prim_ser 4 7)] q = Ret p /\ carries_opt [] (ep_payload p) (le 4 7) /\
  runs_to (ep_ser p) (header 0x6F 2 9 0 0 0 0 ++ le 4 7).
Proof. exact stale_example. Qed.
