(** * Refs: what the library and its caller share: references to connections, and
    payloads of packets. *)
From Verif Require Export Session.
Local Open Scope N_scope.

(** ** connections_, a std::vector (session.h:219) *)
(** The block its elements are in and how many fit; the elements are [se_conns]. *)
Record vec := mkVec { vc_block : nat; vc_cap : N }.
(** After a call that left [n] elements.  push_back (src/session.cpp:316) into a full vector
    moves all elements to a new block of [grow] elements (an implementation may choose any
    number that is enough) and frees the old block; erase (:332) keeps the block and moves
    the later elements down by one. *)
Definition vec_after (grow : N -> N) (n : N) (v : vec) : vec :=
  if vc_cap v <? n then mkVec (S (vc_block v)) (N.max n (grow n)) else v.
(** A session and where its connections are. *)
Definition vstate := (world * vec)%type.
Definition v_size (s : vstate) : N := len (se_conns (w_se (fst s))).
Definition v_step (grow : N -> N) (o : op) (s : vstate) : outcome result * vstate :=
  let (r, w') := step o (fst s) in (r, (w', vec_after grow (len (se_conns (w_se w'))) (snd s))).
(** A history; the caller catches every exception ([exec] of Session.v). *)
Fixpoint v_exec (grow : N -> N) (ops : list op) (s : vstate) : list (outcome result) * vstate :=
  match ops with
  | [] => ([], s)
  | o :: ops' =>
      let (r, s') := v_step grow o s in
      match r with
      | Ret _ | Throw _ _ => let (rs, s'') := v_exec grow ops' s' in (r :: rs, s'')
      | _ => ([r], s')
      end
  end.
(** const Connection& getConnection(size_t n), session.h:187-190: a reference is an
    address. *)
Record ref := mkRef { rf_block : nat; rf_index : nat }.
Definition take_ref (n : N) (s : vstate) : outcome ref :=
  if n <? v_size s then Ret (mkRef (vc_block (snd s)) (N.to_nat n)) else Undef VecOutOfBounds.
(** Using it. *)
Definition deref (r : ref) (s : vstate) : outcome connection :=
  if Nat.eqb (rf_block r) (vc_block (snd s))
  then match nth_error (se_conns (w_se (fst s))) (rf_index r) with
       | Some c => Ret c
       | None => Undef UseAfterFree
       end
  else Undef UseAfterFree.

(** ** EncapPacket and its payload (encap_packet.h:66-71, :87-100, :122-129) *)
(** The packet holds a shared_ptr, so whoever has the payload can change it later. *)
Inductive pedit :=
| PSet (d : option ser)     (* setPayload *)
| PChange (d : ser)         (* the payload object changes: it now is [d] *)
| PUpdate.                  (* updateLength *)
Definition p_edit (e : pedit) (p : encap_packet) : outcome encap_packet :=
  match e with
  | PSet d => ep_setPayload d p
  | PChange d => Ret (match ep_payload p with Some _ => ep_set_payload_field (Some d) p | None => p end)
  | PUpdate => ep_updateLength p
  end.
Fixpoint p_edits (es : list pedit) (p : encap_packet) : outcome encap_packet :=
  match es with [] => Ret p | e :: es' => obind (p_edit e p) (p_edits es') end.
