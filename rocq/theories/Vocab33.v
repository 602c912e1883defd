(** * Vocab33: words for C129, copies of packets.  Only definitions. *)
From Verif Require Export Vocab Copies.
Local Open Scope N_scope.

(** The memory [m0] is the caller's, who keeps it: what is decoded is a stream, or a buffer
    there. *)
Definition keeps_view (m0 : heap) (v : view) : Prop := exists bs, load_view m0 v = Ret bs.
Definition keeps_input (m0 : heap) (r : reader) : Prop := match r with RBuf v _ => keeps_view m0 v | RStr _ _ _ => True end.
Definition fair (m0 : heap) (a : deal) : Prop :=
  match a with KRaw v => keeps_view m0 v | KDecode _ r | KDecodeLen _ _ r => keeps_input m0 r | _ => True end.
(** A program begins with no variables. *)
Definition begun (m0 : heap) : desk := mkDesk m0 [] [].
(** It came to its end or raised. *)
Definition done (o : outcome unit) : Prop := match o with Ret _ | Throw _ _ => True | Undef _ | Stuck => False end.
Inductive reaches (m0 : heap) : list deal -> desk -> Prop :=
| reaches_none : reaches m0 [] (begun m0)
| reaches_more l s a o s' : reaches m0 l s -> fair m0 a -> perform a s = (o, s') -> done o -> reaches m0 (l ++ [a]) s'.

(** The object behind a pointer, and the bytes it has. *)
Definition object (s : desk) (p : sptr) : option sbuf :=
  match p with Some q => match nth_error (dk_cells s) q with Some (_, sb) => Some sb | None => None end | None => None end.
Definition data_of (s : desk) (p : sptr) : option (outcome (list byte)) :=
  match object s p with Some sb => Some (load_view (dk_mem s) (sb_data sb)) | None => None end.
(** The data a variable shows. *)
Definition shows (s : desk) (t : thing) : list (option (outcome (list byte))) := map (data_of s) (pointers t).
(** The variable that is changed. *)
Definition target (a : deal) : option nat :=
  match a with
  | KAssign i _ | KEnd i | KDecode i _ | KDecodeLen i _ _ | KSet i _ | KPush i _ _ => Some i
  | KNew _ _ | KItems | KReply | KNull | KRaw _ | KCopy _ | KGet _ | KGetStatus _ | KGetData _ | KGetItem _ _ => None
  end.
(** It compiles, with variables and an item that are there. *)
Definition makes_sense (a : deal) (s : desk) : Prop :=
  match a with
  | KNew _ _ | KItems | KReply | KNull | KRaw _ => True
  | KCopy i | KEnd i => exists t, var_of s i = Some t
  | KAssign i j => exists t u, var_of s i = Some t /\ var_of s j = Some u /\ same_class t u = true
  | KDecode i _ | KDecodeLen i _ _ => (exists p, var_of s i = Some (TPacket p)) \/ (exists l, var_of s i = Some (TItems l)) \/ (exists p, var_of s i = Some (TReply p))
  | KGet i => exists p, var_of s i = Some (TPacket p)
  | KGetStatus i | KGetData i => exists p, var_of s i = Some (TReply p)
  | KGetItem i k => exists l x, var_of s i = Some (TItems l) /\ nth_error l k = Some x
  | KSet i j => exists p q, var_of s i = Some (TPacket p) /\ var_of s j = Some (TPtr q)
  | KPush i _ j => exists l q, var_of s i = Some (TItems l) /\ var_of s j = Some (TPtr q)
  end.
(** Nothing wrong with memory: the only undefined step is that a count or length a stream
    does not have is used. *)
Definition harmless (a : deal) (o : outcome unit) : Prop :=
  match o with
  | Ret _ | Throw _ _ => True
  | Stuck => False
  | Undef u => u = Indeterminate /\ match a with KDecode _ (RStr _ _ _) | KDecodeLen _ _ (RStr _ _ _) => True | _ => False end
  end.
(** A variable as the values of Packets.v. *)
Definition packet_of (s : desk) (p : pkt) : encap_packet := mkEP (fst p) (option_map ser_of_sbuf (object s (snd p))).
Definition items_of (s : desk) (l : list itm) : cpf_packet := map (fun i => mkItem (fst i) (option_map ser_of_sbuf (object s (snd i)))) l.
Definition reply_of (s : desk) (p : rpl) : mr_response :=
  mkMRR (fst (fst p)) (snd (fst p)) (option_map ser_of_sbuf (object s (fst (snd p)))) (option_map ser_of_sbuf (object s (snd (snd p)))).
(** [m] is [m2] after some blocks were given back. *)
Definition given_from (m m2 : heap) : Prop := forall b, nth_error m b = nth_error m2 b \/ nth_error m b = Some None.
(** A program run to its end. *)
Fixpoint run_deals (l : list deal) (s : desk) : option desk :=
  match l with
  | [] => Some s
  | a :: l' => match perform a s with (Ret _, s') | (Throw _ _, s') => run_deals l' s' | _ => None end
  end.
(** How many pointers to an object the variables have. *)
Definition all_pointers (s : desk) : list sptr := List.concat (map (fun x => match x with Some t => pointers t | None => [] end) (dk_vars s)).
Definition same_pointer (p p' : sptr) : bool := match p, p' with Some q, Some q' => Nat.eqb q q' | None, None => true | _, _ => false end.
Definition holders (s : desk) (q : nat) : N := len (filter (same_pointer (Some q)) (all_pointers s)).
