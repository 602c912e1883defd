(** * Vocab32: words for C128, decoding when memory runs out.  Only definitions. *)
From Verif Require Export Vocab Scarce Life.

Definition from_buffer (r : reader) : bool := match r with RBuf _ _ => true | RStr _ _ _ => false end.
(** Items without data, with data in the memory of someone else (only if [k]), and with a
    block of their own each; these are the blocks [bs], from number [b] on. *)
Inductive own_blocks (k : bool) : nat -> list (list byte) -> list cpf_item -> Prop :=
| ob_none b : own_blocks k b [] []
| ob_plain b bs l ty : own_blocks k b bs l -> own_blocks k b bs (mkItem ty None :: l)
| ob_view b bs l ty v : k = true -> own_blocks k b bs l -> own_blocks k b bs (mkItem ty (Some (ser_of_sbuf (sb_of_view v))) :: l)
| ob_data b x bs l ty : own_blocks k (S b) bs l -> own_blocks k b (x :: bs) (mkItem ty (Some (ser_of_sbuf (mkSB (mkV b 0 (len x)) (Some b)))) :: l).
(** Blocks that were given back. *)
Definition given_back (bs : list (list byte)) : heap := map (fun _ => None) bs.
(** Some allocation was refused. *)
Definition refuses (su : supply) : Prop :=
  (exists m r n, 0 < n /\ su_bytes su m r n = false) \/ (exists m r, su_object su m r = false) \/ (exists m r l, su_place su m r l = false).
(** Nothing is refused. *)
Definition plenty (su : supply) : Prop :=
  (forall m r n, su_bytes su m r n = true) /\ (forall m r, su_object su m r = true) /\ (forall m r l, su_place su m r l = true).
(** What a pointer to data may be after a decode that found no memory: what it was, or a
    buffer object with nothing in it. *)
Definition kept_or_empty (d d' : option ser) : Prop := d' = d \/ d' = Some (ser_of_sbuf sb_empty).
(** At most one block more: it was taken and given back. *)
Definition spare (z : heap) : Prop := z = [] \/ z = [None].
Definition ample : supply := mkSupply (fun _ _ _ => true) (fun _ _ => true) (fun _ _ _ => true).
