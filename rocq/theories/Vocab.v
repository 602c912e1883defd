(** * Vocab: the words the theorems are stated with.

    What it means for memory to hold bytes, for an object to serialize as bytes,
    and for a decoded object to carry bytes.  Only definitions. *)
From Verif Require Export Spec Packets.

(** The bytes a memory view shows. *)
Definition reads (m : heap) (v : view) (bs : list byte) : Prop := load_view m v = Ret bs.

(** A larger memory: every live block of [m] is live and unchanged in [m']. *)
Definition hext (m m' : heap) : Prop :=
  forall b bl, nth_error m b = Some (Some bl) -> nth_error m' b = Some (Some bl).

(** A sequence of writes, one piece after the other. *)
Definition concats (ps : list (list byte)) : list byte := List.concat ps.
Fixpoint wpieces (ps : list (list byte)) : W :=
  match ps with
  | [] => wret
  | p :: ps' => w_bytes p ;; wpieces ps'
  end.

(** The writer's block is not part of the memory [m]. *)
Definition fresh (m : heap) (w : writer) : Prop :=
  match w with
  | WBuf v _ => forall bl, nth_error m (v_blk v) <> Some (Some bl)
  | WStr _ | WLim _ _ _ => True
  end.

(** [x] writes exactly the pieces [ps], whatever the writer, as long as the memory
    [m] the message refers to is there and the writer's block is not in it. *)
Definition wr (m : heap) (x : W) (ps : list (list byte)) : Prop :=
  forall m' w, hext m m' -> fresh m w -> x m' w = wpieces ps m' w.

(** [writes m s bs]: serialize produces [bs].  [carries m s bs]: moreover getLength
    is their number. *)
Definition writes (m : heap) (x : W) (bs : list byte) : Prop := exists ps, concats ps = bs /\ wr m x ps.
Definition carries (m : heap) (s : ser) (bs : list byte) : Prop :=
  s_length s = Ret (len bs) /\ writes m (s_serialize s) bs.
Definition carries_opt (m : heap) (p : option ser) (bs : list byte) : Prop :=
  match p with None => bs = [] | Some s => carries m s bs end.

(** A payload decoded from the wire: absent when empty, else a raw buffer over the bytes. *)
Definition holds (m : heap) (p : option ser) (bs : list byte) : Prop :=
  match p with
  | None => bs = []
  | Some s => bs <> [] /\ exists sb, s = ser_of_sbuf sb /\ reads m (sb_data sb) bs
  end.
(** The data was there, but its memory has been freed: reading it is a use after free. *)
Definition freed_data (m : heap) (p : option ser) (bs : list byte) : Prop :=
  match p with
  | None => bs = []
  | Some s => bs <> [] /\ exists sb, s = ser_of_sbuf sb /\ v_len (sb_data sb) = len bs /\
                load_view m (sb_data sb) = Undef UseAfterFree
  end.
(** The same, as a sub-view of a given buffer: no copy was made. *)
Definition window (v : view) (off n : N) : option ser :=
  if n =? 0 then None else Some (ser_of_sbuf (sb_of_view (view_take (view_drop v off) n))).

(** A decoded item carries a type and data. *)
Definition item_is (m : heap) (i : cpf_item) (x : N * list byte) : Prop :=
  it_type i = fst x /\ holds m (it_data i) (snd x).
(** The same for an item about to be serialized. *)
Definition item_carries (m : heap) (i : cpf_item) (x : N * list byte) : Prop :=
  it_type i = fst x /\ carries_opt m (it_data i) (snd x).
(** The value part of a decoded RR reply. *)
Definition rr_reply_is (m : heap) (t : rr_data mr_response) (i to sv st : N) (a q : list byte) : Prop :=
  rr_iface t = i /\ rr_timeout t = to /\ ms_service (rr_ext t) = sv /\ ms_status (rr_ext t) = st /\
  holds m (ms_additional (rr_ext t)) a /\ holds m (ms_data (rr_ext t)) q.
(** A decoded reply whose numbers are right and whose data dangles. *)
Definition rr_reply_dangles (m : heap) (t : rr_data mr_response) (i to sv st : N) (a q : list byte) : Prop :=
  rr_iface t = i /\ rr_timeout t = to /\ ms_service (rr_ext t) = sv /\ ms_status (rr_ext t) = st /\
  freed_data m (ms_additional (rr_ext t)) a /\ freed_data m (ms_data (rr_ext t)) q.
(** The path object made of these segments, and how a segment is added. *)
Definition path_of (pad : bool) (ss : list segment) : path := mkPath pad (flat_map segment_bytes ss).
Definition add_segment (s : segment) (p : path) : path :=
  match s with
  | SClass n => path_addLogicalClass n p
  | SInstance n => path_addLogicalInstance n p
  | SAttribute n => path_addLogicalAttribute n p
  | SPoint n => path_addLogicalConnectionPoint n p
  end.

(** ** Sequences of writes and reads (for the back end theorems) *)

(** Writer calls: writeBytes, write<T>, writeBuffer. *)
Inductive wop := PutBytes (bs : list byte) | PutInt (k : nat) (v : N) | PutView (v : view).
Definition do_put (o : wop) : W :=
  match o with PutBytes bs => w_bytes bs | PutInt k v => w_uint k v | PutView v => w_view v end.
Fixpoint do_puts (os : list wop) : W :=
  match os with [] => wret | o :: os' => do_put o ;; do_puts os' end.
(** The bytes a call is asked to write; a source view must be outside block [b]. *)
Definition put_piece (m : heap) (b : nat) (o : wop) (p : list byte) : Prop :=
  match o with
  | PutBytes bs => p = bs
  | PutInt k v => p = le k v
  | PutView v => reads m v p /\ (v_blk v <> b \/ p = [])
  end.

(** Reader calls: readBytes, read<T> into a member, read<T> into a local,
    readBuffer(size), skip; the object collects what was obtained. *)
Inductive rop := GetBytes (n : N) | GetInt (k : nat) | GetLocal (k : nat) | GetView (n : N) | Skip (n : N).
Inductive got := GotBytes (bs : list byte) | GotInt (v : N) | GotView (v : view) | GotNothing.
Definition do_get (o : rop) : D (list got) unit :=
  match o with
  | GetBytes n => rd_raw n (fun _ => []) (fun bs t => t ++ [GotBytes bs])
  | GetInt k => rd_uint k (fun _ => 0) (fun v t => t ++ [GotInt v])
  | GetLocal k => v <- rd_local k ;;; dmod (fun t => t ++ [GotInt v])
  | GetView n => v <- rd_view n ;;; dmod (fun t => t ++ [GotView v])
  | Skip n => rd_skip n ;;; dmod (fun t => t ++ [GotNothing])
  end.
Fixpoint do_gets (os : list rop) : D (list got) unit :=
  match os with [] => dret tt | o :: os' => do_get o ;;; do_gets os' end.
Definition size (o : rop) : N :=
  match o with GetBytes n | GetView n | Skip n => n | GetInt k | GetLocal k => N.of_nat k end.
Definition total (os : list rop) : N := fold_right (fun o a => size o + a) 0 os.
(** What a call must obtain when the next [size o] bytes of the input are [p]. *)
Definition got_is (m : heap) (o : rop) (p : list byte) (g : got) : Prop :=
  match o with
  | GetBytes _ => g = GotBytes p
  | GetInt k | GetLocal k => exists v, g = GotInt v /\ fits k v /\ p = le k v
  | GetView _ => exists v, g = GotView v /\ reads m v p
  | Skip _ => g = GotNothing
  end.
(** The calls obtain the consecutive pieces of [bs]. *)
Fixpoint gots_are (m : heap) (os : list rop) (bs : list byte) (gs : list got) : Prop :=
  match os, gs with
  | [], [] => True
  | o :: os', g :: gs' => got_is m o (take (size o) bs) g /\ gots_are m os' (drop (size o) bs) gs'
  | _, _ => False
  end.

(** ** Path construction *)
Inductive path_op := PAdd (s : segment) | PReset | PPad (pad : bool).
Definition do_path (p : path) (o : path_op) : path :=
  match o with PAdd s => add_segment s p | PReset => path_reset p | PPad b => path_setPad b p end.
(** The segments and pad flag such a sequence should leave. *)
Definition path_spec (x : bool * list segment) (o : path_op) : bool * list segment :=
  match o with
  | PAdd s => (fst x, snd x ++ [s])
  | PReset => (fst x, [])
  | PPad b => (b, snd x)
  end.
Definition path_op_ok (o : path_op) : Prop := match o with PAdd s => segment_ok s | _ => True end.

(** ** Advertised lengths *)
(** getLength is the number of bytes serialize writes. *)
Definition exact (m : heap) (s : ser) : Prop := exists bs, carries m s bs.
Definition exact_opt (m : heap) (p : option ser) : Prop := match p with Some s => exact m s | None => True end.

(** ** Identity objects *)
(** The members fit their fields, and the bytes they stand for. *)
Definition identity_fits (i : identity) : Prop :=
  fits 2 (id_version i) /\ len (id_sockaddr i) = 16 /\ fits 2 (id_vendor i) /\ fits 2 (id_device i) /\ fits 2 (id_product i) /\
  len (id_revision i) = 2 /\ fits 2 (id_status i) /\ fits 4 (id_serial i) /\ len (id_name i) < 256 /\ id_state i < 256.
Definition identity_of (i : identity) : list byte :=
  identity_bytes (id_version i) (id_sockaddr i) (id_vendor i) (id_device i) (id_product i)
    (id_revision i) (id_status i) (id_serial i) (id_name i) (id_state i).
