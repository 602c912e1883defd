(** * Spec: wire formats, written independently of the model.

    Only [Base] is imported, for the byte type and [len].  Nothing here mentions
    readers, writers, heaps or sessions. *)
From Verif Require Export Base.

(** ** Integers: positional little-endian notation. *)
Definition octet (n : N) : byte := match Byte.of_N n with Some b => b | None => x00 end.
Fixpoint le (k : nat) (v : N) : list byte :=
  match k with
  | O => []
  | S k' => octet (v mod 256) :: le k' (v / 256)
  end.
Fixpoint num (bs : list byte) : N :=
  match bs with
  | [] => 0
  | b :: r => Byte.to_N b + 256 * num r
  end.
(** [v] fits in [k] bytes. *)
Definition fits (k : nat) (v : N) : Prop := v < 256 ^ N.of_nat k.

(** ** Encapsulation (24 byte header, then payload) *)
Definition header (cmd length session status ctx0 ctx1 options : N) : list byte :=
  le 2 cmd ++ le 2 length ++ le 4 session ++ le 4 status ++ le 4 ctx0 ++ le 4 ctx1 ++ le 4 options.
Definition frame (cmd session status ctx0 ctx1 options : N) (payload : list byte) : list byte :=
  header cmd (len payload) session status ctx0 ctx1 options ++ payload.
(** What a client sends: status, context and options are zero. *)
Definition request (cmd session : N) (payload : list byte) : list byte :=
  frame cmd session 0 0 0 0 payload.

(** ** Common packet format *)
Definition item (x : N * list byte) : list byte := le 2 (fst x) ++ le 2 (len (snd x)) ++ snd x.
Definition items (xs : list (N * list byte)) : list byte := flat_map item xs.
Definition cpf (xs : list (N * list byte)) : list byte := le 2 (len xs) ++ items xs.
Definition item_ok (x : N * list byte) : Prop := fst x < 65536 /\ len (snd x) < 65536.

(** ** Logical paths *)
Inductive segment := SClass (n : N) | SInstance (n : N) | SAttribute (n : N) | SPoint (n : N).
Definition segment_bytes (s : segment) : list byte :=
  match s with
  | SClass n => [octet 0x20; octet n]
  | SInstance n => [octet 0x24; octet n]
  | SAttribute n => [octet 0x30; octet n]
  | SPoint n => [octet 0x2C; octet n]
  end.
Definition segment_ok (s : segment) : Prop :=
  match s with SClass n | SInstance n | SAttribute n | SPoint n => n < 256 end.
Definition epath (pad : bool) (ss : list segment) : list byte :=
  [octet (len ss)] ++ (if pad then [x00] else []) ++ flat_map segment_bytes ss.

(** ** Unconnected messages *)
Definition router_request (service : N) (path data : list byte) : list byte :=
  [octet service] ++ path ++ data.
Definition router_reply (service reserved status : N) (additional data : list byte) : list byte :=
  [octet service; octet reserved; octet status; octet (len additional / 2)] ++ additional ++ data.
Definition rr (handle timeout : N) (xs : list (N * list byte)) : list byte :=
  le 4 handle ++ le 2 timeout ++ cpf xs.
Definition rr_request (service : N) (path data : list byte) : list byte :=
  rr 0 0 [(0, []); (0xB2, router_request service path data)].

(** ** Connection management *)

(** Network connection parameter word as a sum of bit fields. *)
Definition parameter_word (size : N) (variable : bool) (priority type : N) (shared : bool) : N :=
  size + (if variable then 2 ^ 25 else 0) + priority * 2 ^ 26 + type * 2 ^ 29
  + (if shared then 2 ^ 31 else 0).

Definition forward_open (tick ticks o2t t2o sn vendor orig mult o2t_rpi o2t_par t2o_rpi t2o_par type : N)
  (path : list byte) : list byte :=
  [octet tick; octet ticks] ++ le 4 o2t ++ le 4 t2o ++ le 2 sn ++ le 2 vendor ++ le 4 orig
  ++ [octet mult; x00; x00; x00] ++ le 4 o2t_rpi ++ le 4 o2t_par ++ le 4 t2o_rpi ++ le 4 t2o_par
  ++ [octet type] ++ path.
Definition forward_close (tick ticks sn vendor orig : N) (ss : list segment) : list byte :=
  [octet tick; octet ticks] ++ le 2 sn ++ le 2 vendor ++ le 4 orig ++ epath true ss.
Definition forward_open_reply (o2t t2o sn vendor orig o2t_api t2o_api : N) (reserved : byte) (app : list byte)
  : list byte :=
  le 4 o2t ++ le 4 t2o ++ le 2 sn ++ le 2 vendor ++ le 4 orig ++ le 4 o2t_api ++ le 4 t2o_api
  ++ [octet (len app / 2); reserved] ++ app.
Definition forward_close_reply (sn vendor orig : N) (reserved : byte) (app : list byte) : list byte :=
  le 2 sn ++ le 2 vendor ++ le 4 orig ++ [octet (len app / 2); reserved] ++ app.

(** ** Identity, sequenced items *)
Definition identity_bytes (version : N) (addr : list byte) (vendor device product : N) (rev : list byte)
  (status serial : N) (name : list byte) (state : N) : list byte :=
  le 2 version ++ addr ++ le 2 vendor ++ le 2 device ++ le 2 product ++ rev ++ le 2 status
  ++ le 4 serial ++ [octet (len name)] ++ name ++ [octet state].
Definition seq_address (connection sequence : N) : list byte := le 4 connection ++ le 4 sequence.
Definition registration (version options : N) : list byte := le 2 version ++ le 2 options.

(** ** Which values fit their fields *)
(** Header fields and payload length of an encapsulation frame. *)
Definition frame_fits cmd ses st c0 c1 o (payload : list byte) : Prop :=
  fits 2 cmd /\ fits 4 ses /\ fits 4 st /\ fits 4 c0 /\ fits 4 c1 /\ fits 4 o /\ len payload < 65536.
(** Items and item count of a CPF packet. *)
Definition cpf_ok (xs : list (N * list byte)) : Prop := Forall item_ok xs /\ len xs < 65536.
(** Interface handle, timeout and items of RR data. *)
Definition rr_ok (iface timeout : N) (xs : list (N * list byte)) : Prop := fits 4 iface /\ fits 2 timeout /\ cpf_ok xs.
(** The items of an unconnected message carrying [d]: a null address, then type 0xB2. *)
Definition unconnected (xs : list (N * list byte)) (d : list byte) : Prop :=
  exists tl, xs = (0, []) :: (0xB2, d) :: tl.
(** A router reply: the additional status is a whole number of words, at most 255. *)
Definition reply_ok (service reserved status : N) (additional : list byte) : Prop :=
  service < 256 /\ reserved < 256 /\ status < 256 /\ len additional mod 2 = 0 /\ len additional < 512.
