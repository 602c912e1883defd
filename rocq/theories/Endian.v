(** * Endian: hosts of either byte order.

    Writer::write (serialization/writer.h:50-53) and Reader::read
    (serialization/reader.h:51-54) copy the object representation of an integer, which on
    a host that stores the highest byte first is the reverse of [host_bytes] (Memory.v).
    The rest of the model is of a little endian host; here a message is the list of what
    its serialize() passes to the writer. *)
From Verif Require Export Memory.

Inductive order := Little | Big.
(** writer.h:50-53, reader.h:51-54. *)
Definition host_bytes_on (h : order) (k : nat) (v : N) : list byte :=
  match h with Little => host_bytes k v | Big => rev (host_bytes k v) end.
Definition host_value_on (h : order) (bs : list byte) : N :=
  match h with Little => host_value bs | Big => host_value (rev bs) end.

(** What is passed to the writer: an integer of some size, or bytes (writeBytes, writeBuffer). *)
Inductive field := FInt (k : nat) (v : N) | FBytes (bs : list byte).
Definition field_bytes (h : order) (f : field) : list byte :=
  match f with FInt k v => host_bytes_on h k v | FBytes bs => bs end.
Definition wire (h : order) (fs : list field) : list byte := flat_map (field_bytes h) fs.

(** Reading fields of the given shapes, as the deserialize() functions do. *)
Fixpoint unwire (h : order) (shape : list field) (bs : list byte) : list field :=
  match shape with
  | [] => []
  | FInt k _ :: r => FInt k (host_value_on h (take (N.of_nat k) bs)) :: unwire h r (drop (N.of_nat k) bs)
  | FBytes b :: r => FBytes (take (len b) bs) :: unwire h r (drop (len b) bs)
  end.

(** EncapHeader::serialize, src/encap_header.cpp:35-44; the context is an array of two. *)
Definition header_fields (cmd length session status ctx0 ctx1 options : N) : list field :=
  [FInt 2 cmd; FInt 2 length; FInt 4 session; FInt 4 status; FInt 4 ctx0; FInt 4 ctx1; FInt 4 options].
(** RegisterSessionData::serialize, register_session_data.h:69-74, in the frame that
    Session::open sends (src/session.cpp:86-95). *)
Definition register_fields : list field := header_fields 0x65 4 0 0 0 0 0 ++ [FInt 2 1; FInt 2 0].
(** ForwardOpenRequest::serialize, forward_open_request.h:157-178; what the path
    writes is the same on every host (bytes). *)
Definition open_fields (tick ticks o2t t2o sn vendor orig mult o2t_rpi o2t_par t2o_rpi t2o_par type : N) (path : list byte) : list field :=
  [FInt 1 tick; FInt 1 ticks; FInt 4 o2t; FInt 4 t2o; FInt 2 sn; FInt 2 vendor; FInt 4 orig; FInt 1 mult; FBytes [x00; x00; x00];
   FInt 4 o2t_rpi; FInt 4 o2t_par; FInt 4 t2o_rpi; FInt 4 t2o_par; FInt 1 type; FBytes path].
