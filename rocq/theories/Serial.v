(** * Serial: include/odva_ethernetip/serialization and src/copy_serializable.cpp. *)
From Verif Require Export Memory.

(** ** Writers (serialization/writer.h) *)

(** BufferWriter (buffer_writer.h:44-98): remaining buffer and byte count.
    StreamWriter (stream_writer.h:47-97): the bytes in the output stream, a
    std::ostream without exceptions enabled.  [WStr]: the sink is unbounded, so [write]
    cannot fail.  [WLim]: the sink accepts [room] more bytes; the stream fails at the
    write that does not fit, and later writes do nothing. *)
Inductive writer :=
| WBuf (buf : view) (count : N)
| WStr (out : list byte)
| WLim (out : list byte) (room : N) (fail : bool).

(** A serialization action: may throw, always returns the memory and writer it left. *)
Definition W := heap -> writer -> outcome unit * heap * writer.

Definition wret : W := fun m w => (Ret tt, m, w).
Definition wthrow (c : exn_class) (s : string) : W := fun m w => (Throw c s, m, w).
Arguments wthrow c s%string.
Definition wseq (x y : W) : W := fun m w =>
  match x m w with
  | (Ret _, m', w') => y m' w'
  | r => r
  end.
Notation "x ;; y" := (wseq x y) (at level 61, right associativity).

(** Writer::writeBytes on data that is not in the modelled heap (object fields,
    vectors, strings): buffer_writer.h:61-64 -> writeBuffer :74-84;
    stream_writer.h:72-75. *)
Definition w_bytes (bs : list byte) : W := fun m w =>
  match w with
  | WBuf v c =>
      if v_len v <? len bs then (Throw LengthError "Buffer to small to serialize value", m, w)
      else match store m (v_blk v) (v_off v) bs with
           | Ret m' => (Ret tt, m', WBuf (view_drop v (len bs)) (c + len bs))
           | Throw c s => (Throw c s, m, w) | Undef u => (Undef u, m, w) | Stuck => (Stuck, m, w)
           end
  | WStr out => (Ret tt, m, WStr (out ++ bs))
  | WLim out room true => (Ret tt, m, w)
  | WLim out room false =>
      (Ret tt, m, if len bs <=? room then WLim (out ++ bs) (room - len bs) false else WLim (out ++ take room bs) 0 true)
  end.

(** Writer::write<T> of a k-byte unsigned integer, writer.h:50-53. *)
Definition w_uint (k : nat) (v : N) : W := w_bytes (host_bytes k v).

(** Writer::writeBuffer of a memory view, buffer_writer.h:74-84, stream_writer.h:81-84.
    The size check precedes the copy; asio::buffer_copy is a memcpy. *)
Definition w_view (src : view) : W := fun m w =>
  match w with
  | WBuf v c =>
      if v_len v <? v_len src then (Throw LengthError "Buffer to small to serialize value", m, w)
      else if overlap src (view_take v (v_len src)) then (Undef OverlappingCopy, m, w)
      else match load_view m src with
           | Ret bs => w_bytes bs m w
           | Throw c s => (Throw c s, m, w) | Undef u => (Undef u, m, w) | Stuck => (Stuck, m, w)
           end
  | WStr _ | WLim _ _ _ =>
      match load_view m src with
      | Ret bs => w_bytes bs m w
      | Throw c s => (Throw c s, m, w) | Undef u => (Undef u, m, w) | Stuck => (Stuck, m, w)
      end
  end.

(** Writer::getByteCount, buffer_writer.h:90-93, stream_writer.h:90-93 (tellp of a failed
    stream is -1). *)
Definition w_count (w : writer) : N :=
  match w with WBuf _ c => c | WStr out => len out | WLim out _ fail => if fail then 2 ^ 64 - 1 else len out end.

(** ** Readers (serialization/reader.h) *)

(** BufferReader (buffer_reader.h:45-140): remaining buffer and byte count.
    StreamReader (stream_reader.h:49-98): contents, position and failbit of the
    std::istream. *)
Inductive reader :=
| RBuf (buf : view) (count : N)
| RStr (data : list byte) (pos : N) (fail : bool).

(** A decoding action on an object of type [T]. *)
Definition D (T A : Type) := heap -> reader -> T -> outcome A * heap * reader * T.

Definition dret {T A} (a : A) : D T A := fun m r t => (Ret a, m, r, t).
Definition dthrow {T A} (c : exn_class) (s : string) : D T A := fun m r t => (Throw c s, m, r, t).
Arguments dthrow {T A} c s%string.
Definition dundef {T A} (u : ub) : D T A := fun m r t => (Undef u, m, r, t).
Definition dbind {T A B} (x : D T A) (f : A -> D T B) : D T B := fun m r t =>
  match x m r t with
  | (Ret a, m', r', t') => f a m' r' t'
  | (Throw c s, m', r', t') => (Throw c s, m', r', t')
  | (Undef u, m', r', t') => (Undef u, m', r', t')
  | (Stuck, m', r', t') => (Stuck, m', r', t')
  end.
Notation "x <- c ;;; k" := (dbind c (fun x => k)) (at level 61, c at next level, right associativity).
Notation "c ;;; k" := (dbind c (fun _ => k)) (at level 61, right associativity).

Definition dget {T} : D T T := fun m r t => (Ret t, m, r, t).
Definition dmod {T} (f : T -> T) : D T unit := fun m r t => (Ret tt, m, r, f t).
(** Run an action on a member of the object. *)
Definition dzoom {T U A} (get : T -> U) (put : U -> T -> T) (x : D U A) : D T A :=
  fun m r t => match x m r (get t) with (o, m', r', u) => (o, m', r', put u t) end.
(** Run an action on a local object; on success its final value is returned. *)
Definition dlocal {T U} (u0 : U) (x : D U unit) : D T U :=
  fun m r t => match x m r u0 with
               | (Ret _, m', r', u) => (Ret u, m', r', t)
               | (Throw c s, m', r', _) => (Throw c s, m', r', t)
               | (Undef e, m', r', _) => (Undef e, m', r', t)
               | (Stuck, m', r', _) => (Stuck, m', r', t)
               end.

(** Bytes a [std::istream::read] of [n] bytes extracts, and the stream after:
    nothing if already failed; on a short read the available bytes, then
    eofbit|failbit. *)
Definition str_read (data : list byte) (pos : N) (fail : bool) (n : N) : list byte * reader :=
  if fail then ([], RStr data pos true)
  else let got := take n (drop pos data) in
       (got, RStr data (pos + len got) (len got <? n)).

(** Reader::readBytes(void*, n) into an existing object of [n] bytes whose old
    representation is [get t]: buffer_reader.h:61-64,102-112 (all or nothing),
    stream_reader.h:64-67 (a short read overwrites a prefix and reports nothing). *)
Definition rd_raw {T} (n : N) (get : T -> list byte) (set : list byte -> T -> T) : D T unit :=
  fun m r t =>
  match r with
  | RBuf v c =>
      if v_len v <? n then (Throw LengthError "Buffer too small to deserialize value", m, r, t)
      else match load m (v_blk v) (v_off v) n with
           | Ret bs => (Ret tt, m, RBuf (view_drop v n) (c + n), set bs t)
           | Throw c s => (Throw c s, m, r, t) | Undef u => (Undef u, m, r, t) | Stuck => (Stuck, m, r, t)
           end
  | RStr d p f =>
      let (got, r') := str_read d p f n in
      (Ret tt, m, r', set (got ++ drop (len got) (get t)) t)
  end.

(** Reader::read<T> into a k-byte unsigned member, reader.h:51-54. *)
Definition rd_uint {T} (k : nat) (get : T -> N) (set : N -> T -> T) : D T unit :=
  rd_raw (N.of_nat k) (fun t => host_bytes k (get t)) (fun bs => set (host_value bs)).

(** Reader::read<T> into an uninitialised k-byte local that is used afterwards
    (src/cpf_item.cpp:53-60, src/cpf_packet.cpp:59-61, ...): with a stream that
    delivers fewer bytes, the later use has an indeterminate value. *)
Definition rd_local {T} (k : nat) : D T N := fun m r t =>
  match r with
  | RBuf v c =>
      if v_len v <? N.of_nat k then (Throw LengthError "Buffer too small to deserialize value", m, r, t)
      else match load m (v_blk v) (v_off v) (N.of_nat k) with
           | Ret bs => (Ret (host_value bs), m, RBuf (view_drop v (N.of_nat k)) (c + N.of_nat k), t)
           | Throw c s => (Throw c s, m, r, t) | Undef u => (Undef u, m, r, t) | Stuck => (Stuck, m, r, t)
           end
  | RStr d p f =>
      let (got, r') := str_read d p f (N.of_nat k) in
      if len got <? N.of_nat k then (Undef Indeterminate, m, r', t)
      else (Ret (host_value got), m, r', t)
  end.

(** BufferReader::readBuffer(size_t), buffer_reader.h:83-93: a view, no copy.
    (A BufferReader-only member; the stream case is not reachable.) *)
Definition rd_view {T} (n : N) : D T view := fun m r t =>
  match r with
  | RBuf v c =>
      if v_len v <? n then (Throw LengthError "Buffer too small to deserialize value", m, r, t)
      else (Ret (view_take v n), m, RBuf (view_drop v n) (c + n), t)
  | RStr _ _ _ => (Undef WildAccess, m, r, t)
  end.

(** Reader::readBuffer(mutable_buffer), buffer_reader.h:102-112, stream_reader.h:74-77. *)
Definition rd_into {T} (dst : view) : D T unit := fun m r t =>
  match r with
  | RBuf v c =>
      if v_len v <? v_len dst then (Throw LengthError "Buffer too small to deserialize value", m, r, t)
      else if overlap dst (view_take v (v_len dst)) then (Undef OverlappingCopy, m, r, t)
      else match load m (v_blk v) (v_off v) (v_len dst) with
           | Ret bs =>
               match store m (v_blk dst) (v_off dst) bs with
               | Ret m' => (Ret tt, m', RBuf (view_drop v (v_len dst)) (c + v_len dst), t)
               | Throw c s => (Throw c s, m, r, t) | Undef u => (Undef u, m, r, t) | Stuck => (Stuck, m, r, t)
               end
           | Throw c s => (Throw c s, m, r, t) | Undef u => (Undef u, m, r, t) | Stuck => (Stuck, m, r, t)
           end
  | RStr d p f =>
      let (got, r') := str_read d p f (v_len dst) in
      match store m (v_blk dst) (v_off dst) got with
      | Ret m' => (Ret tt, m', r', t)
      | Throw c s => (Throw c s, m, r', t) | Undef u => (Undef u, m, r', t) | Stuck => (Stuck, m, r', t)
      end
  end.

(** Reader::skip, buffer_reader.h:128-136; stream_reader.h:92-95 (seekg from the
    current position: no effect on a failed stream, failbit when the target is
    outside the data). *)
Definition rd_skip {T} (n : N) : D T unit := fun m r t =>
  match r with
  | RBuf v c =>
      if v_len v <? n then (Throw LengthError "End of buffer reached skipping forward", m, r, t)
      else (Ret tt, m, RBuf (view_drop v n) (c + n), t)
  | RStr d p f =>
      if f then (Ret tt, m, r, t)
      else if p + n <=? len d then (Ret tt, m, RStr d (p + n) false, t)
      else (Ret tt, m, RStr d p true, t)
  end.

(** Reader::getByteCount, buffer_reader.h:118-121; stream_reader.h:83-86 (tellg is
    -1 on a failed stream, converted to size_t). *)
Definition rd_count {T} : D T N := fun m r t =>
  match r with
  | RBuf _ c => (Ret c, m, r, t)
  | RStr _ p f => (Ret (if f then 18446744073709551615 else p), m, r, t)
  end.

(** Dispatch of [dynamic_cast<BufferReader*>], serializable_buffer.h:121. *)
Definition rd_is_buffer {T} : D T bool := fun m r t =>
  (Ret (match r with RBuf _ _ => true | RStr _ _ _ => false end), m, r, t).

(** Heap actions inside a decode. *)
Definition d_alloc {T} (bs : list byte) : D T nat := fun m r t =>
  let (b, m') := alloc m bs in (Ret b, m', r, t).
Definition d_free {T} (b : nat) : D T unit := fun m r t =>
  match free m b with
  | Ret m' => (Ret tt, m', r, t)
  | Throw c s => (Throw c s, m, r, t) | Undef u => (Undef u, m, r, t) | Stuck => (Stuck, m, r, t)
  end.

(** ** SerializableBuffer (serializable_buffer.h:45-174) *)
Record sbuf := mkSB { sb_data : view; sb_alloc : option nat }.

(** Default constructor, :53.  Constructor from a buffer, :59. *)
Definition sb_empty : sbuf := mkSB null_view None.
Definition sb_of_view (v : view) : sbuf := mkSB v None.

(** deleteAllocatedBuffer, :166-173. *)
Definition sb_delete : D sbuf unit :=
  s <- dget ;;;
  match sb_alloc s with
  | Some b => d_free b ;;; dmod (fun s => mkSB (sb_data s) None)
  | None => dret tt
  end.

(** deserialize(reader, length), :118-139.  [new char[length]] is modelled with
    zero contents (its bytes are indeterminate in C++). *)
Definition sb_deserialize_len (n : N) : D sbuf unit :=
  isbuf <- rd_is_buffer ;;;
  if (isbuf : bool) then
    sb_delete ;;;
    v <- rd_view n ;;;
    dmod (fun s => mkSB v (sb_alloc s))
  else
    s <- dget ;;;
    (if n =? v_len (sb_data s) then dret tt
     else sb_delete ;;;
          b <- d_alloc (zeros n) ;;;
          dmod (fun _ => mkSB (mkV b 0 n) (Some b))) ;;;
    s' <- dget ;;;
    rd_into (sb_data s').

(** deserialize(reader), :148-152. *)
Definition sb_deserialize : D sbuf unit :=
  s <- dget ;;; rd_into (sb_data s).

(** serialize, :103-107. *)
Definition sb_serialize (s : sbuf) : W := w_view (sb_data s).

(** setData, :89-95. *)
Definition sb_setData (m : heap) (s : sbuf) (v : view) : outcome unit * heap * sbuf :=
  match sb_alloc s with
  | Some b => match free m b with
              | Ret m' => (Ret tt, m', mkSB v None)
              | Throw c e => (Throw c e, m, s) | Undef u => (Undef u, m, s) | Stuck => (Stuck, m, s)
              end
  | None => (Ret tt, m, mkSB v None)
  end.

(** operator=(mutable_buffer), :154-157: keeps the allocated buffer. *)
Definition sb_assign_view (s : sbuf) (v : view) : sbuf := mkSB v (sb_alloc s).

(** Destructor, :61-65. *)
Definition sb_destroy (m : heap) (s : sbuf) : outcome unit * heap :=
  match sb_alloc s with
  | Some b => match free m b with
              | Ret m' => (Ret tt, m')
              | Throw c e => (Throw c e, m) | Undef u => (Undef u, m) | Stuck => (Stuck, m)
              end
  | None => (Ret tt, m)
  end.

(** ** The Serializable interface (serializable.h:38-71) *)

(** Const side of an object behind a [shared_ptr<Serializable>]: getLength and
    serialize, plus the result of [dynamic_cast<const SerializableBuffer*>]
    (copy_serializable.cpp:37). Any user class is a value of this record. *)
Record ser := mkSer { s_length : outcome N; s_serialize : W; s_sbuf : option sbuf }.

Definition ser_of_sbuf (s : sbuf) : ser :=
  mkSer (Ret (v_len (sb_data s))) (sb_serialize s) (Some s).

(** How [deserialize(reader, length)] of a class is written: directly, or as an
    optional check of the length followed by the virtual call
    [deserialize(reader)] (e.g. rr_data.h:88-92; encap_header.h:89-97). The check may call
    the virtual getLength() (encap_header.h:91 does); its first argument is by how much
    getLength() of the object exceeds that of the class. No direct one calls it. *)
Inductive deslen (T : Type) :=
| DLDirect (f : N -> D T unit)
| DLVirtual (check : N -> N -> option (exn_class * string)).
Arguments DLDirect {T} f.
Arguments DLVirtual {T} check.

(** A class of decodable objects. [c_sb] is the SerializableBuffer base, if any
    (dynamic_cast of the destination, copy_serializable.cpp:38). *)
Record cls (T : Type) := mkCls {
  c_deslen : deslen T;
  c_des : D T unit;
  c_sb : option ((T -> sbuf) * (sbuf -> T -> T)) }.
Arguments mkCls {T} _ _ _.
Arguments c_deslen {T} _.
Arguments c_des {T} _.
Arguments c_sb {T} _.

(** Virtual call of [deserialize(reader, length)] on an object of exactly this class. *)
Definition deserialize_len {T} (c : cls T) (n : N) : D T unit :=
  match c_deslen c with
  | DLDirect f => f n
  | DLVirtual check =>
      match check 0 n with
      | Some (e, s) => dthrow e s
      | None => c_des c
      end
  end.
Definition deserialize {T} (c : cls T) : D T unit := c_des c.

Definition no_check (k n : N) : option (exn_class * string) := None.

Definition sbuf_cls : cls sbuf :=
  mkCls (DLDirect sb_deserialize_len) sb_deserialize (Some ((fun s => s), (fun s _ => s))).

(** SerializablePrimitive<T> for a k-byte unsigned T, serializable_primitive.h:41-106. *)
Definition prim_ser (k : nat) (v : N) : ser :=
  mkSer (Ret (N.of_nat k)) (w_uint k v) None.
Definition prim_des (k : nat) : D N unit := rd_uint k (fun t => t) (fun v _ => v).
Definition prim_cls (k : nat) : cls N := mkCls (DLVirtual no_check) (prim_des k) None.

(** ** copy_serializable (src/copy_serializable.cpp:34-70) *)

(** Run a decode on a fresh BufferReader over a view. *)
Definition run_reader {T} (x : D T unit) (v : view) (m : heap) (t : T) : outcome unit * heap * T :=
  match x m (RBuf v 0) t with (o, m', _, t') => (o, m', t') end.

Definition copy_serializable {T} (c : cls T) (src : ser) (m : heap) (t : T)
  : outcome unit * heap * T :=
  match s_sbuf src with
  | Some sb =>
      match c_sb c with
      | Some (_, put) => (Ret tt, m, put sb t)
      | None =>
          (* getLength is virtual: a SequencedDataItem<SerializableBuffer> adds its number *)
          match s_length src with
          | Ret n => run_reader (deserialize_len c n) (sb_data sb) m t
          | Throw e s => (Throw e s, m, t) | Undef u => (Undef u, m, t) | Stuck => (Stuck, m, t)
          end
      end
  | None =>
      match c_sb c with
      | Some _ => (Throw LogicError "Cannot get payload from Serializable to SerializableBuffer", m, t)
      | None =>
          match s_length src with
          | Ret n =>
              let (b, m1) := alloc m (zeros n) in
              match s_serialize src m1 (WBuf (mkV b 0 n) 0) with
              | (Ret _, m2, _) =>
                  match run_reader (deserialize_len c n) (mkV b 0 n) m2 t with
                  | (o, m3, t') =>
                      (* the local vector dies on return and on unwinding *)
                      match free m3 b with
                      | Ret m4 => (o, m4, t')
                      | Throw e s => (Throw e s, m3, t') | Undef u => (Undef u, m3, t') | Stuck => (Stuck, m3, t')
                      end
                  end
              | (o, m2, _) =>
                  match free m2 b with
                  | Ret m3 => (o, m3, t)
                  | Throw e s => (Throw e s, m2, t) | Undef u => (Undef u, m2, t) | Stuck => (Stuck, m2, t)
                  end
              end
          | Throw e s => (Throw e s, m, t) | Undef u => (Undef u, m, t) | Stuck => (Stuck, m, t)
          end
      end
  end.

(** ** SequencedDataItem<T> (sequenced_data_item.h:48-109) *)
Record seqitem (T : Type) := mkSeq { sq_base : T; sq_num : N; sq_busy : bool }.
Arguments mkSeq {T} _ _ _.
Arguments sq_base {T} _.
Arguments sq_num {T} _.
Arguments sq_busy {T} _.

Definition sq_put_base {T} (b : T) (q : seqitem T) : seqitem T := mkSeq b (sq_num q) (sq_busy q).
Definition sq_put_num {T} (n : N) (q : seqitem T) : seqitem T := mkSeq (sq_base q) n (sq_busy q).
Definition sq_put_busy {T} (f : bool) (q : seqitem T) : seqitem T := mkSeq (sq_base q) (sq_num q) f.

(** Constructor, :54. *)
Definition sq_make {T} (base : T) (sequence : N) : seqitem T := mkSeq base (u16 sequence) false.

Definition on_base {T A} (x : D T A) : D (seqitem T) A := dzoom sq_base sq_put_base x.

(** deserialize(reader), :96-104. *)
Definition sq_deserialize {T} (c : cls T) : D (seqitem T) unit :=
  q <- dget ;;;
  if sq_busy q then on_base (c_des c)
  else
    rd_uint 2 sq_num sq_put_num ;;;
    dmod (sq_put_busy true) ;;;
    on_base (c_des c) ;;;
    dmod (sq_put_busy false).

(** The base class's deserialize(reader, length) called non-virtually, in which a
    virtual call of deserialize(reader) reaches [sq_deserialize], and one of getLength()
    the override of :60-63, which is 2 more. (An item that is itself the base of an item
    adds 4; see Tower.v.) *)
Definition sq_base_deslen {T} (c : cls T) (n : N) : D (seqitem T) unit :=
  match c_deslen c with
  | DLDirect f => on_base (f n)
  | DLVirtual check =>
      match check 2 n with
      | Some (e, s) => dthrow e s
      | None => sq_deserialize c
      end
  end.

(** size_t subtraction [length - sizeof(sequence_num)], :82,85. *)
Definition sq_sublen (n : N) : N := u64 (n + 18446744073709551616 - 2).

(** deserialize(reader, length), :80-88. *)
Definition sq_deserialize_len {T} (c : cls T) (n : N) : D (seqitem T) unit :=
  q <- dget ;;;
  if sq_busy q then sq_base_deslen c (sq_sublen n)
  else
    rd_uint 2 sq_num sq_put_num ;;;
    dmod (sq_put_busy true) ;;;
    sq_base_deslen c (sq_sublen n) ;;;
    dmod (sq_put_busy false).

(** The class SequencedDataItem<T>. When T is (derived from) SerializableBuffer the
    dynamic_cast in copy_serializable reaches the base subobject. *)
Definition sq_cls {T} (c : cls T) : cls (seqitem T) :=
  mkCls (DLDirect (sq_deserialize_len c)) (sq_deserialize c)
        (match c_sb c with
         | Some (get, put) =>
             Some ((fun q => get (sq_base q)), (fun s q => sq_put_base (put s (sq_base q)) q))
         | None => None
         end).

(** getLength, :60-63, and serialize, :71-75, of a sequenced item whose T part
    serializes as [base]. *)
Definition sq_ser (num : N) (base : ser) : ser :=
  mkSer (match s_length base with
         | Ret n => Ret (2 + n)
         | Throw c s => Throw c s | Undef u => Undef u | Stuck => Stuck
         end)
        (w_uint 2 num ;; s_serialize base)
        (s_sbuf base).
