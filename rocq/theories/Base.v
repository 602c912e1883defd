(** * Base: outcomes of C++ operations.

    Shared vocabulary of the model.  A C++ call ends in one of four ways; the
    state it leaves behind is returned beside the outcome, because a C++
    exception does not undo the side effects already performed. *)
From Coq Require Export NArith List Bool Lia.
From Coq.Strings Require Export String Byte.
Export ListNotations.
Open Scope N_scope.
Open Scope list_scope.

(** Exception classes thrown in /repo: [std::length_error], [std::logic_error],
    [std::runtime_error] (src/session.cpp, include/odva_ethernetip/serialization/*.h),
    [std::out_of_range] (vector::at, src/rr_data.cpp:66) and
    [boost::system::system_error] (thrown by asio sockets,
    include/odva_ethernetip/socket/tcp_socket.h:56-91). *)
Inductive exn_class :=
| LengthError | LogicError | RuntimeError | OutOfRange | SystemError.

(** C++ class hierarchy: length_error and out_of_range derive from logic_error,
    boost::system::system_error derives from std::runtime_error.  Used by the
    catch clauses of src/session.cpp:97-110, 124-131, 254-263, 270-279. *)
Definition is_a (c d : exn_class) : bool :=
  match c, d with
  | LengthError, LengthError | LengthError, LogicError
  | LogicError, LogicError
  | OutOfRange, OutOfRange | OutOfRange, LogicError
  | RuntimeError, RuntimeError
  | SystemError, SystemError | SystemError, RuntimeError => true
  | _, _ => false
  end.

(** Undefined behaviours the code can reach. [NullDeref]: operator* on an empty
    boost::shared_ptr (src/encap_packet.cpp:46, src/cpf_item.cpp:88,
    rr_data_response.h:105,115). [VecOutOfBounds]: vector::operator[] past the end
    (src/session.cpp:322, session.h:189). [Indeterminate]: use of an
    uninitialised local (src/cpf_item.cpp:53,66 with a failed stream read). *)
Inductive ub :=
| NullDeref | VecOutOfBounds | UseAfterFree | DoubleFree | WildAccess
| Indeterminate | OverlappingCopy.

Inductive outcome (A : Type) :=
| Ret (a : A)
| Throw (c : exn_class) (what : string)
| Undef (u : ub)
| Stuck.  (* blocked for ever in Socket::receive *)
Arguments Ret {A} a.
Arguments Throw {A} c what%string.
Arguments Undef {A} u.
Arguments Stuck {A}.

(** Narrowing conversions to the EIP unsigned types, include/odva_ethernetip/eip_types.h:35-43. *)
Definition u8 (n : N) : N := n mod 256.
Definition u16 (n : N) : N := n mod 65536.
Definition u32 (n : N) : N := n mod 4294967296.
(** size_t arithmetic (64 bit host). *)
Definition u64 (n : N) : N := n mod 18446744073709551616.

(** Length of a list as a size_t. *)
Definition len {A} (l : list A) : N := N.of_nat (List.length l).

(** Byte <-> number. *)
Definition byte_of (n : N) : byte :=
  match Byte.of_N (n mod 256) with Some b => b | None => x00 end.
Definition n_of (b : byte) : N := Byte.to_N b.

(** [take]/[drop] with N counts. *)
Definition take {A} (n : N) (l : list A) : list A := firstn (N.to_nat n) l.
Definition drop {A} (n : N) (l : list A) : list A := skipn (N.to_nat n) l.
Definition zeros (n : N) : list byte := repeat x00 (N.to_nat n).
