# Formal model of ros-drivers/odva_ethernetip in Rocq (Coq 8.16.1)

The library is a C++ EtherNet/IP originator: a byte-level serialization layer, a
set of message classes, a `Session` state machine over two sockets, and an
identity scanner. We model all of it as total, computable Gallina functions and
prove the properties of `properties.jsonl` about that model.

## 1. Modelling decisions

* **Outcomes.** Every operation returns `Ret v`, `Throw class message` (a C++
  exception, class hierarchy included), `Undef why` (undefined behaviour: null
  dereference, use after free, double free, out-of-bounds, use of an
  indeterminate value, overlapping copy) or `Stuck` (blocked in `receive`
  because the environment never delivers). Exceptions do **not** roll back
  state: every operation also returns the state it left behind.
* **Memory.** A heap is a list of blocks, each live (`Some bytes`) or freed
  (`None`). `boost::asio::mutable_buffer` is a view (block, offset, length).
  Reads/writes through a view are checked; a bad access is `Undef`. This makes
  zero-copy aliasing, dangling views and double frees expressible.
* **Bytes** are `Coq.Init.Byte.byte`; integer fields are `N` with explicit
  wrap-around at every C++ narrowing conversion. Host byte order is little
  endian (the code copies host memory to the wire).
* **Readers/writers** have both implementations of the code (buffer and stream).
  A stream is a finite byte sequence with a position and a fail bit
  (`std::istream` semantics of `read`/`tellg`/`seekg`).
* **Serializable objects.** The const side (`getLength`, `serialize`, and the
  `dynamic_cast` to `SerializableBuffer`) is a record of functions, so theorems
  range over user-defined payloads too. The decode side is a class record over
  an object type `T`, with the virtual call from `deserialize(reader,length)` to
  `deserialize(reader)` made explicit (needed for `SequencedDataItem`), and the one
  from `EncapHeader`'s length check to `getLength()` too. An item that is itself the
  base of another sequenced item is in `Tower.v`.
* **Environment.** Each socket carries scripts of results for open, send,
  receive and close. Quantifying over the scripts quantifies over every
  behaviour of the network and the target (short writes, failures, any bytes,
  silence). All socket calls are appended to a trace (`w_net`).
* **Logs** (`CONSOLE_BRIDGE_log*`, `printf`) are left out of `Session.v` and `Scanner.v`.
  `Log.v` writes the functions that log again, with a list of calls (level, format,
  arguments by type) as output; that the two agree but for the log is a theorem
  (`C91_same_calls`).
* **Random start values** of connection ids and serial numbers are parameters.

* **Histories** are lists of API calls (`op`) run by a caller that catches every
  exception (`exec`); a history ends at undefined behaviour or blocking.
* **Threads** (`Threads.v`): a schedule interleaves the phases of two calls. A
  phase (send, receive, parse) is atomic, so a refutation by a schedule is a
  behaviour of the code, and a positive theorem says nothing about byte-level
  races inside a phase (C58 is about phases that touch disjoint state).

## 2. Files

| file | content |
|---|---|
| `Base.v` | outcomes, exceptions, undefined behaviours, narrowing |
| `Memory.v` | heap, views, integer representation |
| `Serial.v` | readers, writers, primitive, raw buffer, copy_serializable, sequenced item |
| `Packets.v` | encapsulation, CPF, RR data, router request/response, path, forward open/close, identity, ... |
| `Session.v` | sockets, session, connections, histories |
| `Scanner.v`, `Transport.v`, `Threads.v` | identity scanner; TCP/UDP/test sockets; two-thread interleavings |
| `Tower.v` | items sequenced any number of times |
| `Random.v` | the generator behind the first connection id and serial number of a session |
| `Endian.v` | integers and three messages as hosts of either byte order write them |
| `Objects.v` | several `Session` objects: construction, copies, assignment, destruction, shared sockets |
| `Procs.v` | every call as a program of atomic steps; any number of threads under any schedule |
| `Log.v` | the log and printf calls of the session, the connection and the scanner, with the types of their arguments |
| `Net.v` | `UDPSocket` and `TCPSocket` themselves: descriptors, ports, resolver results, connects, for any number of sockets |
| `Owners.v` | the shared pointers to sockets and their counts; a socket is closed when the last one goes |
| `Refs.v` | what library and caller share: references to elements of `connections_`, payloads of packets |
| `Types.v` | the templates getSingleAttribute and setSingleAttribute for each elementary data type |
| `Life.v` | destruction of packets and items, replacement of payloads, bytes allocated |
| `Cuts.v` | calls abandoned between any two of their steps, and histories of such calls |
| `Scarce.v` | decoding when any of its allocations may fail |
| `Strict.v` | decoding from a stream with exceptions enabled |
| `StrictOut.v` | encoding to a stream with exceptions enabled |
| `Descr.v` | the sockets of `Net.v` when descriptors may run out |
| `Width.v` | length arithmetic and the decoders that use it when `size_t` is narrower |
| `ScanNet.v`, `ScanFrom.v` | any number of IOScanner objects on an io_service, in one thread; the senders of what they hear |
| `Copies.v` | packets, lists of items, replies (`MessageRouterResponse`) and pointers to their data as variables of a program, with the count of every `shared_ptr`: copies, assignment, ends, decoding, the getters, setPayload |
| `Fresh.v`, `Fresh2.v` | session, scanner and stream decoding with arbitrary contents of uninitialised memory and members |
| `Tests.v`, `Tests2.v` | every unit test of /repo/test that is not commented out, transcribed as an `Example` (tests of the model's fidelity) |
| `Spec.v` | the independent specification: wire formats, written without the model |
| `Vocab*.v` | the words the theorems use (what it means that an object carries bytes, that memory is owned by the caller, the outcome of a command for every reply, ...), defined over `Spec.v` and the data types of the model, not over its functions |
| `P*.v` other than `Props*.v` | lemmas and witnesses |
| `Props*.v` | only the property theorems, each closed by `exact`, with `Print Assumptions`, and an `Example` meeting the hypotheses |

A theorem named `..._partial` proves the part of a property that holds (or the
exact outcome, with the bad cases named); `..._refuted` proves that the property
as stated fails, by a witness or for a whole class of inputs. The note in
`MANIFEST.json` says which.

## 3. Plan per property

| id | modelled | proof |
|---|---|---|
| C01 | `Reader::read`/`Writer::write` on memory | induction on width against the positional value |
| C02, C03 | buffer writer/reader on heap views | induction over the operation list |
| C04, C05 | stream back ends | relation between the two runs; an RR reply read from a stream loses its data (the local packet that owns it is destroyed), so C04 is refuted for replies with data; C05 is false of the code: `_refuted` witness plus the guarded half |
| C06, C07 | every `getLength`/`serialize` pair, `Socket::send` | every serializer denotes a list of pieces; length = total; refuted where 8/16 bit wrap or pad flag breaks it |
| C08-C12 | header and packet | decode on arbitrary bytes characterised by decomposition `bytes = frame ++ rest`; C11 false: refuted + exact characterisation |
| C13-C16 | CPF item/packet | induction over item list; C16 refuted for the RR path, proved for a bare item |
| C17-C20 | RR data, router request/response | decomposition; C20 false: refuted + fresh-reader half |
| C21-C26 | path, parameter word, forward open/close | operation-sequence induction; bit-field lemmas; C22, C24 false beyond 255 segments / 32767 bytes: refuted + guarded |
| C27-C31 | success replies, identity, sequenced items | decomposition; template parameter universally quantified; C31 false: refuted + fresh half |
| C32-C36 | copy_serializable, raw buffer | history invariant over heap; C34-C36 false: refuted + guarded |
| C37-C54 | session | symbolic execution of each operation on an arbitrary world, then induction over API histories; C39, C40, C45, C50, C54 false: refuted + guarded |
| C55 | TCP-like chunked stream under the session | refuted + single-chunk half |
| C56 | interleaving semantics of two commands | refuted + sequential-schedule half |
| C57 | scanner | classification over all datagrams; crash freedom refuted |
| C58 | interleavings of a command with I/O sends | the phases touch disjoint state |
| C59 | scanner over several datagrams | refuted: it stops after the first |
| C60-C68 | transports, session life cycle, ignored fields, termination | symbolic execution; refuted where the code checks nothing |
| C69 | heap before and after every call | every serializer and decoder is balanced; induction over histories |
| C70 | exception classes | every decoder raises one class; case analysis over the handlers of each operation |
| C71 | bytes taken by deserialize(reader, length) | byte count of every reader step; witnesses for the classes that ignore the length |
| C72 | sender and receiver worlds joined by the bytes of one datagram | C53 on both sides, injectivity of the CPF format, extraction of sequenced items |
| C73 | relational specification of a conforming target (Vocab7.v) | requests are injective, so the talk determines what the target stored; induction over histories |
| C74 | same target, its list of connections | invariant over histories; a lost reply breaks it in every state |
| C75 | a pool of session objects, socket pairs and one heap (Objects.v) | frame property of every act, induction over the acts |
| C76 | implicit copy constructor and destructor | symbolic execution on an arbitrary pool: `_refuted` for every open session |
| C77 | keys of all connections of a session; start values as a function of the time | invariant over histories; `_refuted` for sessions of one second |
| C78, C79 | where received data lives in the heap | every payload is a window on the receive buffer: `_refuted` for all replies; kept while nothing is received |
| C80 | programs of atomic steps (Procs.v), threads on several objects | the programs run whole are the calls of Session.v; each step reads and writes only its object, its sockets and its buffer; relation between the run alone and the run among others, kept by every turn |
| C81 | the same, with threads that send on the session | the same relation without the I/O socket |
| C82, C84 | two threads on one session | `_refuted` by a schedule; guarded by a lock (C83) |
| C85 | the implicit assignment of session objects | `_refuted` for every later history: sockets no object has are never used again |
| C86 | `PropsRest.v`: inversion of successful decodes | proved for all classes but RRData and RRDataResponse, which are refuted for all inputs |
| C87 | the throwing stubs | proved; the RR wrappers refuse part way |
| C88 | `Net.v`: UDPSocket and TCPSocket on a small operating system | exact outcome of open; `_refuted` for all states and all later histories |
| C89 | the same | invariant over all histories of any number of sockets |
| C90 | the same | induction over the resolved addresses; the failing case is `_refuted` |
| C91 | `Log.v`: the log calls; conversions of a format (Vocab12) | every call that is made is classified by its format; `_refuted` for every construction, successful open and listed identity |
| C92 | the same | which exceptions leave a call with and without an error in the log |
| C93 | the same | by cases on the calls |
| C94 | the same, replies taken apart with the reply grammar | inversion of successful explicit calls |
| C95 | the same | `_refuted` for every closed connection and every short datagram |
| C96 | the same, lines as printf makes them | `_refuted` for every wrong service code |
| C97 | the same | the lines for an identity; serial number and name `_refuted` |
| C98 | a stream with limited room (`WLim`) | induction over the pieces an encoder writes; `_refuted` for every encoder |
| C99 | `Refs.v`: the block and capacity of the vector, any growth policy | induction over histories; `_refuted` for every growing create and every close of a lower number |
| C100 | `Refs.v`: edits of a packet and of the payload it shares | header invariant over edits; `_refuted` for every change of size |
| C101 | `Types.v`: values, representations; two's complement written with floor division (Vocab14) | arithmetic per type on top of C43, C44, C73; `_refuted` for every bad bool byte |
| C102 | two runs of one decoder on two objects | relational rules for each reader step, members equal so far as invariant |
| C103 | `Life.v`: destruction of packets and items, replacement of a payload | exact heap after a stream decode, then run the destructors; `_refuted` for every payload |
| C104 | `heap_bytes`: allocated and not freed | a purse carried through every reader step: what is taken comes from the stream or from the one length field that is not met; `_refuted` for every length field |
| C105 | `Cuts.v`: a call stopped after any number of steps of `Procs.v`, whether it then is retried or not | an invariant of the unfinished points of each program; histories by induction |
| C106 | as C105, with the script of the control socket | where an explicit call can stop, exactly; `_refuted` for every explicit call and every next get or set |
| C107 | as C105, with the target of C73 | `_refuted` for every point of an open once the target opened, every point of a close |
| C108 | `Fresh.v`; two worlds that differ in all memory but the caller's data | decoding is shown to read nothing outside the view of the received bytes (`tight`), then a relation between the two runs of every call |
| C109 | `Fresh.v`, decoding from streams | `_refuted` for every stream that ends inside the payload; exact for streams with no short read; unconnected replies in `Fresh2.v` |
| C110 | the histories of C52; `same_request` (`Vocab18.v`) compares calls, not bytes | all calls; sizes modulo 32768 and `_refuted` beyond. What was handed to the socket is compared, not what a short write lets through |
| C111 | `Forall2 (item_carries m)` and `item_ok` of C15, any number of items | exact for every number, hence `_refuted` from 65536 on. The same file closes C15, C29 and C30 under the constructors' conversions |
| C112 | `client`, `play` and `runs` (`Vocab19.v`) over the `conforms` of C73: a small state machine of attributes, connections and the next serial number | programs without open and close of the session; primitive types read |
| C113 | `joint` and `in_turn` (`Vocab20.v`): the programs of C112 and one target with a single list of connections | calls alternate whole; distinct vendor id and serial number assumed |
| C114 | start values of sessions as a function of the time; `Random.v`: MT19937 and the uniform distribution as published, checked against published outputs | pigeonhole for any generator; computed for the one used |
| C115 | `Endian.v`: messages as the list of fields passed to the writer, hosts of either order | little endian is the model's host; `_refuted` between orders |
| C116 | the calls of C112 together with open and close, against sockets and a target as in `Vocab22.v` | `_partial`, `_refuted`: opening twice breaks the session |
| C117 | any number of sessions on the concrete sockets of `Net.v`: `plays` ties the events of Session.v to them (`Vocab23.v`) | `_partial`, `_refuted`: one port, one session; open in mid session moves it |
| C118 | `Owners.v`: every `shared_ptr<Socket>` with its count; programs as sequences of deeds (`Vocab24.v`) | invariant: count = number of pointers, unheld sockets closed; proved |
| C119 | the same, with the events of `Session.v` on the sockets as in C117 | `_partial`; `_refuted` for every assignment to the last holder |
| C120 | `Session.v`; which data belongs to a connection is a comparison of two numbers | `_partial` by induction over the history with the ids granted so far; `_refuted` for every reply that names an id in use |
| C121 | `gathering` and `takes_turns` (`Vocab26.v`): the programs of C116, any number of them, and one target | each client's part of the target is that of C116; calls alternate whole; distinct vendor id and serial number assumed |
| C122 | `goings_on` (`Vocab27.v`): the clients of C121, calls begun, seen by the target piece by piece and returned in any order; an order with `accounts_for` and `in_real_time` is asked for | a request and its reply are one moment at the target; one thread per session |
| C123 | `answer_parts`, `odd_answer`, `turned_down` (`Vocab28.v`), `logged` | |
| C124 | `numbers`, `idle`, `stale`, `left_as` (`Vocab29.v`) | levels as a list; induction over the levels still to read |
| C125 | `on_control`, `on_io`, `record`, `got_by` (`Vocab30.v`) | two relations between the mixed and the pure history: alike but for I/O, then unlike memory (control); the same I/O side in unlike memory (I/O) |
| C126, C127 | `with_format`, `registration_parts`, `odd_registration`, `leftover`, `replaced` (`Vocab31.v`) | C127 `_refuted` for every close that sends its message and cannot close a socket |
| C128 | `own_blocks`, `given_back` (`Vocab32.v`) over `Scarce.v` | each allocation asks an oracle that sees heap, reader and size; `_refuted` for every object that owns a block |
| C129, C130 | `reaches`, `shows`, `target`, `makes_sense`, `given_from` (`Vocab33.v`) over `Copies.v` | invariant: count = number of pointers in variables, live objects own disjoint blocks or refer to the caller's memory; payloads of other classes own nothing and are left out; C130 `_refuted` |
| C131 | `wire`, `goes_on` (`Vocab34.v`, from `Spec.v`) over `Copies.v` | C129 for every later step, and the encoders of `PEnc.v` |
| C132 | `raises`, `needs_all`, `same_or_raises` (`Vocab35.v`), wire formats of `Spec.v` over `Strict.v` | a run without exceptions that ends with the stream failed is one that raises; a run that does not depends only on the bytes it read; `own_blocks` for what is left |
| C133 | `same_or_fails`, `delivers`, `refuses` (`Vocab36.v`), wire formats of `Spec.v` over `StrictOut.v` | a write leaves a failed stream alone, so the run without exceptions ends with the bytes the sink had taken when the first call failed; then `writes` of each class |
| C134 | `write_all`, `read_all`, `to_send`, `received` (`Vocab37.v`), `frame` of `Spec.v` | induction over the packets: what the sink took is the frames of those whose write returned and a proper prefix of the next one; that prefix raises (C132) |
| C135 | `holding`, `udp_asked`, `tcp_asked`, `all_closed` (`Vocab38.v`) over `Descr.v` | the sum of the descriptors held is the size of the set of sockets not closed; each call changes one socket; `_refuted` for the two opens of Session::open |
| C136 | `word`, `in_memory`, `same_length`, `checks_real` (`Vocab39.v`) over `Width.v` | reduction modulo 2^k commutes with the sums and with the narrowing to `int` and EIP_UINT; a buffer shorter than the message is refused (C07); raw data behind a sequence number told less than two bytes is excluded on streams, where 64 and 32 bits ask for different impossible amounts of memory |
| C137 | `listens`, `has_asked`, `targets`, `first_for`, `reports_of` (`Vocab40.v`) over `ScanNet.v` | induction over the arrivals: each is unheard, or disarms one scanner and adds one report; `_refuted` for broadcast, the stopped service, the idle scanner and the destroyed one |
| C138 | `identifies` (`Vocab5.v`) over `ScanNet.v`, `ScanFrom.v` | invariant: who has asked, and who was reported on, has a request among those sent; each report is the answer of an arrival; `_refuted` for the sender |
| C83 | calls as single steps | induction over the schedule against the merged history |

## 4. Trusted base

* Coq 8.16.1's kernel, including its virtual machine (`vm_compute` is used on
  concrete witnesses and in `Tests.v`, `Tests2.v`). No kernel check is switched off; no
  plugin is used.
* `Print Assumptions` reports "Closed under the global context" for every
  theorem in `Props*.v`: no axiom is used by any of them. The checker's list of
  library axioms present in the loaded environment (not used by the theorems) is
  `Coq.ssr.ssrunder.Under_rel.{Over_rel, Under_rel_from_rel, over_rel,
  over_rel_done, Under_rel, Under_relE, under_rel_done}`, from the standard
  library's `ssreflect` support files, which `Lia` pulls in.
* The reading of the C++ source: that the definitions in the model files, each
  of which cites the lines it stands for, mean what those lines mean. `Tests.v`
  and `Tests2.v` check this on the repository's own unit tests.

### Modelled

All of `include/odva_ethernetip/serialization`, `src/copy_serializable.cpp`, every
message class, `connection.*`, `session.*` (also several objects, copies and assignment), `io_scanner.*`, the `Socket`
interface, `TestSocket`; `TCPSocket`/`UDPSocket`: what they turn network input into
(`Transport.v`), and open, close and send on a process with any number of sockets
(`Net.v`).

### Not modelled, and simplifications

* What console_bridge does with a log call (level filter, output), `ostream` formatting,
  ROS packaging, CMake. In `Log.v` the text `inet_ntoa` returns is the four address bytes,
  `what()` is the model's text of the exception, and `%08X` is not rendered. `check_packet`
  and the RR code log nothing that is not in `Log.v`.
* boost asio itself: in `Session.v` a socket call is one step that returns a scripted
  result. In `Net.v` the resolver, the ports other processes hold and the addresses that
  accept a connection are an arbitrary environment of each call; `bind`, `open`, `close`,
  `send_to` and `boost::asio::connect` behave as their documentation says (IPv4, no
  SO_REUSEADDR, datagrams up to 65507 bytes); descriptors do not run out, except in `Descr.v`. A blocked `receive` blocks for ever.
* `std::istream` is a finite byte sequence, with exceptions off except in `Strict.v`, where
  reading past its end raises (a stream that fails for another reason is not modelled). A `std::ostream` takes every byte (`WStr`) or
  a given number of bytes and then fails (`WLim`), with exceptions off except in `StrictOut.v`,
  where failing raises; what a nested object does there is a parameter (`put`), as the call is
  virtual. `tellp` of a failed stream is -1.
* `connections_`: where the elements are is only in `Refs.v`; the vector may grow by any amount.
* Memory exhaustion (`new`, `vector` growth, `std::bad_alloc`), except that `Cuts.v`
  abandons calls where such an exception would leave them, between the steps of `Procs.v`,
  and `Scarce.v` lets any allocation inside a decode fail.
* `new char[n]`, `recv_buffer_`, the scanner's arrays start as zero bytes (they are
  indeterminate in C++). `Fresh.v` makes them and the unset members of the three
  constructor-less locals parameters; C108 proves that session and scanner do not depend
  on them, C109 where stream decoding does. Data the caller keeps inside the session's own
  receive buffer is excluded there (`user_memory`).
* `vector<char>`, `std::string`, `vector<EIP_BYTE>` members are values, not heap blocks,
  except the temporaries of `Socket::send` and `copy_serializable`, which are blocks.
* Destruction of `SerializableBuffer`s owned by a `shared_ptr` inside a packet is not
  run automatically, except that of the local `CPFPacket` in `RRData::deserialize` (on return and on
  a throw after the packet was read); C33, C34 model it explicitly for raw buffer objects and
  `Life.v` and `Copies.v` for packets, items and replies.
* `ScanNet.v` takes boost::asio::io_service as documented (run, stopped, reset, close aborts pending receives), Linux's refusal
  of broadcast without SO_BROADCAST (after the socket got a port), and counts the call of an aborted handler on a destroyed scanner as undefined although
  that handler only logs. A receive error reaches only sockets that have sent. Destroying the io_service itself is not modelled.
* 64 bit `size_t` (except in `Width.v`), 32 bit `int`, little endian host (except in `Endian.v`), 8 bit bytes.
* The uninitialised members of a fresh `Connection` and of locals that are filled
  before use are parameters or zero, as said at their definitions.
* `boost::random` start values are parameters; in `Objects.v` they are an arbitrary function of
  the time in seconds (the generator is seeded with `std::time(0)`); `Random.v` is the generator
  itself, from its published description since Boost is not in /repo.
* The destruction of sockets when the last object that shares them goes is only in `Owners.v`.
* Session phases are atomic in `Threads.v` (see 1). The steps of `Procs.v` are: one socket
  operation, one decoding, one read or one write of the session's members. A step is not
  divided further, so byte-level races within one step are not modelled; a positive theorem
  (C80, C81) is about steps that touch disjoint state, so dividing them would not change it.
