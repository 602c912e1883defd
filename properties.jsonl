{"id": "C01", "title": "Integers cross the wire little-endian and unchanged", "statement": "Writing an unsigned integer field of 1, 2, 4 or 8 bytes produces its little-endian bytes, reading those bytes back gives the same value, and conversely reading any bytes and writing the value read reproduces the bytes.", "quantifier": "every width and every value / every byte string of that width", "why_tests_cant": "2^32 values per field and both directions; tests sample a handful of literals", "anchors": ["include/odva_ethernetip/serialization/reader.h:Reader::read", "include/odva_ethernetip/serialization/writer.h:Writer::write", "include/odva_ethernetip/serialization/serializable_primitive.h:SerializablePrimitive"]}
{"id": "C02", "title": "A buffer writer stays inside its buffer", "statement": "For any sequence of writes into a fixed buffer, the buffer afterwards holds exactly the accepted pieces in order followed by its old tail, the byte count is their total length, no memory outside the buffer changes, and the first piece that does not fit raises length_error leaving buffer, count and position as they were.", "quantifier": "every buffer (any size, any position inside a larger memory block), every sequence of writes", "why_tests_cant": "memory effects outside the buffer and every possible split of the data cannot be enumerated", "anchors": ["include/odva_ethernetip/serialization/buffer_writer.h:BufferWriter::writeBuffer", "include/odva_ethernetip/serialization/buffer_writer.h:BufferWriter::getByteCount"]}
{"id": "C03", "title": "A buffer reader stays inside its buffer", "statement": "For any sequence of reads and skips on a buffer, the pieces returned are the consecutive pieces of the buffer, the byte count is the number of bytes consumed, memory is not modified, nothing outside the buffer is read, and a read or skip longer than what is left raises length_error and consumes nothing.", "quantifier": "every buffer and every sequence of reads and skips", "why_tests_cant": "all sequences and all lengths, including reads straddling the end at every position", "anchors": ["include/odva_ethernetip/serialization/buffer_reader.h:BufferReader::readBuffer", "include/odva_ethernetip/serialization/buffer_reader.h:BufferReader::skip", "include/odva_ethernetip/serialization/buffer_reader.h:BufferReader::getByteCount"]}
{"id": "C04", "title": "Stream and buffer back ends agree on complete data", "statement": "Any message serialized to a stream yields the same bytes as serialized into a large enough buffer, and decoding an encapsulation packet, CPF packet or RR reply from a stream that holds the whole message yields the same values as decoding it from a buffer.", "quantifier": "every message and every complete input", "why_tests_cant": "relates two implementations over all messages", "anchors": ["include/odva_ethernetip/serialization/stream_writer.h:StreamWriter", "include/odva_ethernetip/serialization/stream_reader.h:StreamReader", "include/odva_ethernetip/serialization/serializable_buffer.h:SerializableBuffer::deserialize"]}
{"id": "C05", "title": "A truncated stream is reported", "statement": "Decoding from a stream that ends before the message does must raise length_error, as decoding from a truncated buffer does.", "quantifier": "every message and every truncation point", "why_tests_cant": "every cut point of every message", "anchors": ["include/odva_ethernetip/serialization/stream_reader.h:StreamReader::readBytes", "include/odva_ethernetip/serialization/stream_reader.h:StreamReader::skip", "include/odva_ethernetip/serialization/reader.h:Reader"]}
{"id": "C06", "title": "The advertised length is the number of bytes produced", "statement": "For every message type, getLength equals the number of bytes serialize writes, so a buffer of getLength bytes is always exactly filled.", "quantifier": "every message of every type, with any payload that itself satisfies the contract", "why_tests_cant": "all field values, list lengths, names and payloads, including 8/16-bit boundary sizes", "anchors": ["include/odva_ethernetip/serialization/serializable.h:Serializable::getLength", "src/cpf_item.cpp:CPFItem::serialize", "src/identity_item_data.cpp:IdentityItemData::getLength", "include/odva_ethernetip/forward_close_request.h:ForwardCloseRequest::getLength", "src/path.cpp:Path::getLength"]}
{"id": "C07", "title": "Socket send transmits exactly the serialized message", "statement": "Sending a message hands the transport one buffer that is byte for byte the serialized message; if serialization raises, nothing is handed to the transport.", "quantifier": "every message, including user-defined ones, and every memory state", "why_tests_cant": "user-defined payloads are an open set", "anchors": ["include/odva_ethernetip/socket/socket.h:Socket::send"]}
{"id": "C08", "title": "Encapsulation header format and strict length", "statement": "A header serializes to exactly 24 bytes in the order command, length, session handle, status, 8 byte context, options; decoding is its inverse, fails with length_error on fewer than 24 bytes, and the length-checked decode accepts only the length 24.", "quantifier": "every header value, every input", "why_tests_cant": "all field values and all input lengths", "anchors": ["src/encap_header.cpp:EncapHeader::serialize", "src/encap_header.cpp:EncapHeader::deserialize", "include/odva_ethernetip/encap_header.h:EncapHeader::deserialize"]}
{"id": "C09", "title": "Encapsulation packet decode is total and exact", "statement": "Decoding arbitrary received bytes as an encapsulation packet either succeeds, giving exactly the header fields and the payload delimited by the header's length field and leaving the remaining bytes unread, or raises length_error; it never has undefined behaviour. It succeeds exactly when the input starts with a complete packet.", "quantifier": "every byte string", "why_tests_cant": "all byte strings of all lengths", "anchors": ["src/encap_packet.cpp:EncapPacket::deserialize"]}
{"id": "C10", "title": "Encapsulation packet round trip", "statement": "A packet built from a command, session handle and payload of at most 65535 bytes decodes, after serialization, to the same command, session handle and payload with zero status, context and options.", "quantifier": "every command, handle and payload up to 65535 bytes", "why_tests_cant": "unbounded payload space", "anchors": ["src/encap_packet.cpp:EncapPacket::serialize", "include/odva_ethernetip/encap_packet.h:EncapPacket::updateLength"]}
{"id": "C11", "title": "Oversized payloads never produce a mis-framed packet", "statement": "A payload longer than the 16 bit length field can express must be refused rather than sent with a wrong length.", "quantifier": "every payload of 65536 bytes or more", "why_tests_cant": "boundary behaviour for every oversize; no test goes near 64 KiB", "anchors": ["include/odva_ethernetip/encap_packet.h:EncapPacket::updateLength", "include/odva_ethernetip/cpf_item.h:CPFItem::getDataLength"]}
{"id": "C12", "title": "Length-checked packet decode", "statement": "Decoding a packet with a stated length succeeds exactly when the stated length is the header size plus the length field in the header and that many bytes are available; every other case raises length_error.", "quantifier": "every input and every stated length", "why_tests_cant": "product of all inputs and all stated lengths", "anchors": ["src/encap_packet.cpp:EncapPacket::deserialize"]}
{"id": "C13", "title": "CPF item decode is total and exact", "statement": "Decoding arbitrary bytes as a common packet format item either gives the type and exactly the bytes delimited by the item's length field, or raises length_error; with a stated length it also rejects items longer than the stated length. It never has undefined behaviour.", "quantifier": "every byte string and every stated length", "why_tests_cant": "all byte strings", "anchors": ["src/cpf_item.cpp:CPFItem::deserialize", "src/cpf_item.cpp:CPFItem::deserializeData"]}
{"id": "C14", "title": "CPF packet decode is total and exact", "statement": "Decoding arbitrary bytes as a CPF packet either gives exactly the announced number of items with their types and data in order, or raises length_error; it never has undefined behaviour and never reads past the announced items.", "quantifier": "every byte string and every item count", "why_tests_cant": "item lists of any length over all byte strings", "anchors": ["src/cpf_packet.cpp:CPFPacket::deserialize"]}
{"id": "C15", "title": "CPF packet round trip and canonicity", "statement": "Any CPF packet of fewer than 65536 items, each with fewer than 65536 bytes, decodes after serialization to the same items; and any bytes that decode to a packet re-serialize to the very bytes consumed.", "quantifier": "every list of items", "why_tests_cant": "lists of any length with any data", "anchors": ["src/cpf_packet.cpp:CPFPacket::serialize", "src/cpf_packet.cpp:CPFPacket::deserialize", "src/cpf_packet.cpp:CPFPacket::getLength"]}
{"id": "C16", "title": "Oversized CPF items are refused", "statement": "A CPF item whose data does not fit its 16 bit length field, sent on a socket, must raise an error instead of transmitting a malformed item.", "quantifier": "every data size of 65536 or more", "why_tests_cant": "all sizes over the boundary", "anchors": ["include/odva_ethernetip/cpf_item.h:CPFItem::getDataLength", "include/odva_ethernetip/cpf_item.h:CPFItem::getLength", "include/odva_ethernetip/rr_data.h:RRData::getLength"]}
{"id": "C17", "title": "Unconnected request wire format", "statement": "An unconnected request for a service, path and optional data is serialized as interface handle 0, timeout 0, two CPF items (null address, then type 0xB2) whose second item carries the service byte, the path and the data, in that order.", "quantifier": "every service code, path of at most 255 segments (C22 has longer ones) and data payload", "why_tests_cant": "all services, paths and payloads", "anchors": ["src/rr_data.cpp:RRData::serialize", "include/odva_ethernetip/message_router_request.h:MessageRouterRequest::serialize", "include/odva_ethernetip/rr_data_request.h:RRDataRequest"]}
{"id": "C18", "title": "Unconnected reply acceptance", "statement": "An unconnected reply is accepted exactly when it is a complete CPF packet of at least two items whose first item is the null address with no data and whose second item has type 0xB2 and holds a complete non-empty router reply; malformed replies raise length_error or logic_error and never crash.", "quantifier": "every byte string received as reply data", "why_tests_cant": "all byte strings; each reject reason combined with every prefix", "anchors": ["src/rr_data.cpp:RRData::deserialize", "include/odva_ethernetip/rr_data_response.h:RRDataResponse::setData"]}
{"id": "C19", "title": "Message router reply decode", "statement": "A router reply decodes to its service code, general status, additional status words and all the remaining bytes as response data; it raises length_error exactly when the bytes end before the announced additional status does, and is otherwise total.", "quantifier": "every byte string", "why_tests_cant": "all byte strings and all announced additional status sizes", "anchors": ["src/message_router_response.cpp:MessageRouterResponse::deserialize", "src/message_router_response.cpp:MessageRouterResponse::readData"]}
{"id": "C20", "title": "Router reply decode does not depend on earlier reads", "statement": "Decoding a router reply of a given length from a reader gives the same result whatever was read from that reader before.", "quantifier": "every reply and every number of bytes previously consumed", "why_tests_cant": "relates runs with every reader history", "anchors": ["src/message_router_response.cpp:MessageRouterResponse::deserialize"]}
{"id": "C21", "title": "Path encoding", "statement": "A path built by any sequence of class, instance, attribute and connection point additions serializes to the segment count, an optional zero pad byte, and the two byte segments (0x20, 0x24, 0x30, 0x2C with the identifier) in order; reset discards all previous segments.", "quantifier": "every sequence of path operations that leaves at most 255 segments (C22 has the others)", "why_tests_cant": "arbitrary operation sequences", "anchors": ["src/path.cpp:Path::addSegment", "src/path.cpp:Path::serialize", "include/odva_ethernetip/path.h:Path::reset"]}
{"id": "C22", "title": "Path segment count is exact", "statement": "The segment count byte of a serialized path equals the number of segments added.", "quantifier": "paths of any number of segments", "why_tests_cant": "tests never reach 256 segments", "anchors": ["src/path.cpp:Path::serialize"]}
{"id": "C23", "title": "Connection parameter word packing", "statement": "The 32 bit network connection parameter word encodes size, fixed/variable flag, priority, connection type and shared flag in disjoint bit fields from which each can be recovered, and no argument affects another's field.", "quantifier": "every size, flag, priority and type value", "why_tests_cant": "2^16 * 2 * 2^8 * 2^8 * 2 combinations", "anchors": ["include/odva_ethernetip/forward_open_request.h:ForwardOpenRequest::calcConnectionParams"]}
{"id": "C24", "title": "Connection size is preserved", "statement": "The connection size requested by the user is the size encoded in the forward open request.", "quantifier": "every 16 bit buffer size", "why_tests_cant": "full range of the size argument", "anchors": ["include/odva_ethernetip/forward_open_request.h:ForwardOpenRequest::calcConnectionParams", "src/connection.cpp:Connection::createForwardOpenRequest"]}
{"id": "C25", "title": "Forward open request contents", "statement": "The forward open request created for a connection carries that connection's identifiers, serial numbers, intervals, timeouts, parameter words (point-to-point, scheduled, fixed originator-to-target size, variable target-to-originator size) and its assembly path, laid out in the standard order with three reserved zero bytes.", "quantifier": "every connection configuration", "why_tests_cant": "all configurations", "anchors": ["src/connection.cpp:Connection::createForwardOpenRequest", "src/connection.cpp:Connection::setConnectionPoints", "include/odva_ethernetip/forward_open_request.h:ForwardOpenRequest::serialize"]}
{"id": "C26", "title": "Forward close request contents", "statement": "The forward close request for a connection identifies it by connection serial number, vendor and originator serial number, and encodes path size, a reserved zero byte, then the path.", "quantifier": "every connection", "why_tests_cant": "all configurations", "anchors": ["src/connection.cpp:Connection::createForwardCloseRequest", "include/odva_ethernetip/forward_close_request.h:ForwardCloseRequest::serialize"]}
{"id": "C27", "title": "Forward open and close replies decode exactly", "statement": "Forward open and forward close success replies decode to their fields and application data words for every complete input, and raise length_error for every incomplete one.", "quantifier": "every byte string", "why_tests_cant": "all byte strings, all announced application data sizes", "anchors": ["include/odva_ethernetip/forward_open_success.h:ForwardOpenSuccess::deserialize", "include/odva_ethernetip/forward_close_success.h:ForwardCloseSuccess::deserialize"]}
{"id": "C28", "title": "Identity item round trip", "statement": "An identity item whose product name has at most 255 bytes decodes after serialization to the same values, and decoding arbitrary bytes either yields the fields in order or raises length_error.", "quantifier": "every identity value and every byte string", "why_tests_cant": "all names and all byte strings", "anchors": ["src/identity_item_data.cpp:IdentityItemData::serialize", "src/identity_item_data.cpp:IdentityItemData::deserialize"]}
{"id": "C29", "title": "Sequenced address item round trip", "statement": "A sequenced address item is 8 bytes, connection id then sequence number, and decoding inverts encoding; shorter input raises length_error.", "quantifier": "every id and sequence number, every byte string", "why_tests_cant": "2^64 values", "anchors": ["include/odva_ethernetip/sequenced_address_item.h:SequencedAddressItem"]}
{"id": "C30", "title": "Sequenced data items prefix any data type", "statement": "For any data type, wrapping it as a sequenced data item serializes the 16 bit sequence number followed by the data, and decoding a fresh wrapper reads the sequence number and then decodes the data exactly as the unwrapped type would.", "quantifier": "every wrapped type, value and input", "why_tests_cant": "the wrapped type is a template parameter: an open set", "anchors": ["include/odva_ethernetip/sequenced_data_item.h:SequencedDataItem"]}
{"id": "C31", "title": "A sequenced data item can be reused after a failed decode", "statement": "If decoding into a sequenced data item fails, decoding a valid message into the same object afterwards gives the right sequence number and data.", "quantifier": "every failing input followed by every valid input", "why_tests_cant": "depends on the history of the object", "anchors": ["include/odva_ethernetip/sequenced_data_item.h:SequencedDataItem::deserialize"]}
{"id": "C32", "title": "Typed extraction copies the payload", "statement": "Extracting a payload as another type decodes the destination from exactly the payload's serialized bytes, or makes a raw buffer destination view the same bytes; extracting a non-raw payload into a raw buffer always raises logic_error.", "quantifier": "every source and destination type", "why_tests_cant": "source and destination types are open sets", "anchors": ["src/copy_serializable.cpp:copy_serializable", "src/encap_packet.cpp:EncapPacket::getPayloadAs", "src/cpf_item.cpp:CPFItem::getDataAs"]}
{"id": "C33", "title": "A raw buffer object manages its memory correctly", "statement": "Any sequence of successful operations on one raw buffer object (decoding from streams or buffers, assigning external memory, then destruction) frees each allocation exactly once and never touches freed memory.", "quantifier": "every operation sequence on one object", "why_tests_cant": "arbitrary histories; memory errors need not surface in a test", "anchors": ["include/odva_ethernetip/serialization/serializable_buffer.h:SerializableBuffer"]}
{"id": "C34", "title": "Copying raw buffers is safe", "statement": "Extracting a stream-decoded payload into a raw buffer and destroying both objects must not free memory twice.", "quantifier": "every payload decoded from a stream", "why_tests_cant": "memory errors need not surface in a test", "anchors": ["src/copy_serializable.cpp:copy_serializable", "include/odva_ethernetip/serialization/serializable_buffer.h:SerializableBuffer"]}
{"id": "C35", "title": "A failed decode leaves a raw buffer usable", "statement": "After decoding into a raw buffer object raises length_error, the object can still be serialized without touching freed memory.", "quantifier": "every failing decode on every buffer object state", "why_tests_cant": "depends on object history; memory errors need not surface", "anchors": ["include/odva_ethernetip/serialization/serializable_buffer.h:SerializableBuffer::deserialize"]}
{"id": "C36", "title": "Typed extraction does not leave dangling data", "statement": "Data extracted with getPayloadAs/getDataAs remains valid after the call returns as long as the source packet and its memory live.", "quantifier": "every source and destination type", "why_tests_cant": "memory errors need not surface in a test", "anchors": ["src/copy_serializable.cpp:copy_serializable"]}
{"id": "C37", "title": "Opening a session", "statement": "Opening resolves both sockets, sends exactly one register-session request (version 1, options 0), and when it returns normally the session identifier is the handle of the reply, which is non-zero whenever the session was closed before.", "quantifier": "every reply byte string and every prior session state", "why_tests_cant": "all replies", "anchors": ["src/session.cpp:Session::open", "src/session.cpp:Session::sendCommand", "src/session.cpp:Session::check_packet"]}
{"id": "C38", "title": "A rejected registration closes both sockets", "statement": "When opening fails because of the content of the reply, a runtime_error is raised, both sockets are closed and the session identifier is unchanged.", "quantifier": "every reply that is rejected", "why_tests_cant": "all malformed replies", "anchors": ["src/session.cpp:Session::open"]}
{"id": "C39", "title": "Only protocol version 1 is accepted", "statement": "A session is never opened with a target whose registration reply announces a protocol version other than 1.", "quantifier": "every registration reply", "why_tests_cant": "all replies, including truncated ones", "anchors": ["src/session.cpp:Session::open", "include/odva_ethernetip/register_session_data.h:RegisterSessionData"]}
{"id": "C40", "title": "No reply can crash the client", "statement": "Whatever bytes the target sends, every session operation returns or raises an exception; none has undefined behaviour.", "quantifier": "every session operation, session state and reply byte string", "why_tests_cant": "all byte strings for all operations", "anchors": ["src/session.cpp:Session::open", "src/session.cpp:Session::sendRRDataCommand", "src/encap_packet.cpp:EncapPacket::getPayloadAs", "src/cpf_item.cpp:CPFItem::getDataAs", "include/odva_ethernetip/rr_data_response.h:RRDataResponse::getResponseDataAs"]}
{"id": "C41", "title": "Replies are matched to the command and session", "statement": "A reply is accepted only if its command equals the request's and its session handle is the session's identifier (or any non-zero handle while no session is open); otherwise the operation raises and the session state is unchanged.", "quantifier": "every reply, every session identifier", "why_tests_cant": "2^16 commands x 2^32 handles", "anchors": ["src/session.cpp:Session::check_packet", "src/session.cpp:Session::sendCommand"]}
{"id": "C42", "title": "Explicit command outcome", "statement": "An explicit (unconnected) command returns the router reply exactly when the reply frame is complete, matches command and session, is a well-formed unconnected reply and has general status 0; every other reply raises runtime_error.", "quantifier": "every request and every reply byte string", "why_tests_cant": "all replies", "anchors": ["src/session.cpp:Session::sendRRDataCommand"]}
{"id": "C43", "title": "Reading an attribute", "statement": "Reading attribute (class, instance, attribute) sends exactly one frame, a get-attribute-single request for that path under the current session identifier, and returns the little-endian value in the reply's data; data shorter than the type raises length_error.", "quantifier": "every class, instance, attribute, width, session identifier and reply", "why_tests_cant": "all replies and parameters", "anchors": ["src/session.cpp:Session::getSingleAttributeSerializable", "include/odva_ethernetip/session.h:Session::getSingleAttribute"]}
{"id": "C44", "title": "Writing an attribute", "statement": "Writing an attribute sends exactly one frame, a set-attribute-single request for that path carrying exactly the given data under the current session identifier, and returns normally only if the target reports success.", "quantifier": "every class, instance, attribute, data payload, session identifier and reply", "why_tests_cant": "all replies, parameters and payloads", "anchors": ["src/session.cpp:Session::setSingleAttributeSerializable", "include/odva_ethernetip/session.h:Session::setSingleAttribute"]}
{"id": "C45", "title": "A reply for another service is not taken as the answer", "statement": "A command only returns data from a reply whose service code is the request's service with the reply bit set.", "quantifier": "every request and reply", "why_tests_cant": "all service codes", "anchors": ["src/session.cpp:Session::sendRRDataCommand"]}
{"id": "C46", "title": "Closing a session", "statement": "Closing sends one unregister request carrying the session identifier, closes both sockets and resets the identifier to 0; if the send fails nothing else changes, and if closing a socket raises, the error is passed on and the identifier is kept. Destroying a session never raises, and sends the unregister request exactly when a session is open.", "quantifier": "every session state and socket behaviour", "why_tests_cant": "all socket failures at all points", "anchors": ["src/session.cpp:Session::close", "src/session.cpp:Session::~Session"]}
{"id": "C47", "title": "Creating a connection", "statement": "Creating a connection sends one forward open request with fresh identifiers; it returns the index of a newly appended connection exactly when the reply confirms serial number, vendor and originator serial, and that connection carries the identifiers and packet intervals granted by the target; otherwise it raises and the connection list is unchanged.", "quantifier": "every configuration, session state and reply", "why_tests_cant": "all replies", "anchors": ["src/session.cpp:Session::createConnection", "src/connection.cpp:Connection::verifyForwardOpenResult"]}
{"id": "C48", "title": "Connection serial numbers are unique", "statement": "Over any history of operations with fewer than 65536 connection attempts, all open connections have distinct serial numbers, and successive attempts never reuse a serial number or proposed connection identifier.", "quantifier": "every history of session operations, replies and failures", "why_tests_cant": "unbounded histories", "anchors": ["src/session.cpp:Session::createConnection"]}
{"id": "C49", "title": "Closing a connection", "statement": "Closing connection n sends one forward close request identifying it and, exactly when the target confirms, removes that connection and no other, preserving the order of the rest; otherwise it raises and the list is unchanged.", "quantifier": "every connection list, index and reply", "why_tests_cant": "all lists and replies", "anchors": ["src/session.cpp:Session::closeConnection", "src/connection.cpp:Connection::verifyForwardCloseResult"]}
{"id": "C50", "title": "Connection numbers stay valid", "statement": "The number returned when a connection is created designates that connection until it is closed.", "quantifier": "every history of creates and closes", "why_tests_cant": "depends on history", "anchors": ["src/session.cpp:Session::closeConnection", "src/session.cpp:Session::createConnection", "include/odva_ethernetip/session.h:Session::getConnection"]}
{"id": "C51", "title": "Failed operations leave session state unchanged", "statement": "If a session operation raises, the session identifier and the connection list are what they were before; only opening and closing change the identifier and only creating and closing connections change the list.", "quantifier": "every operation, state, reply and socket failure, and every history", "why_tests_cant": "all failures at all points of all histories", "anchors": ["src/session.cpp:Session"]}
{"id": "C52", "title": "Every request is one well-formed frame under the current session", "statement": "In any history every frame put on the control socket by the session is a complete encapsulation packet carrying the session identifier current at the call (0 for registration), and each operation sends at most one frame before waiting for its reply.", "quantifier": "every history of operations", "why_tests_cant": "unbounded histories", "anchors": ["src/session.cpp:Session::sendCommand", "src/session.cpp:Session::close"]}
{"id": "C53", "title": "I/O packets are received and sent faithfully", "statement": "Receiving an I/O packet yields exactly the items of the datagram or raises length_error, for every datagram, and sending an I/O packet transmits exactly its serialization on the I/O socket; neither touches the control socket or the session state.", "quantifier": "every datagram and packet", "why_tests_cant": "all byte strings", "anchors": ["src/session.cpp:Session::receiveIOPacket", "src/session.cpp:Session::sendIOPacket"]}
{"id": "C54", "title": "Received data stays valid", "statement": "Data handed to the user by one receive is not changed by later session operations.", "quantifier": "every received packet and every later operation", "why_tests_cant": "depends on history; aliasing is invisible to single-call tests", "anchors": ["src/session.cpp:Session::receiveIOPacket", "src/session.cpp:Session::sendCommand", "include/odva_ethernetip/serialization/serializable_buffer.h:SerializableBuffer::deserialize"]}
{"id": "C55", "title": "A reply split by the transport is reassembled", "statement": "If the transport delivers a complete reply in several pieces, the operation behaves as if it had been delivered in one piece, and no left-over bytes are taken as the reply to a later request.", "quantifier": "every reply and every split", "why_tests_cant": "all segmentations", "anchors": ["src/session.cpp:Session::sendCommand", "include/odva_ethernetip/socket/tcp_socket.h:TCPSocket::receive"]}
{"id": "C56", "title": "Concurrent callers get their own replies", "statement": "If two threads issue commands on one session, each receives the reply to its own request.", "quantifier": "every interleaving of two commands", "why_tests_cant": "schedules cannot be enumerated by running", "anchors": ["src/session.cpp:Session::sendCommand", "include/odva_ethernetip/session.h:Session::recv_buffer_"]}
{"id": "C57", "title": "Identity scan", "statement": "The scanner sends a 24 byte list-identity request; for any received datagram it reports the identity exactly when the datagram is a complete list-identity reply whose first item is an identity item with complete data, never raises, and never crashes.", "quantifier": "every datagram", "why_tests_cant": "all byte strings", "anchors": ["src/io_scanner.cpp:IOScanner::handleListIdentityResponse", "src/io_scanner.cpp:IOScanner::sendListIdentityRequest"]}
{"id": "C58", "title": "Sending I/O while a command is in progress is harmless", "statement": "If one thread sends any number of I/O packets while another runs a command on the same session, the command has exactly the result and the control traffic it has alone, and the I/O packets go out complete and in order, whatever the interleaving.", "quantifier": "every interleaving of a command with any list of I/O sends, every reply", "why_tests_cant": "schedules cannot be enumerated by running", "anchors": ["src/session.cpp:Session::sendCommand", "src/session.cpp:Session::sendIOPacket", "include/odva_ethernetip/socket/socket.h:Socket::send"]}
{"id": "C59", "title": "Every device that answers a scan is reported", "statement": "The scanner reports the identity of every device whose complete list-identity reply arrives while it runs.", "quantifier": "every list of received datagrams", "why_tests_cant": "all datagram sequences", "anchors": ["src/io_scanner.cpp:IOScanner::IOScanner", "src/io_scanner.cpp:IOScanner::handleListIdentityResponse", "src/io_scanner.cpp:IOScanner::run"]}
{"id": "C60", "title": "A request is transmitted completely", "statement": "Whenever an operation hands a message to the transport, either all its bytes are transmitted or the operation raises.", "quantifier": "every history and every behaviour of the sockets", "why_tests_cant": "short writes depend on the peer and the kernel", "anchors": ["include/odva_ethernetip/socket/tcp_socket.h:TCPSocket::send", "src/session.cpp:Session::sendCommand"]}
{"id": "C61", "title": "A failed open can be retried", "statement": "After an open that raised, calling open again with a target that answers properly succeeds.", "quantifier": "every failure of the first open", "why_tests_cant": "failure points depend on the transport", "anchors": ["src/session.cpp:Session::open", "include/odva_ethernetip/socket/udp_socket.h:UDPSocket::open"]}
{"id": "C62", "title": "I/O data comes from the opened target", "statement": "An I/O packet returned to the user was sent by the target the session was opened to.", "quantifier": "every datagram and sender", "why_tests_cant": "the test socket has no senders", "anchors": ["include/odva_ethernetip/socket/udp_socket.h:UDPSocket::receive", "src/session.cpp:Session::receiveIOPacket"]}
{"id": "C63", "title": "Test socket records what is sent and replays what it was given", "statement": "After any sequence of sends the test socket holds exactly the concatenation of the sent bytes (up to its 4096 byte capacity); successive receives return successive pieces of the given data, each at most as long as requested; clearing empties the record and zeroes the buffer.", "quantifier": "every sequence of sends and receives", "why_tests_cant": "all sequences", "anchors": ["include/odva_ethernetip/socket/test_socket.h:TestSocket::send", "include/odva_ethernetip/socket/test_socket.h:TestSocket::receive", "include/odva_ethernetip/socket/test_socket.h:TestSocket::clearTxBuffer"]}
{"id": "C64", "title": "Commands require an open session", "statement": "An operation that sends an explicit command on a session that is not open raises and accepts no reply.", "quantifier": "every state of a closed session and every reply", "why_tests_cant": "all replies", "anchors": ["src/session.cpp:Session::sendRRDataCommand", "src/session.cpp:Session::check_packet"]}
{"id": "C65", "title": "Closing a session closes its connections", "statement": "When a session is closed, every connection it created is closed and forgotten.", "quantifier": "every session state", "why_tests_cant": "depends on history", "anchors": ["src/session.cpp:Session::close"]}
{"id": "C66", "title": "The session identifier tells whether the session is open", "statement": "The session identifier is non-zero exactly while the sockets are open.", "quantifier": "every history", "why_tests_cant": "depends on history", "anchors": ["src/session.cpp:Session::open", "src/session.cpp:Session::close", "include/odva_ethernetip/session.h:Session::getSessionID"]}
{"id": "C67", "title": "A reply that reports an encapsulation error is not accepted", "statement": "A reply whose encapsulation header has a non-zero status makes the command raise.", "quantifier": "every reply", "why_tests_cant": "all replies", "anchors": ["src/session.cpp:Session::check_packet"]}
{"id": "C68", "title": "An operation only waits for the transport", "statement": "An operation blocks only in a receive on a socket that has nothing to deliver; once it received something it terminates, and operations that receive nothing never block.", "quantifier": "every operation, state and socket behaviour", "why_tests_cant": "absence of blocking cannot be tested", "anchors": ["src/session.cpp:Session::sendCommand", "src/session.cpp:Session::receiveIOPacket", "src/session.cpp:Session::close"]}
{"id": "C69", "title": "Calls leave no memory behind", "statement": "After copy_serializable and after every session operation, whether it returned or raised, the same memory blocks are allocated, with the same sizes, as before the call.", "quantifier": "every source object and destination class that allocate nothing themselves, every history of operations, every socket behaviour", "why_tests_cant": "leaks on exceptional paths need every failure at every point", "anchors": ["src/copy_serializable.cpp:copy_serializable", "src/socket/socket.cpp:Socket::send", "src/session.cpp:Session::sendCommand"]}
{"id": "C70", "title": "Operations raise only the errors they are documented to raise", "statement": "open and setSingleAttribute raise only runtime_error (system_error included); close and sendIOPacket only system_error; getSingleAttribute runtime_error or what decoding the value raises; createConnection and closeConnection runtime_error, logic_error or length_error; receiveIOPacket system_error or length_error; decoding any reply class of the library from a buffer raises only length_error.", "quantifier": "every operation, state, reply and socket behaviour", "why_tests_cant": "all replies and all failure points", "anchors": ["include/odva_ethernetip/session.h:81", "src/session.cpp:Session::open", "src/session.cpp:Session::sendRRDataCommand"]}
{"id": "C71", "title": "A decode told its length stays within it", "statement": "deserialize(reader, length) takes at most length bytes from the reader when it returns.", "quantifier": "every class, every length, every buffer", "why_tests_cant": "every length against every content", "anchors": ["include/odva_ethernetip/serialization/serializable.h", "src/cpf_packet.cpp:CPFPacket::deserialize", "include/odva_ethernetip/message_router_response.h"]}
{"id": "C72", "title": "I/O data arrives as it was sent", "statement": "When sendIOPacket returns, a session that receives the datagram decodes the same items; from a sequenced pair of items the receiver extracts the connection id, the sequence numbers and the value that were sent.", "quantifier": "every packet, every value class, every state of both sessions", "why_tests_cant": "all packets, values and both end states", "anchors": ["src/session.cpp:Session::sendIOPacket", "src/session.cpp:Session::receiveIOPacket", "include/odva_ethernetip/sequenced_data_item.h", "include/odva_ethernetip/sequenced_address_item.h"]}
{"id": "C73", "title": "What is set is what is read back", "statement": "Against any target that stores what it acknowledges: a set that returns has stored exactly the given bytes; a set that raises has stored nothing; a get returns the stored value; after a set and any other operations that do not set the same attribute, a get returns what was set.", "quantifier": "every attribute, value, conforming target, history in between, loss of unsent requests", "why_tests_cant": "every history and every target", "anchors": ["src/session.cpp:Session::setSingleAttributeSerializable", "include/odva_ethernetip/session.h:getSingleAttribute"]}
{"id": "C74", "title": "Client and target agree on the open connections", "statement": "Whatever operations are called on an open session, the connections the session lists are those the target has open.", "quantifier": "every history, every conforming target, every loss", "why_tests_cant": "every history and every point of loss", "anchors": ["src/session.cpp:Session::createConnection", "src/session.cpp:Session::closeConnection"]}
{"id": "C75", "title": "Separate sessions do not interfere", "statement": "Whatever is done with other session objects (construct, copy, destroy, any call) on other sockets, a session object keeps its state, its sockets see no call and its receive buffer keeps its contents.", "quantifier": "every number of objects, every sequence of constructions, copies, destructions and calls, every network behaviour", "why_tests_cant": "every interleaving of whole calls on any number of objects", "anchors": ["include/odva_ethernetip/session.h:Session", "src/session.cpp:Session::Session", "src/session.cpp:Session::~Session"]}
{"id": "C76", "title": "A copied session works on its own", "statement": "Session is copyable; a copy can be used and destroyed without affecting the original.", "quantifier": "every open session, every state of the other objects", "why_tests_cant": "every state of every session", "anchors": ["include/odva_ethernetip/session.h:Session", "src/session.cpp:Session::~Session"]}
{"id": "C77", "title": "No two sessions use the same connection key", "statement": "The triple of connection serial number, vendor id and originator serial number that identifies a connection to a target is never used by two different sessions.", "quantifier": "every pair of sessions, every history of each, every construction time and generator", "why_tests_cant": "every pair of histories and every seed", "anchors": ["src/session.cpp:Session::Session", "src/session.cpp:Session::createConnection"]}
{"id": "C78", "title": "Received data outlives the session", "statement": "A packet returned by receiveIOPacket or an attribute read into a raw buffer can still be used after the session that received it is destroyed.", "quantifier": "every session, every received packet, every attribute", "why_tests_cant": "use after free is not visible to a test unless the memory is reused", "anchors": ["src/session.cpp:Session::receiveIOPacket", "src/session.cpp:Session::getSingleAttributeSerializable", "include/odva_ethernetip/serialization/serializable_buffer.h"]}
{"id": "C79", "title": "An attribute read into a raw buffer keeps its value", "statement": "After getSingleAttributeSerializable into a SerializableBuffer returns, the object shows the attribute's bytes until the caller changes it.", "quantifier": "every attribute, reply, and later operation", "why_tests_cant": "every later operation and reply", "anchors": ["src/session.cpp:Session::getSingleAttributeSerializable", "src/copy_serializable.cpp"]}
{"id": "C80", "title": "Threads that use different sessions do not disturb each other", "statement": "If any number of threads make any calls, and only one of them uses a certain session and its sockets, then under every schedule that thread has exactly the results, and its session the members, sockets, traffic and buffer, that the calls have when nothing else runs; and it finishes as soon as it has had its own number of steps.", "quantifier": "every number of threads and sessions, every list of calls, every schedule", "why_tests_cant": "schedules cannot be enumerated by running", "anchors": ["src/session.cpp:Session", "include/odva_ethernetip/session.h:Session"]}
{"id": "C81", "title": "Sending I/O beside any explicit calls is harmless", "statement": "While any number of threads send I/O packets on a session, and others use other sessions, any list of reads, writes, connection openings and closings on that session made by one thread has the results, the values read, the control traffic and the session state it has alone.", "quantifier": "every list of calls, every number of senders, every schedule", "why_tests_cant": "schedules cannot be enumerated by running", "anchors": ["src/session.cpp:Session::sendIOPacket", "src/session.cpp:Session::sendCommand", "src/session.cpp:Session::createConnection"]}
{"id": "C82", "title": "Connections made by concurrent calls have distinct serial numbers", "statement": "If several threads make connections on one session, all open connections have distinct serial numbers.", "quantifier": "every schedule of every number of threads", "why_tests_cant": "the race window is a few instructions", "anchors": ["src/session.cpp:Session::createConnection"]}
{"id": "C83", "title": "With a lock around each call a session can be shared", "statement": "If every call on a session holds a lock, the calls of all threads have, under every schedule, the results and the effect they have when a single caller makes them in the order in which the lock is taken.", "quantifier": "every number of threads, lists of calls, schedules", "why_tests_cant": "schedules cannot be enumerated by running", "anchors": ["src/session.cpp:Session"]}
{"id": "C84", "title": "Receiving I/O beside explicit calls is harmless", "statement": "If one thread receives I/O packets on a session while another makes explicit calls on it, the receiver gets the items of each datagram.", "quantifier": "every schedule", "why_tests_cant": "the race window is a few instructions", "anchors": ["src/session.cpp:Session::receiveIOPacket", "include/odva_ethernetip/session.h:Session::recv_buffer_"]}
{"id": "C85", "title": "Assigning to an open session ends it", "statement": "Assigning a session object to another ends the session the assigned object had open: it is unregistered and its sockets are closed; otherwise the assigned object has the fields and sockets of the other and nothing else changes.", "quantifier": "every state of both objects and everything the program does later", "why_tests_cant": "the fixture assigns only over a session that was never opened", "anchors": ["include/odva_ethernetip/session.h:Session", "test/session_test.cpp:SessionTest::SetUp"]}
{"id": "C86", "title": "The length of a decoded object is the number of bytes decoded", "statement": "After any successful decode of an object from a buffer, with or without a length, getLength of the object is the number of bytes the decode consumed.", "quantifier": "every class, every input that decodes, every earlier state of the object", "why_tests_cant": "tests check the length of a few decoded objects and never the reader's position", "anchors": ["include/odva_ethernetip/serialization/serializable.h:Serializable::getLength", "src/message_router_response.cpp:MessageRouterResponse::deserialize", "include/odva_ethernetip/rr_data.h:RRData::getLength"]}
{"id": "C87", "title": "Messages that only go one way refuse the other", "statement": "Decoding a router request, forward open or forward close request, and encoding a router reply, forward open or forward close reply, raises logic_error before anything is read, written or changed; a router reply cannot be decoded without a length.", "quantifier": "every object, reader and writer", "why_tests_cant": "the throwing stubs are not exercised by any test", "anchors": ["include/odva_ethernetip/message_router_request.h:MessageRouterRequest::deserialize", "include/odva_ethernetip/message_router_response.h:MessageRouterResponse::serialize", "include/odva_ethernetip/rr_data_request.h:RRDataRequest::setData", "include/odva_ethernetip/rr_data_response.h:RRDataResponse::getData"]}
{"id": "C88", "title": "A failed UDP open leaves the socket as it was", "statement": "When UDPSocket::open raises, the socket keeps its state: it is open if and only if it was, it sends to the same remote endpoint as before, and a later open succeeds whenever it would have succeeded on the socket before the failure.", "quantifier": "every state of any number of sockets, every environment, every later history", "why_tests_cant": "needs port conflicts, a second open and resolver results; no test opens a UDPSocket", "anchors": ["include/odva_ethernetip/socket/udp_socket.h:UDPSocket::open", "include/odva_ethernetip/socket/udp_socket.h:UDPSocket::send"]}
{"id": "C89", "title": "A UDP port has one owner", "statement": "At no time are two UDP sockets of the process bound to the same local port on overlapping addresses; opening a socket whose local port another socket holds raises.", "quantifier": "every history of opens, closes and sends on any number of sockets", "why_tests_cant": "all interleavings; no test opens a UDPSocket", "anchors": ["include/odva_ethernetip/socket/udp_socket.h:UDPSocket::UDPSocket", "include/odva_ethernetip/socket/udp_socket.h:UDPSocket::open"]}
{"id": "C90", "title": "TCP open connects to the first address that accepts", "statement": "TCPSocket::open leaves the socket connected to the first of the resolved addresses that accepts a connection; when there is none it raises and leaves the socket as it was.", "quantifier": "every resolver result, every set of accepting addresses, every state of the socket", "why_tests_cant": "depends on the network; no test opens a TCPSocket", "anchors": ["include/odva_ethernetip/socket/tcp_socket.h:TCPSocket::open"]}
{"id": "C91", "title": "Log calls pass arguments of the types their formats name", "statement": "Every call of a console_bridge log function and of printf passes, for each conversion of its format, an argument of the type that conversion requires (C11 7.21.6.1; anything else is undefined).", "quantifier": "every call of the session and every datagram handled by the scanner, every state and every received byte", "why_tests_cant": "the wrong formats are undefined behaviour that prints plausible numbers on the test machine; most are on paths no test takes", "anchors": ["src/session.cpp:Session::Session", "src/session.cpp:Session::open", "src/session.cpp:Session::check_packet", "src/connection.cpp:Connection::verifyForwardOpenResult", "src/io_scanner.cpp:IOScanner::handleListIdentityResponse"]}
{"id": "C92", "title": "A call that raises because of what it received has logged an error", "statement": "When a session call raises because the reply was malformed, refused or did not match, a message at error level was logged before.", "quantifier": "every call, every reply", "why_tests_cant": "all malformed replies; tests do not look at the log", "anchors": ["src/session.cpp:Session::sendRRDataCommand", "src/session.cpp:Session::open", "src/session.cpp:Session::createConnection", "src/session.cpp:Session::receiveIOPacket", "include/odva_ethernetip/session.h:Session::getSingleAttribute"]}
{"id": "C93", "title": "An error is logged only by a call that raises", "statement": "If a session call logs at error level it ends in an exception; a call that returns has logged no error.", "quantifier": "every call, every state, every reply", "why_tests_cant": "all replies; tests do not look at the log", "anchors": ["src/session.cpp:Session::open", "src/session.cpp:Session::sendCommand", "src/session.cpp:Session::sendRRDataCommand", "src/session.cpp:Session::createConnection", "src/session.cpp:Session::closeConnection"]}
{"id": "C94", "title": "An accepted explicit reply is warned about exactly when something about it is odd", "statement": "When an explicit call returns, a warning was logged if and only if the reply had bytes after the frame, a non-zero status, context or options in its header, more than two items, or a service code other than the requested one with the reply bit.", "quantifier": "every explicit call, every reply", "why_tests_cant": "all replies; tests do not look at the log", "anchors": ["src/session.cpp:Session::sendCommand", "src/session.cpp:Session::check_packet", "src/session.cpp:Session::sendRRDataCommand", "src/rr_data.cpp:RRData::deserialize"]}
{"id": "C95", "title": "The library writes nothing to standard output", "statement": "The library reports through console_bridge only; no call writes to the standard output of the program that uses it.", "quantifier": "every call, every datagram", "why_tests_cant": "tests do not capture the output", "anchors": ["src/connection.cpp:Connection::verifyForwardCloseResult", "src/io_scanner.cpp:IOScanner::handleListIdentityResponse"]}
{"id": "C96", "title": "The warning about a wrong service code names the code that was expected", "statement": "The two numbers in the warning are the code the reply was compared with and the code it had, so they differ.", "quantifier": "every explicit call, every reply with another code", "why_tests_cant": "tests do not look at the log", "anchors": ["src/session.cpp:Session::sendRRDataCommand"]}
{"id": "C97", "title": "The lines printed for an identity show the decoded values", "statement": "For every identity that is listed the log has lines with the decimal values of the version, vendor, device type, product code, revision, status, serial number and state, and the product name.", "quantifier": "every datagram that is accepted, every value of the fields", "why_tests_cant": "values with the high bit set and names with NUL; tests do not look at the log", "anchors": ["src/io_scanner.cpp:IOScanner::handleListIdentityResponse"]}
{"id": "C98", "title": "A write that the stream does not accept is reported", "statement": "When an object is serialized with a StreamWriter, either all of its bytes are put into the stream or the caller is told by an exception, as with a BufferWriter.", "quantifier": "every encoder, every number of bytes the stream still takes", "why_tests_cant": "tests use string streams, which take everything; the property is about streams over any sink", "anchors": ["include/odva_ethernetip/serialization/stream_writer.h:StreamWriter"]}
{"id": "C99", "title": "A reference from getConnection designates its connection while it is open", "statement": "The reference getConnection returns stays valid and designates the same connection as long as that connection is open.", "quantifier": "every history of calls, every growth policy of the vector, every number of connections", "why_tests_cant": "a dangling reference often still reads the old bytes, and no test keeps a reference across another create or close", "anchors": ["include/odva_ethernetip/session.h:Session::getConnection", "src/session.cpp:Session::createConnection", "src/session.cpp:Session::closeConnection"]}
{"id": "C100", "title": "The length in a packet's header is that of the payload that is sent", "statement": "Whatever was done to an EncapPacket and to the payload it shares with its caller, the length field written is the number of payload bytes written, and a receiver gets the whole payload.", "quantifier": "every history of setPayload, updateLength and changes of the payload object, all payloads", "why_tests_cant": "the payload is shared, so the histories are unbounded; tests serialize right after setPayload", "anchors": ["include/odva_ethernetip/encap_packet.h:EncapPacket::updateLength", "include/odva_ethernetip/encap_packet.h:EncapPacket::setPayload", "src/encap_packet.cpp:EncapPacket::serialize"]}
{"id": "C101", "title": "Attribute values of every elementary type are set and read unchanged", "statement": "For each data type of eip_types.h (BOOL, BYTE, USINT, SINT, WORD, UINT, INT, DWORD, UDINT, DINT) setSingleAttribute sends the value in two's complement, low byte first, and getSingleAttribute returns the value the target answered with.", "quantifier": "every type, every value of it, every answer of the target, any operations between", "why_tests_cant": "4 billion values per type and arbitrary bytes in the answer; a bool with another byte than 0 or 1 often works by accident", "anchors": ["include/odva_ethernetip/session.h:Session::getSingleAttribute", "include/odva_ethernetip/session.h:Session::setSingleAttribute", "include/odva_ethernetip/eip_types.h:EIP_BOOL"]}
{"id": "C102", "title": "Decoding into a used object is decoding into a fresh one", "statement": "Decoding a buffer into a message object that was used before gives the same outcome and the same object as decoding it into a new object; nothing of the old message is left.", "quantifier": "every message class, all earlier contents of the object, all buffers, with and without a length", "why_tests_cant": "needs all pairs of old and new contents; tests decode into fresh objects", "anchors": ["src/cpf_packet.cpp:CPFPacket::deserialize", "src/identity_item_data.cpp:IdentityItemData::deserialize", "src/encap_packet.cpp:EncapPacket::deserialize", "src/message_router_response.cpp:MessageRouterResponse::deserialize", "include/odva_ethernetip/sequenced_data_item.h:SequencedDataItem"]}
{"id": "C103", "title": "What was taken from a packet stays valid when the packet goes", "statement": "Items and raw buffers taken out of an encapsulation packet with getPayloadAs keep their bytes when the packet is destroyed or given another payload, and destroying them is safe.", "quantifier": "every packet, every list of items, every payload, decoded from a buffer or from a stream, every memory", "why_tests_cant": "the freed memory usually still holds the bytes; the tests decode from buffers that outlive everything", "anchors": ["include/odva_ethernetip/encap_packet.h:EncapPacket::getPayloadAs", "include/odva_ethernetip/encap_packet.h:EncapPacket::setPayload", "include/odva_ethernetip/serialization/serializable_buffer.h:SerializableBuffer::~SerializableBuffer", "src/cpf_packet.cpp:CPFPacket::deserialize"]}
{"id": "C104", "title": "Decoding takes no more memory than the message it is given", "statement": "Decoding a message allocates at most as many bytes as the message given contains, whatever its length fields say.", "quantifier": "every message class, all input bytes, complete or cut anywhere, every earlier object and memory", "why_tests_cant": "tests decode complete messages with honest length fields; the bound is over all inputs and any number of items", "anchors": ["include/odva_ethernetip/serialization/serializable_buffer.h:SerializableBuffer::deserialize", "src/encap_packet.cpp:EncapPacket::deserialize", "src/cpf_item.cpp:CPFItem::deserializeData"]}
{"id": "C105", "title": "A call abandoned at any point leaves the session in order", "statement": "When an exception that nobody catches (std::bad_alloc, thread interruption) leaves a session call between any two of its steps, the handle, the originator numbers and the connections are as before or the call is complete, the memory is in order, and no later call sends a connection serial number that was sent before.", "quantifier": "every call, every point in it, every history of completed and abandoned calls, every behaviour of the network", "why_tests_cant": "allocation failures at every point of every call in every history cannot be injected by tests", "anchors": ["src/session.cpp:Session::createConnection", "src/session.cpp:Session::sendRRDataCommand", "src/session.cpp:Session::open", "src/session.cpp:Session::closeConnection"]}
{"id": "C106", "title": "After an abandoned call the next call gets its own reply", "statement": "When a call was abandoned at any point and the caller goes on with another, the other call works with the reply to its own request.", "quantifier": "every explicit call, every point in it, every next call, every reply", "why_tests_cant": "needs an abandonment between a send and its receive, followed by any other call", "anchors": ["src/session.cpp:Session::sendCommand", "src/session.cpp:Session::sendRRDataCommand", "include/odva_ethernetip/socket/tcp_socket.h:TCPSocket::receive"]}
{"id": "C107", "title": "Client and target agree after an abandoned call", "statement": "When a call was abandoned at any point, the connections of the session are those the target has open.", "quantifier": "every explicit call, every point in it, every conforming target", "why_tests_cant": "the disagreement is between two machines and only after an abandonment in a window of the call", "anchors": ["src/session.cpp:Session::createConnection", "src/session.cpp:Session::closeConnection"]}
{"id": "C108", "title": "Nothing sent or returned depends on memory nobody wrote", "statement": "Whatever the receive buffers, the scanner's arrays, the members of objects without a constructor and the objects to decode into held before, every history of session calls and every scan sends the same bytes, gives the same results and leaves the same session.", "quantifier": "every history of calls, every behaviour of the network, every initial content of the uninitialised memory", "why_tests_cant": "a test sees one content of the memory, usually zeros", "anchors": ["include/odva_ethernetip/session.h:Session::recv_buffer_", "src/session.cpp:Session::createConnection", "src/session.cpp:Session::closeConnection", "src/session.cpp:Session::sendCommand", "src/io_scanner.cpp:IOScanner::sendListIdentityRequest", "src/io_scanner.cpp:IOScanner::handleListIdentityResponse"]}
{"id": "C109", "title": "A decoded packet contains only bytes of the message", "statement": "The bytes of a packet or item list decoded from a stream are bytes of the stream; memory that held something else before does not become part of it.", "quantifier": "every stream, every content of newly allocated memory", "why_tests_cant": "the leaked bytes are whatever the allocator returns, usually zeros in tests", "anchors": ["include/odva_ethernetip/serialization/serializable_buffer.h:SerializableBuffer::deserialize", "include/odva_ethernetip/serialization/stream_reader.h:StreamReader::readBytes", "src/encap_packet.cpp:EncapPacket::deserialize"]}
{"id": "C110", "title": "The bytes a session sends determine what was asked", "statement": "Two histories of calls that put the same bytes on the control connection, however divided into sends, consist of the same frames, and call by call ask for the same thing: the same kind of request, in the same session, about the same attribute, with the same data, or about a connection with the same numbers, assemblies, intervals and sizes. Calls that ask for the same thing send the same bytes.", "quantifier": "every pair of histories of calls in every pair of sessions, every behaviour of the network", "why_tests_cant": "a collision between two of the requests can hide in any combination of arguments and session states", "anchors": ["src/session.cpp:Session::sendRRDataCommand", "src/session.cpp:Session::createConnection", "src/session.cpp:Session::closeConnection", "src/session.cpp:Session::getSingleAttributeSerializable", "include/odva_ethernetip/forward_open_request.h:ForwardOpenRequest::calcConnectionParams"]}
{"id": "C111", "title": "A packet of any number of items comes back whole", "statement": "A packet made of any items, each with fewer than 65536 bytes, is serialized so that decoding it gives back all of them, or serializing it fails.", "quantifier": "every list of items of any length", "why_tests_cant": "the count wraps at 65536 items; no test builds such packets", "anchors": ["src/cpf_packet.cpp:CPFPacket::serialize", "src/cpf_packet.cpp:CPFPacket::deserialize"]}
{"id": "C112", "title": "A client program is told what the target's state machine says", "statement": "For any client program, whose every call may depend on the results of all the calls before, run in an open session against a target that answers as the protocol demands: every call returns what a state machine of attributes and connections says. A read returns the attribute's value as last written, a write stores it, a new connection gets the next index, a closed one is gone; the caller is told of success exactly when the reply has status 0, of a runtime_error when it has another, of a system_error when the request could not be sent. In the end client and target agree on the connections.", "quantifier": "every adaptive client program, every conforming target, every choice of refusals and failing sends", "why_tests_cant": "the programs form an infinite tree and the target may refuse at any point", "anchors": ["src/session.cpp:Session::createConnection", "src/session.cpp:Session::closeConnection", "src/session.cpp:Session::getSingleAttributeSerializable", "src/session.cpp:Session::setSingleAttributeSerializable", "src/session.cpp:Session::sendRRDataCommand"]}
{"id": "C113", "title": "Clients that share a target are told what one state machine says", "statement": "Any number of client programs, each in a session of its own and with a vendor id and serial number of its own, make calls on one conforming target, in any order. Every call returns what the one state machine of the target says: attributes written by one are read by the others, as last written; connections are numbered and closed by each client on its own, even when connection serial numbers coincide; in the end every client agrees with the target on its connections.", "quantifier": "any number of adaptive programs, every order of their calls, every conforming target", "why_tests_cant": "no test of the project has more than one session, let alone every interleaving", "anchors": ["src/session.cpp:Session::createConnection", "src/session.cpp:Session::closeConnection", "src/session.cpp:Session::getSingleAttributeSerializable", "src/session.cpp:Session::setSingleAttributeSerializable", "src/connection.cpp:Connection::createForwardCloseRequest"]}
{"id": "C114", "title": "A restarted client does not reuse connection keys", "statement": "A client that is started again, with the same vendor id and serial number but at another time, does not ask for connections with keys it asked for before.", "quantifier": "every pair of start times, every generator and the one the code uses, every pair of histories", "why_tests_cant": "a test would have to wait for the one second in tens of thousands that collides", "anchors": ["src/session.cpp:Session::Session", "src/session.cpp:Session::createConnection"]}
{"id": "C115", "title": "Messages do not depend on the byte order of the host", "statement": "The bytes a message is written as are those of the little endian protocol on every host, and so is the message read from given bytes.", "quantifier": "every message, every value of its fields, hosts of either byte order", "why_tests_cant": "the tests run on the byte order of the machine that runs them", "anchors": ["include/odva_ethernetip/serialization/writer.h:Writer::write", "include/odva_ethernetip/serialization/reader.h:Reader::read", "src/encap_header.cpp:EncapHeader::serialize"]}
{"id": "C116", "title": "A session can be opened, used and closed again and again", "statement": "A program may open the session, use it and close it any number of times, deciding each call by what earlier calls told it. Against a target that follows the protocol and TCP and UDP sockets that follow theirs, every call tells it what the target did or why nothing was done; what was written in one session is read in the next; and opening a session that is open is refused without harm to it.", "quantifier": "every program, every conforming target, every failure of opening, sending and closing, every state the program can reach", "why_tests_cant": "programs, replies and failures are unbounded; the tests open a session once", "anchors": ["src/session.cpp:Session::open", "src/session.cpp:Session::close", "src/session.cpp:Session::sendCommand", "src/session.cpp:Session::check_packet", "include/odva_ethernetip/socket/tcp_socket.h:TCPSocket::open"]}
{"id": "C117", "title": "Sessions with several targets do not disturb each other", "statement": "A process may have sessions with several targets at the same time, each with its sockets. What one session is told depends only on its own target and its own sockets: it can be opened while others are open, and its requests go to the target it was opened with, whatever is opened before or after.", "quantifier": "every number of sessions, every assignment of TCP and UDP sockets, every local endpoint, every interleaving of calls, every environment (names, ports of other processes, hosts that accept)", "why_tests_cant": "interleavings and environments are unbounded; the tests use one session on a test socket", "anchors": ["src/session.cpp:Session::open", "src/session.cpp:Session::close", "include/odva_ethernetip/socket/udp_socket.h:UDPSocket::open", "include/odva_ethernetip/socket/tcp_socket.h:TCPSocket::open"]}
{"id": "C118", "title": "A socket lives exactly as long as somebody holds it", "statement": "The sockets given to sessions are shared by reference count between the variables of the program and the sessions. Whatever sockets, variables, sessions and copies a program makes, assigns and ends, the count of a socket is the number of pointers to it; a socket is closed when the last one goes and not disturbed before; no step uses a destroyed socket or destroys it twice; when everything has ended, every socket is closed.", "quantifier": "every sequence of makings of sockets, copies and ends of pointers, constructions, copies, assignments (also to itself), ends and calls of sessions, null pointers included", "why_tests_cant": "the sequences are unbounded; the tests hold one pair of sockets in the fixture and never copy or assign a session", "anchors": ["include/odva_ethernetip/session.h:Session", "src/session.cpp:Session::Session", "src/session.cpp:Session::~Session", "include/odva_ethernetip/socket/socket.h:Socket"]}
{"id": "C119", "title": "The connection of an open session is not closed without telling the target", "statement": "When the last pointer to the control socket of a session with a handle goes, so that its connection is closed, UnRegisterSession has been sent with that handle (or sending it was tried and failed).", "quantifier": "every program as in C118, every open session", "why_tests_cant": "depends on who holds the socket at the end of any sequence of copies, assignments and ends", "anchors": ["include/odva_ethernetip/session.h:Session", "src/session.cpp:Session::~Session", "src/session.cpp:Session::close"]}
{"id": "C120", "title": "Received data can be attributed to one open connection", "statement": "Among the connections of a session that are open at the same time no two have the same T->O connection id, so the address item of received data designates at most one of them.", "quantifier": "every sequence of calls on a session, every content of the replies", "why_tests_cant": "depends on the ids that targets put in replies and on the number of attempts before", "anchors": ["src/session.cpp:Session::createConnection", "src/connection.cpp:Connection::verifyForwardOpenResult", "include/odva_ethernetip/sequenced_address_item.h:SequencedAddressItem"]}
{"id": "C121", "title": "Clients of one target can come and go", "statement": "Any number of programs that open, use and close sessions with one target, calls in any order, are each told what one state machine (attributes, connections, one line per client) says; opening and closing sessions by others changes neither a client's session nor its connections; an attribute read is the one last written, whoever wrote it and whatever sessions were closed since.", "quantifier": "every list of programs with distinct vendor id and serial number, every interleaving of their calls, every failure of the sockets", "why_tests_cant": "quantifies over programs, interleavings and failures", "anchors": ["src/session.cpp:Session::open", "src/session.cpp:Session::close", "src/session.cpp:Session::createConnection", "src/session.cpp:Session::closeConnection", "src/session.cpp:Session::sendRRDataCommand"]}
{"id": "C122", "title": "Overlapping calls of clients of one target take effect one at a time", "statement": "However the calls of any number of clients of one target overlap in time, there is an order of the calls, one after the other, that keeps every result, puts a call that returned before another began before it, and leads the target and the idle clients to the same state; so a read that begins after a write returned gives what was written, unless another write was made meanwhile.", "quantifier": "every list of programs with distinct vendor id and serial number, every interleaving of begins, returns and pieces of traffic, every failure of the sockets", "why_tests_cant": "quantifies over programs and all interleavings inside calls", "anchors": ["src/session.cpp:Session::open", "src/session.cpp:Session::close", "src/session.cpp:Session::sendCommand", "src/session.cpp:Session::sendRRDataCommand"]}
{"id": "C123", "title": "The scanner's log tells what was wrong with an answer", "statement": "A list-identity reply is warned about if and only if it has bytes after the frame, a non-zero session handle, status, context or options, or more than one item; an error is logged if and only if the answer is turned down (receive error, wrong command, no items, wrong item type); the line on standard output is printed if and only if the answer is too short.", "quantifier": "every datagram", "why_tests_cant": "quantifies over all datagrams; the scanner has no tests", "anchors": ["src/io_scanner.cpp:IOScanner::handleListIdentityResponse"]}
{"id": "C124", "title": "Sequence numbers can be stacked", "statement": "An item sequenced any number of times serializes one 16 bit number per level, the outermost first, and then the data; decoding reads the numbers in that order and then decodes the data exactly as the unwrapped type would, and the object can be decoded into again whatever the outcome.", "quantifier": "every wrapped type, number of levels, value and input", "why_tests_cant": "quantifies over all data types, numbers of levels and inputs; the tests sequence an item once", "anchors": ["include/odva_ethernetip/sequenced_data_item.h:SequencedDataItem"]}
{"id": "C125", "title": "Explicit messages and I/O made one after the other do not disturb each other", "statement": "In a history of explicit messages (get, set, create and close connection) and I/O calls (receive, send), whatever the device and the network do, every explicit message has the result and the value it has when the I/O calls are left out, and every I/O call the result and item bytes it has when the explicit messages are left out; session members, socket states and the traffic of each socket end the same, and how the two are interleaved does not matter.", "quantifier": "every history, session state, memory contents, replies, packets and socket failures", "why_tests_cant": "the tests never mix I/O with explicit messages; both use the one receive buffer and the one object, and the claim quantifies over all histories and replies", "anchors": ["src/session.cpp:sendCommand", "src/session.cpp:receiveIOPacket", "src/session.cpp:sendIOPacket", "include/odva_ethernetip/session.h:recv_buffer_"]}
{"id": "C126", "title": "What the session reports about itself is true", "statement": "The log line that a session was opened is written exactly when open returns and names the handle the session then has; an open that returns has warned exactly when the reply it accepted was odd (bytes after the frame, non-zero status, context or options, or a registration other than version 1 with options 0); the lines that a connection identifier was replaced name the identifier asked for and the one the new connection has, exactly when they differ; receiveIOPacket warns exactly when bytes follow the items of the datagram, with the two sizes; no other call writes these lines.", "quantifier": "every call, session state, reply and datagram", "why_tests_cant": "all replies and datagrams; the tests do not look at the log", "anchors": ["src/session.cpp:Session::open", "src/session.cpp:Session::createConnection", "src/connection.cpp:Connection::verifyForwardOpenResult", "src/session.cpp:Session::receiveIOPacket"]}
{"id": "C127", "title": "The log says that the session is closed exactly when it is", "statement": "The line \"Session closed\" is written by close exactly when close returns and the session has no handle any more.", "quantifier": "every session state and every failure of the sockets", "why_tests_cant": "the failures of closing a socket do not happen in tests, and the tests do not look at the log", "anchors": ["src/session.cpp:Session::close"]}
{"id": "C128", "title": "Objects survive a decode that runs out of memory", "statement": "When memory for anything a decode needs cannot be had, the object decoded into, and everything it took, stays valid: it can be read, serialized, decoded into again and destroyed, and no memory is lost.", "quantifier": "every object, reader (buffer or stream), memory contents and every allocation that fails: the data of a message, buffer objects, places in the list of items", "why_tests_cant": "allocations do not fail in tests; the claim quantifies over all objects, streams and points of failure", "anchors": ["include/odva_ethernetip/serialization/serializable_buffer.h:SerializableBuffer::deserialize", "src/encap_packet.cpp:EncapPacket::deserialize", "src/cpf_packet.cpp:CPFPacket::deserialize", "src/rr_data.cpp:RRData::deserialize", "src/message_router_response.cpp:MessageRouterResponse::readData", "src/cpf_item.cpp:CPFItem::deserializeData"]}
{"id": "C129", "title": "Copies of a packet share its data and do not notice each other", "statement": "In a program that constructs, copies, assigns, decodes into and ends packets, lists of items, replies of a device and pointers to their data, every piece of data a variable has can be read; what is done to one variable changes nothing another shows, also when it raises; decoding gives the values it gives without sharing; and the data are given back exactly when the last variable that has them ends.", "quantifier": "every sequence of these operations on any number of variables, from buffers and streams of any content", "why_tests_cant": "use after free and leaks of shared data depend on the order in which copies are made, replaced and ended; the claim is about all orders", "anchors": ["include/odva_ethernetip/encap_packet.h:EncapPacket::setPayload", "src/encap_packet.cpp:EncapPacket::deserialize", "include/odva_ethernetip/cpf_item.h:CPFItem", "src/cpf_item.cpp:CPFItem::deserializeData", "src/cpf_packet.cpp:CPFPacket::deserialize", "include/odva_ethernetip/serialization/serializable_buffer.h:SerializableBuffer", "src/message_router_response.cpp:MessageRouterResponse::deserialize"]}
{"id": "C130", "title": "A packet stays whole when its payload is decoded into through a pointer", "statement": "When the payload of a packet is decoded into again through a pointer taken with getPayload, the packet's header says the length of its payload, all data can be read and the caller's memory is unchanged.", "quantifier": "every reachable state of a program with packets, lists of items and pointers, and every length and reader", "why_tests_cant": "the tests never decode through a shared pointer; the claim is about all states, lengths and readers", "anchors": ["include/odva_ethernetip/encap_packet.h:EncapPacket::getPayload", "include/odva_ethernetip/serialization/serializable_buffer.h:SerializableBuffer::deserialize"]}
{"id": "C131", "title": "A copy of a packet is sent as the packet was when it was copied", "statement": "A packet, list of items or data object of a program is serialized to the bytes of its fields and of the data it shows; a copy or an assigned variable is serialized to the bytes the original would have given at that moment, whatever is then decoded into, assigned to or ended among the other variables, also when a decode raises.", "quantifier": "every program of constructions, copies, assignments, decodes and ends, every continuation that does not change the copy", "why_tests_cant": "whether shared data is changed or given back too early depends on the order of all later operations on every other copy", "anchors": ["src/encap_packet.cpp:EncapPacket::serialize", "src/cpf_packet.cpp:CPFPacket::serialize", "src/cpf_item.cpp:CPFItem::serialize", "include/odva_ethernetip/serialization/serializable_buffer.h:SerializableBuffer::serialize"]}
{"id": "C132", "title": "With exceptions enabled on the stream, a truncated message is always reported", "statement": "Decoding from a std::istream with exceptions enabled gives the same as without while the data last, and raises whenever they do not: any message of which at least the last byte is missing raises std::ios_base::failure, wherever it is cut. After that the objects are as safe as before: a packet, reply, forward-open or forward-close answer keeps its old data, a packet told its length, an item and a list of items own what was read, and every other block taken was given back.", "quantifier": "every message class, every message and every place where it may be cut, every position in the stream, every object and heap before", "why_tests_cant": "the stream may end after any byte of any message, in the middle of nested objects", "anchors": ["include/odva_ethernetip/serialization/stream_reader.h:StreamReader::readBytes", "include/odva_ethernetip/serialization/stream_reader.h:StreamReader::skip", "src/encap_packet.cpp:EncapPacket::deserialize", "src/cpf_packet.cpp:CPFPacket::deserialize", "src/rr_data.cpp:RRData::deserialize", "src/message_router_response.cpp:MessageRouterResponse::deserialize", "src/identity_item_data.cpp:IdentityItemData::deserialize"]}
{"id": "C133", "title": "With exceptions enabled on the stream, an incomplete write is always reported", "statement": "Encoding to a std::ostream with exceptions enabled hands the sink the same bytes as without. If the sink takes the whole message the call returns; if not, the call raises std::ios_base::failure, the sink holds exactly the longest prefix of the message that fits, and every later write to that stream raises and adds nothing. So a caller that sees no exception has sent complete messages only.", "quantifier": "every message class, every message and nested payload, every room left in the sink, every sequence of messages on one stream", "why_tests_cant": "the sink may stop after any byte of any message, in the middle of nested objects", "anchors": ["include/odva_ethernetip/serialization/stream_writer.h:StreamWriter::writeBytes", "include/odva_ethernetip/serialization/stream_writer.h:StreamWriter::writeBuffer", "src/encap_packet.cpp:EncapPacket::serialize", "src/cpf_packet.cpp:CPFPacket::serialize", "src/rr_data.cpp:RRData::serialize", "src/path.cpp:Path::serialize", "src/identity_item_data.cpp:IdentityItemData::serialize"]}
{"id": "C134", "title": "Through a pipe that breaks, the reader gets exactly the packets whose write returned", "statement": "Encapsulation packets are written one after the other, until a write raises, to a std::ostream with exceptions enabled whose sink accepts only so many bytes. Whoever decodes what the sink accepted from a std::istream with exceptions enabled obtains exactly the packets whose write returned, in order and with their contents, and then std::ios_base::failure; a write raised exactly if not every packet was written. (With exceptions off the write of the packet that is cut returns, and the reader takes a packet with zeros in place of the missing bytes.)", "quantifier": "every list of packets with any headers and payloads, every number of bytes the sink accepts, every heap of the reader", "why_tests_cant": "the pipe may break after any byte of any packet of any sequence", "anchors": ["src/encap_packet.cpp:EncapPacket::serialize", "src/encap_packet.cpp:EncapPacket::deserialize", "include/odva_ethernetip/serialization/stream_writer.h:StreamWriter", "include/odva_ethernetip/serialization/stream_reader.h:StreamReader"]}
{"id": "C135", "title": "Sockets hold no more descriptors than allowed, and only what was asked for", "statement": "When the process may hold only so many descriptors, TCPSocket and UDPSocket never make it hold more. A socket that holds a descriptor was asked to open and has not been closed since; close gives the descriptor back. With none left an open of a closed socket raises and takes none; with one left it behaves as without limit, whatever failed before. An open that fails gives back the descriptors it took (false: if the TCP open of Session::open succeeds and the UDP open raises, for lack of a descriptor or because the port is taken, the connection stays open, in the second case the UDP socket too). After an open that failed the call can be made again (true if it failed for lack of a descriptor; false if the port was taken: the UDP socket stays open and every later Session::open raises).", "quantifier": "every number of sockets in every state, every limit at every call, every resolver answer and set of taken ports, every sequence of calls", "why_tests_cant": "descriptors run out at any call of any history over any number of sockets", "anchors": ["include/odva_ethernetip/socket/tcp_socket.h:TCPSocket::open", "include/odva_ethernetip/socket/tcp_socket.h:TCPSocket::close", "include/odva_ethernetip/socket/udp_socket.h:UDPSocket::open", "include/odva_ethernetip/socket/udp_socket.h:UDPSocket::close", "src/session.cpp:Session::open"]}
{"id": "C136", "title": "Nothing depends on the width of size_t", "statement": "On a host with size_t of 32 bits (or any width from 32 to 64) the library does what it does on one with 64 bits: replies are decoded alike, whatever length the decoder is told; sequenced items told at least two bytes are decoded alike, and those told less do the same where raw data is read from a buffer or the class does not use the length; the lengths written into items are the same; a message whose length fits in size_t is sent and copied alike. A message that is longer is refused with length_error: nothing is sent, nothing is written outside the buffer, session and destination stay as they were.", "quantifier": "every width from 32 to 64 bits, every message, length, buffer and stream in the memory of the host", "why_tests_cant": "tests run on one host, and need messages of more than four gigabytes", "anchors": ["src/message_router_response.cpp:MessageRouterResponse::deserialize", "src/message_router_response.cpp:MessageRouterResponse::readData", "include/odva_ethernetip/sequenced_data_item.h:SequencedDataItem::deserialize", "include/odva_ethernetip/encap_packet.h:EncapPacket::getLength", "src/cpf_packet.cpp:CPFPacket::getLength", "include/odva_ethernetip/socket/socket.h:Socket::send", "src/copy_serializable.cpp:copy_serializable"]}
{"id": "C137", "title": "Scanners can be used again, side by side, and on a whole network", "statement": "Any number of IOScanner objects may share an io_service and be made, used and destroyed in any order. A scanner alone on a service sends one well-formed request to the first address of its name, handles the first datagram that reaches it, and run returns. Side by side, run returns exactly when every scanner that listens has asked and gets a datagram; each is told its own first datagram, in no history more than one thing. Undefined behaviour comes only from a dead scanner or from the datagrams of C57. A whole network can be scanned through its broadcast address (false: SO_BROADCAST is not set, send_to is refused, run raises and sends nothing). A second scan on the service works (false: the service stays stopped after run, so no scanner, old or new, reports until the program calls reset(); a scanner that was told something is of no use even then, as only the constructor starts a receive). A scanner that was only made does not disturb others (false: their run never returns). A scanner may be destroyed at any time (false: the handler of its pending receive is called on the dead object by the next run).", "quantifier": "every number of scanners, every sequence of calls, every resolver answer and set of broadcast addresses, every sequence of arrivals", "why_tests_cant": "it is about all orders of making, running and destroying scanners and all orders of arrival; no test touches the scanner's sockets", "anchors": ["src/io_scanner.cpp:IOScanner::IOScanner", "src/io_scanner.cpp:IOScanner::sendListIdentityRequest", "src/io_scanner.cpp:IOScanner::handleListIdentityResponse", "src/io_scanner.cpp:IOScanner::run", "include/odva_ethernetip/io_scanner.h:IOScanner::~IOScanner"]}
{"id": "C138", "title": "A scan reports the device that was asked", "statement": "Whatever is done with any number of scanners, an identity is reported for a scanner only if a datagram that contains it reached that scanner during a run, after the scanner had sent its request (the last part is false on a broadcast address: the request is refused, but the socket has a port then, and what comes there is reported). The identity reported is that of the device that was asked (false: the sender is stored and never looked at, so the first datagram from anybody is reported, and the answer of the device itself is then not looked at).", "quantifier": "every sequence of calls on any number of scanners, every sequence of arrivals from any senders", "why_tests_cant": "it is about all histories and all senders", "anchors": ["src/io_scanner.cpp:IOScanner::IOScanner", "src/io_scanner.cpp:IOScanner::handleListIdentityResponse", "src/io_scanner.cpp:IOScanner::run"]}
