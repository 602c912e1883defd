{
 "claims": [
  {
   "property": "C01",
   "status": "proved",
   "theorems": [
    "C01_integers",
    "C01_integers_back"
   ],
   "note": ""
  },
  {
   "property": "C02",
   "status": "proved",
   "theorems": [
    "C02_writer_fits",
    "C02_writer_full"
   ],
   "note": ""
  },
  {
   "property": "C03",
   "status": "proved",
   "theorems": [
    "C03_reader_fits",
    "C03_reader_short",
    "C03_reader_into",
    "C03_reader_into_short",
    "C03_reader_into_overlap"
   ],
   "note": ""
  },
  {
   "property": "C04",
   "status": "partial",
   "theorems": [
    "C04_serialize",
    "C04_packet",
    "C04_cpf",
    "C04_rr_reply_partial",
    "C04_rr_data_refuted",
    "C04_stream_reads",
    "C04_stream_into"
   ],
   "note": "Holds for serialization, encapsulation packets, CPF packets, and for the outcome, numbers and lengths of an RR reply (C04_rr_reply_partial). Violated for the data of an RR reply: RRData::deserialize reads the items into a local CPFPacket which owns the bytes when the reader is a stream, so for every good reply with data the response data is a use after free (C04_rr_data_refuted)."
  },
  {
   "property": "C05",
   "status": "partial",
   "theorems": [
    "C05_truncation_refuted",
    "C05_count_refuted",
    "C05_header_refuted",
    "C05_payload_refuted",
    "C05_reads_refuted",
    "C05_position_refuted"
   ],
   "note": "Violated by the code: StreamReader never checks the stream state. The _refuted theorems show a strict prefix of a frame decoding without error, an indeterminate item count, and that no header is ever reported short."
  },
  {
   "property": "C06",
   "status": "partial",
   "theorems": [
    "C06_lengths_partial",
    "C06_item_refuted",
    "C06_identity_refuted",
    "C06_forward_close_refuted"
   ],
   "note": "Holds for every class except three, each refuted for all its inputs: a CPF item of 65536 bytes or more, an identity whose name has 256 bytes or more, a forward close request with a padded path."
  },
  {
   "property": "C07",
   "status": "proved",
   "theorems": [
    "C07_send_message",
    "C07_send_any",
    "C07_send_once"
   ],
   "note": ""
  },
  {
   "property": "C08",
   "status": "proved",
   "theorems": [
    "C08_header_encode",
    "C08_header_decode",
    "C08_header_short",
    "C08_header_strict"
   ],
   "note": ""
  },
  {
   "property": "C09",
   "status": "proved",
   "theorems": [
    "C09_packet_decode"
   ],
   "note": ""
  },
  {
   "property": "C10",
   "status": "proved",
   "theorems": [
    "C10_packet_roundtrip"
   ],
   "note": ""
  },
  {
   "property": "C11",
   "status": "partial",
   "theorems": [
    "C11_oversize_refuted"
   ],
   "note": "Violated by the code for every payload of 65536 bytes or more (C11_oversize_refuted). Smaller payloads are C10."
  },
  {
   "property": "C12",
   "status": "proved",
   "theorems": [
    "C12_packet_decode_length"
   ],
   "note": ""
  },
  {
   "property": "C13",
   "status": "proved",
   "theorems": [
    "C13_item_decode",
    "C13_item_decode_length"
   ],
   "note": ""
  },
  {
   "property": "C14",
   "status": "proved",
   "theorems": [
    "C14_cpf_decode"
   ],
   "note": ""
  },
  {
   "property": "C15",
   "status": "proved",
   "theorems": [
    "C15_cpf_roundtrip",
    "C15_cpf_canonical",
    "C15_made"
   ],
   "note": ""
  },
  {
   "property": "C16",
   "status": "partial",
   "theorems": [
    "C16_refused_partial",
    "C16_unconnected_refuted"
   ],
   "note": "Holds when an item or CPF packet is sent directly; violated for the data of an unconnected request (C16_unconnected_refuted, all sizes from 65536)."
  },
  {
   "property": "C17",
   "status": "proved",
   "theorems": [
    "C17_request_format",
    "C17_router",
    "C17_service_only"
   ],
   "note": ""
  },
  {
   "property": "C18",
   "status": "partial",
   "theorems": [
    "C18_reply_acceptance_partial",
    "C18_crash_refuted"
   ],
   "note": "Acceptance is characterised exactly. The part 'always rejected with an exception' is violated by one family of replies, which crash (C18_crash_refuted); C18_reply_acceptance_partial says exactly which."
  },
  {
   "property": "C19",
   "status": "partial",
   "theorems": [
    "C19_reply_decode_partial",
    "C19_huge_refuted"
   ],
   "note": "Proved for replies below 2 GiB; beyond that the code drops the data (C19_huge_refuted). The bound is not reachable through RRDataResponse, whose item length is 16 bit."
  },
  {
   "property": "C20",
   "status": "partial",
   "theorems": [
    "C20_count_refuted",
    "C20_refuted"
   ],
   "note": "Violated by the code: the router reply decoder uses the absolute byte count of the reader. C20_count_refuted gives the exact loss."
  },
  {
   "property": "C21",
   "status": "proved",
   "theorems": [
    "C21_path"
   ],
   "note": ""
  },
  {
   "property": "C22",
   "status": "partial",
   "theorems": [
    "C22_count_partial",
    "C22_count_refuted"
   ],
   "note": "Violated by the code above 255 segments: the count byte is taken modulo 256. C22_count_partial gives the exact bytes for every path; up to 255 segments it is the exact count (C21)."
  },
  {
   "property": "C23",
   "status": "proved",
   "theorems": [
    "C23_parameter_word",
    "C23_no_spill"
   ],
   "note": ""
  },
  {
   "property": "C24",
   "status": "partial",
   "theorems": [
    "C24_size_partial",
    "C24_size_refuted"
   ],
   "note": "Violated by the code for sizes from 32768: the field mask drops the top bit. C24_size_partial gives the exact boundary."
  },
  {
   "property": "C25",
   "status": "proved",
   "theorems": [
    "C25_forward_open"
   ],
   "note": ""
  },
  {
   "property": "C26",
   "status": "proved",
   "theorems": [
    "C26_forward_close"
   ],
   "note": ""
  },
  {
   "property": "C27",
   "status": "proved",
   "theorems": [
    "C27_forward_open_reply",
    "C27_forward_close_reply"
   ],
   "note": ""
  },
  {
   "property": "C28",
   "status": "proved",
   "theorems": [
    "C28_identity_roundtrip",
    "C28_identity_decode"
   ],
   "note": ""
  },
  {
   "property": "C29",
   "status": "proved",
   "theorems": [
    "C29_sequenced_address",
    "C29_sequenced_address_decode",
    "C29_made"
   ],
   "note": ""
  },
  {
   "property": "C30",
   "status": "partial",
   "theorems": [
    "C30_made_partial",
    "C30_encode",
    "C30_decode_buffer_partial",
    "C30_decode_stream_partial",
    "C30_classes_partial",
    "C30_header_refuted",
    "C30_decode_short"
   ],
   "note": "Holds for every modelled class but one. Violated for EncapHeader: its length check calls the virtual getLength(), which in a sequenced header is 26, so it refuses its own 24 bytes when told the length (C30_header_refuted)."
  },
  {
   "property": "C31",
   "status": "partial",
   "theorems": [
    "C31_reuse_refuted",
    "C31_history_refuted"
   ],
   "note": "Violated by the code: an exception while decoding the data leaves the 'busy' flag set; every later decode skips the sequence number (C31_reuse_refuted, all types and inputs)."
  },
  {
   "property": "C32",
   "status": "partial",
   "theorems": [
    "C32_raw_to_typed",
    "C32_typed_to_typed",
    "C32_raw_to_raw",
    "C32_typed_to_raw",
    "C32_sequenced_source_refuted",
    "C32_sequenced_length_refuted",
    "C32_sequenced_destination_refuted"
   ],
   "note": "Proved for raw buffers and for every object that is not a raw buffer. Violated for SequencedDataItem<SerializableBuffer> as source or destination: the sequence number is skipped, and as a source it announces two bytes more than it has (three _refuted theorems)."
  },
  {
   "property": "C33",
   "status": "proved",
   "theorems": [
    "C33_history",
    "C33_failed_history"
   ],
   "note": ""
  },
  {
   "property": "C34",
   "status": "partial",
   "theorems": [
    "C34_double_free_refuted",
    "C34_view_partial"
   ],
   "note": "Violated by the code for every non-empty stream-decoded payload (C34_double_free_refuted). Safe when nothing is owned (C34_view_partial)."
  },
  {
   "property": "C35",
   "status": "partial",
   "theorems": [
    "C35_dangling_refuted",
    "C35_view_partial",
    "C35_fill_partial"
   ],
   "note": "Violated by the code when the object owns its memory (C35_dangling_refuted); otherwise a failed decode changes nothing (the _partial theorems)."
  },
  {
   "property": "C36",
   "status": "partial",
   "theorems": [
    "C36_dangling_refuted",
    "C36_raw_partial",
    "C36_classes_partial"
   ],
   "note": "Violated by the code when the source is not a raw buffer (C36_dangling_refuted). For raw sources extraction frees nothing (C36_raw_partial) for every library class (C36_classes_partial)."
  },
  {
   "property": "C37",
   "status": "proved",
   "theorems": [
    "C37_open_returns",
    "C37_open"
   ],
   "note": ""
  },
  {
   "property": "C38",
   "status": "partial",
   "theorems": [
    "C38_rejected_partial",
    "C38_empty_refuted",
    "C38_close_error_refuted"
   ],
   "note": "Violated in two cases, both proved: a registration reply with an empty payload makes the client dereference a null pointer, and an error while closing the control socket replaces the runtime_error and leaves the I/O socket open. C38_rejected_partial: otherwise, for every reply, open either returns or raises runtime_error with both sockets closed and the session unchanged."
  },
  {
   "property": "C39",
   "status": "partial",
   "theorems": [
    "C39_version_partial",
    "C39_version_refuted"
   ],
   "note": "Violated: a reply whose payload has 1 to 3 bytes is accepted without a version check; the witness announces version 2 in two bytes. The partial theorem shows that every accepted reply with at least 4 bytes of payload announces version 1."
  },
  {
   "property": "C40",
   "status": "partial",
   "theorems": [
    "C40_crash_refuted",
    "C40_crash_partial",
    "C40_classes_partial"
   ],
   "note": "Violated: each operation that awaits a reply can be crashed by one (C40_crash_refuted). C40_crash_partial: from any well-formed state undefined behaviour occurs only in the listed causes (empty registration payload, empty RR payload or unconnected item, successful reply without data, connection number out of range), provided user classes decode without undefined behaviour; C40_classes_partial shows that the library's classes do, except RRDataResponse whose crash is C18."
  },
  {
   "property": "C41",
   "status": "proved",
   "theorems": [
    "C41_matching"
   ],
   "note": ""
  },
  {
   "property": "C42",
   "status": "partial",
   "theorems": [
    "C42_explicit_partial",
    "C42_crash_refuted"
   ],
   "note": "Violated for a reply with an empty payload or an empty unconnected item, which crash the client. The partial theorem gives the outcome for every reply, naming exactly those two."
  },
  {
   "property": "C43",
   "status": "partial",
   "theorems": [
    "C43_get_partial",
    "C43_empty_refuted"
   ],
   "note": "Violated: a successful reply without data crashes the client (for every such reply). The partial theorem gives the outcome for every reply, naming exactly the crashing ones."
  },
  {
   "property": "C44",
   "status": "partial",
   "theorems": [
    "C44_set_partial",
    "C44_oversize_refuted"
   ],
   "note": "Violated for data of 65512 bytes or more: the frame's length fields wrap and stray bytes follow. The partial theorem is the exact outcome for every data and reply; that the bytes are one complete frame for smaller data is C52_frames_partial."
  },
  {
   "property": "C45",
   "status": "partial",
   "theorems": [
    "C45_service_refuted"
   ],
   "note": "Violated: the service code of the reply is ignored (a log warning only); the theorem holds for every service code."
  },
  {
   "property": "C46",
   "status": "proved",
   "theorems": [
    "C46_close",
    "C46_destroy"
   ],
   "note": ""
  },
  {
   "property": "C47",
   "status": "partial",
   "theorems": [
    "C47_create_partial",
    "C47_crash_refuted"
   ],
   "note": "Violated for replies that crash the client: those of C42 and every successful reply without data. The partial theorem gives the outcome for every reply, naming exactly those."
  },
  {
   "property": "C48",
   "status": "proved",
   "theorems": [
    "C48_serial_numbers"
   ],
   "note": ""
  },
  {
   "property": "C49",
   "status": "partial",
   "theorems": [
    "C49_close_partial",
    "C49_number_refuted"
   ],
   "note": "Violated for the crashing replies of C47 and for a number that designates no connection, used unchecked. The partial theorem gives the outcome for every reply and every valid number."
  },
  {
   "property": "C50",
   "status": "partial",
   "theorems": [
    "C50_shift_refuted",
    "C50_wrong_connection_refuted",
    "C50_numbers_partial"
   ],
   "note": "Violated: closing a connection shifts the numbers of all later ones, so the number returned earlier designates another connection or none. The partial theorem: in every history that closes only higher numbers, a number keeps designating its connection."
  },
  {
   "property": "C51",
   "status": "proved",
   "theorems": [
    "C51_operation",
    "C51_history"
   ],
   "note": ""
  },
  {
   "property": "C52",
   "status": "partial",
   "theorems": [
    "C52_frames_partial",
    "C52_calls_partial",
    "C52_initial_partial",
    "C52_oversize_refuted"
   ],
   "note": "Violated for attribute data of 65512 bytes or more (C52_oversize_refuted). Proved for every history whose data fits, whose user objects serialize as bytes kept in memory apart from the receive buffer, and whose user classes do not change memory when decoding from a buffer (all library classes: C36_classes_partial)."
  },
  {
   "property": "C53",
   "status": "proved",
   "theorems": [
    "C53_receive",
    "C53_send"
   ],
   "note": ""
  },
  {
   "property": "C54",
   "status": "partial",
   "theorems": [
    "C54_quiet_partial",
    "C54_overwritten_refuted",
    "C54_command_refuted"
   ],
   "note": "Violated: packets returned by receiveIOPacket alias the receive buffer shared by both sockets, so the next receive or command changes them. The partial theorem: they keep their value through every history in which nothing is received."
  },
  {
   "property": "C55",
   "status": "partial",
   "theorems": [
    "C55_split_raises_partial",
    "C55_segments_partial",
    "C55_stream_partial",
    "C55_split_refuted"
   ],
   "note": "Violated: a reply is taken from a single receive; a split reply raises, and its remaining bytes are taken as the next reply. The partial theorems give the outcome for every operation, reply and split."
  },
  {
   "property": "C56",
   "status": "partial",
   "theorems": [
    "C56_serial_partial",
    "C56_swapped_refuted",
    "C56_datagram_refuted"
   ],
   "note": "Violated: two concurrent commands can each get the other's reply, and a datagram received by a third call can be taken as the reply. The partial theorem: calls that do not overlap behave as sequential calls."
  },
  {
   "property": "C57",
   "status": "partial",
   "theorems": [
    "C57_request_partial",
    "C57_reply_partial",
    "C57_crash_refuted"
   ],
   "note": "Violated for two forms of reply, which dereference a null pointer (an empty payload, or an empty identity item). The partial theorem gives the result for every datagram, naming exactly those. The buffer takes at most 4096 bytes of a datagram."
  },
  {
   "property": "C58",
   "status": "proved",
   "theorems": [
    "C58_sends_harmless",
    "C58_alone"
   ],
   "note": ""
  },
  {
   "property": "C59",
   "status": "partial",
   "theorems": [
    "C59_first_partial",
    "C59_second_refuted"
   ],
   "note": "Violated: only one receive is started, so only the first datagram is looked at; a stray datagram makes the scan report nothing."
  },
  {
   "property": "C60",
   "status": "partial",
   "theorems": [
    "C60_whole_partial",
    "C60_short_write_refuted",
    "C60_datagram_partial"
   ],
   "note": "Violated: socket send results are ignored, a short write (boost's socket.send may write less) is neither continued nor reported. The partial theorem: in every history on sockets that never write short, for any user objects, every message goes out whole. C60_datagram_partial: UDPSocket sends whole datagrams or raises."
  },
  {
   "property": "C61",
   "status": "partial",
   "theorems": [
    "C61_retry_refuted",
    "C61_retry_example_refuted",
    "C61_close_partial",
    "C61_socket_partial"
   ],
   "note": "Violated: an exception of the transport during registration leaves both sockets open; the UDP socket cannot be opened twice, so every retry fails until close() is called. The partial theorem: close() recovers. C61_socket_partial: the assumption about the I/O socket holds in every history of UDPSocket."
  },
  {
   "property": "C62",
   "status": "partial",
   "theorems": [
    "C62_any_sender_refuted",
    "C62_foreign_refuted"
   ],
   "note": "Violated: receive_from stores the sender in a local variable that is never looked at. The refutation is for every datagram and sender."
  },
  {
   "property": "C63",
   "status": "partial",
   "theorems": [
    "C63_records_partial",
    "C63_replays_partial",
    "C63_clear_refuted",
    "C63_history_partial",
    "C63_counts_partial",
    "C63_clear_keeps_refuted"
   ],
   "note": "Violated by clearTxBuffer, which zeroes sizeof(tx_count)=8 of 4096 bytes. Recording and replaying are proved for all sequences."
  },
  {
   "property": "C64",
   "status": "partial",
   "theorems": [
    "C64_closed_refuted",
    "C64_any_handle_refuted"
   ],
   "note": "Violated: no operation checks that the session is open; the request goes out with handle 0 and a reply with any non-zero handle is accepted (for every such reply)."
  },
  {
   "property": "C65",
   "status": "partial",
   "theorems": [
    "C65_kept_refuted",
    "C65_outlives_refuted"
   ],
   "note": "Violated, as the TODO in the code says: close sends no forward close and keeps the list (for every session)."
  },
  {
   "property": "C66",
   "status": "partial",
   "theorems": [
    "C66_open_partial",
    "C66_close_partial",
    "C66_reopen_refuted",
    "C66_reopen_example_refuted"
   ],
   "note": "Violated: opening an open session closes the sockets but keeps the old identifier, unless the target assigns the same one (for every other reply). Proved after every open or close that returns."
  },
  {
   "property": "C67",
   "status": "partial",
   "theorems": [
    "C67_status_refuted",
    "C67_example_refuted",
    "C67_crash_refuted"
   ],
   "note": "Violated: the status only causes a log message (for every status and otherwise valid reply); an error reply without payload crashes the client."
  },
  {
   "property": "C68",
   "status": "proved",
   "theorems": [
    "C68_progress"
   ],
   "note": ""
  },
  {
   "property": "C69",
   "status": "proved",
   "theorems": [
    "C69_copy",
    "C69_history",
    "C69_library"
   ],
   "note": ""
  },
  {
   "property": "C70",
   "status": "proved",
   "theorems": [
    "C70_operations",
    "C70_decoding"
   ],
   "note": ""
  },
  {
   "property": "C71",
   "status": "partial",
   "theorems": [
    "C71_within_partial",
    "C71_cpf_refuted",
    "C71_classes_refuted",
    "C71_router_refuted"
   ],
   "note": "Violated: CPF packets ignore the length for every packet and length; the register, sequenced address, identity, forward open/close reply, integer, RR and sequenced classes take more than they are told (witnesses), and so does a router reply with additional status. Proved for encapsulation headers and packets, CPF items and raw buffers."
  },
  {
   "property": "C72",
   "status": "partial",
   "theorems": [
    "C72_packet_partial",
    "C72_sequenced_partial",
    "C72_oversize_refuted",
    "C72_raw_refuted"
   ],
   "note": "Proved for every packet of at most 4096 bytes and for sequenced data of every class but the raw buffer. Violated otherwise: longer packets are sent but no receiver decodes them, and with a raw buffer the sequence number stays in the data (for every such item)."
  },
  {
   "property": "C73",
   "status": "proved",
   "theorems": [
    "C73_set",
    "C73_set_raised",
    "C73_get",
    "C73_set_get"
   ],
   "note": ""
  },
  {
   "property": "C74",
   "status": "partial",
   "theorems": [
    "C74_agree_partial",
    "C74_lost_open_refuted",
    "C74_lost_close_refuted"
   ],
   "note": "Proved for every history against every target whose replies all arrive. Violated when a reply to a forward open or a forward close is lost (for every such state)."
  },
  {
   "property": "C75",
   "status": "proved",
   "theorems": [
    "C75_sessions_apart",
    "C75_pool_stays_ok",
    "C75_empty_pool"
   ],
   "note": ""
  },
  {
   "property": "C76",
   "status": "partial",
   "theorems": [
    "C76_copied_partial",
    "C76_destroyed_refuted"
   ],
   "note": "Violated: for every open session, destroying a copy unregisters the session and closes the sockets of the original, which still has its identifier. Proved: what a copy is, and that making it disturbs nothing."
  },
  {
   "property": "C77",
   "status": "partial",
   "theorems": [
    "C77_originators_partial",
    "C77_same_second_refuted",
    "C77_second_refuted"
   ],
   "note": "Violated: sessions made in the same second with the same vendor and serial number use the same keys and ids (for every generator), and a conforming target refuses the second connection. Proved for sessions with different vendor and serial number."
  },
  {
   "property": "C78",
   "status": "partial",
   "theorems": [
    "C78_others_partial",
    "C78_packet_refuted",
    "C78_attribute_refuted"
   ],
   "note": "Violated: for every session, all data of every received packet and every raw attribute points into the destroyed session. Proved while only other sessions are used or destroyed."
  },
  {
   "property": "C79",
   "status": "partial",
   "theorems": [
    "C79_quiet_partial",
    "C79_overwritten_refuted"
   ],
   "note": "Violated: for all replies, the next raw read replaces the bytes where the replies overlap. Proved as long as the session receives nothing."
  },
  {
   "property": "C80",
   "status": "proved",
   "theorems": [
    "C80_sessions_apart",
    "C80_classes",
    "C80_steps"
   ],
   "note": ""
  },
  {
   "property": "C81",
   "status": "proved",
   "theorems": [
    "C81_commands",
    "C81_value"
   ],
   "note": ""
  },
  {
   "property": "C82",
   "status": "partial",
   "theorems": [
    "C82_concurrent_refuted",
    "C82_locked_partial"
   ],
   "note": "Violated: two threads that read the counters before either writes them open two connections with the same serial number and the same proposed ids. Proved when each call holds a lock."
  },
  {
   "property": "C83",
   "status": "proved",
   "theorems": [
    "C83_lock"
   ],
   "note": ""
  },
  {
   "property": "C84",
   "status": "partial",
   "theorems": [
    "C84_receive_refuted"
   ],
   "note": "Violated: the shared receive buffer is overwritten by the reply to the other thread between reception and decoding, and receiveIOPacket raises for a complete datagram. With a lock (C83) or on different sessions (C80) it holds."
  },
  {
   "property": "C85",
   "status": "partial",
   "theorems": [
    "C85_assigned_partial",
    "C85_temporary_partial",
    "C85_abandoned_refuted"
   ],
   "note": "Violated: the implicit assignment operator does not run ~Session; for every later history nothing is ever sent on the sockets of the session that was open. Proved that the assigned object otherwise equals the other, also for a temporary as in the repository's tests."
  },
  {
   "property": "C86",
   "status": "partial",
   "theorems": [
    "C86_length_partial",
    "C86_sequenced_partial",
    "C86_rr_refuted"
   ],
   "note": "Proved for every class except: RRData, whose getLength is always 16 whatever was decoded, and RRDataResponse, whose getLength raises (both refuted for all inputs); SequencedDataItem when its decode flag is stuck (C31)."
  },
  {
   "property": "C87",
   "status": "proved",
   "theorems": [
    "C87_one_way",
    "C87_reply_length",
    "C87_wrappers"
   ],
   "note": "Proved as stated for the three request and three reply classes. The wrappers RRDataRequest and RRDataResponse refuse as well (C87_wrappers), but after having read the fields or written six bytes."
  },
  {
   "property": "C88",
   "status": "partial",
   "theorems": [
    "C88_open_exact_partial",
    "C88_redirect_refuted",
    "C88_stuck_refuted"
   ],
   "note": "Violated twice: remote_endpoint_ is assigned before socket_.open, so a second open that raises redirects what the open socket sends; and a bind failure leaves the descriptor open, so every later open raises until close. Both are proved for all states, and C88_open_exact_partial gives the exact outcome in every case."
  },
  {
   "property": "C89",
   "status": "proved",
   "theorems": [
    "C89_one_owner",
    "C89_fresh",
    "C89_refused"
   ],
   "note": ""
  },
  {
   "property": "C90",
   "status": "partial",
   "theorems": [
    "C90_first_partial",
    "C90_lost_refuted"
   ],
   "note": "The first part is proved. The second is violated: boost::asio::connect closes the socket before each attempt, so a failed open ends the connection there was (C90_lost_refuted, for all states); when the name does not resolve nothing changes."
  },
  {
   "property": "C91",
   "status": "partial",
   "theorems": [
    "C91_same_calls",
    "C91_exact_partial",
    "C91_construct_refuted",
    "C91_open_refuted",
    "C91_scan_refuted"
   ],
   "note": "Violated: %zu is given 32 and 16 bit values in nine session/connection formats and five scanner formats, and %d a char* in \"Address: %d : %d\". C91_exact_partial says exactly which calls are undefined; every construction of a session, every successful open and every listed identity makes one (proved for all inputs)."
  },
  {
   "property": "C92",
   "status": "partial",
   "theorems": [
    "C92_speaks_partial",
    "C92_silent_refuted"
   ],
   "note": "runtime_error and logic_error always come with an error in the log (for users' classes that do not raise these themselves). Violated for data that are too short: length_error leaves getSingleAttribute, createConnection, closeConnection and receiveIOPacket with no error logged, for all states (C92_silent_refuted)."
  },
  {
   "property": "C93",
   "status": "proved",
   "theorems": [
    "C93_error_raises"
   ],
   "note": ""
  },
  {
   "property": "C94",
   "status": "proved",
   "theorems": [
    "C94_warned"
   ],
   "note": ""
  },
  {
   "property": "C95",
   "status": "partial",
   "theorems": [
    "C95_others_partial",
    "C95_close_refuted",
    "C95_scan_refuted"
   ],
   "note": "Violated by closeConnection (a debugging printf, src/connection.cpp:133) and by the scanner for datagrams that are too short (src/io_scanner.cpp:156), each proved for all inputs; every other session call prints nothing (C95_others_partial)."
  },
  {
   "property": "C96",
   "status": "partial",
   "theorems": [
    "C96_expected_refuted"
   ],
   "note": "Violated in every call: the line shows the request's code, without the reply bit, as the expected one; a target that echoes the request's code gets \"Expected: 16 but received 16\"."
  },
  {
   "property": "C97",
   "status": "partial",
   "theorems": [
    "C97_lines_partial",
    "C97_serial_refuted",
    "C97_name_refuted"
   ],
   "note": "All fields but three are shown right for every identity. Violated for serial numbers from 2^31 on (shown negative: cast to int) and for names with a NUL (cut); the address line is undefined (C91). Each is proved for all such identities."
  },
  {
   "property": "C98",
   "status": "partial",
   "theorems": [
    "C98_whole_partial",
    "C98_silent_refuted"
   ],
   "note": "Everything arrives when the stream takes it. Violated otherwise, for every encoder and every room: the call returns, the bytes that fit are out, later writes do nothing, and getByteCount returns 2^64-1 (tellp's -1 as size_t)."
  },
  {
   "property": "C99",
   "status": "partial",
   "theorems": [
    "C99_kept_partial",
    "C99_grow_refuted",
    "C99_shift_refuted"
   ],
   "note": "Holds while the vector does not grow and no connection with the same or a lower number is closed. Violated by every successful create on a full vector (all references dangle) and every successful close of a lower number (the reference designates the next connection, or none), in both cases for all states."
  },
  {
   "property": "C100",
   "status": "partial",
   "theorems": [
    "C100_framed_partial",
    "C100_stale_refuted"
   ],
   "note": "Holds when the length was computed after the last change of size. Violated for every change of size without updateLength, by whoever shares the payload (the requirement is documented at encap_packet.h:122-125 but not enforced): the receiver gets a prefix, or a length error."
  },
  {
   "property": "C101",
   "status": "partial",
   "theorems": [
    "C101_set_partial",
    "C101_get_partial",
    "C101_round_partial",
    "C101_bool_refuted"
   ],
   "note": "Holds for every value of every type. Violated for EIP_BOOL when the target answers with a byte other than 0 or 1 (0xFF is a common true): a bool with that byte is read, which is undefined. The model takes any such read as undefined."
  },
  {
   "property": "C102",
   "status": "partial",
   "theorems": [
    "C102_classes_partial",
    "C102_sequenced_partial",
    "C102_buffer_partial"
   ],
   "note": "Holds for every class of fixed messages. A sequenced item holds it unless an earlier decode into it failed (then C31_reuse_refuted applies); a raw buffer object holds it for deserialize(reader, length) when it owns no memory (deserialize(reader) reads as many bytes as the object already has, by design)."
  },
  {
   "property": "C103",
   "status": "partial",
   "theorems": [
    "C103_buffer_partial",
    "C103_items_partial",
    "C103_stream_refuted",
    "C103_raw_refuted"
   ],
   "note": "Holds for packets decoded from a buffer (C103_buffer_partial, C103_items_partial: they own no memory). Violated for packets decoded from a stream: every item with data that was taken out is a view of memory the packet's raw buffer owns, so it is a use after free once the packet is destroyed or gets another payload (C103_stream_refuted), and a raw buffer taken out deletes the memory a second time (C103_raw_refuted)."
  },
  {
   "property": "C104",
   "status": "partial",
   "theorems": [
    "C104_packet_partial",
    "C104_items_partial",
    "C104_bound_partial",
    "C104_packet_refuted",
    "C104_item_refuted"
   ],
   "note": "Buffers: no memory is taken (C36). Streams: complete packets and item lists take exactly their data; for any input the excess is at most 0, 510 or 65535 bytes depending on the class, however many items (C104_bound_partial). Violated: the length field of a packet or item is believed before the bytes are there, so a message of a header alone takes whatever it promises (C104_packet_refuted, C104_item_refuted)."
  },
  {
   "property": "C105",
   "status": "proved",
   "theorems": [
    "C105_members",
    "C105_memory",
    "C105_serial_numbers"
   ],
   "note": "Sockets are not part of the claim: an abandoned open leaves them open."
  },
  {
   "property": "C106",
   "status": "partial",
   "theorems": [
    "C106_point_partial",
    "C106_connection_partial",
    "C106_get_refuted",
    "C106_set_refuted"
   ],
   "note": "Holds when nothing had been sent or the reply had been fetched (C106_point_partial gives the three cases), and createConnection recognises a reply to an abandoned attempt by its serial number. Violated for every explicit call abandoned between its request and its reply: the next get returns the value of the stale reply, the next set reports success on it; nothing correlates replies with requests."
  },
  {
   "property": "C107",
   "status": "partial",
   "theorems": [
    "C107_attributes_partial",
    "C107_create_refuted",
    "C107_created_refuted",
    "C107_close_refuted",
    "C107_closed_refuted"
   ],
   "note": "Holds for attributes. Violated for connections: createConnection records the connection in its last step and closeConnection removes it in its last, so abandoning them after the target acted leaves both sides different."
  },
  {
   "property": "C108",
   "status": "proved",
   "theorems": [
    "C108_history",
    "C108_session",
    "C108_items",
    "C108_get",
    "C108_value",
    "C108_classes",
    "C108_request",
    "C108_scanner"
   ],
   "note": ""
  },
  {
   "property": "C109",
   "status": "partial",
   "theorems": [
    "C109_leak_refuted",
    "C109_packet_partial",
    "C109_items_partial",
    "C109_reply_refuted",
    "C109_replies_partial",
    "C109_rr_partial",
    "C109_buffers",
    "C109_data_partial"
   ],
   "note": "Holds for packets, item lists and unconnected replies read from streams none of whose reads was cut short (and for buffers, which allocate nothing, C36). Violated for a stream that ends before the promised payload: decoding reports success and the missing bytes of the payload are what the new block held before; sending the packet on discloses them (C109_leak_refuted), and service and status of an unconnected reply can be old memory (C109_reply_refuted)."
  },
  {
   "property": "C110",
   "status": "partial",
   "theorems": [
    "C110_history_partial",
    "C110_converse_partial",
    "C110_types_partial",
    "C110_close_partial",
    "C110_size_refuted"
   ],
   "note": "Holds for all calls but with sizes compared modulo 32768. Violated for the sizes: the connection parameters keep 15 bits, so a connection of 110 bytes and one of 32878 bytes are asked for with the same bytes (C110_size_refuted)."
  },
  {
   "property": "C111",
   "status": "partial",
   "theorems": [
    "C111_items_partial",
    "C111_lost_refuted"
   ],
   "note": "Holds for fewer than 65536 items. Violated from there on: the count is written as 16 bits, so a packet of 65537 items is read back as one item and the rest of its bytes is left unread, with no error on either side (C111_lost_refuted)."
  },
  {
   "property": "C112",
   "status": "proved",
   "theorems": [
    "C112_machine"
   ],
   "note": "Programs of attribute reads of primitive types, attribute writes and connection calls, in an open session. The two calls that are undefined behaviour (reading an attribute that holds no bytes, C43; closing a connection index that does not exist, C49) end the program in the state machine too. Opening and closing the session are not part of the programs."
  },
  {
   "property": "C113",
   "status": "proved",
   "theorems": [
    "C113_machine",
    "C113_last_write"
   ],
   "note": "The clients have separate memory and their calls alternate whole (C80 covers threads that run in different sessions inside one program). Clients that go by the same vendor id and serial number are outside the statement; what happens to them is C77."
  },
  {
   "property": "C114",
   "status": "partial",
   "theorems": [
    "C114_apart_partial",
    "C114_pigeonhole_refuted",
    "C114_restart_refuted"
   ],
   "note": "Holds while neither session has asked for more connections than there are serial numbers between the two starts. Violated otherwise: the start is one of 65536 values and a function of the second, so of any 65537 seconds two collide whatever the generator (C114_pigeonhole_refuted), and with mt19937 as the code uses it two seconds 159 apart do (C114_restart_refuted)."
  },
  {
   "property": "C115",
   "status": "partial",
   "theorems": [
    "C115_little_partial",
    "C115_same_order_partial",
    "C115_bytes_refuted",
    "C115_command_refuted",
    "C115_register_refuted"
   ],
   "note": "Holds on little endian hosts, which the rest of the model assumes, and between hosts of the same order. Violated between different orders: integers are copied as the host stores them, so a big endian client's registration carries command 0x6500 (C115_register_refuted)."
  },
  {
   "property": "C116",
   "status": "partial",
   "theorems": [
    "C116_machine",
    "C116_orderly",
    "C116_remembers",
    "C116_reopen_partial",
    "C116_crash_refuted"
   ],
   "note": "Proved: every program is told what a state machine of line, target and client says (C116_machine); a program that opens only when closed and uses only what is open is in a session at every use (C116_orderly); values survive closing and opening (C116_remembers). Violated: open on an open session drops the TCP connection, fails on the UDP socket and keeps the old handle, so later calls fail or dereference a null pointer until the session is closed (C116_reopen_partial, C116_crash_refuted). A lost TCP connection in mid session appears as sends that fail; a reply that never comes is not in this statement."
  },
  {
   "property": "C117",
   "status": "partial",
   "theorems": [
    "C117_one_session_refuted",
    "C117_moved_refuted",
    "C117_redirected_refuted",
    "C117_apart_partial",
    "C117_company_partial"
   ],
   "note": "Proved: sessions that share no socket and whose local UDP endpoints do not clash behave each as in a process of its own, and the converse (C117_apart_partial, C117_company_partial). Violated: with the same UDP port, where implicit messages arrive by default, a second session cannot be opened while the first is open (C117_one_session_refuted); open to another host in mid session fails but leaves the old handle on a TCP connection to the other host, so the next request goes there (C117_moved_refuted, C117_redirected_refuted). Each session has its own heap here; sessions with common memory are C75."
  },
  {
   "property": "C118",
   "status": "proved",
   "theorems": [
    "C118_counts",
    "C118_safe",
    "C118_undisturbed",
    "C118_nothing_left"
   ],
   "note": "Sockets destroyed with their last pointer (Owners.v). C118_counts, C118_safe, C118_undisturbed, C118_nothing_left. The implicit destructors and boost::shared_ptr behave as documented; weak pointers are not used by the code."
  },
  {
   "property": "C119",
   "status": "partial",
   "theorems": [
    "C119_told_partial",
    "C119_dropped_refuted",
    "C119_forgotten_refuted"
   ],
   "note": "Proved for all steps but assignment: C119_told_partial. Violated by the implicit assignment operator: it lets go of the sockets of the session assigned to without close (C119_dropped_refuted for every such assignment, C119_forgotten_refuted for a whole program)."
  },
  {
   "property": "C120",
   "status": "partial",
   "theorems": [
    "C120_own_ids_partial",
    "C120_fresh_ids_partial",
    "C120_given_refuted",
    "C120_shared_refuted"
   ],
   "note": "Proved for up to 2^31 attempts if the targets grant the ids proposed to them (C120_own_ids_partial; C120_fresh_ids_partial: the ids proposed are all different). Violated by a reply that names the id of an open connection: verifyForwardOpenResult takes any id, so two open connections share it (C120_given_refuted for every such reply, C120_shared_refuted from a fresh session)."
  },
  {
   "property": "C121",
   "status": "proved",
   "theorems": [
    "C121_machine",
    "C121_orderly",
    "C121_apart",
    "C121_remembers"
   ],
   "note": "Distinct vendor id and serial number are assumed (the defaults are the same for all programs, see C77). Calls alternate whole. The target keeps connections when a session ends."
  },
  {
   "property": "C122",
   "status": "proved",
   "theorems": [
    "C122_linear",
    "C122_remembers",
    "C122_sequential"
   ],
   "note": "Distinct vendor id and serial number are assumed, as in C121. The target handles one request and its reply at one moment. Each client makes its own calls one after the other (one thread per session)."
  },
  {
   "property": "C123",
   "status": "proved",
   "theorems": [
    "C123_warned",
    "C123_errors",
    "C123_parts"
   ],
   "note": "Datagrams that crash the scanner are named in C57; the first statement covers those with items too."
  },
  {
   "property": "C124",
   "status": "partial",
   "theorems": [
    "C124_encode",
    "C124_buffer_partial",
    "C124_stream_partial",
    "C124_one",
    "C124_header_refuted",
    "C124_short_partial",
    "C124_stale_partial",
    "C124_reuse_refuted"
   ],
   "note": "Formats and decoding into an idle object are proved for every class (told the length: every class but EncapHeader) on buffers and streams. Violated: a sequenced header refuses the length of its own bytes (C124_header_refuted, with the length it wants), and after a failed decode the levels that got their number skip it in the next message (C124_reuse_refuted; C124_short_partial and C124_stale_partial say exactly which)."
  },
  {
   "property": "C125",
   "status": "proved",
   "theorems": [
    "C125_commands",
    "C125_io",
    "C125_order"
   ],
   "note": "Calls do not overlap here; with overlapping calls the shared receive buffer breaks it (C84). What a packet's items hold is read right after the call: a later explicit message overwrites them (C54)."
  },
  {
   "property": "C126",
   "status": "proved",
   "theorems": [
    "C126_opened",
    "C126_registration",
    "C126_leftover",
    "C126_replaced",
    "C126_elsewhere"
   ],
   "note": "The values are those the calls pass; where the format names another type, what is printed is undefined (C91)."
  },
  {
   "property": "C127",
   "status": "partial",
   "theorems": [
    "C127_closed_partial",
    "C127_early_refuted"
   ],
   "note": "A close that returns has written the line and cleared the handle, and one whose unregister message could not be sent has not. Violated whenever the message is sent and a socket cannot be closed: the line is written before the sockets are closed, so it is in the log though close raises and the session keeps its handle (C127_early_refuted)."
  },
  {
   "property": "C128",
   "status": "partial",
   "theorems": [
    "C128_same",
    "C128_packet_partial",
    "C128_told_partial",
    "C128_item_partial",
    "C128_items_partial",
    "C128_router_partial",
    "C128_reply_partial",
    "C128_plain_partial",
    "C128_owner_refuted"
   ],
   "note": "Holds for packets, items, item lists, router replies, unconnected replies and buffer objects that own nothing, whichever allocation of the decode fails, on buffers and streams. Violated for every buffer object that owns a block of another size: the block is deleted before the new one is asked for, and when that raises the object still refers to it (C128_owner_refuted). (The additional status of an unconnected reply read from a stream refers to freed memory even when nothing fails: C04.)"
  },
  {
   "property": "C129",
   "status": "proved",
   "theorems": [
    "C129_safe",
    "C129_readable",
    "C129_kept",
    "C129_caller",
    "C129_copied",
    "C129_assigned",
    "C129_got",
    "C129_decode",
    "C129_decode_len",
    "C129_decode_items",
    "C129_set",
    "C129_decode_reply",
    "C129_got_reply",
    "C129_memory",
    "C129_ended",
    "C129_count"
   ],
   "note": "The caller's memory must outlive the program's variables (hypothesis fair); C78 shows what happens otherwise."
  },
  {
   "property": "C130",
   "status": "partial",
   "theorems": [
    "C130_buffer_partial",
    "C130_length_refuted",
    "C130_short_refuted",
    "C130_stream_refuted"
   ],
   "note": "Violated: the header keeps the old length whenever the payload gets another one (C130_length_refuted), a buffer that is too small leaves every holder of an owned payload with freed memory (C130_short_refuted), and a stream is written into the caller's memory (C130_stream_refuted). Proved for the rest: from a buffer that is large enough everything stays readable and only that object changes (C130_buffer_partial)."
  },
  {
   "property": "C131",
   "status": "proved",
   "theorems": [
    "C131_sent",
    "C131_kept",
    "C131_copied",
    "C131_assigned"
   ],
   "note": ""
  },
  {
   "property": "C132",
   "status": "proved",
   "theorems": [
    "C132_same",
    "C132_truncated",
    "C132_sequenced",
    "C132_frame",
    "C132_item",
    "C132_items",
    "C132_reply",
    "C132_registration",
    "C132_address",
    "C132_number",
    "C132_identity",
    "C132_opened",
    "C132_closed",
    "C132_buffer_left",
    "C132_into_left",
    "C132_packet_left",
    "C132_told_left",
    "C132_item_left",
    "C132_items_left",
    "C132_router_left",
    "C132_reply_left",
    "C132_success_left",
    "C132_plain_left",
    "C132_sequenced_left"
   ],
   "note": ""
  },
  {
   "property": "C133",
   "status": "proved",
   "theorems": [
    "C133_same",
    "C133_told",
    "C133_header",
    "C133_packet",
    "C133_items",
    "C133_request",
    "C133_rr",
    "C133_open",
    "C133_close",
    "C133_identity",
    "C133_parts",
    "C133_stream",
    "C133_failed"
   ],
   "note": ""
  },
  {
   "property": "C134",
   "status": "proved",
   "theorems": [
    "C134_pipe",
    "C134_without"
   ],
   "note": ""
  },
  {
   "property": "C135",
   "status": "partial",
   "theorems": [
    "C135_count_partial",
    "C135_limit_partial",
    "C135_limits_partial",
    "C135_kept_partial",
    "C135_close_partial",
    "C135_none_left_partial",
    "C135_enough_partial",
    "C135_give_back_refuted",
    "C135_again_partial",
    "C135_again_refuted"
   ],
   "note": "The last two sentences are false: Session::open leaves the TCP connection open when the UDP open raises (session.cpp:83-84 are outside any try block), C135_give_back_refuted gives the outcome in each case; after a port conflict no later open succeeds, C135_again_refuted. The rest is proved."
  },
  {
   "property": "C136",
   "status": "proved",
   "theorems": [
    "C136_lengths",
    "C136_reply",
    "C136_sequenced",
    "C136_short_raw",
    "C136_short_checked",
    "C136_send",
    "C136_copy"
   ],
   "note": ""
  },
  {
   "property": "C137",
   "status": "partial",
   "theorems": [
    "C137_alone_partial",
    "C137_reset_partial",
    "C137_returns_partial",
    "C137_told_partial",
    "C137_once_partial",
    "C137_safe_partial",
    "C137_due_partial",
    "C137_history_partial",
    "C137_network_refuted",
    "C137_twice_refuted",
    "C137_same_refuted",
    "C137_deaf_partial",
    "C137_idle_refuted",
    "C137_gone_refuted"
   ],
   "note": "The four sentences marked false are violated: C137_network_refuted, C137_twice_refuted (and C137_same_refuted), C137_idle_refuted, C137_gone_refuted. The rest is proved. The handler of C137_gone_refuted only logs and returns; calling it on an object whose lifetime ended is undefined by the language, with common compilers it does no harm."
  },
  {
   "property": "C138",
   "status": "partial",
   "theorems": [
    "C138_sound_partial",
    "C138_asked_partial",
    "C138_unasked_refuted",
    "C138_stranger_refuted"
   ],
   "note": "The second sentence is violated: device_endpoint_ is never read, C138_stranger_refuted. So is the last part of the first, on broadcast addresses only: C138_unasked_refuted, and C138_asked_partial without them. The rest is proved, C138_sound_partial."
  }
 ]
}