(** * Transport: what the concrete sockets turn network input into. *)
From Verif Require Export Session.

(** TCPSocket::receive (socket/tcp_socket.h:87-91, asio receive): a byte stream
    delivered in the segments the network chose; one call returns the rest of the
    first pending segment, at most the size of the buffer.  [fuel] bounds the
    number of pieces of one segment. *)
Fixpoint tcp_pieces (fuel : nat) (max : N) (seg : list byte) : list rx :=
  match fuel with
  | O => []
  | S f => match seg with
           | [] => []
           | _ => RxData (take max seg) :: tcp_pieces f max (drop max seg)
           end
  end.
Definition tcp_script (max : N) (segments : list (list byte)) : list rx :=
  flat_map (fun s => tcp_pieces (List.length s) max s) segments.

(** UDPSocket::receive (socket/udp_socket.h:89-94): receive_from any sender; the
    endpoint is dropped; the part of a datagram that does not fit is lost (as in
    [sock_recv]). *)
Record datagram := mkDG { dg_from : string; dg_bytes : list byte }.
Definition udp_script (inbox : list datagram) : list rx :=
  map (fun d => RxData (dg_bytes d)) inbox.

(** ** TestSocket (socket/test_socket.h:44-125) *)
Record test_socket := mkTS {
  ts_open : bool; ts_host : string; ts_port : string;
  ts_tx : list byte (* 4096 bytes *); ts_tx_count : N; ts_rx : list byte; ts_rx_count : N }.

(** Constructor, :67-69; tx_buffer is uninitialised ([junk]). *)
Definition ts_make (junk rx : list byte) : test_socket :=
  mkTS false EmptyString EmptyString junk 0 rx 0.
(** open, :76-81; close, :86-89. *)
Definition ts_do_open (h p : string) (t : test_socket) : test_socket :=
  mkTS true h p (ts_tx t) (ts_tx_count t) (ts_rx t) (ts_rx_count t).
Definition ts_do_close (t : test_socket) : test_socket :=
  mkTS false (ts_host t) (ts_port t) (ts_tx t) (ts_tx_count t) (ts_rx t) (ts_rx_count t).
(** send, :96-101: buffer_copy into the remaining room. *)
Definition ts_send (bs : list byte) (t : test_socket) : N * test_socket :=
  let n := N.min (len bs) (4096 - ts_tx_count t) in
  (n, mkTS (ts_open t) (ts_host t) (ts_port t)
        (take (ts_tx_count t) (ts_tx t) ++ take n bs ++ drop (ts_tx_count t + n) (ts_tx t))
        (ts_tx_count t + n) (ts_rx t) (ts_rx_count t)).
(** receive, :108-114, into a buffer of [max] bytes. *)
Definition ts_receive (max : N) (t : test_socket) : list byte * test_socket :=
  let got := take max (ts_rx t) in
  (got, mkTS (ts_open t) (ts_host t) (ts_port t) (ts_tx t) (ts_tx_count t)
             (drop (len got) (ts_rx t)) (ts_rx_count t + len got)).
(** clearTxBuffer, :119-123: sizeof(tx_count) is 8, so only 8 bytes are cleared. *)
Definition ts_clear (t : test_socket) : test_socket :=
  mkTS (ts_open t) (ts_host t) (ts_port t) (zeros 8 ++ drop 8 (ts_tx t)) 0 (ts_rx t) (ts_rx_count t).
