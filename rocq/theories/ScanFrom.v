(** * ScanFrom: who sent what a scanner hears

    async_receive_from stores the sender in device_endpoint_ (src/io_scanner.cpp:54, io_scanner.h:72);
    nothing reads that member. *)
From Verif Require Export ScanNet.

(** run (:160-165) when each datagram has a sender. *)
Definition sc_run_from (k : nat) (e : snet) (arr : list (nat * (endpoint * list byte))) (s : service) : outcome unit * service :=
  sc_run k e (map (fun x => (fst x, inr (snd (snd x)))) arr) s.
