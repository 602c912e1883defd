(** * Tests: unit tests of /repo/test transcribed as examples.

    They check that the model agrees with the behaviour the repository itself
    documents; they are not the properties. *)
From Verif Require Import Scanner Transport Threads.

Definition bl (l : list N) : list byte := map byte_of l.

(** Serialize a complete object in a buffer of exactly [getLength()] bytes. *)
Definition ser_bytes (m : heap) (s : ser) : outcome (list byte * N) :=
  match s_length s with
  | Ret n =>
      let (b, m1) := alloc m (zeros n) in
      match s_serialize s m1 (WBuf (mkV b 0 n) 0) with
      | (Ret _, m2, w) => obind (load m2 b 0 n) (fun bs => Ret (bs, w_count w))
      | (Throw c e, _, _) => Throw c e | (Undef u, _, _) => Undef u | (Stuck, _, _) => Stuck
      end
  | Throw c e => Throw c e | Undef u => Undef u | Stuck => Stuck
  end.

Definition des {T} (x : D T unit) (t : T) (bs : list byte) : outcome unit * T * N :=
  match x [Some bs] (RBuf (mkV 0 0 (len bs)) 0) t with
  | (o, _, RBuf _ c, t') => (o, t', c)
  | (o, _, _, t') => (o, t', 0)
  end.

(** test/session_test.cpp:66-177 test_open (then close). *)
Definition reg_resp := bl [0x65; 0; 4; 0; 0xEF; 0xBE; 0xAD; 0xDE; 0;0;0;0; 0;0;0;0;0;0;0;0; 0;0;0;0; 1;0; 0;0].
Definition quiet : sock := mkSock [] [] [] [].
Definition w0 (ctl : list rx) : world := session_make [] (mkSock [] [] ctl []) quiet 0x1234 0x6789 7 100.

Example test_open_close :
  let (os, w) := exec [OpOpen "example_host" "44818" "2222"; OpClose] (w0 [RxData reg_resp]) in
  os = [Ret RUnit; Ret RUnit] /\ se_id (w_se w) = 0 /\
  w_net w = [EOpen Ctl "example_host" "44818" true; EOpen Io "example_host" "2222" true;
             ESend Ctl (bl [0x65;0;4;0; 0;0;0;0; 0;0;0;0; 0;0;0;0;0;0;0;0; 0;0;0;0; 1;0;0;0]) (Some 28);
             ERecv Ctl (Some reg_resp);
             ESend Ctl (bl [0x66;0;0;0; 0xEF;0xBE;0xAD;0xDE; 0;0;0;0; 0;0;0;0;0;0;0;0; 0;0;0;0]) (Some 24);
             EClose Ctl true; EClose Io true].
Proof. vm_compute. repeat split. Qed.

Definition open_result (reply : list byte) :=
  let (o, w) := session_open "h" "p" "q" (w0 [RxData reply]) in (o, se_id (w_se w)).

(** :179-338 the rejected and tolerated registrations. *)
Example test_open_wrong_command : open_result (zeros 24) = (Throw RuntimeError "Error in registration response", 0).
Proof. vm_compute. reflexivity. Qed.
Example test_open_zero_session : open_result (bl [0x65] ++ zeros 23) = (Throw RuntimeError "Error in registration response", 0).
Proof. vm_compute. reflexivity. Qed.
Example test_open_short_packet : open_result (bl [0x65;0;1;0;1] ++ zeros 19) = (Throw RuntimeError "Invalid response received registering session", 0).
Proof. vm_compute. reflexivity. Qed.
Example test_open_short_data : open_result (bl [0x65;0;2;0;1] ++ zeros 19 ++ bl [1;0]) = (Ret tt, 1).
Proof. vm_compute. reflexivity. Qed.
Example test_open_extra_data :
  open_result (bl [0x65;0;8;0;0xEF;0xBE;0xAD;0xDE] ++ repeat xff 16 ++ bl [1;0] ++ repeat xff 6) = (Ret tt, 0xDEADBEEF).
Proof. vm_compute. reflexivity. Qed.
Example test_open_wrong_version :
  open_result (bl [0x65;0;4;0;0xEF;0xBE;0xAD;0xDE] ++ zeros 16 ++ bl [2;1;0;0])
  = (Throw RuntimeError "Received wrong Ethernet IP Protocol Version on registration", 0).
Proof. vm_compute. reflexivity. Qed.

(** :340-483 test_get_single_attribute. *)
Definition get_resp :=
  bl [0x6F;0;24;0;0xEF;0xBE;0xAD;0xDE] ++ zeros 16 ++
  bl [0;0;0;0; 0;0; 2;0; 0;0; 0;0; 0xB2;0; 8;0; 0x8E;0;0;0; 0xEF;0xCD;0xAB;0xAA].
Example test_get_single_attribute :
  let (o, w) := (do* session_open "h" "p" "q" in getSingleAttribute 4 0 0x75 1 3)
                  (w0 [RxData reg_resp; RxData get_resp]) in
  o = Ret 0xAAABCDEF /\
  nth_error (w_net w) 4 =
    Some (ESend Ctl (bl [0x6F;0;24;0;0xEF;0xBE;0xAD;0xDE] ++ zeros 16 ++
             bl [0;0;0;0;0;0;2;0;0;0;0;0;0xB2;0;8;0;0x0E;3;0x20;0x75;0x24;1;0x30;3]) (Some 48)).
Proof. vm_compute. split; reflexivity. Qed.

(** :485-627 test_set_single_attribute. *)
Definition set_resp :=
  bl [0x6F;0;20;0;0xEF;0xBE;0xAD;0xDE] ++ zeros 16 ++
  bl [0;0;0;0; 0;0; 2;0; 0;0; 0;0; 0xB2;0; 4;0; 0x90;0;0;0].
Example test_set_single_attribute :
  let (o, w) := (do* session_open "h" "p" "q" in setSingleAttribute 2 0x73 1 4 1)
                  (w0 [RxData reg_resp; RxData set_resp]) in
  o = Ret tt /\
  nth_error (w_net w) 4 =
    Some (ESend Ctl (bl [0x6F;0;26;0;0xEF;0xBE;0xAD;0xDE] ++ zeros 16 ++
             bl [0;0;0;0;0;0;2;0;0;0;0;0;0xB2;0;10;0;0x10;3;0x20;0x73;0x24;1;0x30;4;1;0]) (Some 50)).
Proof. vm_compute. split; reflexivity. Qed.

(** :629-952 test_create_connection. *)
Definition fo_resp :=
  bl [0x6F;0;0x56;0;0xEF;0xBE;0xAD;0xDE] ++ zeros 16 ++
  bl [0;0;0;0; 0;0; 2;0; 0;0; 0;0; 0xB2;0; 0x1E;0; 0xDB;0;0;0;
    0x02; 0x00; 0x0C; 0x78; 0x04; 0x00; 0x02; 0x00;
    0x89; 0x67; 0x95; 0x01; 0x21; 0x43; 0x00; 0x00;
    0xD0; 0x81; 0x17; 0x00; 0xD8; 0x5C; 0x02; 0x00;
    0x00; 0x00; 0x00; 0x80; 0x10; 0x00; 0x00; 0x02;
    0x08; 0xAE; 0xC0; 0xA8; 0x01; 0x01; 0x00; 0x00;
    0x00; 0x00; 0x00; 0x00; 0x00; 0x00; 0x01; 0x80;
    0x10; 0x00; 0x00; 0x02; 0x08; 0xAE; 0xC0; 0xA8;
    0x01; 0x07; 0x00; 0x00; 0x00; 0x00; 0x00; 0x00;
    0x00; 0x00].
Definition fc_resp :=
  bl [0x6F; 0x00; 0x1E; 0x00; 0xEF; 0xBE; 0xAD; 0xDE;
    0x00; 0x00; 0x00; 0x00; 0x00; 0x00; 0x00; 0x00;
    0x00; 0x00; 0x00; 0x00; 0x00; 0x00; 0x00; 0x00;
    0x00; 0x00; 0x00; 0x00; 0x00; 0x00; 0x02; 0x00;
    0x00; 0x00; 0x00; 0x00; 0xB2; 0x00; 0x0E; 0x00;
    0xCE; 0x00; 0x00; 0x00; 0x89; 0x67; 0x95; 0x01;
    0x21; 0x43; 0x00; 0x00; 0x00; 0x00].
Definition w1 (ctl : list rx) : world :=
  session_make [] (mkSock [] [] ctl []) quiet 0x0195 0x4321 0x6789 0x00020003.
Example test_create_connection :
  let (o, w) := (do* session_open "h" "p" "q" in
                 let* n := createConnection (mkCI 0x71 0x6E 0x177FA0) (mkCI 0x66 0x584 0x13070) in
                 let* c := getConnection n in mret (n, c))
                  (w1 [RxData reg_resp; RxData fo_resp]) in
  o = Ret (0, mkConn 0x0195 0x4321 0x6789 0x780C0002 0x00020004 6 80 0 0x177FA0 0x13070
                0x001781D0 0x00025CD8 0x6E 0x584
                (mkPath false (bl [0x20;4;0x24;1;0x2C;0x71;0x2C;0x66]))) /\
  nth_error (w_net w) 4 =
    Some (ESend Ctl (bl [0x6F;0;0x46;0;0xEF;0xBE;0xAD;0xDE] ++ zeros 16 ++
      bl [0;0;0;0; 0;0; 2;0; 0;0; 0;0; 0xB2;0; 0x36;0; 0x5B; 2; 0x20; 6; 0x24; 1;
          6; 0x50; 3; 0; 2; 0; 4; 0; 2; 0; 0x89; 0x67; 0x95; 1; 0x21; 0x43; 0; 0; 0; 0; 0; 0;
          0xA0; 0x7F; 0x17; 0; 0x6E; 0; 0; 0x48; 0x70; 0x30; 1; 0; 0x84; 5; 0; 0x4A; 1;
          4; 0x20; 4; 0x24; 1; 0x2C; 0x71; 0x2C; 0x66]) (Some 94)).
Proof. vm_compute. split; reflexivity. Qed.
Example test_close_connection :
  let (o, w) := (do* session_open "h" "p" "q" in
                 let* n := createConnection (mkCI 0x71 0x6E 0x177FA0) (mkCI 0x66 0x584 0x13070) in
                 closeConnection n)
                  (w1 [RxData reg_resp; RxData fo_resp; RxData fc_resp]) in
  o = Ret tt /\ se_conns (w_se w) = [] /\
  nth_error (w_net w) 6 =
    Some (ESend Ctl (bl [0x6F;0;0x26;0;0xEF;0xBE;0xAD;0xDE] ++ zeros 16 ++
      bl [0;0;0;0; 0;0; 2;0; 0;0; 0;0; 0xB2;0; 0x16;0; 0x4E; 2; 0x20; 6; 0x24; 1;
          6; 0x50; 0x89; 0x67; 0x95; 1; 0x21; 0x43; 0; 0; 2; 0; 0x20; 2; 0x24; 1]) (Some 62)).
Proof. vm_compute. repeat split; reflexivity. Qed.

(** :954-1030 test_receive_io_packet (shortened data). *)
Example test_receive_io :
  let (o, w) := (let* p := receiveIOPacket in
                 match p with
                 | [a; b] => let* s := m_copy_local sa_cls (it_data a) (sa_make 0 0) in
                             mret (it_type a, it_getDataLength a, it_type b, it_getDataLength b, s)
                 | _ => mthrow LogicError "x"
                 end)
    (session_make [] quiet (mkSock [] [] [RxData (bl
      [2;0; 2;0x80; 8;0; 4;0;2;0; 0x15;0;0;0; 0xB1;0; 4;0; 0xA1;0;0x76;0x53])] []) 1 1 1 1) in
  o = Ret (0x8002, Ret 8, 0xB1, Ret 4, mkSA 0x20004 0x15).
Proof. vm_compute. reflexivity. Qed.

(** test/message_router_response_test.cpp. *)
Example test_mrr :
  match des (ms_deserialize_len 16) ms_make
          (bl [0xAA;0xFF;0x55;2;0xEF;0xBE;0xAD;0xDE;0;0;0;0;0;0;0;0]) with
  | (Ret _, s, 16) => ms_service s = 0xAA /\ ms_status s = 0x55 /\
      option_map s_sbuf (ms_additional s) = Some (Some (mkSB (mkV 0 4 4) None)) /\
      option_map s_sbuf (ms_data s) = Some (Some (mkSB (mkV 0 8 8) None))
  | _ => False
  end.
Proof. vm_compute. repeat split. Qed.

(** test/forward_open_request_test.cpp. *)
Example test_calc :
  calcConnectionParams 0xFFFF false 0 0 false = 0x7FFF /\
  calcConnectionParams 0 false 0xFF 0 false = 0x0C000000 /\
  calcConnectionParams 0 false 0 0xFF false = 0x60000000 /\
  calcConnectionParams 0x5A5A true 3 2 true = 0xCE005A5A.
Proof. vm_compute. repeat split. Qed.

Definition test_path := cn_points 0x71 0x66 (path_empty false).
Example test_fo_serialize :
  ser_bytes [] (fo_ser (mkFO 6 40 0xDEADBEEF 0xFEAD1234 0xAA55 0xCBA0 0x12345678 3 40000
     (calcConnectionParams 0x55AA false 2 2 false) 500000 (calcConnectionParams 0xA5A5 true 2 2 false) 1 test_path))
  = Ret (bl [6;40;0xEF;0xBE;0xAD;0xDE;0x34;0x12;0xAD;0xFE;0x55;0xAA;0xA0;0xCB;0x78;0x56;0x34;0x12;3;0;0;0;
             0x40;0x9C;0;0;0xAA;0x55;0;0x48;0x20;0xA1;7;0;0xA5;0x25;0;0x4A;1;4;0x20;4;0x24;1;0x2C;0x71;0x2C;0x66], 48).
Proof. vm_compute. reflexivity. Qed.

(** test/forward_close_request_test.cpp. *)
Example test_fc_serialize :
  ser_bytes [] (fc_ser (mkFC 6 40 0xAA55 0xCBA0 0x12345678 test_path))
  = Ret (bl [6;40;0x55;0xAA;0xA0;0xCB;0x78;0x56;0x34;0x12;4;0;0x20;4;0x24;1;0x2C;0x71;0x2C;0x66], 20).
Proof. vm_compute. reflexivity. Qed.

(** test/forward_open_success_test.cpp test_deserialize_with_data. *)
Example test_fos :
  match des fs_deserialize fs_make
    (bl [0xAD;0xDE;0xEF;0xBE;0xEF;0xCD;0xAB;0xA9;0x55;0xAA;0xA9;0xCB;0x12;0x34;0x55;0xAA;
         0x20;0xA1;7;0;0x40;0x9C;0;0;4;0xFF;0x12;0x34;0x56;0x78;0x9A;0xBC;0xDE;0xEF]) with
  | (Ret _, s, 34) =>
      fs_o2t_id s = 0xBEEFDEAD /\ fs_t2o_id s = 0xA9ABCDEF /\ fs_conn_sn s = 0xAA55 /\
      fs_vendor s = 0xCBA9 /\ fs_orig_sn s = 0xAA553412 /\ fs_o2t_api s = 500000 /\ fs_t2o_api s = 40000 /\
      option_map s_sbuf (fs_data s) = Some (Some (mkSB (mkV 0 26 8) None))
  | _ => False
  end.
Proof. vm_compute. repeat split. Qed.

(** test/identity_item_data_test.cpp. *)
Definition test_id_bytes := bl [0x55; 0xAA; 0x00; 0x02; 0x12; 0x34; 0xAB; 0xCD; 0xEF; 0x99;
    0; 0; 0; 0; 0; 0; 0; 0; 0xEE; 0xDD; 0x98; 0x76; 0xA5; 0x5A; 0x6B; 0xC7;
    0xE7; 0x81; 0x78; 0x56; 0x34; 0x12; 0x06; 97; 98; 99; 100; 101; 102; 0x7E].
Definition test_id := mkId 0xAA55 (bl [0;2;0x12;0x34;0xAB;0xCD;0xEF;0x99;0;0;0;0;0;0;0;0])
    0xDDEE 0x7698 0x5AA5 (bl [0x6B;0xC7]) 0x81E7 0x12345678 (bl [97;98;99;100;101;102]) 0x7E.
Example test_identity_des : des id_deserialize id_make test_id_bytes = (Ret tt, test_id, 40).
Proof. vm_compute. reflexivity. Qed.
Example test_identity_ser : ser_bytes [] (id_ser test_id) = Ret (test_id_bytes, 40).
Proof. vm_compute. reflexivity. Qed.

(** The scanner on the identity above wrapped in a List Identity reply. *)
Example test_scan :
  scan_run [] [inr (bl [0x63;0;46;0] ++ zeros 20 ++ bl [1;0;0x0C;0;40;0] ++ test_id_bytes)]
  = [Ret (ScanIdentity test_id)].
Proof. vm_compute. reflexivity. Qed.
Example test_scan_request : scan_request [] = Ret (bl [0x63] ++ zeros 23).
Proof. vm_compute. reflexivity. Qed.
