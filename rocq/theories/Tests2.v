(** * Tests2: the rest of the unit tests of /repo/test, as examples.

    With Tests.v this is every test that is not commented out there; the signed
    primitives (EIP_INT, two's complement) appear with their unsigned representation. *)
From Verif Require Import Scanner Transport Threads Tests.

(** Serialize into a buffer of [n] bytes of 0xFF; block 0 is the sample data. *)
Definition put (data : list byte) (n : N) (x : W) : outcome (list byte * N) :=
  match x [Some data; Some (repeat xff (N.to_nat n))] (WBuf (mkV 1 0 n) 0) with
  | (Ret _, m, w) => obind (load m 1 0 n) (fun bs => Ret (bs, w_count w))
  | (Throw c e, _, _) => Throw c e | (Undef u, _, _) => Undef u | (Stuck, _, _) => Stuck
  end.
Definition put_str (data : list byte) (x : W) : outcome (list byte * N) :=
  match x [Some data] (WStr []) with
  | (Ret _, _, WStr out) => Ret (out, len out)
  | (Throw c e, _, _) => Throw c e | (Undef u, _, _) => Undef u | _ => Stuck
  end.
(** Raw buffer around the first [n] bytes of block 0. *)
Definition sample (n : N) : ser := ser_of_sbuf (mkSB (mkV 0 0 n) None).
Definition raw_part (o n : N) : option (option sbuf) := Some (Some (mkSB (mkV 0 o n) None)).
Definition short {A} (o : outcome A) : Prop := match o with Throw LengthError _ => True | _ => False end.
Definition refuses {A} (o : outcome A) : Prop := match o with Throw LogicError _ | Throw LengthError _ => True | _ => False end.
Definition abc : list byte := bl [97;98;99;100;101;102;103;0].
Definition eight : list byte := bl [0xFF;0xFE;0xFD;0xFC;0xFB;0xFA;0x12;0x34].
Ltac calc := vm_compute; repeat split.

(** ** test/cpf_item_test.cpp *)
Example item_default : it_type it_null = 0 /\ it_getDataLength it_null = Ret 0 /\ it_getLength it_null = Ret 4 /\ it_data it_null = None.
Proof. calc. Qed.
Example item_simple : let i := it_make 0x55AA (Some (sample 6)) in it_type i = 0x55AA /\ it_getDataLength i = Ret 6 /\ it_getLength i = Ret 10 /\ it_data i = Some (sample 6).
Proof. repeat split. Qed.
Definition int8 : list byte := bl [0x89;0x67;0x45;0x23;0x01;0xEF;0xCD;0xAB].
Example item_serialize : it_getLength (it_make 0xAA55 (Some (sample 8))) = Ret 12 /\
  put int8 12 (it_serialize (it_make 0xAA55 (Some (sample 8)))) = Ret (bl [0x55;0xAA;8;0] ++ int8, 12).
Proof. calc. Qed.
Example item_serialize_short : short (put int8 11 (it_serialize (it_make 0xAA55 (Some (sample 8))))).
Proof. calc. Qed.
Example item_deserialize : match des it_deserialize it_null (bl [0x55;0xAA;8;0] ++ int8) with
  | (Ret _, i, 12) => it_type i = 0xAA55 /\ it_getDataLength i = Ret 8 /\ option_map s_sbuf (it_data i) = raw_part 4 8
  | _ => False end.
Proof. calc. Qed.
Example item_deserialize_short : short (fst (fst (des it_deserialize it_null (bl [0;0])))).
Proof. calc. Qed.
Example item_deserialize_short2 : short (fst (fst (des it_deserialize it_null (bl [0x55;0xAA;8;0;0x89;0x67;0x45;0x23;0x01;0xEF;0xCD])))).
Proof. calc. Qed.

(** ** test/cpf_packet_test.cpp *)
Definition beef : list byte := bl [0xEF;0xBE;0xAD;0xDE].
Example cpf_default : cpf_getItemCount [] = 0 /\ put [] 2 (cpf_serialize []) = Ret (bl [0;0], 2).
Proof. calc. Qed.
Example cpf_one_item : let p := [it_make 0x55AA (Some (sample 4))] in
  cpf_getItemCount p = 1 /\ put beef 10 (cpf_serialize p) = Ret (bl [1;0;0xAA;0x55;4;0] ++ beef, 10).
Proof. calc. Qed.
Example cpf_two_items : let p := [it_null; it_make 0x55AA (Some (sample 4))] in
  cpf_getItemCount p = 2 /\ put beef 14 (cpf_serialize p) = Ret (bl [2;0;0;0;0;0;0xAA;0x55;4;0] ++ beef, 14).
Proof. calc. Qed.

(** ** test/encap_header_test.cpp *)
Example header_default : hdr_make 0 0 = mkHdr 0 0 0 0 0 0 0.
Proof. calc. Qed.
Example header_constructor : hdr_make 0x55AA 0x87654321 = mkHdr 0x55AA 0 0x87654321 0 0 0 0.
Proof. calc. Qed.
Definition simple24 : list byte := bl [0xAA;0x55;0;0;0x21;0x43;0x65;0x87] ++ zeros 16.
Definition complex24 : list byte := bl [0xAA;0x55;8;0;0x21;0x43;0x65;0x87;0x98;0xBA;0xDC;0xFE;0x89;0x67;0x45;0x23;1;0xEF;0xCD;0xAB;0xEF;0xBE;0xAD;0xDE].
Definition complex_hdr := mkHdr 0x55AA 8 0x87654321 0xFEDCBA98 0x23456789 0xABCDEF01 0xDEADBEEF.
Example header_serialize_simple : put [] 24 (hdr_serialize (hdr_make 0x55AA 0x87654321)) = Ret (simple24, 24).
Proof. calc. Qed.
Example header_serialize_complex : put [] 24 (hdr_serialize complex_hdr) = Ret (complex24, 24).
Proof. calc. Qed.
Example header_deserialize_simple : des hdr_deserialize (hdr_make 0 0) simple24 = (Ret tt, mkHdr 0x55AA 0 0x87654321 0 0 0 0, 24).
Proof. calc. Qed.
Example header_deserialize_complex : des hdr_deserialize (hdr_make 0 0) (complex24 ++ abc) = (Ret tt, complex_hdr, 24).
Proof. calc. Qed.

(** ** test/encap_packet_test.cpp *)
Example packet_default : ep_header (ep_make0 0 0) = mkHdr 0 0 0 0 0 0 0 /\ ep_getLength (ep_make0 0 0) = Ret 24.
Proof. calc. Qed.
Example packet_constructor : ep_header (ep_make0 0x55AA 0x87654321) = mkHdr 0x55AA 0 0x87654321 0 0 0 0 /\ ep_getLength (ep_make0 0x55AA 0x87654321) = Ret 24.
Proof. calc. Qed.
Example packet_constructor_data : exists p, ep_make 0x55AA 0x87654321 (Some (sample 8)) = Ret p /\
  ep_header p = mkHdr 0x55AA 8 0x87654321 0 0 0 0 /\ ep_getLength p = Ret 32 /\ ep_payload p = Some (sample 8).
Proof. eexists. split; [reflexivity|]. repeat split. Qed.
Example packet_serialize_simple : put [] 24 (ep_serialize (ep_make0 0x55AA 0x87654321)) = Ret (simple24, 24).
Proof. calc. Qed.
Example packet_serialize_simple_short : short (put [] 20 (ep_serialize (ep_make0 0x55AA 0x87654321))).
Proof. calc. Qed.
Definition complex_packet := ep_setPayload (Some (sample 8)) (mkEP (mkHdr 0x55AA 0 0x87654321 0xFEDCBA98 0x23456789 0xABCDEF01 0xDEADBEEF) None).
Example packet_serialize_complex : obind complex_packet (fun p => put abc 32 (ep_serialize p)) = Ret (complex24 ++ abc, 32).
Proof. calc. Qed.
Example packet_serialize_complex_short : short (obind (ep_setPayload (Some (sample 8)) (ep_make0 0 0)) (fun p => put abc 30 (ep_serialize p))).
Proof. calc. Qed.
Example packet_deserialize_simple : match des ep_deserialize (ep_make0 0 0) simple24 with
  | (Ret _, p, 24) => ep_header p = mkHdr 0x55AA 0 0x87654321 0 0 0 0 | _ => False end.
Proof. calc. Qed.
Example packet_deserialize_simple_short : short (fst (fst (des ep_deserialize (ep_make0 0 0) (take 23 simple24)))).
Proof. calc. Qed.
Example packet_deserialize_complex : match des ep_deserialize (ep_make0 0 0) (complex24 ++ abc) with
  | (Ret _, p, 32) => ep_header p = complex_hdr /\ option_map s_sbuf (ep_payload p) = raw_part 24 8 | _ => False end.
Proof. calc. Qed.
Example packet_deserialize_complex_short : short (fst (fst (des ep_deserialize (ep_make0 0 0) (complex24 ++ take 7 abc)))).
Proof. calc. Qed.
(** The test's own class SerializableDummy (:45-79): a buffer that is written and read in place. *)
Definition dummy_ser (v : view) : ser := mkSer (Ret (v_len v)) (w_view v) None.
Definition dummy_cls : cls view :=
  mkCls (DLDirect (fun n => v <- dget ;;; if negb (n =? v_len v) then dthrow LengthError "Wrong size given to deserialize" else rd_into v))
        (v <- dget ;;; rd_into v) None.
(** getPayloadAs on the packet made of [payload]; block 0 holds the data, block 1 the result. *)
Definition payload_as {U} (payload : ser) (c : cls U) (t : U) : outcome (outcome unit * U * option (list byte)) :=
  obind (ep_make 0x55AA 0x87654321 (Some payload)) (fun p =>
    match ep_getPayloadAs c p [Some abc; Some (zeros 8)] (RStr [] 0 false) t with
    | (o, m, _, u) => Ret (o, u, match nth_error m 1 with Some (Some bs) => Some bs | _ => None end) end).
Example payload_as_sb : exists r, payload_as (sample 8) sbuf_cls sb_empty = Ret (Ret tt, mkSB (mkV 0 0 8) None, r).
Proof. eexists. calc. Qed.
Example payload_as_dummy : payload_as (sample 8) dummy_cls (mkV 1 0 8) = Ret (Ret tt, mkV 1 0 8, Some abc).
Proof. calc. Qed.
Example payload_from_dummy : payload_as (dummy_ser (mkV 0 0 8)) dummy_cls (mkV 1 0 8) = Ret (Ret tt, mkV 1 0 8, Some abc).
Proof. calc. Qed.
Example payload_from_dummy_to_sb : match payload_as (dummy_ser (mkV 0 0 8)) sbuf_cls sb_empty with Ret (Throw LogicError _, _, _) => True | _ => False end.
Proof. calc. Qed.

(** ** test/forward_close_success_test.cpp, forward_open_success_test.cpp (without data) *)
Definition fcs10 n := bl [0x55;0xAA;0xA9;0xCB;0x12;0x34;0x55;0xAA;n;0xFF].
Definition more8 := bl [0x12;0x34;0x56;0x78;0x9A;0xBC;0xDE;0xEF].
Example fcs_no_data : cs_getLength cs_make = Ret 10 /\ des (deserialize_len cs_cls 10) cs_make (fcs10 0) = (Ret tt, mkFCS 0xAA55 0xCBA9 0xAA553412 None, 10).
Proof. calc. Qed.
Example fcs_data : match des (deserialize_len cs_cls 18) cs_make (fcs10 4 ++ more8) with
  | (Ret _, s, 18) => cs_conn_sn s = 0xAA55 /\ cs_vendor s = 0xCBA9 /\ cs_orig_sn s = 0xAA553412 /\ option_map s_sbuf (cs_data s) = raw_part 10 8 | _ => False end.
Proof. calc. Qed.
Example fos_no_data : fs_getLength fs_make = Ret 26 /\
  des (deserialize_len fs_cls 26) fs_make (bl [0xAD;0xDE;0xEF;0xBE;0xEF;0xCD;0xAB;0xA9;0x55;0xAA;0xA9;0xCB;0x12;0x34;0x55;0xAA;0x20;0xA1;7;0;0x40;0x9C;0;0;0;0xFF])
  = (Ret tt, mkFOS 0xBEEFDEAD 0xA9ABCDEF 0xAA55 0xCBA9 0xAA553412 500000 40000 None, 26).
Proof. calc. Qed.

(** ** test/forward_open_request_test.cpp (first two lines of test_calc_net_params) *)
Example calc_more : calcConnectionParams 0 false 0 0 false = 0 /\ calcConnectionParams 0 true 0 0 false = 0x02000000.
Proof. calc. Qed.

(** ** test/message_router_request_test.cpp *)
Example mrq_no_data : mq_getLength (mq_make 0xAA) = Ret 2 /\ put [] 2 (mq_serialize (mq_make 0xAA)) = Ret (bl [0xAA;0], 2).
Proof. calc. Qed.
Definition path734 := path_addLogicalAttribute 4 (path_addLogicalInstance 1 (path_addLogicalClass 0x73 (path_empty false))).
Example mrq_data : let q := mkMRQ 0xAA path734 (Some (sample 4)) in
  mq_getLength q = Ret 12 /\ put beef 12 (mq_serialize q) = Ret (bl [0xAA;3;0x20;0x73;0x24;1;0x30;4] ++ beef, 12).
Proof. calc. Qed.

(** ** test/message_router_response_test.cpp *)
Example mrr_no_data : ms_getLength ms_make = Ret 4 /\ des (ms_deserialize_len 4) ms_make (bl [0xAA;0xFF;0x55;0]) = (Ret tt, mkMRR 0xAA 0x55 None None, 4).
Proof. calc. Qed.
Example mrr_status : match des (ms_deserialize_len 8) ms_make (bl [0xAA;0xFF;0x55;2] ++ beef) with
  | (Ret _, s, 8) => ms_service s = 0xAA /\ ms_status s = 0x55 /\ option_map s_sbuf (ms_additional s) = raw_part 4 4 /\ ms_data s = None | _ => False end.
Proof. calc. Qed.
Example mrr_data : match des (ms_deserialize_len 8) ms_make (bl [0xAA;0xFF;0x55;0] ++ beef) with
  | (Ret _, s, 8) => ms_service s = 0xAA /\ ms_status s = 0x55 /\ ms_additional s = None /\ option_map s_sbuf (ms_data s) = raw_part 4 4 | _ => False end.
Proof. calc. Qed.

(** ** test/path_test.cpp *)
Example path_attribute : path_getLength path734 = 7 /\ put [] 7 (path_serialize path734) = Ret (bl [3;0x20;0x73;0x24;1;0x30;4], 7).
Proof. calc. Qed.
Example path_connection : let p := path_addLogicalConnectionPoint 0x66 (path_addLogicalConnectionPoint 0x71 (path_addLogicalInstance 1 (path_addLogicalClass 4 (path_empty false)))) in
  path_getLength p = 9 /\ put [] 9 (path_serialize p) = Ret (bl [4;0x20;4;0x24;1;0x2C;0x71;0x2C;0x66], 9).
Proof. calc. Qed.

(** ** test/rr_data_request_test.cpp *)
Example rrq_no_data : let r := rrq_make 0xAA (path_empty false) None in
  s_length (rrq_ser r) = Ret 18 /\ put [] 18 (s_serialize (rrq_ser r)) = Ret (bl [0;0;0;0;0;0;2;0;0;0;0;0;0xB2;0;2;0;0xAA;0], 18).
Proof. calc. Qed.
Definition rrq28 := bl [0;0;0;0;0;0;2;0;0;0;0;0;0xB2;0;12;0;0xAA;3;0x20;0x73;0x24;1;0x30;4] ++ beef.
Example rrq_data : let r := rrq_make 0xAA path734 (Some (sample 4)) in s_length (rrq_ser r) = Ret 28 /\ put beef 28 (s_serialize (rrq_ser r)) = Ret (rrq28, 28).
Proof. calc. Qed.
Example rrq_data_constructor : let r := rrq_make 0xAA (path_cia 0x73 1 4 false) (Some (sample 4)) in
  s_length (rrq_ser r) = Ret 28 /\ put beef 28 (s_serialize (rrq_ser r)) = Ret (rrq28, 28).
Proof. calc. Qed.

(** ** test/rr_data_response_test.cpp *)
Example rrs_no_data : match des rrs_deserialize rrs_make (beef ++ bl [0x55;0xAA;2;0;0;0;0;0;0xB2;0;4;0;0xAA;0xFF;0x55;0]) with
  | (Ret _, r, 20) => rr_iface r = 0xDEADBEEF /\ rr_timeout r = 0xAA55 /\ rr_ext r = mkMRR 0xAA 0x55 None None | _ => False end.
Proof. calc. Qed.
(** The raw buffers point into the received bytes (block 0), at d + 20 and d + 24. *)
Example rrs_data : match des rrs_deserialize rrs_make (beef ++ bl [0x55;0xAA;2;0;0;0;0;0;0xB2;0;16;0;0xAA;0xFF;0x55;2] ++ beef ++ zeros 8) with
  | (Ret _, r, 32) => rr_iface r = 0xDEADBEEF /\ rr_timeout r = 0xAA55 /\ ms_service (rr_ext r) = 0xAA /\ ms_status (rr_ext r) = 0x55 /\
      option_map s_sbuf (ms_additional (rr_ext r)) = raw_part 20 4 /\ option_map s_sbuf (ms_data (rr_ext r)) = raw_part 24 8
  | _ => False end.
Proof. calc. Qed.

(** ** test/rr_data_test.cpp *)
Definition rr0 : rr_data unit := mkRR 0 0 tt.
Definition rr_in (bs : list byte) := des (c_des rr_base_cls) rr0 bs.
Example rr_serialize_no_data : s_length (rr_base_ser rr0) = Ret 16 /\ put [] 16 (s_serialize (rr_base_ser rr0)) = Ret (bl [0;0;0;0;0;0;2;0;0;0;0;0;0xB2;0;0;0], 16).
Proof. calc. Qed.
Example rr_deserialize_no_data : rr_in (bl [0;0;0;0;0;0;2;0;0;0;0;0;0xB2;0;0;0]) = (Ret tt, mkRR 0 0 tt, 16).
Proof. calc. Qed.
Example rr_deserialize_non_zero : rr_in (beef ++ bl [0x55;0xAA;2;0;0;0;0;0;0xB2;0;0;0]) = (Ret tt, mkRR 0xDEADBEEF 0xAA55 tt, 16).
Proof. calc. Qed.
(** length_error is a logic_error, so ASSERT_THROW(.., std::logic_error) accepts both. *)
Example rr_too_few : refuses (fst (fst (rr_in (bl [0;0;0;0;0;0;1;0;0;0;0;0])))).
Proof. calc. Qed.
Example rr_wrong_address : refuses (fst (fst (rr_in (bl [0;0;0;0;0;0;2;0;0;2;0;0;0xB2;0;0;0])))).
Proof. calc. Qed.
Example rr_address_data : refuses (fst (fst (rr_in (bl [0;0;0;0;0;0;2;0;0;0;2;0;0x55;0xAA;0xB2;0;0;0])))).
Proof. calc. Qed.
Example rr_wrong_type : refuses (fst (fst (rr_in (bl [0;0;0;0;0;0;2;0;0;0;0;0;0xB1;0;0;0])))).
Proof. calc. Qed.

(** ** test/sequenced_address_item_test.cpp *)
Example sa_deserialize_test : des sa_deserialize (sa_make 0 0) (bl [0x55;0xAA;0xEF;0xBE;0xEF;0xBE;0xAD;0xDE]) = (Ret tt, mkSA 0xBEEFAA55 0xDEADBEEF, 8) /\ sa_getLength = 8.
Proof. calc. Qed.
Example sa_serialize_test : put [] 8 (sa_serialize (mkSA 0xDEADBEEF 0xABCD1234)) = Ret (beef ++ bl [0x34;0x12;0xCD;0xAB], 8).
Proof. calc. Qed.

(** ** test/test_socket_test.cpp *)
Definition in8 := bl [0xAA;0x55;0x34;0x12;0xEF;0xBE;0xAD;0xDE].
Example socket_open : let t := ts_do_open "lehost" "aport" (ts_make [] []) in
  ts_open t = true /\ ts_host t = "lehost"%string /\ ts_port t = "aport"%string /\ ts_open (ts_do_close t) = false.
Proof. calc. Qed.
Example socket_send : let t := ts_make (zeros 16) [] in let (n1, t1) := ts_send (take 4 in8) t in let (n2, t2) := ts_send in8 t1 in
  n1 = 4 /\ ts_tx_count t1 = 4 /\ ts_tx_count t2 = 12 /\ take 12 (ts_tx t2) = take 4 in8 ++ in8.
Proof. calc. Qed.
Example socket_receive : let (r, t) := ts_receive 2 (ts_make [] in8) in let (r2, _) := ts_receive 8 t in r = take 2 in8 /\ r2 = drop 2 in8.
Proof. calc. Qed.

(** ** test/serialization/buffer_reader_test.cpp, stream_reader_test.cpp *)
(** Run on input block 0, destination block 1; the outcome, the bytes read and the count. *)
Definition read_buf {A} (x : D unit A) (input : list byte) (n : N) : outcome A * option (list byte) * N :=
  match x [Some input; Some (zeros n)] (RBuf (mkV 0 0 (len input)) 0) tt with
  | (o, m, r, _) => (o, match nth_error m 1 with Some x => x | None => None end, match r with RBuf _ c => c | _ => 0 end) end.
Definition read_str {A} (x : D unit A) (input : list byte) (n : N) : outcome A * option (list byte) * outcome N :=
  match x [None; Some (zeros n)] (RStr input 0 false) tt with
  | (o, m, r, _) => (o, match nth_error m 1 with Some x => x | None => None end, fst (fst (fst (rd_count m r tt)))) end.
Definition two_ints : D unit (N * N) := a <- rd_local 4 ;;; b <- rd_local 4 ;;; dret (a, b).
Example br_int : read_buf two_ints in8 0 = (Ret (0x123455AA, 0xDEADBEEF), Some [], 8).
Proof. calc. Qed.
Example br_int_short : short (fst (fst (read_buf two_ints (take 7 in8) 0))) /\ fst (fst (read_buf (rd_local 4) (take 7 in8) 0)) = Ret 0x123455AA.
Proof. calc. Qed.
Example br_bytes : read_buf (rd_into (mkV 1 0 8)) eight 8 = (Ret tt, Some eight, 8).
Proof. calc. Qed.
Example br_bytes_short : short (fst (fst (read_buf (rd_into (mkV 1 0 8)) (take 7 eight) 8))).
Proof. calc. Qed.
Example br_no_copy : read_buf (rd_view 8) eight 0 = (Ret (mkV 0 0 8), Some [], 8).
Proof. calc. Qed.
Definition skipping : D unit unit := rd_into (mkV 1 0 2) ;;; rd_skip 4 ;;; rd_into (mkV 1 2 2).
Example br_skip : read_buf skipping eight 4 = (Ret tt, Some (bl [0xFF;0xFE;0x12;0x34]), 8).
Proof. calc. Qed.
Example sr_int : read_str two_ints in8 0 = (Ret (0x123455AA, 0xDEADBEEF), Some [], Ret 8).
Proof. calc. Qed.
Example sr_bytes : read_str (rd_into (mkV 1 0 8)) eight 8 = (Ret tt, Some eight, Ret 8).
Proof. calc. Qed.
Example sr_skip : read_str skipping eight 4 = (Ret tt, Some (bl [0xFF;0xFE;0x12;0x34]), Ret 8).
Proof. calc. Qed.

(** ** test/serialization/buffer_writer_test.cpp, stream_writer_test.cpp *)
Definition out_ints : W := w_uint 4 0x123455AA ;; w_uint 4 0xDEADBEEF.
Example bw_int : put [] 8 out_ints = Ret (in8, 8).
Proof. calc. Qed.
Example bw_int_short : short (put [] 7 out_ints) /\ put [] 4 (w_uint 4 0x123455AA) = Ret (take 4 in8, 4).
Proof. calc. Qed.
Example bw_bytes : put [] 8 (w_bytes eight) = Ret (eight, 8) /\ short (put [] 7 (w_bytes eight)).
Proof. calc. Qed.
Example bw_buffer : put eight 8 (w_view (mkV 0 0 8)) = Ret (eight, 8) /\ short (put eight 7 (w_view (mkV 0 0 8))).
Proof. calc. Qed.
Example sw_all : put_str [] out_ints = Ret (in8, 8) /\ put_str [] (w_bytes eight) = Ret (eight, 8) /\ put_str eight (w_view (mkV 0 0 8)) = Ret (eight, 8).
Proof. calc. Qed.

(** ** test/serialization/serializable_buffer_test.cpp *)
Example sb_serialize_test : put eight 8 (sb_serialize (mkSB (mkV 0 0 8) None)) = Ret (eight, 8) /\ short (put eight 7 (sb_serialize (mkSB (mkV 0 0 8) None))).
Proof. calc. Qed.
Definition sb_run (x : D sbuf unit) (m : heap) (r : reader) (s : sbuf) : outcome unit * option (list byte) * option N * sbuf :=
  match x m r s with
  | (o, m', r', s') => (o, match load_view m' (sb_data s') with Ret bs => Some bs | _ => None end, match fst (fst (fst (rd_count m' r' tt))) with Ret n => Some n | _ => None end, s') end.
Example sb_deserialize_test : sb_run sb_deserialize [Some eight; Some (zeros 8)] (RBuf (mkV 0 0 8) 0) (mkSB (mkV 1 0 8) None) = (Ret tt, Some eight, Some 8, mkSB (mkV 1 0 8) None).
Proof. calc. Qed.
Example sb_fixed_length : exists s, sb_run (deserialize_len sbuf_cls 4) [] (RStr eight 0 false) sb_empty = (Ret tt, Some (take 4 eight), Some 4, s).
Proof. eexists. calc. Qed.
Example sb_no_copy : sb_run (deserialize_len sbuf_cls 4) [Some eight] (RBuf (mkV 0 0 8) 0) sb_empty = (Ret tt, Some (take 4 eight), Some 4, mkSB (mkV 0 0 4) None).
Proof. calc. Qed.
Example sb_short : short (fst (fst (fst (sb_run sb_deserialize [Some (take 7 eight); Some (zeros 8)] (RBuf (mkV 0 0 7) 0) (mkSB (mkV 1 0 8) None))))).
Proof. calc. Qed.
Example sb_no_copy_short : short (fst (fst (fst (sb_run (deserialize_len sbuf_cls 9) [Some eight] (RBuf (mkV 0 0 8) 0) sb_empty)))).
Proof. calc. Qed.

(** ** test/serialization/serializable_primitive_test.cpp *)
Example prim_serialize : put [] 4 (s_serialize (prim_ser 4 0xDEADBEEF)) = Ret (beef, 4) /\ put [] 2 (s_serialize (prim_ser 2 0xFFFF)) = Ret (bl [0xFF;0xFF], 2) /\
  short (put [] 3 (s_serialize (prim_ser 4 0xDEADBEEF))).
Proof. calc. Qed.
Example prim_deserialize : des (prim_des 4) 0 beef = (Ret tt, 0xDEADBEEF, 4) /\ des (prim_des 2) 0 (bl [0xFF;0xFF]) = (Ret tt, 0xFFFF, 2) /\
  short (fst (fst (des (prim_des 4) 0 (take 3 beef)))).
Proof. calc. Qed.
