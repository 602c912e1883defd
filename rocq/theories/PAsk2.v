(** * PAsk2: cases for C110. *)
From Verif Require Export PAsk PWitness3 Tests.
Local Open Scope N_scope.

Lemma sizes_alike : exists a b rs rs' v v' es es', ci_size a <> ci_size b /\ info_fits a /\ info_fits b /\
  exec [OpCreate a ci0] (w9 [] []) = (rs, v) /\ gained (w9 [] []) v es /\ exec [OpCreate b ci0] (w9 [] []) = (rs', v') /\ gained (w9 [] []) v' es' /\
  len (ctl_bytes es) = 94 /\ ctl_bytes es = ctl_bytes es'.
Proof.
  exists ci0, (mkCI 0x71 (0x6E + 32768) 0x177FA0). do 6 eexists. split; [discriminate|]. split; [repeat split|]. split; [repeat split|].
  split; [vm_compute; reflexivity|]. split; [vm_compute; reflexivity|]. split; [vm_compute; reflexivity|]. split; [vm_compute; reflexivity|].
  split; vm_compute; reflexivity.
Qed.

Definition mem_b : heap := [Some [x07; x00]].
Definition ask_a : world := w9 [RxData (explicit_reply 9 0x90 0 []); RxData (explicit_reply 9 0x8E 0 [x05])] [].
Definition ask_b : world :=
  set_se (mkSess 9 0x195 0x4321 7 100 []) (session_make mem_b (mkSock [] [] [RxData (explicit_reply 9 0x90 0 []); RxFail] []) (mkSock [] [] [RxFail; RxFail] []) 1 2 3 4).
Definition ops_a : list op := [OpSet 1 2 3 (Some (prim_ser 2 7)); OpGet N (prim_cls 1) 0 1 2 3].
Definition ops_b : list op := [OpReceiveIO; OpSet 1 2 3 (Some (ser_of_sbuf (mkSB (mkV 0 0 2) None))); OpGet N (prim_cls 4) 0 1 2 3; OpReceiveIO].
Lemma ask_example :
  session_ok ask_a /\ user_memory [] ask_a /\ Forall (op_ok []) ops_a /\ Forall typed ops_a /\ in_types (w_se ask_a) /\
  session_ok ask_b /\ user_memory mem_b ask_b /\ Forall (op_ok mem_b) ops_b /\ Forall typed ops_b /\ in_types (w_se ask_b) /\
  exists rs v es rs' v' es', exec ops_a ask_a = (rs, v) /\ gained ask_a v es /\ exec ops_b ask_b = (rs', v') /\ gained ask_b v' es' /\
    ctl_bytes es = ctl_bytes es' /\ len (ctl_frames es) = 2 /\ len (asking ops_b ask_b) = 2 /\ len (calls ops_b ask_b) = 4.
Proof.
  split. { split; [apply rbuf_make|]. split; [reflexivity|constructor]. }
  split. { apply user_memory_w9. }
  split. { constructor; [repeat split; exists (le 2 7); split; [apply carries_prim|reflexivity]|].
    constructor; [repeat split; right; apply keeps_all|constructor]. }
  split. { repeat constructor. }
  split. { repeat split; constructor. }
  split. { split; [apply rbuf_make|]. split; [reflexivity|constructor]. }
  split. { apply user_memory_make. }
  split. { constructor; [exact I|]. constructor; [repeat split; exists [x07; x00]; split; [|reflexivity]|].
    { apply carries_sbuf. reflexivity. }
    constructor; [repeat split; right; apply keeps_all|]. constructor; [exact I|constructor]. }
  split. { repeat constructor. }
  split. { repeat split; constructor. }
  do 6 eexists. split; [vm_compute; reflexivity|]. split; [vm_compute; reflexivity|]. split; [vm_compute; reflexivity|]. split; [vm_compute; reflexivity|].
  split; [vm_compute; reflexivity|]. split; [vm_compute; reflexivity|]. split; vm_compute; reflexivity.
Qed.
Lemma ask_example_close : let w := w9 [RxData (fo_reply 7); RxData (fo_reply 8)] [] in
  exists rs v c c', exec [OpCreate ci0 ci0; OpCreate ci0 ci0] w = (rs, v) /\ numbers_ok (w_se v) /\
    nth_error (se_conns (w_se v)) 0 = Some c /\ nth_error (se_conns (w_se v)) 1 = Some c' /\ close_request (w_se v) c <> close_request (w_se v) c'.
Proof.
  cbv zeta. do 4 eexists. split; [vm_compute; reflexivity|]. split.
  { split; [repeat split|]. split; [repeat constructor|]. cbn. constructor; [|constructor; [|constructor]]; cbn; intuition discriminate. }
  split; [reflexivity|]. split; [reflexivity|]. vm_compute. discriminate.
Qed.
