(** * Property C114: the first numbers of sessions.

    Statements only; every proof is in the P*.v files.  The words used are defined in
    Vocab4.v - Vocab8.v, the generator in Random.v. *)
From Verif Require Import Random PRandom PWitness6.
From Coq Require Import Lia FinFun.
Local Open Scope N_scope.

(** ** C114 A restarted client does not reuse connection keys: violated *)
(** Two sessions share no key, asked for or open, as long as neither has asked for more
    connections than there are serial numbers from its start to that of the other. *)
Theorem C114_apart_partial : forall ops1 ops2 w1 w2 rs1 rs2 w1' w2',
  fits 2 (se_next_sn (w_se w1)) -> fits 4 (se_next_id (w_se w1)) -> se_conns (w_se w1) = [] ->
  fits 2 (se_next_sn (w_se w2)) -> fits 4 (se_next_id (w_se w2)) -> se_conns (w_se w2) = [] ->
  exec ops1 w1 = (rs1, w1') -> exec ops2 w2 = (rs2, w2') ->
  len (attempts ops1 w1) <= (se_next_sn (w_se w2) + 65536 - se_next_sn (w_se w1)) mod 65536 ->
  len (attempts ops2 w2) <= (se_next_sn (w_se w1) + 65536 - se_next_sn (w_se w2)) mod 65536 ->
  (forall x, In x (map next_key (attempts ops1 w1)) -> ~ In x (map next_key (attempts ops2 w2))) /\
  (forall k, In k (map conn_key (se_conns (w_se w1'))) -> ~ In k (map conn_key (se_conns (w_se w2')))).
Proof. exact ranges_apart. Qed.
Print Assumptions C114_apart_partial.
(** Whatever the generator, of any 65537 moments two make sessions that start with the
    same connection key. *)
Theorem C114_pigeonhole_refuted : forall gen times vendor serial, NoDup times -> 65536 < len times ->
  exists t1 t2, In t1 times /\ In t2 times /\ t1 <> t2 /\
    forall k1 k2 s s' i1 i2 s1 s2, new_session gen t1 vendor serial k1 s = (i1, s1) -> new_session gen t2 vendor serial k2 s' = (i2, s2) ->
      exists ob1 ob2, alive s1 i1 ob1 /\ alive s2 i2 ob2 /\ next_key (ob_se ob1) = next_key (ob_se ob2).
Proof. exact pigeonhole. Qed.
Print Assumptions C114_pigeonhole_refuted.
(** With the generator the code uses, a client restarted less than three minutes later
    can start with the key it started with before, though not with the same ids. *)
Theorem C114_restart_refuted : exists t1 t2, 1797000000 <= t1 /\ t1 < t2 /\ t2 < t1 + 160 /\ fst (boost_start t1) <> fst (boost_start t2) /\
  forall vendor serial k1 k2 s s' i1 i2 s1 s2, new_session boost_start t1 vendor serial k1 s = (i1, s1) -> new_session boost_start t2 vendor serial k2 s' = (i2, s2) ->
      exists ob1 ob2, alive s1 i1 ob1 /\ alive s2 i2 ob2 /\ next_key (ob_se ob1) = next_key (ob_se ob2).
Proof. exact boost_reused. Qed.
Print Assumptions C114_restart_refuted.
Example C114_example : let w := w9 [RxData (fo_reply 7); RxData (fo_reply 8); RxData (fc_reply 7)] [] in
  let w2 := session_make [] (mkSock [] [] [RxFail; RxFail] []) (mkSock [] [] [] []) 0x195 0x4321 9 100 in
  let ops2 := [OpCreate ci0 ci0; OpCreate ci0 ci0] in
  se_conns (w_se w) = [] /\ se_conns (w_se w2) = [] /\ len (attempts shift_ops w) = 2 /\ len (attempts ops2 w2) = 2 /\
  (se_next_sn (w_se w2) + 65536 - se_next_sn (w_se w)) mod 65536 = 2 /\
  map next_key (attempts shift_ops w) = [(7, 0x195, 0x4321); (8, 0x195, 0x4321)] /\ map next_key (attempts ops2 w2) = [(9, 0x195, 0x4321); (10, 0x195, 0x4321)].
Proof. repeat split; vm_compute; reflexivity. Qed.
Example C114_example_times : exists times : list N, NoDup times /\ 65536 < len times.
Proof.
  exists (map N.of_nat (seq 0 (N.to_nat 65537))). split.
  - apply FinFun.Injective_map_NoDup; [intros x y; apply Nat2N.inj|apply seq_NoDup].
  - unfold len. rewrite map_length, seq_length, N2Nat.id. reflexivity.
Qed.
Example C114_example_start : exists i s, new_session boost_start 1797000014 0x195 0x4321 0 (mkPool [] [] []) = (i, s) /\
  match nth_error (st_objs s) i with Some (Some ob) => next_key (ob_se ob) = (55553, 0x195, 0x4321) | _ => False end.
Proof. do 2 eexists. split; [reflexivity|]. vm_compute. reflexivity. Qed.
