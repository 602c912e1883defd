(** * Property C123: what the scanner logs about an answer.

    Statements only; every proof is in PScanLog.v.  The words used are defined in
    Vocab5.v, Vocab12.v and Vocab28.v. *)
From Verif Require Import Tests PScanLog.
Local Open Scope N_scope.

(** ** C123 The scanner's log tells what was wrong with an answer *)
(** Whatever comes of it, a list-identity reply is warned about exactly when something about it
    is odd. *)
Theorem C123_warned : forall m b bl got tail ses st c0 c1 op after xs o m' l, nth_error m b = Some (Some bl) -> len bl = 4096 -> bl = got ++ tail -> answer_parts got ses st c0 c1 op after xs ->
  l_scan_handle false (len got) b m = (o, m', l) -> (logged Warn l <-> odd_answer ses st c0 c1 op after xs).
Proof. exact scan_warns. Qed.
Print Assumptions C123_warned.
(** An error is logged exactly when the answer is turned down; the line on standard output is
    printed exactly when it is too short. *)
Theorem C123_errors : forall ec n b m r m' l, l_scan_handle ec n b m = (Ret r, m', l) -> (logged Error l <-> turned_down r) /\ (logged Out l <-> r = ScanTooShort).
Proof. exact scan_errors. Qed.
Print Assumptions C123_errors.
(** Every answer that is reported (C57) has such parts. *)
Theorem C123_parts : forall got i, identifies got i -> exists ses st c0 c1 o after xs, answer_parts got ses st c0 c1 o after xs.
Proof. exact identified_parts. Qed.
Print Assumptions C123_parts.
(** An answer with two items: reported, and warned about. *)
Example C123_example :
  let got := bl [0x63;0;50;0] ++ zeros 20 ++ bl [2;0;0x0C;0;40;0] ++ test_id_bytes ++ bl [0;0;0;0] in let bl := got ++ zeros (4096 - len got) in
  len bl = 4096 /\ answer_parts got 0 0 0 0 0 [] [(0x0C, test_id_bytes); (0, [])] /\ odd_answer 0 0 0 0 0 [] [(0x0C, test_id_bytes); (0, [])] /\
  exists m' l, l_scan_handle false (len got) 0 [Some bl] = (Ret (ScanIdentity test_id), m', l).
Proof.
  cbv zeta. split; [vm_compute; reflexivity|]. split; [|split; [right; right; vm_compute; reflexivity|eexists _, _; vm_compute; reflexivity]].
  exists (bl [2;0;0x0C;0;40;0] ++ test_id_bytes ++ bl [0;0;0;0]), []. split; [repeat split; vm_compute; reflexivity|]. split; [vm_compute; reflexivity|]. split; [split; [repeat constructor|vm_compute; reflexivity]|vm_compute; reflexivity].
Qed.
(** One with a single item and nothing odd: no warning. *)
Example C123_example_plain :
  let got := bl [0x63;0;46;0] ++ zeros 20 ++ bl [1;0;0x0C;0;40;0] ++ test_id_bytes in
  answer_parts got 0 0 0 0 0 [] [(0x0C, test_id_bytes)] /\ ~ odd_answer 0 0 0 0 0 [] [(0x0C, test_id_bytes)].
Proof.
  cbv zeta. split.
  - exists (bl [1;0;0x0C;0;40;0] ++ test_id_bytes), []. split; [repeat split; vm_compute; reflexivity|]. split; [vm_compute; reflexivity|]. split; [split; [repeat constructor|vm_compute; reflexivity]|vm_compute; reflexivity].
  - intros [H|[[H|[H|[H|[H|H]]]]|H]]; try (apply H; reflexivity). revert H. vm_compute. discriminate.
Qed.
(** A reply of the wrong command is turned down with an error. *)
Example C123_example_error : exists m' l, l_scan_handle false 24 0 [Some (bl [0x64;0] ++ zeros 4094)] = (Ret (ScanWrongCommand 0x64), m', l) /\ logged Error l.
Proof. eexists _, _. split; [vm_compute; reflexivity|]. eexists. split; [left; reflexivity|reflexivity]. Qed.
