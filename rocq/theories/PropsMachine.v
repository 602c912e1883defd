(** * Property C112: a client program is told what the state machine of the target says.

    Statements only; every proof is in the P*.v files.  The words used are defined in
    Spec.v (byte formats) and Vocab2.v - Vocab7.v; [play] and [runs] in Vocab19.v. *)
From Verif Require Import PMachine.

(** ** C112 Programs against a conforming target *)
Theorem C112_machine : forall u c w l w' es t t', session_ok w -> user_memory u w -> client_ok u c -> play c w = (l, w') -> gained w w' es ->
  agrees (w_se w) t -> numbers_ok (w_se w) -> conforms t (ctl_talk es) t' ->
  runs u (se_id (w_se w)) (se_vendor (w_se w)) (se_serial (w_se w)) (t, se_next_sn (w_se w)) l (ctl_talk es) (t', se_next_sn (w_se w')) /\
  agrees (w_se w') t' /\ numbers_ok (w_se w').
Proof. exact play_runs. Qed.
Print Assumptions C112_machine.
(** A program that closes the connection whose number it was given, and opens another one
    because the target refused it something. *)
Example C112_example : session_ok chat_world /\ user_memory [] chat_world /\ client_ok [] chat_client /\ agrees (w_se chat_world) tg9 /\ numbers_ok (w_se chat_world) /\
  exists s l w', play chat_client chat_world = (l, w') /\
    map snd l = [Ret Done; Ret (Number 0); Throw RuntimeError s; Ret (Number 1); Ret Done; Ret (Value 513)] /\
    gained chat_world w' (chat_set ++ chat_rest ++ chat_get) /\ conforms tg9 (ctl_talk (chat_set ++ chat_rest ++ chat_get)) tg_d.
Proof.
  split; [apply session_ok_w9|]. split; [apply user_memory_w9|]. split; [exact chat_client_ok|]. split; [apply agrees_w9|]. split; [apply numbers_w9|].
  destruct chat_plays as (s & l & w' & P & R & G & T). exists s, l, w'. split; [exact P|]. split; [exact R|]. split; [exact G|]. rewrite T. apply chat.
Qed.
