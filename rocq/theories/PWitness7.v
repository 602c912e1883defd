(** Concrete pools with several threads. *)
From Coq Require Import Arith.PeanoNat.
From Verif Require Export PTurns2 PMore PWitness6 PWitness5.

(** The pool of one session. *)
Definition pool_of (w : world) : pool := mkPool (w_mem w) [mkLink (w_ctl w) (w_io w) (w_net w)] [Some (mkObj (w_se w) (w_rbuf w) 0)].
Lemma pool_of_ok u w : session_ok w -> user_memory u w -> (List.length u <= List.length (w_mem w))%nat -> pool_ok u (pool_of w).
Proof.
  intros S U L. split; [exact (proj1 U)|]. split; [exact L|]. split.
  - intros i ob A. destruct i as [|[|i]]; try discriminate. injection A as <-. exists (mkLink (w_ctl w) (w_io w) (w_net w)). split; [reflexivity|]. destruct w. split; assumption.
  - intros i j a b Nij A B. destruct i as [|[|i]]; try discriminate. destruct j as [|[|j]]; try discriminate. contradiction.
Qed.
Lemma user_nil w : user_memory [] w.
Proof. split; [intros b bl E; destruct b; discriminate|intros bl E; destruct (w_rbuf w); discriminate]. Qed.
Lemma pool_w9 c i : pool_ok [] (pool_of (w9 c i)).
Proof. apply pool_of_ok; [apply session_ok_w9|apply user_nil|apply Nat.le_0_l]. Qed.
Lemma own_alone w : own_sockets (pool_of w) 0 (mkObj (w_se w) (w_rbuf w) 0).
Proof. intros j ob N A. destruct j as [|[|j]]; try discriminate. contradiction. Qed.
Lemma own_p9 a b c d : exists ob l, alive (p9 a b c d) 0 ob /\ linked (p9 a b c d) ob l /\ own_sockets (p9 a b c d) 0 ob.
Proof.
  do 2 eexists. split; [reflexivity|]. split; [reflexivity|]. intros j ob N A. destruct j as [|[|[|j]]]; try discriminate; [contradiction|]. injection A as <-. discriminate.
Qed.

Definition alternate (n : nat) : list nat := List.concat (repeat [0; 1]%nat n).
(** C80: one thread opens and reads on one session, another receives on the other. *)
Definition jobs80 : list (nat * list op) := [(0%nat, [OpOpen "h" "p" "q"; OpGet N (prim_cls 2) 0 1 1 1]); (1%nat, [OpReceiveIO; OpReceiveIO])].
Definition p9_80 : pool := p9 [RxData (registered 9); RxData (explicit_reply 9 0x8E 0 (le 2 77))] [] [] [RxData (cpf [(0x8002, [x01])]); RxData [x05]].
(** C81: a connection is made while another thread sends. *)
Definition jobs81 : list (nat * list op) := [(0%nat, [OpCreate ci0 ci0; OpGet N (prim_cls 2) 0 1 1 1]); (0%nat, [OpSendIO [io_item]; OpSendIO [io_item]])].
Definition p9_81 : pool := pool_of (w9 [RxData (fo_reply 7); RxData (explicit_reply 9 0x8E 0 (le 2 77))] []).
(** C82: two threads make a connection each and read the counters in turn. *)
Definition p9_82 : pool := pool_of (w9 [RxData (fo_reply 7); RxData (fo_reply 7)] []).
Definition jobs82 : list (nat * list op) := [(0%nat, [OpCreate ci0 ci0]); (0%nat, [OpCreate ci0 ci0])].
Definition sched82 : list nat := alternate 7 ++ repeat 0%nat 20 ++ repeat 1%nat 20.
(** C84: one thread receives I/O, another reads an attribute. *)
Definition p9_84 : pool := pool_of (w9 [RxData (explicit_reply 9 0x8E 0 (le 2 77))] [RxData (cpf [(0x8002, [x01; x02])])]).
Definition jobs84 : list (nat * list op) := [(0%nat, [OpReceiveIO]); (0%nat, [OpGet N (prim_cls 2) 0 1 1 1])].
Definition sched84 : list nat := ([0; 1; 1; 1; 0] ++ repeat 1 10)%nat.


Lemma call_get c t x y z : x < 256 -> y < 256 -> z < 256 -> call_ok [] (OpGet N (prim_cls c) t x y z).
Proof. intros Hx Hy Hz. split; [refine (conj Hx (conj Hy (conj Hz _))); right; apply prim_keeps|]. right. pose proof local_all as H. repeat (destruct H as [_ H]). apply H. Qed.
Lemma call_send : call_ok [] (OpSendIO [io_item]).
Proof.
  split; [|exact Logic.I]. exists [(0x8002, [x05])]. apply cpf_carries; [|constructor; [reflexivity|constructor]]. constructor; [|constructor]. split; [reflexivity|].
  exact (carries_prim _ 1 5).
Qed.
