(** Concrete pools of session objects. *)
From Coq Require Import Arith.PeanoNat.
From Verif Require Export PAlias.

Definition gen0 (time : N) : N * N := (time mod 1000, time mod 7).
(** Two sessions made in the same second, each with its own sockets. *)
Definition p9 (ctl io ctl' io' : list rx) : pool :=
  snd (new_session gen0 0 0x195 0x4321 1 (snd (new_session gen0 0 0x195 0x4321 0
    (mkPool [] [mkLink (mkSock [] [] ctl []) (mkSock [] [] io []) []; mkLink (mkSock [] [] ctl' []) (mkSock [] [] io' []) []] [])))).
Lemma empty_pool ls : pool_ok [] (mkPool [] ls []).
Proof.
  split; [intros b bl E; destruct b; discriminate|]. split; [apply Nat.le_refl|]. split.
  - intros i ob A. destruct i; discriminate.
  - intros i j a b _ A. destruct i; discriminate.
Qed.
Lemma pool_ok_p9 a b c d : pool_ok [] (p9 a b c d).
Proof.
  unfold p9. set (e := mkPool _ _ _). assert (E : pool_ok [] e) by apply empty_pool.
  pose proof (new_act [] gen0 0 0x195 0x4321 0 e E (Nat.lt_0_succ _)) as (P1 & L1 & _).
  refine (proj1 (new_act [] gen0 0 0x195 0x4321 1 _ P1 _)). rewrite L1. apply Nat.lt_succ_diag_r.
Qed.
(** The first is opened, copied, read and destroyed; the second is left alone. *)
Definition acts9 : list act := [ACall 0 (OpOpen "h" "p" "q"); ACopy 0; ACall 0 (OpGet N (prim_cls 2) 0 1 1 1); ACall 2 OpReceiveIO; ADestroy 0].
Definition p9_ex : pool := p9 [RxData (registered 9); RxData (explicit_reply 9 0x8E 0 (le 2 77))] [RxData (cpf [(0x8002, [x01])])] [] [RxData [x05]].
