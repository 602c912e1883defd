(** * PBare: a router request constructed from a service code, C17. *)
From Verif Require Import PEnc.
Local Open Scope N_scope.
Lemma mq_bare m service : carries m (mq_ser (mq_make service)) [octet (service mod 256); x00].
Proof. exact (mq_carries m service false [] None [] eq_refl eq_refl). Qed.
