(** * PMore: the remaining lemmas and witnesses for C69 and C70. *)
From Verif Require Export PRaise.
Local Open Scope N_scope.

Lemma library_balanced :
  (forall p, balanced_opt (ep_payload p) -> balanced_ser (ep_ser p)) /\
  (forall p, Forall (fun i => balanced_opt (it_data i)) p -> balanced_ser (cpf_ser p)) /\
  (forall r, balanced_opt (mq_data (rr_ext r)) -> balanced_ser (rrq_ser r)) /\
  (forall q, balanced_opt (mq_data q) -> balanced_ser (mq_ser q)) /\
  (forall n s, balanced_ser s -> balanced_ser (sq_ser n s)) /\
  (forall s, balanced_ser (ser_of_sbuf s)) /\ (forall k v, balanced_ser (prim_ser k v)) /\
  (forall g, balanced_ser (rg_ser g)) /\ (forall g, balanced_ser (sa_ser g)) /\ (forall g, balanced_ser (id_ser g)) /\
  (forall f, balanced_ser (fo_ser f)) /\ (forall f, balanced_ser (fc_ser f)) /\
  balanced_cls hdr_cls /\ balanced_cls ep_cls /\ balanced_cls it_cls /\ balanced_cls cpf_cls /\ balanced_cls ms_cls /\ balanced_cls rrs_cls /\
  balanced_cls rg_cls /\ balanced_cls sa_cls /\ balanced_cls id_cls /\ balanced_cls fs_cls /\ balanced_cls cs_cls /\ forall k, balanced_cls (prim_cls k).
Proof.
  destruct keeps_all as (K1 & K2 & K3 & K4 & K5 & K6 & K7 & K8 & K9 & K10 & K11 & K12 & K13 & K14 & K15 & K16 & K17).
  split; [exact bal_ep|]. split; [exact bal_cpf|]. split; [exact bal_rrq|]. split; [exact bal_mq|]. split; [exact bal_sq|]. split; [exact bal_sbuf|].
  split; [exact bal_prim|]. split; [exact bal_rg|]. split; [exact bal_sa|]. split; [exact bal_id|]. split; [exact bal_fo|]. split; [exact bal_fc|].
  split; [exact (balanced_keeps _ K1)|]. split; [exact (balanced_keeps _ K2)|]. split; [exact (balanced_keeps _ K3)|]. split; [exact (balanced_keeps _ K4)|].
  split; [exact (balanced_keeps _ K6)|]. split; [exact (balanced_keeps _ K9)|]. split; [exact (balanced_keeps _ K10)|]. split; [exact (balanced_keeps _ K11)|].
  split; [exact (balanced_keeps _ K12)|]. split; [exact (balanced_keeps _ K15)|]. split; [exact (balanced_keeps _ K16)|]. intros k. exact (balanced_keeps _ (K17 k)).
Qed.

Lemma library_raises :
  (forall e, decode_raises hdr_cls e -> e = LengthError) /\ (forall e, decode_raises ep_cls e -> e = LengthError) /\
  (forall e, decode_raises it_cls e -> e = LengthError) /\ (forall e, decode_raises cpf_cls e -> e = LengthError) /\
  (forall e, decode_raises ms_cls e -> e = LengthError) /\ (forall e, decode_raises rg_cls e -> e = LengthError) /\
  (forall e, decode_raises sa_cls e -> e = LengthError) /\ (forall e, decode_raises id_cls e -> e = LengthError) /\
  (forall e, decode_raises fs_cls e -> e = LengthError) /\ (forall e, decode_raises cs_cls e -> e = LengthError) /\
  (forall e, decode_raises sbuf_cls e -> e = LengthError) /\ (forall k e, decode_raises (prim_cls k) e -> e = LengthError).
Proof.
  destruct raises_all as (K1 & K2 & K3 & K4 & K5 & K6 & K7 & K8 & K9 & K10 & K11 & K12).
  repeat split; intros; [exact (raises_names _ _ K1 H)|exact (raises_names _ _ K2 H)|exact (raises_names _ _ K3 H)|exact (raises_names _ _ K4 H)
    |exact (raises_names _ _ K5 H)|exact (raises_names _ _ K6 H)|exact (raises_names _ _ K7 H)|exact (raises_names _ _ K8 H)
    |exact (raises_names _ _ K9 H)|exact (raises_names _ _ K10 H)|exact (raises_names _ _ K11 H)|exact (raises_names _ _ (K12 k) H)].
Qed.

Lemma prim_keeps k : keeps_cls (prim_cls k).
Proof. destruct keeps_all as (K1 & K2 & K3 & K4 & K5 & K6 & K7 & K8 & K9 & K10 & K11 & K12 & K13 & K14 & K15 & K16 & K17). exact (K17 k). Qed.
