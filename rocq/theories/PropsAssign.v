(** * Property C85: assigned session objects.

    Statements only; every proof is in the P*.v files.  The words used are defined in
    Vocab8.v, the objects in Objects.v. *)
From Verif Require Import PAssign.

(** ** C85 Assigning to an open session ends it: violated *)
(** The assigned object has the fields, the buffer contents and the sockets of the other;
    nothing is sent and nothing else changes. *)
Theorem C85_assigned_partial : forall u s i j a b, pool_ok u s -> alive s i a -> alive s j b ->
  exists bs s', assign_session i j s = (Ret tt, s') /\ buffer s b bs /\
    alive s' i (mkObj (ob_se b) (ob_buf a) (ob_link b)) /\ buffer s' (mkObj (ob_se b) (ob_buf a) (ob_link b)) bs /\
    st_links s' = st_links s /\ (forall k c x, k <> i -> alive s k c -> buffer s c x -> alive s' k c /\ buffer s' c x) /\ pool_ok u s'.
Proof. exact assigned. Qed.
Print Assumptions C85_assigned_partial.
(** Assigning a temporary, as the repository's own tests do, makes a closed session on the
    new sockets; no socket is touched, not even those of an open session. *)
Theorem C85_temporary_partial : forall u s i a gen time vendor serial k, pool_ok u s -> alive s i a -> (k < List.length (st_links s))%nat ->
  exists n s1 s2 s3 bs, new_session gen time vendor serial k s = (n, s1) /\ assign_session i n s1 = (Ret tt, s2) /\ destroy_session n s2 = (Ret tt, s3) /\
    alive s3 i (mkObj (new_fields gen time vendor serial) (ob_buf a) k) /\
    buffer s3 (mkObj (new_fields gen time vendor serial) (ob_buf a) k) bs /\
    (forall y, ~ alive s3 n y) /\ st_links s3 = st_links s /\ (forall j c x, j <> i -> alive s j c -> buffer s c x -> alive s3 j c /\ buffer s3 c x) /\ pool_ok u s3.
Proof. exact temporary. Qed.
Print Assumptions C85_temporary_partial.
(** Whatever the program does later, short of making a session on the same sockets again,
    no request is sent on them: an open session is never unregistered nor closed. *)
Theorem C85_abandoned_refuted : forall u s i j a b l acts r s1 rs s2, pool_ok u s -> alive s i a -> alive s j b -> i <> j -> own_sockets s i a -> linked s a l ->
  assign_session i j s = (r, s1) -> Forall (not_on (ob_link a)) acts -> run_acts acts s1 = (rs, s2) -> r = Ret tt /\ linked s2 a l /\ unused s2 (ob_link a).
Proof. exact abandoned. Qed.
Print Assumptions C85_abandoned_refuted.
(** Both objects destroyed; the session opened on the sockets 0 was registered only. *)
Example C85_example : exists rs s a b l s1 rs2 s2, run_acts [ACall 0 (OpOpen "h" "p" "q")] p9_ex = (rs, s) /\ pool_ok [] s /\ alive s 0 a /\ alive s 1 b /\
  se_id (ob_se a) = 9 /\ own_sockets s 0 a /\ linked s a l /\ assign_session 0 1 s = (Ret tt, s1) /\ run_acts [ADestroy 0; ADestroy 1] s1 = (rs2, s2) /\ rs2 = [Ret tt; Ret tt].
Proof.
  destruct (run_acts [ACall 0 (OpOpen "h" "p" "q")] p9_ex) as [rs s] eqn:E. exists rs, s. do 6 eexists. split; [reflexivity|]. split.
  { refine (proj1 (pool_stays_ok [] _ _ _ _ (pool_ok_p9 _ _ _ _) _ E)). repeat constructor. }
  vm_compute in E. injection E as <- <-. split; [reflexivity|]. split; [reflexivity|]. split; [reflexivity|]. split.
  { intros k o N A. destruct k as [|[|k]]; [contradiction|injection A as <-; discriminate|destruct k; discriminate]. }
  split; [reflexivity|]. split; [vm_compute; reflexivity|]. split; [vm_compute; reflexivity|reflexivity].
Qed.
Example C85_example_temporary : exists a, alive p9_ex 0 a /\ pool_ok [] p9_ex /\ (1 < List.length (st_links p9_ex))%nat.
Proof. eexists. split; [reflexivity|]. split; [apply pool_ok_p9|]. repeat constructor. Qed.
