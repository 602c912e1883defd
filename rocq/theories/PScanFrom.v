(** * PScanFrom: proofs for C138. *)
From Verif Require Export PScanNet ScanFrom.
From Verif Require Import PMem PIo PWitness5.
From Coq Require Import List Lia Arith.
Import ListNotations.
Local Open Scope N_scope.

Lemma reports_src arr : forall s, exists l, sv_reports (snd (sv_wait arr s)) = sv_reports s ++ l /\
  forall y, In y l -> heard s (fst y) /\ exists x, In (fst y, x) arr /\ snd y = sc_answer x.
Proof.
  induction arr as [|[k x] arr IH]; intros s; destruct (waits_dec s) as [W|W].
  - rewrite wait_stuck by exact W. exists []. rewrite app_nil_r. split; [reflexivity|intros y []].
  - rewrite wait_done by exact W. exists []. rewrite app_nil_r. split; [reflexivity|intros y []].
  - destruct (wait_step k x arr s W) as [[_ E]|(c & K & Hd & [(r & R & E)|(R & _ & E)])]; rewrite E.
    + destruct (IH s) as (l & El & Hl). exists l. split; [exact El|]. intros y Y. destruct (Hl y Y) as (A & z & Z & S1). split; [exact A|]. exists z. split; [right; exact Z|exact S1].
    + destruct (IH (sc_report k c (Ret r) s)) as (l & El & Hl). exists ((k, Ret r) :: l). rewrite El. unfold sc_report at 1; cbn [sv_reports].
      split; [rewrite <- app_assoc; reflexivity|]. intros y [<-|Y].
      * split; [exact Hd|]. exists x. split; [left; reflexivity|symmetry; exact R].
      * destruct (Hl y Y) as ([A B] & z & Z & S1). split; [split; [apply report_waits in A; tauto|apply report_asked in B; tauto]|].
        exists z. split; [right; exact Z|exact S1].
    + exists [(k, Undef NullDeref)]. split; [reflexivity|]. intros y [<-|[]]. split; [exact Hd|]. exists x. split; [left; reflexivity|symmetry; exact R].
  - rewrite wait_done by exact W. exists []. rewrite app_nil_r. split; [reflexivity|intros y []].
Qed.
Lemma wait_asked arr : forall s j, has_asked (snd (sv_wait arr s)) j -> has_asked s j.
Proof.
  induction arr as [|[k x] arr IH]; intros s j A; destruct (waits_dec s) as [W|W].
  - rewrite wait_stuck in A by exact W. exact A.
  - rewrite wait_done in A by exact W. exact A.
  - destruct (wait_step k x arr s W) as [[_ E]|(c & K & Hd & [(r & R & E)|(R & _ & E)])]; rewrite E in A.
    + apply IH. exact A.
    + apply IH in A. apply report_asked in A; [exact A|exact K].
    + cbn [snd] in A. apply report_asked in A; [exact A|exact K].
  - rewrite wait_done in A by exact W. exact A.
Qed.

(** All that has asked, and all that was reported on, has a request among those sent. *)
Definition well_asked (s : service) : Prop :=
  (forall k, has_asked s k -> exists r, In (k, r, request 0x63 0 []) (sv_sent s)) /\
  (forall y, In y (sv_reports s) -> exists r, In (fst y, r, request 0x63 0 []) (sv_sent s)).
Lemma asked_asking s k c r : well_asked s -> nth_error (sv_all s) k = Some c -> well_asked (asking k c r s).
Proof.
  intros [H1 H2] K. split.
  - intros j A. apply asking_asked in A; [|exact K]. unfold asking; cbn [sv_sent]. destruct A as [->|A].
    + exists r. apply in_or_app. right. left. reflexivity.
    + destruct (H1 j A) as [q Q]. exists q. apply in_or_app. left. exact Q.
  - intros y Y. destruct (H2 y Y) as [q Q]. exists q. unfold asking; cbn [sv_sent]. apply in_or_app. left. exact Q.
Qed.
Lemma asked_wait s arr : well_asked s -> well_asked (snd (sv_wait arr s)).
Proof.
  intros [H1 H2]. destruct (wait_frame arr s) as [_ Fs]. unfold well_asked. rewrite Fs. split.
  - intros j A. apply H1. eapply wait_asked. exact A.
  - destruct (reports_src arr s) as (l & El & Hl). rewrite El. intros y Y. apply in_app_or in Y. destruct Y as [Y|Y]; [exact (H2 y Y)|].
    destruct (Hl y Y) as [[_ A] _]. exact (H1 _ A).
Qed.
Lemma asked_step c s : one_host c -> well_asked s -> well_asked (snd (sdo c s)).
Proof.
  intros Oh H. destruct c as [name room|k e|k e arr|k|]; cbn [sdo].
  - destruct room; [|exact H]. destruct H as [H1 H2]. split; [|exact H2]. intros j (c & E & A). cbn [sc_new snd sv_all] in E.
    apply (H1 j). exists c. split; [|exact A]. destruct (Nat.lt_ge_cases j (List.length (sv_all s))) as [L|L].
    + rewrite nth_error_app1 in E by exact L. exact E.
    + rewrite nth_error_app2 in E by exact L. destruct (j - List.length (sv_all s))%nat as [|n]; cbn in E; [inversion E; subst; discriminate A|destruct n; discriminate E].
  - destruct (request_cases k e s) as [[_ E]|[(t & s' & E & M & MB)|(c & r & K & A & T & B & E)]]; rewrite E; [exact H|cbn [snd]; rewrite (MB Oh); exact H|]. apply asked_asking; assumption.
  - unfold sc_run. destruct (request_cases k e s) as [[_ E]|[(t & s' & E & M & MB)|(c & r & K & A & T & B & E)]]; rewrite E; [exact H|cbn [snd]; rewrite (MB Oh); exact H|].
    pose proof (asked_asking s k c r H K) as H1. unfold sv_run. destruct (sv_stopped (asking k c r s)); [exact H1|].
    destruct (sv_due (asking k c r s)); [apply asked_wait; exact H1|exact H1].
  - unfold sc_destroy. destruct (nth_error (sv_all s) k) as [[name [|] armed port]|] eqn:K; try exact H.
    destruct H as [H1 H2]. split; [|exact H2]. intros j (c & E & A). cbn [snd sv_all] in E. apply (H1 j). destruct (Nat.eq_dec j k) as [->|N].
    + rewrite nth_error_set_same in E by (eapply nth_len; eauto). inversion E; subst. discriminate A.
    + rewrite nth_error_set_other in E by congruence. exists c. auto.
  - exact H.
Qed.
Lemma step_src c s : exists l, sv_reports (snd (sdo c s)) = sv_reports s ++ l /\
  forall y, In y l -> exists k e arr x, c = SRun k e arr /\ In (fst y, x) arr /\ snd y = sc_answer x.
Proof.
  assert (Z : forall s' : service, sv_reports s' = sv_reports s -> exists l, sv_reports s' = sv_reports s ++ l /\
    forall y, In y l -> exists k e arr x, c = SRun k e arr /\ In (fst y, x) arr /\ snd y = sc_answer x).
  { intros s' E. exists []. rewrite app_nil_r. split; [exact E|intros y []]. }
  destruct c as [name room|k e|k e arr|k|]; cbn [sdo].
  - apply Z. destruct room; reflexivity.
  - apply Z. destruct (request_cases k e s) as [[_ E]|[(t & s' & E & M & MB)|(c & r & K & A & T & B & E)]]; rewrite E; try reflexivity. apply M.
  - unfold sc_run. destruct (request_cases k e s) as [[_ E]|[(t & s' & E & M & MB)|(c & r & K & A & T & B & E)]]; rewrite E; [apply Z; reflexivity|apply Z; apply M|].
    unfold sv_run. destruct (sv_stopped (asking k c r s)); [apply Z; reflexivity|]. destruct (sv_due (asking k c r s)); [|apply Z; reflexivity].
    destruct (reports_src arr (asking k c r s)) as (l & El & Hl). exists l. split; [exact El|].
    intros y Y. destruct (Hl y Y) as (_ & x & X & S1). exists k, e, arr, x. auto.
  - apply Z. unfold sc_destroy. destruct (nth_error (sv_all s) k) as [[name [|] armed port]|]; reflexivity.
  - apply Z. reflexivity.
Qed.
Lemma all_src cs : forall s y, In y (sv_reports (snd (sdo_all cs s))) ->
  In y (sv_reports s) \/ exists k e arr x, In (SRun k e arr) cs /\ In (fst y, x) arr /\ snd y = sc_answer x.
Proof.
  induction cs as [|c cs IH]; intros s y Y; [left; exact Y|]. rewrite sdo_cons in Y.
  destruct (step_src c s) as (l & El & Hl).
  assert (F : In y (sv_reports (snd (sdo c s))) -> In y (sv_reports s) \/ exists k e arr x, In (SRun k e arr) (c :: cs) /\ In (fst y, x) arr /\ snd y = sc_answer x).
  { intros I. rewrite El in I. apply in_app_or in I. destruct I as [I|I]; [left; exact I|right].
    destruct (Hl y I) as (k & e & arr & x & -> & X & S1). exists k, e, arr, x. split; [left; reflexivity|auto]. }
  assert (G : In y (sv_reports (snd (sdo_all cs (snd (sdo c s))))) -> In y (sv_reports s) \/ exists k e arr x, In (SRun k e arr) (c :: cs) /\ In (fst y, x) arr /\ snd y = sc_answer x).
  { intros I. destruct (IH _ _ I) as [I'|(k & e & arr & x & A & X & S1)]; [exact (F I')|]. right. exists k, e, arr, x. split; [right; exact A|auto]. }
  destruct (sdo c s) as [o s1]. cbn [snd] in *.
  destruct o as [[]|cl t|u|]; [| |exact (F Y)|exact (F Y)]; destruct (sdo_all cs s1) as [os s2]; cbn [snd] in *; exact (G Y).
Qed.
Lemma all_asked cs : forall s, Forall one_host cs -> well_asked s -> well_asked (snd (sdo_all cs s)).
Proof.
  induction cs as [|c cs IH]; intros s F H; [exact H|]. inversion F as [|c' cs' F1 F2]; subst.
  pose proof (asked_step c s F1 H) as H1. rewrite sdo_cons. destruct (sdo c s) as [o s1]. cbn [snd] in H1. pose proof (IH s1 F2 H1) as H2.
  destruct o; try exact H1; destruct (sdo_all cs s1); exact H2.
Qed.

Lemma found_sound cs k i : In (k, Ret (ScanIdentity i)) (sv_reports (snd (sdo_all cs sv_new))) ->
  exists k' e arr bs, In (SRun k' e arr) cs /\ In (k, inr bs) arr /\ identifies (take 4096 bs) i.
Proof.
  intros Y. destruct (all_src cs sv_new _ Y) as [[]|(k' & e & arr & x & A & X & S1)]. cbn [fst snd] in X, S1.
  destruct x as [u|bs]; [discriminate S1|]. exists k', e, arr, bs. split; [exact A|]. split; [exact X|].
  destruct (scan_exactly [] bs []) as (o & E & D & _). unfold sc_answer in S1. rewrite E in S1. apply D. symmetry. exact S1.
Qed.
Lemma found_asked cs k o : Forall one_host cs -> In (k, o) (sv_reports (snd (sdo_all cs sv_new))) ->
  exists r, In (k, r, request 0x63 0 []) (sv_sent (snd (sdo_all cs sv_new))).
Proof.
  intros F Y. assert (W : well_asked sv_new). { split; [intros j (c & E & _); destruct j; discriminate E|intros y []]. }
  destruct (all_asked cs sv_new F W) as [_ H]. exact (H _ Y).
Qed.
Lemma unasked : exists cs i, In (0%nat, Ret (ScanIdentity i)) (sv_reports (snd (sdo_all cs sv_new))) /\ sv_sent (snd (sdo_all cs sv_new)) = [(1%nat, mkEnd 1 44818, request 0x63 0 [])].
Proof.
  exists [SNew "lan" true; SNew "plc1" true; SRequest 0 test_lan; SRun 1 test_lan [(0%nat, inr (device_reply 5)); (1%nat, inr (device_reply 6))]], (device 5).
  split; vm_compute; [left; reflexivity|reflexivity].
Qed.

Lemma stranger s name e r rs k from bs i rest : usable s -> (forall j, ~ listens s j) -> k = List.length (sv_all s) ->
  sn_resolve e name "44818" = r :: rs -> sn_bcast e r = false -> from <> r -> identifies (take 4096 bs) i ->
  no_crash (map (fun x => (fst x, inr (snd (snd x)))) rest) ->
  exists s', sc_run_from k e ((k, (from, bs)) :: rest) (snd (sc_new name true s)) = (Ret tt, s') /\
    sv_reports s' = sv_reports s ++ [(k, Ret (ScanIdentity i))] /\ sv_sent s' = sv_sent s ++ [(k, r, request 0x63 0 [])].
Proof.
  intros U Nl Hk R B _ Id NC. set (arr := map (fun x : nat * (endpoint * list byte) => (fst x, inr (snd (snd x)) : unit + list byte)) ((k, (from, bs)) :: rest)).
  destruct (scan_exactly [] bs []) as (o & E & D & _). apply D in Id. subst o.
  destruct (scan_alone s name e r rs arr (inr bs) k U Nl Hk R B) as (o & s' & Eo & Ed & Es & Er).
  - intros j b [X|X]; [inversion X; subst; eapply ret_no_crash; exact E|exact (NC j b X)].
  - exists [], (map (fun x => (fst x, inr (snd (snd x)))) rest). split; [reflexivity|intros y []].
  - assert (o = Ret (ScanIdentity i)) by congruence. subst o.
    exists s'. split; [|split; assumption]. unfold sc_run_from. fold arr. cbn [sdo_all sdo] in Ed.
    change (sc_new name true s) with (Ret tt : outcome unit, snd (sc_new name true s)) in Ed. cbv beta iota in Ed.
    destruct (sc_run k e arr (snd (sc_new name true s))) as [[[]|cl t|u|] s2]; inversion Ed. reflexivity.
Qed.
