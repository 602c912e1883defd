(** * Threads: any number, any schedule *)
From Coq Require Import Arith.PeanoNat.
From Verif Require Export PLocal2.

(** ** A program that nothing interferes with *)
Fixpoint walk {A} (n : nat) (p : prog A) (w : world) : prog A * world :=
  match n, p with
  | S n', PDo x k => let (o, w') := x w in walk n' (k o) w'
  | _, _ => (p, w)
  end.
Lemma walk_S {A} n : forall (p : prog A) w, walk (S n) p w = (let (q, v) := walk n p w in walk 1 q v).
Proof.
  induction n as [|n IH]; intros p w; [reflexivity|]. destruct p as [o|B x k]; [reflexivity|].
  change (walk (S (S n)) (PDo x k) w) with (let (o, w') := x w in walk (S n) (k o) w').
  change (walk (S n) (PDo x k) w) with (let (o, w') := x w in walk n (k o) w'). destruct (x w) as [o w']. apply IH.
Qed.
Lemma walk_run {A} n : forall (p : prog A) w, run p w = run (fst (walk n p w)) (snd (walk n p w)).
Proof.
  induction n as [|n IH]; intros p w; [reflexivity|]. destruct p as [o|B x k]; [reflexivity|]. cbn [walk run]. destruct (x w) as [o w']. apply IH.
Qed.
Lemma walk_ended {A} n : forall (p : prog A) w, ended (fst (walk n p w)) <-> (steps p w <= n)%nat.
Proof.
  induction n as [|n IH]; intros p w; (destruct p as [o|B x k]; [split; [intros _; cbn; lia|intros _; exists o; reflexivity]|]).
  - cbn [walk fst steps]. split; [intros [o E]; discriminate|]. destruct (x w). lia.
  - cbn [walk steps]. destruct (x w) as [o w']. rewrite IH. lia.
Qed.

(** ** A program that leaves the commands of its session alone *)
Section quiet.
  Context (u : heap) (b : nat).
  Fixpoint quietp {A} (p : prog A) : Prop :=
    match p with
    | PEnd _ => True
    | PDo x k => forall w, session_ok w -> user_memory u w -> w_rbuf w = b -> exists o w', x w = (o, w') /\ good w w' /\
        w_ctl w' = w_ctl w /\ w_se w' = w_se w /\ nth_error (w_mem w') b = nth_error (w_mem w) b /\ ctl_talk (w_net w') = ctl_talk (w_net w) /\ quietp (k o)
    end.
  Lemma q_bind {A B} (p : prog A) (f : A -> prog B) : quietp p -> (forall a, quietp (f a)) -> quietp (pbind p f).
  Proof.
    induction p as [o|C x k IH]; intros P F.
    - destruct o; cbn [pbind]; try exact Logic.I. apply F.
    - intros w S U E. destruct (P w S U E) as (o & w' & H1 & H2 & H3 & H4 & H5 & H6 & H7). exists o, w'. repeat (split; [assumption|]). apply IH; assumption.
  Qed.
  Lemma q_all {A} (p : prog A) f : quietp p -> (forall o, quietp (f o)) -> quietp (pall p f).
  Proof.
    induction p as [o|C x k IH]; intros P F.
    - apply F.
    - intros w S U E. destruct (P w S U E) as (o & w' & H1 & H2 & H3 & H4 & H5 & H6 & H7). exists o, w'. repeat (split; [assumption|]). apply IH; assumption.
  Qed.
  Lemma q_send p bs : carries u (cpf_ser p) bs -> quietp (send_p p).
  Proof.
    intros C. apply q_bind; [|intros; exact Logic.I]. intros w S U E. rewrite (send_ser Io (cpf_ser p) bs w) by (eapply carries_hext; [exact (proj1 U)|exact C]).
    destruct (sock_send_shape Io bs w) as (o & w1 & E1 & M1 & S1 & B1 & Nt & _). rewrite E1. cbn [fst snd]. exists o. eexists. split; [reflexivity|].
    assert (K : mem_kept w (set_mem (w_mem w ++ [None]) w1)). { intros k x _ H. cbn. rewrite grown; [exact H|eapply nth_error_lt; exact H]. }
    assert (Lb : (b < List.length (w_mem w))%nat). { destruct S as ((bl & X & _) & _). rewrite E in X. eapply nth_error_lt. exact X. }
    split; [|split; [|split; [exact S1|split; [cbn; apply grown; exact Lb|split; [|exact Logic.I]]]]].
    - split; [|split; [exact K|split; [exact B1|cbn; rewrite app_length; lia]]]. destruct S as ((bl & X & Xl) & R). split; [|cbn; rewrite S1; exact R].
      exists bl. split; [|exact Xl]. cbn. rewrite B1. rewrite grown; [exact X|eapply nth_error_lt; exact X].
    - cbn. unfold sock_send in E1. destruct (match so_send (get_sock Io w) with [] => TxAll | x :: _ => x end); injection E1 as <- <-; reflexivity.
    - cbn. destruct Nt as [(n & _ & ->)|[_ ->]]; rewrite ctl_talk_app; apply app_nil_r.
  Qed.
  Lemma q_exec ops : Forall io_send ops -> Forall (call_ok u) ops -> quietp (exec_p ops).
  Proof.
    induction ops as [|o ops IH]; intros F K; [exact Logic.I|]. inversion F; inversion K; subst. cbn [exec_p].
    destruct o; try contradiction. destruct H5 as [[xs C] _]. apply q_all.
    - cbn [op_p]. apply q_bind; [eapply q_send; exact C|intros; exact Logic.I].
    - intros [a|c e|ub|]; try exact Logic.I; (apply q_bind; [apply IH; assumption|intros; exact Logic.I]).
  Qed.
End quiet.

(** ** The pool *)
Lemma world_back s i ob w' : world_of (back s i ob w') (mkObj (w_se w') (w_rbuf w') (ob_link ob)) (mkLink (w_ctl w') (w_io w') (w_net w')) = w'.
Proof. destruct w'. reflexivity. Qed.
Lemma on_step {A} i (x : M A) s ob l o w' : alive s i ob -> linked s ob l -> x (world_of s ob l) = (o, w') -> on i x s = (o, back s i ob w').
Proof. intros Al Ln E. unfold on. unfold alive in Al. unfold linked in Ln. rewrite Al, Ln, E. reflexivity. Qed.
Lemma back_own s i ob w' j b : own_sockets s j b -> alive s i ob -> own_sockets (back s i ob w') j (mkObj (w_se w') (w_rbuf w') (ob_link b)).
Proof.
  intros OS Ai k o Nk Ak. apply alive_set in Ak. cbn. destruct Ak as [[-> ->]|[_ Ak]]; [|exact (OS k o Nk Ak)]. cbn. apply (OS i ob Nk Ai).
Qed.

Section focus.
  Context {A : Type} (full : bool) (u : heap) (i : nat) (b lk : nat) (k : nat) (p : prog A) (w0 : world).

  (** What another thread may be: one of another object, or one that only sends I/O. *)
  Definition other_fine (s : pool) (t : thread A) : Prop :=
    (th_obj t <> i /\ exists ob, alive s (th_obj t) ob /\ locp true u (ob_buf ob) (fun _ => True) (th_prog t)) \/
    (th_obj t = i /\ full = false /\ quietp u b (th_prog t)).
  Definition at_turn (n : nat) (ts : list (thread A)) (s : pool) : Prop :=
    pool_ok u s /\ exists ob l, alive s i ob /\ linked s ob l /\ own_sockets s i ob /\ ob_buf ob = b /\ ob_link ob = lk /\
      alike full u b (world_of s ob l) (snd (walk n p w0)) /\ locp full u b (fun _ => True) (fst (walk n p w0)) /\
      nth_error ts k = Some (mkTh i (fst (walk n p w0))) /\
      forall k' t, k' <> k -> nth_error ts k' = Some t -> other_fine s t.

  Lemma alike_good w v w' v' : alike full u b w v -> alike full u b w' v' -> mem_kept w w' -> good w w'.
  Proof.
    intros L L' K. split; [exact (al_ok _ _ _ _ _ L')|]. split; [exact K|]. assert (E : w_rbuf w' = w_rbuf w) by (rewrite (al_b1 _ _ _ _ _ L), (al_b1 _ _ _ _ _ L'); reflexivity).
    split; [exact E|]. apply kept_length; [exact (proj1 (al_ok _ _ _ _ _ L))|exact E|exact (proj1 (al_ok _ _ _ _ _ L'))|exact K].
  Qed.
  Lemma fine_back s j ob w' t : alive s j ob -> w_rbuf w' = ob_buf ob -> other_fine s t -> other_fine (back s j ob w') t.
  Proof.
    intros Aj Eb [(Nt & o & Ao & Lo)|H]; [left|right; exact H]. split; [exact Nt|]. destruct (Nat.eq_dec (th_obj t) j) as [Ej|Nj].
    - rewrite Ej in *. assert (o = ob) by (unfold alive in *; congruence). subst o. exists (mkObj (w_se w') (w_rbuf w') (ob_link ob)). split; [eapply back_alive; exact Aj|]. cbn [ob_buf]. rewrite Eb. exact Lo.
    - exists o. split; [apply back_other; assumption|exact Lo].
  Qed.

  Lemma focus_turn n ts s t' s' : at_turn n ts s -> turn (mkTh i (fst (walk n p w0))) s = (t', s') -> at_turn (S n) (list_set ts k t') s'.
  Proof.
    intros (PO & ob & l & Al & Ln & OS & Eb & El & L & P & Nk & Ot) T. unfold at_turn. rewrite walk_S. destruct (walk n p w0) as [q v] eqn:W. cbn [fst snd] in *.
    assert (Lk : (k < List.length ts)%nat) by (eapply nth_error_lt; exact Nk).
    assert (N' : nth_error (list_set ts k t') k = Some t') by (apply nth_error_set_same; exact Lk).
    unfold turn in T. cbn [th_prog th_obj] in T. destruct q as [o|B x f].
    - injection T as <- <-. split; [exact PO|]. exists ob, l. cbn [walk fst snd]. repeat (split; [assumption|]).
      intros k' t Nk' H. rewrite nth_error_set_other in H by congruence. exact (Ot k' t Nk' H).
    - destruct (P _ _ L) as (o & w' & v' & E1 & E2 & L' & K & P'). rewrite (on_step i x s ob l o w' Al Ln E1) in T. injection T as <- <-.
      cbn [walk]. rewrite E2. cbn [fst snd].
      pose proof (alike_good _ _ _ _ L L' K) as G. assert (Rb : w_rbuf w' = ob_buf ob) by (rewrite (al_b1 _ _ _ _ _ L'); symmetry; exact Eb).
      split; [eapply back_ok; eassumption|]. exists (mkObj (w_se w') (w_rbuf w') (ob_link ob)), (mkLink (w_ctl w') (w_io w') (w_net w')).
      split; [eapply back_alive; exact Al|]. split; [eapply back_linked; exact Ln|]. split; [apply (back_own s i ob w' i ob); assumption|].
      split; [exact (al_b1 _ _ _ _ _ L')|]. split; [exact El|]. rewrite world_back. split; [exact L'|]. split; [exact P'|].
      split; [exact N'|]. intros k' t Nk' H. rewrite nth_error_set_other in H by congruence. apply fine_back; [exact Al|exact Rb|]. exact (Ot k' t Nk' H).
  Qed.
  Lemma other_turn n ts s k' t t' s' : at_turn n ts s -> k' <> k -> nth_error ts k' = Some t -> turn t s = (t', s') -> at_turn n (list_set ts k' t') s'.
  Proof.
    intros (PO & ob & l & Al & Ln & OS & Eb & El & L & P & Nk & Ot) Nk' Ht T. destruct t as [j q]. unfold turn in T. cbn [th_prog th_obj] in T.
    assert (Lk : (k' < List.length ts)%nat) by (eapply nth_error_lt; exact Ht).
    assert (N' : nth_error (list_set ts k' t') k = Some (mkTh i (fst (walk n p w0)))) by (rewrite nth_error_set_other by congruence; exact Nk).
    destruct q as [o|B x f].
    { injection T as <- <-. split; [exact PO|]. exists ob, l. repeat (split; [assumption|]). intros k2 t2 N2 H2. destruct (Nat.eq_dec k2 k') as [->|N3].
      - rewrite nth_error_set_same in H2 by exact Lk. injection H2 as <-. exact (Ot k' _ Nk' Ht).
      - rewrite nth_error_set_other in H2 by congruence. exact (Ot k2 t2 N2 H2). }
    pose proof (Ot k' _ Nk' Ht) as [(Nj & o2 & A2 & P2)|(Ej & Ff & Q)]; cbn [th_obj th_prog] in *.
    - pose proof PO as (_ & _ & PO3 & _). destruct (PO3 j o2 A2) as (l2 & L2 & S2 & U2).
      assert (R2 : alike true u (ob_buf o2) (world_of s o2 l2) (world_of s o2 l2)) by (constructor; try reflexivity; try assumption; split; reflexivity).
      destruct (P2 _ _ R2) as (o & w' & v' & E1 & E2 & L' & K & P'). rewrite (on_step j x s o2 l2 o w' A2 L2 E1) in T. injection T as <- <-.
      assert (G : good (world_of s o2 l2) w').
      { split; [exact (al_ok _ _ _ _ _ L')|]. split; [exact K|]. split; [exact (al_b1 _ _ _ _ _ L')|].
        apply kept_length; [exact (proj1 S2)|exact (al_b1 _ _ _ _ _ L')|exact (proj1 (al_ok _ _ _ _ _ L'))|exact K]. }
      assert (Rb : w_rbuf w' = ob_buf o2) by exact (al_b1 _ _ _ _ _ L').
      split; [eapply back_ok; eassumption|]. exists ob, l.
      pose proof (OS j o2 Nj A2) as Nl.
      destruct (back_spared u s j o2 l2 w' i ob PO A2 L2 G Nj Al) as (Al' & Mm & Sk). destruct (Sk OS) as [OS' Ln'].
      split; [exact Al'|]. split; [unfold linked; rewrite Ln'; exact Ln|]. split; [exact OS'|]. split; [exact Eb|]. split; [exact El|].
      split; [|split; [exact P|split; [exact N'|]]].
      + destruct L as [L1 L2' L3 L4 L5 L6 L7 L8 L9].
        assert (Bb : forall y, nth_error (st_mem s) b = Some y -> nth_error (w_mem w') b = Some y).
        { intros y Hy. rewrite <- Eb in *. exact (Mm y Hy). }
        assert (Bx : exists bl, nth_error (st_mem s) b = Some (Some bl) /\ len bl = 4096).
        { destruct L6 as ((bl & X & Xl) & _). rewrite L3 in X. exists bl. auto. }
        destruct Bx as (bl & Bx & Bxl). constructor; cbn in *; try assumption.
        * rewrite <- L5, Bx. apply Bb. exact Bx.
        * split; [|exact (proj2 L6)]. exists bl. split; [|exact Bxl]. cbn. rewrite Eb. apply Bb. exact Bx.
        * split; [|exact (proj2 L7)]. cbn. intros c0 bl0 H0. apply (user_kept u _ w' U2 K Rb). exact H0.
      + intros k2 t2 N2 H2. destruct (Nat.eq_dec k2 k') as [->|N3].
        * rewrite nth_error_set_same in H2 by exact Lk. injection H2 as <-. left. split; [exact Nj|]. cbn [th_obj th_prog].
          exists (mkObj (w_se w') (w_rbuf w') (ob_link o2)). split; [eapply back_alive; exact A2|]. cbn [ob_buf]. rewrite Rb. exact P'.
        * rewrite nth_error_set_other in H2 by congruence. apply fine_back; [exact A2|exact Rb|]. exact (Ot k2 t2 N2 H2).
    - subst j. pose proof L as [L1 L2' L3 L4 L5 L6 L7 L8 L9].
      destruct (Q (world_of s ob l) L6 L7 L3) as (o & w' & E1 & G & Hc & Hs & Hb & Ht' & Q'). rewrite (on_step i x s ob l o w' Al Ln E1) in T. injection T as <- <-.
      assert (Rb : w_rbuf w' = ob_buf ob) by exact (proj1 (proj2 (proj2 G))).
      split; [eapply back_ok; eassumption|]. exists (mkObj (w_se w') (w_rbuf w') (ob_link ob)), (mkLink (w_ctl w') (w_io w') (w_net w')).
      split; [eapply back_alive; exact Al|]. split; [eapply back_linked; exact Ln|]. split; [apply (back_own s i ob w' i ob); assumption|].
      split; [cbn; congruence|]. split; [exact El|]. rewrite world_back. split; [|split; [exact P|split; [exact N'|]]].
      + rewrite Ff in *. constructor; try congruence; try assumption; [exact (proj1 G)|exact (user_kept u _ w' L7 (proj1 (proj2 G)) Rb)].
      + intros k2 t2 N2 H2. destruct (Nat.eq_dec k2 k') as [->|N3].
        * rewrite nth_error_set_same in H2 by exact Lk. injection H2 as <-. right. split; [reflexivity|]. split; [exact Ff|exact Q'].
        * rewrite nth_error_set_other in H2 by congruence. apply fine_back; [exact Al|exact Rb|]. exact (Ot k2 t2 N2 H2).
  Qed.
  Lemma focus_rounds sched : forall n ts s ts' s', at_turn n ts s -> rounds sched ts s = (ts', s') -> at_turn (turns_of k sched + n) ts' s'.
  Proof.
    induction sched as [|j sched IH]; intros n ts s ts' s' H E; [injection E as <- <-; exact H|]. cbn [rounds] in E. unfold turns_of. cbn [filter].
    destruct (Nat.eqb_spec k j) as [<-|Nj].
    - pose proof H as (_ & ob & l & _ & _ & _ & _ & _ & _ & _ & Nk & _). rewrite Nk in E. destruct (turn _ s) as [t1 s1] eqn:T.
      pose proof (focus_turn n ts s t1 s1 H T) as H1. specialize (IH _ _ _ _ _ H1 E). cbn [List.length]. unfold turns_of in IH. rewrite Nat.add_succ_r in IH. exact IH.
    - destruct (nth_error ts j) as [t|] eqn:Ht; [|exact (IH _ _ _ _ _ H E)]. destruct (turn t s) as [t1 s1] eqn:T.
      exact (IH _ _ _ _ _ (other_turn n ts s j t t1 s1 H ltac:(congruence) Ht T) E).
  Qed.
End focus.

(** What the focus thread has in the end. *)
Lemma focus_end {A} full u s s' i k (p : prog A) ts ts' sched ob l : pool_ok u s -> alive s i ob -> linked s ob l -> own_sockets s i ob ->
  locp full u (ob_buf ob) (fun _ => True) p -> nth_error ts k = Some (mkTh i p) ->
  (forall k' t, k' <> k -> nth_error ts k' = Some t -> other_fine full u i (ob_buf ob) s t) ->
  rounds sched ts s = (ts', s') ->
  exists q, nth_error ts' k = Some (mkTh i q) /\ (ended q <-> (steps p (world_of s ob l) <= turns_of k sched)%nat) /\
    forall o, q = PEnd o -> exists w', run p (world_of s ob l) = (o, w') /\
      exists ob' l', alive s' i ob' /\ linked s' ob' l' /\ ob_link ob' = ob_link ob /\ alike full u (ob_buf ob) (world_of s' ob' l') w'.
Proof.
  intros PO Al Ln OS P Nk Ot E. pose proof PO as (_ & _ & P3 & _). destruct (P3 i ob Al) as (l0 & L0 & S0 & U0). unfold linked in *. assert (l0 = l) by congruence. subst l0.
  assert (H : at_turn full u i (ob_buf ob) (ob_link ob) k p (world_of s ob l) 0 ts s).
  { split; [exact PO|]. exists ob, l. repeat (split; [assumption || reflexivity|]). cbn [walk fst snd].
    split; [constructor; try reflexivity; try assumption; destruct full; [split|]; reflexivity|]. split; [exact P|]. split; [exact Nk|]. exact Ot. }
  pose proof (focus_rounds full u i (ob_buf ob) (ob_link ob) k p (world_of s ob l) sched 0 ts s ts' s' H E) as (PO' & ob' & l' & Al' & Ln' & OS' & Eb & El & L & _ & Nk' & _).
  rewrite Nat.add_0_r in *. set (n := turns_of k sched) in *. exists (fst (walk n p (world_of s ob l))). split; [exact Nk'|]. split; [apply walk_ended|].
  intros o Eo. exists (snd (walk n p (world_of s ob l))). split; [rewrite (walk_run n), Eo; reflexivity|]. exists ob', l'. auto.
Qed.
