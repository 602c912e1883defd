(** * Lemmas about several session objects *)
From Coq Require Import Arith.PeanoNat.
From Verif Require Import Vocab8 PLen.

Lemma alive_set s m ls i x j ob : alive (mkPool m ls (list_set (st_objs s) i (Some x))) j ob -> (j = i /\ ob = x) \/ (j <> i /\ alive s j ob).
Proof.
  unfold alive. cbn [st_objs]. intros H. destruct (Nat.eq_dec j i) as [->|Nj].
  - left. split; [reflexivity|]. pose proof (nth_error_lt _ _ _ H) as L. rewrite length_list_set in L. rewrite nth_error_set_same in H by exact L. congruence.
  - right. split; [exact Nj|]. rewrite nth_error_set_other in H by congruence. exact H.
Qed.
Lemma alive_none s m ls i j ob : alive (mkPool m ls (list_set (st_objs s) i None)) j ob -> j <> i /\ alive s j ob.
Proof.
  unfold alive. cbn [st_objs]. intros H. destruct (Nat.eq_dec j i) as [->|Nj].
  - pose proof (nth_error_lt _ _ _ H) as L. rewrite length_list_set in L. rewrite nth_error_set_same in H by exact L. discriminate.
  - split; [exact Nj|]. rewrite nth_error_set_other in H by congruence. exact H.
Qed.
Lemma alive_app s m ls x j ob : alive (mkPool m ls (st_objs s ++ [Some x])) j ob -> (j = List.length (st_objs s) /\ ob = x) \/ ((j < List.length (st_objs s))%nat /\ alive s j ob).
Proof.
  unfold alive. cbn [st_objs]. intros H. destruct (Nat.lt_trichotomy j (List.length (st_objs s))) as [L|[->|L]].
  - right. split; [exact L|]. rewrite nth_error_app1 in H by exact L. exact H.
  - left. split; [reflexivity|]. rewrite nth_error_app_end in H. congruence.
  - exfalso. apply nth_error_lt in H. rewrite app_length in H. cbn in H. lia.
Qed.
Lemma alive_app_old s m ls x j ob : alive s j ob -> alive (mkPool m ls (st_objs s ++ [Some x])) j ob.
Proof. unfold alive. cbn [st_objs]. intros H. rewrite nth_error_app1; [exact H|eapply nth_error_lt; exact H]. Qed.
Lemma alive_lt s i ob : alive s i ob -> (i < List.length (st_objs s))%nat. Proof. apply nth_error_lt. Qed.

(** What a good step of one object means for the pool. *)
Definition good (w w' : world) : Prop := session_ok w' /\ mem_kept w w' /\ w_rbuf w' = w_rbuf w /\ (List.length (w_mem w) <= List.length (w_mem w'))%nat.
Lemma kept_length w w' : rbuf_ok w -> w_rbuf w' = w_rbuf w -> rbuf_ok w' -> mem_kept w w' -> (List.length (w_mem w) <= List.length (w_mem w'))%nat.
Proof.
  intros (bl & B & _) E (bl' & B' & _) K. destruct (Nat.le_gt_cases (List.length (w_mem w)) (List.length (w_mem w'))) as [L|L]; [exact L|exfalso].
  set (k := (List.length (w_mem w) - 1)%nat). assert (Lk : (k < List.length (w_mem w))%nat) by (unfold k; lia).
  destruct (nth_error (w_mem w) k) as [x|] eqn:X; [|apply nth_error_None in X; lia].
  destruct (Nat.eq_dec k (w_rbuf w)) as [Ek|Nk].
  - rewrite E, <- Ek in B'. apply nth_error_lt in B'. unfold k in B'. lia.
  - apply (K _ _ Nk) in X. apply nth_error_lt in X. unfold k in X. lia.
Qed.

Section one.
  Context (u : heap) (s : pool) (i : nat) (ob : object) (l : link) (w' : world).
  Context (SO : pool_ok u s) (A : alive s i ob) (L : linked s ob l) (G : good (world_of s ob l) w').

  Lemma other_block j b x : j <> i -> alive s j b -> nth_error (st_mem s) (ob_buf b) = Some x -> nth_error (w_mem w') (ob_buf b) = Some x.
  Proof. intros Nj Aj H. destruct SO as (_ & _ & _ & D). apply (proj1 (proj2 G)); [|exact H]. apply (D j i); assumption. Qed.

  Lemma back_links k x : nth_error (st_links s) k = Some x -> exists y, nth_error (st_links (back s i ob w')) k = Some y.
  Proof.
    intros H. unfold back. cbn [st_links]. destruct (Nat.eq_dec k (ob_link ob)) as [->|Nk].
    - eexists. apply nth_error_set_same. eapply nth_error_lt. exact H.
    - exists x. rewrite nth_error_set_other by congruence. exact H.
  Qed.
  Lemma back_linked : linked (back s i ob w') (mkObj (w_se w') (w_rbuf w') (ob_link ob)) (mkLink (w_ctl w') (w_io w') (w_net w')).
  Proof. unfold linked, back. cbn. apply nth_error_set_same. eapply nth_error_lt. exact L. Qed.
  Lemma back_alive : alive (back s i ob w') i (mkObj (w_se w') (w_rbuf w') (ob_link ob)).
  Proof. unfold alive, back. cbn. apply nth_error_set_same. eapply nth_error_lt. exact A. Qed.
  Lemma back_other j b : j <> i -> alive s j b -> alive (back s i ob w') j b.
  Proof. intros Nj H. unfold alive, back. cbn. rewrite nth_error_set_other by congruence. exact H. Qed.

  Lemma back_ok : pool_ok u (back s i ob w').
  Proof.
    pose proof SO as (H1 & H2 & H3 & H4). destruct (H3 i ob A) as (l0 & L0 & S0 & U0). unfold linked in *. rewrite L in L0. injection L0 as <-.
    destruct G as (G1 & G2 & G3 & G4). pose proof (user_kept _ _ _ U0 G2 G3) as U1.
    split; [exact (proj1 U1)|]. split; [cbn in *; lia|]. split.
    - intros j b Aj. apply alive_set in Aj. destruct Aj as [[-> ->]|[Nj Aj]].
      + exists (mkLink (w_ctl w') (w_io w') (w_net w')). split; [exact back_linked|]. split; assumption.
      + destruct (H3 j b Aj) as (lj & Lj & Sj & Uj). destruct (back_links _ _ Lj) as [y Ly]. exists y. split; [exact Ly|].
        split.
        * destruct Sj as ((bl & B & Bl) & R). split; [|exact R]. exists bl. split; [|exact Bl]. exact (other_block j b _ Nj Aj B).
        * split; [exact (proj1 U1)|]. exact (proj2 Uj).
    - intros j k a b Njk Aj Ak. apply alive_set in Aj. apply alive_set in Ak.
      destruct Aj as [[-> ->]|[Nj Aj]], Ak as [[-> ->]|[Nk Ak]]; cbn [ob_buf] in *; try congruence; rewrite ?G3.
      + exact (H4 i k ob b ltac:(congruence) A Ak).
      + exact (H4 j i a ob Nj Aj A).
      + exact (H4 j k a b Njk Aj Ak).
  Qed.
End one.

Lemma call_good u o w r w' : session_ok w -> user_memory u w -> op_ok u o -> step o w = (r, w') -> good w w'.
Proof.
  intros SO UM OK E. destruct (step_one u o w r w' SO UM OK E) as (RB & MK & WR & FI & _).
  split; [eapply session_keeps; eassumption|]. split; [exact MK|]. split; [exact WR|]. apply kept_length; try assumption. apply SO.
Qed.

Lemma destroy_good w o w' : session_ok w -> session_destroy w = (o, w') -> o = Ret tt /\ good w w'.
Proof.
  intros SO E. pose proof SO as (RB & FI & FO). unfold session_destroy in E. destruct (se_id (w_se w) =? 0) eqn:Z; cbn [negb] in E.
  - injection E as <- <-. split; [reflexivity|]. split; [exact SO|]. split; [intros b x _ H; exact H|]. split; [reflexivity|lia].
  - destruct (session_close_spec w RB) as (oc & wc & EC & WR & RB' & MK & S). rewrite EC in E.
    assert (Q : (exists s, oc = Throw SystemError s) /\ w_se wc = w_se w \/ oc = Ret tt /\ w_se wc = set_id 0 (w_se w)).
    { destruct (sent (w_ctl w) (unregister (se_id (w_se w)))) as [n|].
      - destruct S as [_ S]. destruct (closed (w_ctl w) (w_io w)); auto.
      - destruct S as (S & Ss & _). auto. }
    assert (E2 : o = Ret tt /\ w' = wc). { destruct Q as [[[s ->] _]|[-> _]]; injection E as <- <-; auto. }
    destruct E2 as [-> ->]. split; [reflexivity|]. split.
    + split; [exact RB'|]. destruct Q as [[_ ->]|[_ ->]]; [split; assumption|]. split; [reflexivity|exact FO].
    + split; [exact MK|]. split; [exact WR|]. apply kept_length; assumption.
Qed.

(** ** One act *)
Definition spared (s s' : pool) (j : nat) (ob : object) : Prop :=
  alive s' j ob /\ (forall x, nth_error (st_mem s) (ob_buf ob) = Some x -> nth_error (st_mem s') (ob_buf ob) = Some x) /\
  (own_sockets s j ob -> own_sockets s' j ob /\ nth_error (st_links s') (ob_link ob) = nth_error (st_links s) (ob_link ob)).

Lemma back_spared u s i ob l w' j b : pool_ok u s -> alive s i ob -> linked s ob l -> good (world_of s ob l) w' -> i <> j -> alive s j b -> spared s (back s i ob w') j b.
Proof.
  intros SO A L G Nij Aj. split; [apply back_other; [congruence|exact Aj]|]. split.
  - intros x H. cbn [st_mem back]. exact (other_block u s i ob l w' SO A G j b x ltac:(congruence) Aj H).
  - intros OS. pose proof (OS i ob Nij A) as Ne. split.
    + intros k o Nk Ak. apply alive_set in Ak. destruct Ak as [[-> ->]|[_ Ak]]; [exact Ne|exact (OS k o Nk Ak)].
    + cbn [st_links back]. apply nth_error_set_other. congruence.
Qed.
Lemma grow_ok u s x m : pool_ok u s -> (forall b y, nth_error (st_mem s) b = Some y -> nth_error m b = Some y) ->
  (List.length (st_mem s) <= List.length m)%nat -> ob_buf x = List.length (st_mem s) ->
  (exists l, linked s x l /\ session_ok (mkW m (l_ctl l) (l_io l) (l_net l) (ob_se x) (ob_buf x))) ->
  pool_ok u (mkPool m (st_links s) (st_objs s ++ [Some x])).
Proof.
  intros (H1 & H2 & H3 & H4) HM LM Bx (l & Ll & Sl).
  assert (H1' : hext u m). { intros b bl B. apply HM. apply H1. exact B. }
  assert (Lo : forall j b, alive s j b -> (ob_buf b < List.length (st_mem s))%nat).
  { intros j b Aj. destruct (H3 j b Aj) as (lj & _ & ((bl & B & _) & _) & _). eapply nth_error_lt. exact B. }
  split; [exact H1'|]. split; [cbn; lia|]. split.
  - intros j b Aj. apply alive_app in Aj. destruct Aj as [[-> ->]|[_ Aj]].
    + exists l. split; [exact Ll|]. split; [exact Sl|]. split; [exact H1'|]. cbn. intros bl B. apply nth_error_lt in B. lia.
    + destruct (H3 j b Aj) as (lj & Lj & ((bl & B & Bl) & R) & Uj). exists lj. split; [exact Lj|]. split; [split; [|exact R]|].
      * exists bl. split; [apply HM; exact B|exact Bl].
      * split; [exact H1'|exact (proj2 Uj)].
  - intros j k a b Njk Aj Ak. apply alive_app in Aj. apply alive_app in Ak.
    destruct Aj as [[-> ->]|[_ Aj]], Ak as [[-> ->]|[_ Ak]]; try congruence.
    + apply Lo in Ak. lia.
    + apply Lo in Aj. lia.
    + exact (H4 j k a b Njk Aj Ak).
Qed.
Lemma grow_spared s x m j b : (forall b y, nth_error (st_mem s) b = Some y -> nth_error m b = Some y) -> alive s j b ->
  (own_sockets s j b -> ob_link x <> ob_link b) -> spared s (mkPool m (st_links s) (st_objs s ++ [Some x])) j b.
Proof.
  intros HM Aj Nl. split; [apply alive_app_old; exact Aj|]. split; [intros y H; cbn; apply HM; exact H|].
  intros OS. split; [|reflexivity]. intros k o Nk Ak. apply alive_app in Ak. destruct Ak as [[-> ->]|[_ Ak]]; [exact (Nl OS)|exact (OS k o Nk Ak)].
Qed.
Lemma spared_refl s j ob : alive s j ob -> spared s s j ob.
Proof. intros A. split; [exact A|]. split; auto. Qed.
Lemma spared_trans a b c j ob : spared a b j ob -> spared b c j ob -> spared a c j ob.
Proof.
  intros (A1 & A2 & A3) (B1 & B2 & B3). split; [exact B1|]. split; [auto|].
  intros OS. destruct (A3 OS) as [O1 E1]. destruct (B3 O1) as [O2 E2]. split; [exact O2|congruence].
Qed.

Lemma app_kept (m : heap) x : forall b y, nth_error m b = Some y -> nth_error (m ++ [x]) b = Some y.
Proof. intros b y H. rewrite nth_error_app1; [exact H|eapply nth_error_lt; exact H]. Qed.

Definition good_act (u : heap) (a : act) (s s' : pool) : Prop :=
  pool_ok u s' /\ List.length (st_links s') = List.length (st_links s) /\
  forall j ob, alive s j ob -> leaves_alone j (ob_link ob) a -> spared s s' j ob.

Lemma on_good {A} u i (x : M A) s o s' : pool_ok u s -> (forall ob l o w', alive s i ob -> linked s ob l -> x (world_of s ob l) = (o, w') -> good (world_of s ob l) w') ->
  on i x s = (o, s') -> pool_ok u s' /\ List.length (st_links s') = List.length (st_links s) /\
  (forall j b, alive s j b -> i <> j -> spared s s' j b) /\
  ((exists ub, o = Undef ub) /\ s' = s \/ exists ob l w', alive s i ob /\ linked s ob l /\ x (world_of s ob l) = (o, w') /\ s' = back s i ob w').
Proof.
  intros SO H E. unfold on in E. destruct (nth_error (st_objs s) i) as [[ob|]|] eqn:Ei.
  - destruct (nth_error (st_links s) (ob_link ob)) as [l|] eqn:El.
    + destruct (x (world_of s ob l)) as [r w'] eqn:Ex. injection E as <- <-. pose proof (H ob l r w' Ei El Ex) as G.
      split; [eapply back_ok; eassumption|]. split; [cbn; apply length_list_set|]. split.
      * intros j b Aj Nij. eapply back_spared; eassumption.
      * right. exists ob, l, w'. auto.
    + injection E as <- <-. split; [exact SO|]. split; [reflexivity|]. split; [intros j b Aj _; apply spared_refl; exact Aj|left; eauto].
  - injection E as <- <-. split; [exact SO|]. split; [reflexivity|]. split; [intros j b Aj _; apply spared_refl; exact Aj|left; eauto].
  - injection E as <- <-. split; [exact SO|]. split; [reflexivity|]. split; [intros j b Aj _; apply spared_refl; exact Aj|left; eauto].
Qed.

Lemma pool_world u s i ob l : pool_ok u s -> alive s i ob -> linked s ob l -> session_ok (world_of s ob l) /\ user_memory u (world_of s ob l).
Proof.
  intros (_ & _ & H & _) A L. destruct (H i ob A) as (l' & L' & S & U). unfold linked in *. rewrite L in L'. injection L' as <-. auto.
Qed.

Lemma call_act u i o s r s' : pool_ok u s -> op_ok u o -> act_step (ACall i o) s = (r, s') -> good_act u (ACall i o) s s'.
Proof.
  intros SO OK E. cbn [act_step] in E. destruct (on i (step o) s) as [q s1] eqn:Eo.
  assert (s' = s1) by (destruct q; injection E; auto). subst s1.
  destruct (on_good u i (step o) s q s' SO) with (2 := Eo) as (P1 & P2 & P3 & _).
  { intros ob l o' w' A L X. destruct (pool_world u s i ob l SO A L). eapply call_good; eassumption. }
  split; [exact P1|]. split; [exact P2|]. intros j b Aj Nj. apply P3; assumption.
Qed.
Lemma copy_act u i s r s' : pool_ok u s -> copy_session i s = (r, s') -> good_act u (ACopy i) s s'.
Proof.
  intros SO E. assert (Id : s' = s -> good_act u (ACopy i) s s').
  { intros ->. split; [exact SO|]. split; [reflexivity|]. intros j b Aj _. apply spared_refl. exact Aj. }
  unfold copy_session in E. destruct (nth_error (st_objs s) i) as [[ob|]|] eqn:Ei; [|injection E as <- <-; auto..].
  destruct (load (st_mem s) (ob_buf ob) 0 4096) as [bs| | |] eqn:El; [|injection E as <- <-; auto..]. cbn [alloc] in E. injection E as <- <-.
  pose proof SO as (_ & _ & H & _). destruct (H i ob Ei) as (l & L & (RB & FI & FO) & _). split.
  - apply grow_ok; [exact SO|apply app_kept|rewrite app_length; lia|reflexivity|]. exists l. split; [exact L|]. split; [|split; [exact FI|exact FO]].
    exists bs. cbn [w_mem w_rbuf ob_buf]. split; [apply nth_error_app_end|]. apply load_len in El. exact El.
  - split; [reflexivity|]. intros j b Aj Nij. apply grow_spared; [apply app_kept|exact Aj|]. intros OS. apply (OS i ob Nij Ei).
Qed.
Lemma new_act u gen time vendor serial k s : pool_ok u s -> (k < List.length (st_links s))%nat ->
  good_act u (ANew gen time vendor serial k) s (snd (new_session gen time vendor serial k s)).
Proof.
  intros SO Lk. unfold new_session. destruct (gen time) as [cid0 sn0]. unfold session_make. cbn [alloc snd w_mem w_se w_rbuf]. split.
  - apply grow_ok; [exact SO|apply app_kept|rewrite app_length; lia|reflexivity|].
    destruct (nth_error (st_links s) k) as [l|] eqn:El; [|apply nth_error_None in El; lia]. exists l. split; [exact El|]. split; [|split; [reflexivity|constructor]].
    exists (zeros 4096). cbn [w_mem w_rbuf ob_buf]. split; [apply nth_error_app_end|apply len_zeros].
  - split; [reflexivity|]. intros j b Aj Nk. apply grow_spared; [apply app_kept|exact Aj|]. intros _. exact Nk.
Qed.

Lemma store_all m b old bs : nth_error m b = Some (Some old) -> len bs = len old -> 0 < len bs -> store m b 0 bs = Ret (list_set m b (Some bs)).
Proof.
  intros B L P. unfold store. destruct (N.eqb_spec (len bs) 0) as [Z|_]; [lia|]. rewrite B. rewrite N.add_0_l, L, N.leb_refl.
  rewrite drop_all by lia. rewrite app_nil_r. reflexivity.
Qed.
(** An assignment that happens. *)
Lemma assign_does u s i j a b : pool_ok u s -> alive s i a -> alive s j b -> exists bs, buffer s b bs /\ len bs = 4096 /\
  assign_session i j s = (Ret tt, mkPool (list_set (st_mem s) (ob_buf a) (Some bs)) (st_links s) (list_set (st_objs s) i (Some (mkObj (ob_se b) (ob_buf a) (ob_link b))))).
Proof.
  intros (_ & _ & H & _) A B. destruct (H i a A) as (la & _ & ((ba & Ba & La) & _) & _). destruct (H j b B) as (lb & _ & ((bb & Bb & Lb) & _) & _).
  cbn [world_of w_mem w_rbuf] in *. exists bb. split; [exact Bb|]. split; [exact Lb|]. unfold assign_session. unfold alive in A, B. rewrite A, B.
  pose proof (load_all _ _ _ Bb) as E. rewrite Lb in E. rewrite E. cbn [obind]. rewrite (store_all _ _ _ _ Ba) by lia. reflexivity.
Qed.
Lemma assign_act u i j s r s' : pool_ok u s -> assign_session i j s = (r, s') -> good_act u (AAssign i j) s s'.
Proof.
  intros SO E. assert (Id : s' = s -> good_act u (AAssign i j) s s').
  { intros ->. split; [exact SO|]. split; [reflexivity|]. intros k c Ak _. apply spared_refl. exact Ak. }
  destruct (nth_error (st_objs s) i) as [[a|]|] eqn:Ei; [|unfold assign_session in E; rewrite Ei in E; injection E as <- <-; auto|
    unfold assign_session in E; rewrite Ei in E; destruct (nth_error (st_objs s) j) as [[?|]|]; injection E as <- <-; auto].
  destruct (nth_error (st_objs s) j) as [[b|]|] eqn:Ej; [|unfold assign_session in E; rewrite Ei, Ej in E; injection E as <- <-; auto..].
  destruct (assign_does u s i j a b SO Ei Ej) as (bs & Bb & Lb & E'). rewrite E' in E. injection E as <- <-. clear E' Id.
  set (x := mkObj (ob_se b) (ob_buf a) (ob_link b)).
  pose proof SO as (H1 & H2 & H3 & H4). destruct (H3 i a Ei) as (la & _ & ((ba & Ba & _) & _) & _ & Ua). destruct (H3 j b Ej) as (lb & Lj & (_ & Fb) & _).
  cbn [world_of w_mem w_rbuf] in *.
  assert (Oth : forall k c, k <> i -> alive s k c -> forall y, nth_error (st_mem s) (ob_buf c) = Some y -> nth_error (list_set (st_mem s) (ob_buf a) (Some bs)) (ob_buf c) = Some y).
  { intros k c Nk Ak y Hy. rewrite nth_error_set_other; [exact Hy|]. exact (H4 i k a c ltac:(congruence) Ei Ak). }
  assert (Hm : hext u (list_set (st_mem s) (ob_buf a) (Some bs))).
  { intros c bl B. rewrite nth_error_set_other; [apply H1; exact B|]. intros <-. exact (Ua _ B). }
  assert (New : nth_error (list_set (st_mem s) (ob_buf a) (Some bs)) (ob_buf a) = Some (Some bs)).
  { apply nth_error_set_same. eapply nth_error_lt. exact Ba. }
  split.
  - split; [exact Hm|]. split; [cbn [st_mem]; rewrite length_list_set; exact H2|]. split.
    + intros k c Ak. apply alive_set in Ak. destruct Ak as [[-> ->]|[Nk Ak]].
      * exists lb. split; [exact Lj|]. split; [split; [|exact Fb]|split; [exact Hm|exact Ua]]. exists bs. split; [exact New|exact Lb].
      * destruct (H3 k c Ak) as (lk & Lk & ((bl & B & Bl) & R) & U). exists lk. split; [exact Lk|]. split; [split; [|exact R]|split; [exact Hm|exact (proj2 U)]].
        exists bl. split; [exact (Oth k c Nk Ak _ B)|exact Bl].
    + intros k k' c c' Nkk Ak Ak'. apply alive_set in Ak. apply alive_set in Ak'.
      destruct Ak as [[-> ->]|[Nk Ak]], Ak' as [[-> ->]|[Nk' Ak']]; cbn [x ob_buf]; try congruence.
      * exact (H4 i k' a c' ltac:(congruence) Ei Ak').
      * exact (H4 k i c a Nk Ak Ei).
      * exact (H4 k k' c c' Nkk Ak Ak').
  - split; [reflexivity|]. intros k c Ak [N1 N2]. split; [unfold alive; cbn [st_objs]; rewrite nth_error_set_other by congruence; exact Ak|]. split.
    + intros y Hy. cbn [st_mem]. exact (Oth k c ltac:(congruence) Ak y Hy).
    + intros OS. split; [|reflexivity]. intros k' o Nk' Ak'. apply alive_set in Ak'. destruct Ak' as [[-> ->]|[_ Ak']]; [|exact (OS k' o Nk' Ak')].
      cbn [x ob_link]. exact (OS j b N2 Ej).
Qed.

Lemma free_other m b m' c x : free m b = Ret m' -> c <> b -> nth_error m c = Some x -> nth_error m' c = Some x.
Proof.
  unfold free. destruct (nth_error m b) as [[bl|]|]; intros E; [|discriminate..]. injection E as <-. intros N H. rewrite nth_error_set_other by congruence. exact H.
Qed.
Lemma destroy_act u i s r s' : pool_ok u s -> destroy_session i s = (r, s') -> good_act u (ADestroy i) s s'.
Proof.
  intros SO E. unfold destroy_session in E. destruct (on i session_destroy s) as [q s1] eqn:Eo.
  destruct (on_good u i session_destroy s q s1 SO) with (2 := Eo) as (P1 & P2 & P3 & P4).
  { intros ob l o' w' A L X. destruct (pool_world u s i ob l SO A L). eapply destroy_good; eassumption. }
  assert (Mid : s' = s1 -> good_act u (ADestroy i) s s').
  { intros ->. split; [exact P1|]. split; [exact P2|]. intros j b Aj Nj. apply P3; assumption. }
  destruct q as [[]| | |]; [|injection E as <- <-; auto..].
  destruct (nth_error (st_objs s1) i) as [[ob|]|] eqn:Ei; [|injection E as <- <-; auto..].
  destruct (free (st_mem s1) (ob_buf ob)) as [m| | |] eqn:Ef; [|injection E as <- <-; auto..]. injection E as <- <-.
  pose proof P1 as (H1 & H2 & H3 & H4).
  assert (Oth : forall j b, j <> i -> alive s1 j b -> forall x, nth_error (st_mem s1) (ob_buf b) = Some x -> nth_error m (ob_buf b) = Some x).
  { intros j b Nj Aj x H. eapply free_other; [exact Ef| |exact H]. exact (H4 j i b ob Nj Aj Ei). }
  assert (Hm : hext u m).
  { intros b bl B. eapply free_other; [exact Ef| |apply H1; exact B]. intros ->. destruct (H3 i ob Ei) as (l & _ & _ & _ & Hu). exact (Hu _ B). }
  split.
  - split; [exact Hm|]. split.
    { cbn. unfold free in Ef. destruct (nth_error (st_mem s1) (ob_buf ob)) as [[bl|]|]; try discriminate. injection Ef as <-. rewrite length_list_set. exact H2. }
    split.
    + intros j b Aj. apply alive_none in Aj. destruct Aj as [Nj Aj]. destruct (H3 j b Aj) as (l & L & ((bl & B & Bl) & R) & U). exists l.
      split; [exact L|]. split; [split; [|exact R]|split; [exact Hm|exact (proj2 U)]]. exists bl. split; [exact (Oth j b Nj Aj _ B)|exact Bl].
    + intros j k a b Njk Aj Ak. apply alive_none in Aj. apply alive_none in Ak. destruct Aj as [_ Aj], Ak as [_ Ak]. exact (H4 j k a b Njk Aj Ak).
  - split; [exact P2|]. intros j b Aj Nj. cbn in Nj. eapply spared_trans; [apply P3; eassumption|].
    destruct (P3 j b Aj Nj) as (A1 & _). split; [unfold alive; cbn; rewrite nth_error_set_other by congruence; exact A1|]. split.
    + intros x H. cbn. exact (Oth j b ltac:(congruence) A1 x H).
    + intros OS. split; [|reflexivity]. intros k o Nk Ak. apply alive_none in Ak. apply (OS k o Nk). apply Ak.
Qed.

Lemma act_good u a s r s' : pool_ok u s -> act_ok u (List.length (st_links s)) a -> act_step a s = (r, s') -> good_act u a s s'.
Proof.
  intros SO OK E. destruct a as [gen time vendor serial k|i|i j|i|i o].
  - cbn [act_step] in E. destruct (new_session gen time vendor serial k s) as [n s1] eqn:En. injection E as <- <-.
    pose proof (new_act u gen time vendor serial k s SO OK) as G. rewrite En in G. exact G.
  - cbn [act_step] in E. destruct (copy_session i s) as [q s1] eqn:Ec. assert (s' = s1) by (destruct q; injection E; auto). subst s1. eapply copy_act; eassumption.
  - eapply assign_act; eassumption.
  - eapply destroy_act; eassumption.
  - eapply call_act; eassumption.
Qed.

Lemma acts_good u n acts : forall s rs s' j ob, pool_ok u s -> n = List.length (st_links s) -> Forall (act_ok u n) acts -> run_acts acts s = (rs, s') ->
  alive s j ob -> Forall (leaves_alone j (ob_link ob)) acts -> pool_ok u s' /\ spared s s' j ob.
Proof.
  induction acts as [|a acts IH]; intros s rs s' j ob SO En F E A LA; cbn [run_acts] in E.
  - injection E as <- <-. split; [exact SO|apply spared_refl; exact A].
  - inversion_clear F as [|? ? F1 F2]. inversion_clear LA as [|? ? L1 L2]. destruct (act_step a s) as [r s1] eqn:Ea. subst n.
    destruct (act_good u a s r s1 SO F1 Ea) as (P1 & P2 & P3). pose proof (P3 j ob A L1) as Sp. pose proof Sp as (A1 & _).
    destruct r as [[]|c e|ub|]; try (injection E as <- <-; auto);
      (destruct (run_acts acts s1) as [rs2 s2] eqn:Er; injection E as <- <-;
       destruct (IH s1 rs2 s2 j ob P1 (eq_sym P2) F2 Er A1 L2) as [Q1 Q2]; split; [exact Q1|eapply spared_trans; eassumption]).
Qed.

(** ** Separate sessions do not interfere *)
Lemma sessions_apart u acts s rs s' j ob l bs : pool_ok u s -> Forall (act_ok u (List.length (st_links s))) acts -> Forall (leaves_alone j (ob_link ob)) acts ->
  alive s j ob -> own_sockets s j ob -> linked s ob l -> buffer s ob bs -> run_acts acts s = (rs, s') ->
  alive s' j ob /\ linked s' ob l /\ buffer s' ob bs.
Proof.
  intros SO F LA A OS L B E. destruct (acts_good u _ acts s rs s' j ob SO eq_refl F E A LA) as (_ & S1 & S2 & S3).
  split; [exact S1|]. destruct (S3 OS) as [_ S4]. split; [unfold linked in *; congruence|]. apply S2. exact B.
Qed.
Lemma pool_stays_ok u acts : forall s rs s', pool_ok u s -> Forall (act_ok u (List.length (st_links s))) acts -> run_acts acts s = (rs, s') ->
  pool_ok u s' /\ List.length (st_links s') = List.length (st_links s).
Proof.
  induction acts as [|a acts IH]; intros s rs s' SO F E; cbn [run_acts] in E.
  - injection E as <- <-. auto.
  - inversion_clear F as [|? ? F1 F2]. destruct (act_step a s) as [r s1] eqn:Ea.
    destruct (act_good u a s r s1 SO F1 Ea) as (P1 & P2 & _). rewrite <- P2 in F2.
    destruct r as [[]|c e|ub|]; try (injection E as <- <-; auto);
      (destruct (run_acts acts s1) as [rs2 s2] eqn:Er; injection E as <- <-; destruct (IH s1 rs2 s2 P1 F2 Er) as [Q1 Q2]; split; [exact Q1|congruence]).
Qed.
