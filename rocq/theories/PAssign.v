(** * Lemmas about assigned session objects *)
From Coq Require Import Arith.PeanoNat.
From Verif Require Export PWitness6 PObjects.

Lemma assigned u s i j a b : pool_ok u s -> alive s i a -> alive s j b ->
  exists bs s', assign_session i j s = (Ret tt, s') /\ buffer s b bs /\
    alive s' i (mkObj (ob_se b) (ob_buf a) (ob_link b)) /\ buffer s' (mkObj (ob_se b) (ob_buf a) (ob_link b)) bs /\
    st_links s' = st_links s /\ (forall k c x, k <> i -> alive s k c -> buffer s c x -> alive s' k c /\ buffer s' c x) /\ pool_ok u s'.
Proof.
  intros P A B. destruct (assign_does u s i j a b P A B) as (bs & Bb & _ & E). pose proof (assign_act u i j s _ _ P E) as (P' & _).
  pose proof P as (_ & _ & H & D). destruct (H i a A) as (la & _ & ((ba & Ba & _) & _) & _). cbn [world_of w_mem w_rbuf] in Ba.
  exists bs. eexists. split; [exact E|]. split; [exact Bb|]. split; [unfold alive; cbn [st_objs]; apply nth_error_set_same; eapply nth_error_lt; exact A|].
  split; [unfold buffer; cbn [st_mem ob_buf]; apply nth_error_set_same; eapply nth_error_lt; exact Ba|]. split; [reflexivity|]. split; [|exact P'].
  intros k c x Nk Ak Bk. split.
  - unfold alive. cbn [st_objs]. rewrite nth_error_set_other by congruence. exact Ak.
  - unfold buffer. cbn [st_mem]. rewrite nth_error_set_other; [exact Bk|]. exact (D i k a c ltac:(congruence) A Ak).
Qed.

Lemma list_set_id {A} (l : list A) k x : nth_error l k = Some x -> list_set l k x = l.
Proof. revert k. induction l as [|y l IH]; intros [|k] H; cbn in *; try discriminate; [injection H as ->; reflexivity|]. f_equal. apply IH. exact H. Qed.

(** The idiom of test/session_test.cpp:58. *)
Lemma temporary u s i a gen time vendor serial k : pool_ok u s -> alive s i a -> (k < List.length (st_links s))%nat ->
  exists n s1 s2 s3 bs, new_session gen time vendor serial k s = (n, s1) /\ assign_session i n s1 = (Ret tt, s2) /\ destroy_session n s2 = (Ret tt, s3) /\
    alive s3 i (mkObj (new_fields gen time vendor serial) (ob_buf a) k) /\
    buffer s3 (mkObj (new_fields gen time vendor serial) (ob_buf a) k) bs /\
    (forall y, ~ alive s3 n y) /\ st_links s3 = st_links s /\ (forall j c x, j <> i -> alive s j c -> buffer s c x -> alive s3 j c /\ buffer s3 c x) /\ pool_ok u s3.
Proof.
  intros P A Lk. pose proof (new_act u gen time vendor serial k s P Lk) as (P1 & _ & Sp1).
  destruct (new_session gen time vendor serial k s) as [n s1] eqn:En. cbn [snd] in P1, Sp1. unfold new_session in En. destruct (gen time) as [cid sn] eqn:Eg.
  unfold session_make in En. cbn [alloc w_mem w_se w_rbuf] in En. injection En as En1 En2.
  set (c := mkObj (new_fields gen time vendor serial) (List.length (st_mem s)) k) in *.
  assert (A1 : alive s1 n c) by (subst n s1; unfold alive; cbn [st_objs]; unfold c, new_fields; rewrite Eg; apply nth_error_app_end).
  assert (Ls1 : st_links s1 = st_links s) by (subst s1; reflexivity).
  assert (Old : forall j d, alive s j d -> alive s1 j d) by (intros j d; subst s1; apply alive_app_old).
  assert (Oldm : forall d x, buffer s d x -> buffer s1 d x) by (intros d x Hx; subst s1; apply app_kept; exact Hx).
  assert (Ni : n <> i) by (apply alive_lt in A; subst n; lia).
  destruct (assigned u s1 i n a c P1 (Old i a A) A1) as (bs & s2 & E2 & B2 & A2 & C2 & Ls2 & K2 & P2).
  assert (Bc : buffer s1 c (zeros 4096)) by (subst s1; unfold buffer; cbn [st_mem c ob_buf]; apply nth_error_app_end).
  assert (bs = zeros 4096) by (unfold buffer in *; congruence). subst bs.
  destruct (K2 n c (zeros 4096) Ni A1 Bc) as [A2n B2n].
  destruct (nth_error (st_links s2) k) as [l|] eqn:El; [|apply nth_error_None in El; rewrite Ls2, Ls1 in El; lia].
  destruct (destroy_session n s2) as [r s3] eqn:E3. pose proof (destroy_act u n s2 r s3 P2 E3) as (P3 & _ & Sp3).
  unfold destroy_session, on in E3. unfold alive in A2n. rewrite A2n in E3. cbn [c ob_link] in E3. rewrite El in E3.
  unfold session_destroy in E3. cbn [world_of w_se c ob_se se_id new_fields] in E3. change (0 =? 0) with true in E3. cbn [negb] in E3.
  unfold back in E3. cbn [world_of st_objs st_mem st_links w_mem w_ctl w_io w_net w_se w_rbuf ob_se ob_buf ob_link c] in E3.
  rewrite nth_error_set_same in E3 by (eapply nth_error_lt; exact A2n). cbn [ob_buf] in E3.
  unfold buffer in B2n. cbn [c ob_buf] in B2n. unfold free in E3. rewrite B2n in E3. injection E3 as <- <-.
  assert (Bi : (n <> i)) by exact Ni.
  exists n, s1, s2. eexists. exists (zeros 4096). split; [reflexivity|]. split; [exact E2|]. split; [|].
  { unfold destroy_session, on. rewrite A2n. cbn [c ob_link]. rewrite El.
    unfold session_destroy. cbn [world_of w_se c ob_se se_id new_fields]. change (0 =? 0) with true. cbn [negb].
    unfold back. cbn [world_of st_objs st_mem st_links w_mem w_ctl w_io w_net w_se w_rbuf ob_se ob_buf ob_link c].
    rewrite nth_error_set_same by (eapply nth_error_lt; exact A2n). cbn [ob_buf]. unfold free. rewrite B2n. reflexivity. }
  destruct (Sp3 i _ A2 ltac:(cbn; congruence)) as (A3 & M3 & _).
  split; [exact A3|]. split; [apply M3; exact C2|]. split.
  { intros y Hy. unfold alive in Hy. cbn [st_objs] in Hy. rewrite nth_error_set_same in Hy; [discriminate|]. rewrite length_list_set. eapply nth_error_lt. exact A2n. }
  split.
  { cbn [st_links]. rewrite <- Ls1, <- Ls2. destruct l as [l1 l2 l3]. apply list_set_id. exact El. }
  split; [|exact P3]. intros j d x Nj Aj Bj. destruct (K2 j d x Nj (Old j d Aj) (Oldm d x Bj)) as [Aj2 Bj2].
  assert (Nn : n <> j) by (apply alive_lt in Aj; subst n; lia).
  destruct (Sp3 j d Aj2 ltac:(cbn; congruence)) as (A4 & M4 & _). split; [exact A4|apply M4; exact Bj2].
Qed.

(** ** Abandoned sockets *)
Lemma on_unused {A} i (x : M A) s o s' k : unused s k -> on i x s = (o, s') -> unused s' k /\ nth_error (st_links s') k = nth_error (st_links s) k.
Proof.
  intros U E. unfold on in E. destruct (nth_error (st_objs s) i) as [[ob|]|] eqn:Ei; [|injection E as <- <-; auto..].
  destruct (nth_error (st_links s) (ob_link ob)) as [l|] eqn:El; [|injection E as <- <-; auto].
  destruct (x (world_of s ob l)) as [r w']. injection E as <- <-. pose proof (U i ob Ei) as N. split.
  - intros j b Aj. apply alive_set in Aj. destruct Aj as [[-> ->]|[_ Aj]]; [exact N|exact (U j b Aj)].
  - cbn [back st_links]. apply nth_error_set_other. congruence.
Qed.
Lemma act_unused a s r s' k : unused s k -> not_on k a -> act_step a s = (r, s') -> unused s' k /\ nth_error (st_links s') k = nth_error (st_links s) k.
Proof.
  intros U N E. destruct a as [gen time vendor serial k'|i|i j|i|i o]; cbn [act_step] in E.
  - unfold new_session in E. destruct (gen time) as [cid sn]. unfold session_make in E. cbn [alloc snd w_mem w_se w_rbuf] in E. injection E as <- <-. split; [|reflexivity].
    intros j b Aj. apply alive_app in Aj. destruct Aj as [[-> ->]|[_ Aj]]; [exact N|exact (U j b Aj)].
  - unfold copy_session in E. destruct (nth_error (st_objs s) i) as [[ob|]|] eqn:Ei; [|injection E as <- <-; auto..].
    destruct (load (st_mem s) (ob_buf ob) 0 4096); [|injection E as <- <-; auto..]. cbn [alloc] in E. injection E as <- <-. split; [|reflexivity].
    intros j b Aj. apply alive_app in Aj. destruct Aj as [[-> ->]|[_ Aj]]; [exact (U i ob Ei)|exact (U j b Aj)].
  - unfold assign_session in E. destruct (nth_error (st_objs s) i) as [[a|]|] eqn:Ei; destruct (nth_error (st_objs s) j) as [[b|]|] eqn:Ej; try (injection E as <- <-; auto).
    destruct (obind (load (st_mem s) (ob_buf b) 0 4096) (fun bs => store (st_mem s) (ob_buf a) 0 bs)); injection E as <- <-; auto. split; [|reflexivity].
    intros n c An. apply alive_set in An. destruct An as [[-> ->]|[_ An]]; [exact (U j b Ej)|exact (U n c An)].
  - unfold destroy_session in E. destruct (on i session_destroy s) as [q s1] eqn:Eo. destruct (on_unused _ _ _ _ _ k U Eo) as [U1 L1].
    destruct q as [[]| | |]; try (injection E as <- <-; auto). destruct (nth_error (st_objs s1) i) as [[ob|]|]; try (injection E as <- <-; auto).
    destruct (free (st_mem s1) (ob_buf ob)); injection E as <- <-; auto. split; [|exact L1]. intros j b Aj. apply alive_none in Aj. apply (U1 j b). apply Aj.
  - destruct (on i (step o) s) as [q s1] eqn:Eo. destruct (on_unused _ _ _ _ _ k U Eo) as [U1 L1]. destruct q; injection E as <- <-; auto.
Qed.
Lemma acts_unused acts : forall s rs s' k, unused s k -> Forall (not_on k) acts -> run_acts acts s = (rs, s') -> unused s' k /\ nth_error (st_links s') k = nth_error (st_links s) k.
Proof.
  induction acts as [|a acts IH]; intros s rs s' k U F E; cbn [run_acts] in E; [injection E as <- <-; auto|].
  inversion_clear F as [|? ? F1 F2]. destruct (act_step a s) as [r s1] eqn:Ea. destruct (act_unused a s r s1 k U F1 Ea) as [U1 L1].
  destruct r as [[]|c e|ub|]; try (injection E as <- <-; auto);
    (destruct (run_acts acts s1) as [rs2 s2] eqn:Er; injection E as <- <-; destruct (IH s1 rs2 s2 k U1 F2 Er) as [Q1 Q2]; split; [exact Q1|congruence]).
Qed.
Lemma abandoned u s i j a b l acts r s1 rs s2 : pool_ok u s -> alive s i a -> alive s j b -> i <> j -> own_sockets s i a -> linked s a l ->
  assign_session i j s = (r, s1) -> Forall (not_on (ob_link a)) acts -> run_acts acts s1 = (rs, s2) -> r = Ret tt /\ linked s2 a l /\ unused s2 (ob_link a).
Proof.
  intros P A B N O L E F R. destruct (assign_does u s i j a b P A B) as (bs & _ & _ & E'). rewrite E' in E. injection E as <- <-. split; [reflexivity|].
  refine ((fun H => _) (acts_unused acts _ rs s2 (ob_link a) _ F R)).
  - destruct H as [U2 L2]. split; [|exact U2]. unfold linked. rewrite L2. exact L.
  - intros n c An. apply alive_set in An. destruct An as [[-> ->]|[Nn An]]; [cbn [ob_link]; exact (O j b ltac:(congruence) B)|exact (O n c Nn An)].
Qed.
