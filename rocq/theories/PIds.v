(** * PIds: proofs about the ids of connections, C120. *)
From Verif Require Import PSession3 PHistory PTarget PWitness3 Vocab25.
Local Open Scope N_scope.

Definition nth_t2o (id0 j : N) : N := (id0 + 2 * j + 1) mod 4294967296.
Definition granted_upto (id0 k : N) (s : session) : Prop :=
  se_next_id s = nth_id id0 k /\ exists js, map cn_t2o_id (se_conns s) = map (nth_t2o id0) js /\ NoDup js /\ Forall (fun j => j < k) js.
Lemma nodup_snoc {A} (l : list A) x : NoDup l -> ~ In x l -> NoDup (l ++ [x]).
Proof.
  intros N X. apply NoDup_rev in N. rewrite <- (rev_involutive (l ++ [x])). apply NoDup_rev. rewrite rev_app_distr. cbn [rev app].
  constructor; [|assumption]. intros Y. apply in_rev in Y. contradiction.
Qed.
Lemma granted_step u id0 k o w r w' : session_ok w -> op_ok u o -> granted_upto id0 k (w_se w) -> step o w = (r, w') -> echoes (o, w, r, w') ->
  granted_upto id0 (match o with OpCreate _ _ => k + 1 | _ => k end) (w_se w').
Proof.
  intros SO OK (N2 & js & N3 & N4 & N5) E Ec. pose proof (step_moved _ _ _ _ E) as (_ & _ & M).
  assert (Same : w_se w' = w_se w -> granted_upto id0 k (w_se w')) by (intros ->; split; [exact N2|]; exists js; auto).
  destruct o as [h p q| |T c t x y z|x y z d|a b|n| |p]; try (apply Same; exact M).
  - destruct M as [(_ & id & M)|(_ & M)]; [|apply Same; exact M]. rewrite M. split; [exact N2|]. exists js. auto.
  - destruct M as [(_ & M)|(_ & M)]; [|apply Same; exact M]. rewrite M. split; [exact N2|]. exists js. auto.
  - destruct M as (_ & _ & E2 & _). destruct OK as [Oa Ob]. destruct (create_connection w a b (proj1 SO) Oa Ob) as (res & w1 & Ew & _ & _ & Out).
    cbn [step] in E. unfold mbind in E. rewrite Ew in E. assert (W : w' = w1) by (destruct res; injection E as <- <-; reflexivity). subst w1.
    split; [rewrite E2, N2; unfold nth_id; rewrite N.add_mod_idemp_l by lia; f_equal; lia|].
    assert (Old : se_conns (w_se w') = se_conns (w_se w) -> exists js, map cn_t2o_id (se_conns (w_se w')) = map (nth_t2o id0) js /\ NoDup js /\ Forall (fun j => j < k + 1) js).
    { intros ->. exists js. split; [exact N3|]. split; [exact N4|]. eapply Forall_impl; [|exact N5]. cbn. intros. lia. }
    unfold create_outcome in Out. cbn [echoes] in Ec. destruct (reply_of _ _) as [| | |got] eqn:R.
    + apply Old. exact (proj2 Out).
    + apply Old. exact (proj2 Out).
    + apply Old. exact (proj2 Out).
    + destruct Out as [(sv & ad & d & o2t & t2o & oa & ta & c & An & Op & Rc & _ & Cs)|[Cs _]]; [|apply Old; exact Cs].
      specialize (Ec got sv ad d o2t t2o _ _ _ oa ta eq_refl An Op). destruct Rc as (_ & _ & _ & _ & Ti & _).
      exists (js ++ [k]). rewrite Cs, !map_app, N3. cbn [map]. split; [|split].
      * f_equal. f_equal. rewrite Ti, Ec, N2. unfold nth_id, nth_t2o. change (2 ^ 32) with 4294967296. rewrite N.add_mod_idemp_l by lia. reflexivity.
      * apply nodup_snoc; [exact N4|]. intros X. rewrite Forall_forall in N5. specialize (N5 _ X). lia.
      * apply Forall_app. split; [|constructor; [lia|constructor]]. eapply Forall_impl; [|exact N5]. cbn. intros. lia.
  - destruct M as [(_ & _ & M)|(_ & M)]; [|apply Same; exact M]. rewrite M. split; [exact N2|]. exists (list_remove (N.to_nat n) js). cbn [se_conns set_conns].
    rewrite !list_remove_map, N3. split; [reflexivity|]. split; [apply list_remove_nodup; assumption|]. rewrite Forall_forall in *. intros x X. apply N5. eapply list_remove_in; eassumption.
Qed.
Lemma attempts_cons o ops w : attempts (o :: ops) w =
  (match o with OpCreate _ _ => [w_se w] | _ => [] end) ++ (let (r, w') := step o w in match r with Ret _ | Throw _ _ => attempts ops w' | _ => [] end).
Proof.
  unfold attempts. rewrite calls_cons. destruct (step o w) as [r w1]. cbn [flat_map]. destruct o, r; reflexivity.
Qed.
Lemma granted_history u id0 ops : forall k w rs w', session_ok w -> user_memory u w -> Forall (op_ok u) ops -> granted_upto id0 k (w_se w) -> exec ops w = (rs, w') ->
  Forall echoes (calls ops w) -> granted_upto id0 (k + len (attempts ops w)) (w_se w').
Proof.
  induction ops as [|o ops IH]; intros k w rs w' SO UM OK G E Ec.
  - injection E as <- <-. cbn. rewrite N.add_0_r. exact G.
  - rewrite exec_cons in E. rewrite attempts_cons. rewrite calls_cons in Ec. destruct (step o w) as [r w1] eqn:E1. inversion OK as [|? ? O1 O2]; subst. inversion Ec as [|? ? Ec1 Ec2]; subst.
    pose proof (granted_step u id0 k o w r w1 SO O1 G E1 Ec1) as G1. destruct (step_kept u o w r w1 SO UM O1 E1) as (SO1 & UM1 & _).
    assert (K : (match o with OpCreate _ _ => k + 1 | _ => k end) = k + len (match o with OpCreate _ _ => [w_se w] | _ => [] end)) by (destruct o; cbn; lia).
    rewrite K in G1. rewrite len_app, N.add_assoc. destruct r as [x|e s|b|].
    + destruct (exec ops w1) as [rs1 w2] eqn:E2. injection E as <- <-. eapply IH; eassumption.
    + destruct (exec ops w1) as [rs1 w2] eqn:E2. injection E as <- <-. eapply IH; eassumption.
    + injection E as <- <-. cbn [len List.length]. rewrite N.add_0_r. exact G1.
    + injection E as <- <-. cbn [len List.length]. rewrite N.add_0_r. exact G1.
Qed.
Lemma own_ids u ops w rs w' : session_ok w -> user_memory u w -> Forall (op_ok u) ops -> fits 4 (se_next_id (w_se w)) -> se_conns (w_se w) = [] -> exec ops w = (rs, w') ->
  len (attempts ops w) <= 2 ^ 31 -> Forall echoes (calls ops w) ->
  forall i j ci cj a, nth_error (se_conns (w_se w')) i = Some ci -> nth_error (se_conns (w_se w')) j = Some cj -> belongs ci a -> belongs cj a -> i = j.
Proof.
  intros SO UM OK F C E L Ec i j ci cj a Ci Cj Bi Bj. apply fits4_lt in F.
  assert (G : granted_upto (se_next_id (w_se w)) 0 (w_se w)).
  { split; [unfold nth_id; rewrite N.add_0_r, N.mod_small; [reflexivity|assumption]|]. exists []. rewrite C. split; [reflexivity|]. split; constructor. }
  destruct (granted_history u _ ops 0 w rs w' SO UM OK G E Ec) as (_ & js & J1 & J2 & J3). change (2 ^ 31) with 2147483648 in L.
  assert (Nd : NoDup (map cn_t2o_id (se_conns (w_se w')))).
  { rewrite J1. apply nodup_map_inj; [exact J2|]. intros x y X Y Q. rewrite Forall_forall in J3. apply J3 in X, Y. unfold nth_t2o in Q. set (id0 := se_next_id (w_se w)) in *.
    assert (x <= y \/ y <= x) as [O|O] by lia.
    - assert (id0 + 2 * x + 1 = id0 + 2 * y + 1) by (apply (mod_inj 4294967296); lia). lia.
    - symmetry in Q. assert (id0 + 2 * y + 1 = id0 + 2 * x + 1) by (apply (mod_inj 4294967296); lia). lia. }
  unfold belongs in *. apply (proj1 (NoDup_nth_error _) Nd).
  - rewrite map_length. apply nth_error_Some. rewrite Ci. discriminate.
  - rewrite (map_nth_error cn_t2o_id i _ Ci), (map_nth_error cn_t2o_id j _ Cj). congruence.
Qed.
(** Proposed ids are not used again. *)
Lemma fresh_ids ops w rs w' : fits 4 (se_next_id (w_se w)) -> se_conns (w_se w) = [] -> fits 2 (se_next_sn (w_se w)) -> exec ops w = (rs, w') -> len (attempts ops w) <= 2 ^ 31 ->
  NoDup (map (fun s => (se_next_id s + 1) mod 2 ^ 32) (attempts ops w)).
Proof.
  intros F C F2 E L. apply fits4_lt in F. apply fits2_lt in F2.
  assert (I : numbered_upto (se_next_sn (w_se w)) (se_next_id (w_se w)) 0 (w_se w)).
  { split; [|split].
    - unfold nth_sn. rewrite N.add_0_r, N.mod_small; [reflexivity|assumption].
    - unfold nth_id. rewrite N.add_0_r, N.mod_small; [reflexivity|assumption].
    - exists []. rewrite C. split; [reflexivity|]. split; constructor. }
  destruct (numbered_history _ _ _ _ _ _ _ I E) as (_ & _ & H3). set (id0 := se_next_id (w_se w)) in *. change (2 ^ 31) with 2147483648 in L. change (2 ^ 32) with 4294967296.
  replace (map (fun s => (se_next_id s + 1) mod 4294967296) (attempts ops w)) with (map (fun i => (i + 1) mod 4294967296) (map se_next_id (attempts ops w))) by apply map_map.
  rewrite H3, map_map. apply nodup_map_inj; [apply seq_NoDup|]. intros x y X Y Q. apply in_seq in X, Y. unfold nth_id in Q. rewrite !N.add_mod_idemp_l in Q by lia. unfold len in L.
  assert (x <= y \/ y <= x)%nat as [O|O] by lia.
  - assert (id0 + 2 * (0 + N.of_nat x) + 1 = id0 + 2 * (0 + N.of_nat y) + 1) by (apply (mod_inj 4294967296); lia). lia.
  - symmetry in Q. assert (id0 + 2 * (0 + N.of_nat y) + 1 = id0 + 2 * (0 + N.of_nat x) + 1) by (apply (mod_inj 4294967296); lia). lia.
Qed.
Lemma opened_ids d a b sn vn os e f a' b' sn' vn' os' e' f' : opened d a b sn vn os e f -> opened d a' b' sn' vn' os' e' f' -> a = a' /\ b = b'.
Proof.
  intros (rs & app & r & (F1 & F2 & F3 & F4 & F5 & F6 & F7 & _) & E) (rs' & app' & r' & (G1 & G2 & G3 & G4 & G5 & G6 & G7 & _) & E').
  rewrite E in E'. clear E. unfold forward_open_reply in E'. rewrite <- ?app_assoc in E'.
  do 5 (apply le_app_inj in E'; [|assumption..]; destruct E' as [<- E']). split; reflexivity.
Qed.
(** Whatever id the reply has is taken. *)
Lemma given_id w a b c got sv ad d o2t oa ta : session_ok w -> ci_assembly a < 256 -> ci_assembly b < 256 -> In c (se_conns (w_se w)) ->
  reply_of (w_ctl w) (open_request (w_se w) a b) = Reply got -> answers (se_id (w_se w)) got sv 0 ad d ->
  opened d o2t (cn_t2o_id c) (se_next_sn (w_se w)) (se_vendor (w_se w)) (se_serial (w_se w)) oa ta ->
  exists w' c', createConnection a b w = (Ret (len (se_conns (w_se w))), w') /\ se_conns (w_se w') = se_conns (w_se w) ++ [c'] /\
    forall address, belongs c address <-> belongs c' address.
Proof.
  intros (RB & _) Oa Ob _ R An Op. destruct (create_connection w a b RB Oa Ob) as (res & w1 & Ew & _ & _ & Out). unfold create_outcome in Out. rewrite R in Out.
  destruct Out as [(sv' & a' & d' & p1 & p2 & p3 & p4 & c' & A' & Op' & Rc & Q & Cs)|(Ec & O)].
  - destruct (answers_inj _ _ _ _ _ _ _ _ _ _ An A') as (_ & _ & _ & <-). destruct (opened_ids _ _ _ _ _ _ _ _ _ _ _ _ _ _ _ Op Op') as [_ I].
    destruct Rc as (_ & _ & _ & _ & Ti & _). subst res. exists w1, c'. split; [exact Ew|]. split; [exact Cs|]. unfold belongs. intros address. rewrite Ti, <- I. reflexivity.
  - exfalso. destruct O as [(sv' & a' & d' & p1 & p2 & p3 & p4 & p5 & p6 & p7 & m & A' & Op' & Ne & _)|[(sv' & a' & d' & m & A' & _ & No & _)|[([Cr|(sv' & a' & A')] & _)|(N & _)]]].
    + destruct (answers_inj _ _ _ _ _ _ _ _ _ _ An A') as (_ & _ & _ & <-). apply Ne. symmetry. exact (opened_inj _ _ _ _ _ _ _ _ _ _ _ _ _ _ _ Op Op').
    + destruct (answers_inj _ _ _ _ _ _ _ _ _ _ An A') as (_ & _ & _ & <-). eapply No. exact Op.
    + eapply answers_not_crash; eassumption.
    + destruct (answers_inj _ _ _ _ _ _ _ _ _ _ An A') as (_ & _ & _ & ->). destruct Op as (rs1 & app & rest & _ & Q). discriminate.
    + eapply N. exact An.
Qed.

(** ** Examples *)
Definition grant (sn t2o : N) : list byte := explicit_reply 9 0xDB 0 (forward_open_reply 500 t2o sn 0x195 0x4321 1000 2000 x00 []).
Lemma opened_grant sn t2o : fits 2 sn -> fits 4 t2o -> opened (forward_open_reply 500 t2o sn 0x195 0x4321 1000 2000 x00 []) 500 t2o sn 0x195 0x4321 1000 2000.
Proof. intros A B. exists x00, [], []. rewrite app_nil_r. split; [|reflexivity]. repeat split; try assumption; reflexivity. Qed.
Lemma answers_grant sn t2o : answers 9 (grant sn t2o) 0xDB 0 [] (forward_open_reply 500 t2o sn 0x195 0x4321 1000 2000 x00 []).
Proof.
  rewrite <- (app_nil_r (grant sn t2o)). unfold grant. apply answers_reply; [reflexivity|discriminate|reflexivity|reflexivity|].
  unfold forward_open_reply. rewrite !len_app, !len_le, !len_cons. change (len (@nil byte)) with 0. lia.
Qed.
Lemma echoes_grant a b w r w' sn t2o : se_id (w_se w) = 9 -> fits 2 sn -> fits 4 t2o -> reply_of (w_ctl w) (open_request (w_se w) a b) = Reply (grant sn t2o) ->
  t2o = (se_next_id (w_se w) + 1) mod 2 ^ 32 -> echoes (OpCreate a b, w, r, w').
Proof.
  intros I F G R Q got sv ad d o2t t2o' sn' vn os oa ta R' A O. rewrite R in R'. injection R' as <-. rewrite I in A.
  destruct (answers_inj _ _ _ _ _ _ _ _ _ _ (answers_grant sn t2o) A) as (_ & _ & _ & <-). destruct (opened_ids _ _ _ _ _ _ _ _ _ _ _ _ _ _ _ (opened_grant sn t2o F G) O) as [_ <-]. exact Q.
Qed.
Definition two_opens : list op := [OpCreate ci0 ci0; OpCreate ci0 ci0].
Lemma echoing : let w := w9 [RxData (grant 7 101); RxData (grant 8 103)] [] in
  session_ok w /\ user_memory [] w /\ Forall (op_ok []) two_opens /\ fits 4 (se_next_id (w_se w)) /\ se_conns (w_se w) = [] /\ Forall echoes (calls two_opens w) /\
  exists rs w', exec two_opens w = (rs, w') /\ map cn_t2o_id (se_conns (w_se w')) = [101; 103].
Proof.
  cbv zeta. set (w := w9 _ _). split; [apply session_ok_w9|]. split; [apply user_memory_w9|]. split; [repeat constructor|]. split; [reflexivity|]. split; [reflexivity|]. split.
  - unfold two_opens. rewrite calls_cons. destruct (step (OpCreate ci0 ci0) w) as [r w1] eqn:E.
    assert (w1 = snd (step (OpCreate ci0 ci0) w) /\ r = fst (step (OpCreate ci0 ci0) w)) as [W Q] by (rewrite E; split; reflexivity). vm_compute in W, Q. subst r.
    constructor; [apply (echoes_grant _ _ _ _ _ 7 101); vm_compute; reflexivity|]. cbv iota. rewrite calls_cons. destruct (step (OpCreate ci0 ci0) w1) as [r w2]. 
    constructor; [apply (echoes_grant _ _ _ _ _ 8 103); rewrite ?W; vm_compute; reflexivity|]. destruct r; constructor.
  - do 2 eexists. split; [vm_compute; reflexivity|]. reflexivity.
Qed.
Lemma given_twice : exists rs w ci cj a, let w0 := w9 [RxData (grant 7 101); RxData (grant 8 101)] [] in session_ok w0 /\ exec two_opens w0 = (rs, w) /\ rs = [Ret (RNumber 0); Ret (RNumber 1)] /\
  se_conns (w_se w) = [ci; cj] /\ cn_sn ci <> cn_sn cj /\ belongs ci a /\ belongs cj a.
Proof.
  do 4 eexists. exists (mkSA 101 1). split; [apply session_ok_w9|]. split; [vm_compute; reflexivity|]. split; [reflexivity|]. split; [reflexivity|]. split; [discriminate|]. split; reflexivity.
Qed.
Lemma given_case : let w := snd (step (OpCreate ci0 ci0) (w9 [RxData (grant 7 101); RxData (grant 8 101)] [])) in exists c,
  session_ok w /\ In c (se_conns (w_se w)) /\ reply_of (w_ctl w) (open_request (w_se w) ci0 ci0) = Reply (grant 8 (cn_t2o_id c)) /\
  answers (se_id (w_se w)) (grant 8 (cn_t2o_id c)) 0xDB 0 [] (forward_open_reply 500 (cn_t2o_id c) 8 0x195 0x4321 1000 2000 x00 []) /\
  opened (forward_open_reply 500 (cn_t2o_id c) 8 0x195 0x4321 1000 2000 x00 []) 500 (cn_t2o_id c) (se_next_sn (w_se w)) (se_vendor (w_se w)) (se_serial (w_se w)) 1000 2000.
Proof.
  cbv zeta. set (w := w9 _ _). destruct (step (OpCreate ci0 ci0) w) as [r w1] eqn:E. cbn [snd].
  destruct (step_kept [] (OpCreate ci0 ci0) w r w1 (session_ok_w9 _ _) (user_memory_w9 _ _) ltac:(split; reflexivity) E) as (SO & _).
  assert (W : w1 = snd (step (OpCreate ci0 ci0) w)) by (rewrite E; reflexivity). vm_compute in W.
  assert (C : exists c, se_conns (w_se w1) = [c] /\ cn_t2o_id c = 101) by (subst w1; eexists; split; reflexivity). destruct C as (c & C & I).
  exists c. rewrite I. split; [exact SO|]. split; [rewrite C; left; reflexivity|]. split; [subst w1; vm_compute; reflexivity|]. split; [replace (se_id (w_se w1)) with 9 by (subst w1; reflexivity); apply answers_grant|].
  replace (se_next_sn (w_se w1)) with 8 by (subst w1; reflexivity). replace (se_vendor (w_se w1)) with 0x195 by (subst w1; reflexivity). replace (se_serial (w_se w1)) with 0x4321 by (subst w1; reflexivity).
  apply opened_grant; reflexivity.
Qed.
