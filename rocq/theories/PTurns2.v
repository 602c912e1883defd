(** * Threads: what the callers see *)
From Coq Require Import Arith.PeanoNat.
From Verif Require Export PTurns.

Lemma alike_object u s i ob ob' l' w' : alive s i ob' -> linked s ob' l' -> ob_link ob' = ob_link ob -> alike true u (ob_buf ob) (world_of s ob' l') w' -> object_is s i ob w'.
Proof.
  intros Al Ln El L. destruct L as [Lc Ls L1 L2 Lb _ _ _ [Li Lt]]. cbn in *. destruct ob' as [se bf lk], l' as [c d e]. cbn in *. subst. split; [exact Al|]. split; [|exact Lb].
  exact Ln.
Qed.
Lemma alike_commands u s i ob ob' l' w' : alive s i ob' -> linked s ob' l' -> ob_link ob' = ob_link ob -> alike false u (ob_buf ob) (world_of s ob' l') w' -> commands_are s i ob w'.
Proof.
  intros Al Ln El L. destruct L as [Lc Ls L1 L2 Lb _ _ _ Lt]. exists l'. cbn in *. destruct ob' as [se bf lk]. cbn in *. subst. split; [exact Al|]. split; [|auto].
  exact Ln.
Qed.

(** ** C80 *)
Lemma threads_apart u s jobs sched ts s' k i ops ob l : pool_ok u s -> Forall (job_ok u s) jobs -> nth_error jobs k = Some (i, ops) ->
  (forall k' job, k' <> k -> nth_error jobs k' = Some job -> fst job <> i) -> alive s i ob -> linked s ob l -> own_sockets s i ob ->
  rounds sched (map start jobs) s = (ts, s') ->
  exists q, nth_error ts k = Some (mkTh i q) /\ (ended q <-> (steps (exec_p ops) (world_of s ob l) <= turns_of k sched)%nat) /\
    forall o, q = PEnd o -> exists rs w', exec ops (world_of s ob l) = (rs, w') /\ o = Ret rs /\ object_is s' i ob w'.
Proof.
  intros PO J Nk Ot Al Ln OS E. rewrite Forall_forall in J.
  destruct (focus_end true u s s' i k (exec_p ops) (map start jobs) ts sched ob l PO Al Ln OS) as (q & Hq & He & Hr); [| |  |exact E|].
  - apply p_exec; [left; reflexivity|]. exact (proj1 (J _ (nth_error_In _ _ Nk))).
  - rewrite nth_error_map, Nk. reflexivity.
  - intros k' t Nk' Ht. rewrite nth_error_map in Ht. destruct (nth_error jobs k') as [job|] eqn:Hj; [|discriminate]. injection Ht as <-.
    left. split; [exact (Ot k' job Nk' Hj)|]. destruct (J _ (nth_error_In _ _ Hj)) as [C (o2 & A2)]. exists o2. split; [exact A2|]. apply p_exec; [left; reflexivity|exact C].
  - exists q. split; [exact Hq|]. split; [exact He|]. intros o Eo. destruct (Hr o Eo) as (w' & R & ob' & l' & Al' & Ln' & El & L). rewrite run_exec in R.
    destruct (exec ops (world_of s ob l)) as [rs w1]. injection R as <- <-. exists rs, w1. split; [reflexivity|]. split; [reflexivity|]. eapply alike_object; eassumption.
Qed.

(** ** C81 *)
Lemma sends_other u s i job ob : job_ok u s job -> (fst job <> i \/ Forall io_send (snd job)) -> alive s i ob -> other_fine false u i (ob_buf ob) s (start job).
Proof.
  intros [C (o2 & A2)] H Al. destruct (Nat.eq_dec (fst job) i) as [E|Ne].
  - destruct H as [Ne|F]; [contradiction|]. right. split; [exact E|]. split; [reflexivity|]. apply q_exec; assumption.
  - left. split; [exact Ne|]. exists o2. split; [exact A2|]. apply p_exec; [left; reflexivity|exact C].
Qed.
Lemma commands_with_sends u s jobs sched ts s' k i ops ob l : pool_ok u s -> Forall (job_ok u s) jobs -> nth_error jobs k = Some (i, ops) -> Forall explicit ops ->
  (forall k' job, k' <> k -> nth_error jobs k' = Some job -> fst job <> i \/ Forall io_send (snd job)) -> alive s i ob -> linked s ob l -> own_sockets s i ob ->
  rounds sched (map start jobs) s = (ts, s') ->
  exists q, nth_error ts k = Some (mkTh i q) /\ (ended q <-> (steps (exec_p ops) (world_of s ob l) <= turns_of k sched)%nat) /\
    forall o, q = PEnd o -> exists rs w', exec ops (world_of s ob l) = (rs, w') /\ o = Ret rs /\ commands_are s' i ob w'.
Proof.
  intros PO J Nk Ex Ot Al Ln OS E. rewrite Forall_forall in J.
  destruct (focus_end false u s s' i k (exec_p ops) (map start jobs) ts sched ob l PO Al Ln OS) as (q & Hq & He & Hr); [| |  |exact E|].
  - apply p_exec; [right; exact Ex|]. exact (proj1 (J _ (nth_error_In _ _ Nk))).
  - rewrite nth_error_map, Nk. reflexivity.
  - intros k' t Nk' Ht. rewrite nth_error_map in Ht. destruct (nth_error jobs k') as [job|] eqn:Hj; [|discriminate]. injection Ht as <-.
    apply sends_other; [exact (J _ (nth_error_In _ _ Hj))|exact (Ot k' job Nk' Hj)|exact Al].
  - exists q. split; [exact Hq|]. split; [exact He|]. intros o Eo. destruct (Hr o Eo) as (w' & R & ob' & l' & Al' & Ln' & El & L). rewrite run_exec in R.
    destruct (exec ops (world_of s ob l)) as [rs w1]. injection R as <- <-. exists rs, w1. split; [reflexivity|]. split; [reflexivity|]. eapply alike_commands; eassumption.
Qed.
(** The value that is read. *)
Lemma bind_other {A B} full u i b s j (p : prog A) (f : A -> B) : other_fine full u i b s (mkTh j p) -> other_fine full u i b s (mkTh j (let% a := p in pret (f a))).
Proof.
  intros [(Nj & ob & Al & P)|(Ej & F & Q)].
  - left. split; [exact Nj|]. exists ob. split; [exact Al|]. cbn [th_prog] in *. eapply p_bind; [exact P|]. intros a _. apply p_ret. exact Logic.I.
  - right. split; [exact Ej|]. split; [exact F|]. cbn [th_prog] in *. apply q_bind; [exact Q|intros; exact Logic.I].
Qed.
Lemma read_with_sends {T} u s (c : cls T) t x y z jobs sched ts s' i ob l : pool_ok u s -> Forall (job_ok u s) jobs -> x < 256 -> y < 256 -> z < 256 ->
  (c_sb c <> None \/ local_cls c) -> (forall job, In job jobs -> fst job <> i \/ Forall io_send (snd job)) -> alive s i ob -> linked s ob l -> own_sockets s i ob ->
  rounds sched (reading i c t x y z :: map beside jobs) s = (ts, s') ->
  exists q, nth_error ts 0 = Some (mkTh i q) /\ (ended q <-> (steps (get_p c t x y z) (world_of s ob l) <= turns_of 0 sched)%nat) /\
    forall o, q = PEnd o -> exists o1 t1 w', getSingleAttributeSerializable c x y z t (world_of s ob l) = (o1, t1, w') /\ commands_are s' i ob w' /\
      (forall v, o = Ret v -> o1 = Ret tt /\ v = Some t1) /\ (forall e m, o = Throw e m -> o1 = Throw e m) /\ (forall ub, o = Undef ub -> o1 = Undef ub).
Proof.
  intros PO J Hx Hy Hz HC Ot Al Ln OS E. rewrite Forall_forall in J.
  destruct (focus_end false u s s' i 0 (let% a := get_p c t x y z in pret (Some a)) (reading i c t x y z :: map beside jobs) ts sched ob l PO Al Ln OS) as (q & Hq & He & Hr); [| |  |exact E|].
  - eapply p_bind; [apply p_get; assumption|]. intros a _. apply p_ret. exact Logic.I.
  - reflexivity.
  - intros k' t0 Nk' Ht. destruct k' as [|k']; [congruence|]. cbn [nth_error] in Ht. rewrite nth_error_map in Ht. destruct (nth_error jobs k') as [job|] eqn:Hj; [|discriminate]. injection Ht as <-.
    apply (bind_other false u i (ob_buf ob) s (fst job) (exec_p (snd job)) (fun _ => None)). apply nth_error_In in Hj. apply (sends_other u s i job ob); [exact (J _ Hj)|exact (Ot _ Hj)|exact Al].
  - exists q. split; [exact Hq|]. split.
    + rewrite He. enough (forall w, steps (let% a := get_p c t x y z in pret (Some a)) w = steps (get_p c t x y z) w) as -> by reflexivity.
      generalize (get_p c t x y z). induction p as [o|B y0 f IH]; intros w; [destruct o; reflexivity|]. cbn [pbind steps]. destruct (y0 w) as [o w1]. rewrite IH. reflexivity.
    + intros o Eo. destruct (Hr o Eo) as (w' & R & ob' & l' & Al' & Ln' & El & L). rewrite run_bind in R. unfold mbind in R. rewrite run_get in R.
      destruct (getSingleAttributeSerializable c x y z t (world_of s ob l)) as [[o1 t1] w1]. exists o1, t1, w1. split; [reflexivity|].
      destruct o1 as [[]|e m|ub|]; injection R as <- <-; (split; [eapply alike_commands; eassumption|]); (split; [|split]); intros; try discriminate; try (split; [reflexivity|]); try congruence.
Qed.

(** ** C83 *)
Fixpoint after {A} (acc : list A) (p : prog (list A)) : prog (list A) :=
  match acc with [] => p | r :: acc' => pbind (after acc' p) (fun rs => pret (r :: rs)) end.
Lemma after_do {A B} (acc : list A) (x : M B) k : after acc (PDo x k) = PDo x (fun o => after acc (k o)).
Proof. induction acc as [|r acc IH]; [reflexivity|]. cbn [after]. rewrite IH. reflexivity. Qed.
Lemma after_end {A} (acc rs : list A) : after acc (pret rs) = pret (acc ++ rs).
Proof. induction acc as [|r acc IH]; [reflexivity|]. cbn [after app]. rewrite IH. reflexivity. Qed.
Lemma after_more {A} (acc : list A) r p : after acc (let% rs := p in pret (r :: rs)) = after (acc ++ [r]) p.
Proof. induction acc as [|x acc IH]; [reflexivity|]. cbn [after app]. rewrite IH. reflexivity. Qed.
Lemma map_set {A B} (f : A -> B) l : forall i x, map f (list_set l i x) = list_set (map f l) i (f x).
Proof. induction l as [|a l IH]; intros [|i] x; cbn; try reflexivity. rewrite IH. reflexivity. Qed.

Definition held (i : nat) (p : list (outcome result) * list op) : thread (list (outcome result)) := mkTh i (after (fst p) (locked (snd p))).
Lemma object_back s i ob w' : alive s i ob -> forall l, linked s ob l -> w_rbuf w' = ob_buf ob -> object_is (back s i ob w') i ob w'.
Proof.
  intros Al l Ln Eb. split; [rewrite <- Eb; eapply back_alive; exact Al|]. split; [|reflexivity].
  exact (back_linked s i ob l w' Ln).
Qed.
Lemma locked_rounds u i sched : forall st s ob l ts s' rs w', pool_ok u s -> alive s i ob -> linked s ob l -> Forall (fun p => Forall (op_ok u) (snd p)) st ->
  rounds sched (map (held i) st) s = (ts, s') -> exec (map snd (merge sched (map snd st))) (world_of s ob l) = (rs, w') -> Forall no_ub rs ->
  (object_is s' i ob w' /\ pool_ok u s') /\ exists st', ts = map (held i) st' /\ forall k p', nth_error st' k = Some p' ->
    exists p, nth_error st k = Some p /\ fst p' = fst p ++ results_of k (merge sched (map snd st)) rs /\ snd p = calls_of k (merge sched (map snd st)) ++ snd p'.
Proof.
  induction sched as [|j sched IH]; intros st s ob l ts s' rs w' PO Al Ln F E X Nu.
  - injection E as <- <-. cbn in X. injection X as <- <-. split; [split; [|exact PO]|].
    + destruct ob as [se bf lk], l as [c d e]. split; [exact Al|]. split; [exact Ln|reflexivity].
    + exists st. split; [reflexivity|]. intros k p' Hp. exists p'. cbn. rewrite app_nil_r. auto.
  - cbn [rounds merge] in *. rewrite nth_error_map in *. destruct (nth_error st j) as [[acc ops]|] eqn:Hj; cbn [option_map] in *; [|exact (IH st s ob l ts s' rs w' PO Al Ln F E X Nu)].
    destruct ops as [|o ops].
    { unfold turn, held in E. cbn [fst snd th_prog th_obj locked] in E. rewrite after_end in E. cbn [pret th_prog th_obj] in E.
      rewrite list_set_same in E by (rewrite nth_error_map, Hj; unfold held; cbn [option_map fst snd locked]; rewrite after_end; reflexivity).
      exact (IH st s ob l ts s' rs w' PO Al Ln F E X Nu). }
    unfold turn, held at 1 in E. cbn [fst snd th_prog th_obj locked] in E. rewrite after_do in E. cbn [th_prog th_obj] in E. change (th_obj (held i (acc, o :: ops))) with i in E.
    assert (Fo : Forall (op_ok u) (o :: ops)) by (rewrite Forall_forall in F; exact (F _ (nth_error_In _ _ Hj))). inversion Fo as [|? ? Ko Fo']; subst.
    destruct (step o (world_of s ob l)) as [r w1] eqn:S1. rewrite (on_step i (step o) s ob l r w1 Al Ln S1) in E.
    cbn [map snd exec] in X. rewrite S1 in X.
    pose proof PO as (_ & _ & PO3 & _). destruct (PO3 i ob Al) as (l0 & L0 & S0 & U0). assert (l0 = l) by (unfold linked in *; congruence). subst l0.
    pose proof (call_good u o _ r w1 S0 U0 Ko S1) as G. assert (Rb : w_rbuf w1 = ob_buf ob) by exact (proj1 (proj2 (proj2 G))).
    assert (Cont : exists rs1, rs = r :: rs1 /\ exec (map snd (merge sched (list_set (map snd st) j ops))) w1 = (rs1, w') /\
                     after acc (match r with Ret _ | Throw _ _ => let% rs := locked ops in pret (r :: rs) | _ => pret [r] end) = after (acc ++ [r]) (locked ops)).
    { destruct r as [a|e m|ub|].
      - destruct (exec _ w1) as [rs1 w2]. injection X as <- <-. exists rs1. split; [reflexivity|]. split; [reflexivity|]. apply after_more.
      - destruct (exec _ w1) as [rs1 w2]. injection X as <- <-. exists rs1. split; [reflexivity|]. split; [reflexivity|]. apply after_more.
      - injection X as <- <-. inversion Nu; contradiction.
      - injection X as <- <-. inversion Nu; contradiction. }
    destruct Cont as (rs1 & -> & X1 & Ea). rewrite Ea in E. inversion Nu as [|? ? _ Nu1]; subst.
    change (mkTh i (after (acc ++ [r]) (locked ops))) with (held i (acc ++ [r], ops)) in E. rewrite <- map_set in E.
    pose proof (back_alive s i ob w1 Al) as Al1. pose proof (back_linked s i ob l w1 Ln) as Ln1.
    specialize (IH (list_set st j (acc ++ [r], ops)) (back s i ob w1) (mkObj (w_se w1) (w_rbuf w1) (ob_link ob)) (mkLink (w_ctl w1) (w_io w1) (w_net w1)) ts s' rs1 w').
    rewrite world_back in IH. rewrite (map_set snd) in IH. cbn [snd] in IH.
    destruct IH as (O & st' & Ets & Hst); [eapply back_ok; eassumption|exact Al1|exact Ln1| |exact E|exact X1|exact Nu1|].
    { rewrite Forall_forall in F |- *. intros p Hp. apply In_nth_error in Hp. destruct Hp as [k Hp].
      destruct (Nat.eq_dec k j) as [->|Nk].
      - rewrite nth_error_set_same in Hp by (eapply nth_error_lt; exact Hj). injection Hp as <-. exact Fo'.
      - rewrite nth_error_set_other in Hp by congruence. exact (F _ (nth_error_In _ _ Hp)). }
    split; [destruct O as ((O1 & O2 & O3) & O4); split; [|exact O4]; cbn [ob_buf ob_link] in *; rewrite Rb in *; split; [exact O1|split; [exact O2|exact O3]]|].
    exists st'. split; [exact Ets|]. intros k p' Hp'. destruct (Hst k p' Hp') as (p & Hp & Hf & Hs). cbn [results_of calls_of filter map fst snd].
    destruct (Nat.eqb_spec k j) as [Ek|Nk]; [subst k|].
    + rewrite nth_error_set_same in Hp by (eapply nth_error_lt; exact Hj). injection Hp as <-. exists (acc, o :: ops). split; [exact Hj|]. cbn [fst snd] in *.
      split; [rewrite Hf, <- app_assoc; reflexivity|]. unfold calls_of in *. cbn [filter map fst snd]. try rewrite Nat.eqb_refl. cbn [map snd app]. f_equal. exact Hs.
    + rewrite nth_error_set_other in Hp by congruence. exists p. split; [exact Hp|]. split; [exact Hf|]. unfold calls_of in *. cbn [filter map fst snd].
      rewrite ?(proj2 (Nat.eqb_neq k j) Nk). exact Hs.
Qed.
Lemma after_ended {A} (acc : list A) p o : after acc p = PEnd o -> ended p.
Proof.
  revert o. induction acc as [|r acc IH]; intros o E; [exists o; exact E|]. cbn [after] in E. destruct (after acc p) as [o'|B x k] eqn:Ea; [exact (IH o' eq_refl)|discriminate].
Qed.
Lemma under_lock u s i jobs sched ts s' ob l rs w' : pool_ok u s -> alive s i ob -> linked s ob l -> Forall (Forall (op_ok u)) jobs ->
  rounds sched (map (fun ops => mkTh i (locked ops)) jobs) s = (ts, s') ->
  exec (map snd (merge sched jobs)) (world_of s ob l) = (rs, w') -> Forall no_ub rs ->
  object_is s' i ob w' /\ forall k q o, nth_error ts k = Some (mkTh i q) -> q = PEnd o ->
    nth_error jobs k = Some (calls_of k (merge sched jobs)) /\ o = Ret (results_of k (merge sched jobs) rs).
Proof.
  intros PO Al Ln F E X Nu. set (st := map (fun ops => ([] : list (outcome result), ops)) jobs).
  assert (M1 : map snd st = jobs) by (unfold st; rewrite map_map; apply map_id).
  assert (M2 : map (fun ops => mkTh i (locked ops)) jobs = map (held i) st) by (unfold st; rewrite map_map; reflexivity).
  rewrite M2 in E. rewrite <- M1 in X.
  destruct (locked_rounds u i sched st s ob l ts s' rs w' PO Al Ln) as ((O & _) & st' & Ets & Hst); [|exact E|exact X|exact Nu|].
  { unfold st. rewrite Forall_map. exact F. }
  split; [exact O|]. intros k q o Hk ->. rewrite Ets, nth_error_map in Hk. destruct (nth_error st' k) as [p'|] eqn:Hp'; [|discriminate]. injection Hk as Hq.
  destruct (Hst k p' Hp') as (p & Hp & Hf & Hs). unfold st in Hp. rewrite nth_error_map in Hp. destruct (nth_error jobs k) as [ops|] eqn:Hj; [|discriminate]. injection Hp as <-.
  cbn [fst snd app] in *. rewrite M1 in *. destruct (after_ended _ _ _ Hq) as [o' Eo]. destruct (snd p') as [|o1 ops1]; [|discriminate]. rewrite app_nil_r in Hs.
  split; [f_equal; exact Hs|]. cbn [locked] in Hq. rewrite after_end in Hq. injection Hq as <-. rewrite app_nil_r, Hf. reflexivity.
Qed.
(** ** C82 under a lock *)
Lemma locked_serials u s i jobs sched ts s' ob l rs w' : pool_ok u s -> alive s i ob -> linked s ob l -> Forall (Forall (op_ok u)) jobs ->
  fits 2 (se_next_sn (ob_se ob)) -> fits 4 (se_next_id (ob_se ob)) -> se_conns (ob_se ob) = [] ->
  rounds sched (map (fun ops => mkTh i (locked ops)) jobs) s = (ts, s') ->
  exec (map snd (merge sched jobs)) (world_of s ob l) = (rs, w') -> Forall no_ub rs -> len (attempts (map snd (merge sched jobs)) (world_of s ob l)) <= 65536 ->
  exists ob', alive s' i ob' /\ NoDup (map cn_sn (se_conns (ob_se ob'))).
Proof.
  intros PO Al Ln F H1 H2 H3 E X Nu L. destruct (under_lock u s i jobs sched ts s' ob l rs w' PO Al Ln F E X Nu) as [(O & _) _].
  eexists. split; [exact O|]. cbn [ob_se]. exact (proj1 (serial_numbers _ (world_of s ob l) rs w' H1 H2 H3 X L)).
Qed.
Lemma local_all :
  local_cls hdr_cls /\ local_cls ep_cls /\ local_cls it_cls /\ local_cls cpf_cls /\ local_cls mq_cls /\ local_cls ms_cls /\
  local_cls rr_base_cls /\ local_cls rrq_cls /\ local_cls rrs_cls /\ local_cls rg_cls /\ local_cls sa_cls /\ local_cls id_cls /\
  local_cls fo_cls /\ local_cls fc_cls /\ local_cls fs_cls /\ local_cls cs_cls /\ forall k, local_cls (prim_cls k).
Proof. pose proof loc_all as H. repeat (destruct H as [? H]). repeat split; intros; apply loc_local; auto. Qed.
