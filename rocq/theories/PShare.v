(** * PShare: several clients of one target (C113). *)
From Verif Require Export Vocab20 PMachine.
Local Open Scope N_scope.

Definition mine (se : session) (s : server) : target := mkTarget (se_id se) (sv_attr s) (conns_of se s).

Lemma filter_remove f k (l : list (N * N * N)) : filter f (remove triple_dec k l) = remove triple_dec k (filter f l).
Proof.
  induction l as [|x l IH]; [reflexivity|]. cbn [remove filter]. destruct (triple_dec k x) as [->|Ne].
  - destruct (f x); [cbn [remove]; destruct (triple_dec x x); [exact IH|congruence]|exact IH].
  - cbn [filter]. destruct (f x); [cbn [remove]; destruct (triple_dec k x); [congruence|now rewrite IH]|exact IH].
Qed.
Lemma owns_self v s n : owns v s (n, v, s) = true.
Proof. unfold owns. now rewrite !N.eqb_refl. Qed.
Lemma owns_iff v s k : owns v s k = true <-> (snd (fst k), snd k) = (v, s).
Proof.
  destruct k as [[n v'] s']. cbn. rewrite Bool.andb_true_iff, !N.eqb_eq. split; [intros [-> ->]; reflexivity|intros H; injection H as -> ->; auto].
Qed.
Lemma remove_none k (l : list (N * N * N)) : ~ In k l -> remove triple_dec k l = l.
Proof. apply notin_remove. Qed.
Lemma filter_other v s v' s' k l : owns v s k = true -> (v', s') <> (v, s) -> ~ In k (filter (owns v' s') l).
Proof. intros H Ne I. apply filter_In in I. destruct I as [_ I]. apply owns_iff in H, I. congruence. Qed.

(** How the list of connections moves, and that the client's own part moves alike. *)
Definition shifts (v sr : N) (s s1 : server) : Prop :=
  sv_conns s1 = sv_conns s \/
  (exists k, owns v sr k = true /\ ~ In k (sv_conns s) /\ sv_conns s1 = sv_conns s ++ [k]) \/
  (exists k, owns v sr k = true /\ In k (sv_conns s) /\ sv_conns s1 = remove triple_dec k (sv_conns s)).
Lemma shifts_other v sr s s1 v' sr' : shifts v sr s s1 -> (v', sr') <> (v, sr) -> filter (owns v' sr') (sv_conns s1) = filter (owns v' sr') (sv_conns s).
Proof.
  intros [->|[(k & O & N & ->)|(k & O & I & ->)]] Ne; [reflexivity|..].
  - rewrite filter_app. cbn [filter]. destruct (owns v' sr' k) eqn:E; [|apply app_nil_r]. apply owns_iff in O, E. congruence.
  - rewrite filter_remove. apply remove_none. eapply filter_other; eassumption.
Qed.

Lemma conforms_none t t' : conforms t (ctl_talk []) t' -> t' = t.
Proof. intros H. inversion H. reflexivity. Qed.
Lemma runs_single u id v sr t sn a o es t' sn' : runs u id v sr (t, sn) [(a, o)] es (t', sn') ->
  does u v sr (t, sn) a o (t', sn') \/
  (requests t a /\ t' = t /\ sn' = tried a sn /\ ((exists m, o = Throw RuntimeError m) \/ exists m, o = Throw SystemError m)) \/
  (exists n, a = AskLeave n /\ ~ requests t a /\ o = Undef VecOutOfBounds /\ t' = t /\ sn' = sn).
Proof.
  intros H. inversion H as [|? ? ? ? ? ? ? ? ? ? ? ? Do An R|? ? ? ? ? ? ? ? ? ? ? ? ? Rq Ns An R|? ? ? ? ? ? ? ? Rq R|? ? ? Rq]; subst.
  - inversion R; subst. auto.
  - inversion R; subst. right. left. eauto 8.
  - inversion R; subst. right. left. eauto 8.
  - right. right. eauto 8.
Qed.
Lemma call_projects u a w o w' es s s1 : session_ok w -> user_memory u w -> wish_ok u a -> perform a w = (o, w') -> gained w w' es ->
  numbers_ok (w_se w) -> se_id (w_se w) <> 0 -> map conn_key (se_conns (w_se w)) = conns_of (w_se w) s ->
  conforms (seen (se_id (w_se w)) s) (ctl_talk es) (seen (se_id (w_se w)) s1) ->
  conforms (mine (w_se w) s) (ctl_talk es) (mine (w_se w) s1) /\ shifts (se_vendor (w_se w)) (se_serial (w_se w)) s s1.
Proof.
  intros SO UM OK E G NU Nz Cs CO. destruct SO as (RB & FI & TK).
  assert (Same : seen (se_id (w_se w)) s1 = seen (se_id (w_se w)) s -> s1 = s) by (destruct s, s1; unfold seen; cbn; congruence).
  assert (Go : forall bs, w_net w' = w_net w ++ events (w_ctl w) bs ->
    (forall got, serves (seen (se_id (w_se w)) s) bs got (seen (se_id (w_se w)) s1) ->
       serves (mine (w_se w) s) bs got (mine (w_se w) s1) /\ shifts (se_vendor (w_se w)) (se_serial (w_se w)) s s1) ->
    conforms (mine (w_se w) s) (ctl_talk es) (mine (w_se w) s1) /\ shifts (se_vendor (w_se w)) (se_serial (w_se w)) s s1).
  { intros bs Nt H. rewrite (gained_app _ _ _ _ Nt G) in *. apply conforms_talk in CO. destruct CO as [(_ & T & ->)|(got & _ & S1 & ->)].
    - apply Same in T. subst s1. split; [apply conforms_unsent; constructor|left; reflexivity].
    - destruct (H got S1) as [H1 H2]. split; [|exact H2]. eapply conforms_exchange; [exact H1|constructor]. }
  assert (Refuse : forall bs got, (exists sv st ad d, st <> 0 /\ answers (se_id (w_se w)) got sv st ad d) -> seen (se_id (w_se w)) s1 = seen (se_id (w_se w)) s ->
    serves (mine (w_se w) s) bs got (mine (w_se w) s1) /\ shifts (se_vendor (w_se w)) (se_serial (w_se w)) s s1).
  { intros bs got (sv & st & ad & d & Ns & An) T. apply Same in T. subst s1. split; [eapply serves_refuse; [exact Ns|exact An]|left; reflexivity]. }
  destruct a as [k junk x y z|x y z d|a b|n]; cbn [perform wish_ok] in *.
  - destruct OK as (X & Y & Z). destruct (get_attribute w k junk x y z RB X Y Z) as (ro & w1 & E1 & EX & _).
    rewrite (mbind_unit _ Value _ _ _ E1) in E. apply pair_equal_spec in E. destruct E as [_ <-]. apply (Go _ (proj1 (proj2 (proj2 (proj2 (proj2 (proj2 EX))))))).
    intros got S1. apply (serves_get_inv (seen (se_id (w_se w)) s)) in S1; try assumption. destruct S1 as [T [(sv & ad & v & A & An)|R]]; [|apply Refuse; assumption].
    apply Same in T. subst s1. split; [|left; reflexivity]. exact (serves_get (mine (w_se w) s) x y z sv ad v got X Y Z A An).
  - destruct OK as (X & Y & Z & data & CA & L). assert (CA' := carries_opt_hext _ _ _ _ (proj1 UM) CA).
    destruct (set_attribute w x y z d data RB X Y Z CA') as (ro & w1 & E1 & EX & _).
    rewrite (mbind_unit _ (fun _ => Done) _ _ _ E1) in E. apply pair_equal_spec in E. destruct E as [_ <-]. apply (Go _ (proj1 (proj2 (proj2 (proj2 (proj2 (proj2 EX))))))).
    intros got S1. apply (serves_set_inv (seen (se_id (w_se w)) s)) in S1; try assumption. destruct S1 as [(T & sv & ad & q & An)|(T & R)]; [|apply Refuse; assumption].
    destruct s1 as [at1 cs1]. unfold seen, put_attr in T. cbn in T. injection T as -> ->. split; [|left; reflexivity].
    exact (serves_set (mine (w_se w) s) x y z data sv ad q got X Y Z An).
  - destruct OK as (X & Y). destruct (create_connection w a b RB X Y) as (ro & w1 & E1 & EX & _).
    rewrite (mbind_unit _ Number _ _ _ E1) in E. apply pair_equal_spec in E. destruct E as [_ <-]. apply (Go _ (proj1 (proj2 (proj2 (proj2 (proj2 EX)))))).
    intros got S1. apply (serves_open_inv (w_se w) a b got (seen (se_id (w_se w)) s)) in S1; [|reflexivity|apply NU].
    destruct S1 as [(T & Ni & sv & ad & dd & o2t & t2o & oapi & tapi & An & Op)|(T & R)]; [|apply Refuse; assumption].
    destruct s1 as [at1 cs1]. unfold seen, with_conns in T. cbn in T. injection T as -> ->. cbn in Ni.
    split; [|right; left; eexists; split; [apply owns_self|]; split; [exact Ni|reflexivity]].
    unfold mine at 2, conns_of. cbn [sv_attr sv_conns]. rewrite filter_app. cbn [filter]. rewrite owns_self.
    apply (serves_open_at (mine (w_se w) s) (w_se w) a b sv ad dd o2t t2o oapi tapi got); [reflexivity| |exact Op|exact An].
    cbn. intros I. unfold conns_of in I. apply filter_In in I. tauto.
  - destruct (nth_error (se_conns (w_se w)) (N.to_nat n)) as [c|] eqn:Hn.
    + assert (Tc : cn_tick_size c < 256 /\ cn_ticks c < 256) by (rewrite Forall_forall in TK; apply TK; eapply nth_error_In; exact Hn).
      assert (Ic : In (conn_key c) (conns_of (w_se w) s)) by (rewrite <- Cs; apply in_map; eapply nth_error_In; exact Hn).
      assert (Kc : key_fits (conn_key c)). { destruct NU as (_ & F & _). rewrite Forall_forall in F. apply F. eapply nth_error_In. exact Hn. }
      destruct (close_connection w n c RB Hn (proj1 Tc) (proj2 Tc)) as (ro & w1 & E1 & EX & _).
      rewrite (mbind_unit _ (fun _ => Done) _ _ _ E1) in E. apply pair_equal_spec in E. destruct E as [_ <-]. apply (Go _ (proj1 (proj2 (proj2 (proj2 (proj2 EX)))))).
      intros got S1. apply (serves_close_inv (w_se w) c got (seen (se_id (w_se w)) s)) in S1; [|reflexivity|assumption].
      destruct S1 as [(T & sv & ad & dd & An & Op)|(T & R)]; [|apply Refuse; assumption].
      destruct s1 as [at1 cs1]. unfold seen, with_conns in T. cbn in T. injection T as -> ->.
      pose proof Ic as Ic2. unfold conns_of in Ic. apply filter_In in Ic. destruct Ic as [Ic Ow].
      split; [|right; right; exists (conn_key c); split; [exact Ow|]; split; [exact Ic|reflexivity]].
      unfold mine at 2, conns_of. cbn [sv_attr sv_conns]. rewrite filter_remove.
      exact (serves_close (mine (w_se w) s) _ _ _ _ _ _ sv ad dd got Ic2 Op An).
    + pose proof (close_connection_bad w n Hn) as E1. rewrite (mbind_unit _ (fun _ => Done) _ _ _ E1) in E. apply pair_equal_spec in E. destruct E as [<- <-].
      unfold gained in G. rewrite <- (app_nil_r (w_net w)) in G at 1. apply app_inv_head in G. subst es. apply conforms_none in CO. apply Same in CO. subst s1. split; [constructor|left; reflexivity].
Qed.

(** The machine of one client, in the shared target. *)
Lemma remove_shorter k (l : list (N * N * N)) : In k l -> (List.length (remove triple_dec k l) < List.length l)%nat.
Proof. apply remove_length_lt. Qed.
Lemma call_acts u a next w o w' es s s1 : party_ok s (mkParty u (Call a next) w) -> perform a w = (o, w') -> gained w w' es ->
  conforms (seen (se_id (w_se w)) s) (ctl_talk es) (seen (se_id (w_se w)) s1) ->
  acts u (se_vendor (w_se w)) (se_serial (w_se w)) (s, se_next_sn (w_se w)) a o (s1, se_next_sn (w_se w')) /\
  party_ok s1 (mkParty u (goes_on next o) w') /\ se_vendor (w_se w') = se_vendor (w_se w) /\ se_serial (w_se w') = se_serial (w_se w) /\
  shifts (se_vendor (w_se w)) (se_serial (w_se w)) s s1.
Proof.
  intros (SO & UM & (OK & KN) & NU & Nz & Cs) E G CO. cbn [pt_mem pt_world pt_prog] in *.
  destruct (call_projects u a w o w' es s s1 SO UM OK E G NU Nz Cs CO) as [CP SH].
  assert (AG : agrees (w_se w) (mine (w_se w) s)) by (split; [exact Nz|]; split; [reflexivity|exact Cs]).
  destruct (perform_runs u a w o w' es _ _ SO UM OK E G AG NU CP) as [EX NS].
  destruct (perform_step _ _ _ _ E) as (r & St & Se).
  destruct (step_target u _ w r w' es _ _ SO UM (ask_op_ok _ _ OK) (ask_not_open a) St G AG NU CP) as ((A1 & A2 & A3) & N1 & _).
  destruct (step_kept u _ w r w' SO UM (ask_op_ok _ _ OK) St) as (S1 & U1 & _).
  assert (Same : se_vendor (w_se w') = se_vendor (w_se w) /\ se_serial (w_se w') = se_serial (w_se w)) by (apply step_moved in St; destruct St as (? & ? & _); auto).
  destruct Same as [Sv Ss]. split; [|split; [|auto]].
  2:{ split; [exact S1|]. split; [exact U1|]. split; [cbn [pt_mem pt_prog]; destruct o; cbn [goes_on]; try apply KN; exact I|]. split; [exact N1|]. split; [exact A1|].
      cbn [pt_world]. rewrite A3. cbn [mine tg_conns]. unfold conns_of. rewrite Sv, Ss. reflexivity. }
  specialize (EX [] [] (mine (w_se w) s1, se_next_sn (w_se w')) (runs_nil _ _ _ _ _) (fun _ => conj eq_refl (conj eq_refl eq_refl))).
  set (vd := se_vendor (w_se w)) in *. set (sr := se_serial (w_se w)) in *. set (sn := se_next_sn (w_se w)) in *. set (sn' := se_next_sn (w_se w')) in *.
  assert (Fix : filter (owns vd sr) (sv_conns s1) = filter (owns vd sr) (sv_conns s) -> sv_conns s1 = sv_conns s).
  { destruct SH as [H|[(k & O & N & H)|(k & O & I & H)]]; [auto|intros F; exfalso..]; rewrite H in F.
    - rewrite filter_app in F. cbn [filter] in F. rewrite O in F. apply (f_equal (@List.length _)) in F. rewrite app_length in F. cbn in F. lia.
    - rewrite filter_remove in F. apply (f_equal (@List.length _)) in F. pose proof (remove_shorter k (filter (owns vd sr) (sv_conns s))) as L. rewrite F in L.
      apply PeanoNat.Nat.lt_irrefl with (x := List.length (filter (owns vd sr) (sv_conns s))). apply L. apply filter_In. auto. }
  apply runs_single in EX. destruct EX as [D|[(Rq & T & Q & O)|(n & -> & Rq & -> & T & Q)]].
  - remember (mine (w_se w) s) as t eqn:Et. remember (mine (w_se w) s1) as t1 eqn:Et1.
    assert (Ea : tg_attr t = sv_attr s) by (rewrite Et; reflexivity). assert (Ec : tg_conns t = filter (owns vd sr) (sv_conns s)) by (rewrite Et; reflexivity).
    assert (Ea1 : tg_attr t1 = sv_attr s1) by (rewrite Et1; reflexivity). assert (Ec1 : tg_conns t1 = filter (owns vd sr) (sv_conns s1)) by (rewrite Et1; reflexivity).
    assert (Kept : t1 = t -> s1 = s) by (intros H; assert (Q2 : sv_conns s1 = sv_conns s) by (apply Fix; congruence); destruct s, s1; cbn in *; congruence).
    clear Et Et1. inversion D; subst; clear D.
    + rewrite (Kept eq_refl). eapply acts_get; try eassumption. rewrite <- Ea. eassumption.
    + rewrite (Kept eq_refl). eapply acts_get_short; try eassumption. rewrite <- Ea. eassumption.
    + rewrite (Kept eq_refl). eapply acts_get_empty; try eassumption. rewrite <- Ea. eassumption.
    + assert (Q2 : sv_conns s1 = sv_conns s) by (apply Fix; rewrite <- Ec1, <- Ec; reflexivity). cbn [put_attr tg_attr] in Ea1. rewrite Ea in Ea1.
      destruct s1 as [a1 c1]. cbn [sv_attr sv_conns] in *. subst. apply acts_set. assumption.
    + cbn [with_conns tg_attr tg_conns] in *. rewrite Ea in Ea1. rewrite Ec in Ec1.
      assert (Q2 : ~ In (sn, vd, sr) (sv_conns s) /\ sv_conns s1 = sv_conns s ++ [(sn, vd, sr)]).
      { match goal with H : ~ In _ (tg_conns t) |- _ => rename H into Ni end. rewrite Ec in Ni. split; [intros I; apply Ni; apply filter_In; split; [exact I|apply owns_self]|].
        destruct SH as [H|[(k & O & N & H)|(k & O & I & H)]]; rewrite H in *.
        - exfalso. apply (f_equal (@List.length _)) in Ec1. rewrite app_length in Ec1. cbn in Ec1. lia.
        - rewrite filter_app in Ec1. cbn [filter] in Ec1. rewrite O in Ec1. apply app_inv_head in Ec1. congruence.
        - exfalso. rewrite filter_remove in Ec1. apply (f_equal (@List.length _)) in Ec1. rewrite app_length in Ec1. cbn in Ec1.
          assert (L := remove_shorter k (filter (owns vd sr) (sv_conns s))). rewrite <- Ec1 in L. assert (I2 : In k (filter (owns vd sr) (sv_conns s))) by (apply filter_In; auto). apply L in I2. lia. }
      destruct Q2 as [Q2 Q3]. rewrite Ec. destruct s1 as [a1 c1]. cbn [sv_attr sv_conns] in *. subst. apply acts_join. assumption.
    + cbn [with_conns tg_attr tg_conns] in *. rewrite Ea in Ea1. rewrite Ec in Ec1.
      match goal with H : nth_error (tg_conns t) _ = Some _ |- _ => rename H into Hn end. rewrite Ec in Hn.
      assert (Ik : In key (filter (owns vd sr) (sv_conns s))) by (eapply nth_error_In; exact Hn).
      assert (Q2 : sv_conns s1 = remove triple_dec key (sv_conns s)).
      { destruct SH as [H|[(k & O & N & H)|(k & O & I & H)]]; rewrite H in *.
        - exfalso. apply remove_shorter in Ik. rewrite Ec1 in Ik. lia.
        - exfalso. rewrite filter_app in Ec1. apply remove_shorter in Ik. rewrite Ec1, app_length in Ik. lia.
        - rewrite filter_remove in Ec1. destruct (triple_dec key k) as [->|Ne]; [reflexivity|exfalso].
          apply (remove_In triple_dec (filter (owns vd sr) (sv_conns s)) key). rewrite Ec1. apply in_in_remove; assumption. }
      destruct s1 as [a1 c1]. cbn [sv_attr sv_conns] in *. subst. apply acts_leave. assumption.
  - assert (Q2 : sv_conns s1 = sv_conns s) by (apply Fix; exact (f_equal tg_conns T)). assert (Q3 : sv_attr s1 = sv_attr s) by exact (f_equal tg_attr T).
    assert (s1 = s) as -> by (destruct s, s1; cbn in *; congruence).
    assert (Z : forall n, a = AskLeave n -> nth_error (filter (owns vd sr) (sv_conns s)) (N.to_nat n) <> None) by (intros n ->; exact Rq).
    rewrite Q. destruct O as [[m ->]|[m ->]]; [apply acts_refused; exact Z|apply acts_unsent; exact Z].
  - assert (Q2 : sv_conns s1 = sv_conns s) by (apply Fix; exact (f_equal tg_conns T)). assert (Q3 : sv_attr s1 = sv_attr s) by exact (f_equal tg_attr T).
    assert (s1 = s) as -> by (destruct s, s1; cbn in *; congruence). rewrite Q. apply acts_astray.
    change (nth_error (filter (owns vd sr) (sv_conns s)) (N.to_nat n)) with (nth_error (tg_conns (mine (w_se w) s)) (N.to_nat n)).
    cbn [requests] in Rq. destruct (nth_error _ _); [exfalso; apply Rq; discriminate|reflexivity].
Qed.

(** ** All of them *)
Lemma map_set {A B} (f : A -> B) l i x y : nth_error l i = Some x -> f y = f x -> map f (list_set l i y) = map f l.
Proof.
  revert i. induction l as [|z l IH]; intros [|i] H E; try discriminate; cbn in *.
  - injection H as ->. now rewrite E.
  - f_equal. eauto.
Qed.
Lemma map_list_set {A B} (f : A -> B) l : forall i y, map f (list_set l i y) = list_set (map f l) i (f y).
Proof. induction l as [|z l IH]; intros [|i] y; cbn; try reflexivity. now rewrite IH. Qed.
Lemma party_other s s1 p v sr : party_ok s p -> who p <> (v, sr) -> shifts v sr s s1 -> party_ok s1 p.
Proof.
  intros (A & B & C & D & E & F) Ne SH. repeat (split; [assumption|]). rewrite F. unfold conns_of. symmetry. eapply shifts_other; eassumption.
Qed.
Lemma joint_turns s ps l s' ps' : joint s ps l s' ps' -> Forall (party_ok s) ps -> strangers ps ->
  in_turn (map pt_mem ps) (map who ps) s (map (fun p => se_next_sn (w_se (pt_world p))) ps) l s' (map (fun p => se_next_sn (w_se (pt_world p))) ps') /\
  Forall (party_ok s') ps' /\ map who ps' = map who ps.
Proof.
  induction 1 as [s ps|s ps i u a next w o w' es s1 l s' ps' Hi P G C J IH]; intros F D.
  - split; [constructor|]. split; [exact F|reflexivity].
  - assert (PK : party_ok s (mkParty u (Call a next) w)) by (rewrite Forall_forall in F; apply F; eapply nth_error_In; exact Hi).
    destruct (call_acts u a next w o w' es s s1 PK P G C) as (AC & P1 & V & S1 & SH).
    assert (W : map who (list_set ps i (mkParty u (goes_on next o) w')) = map who ps) by (eapply map_set; [exact Hi|]; unfold who; cbn; congruence).
    assert (U : map pt_mem (list_set ps i (mkParty u (goes_on next o) w')) = map pt_mem ps) by (eapply map_set; [exact Hi|]; reflexivity).
    destruct IH as (T & F' & W').
    { rewrite Forall_forall. intros p Ip. apply In_nth_error in Ip. destruct Ip as [j Hj]. destruct (PeanoNat.Nat.eq_dec i j) as [<-|Ne].
      - rewrite nth_error_set_same in Hj by (apply nth_error_Some; congruence). injection Hj as <-. exact P1.
      - rewrite nth_error_set_other in Hj by assumption. eapply party_other; [rewrite Forall_forall in F; apply F; eapply nth_error_In; exact Hj| |exact SH].
        intros Q. apply Ne. unfold strangers in D. rewrite NoDup_nth_error in D. apply D; [rewrite map_length; apply nth_error_Some; congruence|].
        rewrite !nth_error_map, Hi, Hj. cbn. f_equal. symmetry. exact Q. }
    { unfold strangers. rewrite W. exact D. }
    rewrite W, U in *. split; [|split; [exact F'|exact W']].
    eapply in_turn_call with (vendor := se_vendor (w_se w)) (serial := se_serial (w_se w)).
    + rewrite nth_error_map, Hi. reflexivity.
    + rewrite nth_error_map, Hi. reflexivity.
    + rewrite nth_error_map, Hi. reflexivity.
    + exact AC.
    + cbn [pt_world]. rewrite map_list_set in T. exact T.
Qed.

(** ** Last write wins, whoever wrote *)
Lemma acts_attr u v sr s sn a o s1 sn1 i x y z : acts u v sr (s, sn) a o (s1, sn1) -> ~ writes_to x y z (i, a, o) -> sv_attr s1 (x, y, z) = sv_attr s (x, y, z).
Proof.
  intros H N. inversion H; subst; try reflexivity. cbn [sv_attr]. destruct (triple_dec (x, y, z) _) as [Q|]; [|reflexivity].
  injection Q as -> -> ->. exfalso. apply N. unfold writes_to. eauto.
Qed.
Lemma in_turn_app us ids s sns l1 l2 s' sns' : in_turn us ids s sns (l1 ++ l2) s' sns' ->
  exists s1 sns1, in_turn us ids s sns l1 s1 sns1 /\ in_turn us ids s1 sns1 l2 s' sns'.
Proof.
  revert s sns. induction l1 as [|c l1 IH]; intros s sns H; [do 2 eexists; split; [constructor|exact H]|].
  cbn in H. inversion H; subst. destruct (IH _ _ ltac:(eassumption)) as (s1' & sns1' & A & B). do 2 eexists. split; [|exact B]. econstructor; eassumption.
Qed.
Lemma in_turn_attr us ids s sns l s' sns' x y z : in_turn us ids s sns l s' sns' -> Forall (fun c => ~ writes_to x y z c) l -> sv_attr s' (x, y, z) = sv_attr s (x, y, z).
Proof.
  induction 1 as [|s sns i u v sr sn a o s1 sn1 l s' sns' A B C D E IH]; intros F; [reflexivity|]. inversion F as [|? ? F1 F2]; subst. rewrite IH by exact F2.
  eapply acts_attr; eassumption.
Qed.
Lemma last_write us ids s sns s' sns' l1 i x y z d l2 j k junk v l3 u data :
  in_turn us ids s sns (l1 ++ (i, AskSet x y z d, Ret Done) :: l2 ++ (j, AskGet k junk x y z, Ret (Value v)) :: l3) s' sns' ->
  nth_error us i = Some u -> carries_opt u d data -> Forall (fun c => ~ writes_to x y z c) l2 -> exists rest, data = le k v ++ rest /\ fits k v.
Proof.
  intros H Hu Cd F. apply in_turn_app in H. destruct H as (s1 & sns1 & _ & H). inversion H; subst; clear H.
  match goal with H : in_turn _ _ _ _ (l2 ++ _) _ _ |- _ => apply in_turn_app in H; destruct H as (s3 & sns3 & H2 & H3) end.
  apply (in_turn_attr _ _ _ _ _ _ _ x y z) in H2; [|exact F].
  match goal with H : acts _ _ _ _ (AskSet _ _ _ _) _ _ |- _ => inversion H; subst; clear H end.
  cbn [sv_attr] in H2. destruct (triple_dec (x, y, z) (x, y, z)) as [_|Q]; [|congruence].
  inversion H3; subst; clear H3. match goal with H : acts _ _ _ _ (AskGet _ _ _ _ _) _ _ |- _ => inversion H; subst; clear H end.
  match goal with H : nth_error us i = Some ?u1, H' : nth_error us i = Some _ |- _ => rewrite H' in H; injection H as -> end.
  match goal with H : sv_attr _ _ = Some (le k v ++ ?rest) |- _ => exists rest; rewrite H in H2; injection H2 as H2 end.
  match goal with H : carries_opt _ d ?d2 |- _ => match d2 with data => fail 1 | _ => assert (d2 = data) as -> by (eapply carries_opt_inj; eassumption) end end. auto.
Qed.
Lemma joint_last_write s ps s' ps' l1 i x y z d l2 j k junk v l3 p data :
  joint s ps (l1 ++ (i, AskSet x y z d, Ret Done) :: l2 ++ (j, AskGet k junk x y z, Ret (Value v)) :: l3) s' ps' ->
  Forall (party_ok s) ps -> strangers ps -> nth_error ps i = Some p -> carries_opt (pt_mem p) d data -> Forall (fun c => ~ writes_to x y z c) l2 ->
  exists rest, data = le k v ++ rest /\ fits k v.
Proof.
  intros J F D Hp C W. destruct (joint_turns _ _ _ _ _ J F D) as (T & _). eapply last_write; [exact T| |exact C|exact W]. now rewrite nth_error_map, Hp.
Qed.

(** ** Two clients *)
Lemma answers_10 sv st d : sv < 256 -> st < 256 -> len d < 60000 -> answers 10 (explicit_reply 10 sv st d) sv st [] d.
Proof. intros A B C. rewrite <- (app_nil_r (explicit_reply _ _ _ _)). apply answers_reply; try assumption; [reflexivity|discriminate]. Qed.
Definition w10 (ctl : list rx) : world :=
  set_se (mkSess 10 0x195 0x5555 7 100 []) (session_make [] (mkSock [] [] ctl []) (mkSock [] [] [] []) 0x195 0x5555 7 100).
Definition fo10 : list byte := forward_open_reply 300 400 7 0x195 0x5555 1000 2000 x00 [].
Definition duo_a : client := Call (AskSet 1 2 3 (Some (prim_ser 2 513))) (fun _ => Call (AskJoin ci0 ci0) (fun _ => Call (AskLeave 0) (fun _ => Stop))).
Definition duo_b : client := Call (AskJoin ci0 ci0) (fun _ => Call (AskGet 2 0 1 2 3) (fun _ => Stop)).
Definition duo : list party :=
  [mkParty [] duo_a (w9 [RxData (explicit_reply 9 0x90 0 []); RxData (fo_reply 7); RxData (fc_reply 7)] []);
   mkParty [] duo_b (w10 [RxData (explicit_reply 10 0xDB 0 fo10); RxData (explicit_reply 10 0x8E 0 (le 2 513))])].
Definition duo_s : server := mkServer no_attrs [].
Definition duo_calls : list (nat * wish * outcome told) :=
  [(0%nat, AskSet 1 2 3 (Some (prim_ser 2 513)), Ret Done); (1%nat, AskJoin ci0 ci0, Ret (Number 0)); (0%nat, AskJoin ci0 ci0, Ret (Number 0));
   (1%nat, AskGet 2 0 1 2 3, Ret (Value 513)); (0%nat, AskLeave 0, Ret Done)].
Lemma duo_ok : Forall (party_ok duo_s) duo /\ strangers duo.
Proof.
  assert (K1 : wish_ok [] (AskSet 1 2 3 (Some (prim_ser 2 513)))) by (repeat split; try reflexivity; exists (le 2 513); split; [exact (carries_prim _ 2 513)|reflexivity]).
  split.
  - constructor; [|constructor; [|constructor]].
    + split; [apply session_ok_w9|]. split; [apply user_memory_w9|]. split; [|split; [apply numbers_w9|split; [discriminate|reflexivity]]].
      split; [exact K1|]. intros _. split; [split; reflexivity|]. intros _. split; [exact I|]. intros _. exact I.
    + split; [split; [exact (rbuf_make _ _ _ _ _ _ _)|split; [reflexivity|constructor]]|].
      split; [split; [intros b bl E; destruct b; discriminate|intros bl E; cbn in E; discriminate]|].
      split; [split; [split; reflexivity|]; intros _; split; [repeat split; reflexivity|]; intros _; exact I|].
      split; [split; [repeat split; reflexivity|split; constructor]|]. split; [discriminate|reflexivity].
  - constructor; [intros [H|[]]; discriminate H|]. constructor; [intros []|constructor].
Qed.
Definition duo_attr : N * N * N -> option (list byte) := tg_attr (put_attr (1, 2, 3) (le 2 513) tg9).
Lemma duo_joint : exists ps', joint duo_s duo duo_calls (mkServer duo_attr [(7, 0x195, 0x5555)]) ps'.
Proof.
  eexists. unfold duo_calls.
  eapply joint_call with (s1 := mkServer duo_attr []); [reflexivity|vm_compute; reflexivity|vm_compute; reflexivity| |].
  { apply (conforms_sent _ _ _ _ (seen 9 (mkServer duo_attr []))); [vm_compute; reflexivity| |constructor].
    apply (serves_set (seen 9 duo_s) 1 2 3 (le 2 513) 0x90 [] []); try reflexivity. apply (answers_9 0x90 0 []); reflexivity. }
  eapply joint_call with (s1 := mkServer duo_attr [(7, 0x195, 0x5555)]); [reflexivity|vm_compute; reflexivity|vm_compute; reflexivity| |].
  { apply (conforms_sent _ _ _ _ (seen 10 (mkServer duo_attr [(7, 0x195, 0x5555)]))); [vm_compute; reflexivity| |constructor].
    apply (serves_open_at (seen 10 (mkServer duo_attr [])) (mkSess 10 0x195 0x5555 7 100 []) ci0 ci0 0xDB [] fo10 300 400 1000 2000);
      [reflexivity|intros []| |apply (answers_10 0xDB 0 fo10); reflexivity].
    exists x00, [], []. rewrite app_nil_r. split; [|reflexivity]. repeat split; reflexivity. }
  eapply joint_call with (s1 := mkServer duo_attr [(7, 0x195, 0x5555); (7, 0x195, 0x4321)]); [reflexivity|vm_compute; reflexivity|vm_compute; reflexivity| |].
  { apply (conforms_sent _ _ _ _ (seen 9 (mkServer duo_attr [(7, 0x195, 0x5555); (7, 0x195, 0x4321)]))); [vm_compute; reflexivity| |constructor].
    apply (serves_open_at (seen 9 (mkServer duo_attr [(7, 0x195, 0x5555)])) (mkSess 9 0x195 0x4321 7 100 []) ci0 ci0 0xDB [] (forward_open_reply (100 + 7) (200 + 7) 7 0x195 0x4321 1000 2000 x00 []) (100 + 7) (200 + 7) 1000 2000);
      [reflexivity|intros [H|[]]; discriminate H|apply (opened_reply 7); reflexivity|apply (answers_9 0xDB 0 (forward_open_reply (100 + 7) (200 + 7) 7 0x195 0x4321 1000 2000 x00 [])); reflexivity]. }
  eapply joint_call with (s1 := mkServer duo_attr [(7, 0x195, 0x5555); (7, 0x195, 0x4321)]); [reflexivity|vm_compute; reflexivity|vm_compute; reflexivity| |].
  { apply (conforms_sent _ _ _ _ (seen 10 (mkServer duo_attr [(7, 0x195, 0x5555); (7, 0x195, 0x4321)]))); [vm_compute; reflexivity| |constructor].
    apply (serves_get (seen 10 (mkServer duo_attr [(7, 0x195, 0x5555); (7, 0x195, 0x4321)])) 1 2 3 0x8E [] (le 2 513)); try reflexivity.
    apply (answers_10 0x8E 0 (le 2 513)); reflexivity. }
  eapply joint_call with (s1 := mkServer duo_attr [(7, 0x195, 0x5555)]); [reflexivity|vm_compute; reflexivity|vm_compute; reflexivity| |constructor].
  apply (conforms_sent _ _ _ _ (seen 9 (mkServer duo_attr [(7, 0x195, 0x5555)]))); [vm_compute; reflexivity| |constructor].
  apply (serves_close (seen 9 (mkServer duo_attr [(7, 0x195, 0x5555); (7, 0x195, 0x4321)])) 6 80 7 0x195 0x4321 [SClass 2; SInstance 1] 0xCE [] (forward_close_reply 7 0x195 0x4321 x00 []));
    [right; left; reflexivity| |apply (answers_9 0xCE 0 (forward_close_reply 7 0x195 0x4321 x00 [])); reflexivity].
  exists x00, [], []. rewrite app_nil_r. split; [|reflexivity]. repeat split; reflexivity.
Qed.
