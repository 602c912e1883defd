(** * PTarget: a session talking to a conforming target (C73, C74). *)
From Verif Require Export Vocab7 PMore.
Local Open Scope N_scope.

(** ** Requests determine what they ask *)
Lemma rr_request_eq cmd id sv p d :
  request cmd id (rr_request sv p d) =
  (header cmd (len (rr_request sv p d)) id 0 0 0 0 ++ le 4 0 ++ le 2 0 ++ le 2 2 ++ le 2 0 ++ le 2 0 ++ le 2 0xB2 ++ le 2 (len (router_request sv p d))) ++
  octet sv :: p ++ d.
Proof.
  unfold request, frame, rr_request at 2, rr, cpf, items, item. cbn [flat_map fst snd app]. rewrite !app_nil_r.
  change (len [(0, []); (0xB2, router_request sv p d)]) with 2. change (len (@nil byte)) with 0.
  unfold router_request. cbn [app]. rewrite <- ?app_assoc. reflexivity.
Qed.

Lemma rr_request_inj id id' sv sv' p p' d d' : request 0x6F id (rr_request sv p d) = request 0x6F id' (rr_request sv' p' d') ->
  octet sv = octet sv' /\ p ++ d = p' ++ d'.
Proof.
  rewrite !rr_request_eq. intros E. apply app_eq_len in E.
  - destruct E as [_ E]. injection E as E1 E2. auto.
  - unfold header. rewrite !len_app, !len_le. reflexivity.
Qed.

Lemma get_inj id id' x y z x' y' z' : x < 256 -> y < 256 -> z < 256 -> x' < 256 -> y' < 256 -> z' < 256 ->
  get_request id x y z = get_request id' x' y' z' -> (x, y, z) = (x', y', z').
Proof.
  intros X Y Z X' Y' Z' E. apply rr_request_inj in E. destruct E as [_ E]. unfold attribute_path, epath in E. cbn in E.
  injection E as E1 E2 E3. apply octet_inj in E1, E2, E3; try assumption. congruence.
Qed.

Lemma set_inj id id' x y z d x' y' z' d' : x < 256 -> y < 256 -> z < 256 -> x' < 256 -> y' < 256 -> z' < 256 ->
  set_request id x y z d = set_request id' x' y' z' d' -> (x, y, z) = (x', y', z') /\ d = d'.
Proof.
  intros X Y Z X' Y' Z' E. apply rr_request_inj in E. destruct E as [_ E]. unfold attribute_path, epath in E. cbn in E.
  injection E as E1 E2 E3 E4. apply octet_inj in E1, E2, E3; try assumption. split; congruence.
Qed.

Lemma fo_inj a b c d sn vn os m e f g h i p a' b' c' d' sn' vn' os' m' e' f' g' h' i' p' id id' : key_fits (sn, vn, os) -> key_fits (sn', vn', os') ->
  request 0x6F id (rr_request 0x5B manager_path (forward_open a b c d sn vn os m e f g h i p)) =
  request 0x6F id' (rr_request 0x5B manager_path (forward_open a' b' c' d' sn' vn' os' m' e' f' g' h' i' p')) ->
  (sn, vn, os) = (sn', vn', os').
Proof.
  intros (F1 & F2 & F3) (G1 & G2 & G3) E. apply rr_request_inj in E. destruct E as [_ E]. apply app_inv_head in E.
  unfold forward_open in E.
  apply app_eq_len in E; [|reflexivity]. destruct E as [_ E].
  apply app_eq_len in E; [|rewrite !len_le; reflexivity]. destruct E as [_ E].
  apply app_eq_len in E; [|rewrite !len_le; reflexivity]. destruct E as [_ E].
  do 3 (apply le_app_inj in E; [|assumption..]; destruct E as [<- E]). reflexivity.
Qed.

Lemma fc_inj a b sn vn os ss a' b' sn' vn' os' ss' id id' : key_fits (sn, vn, os) -> key_fits (sn', vn', os') ->
  request 0x6F id (rr_request 0x4E manager_path (forward_close a b sn vn os ss)) =
  request 0x6F id' (rr_request 0x4E manager_path (forward_close a' b' sn' vn' os' ss')) ->
  (sn, vn, os) = (sn', vn', os').
Proof.
  intros (F1 & F2 & F3) (G1 & G2 & G3) E. apply rr_request_inj in E. destruct E as [_ E]. apply app_inv_head in E.
  unfold forward_close in E. apply app_eq_len in E; [|reflexivity]. destruct E as [_ E].
  do 3 (apply le_app_inj in E; [|assumption..]; destruct E as [<- E]). reflexivity.
Qed.

(** ** Replies determine what they say *)
Lemma answers_inj id got sv st a d sv' st' a' d' : answers id got sv st a d -> answers id got sv' st' a' d' ->
  sv = sv' /\ st = st' /\ a = a' /\ d = d'.
Proof.
  intros (s & p & F & _ & R) (s' & p' & F' & _ & R'). destruct (reply_frame_inj _ _ _ _ _ _ _ F F') as (_ & _ & <-).
  exact (rr_reply_inj _ _ _ _ _ _ _ _ _ R R').
Qed.

Lemma opened_inj d a b sn vn os e f a' b' sn' vn' os' e' f' : opened d a b sn vn os e f -> opened d a' b' sn' vn' os' e' f' -> (sn, vn, os) = (sn', vn', os').
Proof.
  intros (rs & app & r & (F1 & F2 & F3 & F4 & F5 & F6 & F7 & _) & E) (rs' & app' & r' & (G1 & G2 & G3 & G4 & G5 & G6 & G7 & _) & E').
  rewrite E in E'. clear E. unfold forward_open_reply in E'. rewrite <- ?app_assoc in E'.
  do 5 (apply le_app_inj in E'; [|assumption..]; destruct E' as [<- E']). reflexivity.
Qed.

Lemma closed_inj d sn vn os sn' vn' os' : closed_reply d sn vn os -> closed_reply d sn' vn' os' -> (sn, vn, os) = (sn', vn', os').
Proof.
  intros (rs & app & r & (F1 & F2 & F3 & _) & E) (rs' & app' & r' & (G1 & G2 & G3 & _) & E').
  rewrite E in E'. clear E. unfold forward_close_reply in E'. rewrite <- ?app_assoc in E'.
  do 3 (apply le_app_inj in E'; [|assumption..]; destruct E' as [<- E']). reflexivity.
Qed.

(** ** What the target does with each request of the session *)
Lemma serves_get_inv t x y z got t' : x < 256 -> y < 256 -> z < 256 -> serves t (get_request (tg_session t) x y z) got t' ->
  t' = t /\ ((exists sv a v, tg_attr t (x, y, z) = Some v /\ answers (tg_session t) got sv 0 a v) \/
             (exists sv st a d, st <> 0 /\ answers (tg_session t) got sv st a d)).
Proof.
  intros X Y Z S. remember (get_request (tg_session t) x y z) as rq eqn:E. destruct S as [x' y' z' sv a v g Hx Hy Hz V A|x' y' z' data sv a d g Hx Hy Hz A|a b c d sn vn os m e f h i k p sv ad q a' b' c' d' g Nn O A|
    a b sn vn os ss sv ad q g Nn O A|bs sv st a d g Nz A].
  - apply get_inj in E; try assumption. injection E as -> -> ->. split; [reflexivity|]. left. eauto.
  - apply rr_request_inj in E. destruct E as [E _]. discriminate E.
  - apply rr_request_inj in E. destruct E as [E _]. discriminate E.
  - apply rr_request_inj in E. destruct E as [E _]. discriminate E.
  - split; [reflexivity|]. right. eauto 6.
Qed.

Lemma serves_set_inv t x y z data got t' : x < 256 -> y < 256 -> z < 256 -> serves t (set_request (tg_session t) x y z data) got t' ->
  (t' = put_attr (x, y, z) data t /\ exists sv a d, answers (tg_session t) got sv 0 a d) \/
  (t' = t /\ exists sv st a d, st <> 0 /\ answers (tg_session t) got sv st a d).
Proof.
  intros X Y Z S. remember (set_request (tg_session t) x y z data) as rq eqn:E. destruct S as [x' y' z' sv a v g Hx Hy Hz V A|x' y' z' da sv a d g Hx Hy Hz A|a b c d sn vn os m e f h i k p sv ad q a' b' c' d' g Nn O A|
    a b sn vn os ss sv ad q g Nn O A|bs sv st a d g Nz A].
  - apply rr_request_inj in E. destruct E as [E _]. discriminate E.
  - apply set_inj in E; try assumption. destruct E as [E ->]. injection E as -> -> ->. left. split; [reflexivity|eauto].
  - apply rr_request_inj in E. destruct E as [E _]. discriminate E.
  - apply rr_request_inj in E. destruct E as [E _]. discriminate E.
  - right. split; [reflexivity|eauto 6].
Qed.

Lemma serves_open_inv s o t got tg t' : tg_session tg = se_id s -> key_fits (se_next_sn s, se_vendor s, se_serial s) -> serves tg (open_request s o t) got t' ->
  (t' = with_conns (tg_conns tg ++ [(se_next_sn s, se_vendor s, se_serial s)]) tg /\ ~ In (se_next_sn s, se_vendor s, se_serial s) (tg_conns tg) /\
     exists sv a d o2t t2o oapi tapi, answers (tg_session tg) got sv 0 a d /\ opened d o2t t2o (se_next_sn s) (se_vendor s) (se_serial s) oapi tapi) \/
  (t' = tg /\ exists sv st a d, st <> 0 /\ answers (tg_session tg) got sv st a d).
Proof.
  intros Id K S. remember (open_request s o t) as rq eqn:E. destruct S as [x' y' z' sv a v g Hx Hy Hz V A|x' y' z' da sv a d g Hx Hy Hz A|a b c d sn vn os m e f h i k p sv ad q a' b' c' d' g Nn O A|
    a b sn vn os ss sv ad q g Nn O A|bs sv st a d g Nz A].
  - apply rr_request_inj in E. destruct E as [E _]. discriminate E.
  - apply rr_request_inj in E. destruct E as [E _]. discriminate E.
  - assert (F : key_fits (sn, vn, os)) by (destruct O as (? & ? & ? & (? & ? & ? & ? & ? & _) & _); unfold key_fits; auto).
    apply fo_inj in E; try assumption. injection E as -> -> ->. left. split; [reflexivity|]. split; [assumption|]. do 7 eexists. split; eassumption.
  - apply rr_request_inj in E. destruct E as [E _]. discriminate E.
  - right. split; [reflexivity|eauto 6].
Qed.

Lemma serves_close_inv s c got tg t' : tg_session tg = se_id s -> key_fits (conn_key c) -> serves tg (close_request s c) got t' ->
  (t' = with_conns (remove triple_dec (conn_key c) (tg_conns tg)) tg /\
     exists sv a d, answers (tg_session tg) got sv 0 a d /\ closed_reply d (cn_sn c) (cn_vendor c) (cn_orig_sn c)) \/
  (t' = tg /\ exists sv st a d, st <> 0 /\ answers (tg_session tg) got sv st a d).
Proof.
  intros Id K S. remember (close_request s c) as rq eqn:E. destruct S as [x' y' z' sv a v g Hx Hy Hz V A|x' y' z' da sv a d g Hx Hy Hz A|a b c' d sn vn os m e f h i k p sv ad q a' b' c'' d' g Nn O A|
    a b sn vn os ss sv ad q g Nn O A|bs sv st a d g Nz A].
  - apply rr_request_inj in E. destruct E as [E _]. discriminate E.
  - apply rr_request_inj in E. destruct E as [E _]. discriminate E.
  - apply rr_request_inj in E. destruct E as [E _]. discriminate E.
  - assert (F : key_fits (sn, vn, os)) by (destruct O as (? & ? & ? & (? & ? & ? & _) & _); unfold key_fits; auto).
    unfold conn_key in *. apply fc_inj in E; try assumption. rewrite E. injection E as -> -> ->. left. split; [reflexivity|]. do 3 eexists. split; eassumption.
  - right. split; [reflexivity|eauto 6].
Qed.

(** ** Talk *)
Lemma conforms_events t k bs t' : conforms t (ctl_talk (events k bs)) t' ->
  (reply_of k bs = NoSend /\ t' = t) \/ exists got, reply_of k bs = Reply got /\ serves t bs got t'.
Proof.
  unfold events, reply_of, talk. destruct (sent k bs) as [n|]; [|cbn; intros H; inversion H as [| |? ? ? ? H1]; subst; inversion H1; subst; auto].
  destruct (so_recv k) as [|[d|] r]; cbn; intros H; inversion H as [|? ? ? ? ? ? S C| ]; subst. inversion C; subst. eauto.
Qed.

(** ** One operation *)
Lemma remove_nth n : forall (l : list (N * N * N)) k, NoDup l -> nth_error l n = Some k -> list_remove n l = remove triple_dec k l.
Proof.
  induction n as [|n IH]; intros [|a l] k D H; cbn in H; try discriminate; inversion_clear D as [|? ? Na Dl].
  - injection H as ->. cbn. destruct (triple_dec k k) as [_|Nk]; [|congruence]. symmetry. apply notin_remove. assumption.
  - cbn. destruct (triple_dec k a) as [->|_]; [exfalso; apply Na; eapply nth_error_In; exact H|]. f_equal. apply IH; assumption.
Qed.

Lemma list_remove_forall {A} (P : A -> Prop) n (l : list A) : Forall P l -> Forall P (list_remove n l).
Proof. intros H. apply Forall_forall. intros x I. apply list_remove_in in I. rewrite Forall_forall in H. auto. Qed.

(** What a conforming exchange of the operation's request does to both sides. *)
Definition in_step (o : op) (w : world) (r : outcome result) (w' : world) (t t' : target) : Prop :=
  agrees (w_se w') t' /\ numbers_ok (w_se w') /\
  (forall k, ~ sets o k -> tg_attr t' k = tg_attr t k).

Lemma same_step o w r w' t : agrees (w_se w) t -> numbers_ok (w_se w) -> w_se w' = w_se w -> in_step o w r w' t t.
Proof. intros A N E. unfold in_step. rewrite E. auto. Qed.

Lemma gained_app w w' a b : w_net w' = w_net w ++ a -> gained w w' b -> b = a.
Proof. unfold gained. intros E G. rewrite E in G. now apply app_inv_head in G. Qed.

Lemma numbers_next s s' cs : numbers_ok s -> se_vendor s' = se_vendor s -> se_serial s' = se_serial s -> fits 2 (se_next_sn s') -> se_conns s' = cs ->
  Forall (fun c => key_fits (conn_key c)) cs -> NoDup (map conn_key cs) -> numbers_ok s'.
Proof. intros ((A & B & C) & F & D) V S X E F' D'. unfold numbers_ok, key_fits. rewrite V, S, E. auto. Qed.

Lemma step_target u o w r w' es t t' : session_ok w -> user_memory u w -> op_ok u o -> ~ is_open_close o -> step o w = (r, w') -> gained w w' es ->
  agrees (w_se w) t -> numbers_ok (w_se w) -> conforms t (ctl_talk es) t' -> in_step o w r w' t t'.
Proof.
  intros SO UM OK NO E G AG NU CO. destruct SO as (RB & FI & TK). pose proof AG as (Nz & Id & Cs).
  destruct o as [h p q| |T c v x y z|x y z d|a b|n| |p]; cbn [is_open_close] in NO; try tauto; cbn [op_ok] in OK.
  - destruct OK as (X & Y & Z & K). destruct (get_any c v w x y z RB X Y Z K) as (ro & v' & w1 & E1 & EX & _). cbn [step] in E. rewrite E1 in E.
    assert (w1 = w') by (destruct ro; congruence). subst w1. destruct EX as (Se & _ & _ & _ & _ & Nt & _).
    rewrite (gained_app _ _ _ _ Nt G) in CO. apply conforms_events in CO. rewrite <- Id in CO.
    destruct CO as [[_ ->]|(got & _ & S)]; [apply same_step; assumption|]. apply serves_get_inv in S; try assumption. destruct S as [-> _]. apply same_step; assumption.
  - destruct OK as (X & Y & Z & data & CA & L). assert (CA' := carries_opt_hext _ _ _ _ (proj1 UM) CA).
    destruct (set_attribute w x y z d data RB X Y Z CA') as (ro & w1 & E1 & EX & _). cbn [step] in E. rewrite (mbind_unit _ (fun _ => RUnit) _ _ _ E1) in E.
    assert (w1 = w') by congruence. subst w1. destruct EX as (Se & _ & _ & _ & _ & Nt & _).
    rewrite (gained_app _ _ _ _ Nt G) in CO. apply conforms_events in CO. rewrite <- Id in CO.
    destruct CO as [[_ ->]|(got & _ & S)]; [apply same_step; assumption|]. apply serves_set_inv in S; try assumption.
    destruct S as [[-> _]|[-> _]]; [|apply same_step; assumption].
    split; [unfold agrees; rewrite Se; exact AG|]. split; [rewrite Se; exact NU|]. intros k Hk. cbn [sets] in Hk. cbn. destruct (triple_dec k (x, y, z)); [contradiction|reflexivity].
  - destruct OK as (X & Y). destruct (create_connection w a b RB X Y) as (ro & w1 & E1 & EX & NB & OU). cbn [step] in E. rewrite (mbind_unit _ RNumber _ _ _ E1) in E.
    assert (w1 = w') by congruence. subst w1. destruct EX as (_ & _ & _ & _ & Nt & _).
    rewrite (gained_app _ _ _ _ Nt G) in CO. apply conforms_events in CO.
    destruct NB as (N1 & N2 & N3 & N4 & N5).
    assert (FS : fits 2 (se_next_sn (w_se w'))). { rewrite N4. unfold fits. apply N.mod_lt. discriminate. }
    assert (Keep : se_conns (w_se w') = se_conns (w_se w) -> t' = t -> in_step (OpCreate a b) w r w' t t').
    { intros Ec ->. split; [unfold agrees; rewrite N1, Ec; exact AG|]. split; [|auto]. destruct NU as (? & F & D). eapply numbers_next; try eassumption. split; [assumption|split; assumption]. }
    unfold create_outcome in OU. destruct CO as [[Q ->]|(got & Q & S)]; rewrite Q in OU; [apply Keep; [tauto|reflexivity]|].
    apply serves_open_inv in S; [|assumption|apply NU]. rewrite Id in S.
    destruct S as [(-> & Ni & sv & ad & dd & o2t & t2o & oapi & tapi & An & Op)|(-> & sv & st & ad & dd & Ns & An)].
    + assert (Ec : exists c, records (w_se w) a b (cn_o2t_id c) (cn_t2o_id c) (cn_o2t_api c) (cn_t2o_api c) c /\ se_conns (w_se w') = se_conns (w_se w) ++ [c]).
      { destruct OU as [(sv' & ad' & d' & o2t' & t2o' & oapi' & tapi' & c & An' & Op' & Re & _ & Ec)|(_ & [B|[B|[B|B]]])].
        - exists c. split; [|exact Ec]. destruct Re as (? & ? & ? & ? & ? & ? & ? & ?). unfold records. repeat split; tauto.
        - exfalso. destruct B as (sv' & ad' & d' & o2t' & t2o' & sn & vn & os & oapi' & tapi' & m & An' & Op' & Ne & _).
          destruct (answers_inj _ _ _ _ _ _ _ _ _ _ An An') as (_ & _ & _ & <-). apply Ne. symmetry. exact (opened_inj _ _ _ _ _ _ _ _ _ _ _ _ _ _ _ Op Op').
        - exfalso. destruct B as (sv' & ad' & d' & m & An' & _ & No & _). destruct (answers_inj _ _ _ _ _ _ _ _ _ _ An An') as (_ & _ & _ & <-). exact (No _ _ _ _ _ _ _ Op).
        - exfalso. destruct B as [[B|(sv' & ad' & An')] _]; [exact (answers_not_crash _ _ _ _ _ _ An B)|].
          destruct (answers_inj _ _ _ _ _ _ _ _ _ _ An An') as (_ & _ & _ & ->). destruct Op as (rs & app & re & _ & B). symmetry in B. unfold forward_open_reply in B. discriminate B.
        - exfalso. destruct B as (B & _). exact (B _ _ _ An). }
      destruct Ec as (c & Re & Ec). assert (Kc : conn_key c = (se_next_sn (w_se w), se_vendor (w_se w), se_serial (w_se w))) by (unfold conn_key; destruct Re as (-> & -> & -> & _); reflexivity).
      split; [split; [rewrite N1; exact Nz|split; [rewrite N1; exact Id|]]|].
      * rewrite Ec, map_app, Cs. cbn. now rewrite Kc.
      * split; [|auto]. destruct NU as (K0 & F & D). eapply numbers_next; try eassumption; [split; [exact K0|split; assumption]| |].
        -- apply Forall_app. split; [exact F|]. constructor; [rewrite Kc; exact K0|constructor].
        -- rewrite map_app. cbn. rewrite Kc. rewrite <- Cs in Ni. apply NoDup_rev in D. rewrite <- (rev_involutive (map conn_key (se_conns (w_se w)) ++ _)). apply NoDup_rev.
           rewrite rev_app_distr. cbn. constructor; [rewrite <- in_rev; exact Ni|exact D].
    + apply Keep; [|reflexivity]. destruct OU as [(sv' & ad' & d' & o2t' & t2o' & oapi' & tapi' & c & An' & _)|(Ec & _)]; [|exact Ec].
      exfalso. destruct (answers_inj _ _ _ _ _ _ _ _ _ _ An An') as (_ & H & _). congruence.
  - destruct (nth_error (se_conns (w_se w)) (N.to_nat n)) as [c|] eqn:Hn.
    + assert (Tc : cn_tick_size c < 256 /\ cn_ticks c < 256) by (rewrite Forall_forall in TK; apply TK; eapply nth_error_In; exact Hn).
      destruct (close_connection w n c RB Hn (proj1 Tc) (proj2 Tc)) as (ro & w1 & E1 & EX & OU). cbn [step] in E. rewrite (mbind_unit _ (fun _ => RUnit) _ _ _ E1) in E.
      assert (w1 = w') by congruence. subst w1. destruct EX as (_ & _ & _ & _ & Nt & _).
      rewrite (gained_app _ _ _ _ Nt G) in CO. apply conforms_events in CO.
      assert (Kc : key_fits (conn_key c)). { destruct NU as (_ & F & _). rewrite Forall_forall in F. apply F. eapply nth_error_In. exact Hn. }
      unfold drop_conn_outcome in OU. destruct CO as [[Q ->]|(got & Q & S)]; rewrite Q in OU; [apply same_step; tauto|].
      apply serves_close_inv in S; [|assumption|assumption]. rewrite Id in S.
      destruct S as [(-> & sv & ad & dd & An & Op)|(-> & sv & st & ad & dd & Ns & An)].
      * assert (Ec : w_se w' = set_conns (list_remove (N.to_nat n) (se_conns (w_se w))) (w_se w)).
        { destruct OU as [(sv' & ad' & d' & An' & Op' & _ & Ec)|(_ & [B|[B|[B|B]]])]; [exact Ec|exfalso..].
          - destruct B as (sv' & ad' & d' & sn & vn & os & m & An' & Op' & Ne & _). destruct (answers_inj _ _ _ _ _ _ _ _ _ _ An An') as (_ & _ & _ & <-).
            apply Ne. symmetry. exact (closed_inj _ _ _ _ _ _ _ Op Op').
          - destruct B as (sv' & ad' & d' & m & An' & _ & No & _). destruct (answers_inj _ _ _ _ _ _ _ _ _ _ An An') as (_ & _ & _ & <-). exact (No _ _ _ Op).
          - destruct B as [[B|(sv' & ad' & An')] _]; [exact (answers_not_crash _ _ _ _ _ _ An B)|].
            destruct (answers_inj _ _ _ _ _ _ _ _ _ _ An An') as (_ & _ & _ & ->). destruct Op as (rs & app & re & _ & B). symmetry in B. unfold forward_close_reply in B. discriminate B.
          - destruct B as (B & _). exact (B _ _ _ An). }
        destruct NU as (K0 & F & D).
        assert (RM : list_remove (N.to_nat n) (map conn_key (se_conns (w_se w))) = remove triple_dec (conn_key c) (tg_conns t)).
        { rewrite <- Cs. apply remove_nth; [exact D|]. rewrite nth_error_map, Hn. reflexivity. }
        split; [|split; [|auto]].
        -- rewrite Ec. split; [exact Nz|]. split; [exact Id|]. cbn. rewrite list_remove_map. exact RM.
        -- rewrite Ec. split; [exact K0|]. split; [apply list_remove_forall; exact F|]. cbn. rewrite list_remove_map. apply list_remove_nodup. exact D.
      * apply same_step; try assumption. destruct OU as [(sv' & ad' & d' & An' & _)|(Ec & _)]; [|exact Ec].
        exfalso. destruct (answers_inj _ _ _ _ _ _ _ _ _ _ An An') as (_ & H & _). congruence.
    + cbn [step] in E. pose proof (close_connection_bad w n Hn) as E1. rewrite (mbind_unit _ (fun _ => RUnit) _ _ _ E1) in E. injection E as <- <-.
      unfold gained in G. rewrite <- (app_nil_r (w_net w)) in G at 1. apply app_inv_head in G. subst es. inversion CO; subst. apply same_step; auto.
  - assert (SO : session_ok w) by (split; [assumption|split; assumption]).
    pose proof (step_one u OpReceiveIO w r w' SO UM Logic.I E) as (_ & _ & _ & _ & (es' & Ne & [[_ T]|[Ns _]]) & _); [|exfalso; apply Ns; exact Logic.I].
    rewrite (gained_app _ _ _ _ Ne G), T in CO. inversion CO; subst. apply same_step; auto. apply step_moved in E. destruct E as (_ & _ & E). exact E.
  - assert (SO : session_ok w) by (split; [assumption|split; assumption]).
    pose proof (step_one u (OpSendIO p) w r w' SO UM OK E) as (_ & _ & _ & _ & (es' & Ne & [[_ T]|[Ns _]]) & _); [|exfalso; apply Ns; exact Logic.I].
    rewrite (gained_app _ _ _ _ Ne G), T in CO. inversion CO; subst. apply same_step; auto. apply step_moved in E. destruct E as (_ & _ & E). exact E.
Qed.

(** ** Histories *)
Definition starts_with_send (es : list event) : Prop := es = [] \/ exists bs n l, es = ESend Ctl bs n :: l.
Definition one_talk (es : list event) : Prop := es = [] \/ exists bs n, es = [ESend Ctl bs n] \/ exists got, es = [ESend Ctl bs n; ERecv Ctl got].

Lemma conforms_split t a b t' : one_talk a -> starts_with_send b -> conforms t (a ++ b) t' -> exists t1, conforms t a t1 /\ conforms t1 b t'.
Proof.
  intros [->|(bs & n & [->|(got & ->)])] B C; cbn [app] in C.
  - eexists. split; [constructor|exact C].
  - inversion C as [|? ? ? ? ? ? S C1 E|? ? ? ? C1]; subst; [|eexists; split; [apply conforms_unsent; constructor|exact C1]].
    destruct B as [B|(? & ? & ? & B)]; discriminate B.
  - inversion C as [|? ? ? ? ? ? S C1 E|? ? ? ? C1]; subst; [eexists; split; [eapply conforms_exchange; [exact S|constructor]|exact C1]|].
    inversion C1.
Qed.

Lemma one_frame_talk u o w w' es : one_frame u o w w' -> gained w w' es -> one_talk (ctl_talk es).
Proof.
  intros (es' & E & H) G. rewrite (gained_app _ _ _ _ E G). destruct H as [[_ H]|(_ & bs & cmd & pl & n & _ & _ & _ & H)]; [left; exact H|right].
  exists bs, n. exact H.
Qed.

Lemma talk_starts a : one_talk a -> starts_with_send a.
Proof. intros [->|(bs & n & [->|(got & ->)])]; [left; reflexivity|right; eauto..]. Qed.
Lemma starts_app a b : one_talk a -> starts_with_send b -> starts_with_send (a ++ b).
Proof. intros [->|(bs & n & [->|(got & ->)])] B; [exact B|right; cbn; eauto..]. Qed.

Lemma step_kept u o w r w' : session_ok w -> user_memory u w -> op_ok u o -> step o w = (r, w') -> session_ok w' /\ user_memory u w' /\ one_frame u o w w'.
Proof.
  intros SO UM OK E. destruct (step_one u o w r w' SO UM OK E) as (RB & MK & WR & FI & OF & _).
  split; [eapply session_keeps; eassumption|]. split; [|exact OF]. eapply user_kept; eassumption.
Qed.

Lemma exec_grows u ops : forall w rs w', session_ok w -> user_memory u w -> Forall (op_ok u) ops -> exec ops w = (rs, w') ->
  session_ok w' /\ user_memory u w' /\ exists es, gained w w' es /\ starts_with_send (ctl_talk es).
Proof.
  induction ops as [|o ops IH]; intros w rs w' SO UM OK E.
  - injection E as <- <-. split; [exact SO|]. split; [exact UM|]. exists []. split; [unfold gained; rewrite app_nil_r; reflexivity|left; reflexivity].
  - inversion_clear OK as [|? ? O1 O2]. rewrite exec_cons in E. destruct (step o w) as [r w1] eqn:S.
    destruct (step_kept u o w r w1 SO UM O1 S) as (S1 & U1 & OF). pose proof OF as (e1 & G1 & _).
    assert (Stop : w' = w1 -> session_ok w' /\ user_memory u w' /\ exists es, gained w w' es /\ starts_with_send (ctl_talk es)).
    { intros ->. split; [exact S1|]. split; [exact U1|]. exists e1. split; [exact G1|]. apply talk_starts. eapply one_frame_talk; eassumption. }
    assert (Go : forall rs2, exec ops w1 = (rs2, w') -> session_ok w' /\ user_memory u w' /\ exists es, gained w w' es /\ starts_with_send (ctl_talk es)).
    { intros rs2 X. destruct (IH _ _ _ S1 U1 O2 X) as (S2 & U2 & e2 & G2 & H2). split; [exact S2|]. split; [exact U2|]. exists (e1 ++ e2).
      split; [unfold gained; rewrite G2, G1; symmetry; apply app_assoc|]. rewrite ctl_talk_app. apply starts_app; [eapply one_frame_talk; eassumption|exact H2]. }
    destruct r; try (destruct (exec ops w1) as [rs2 w2] eqn:X; injection E as <- <-; eapply Go; reflexivity); injection E as <- <-; apply Stop; reflexivity.
Qed.

Lemma exec_target u ops : forall w rs w' es t t', session_ok w -> user_memory u w -> Forall (op_ok u) ops -> Forall (fun o => ~ is_open_close o) ops ->
  exec ops w = (rs, w') -> gained w w' es -> agrees (w_se w) t -> numbers_ok (w_se w) -> conforms t (ctl_talk es) t' ->
  agrees (w_se w') t' /\ numbers_ok (w_se w') /\ forall k, Forall (fun o => ~ sets o k) ops -> tg_attr t' k = tg_attr t k.
Proof.
  induction ops as [|o ops IH]; intros w rs w' es t t' SO UM OK NO E G AG NU CO.
  - injection E as <- <-. unfold gained in G. rewrite <- (app_nil_r (w_net w)) in G at 1. apply app_inv_head in G. subst es. inversion CO; subst. auto.
  - inversion_clear OK as [|? ? O1 O2]. inversion_clear NO as [|? ? N1 N2]. rewrite exec_cons in E. destruct (step o w) as [r w1] eqn:S.
    destruct (step_kept u o w r w1 SO UM O1 S) as (S1 & U1 & OF). pose proof OF as (e1 & G1 & _).
    assert (Stop : w' = w1 -> agrees (w_se w') t' /\ numbers_ok (w_se w') /\ forall k, Forall (fun o => ~ sets o k) (o :: ops) -> tg_attr t' k = tg_attr t k).
    { intros ->. destruct (step_target u o w r w1 es t t' SO UM O1 N1 S G AG NU CO) as (A & B & C). split; [exact A|]. split; [exact B|].
      intros k Hk. inversion_clear Hk. auto. }
    assert (Go : forall rs2, exec ops w1 = (rs2, w') -> agrees (w_se w') t' /\ numbers_ok (w_se w') /\ forall k, Forall (fun o => ~ sets o k) (o :: ops) -> tg_attr t' k = tg_attr t k).
    { intros rs2 X. destruct (exec_grows u ops _ _ _ S1 U1 O2 X) as (_ & _ & e2 & G2 & H2).
      assert (Es : es = e1 ++ e2). { unfold gained in *. rewrite G2, G1, <- app_assoc in G. symmetry. exact (app_inv_head _ _ _ G). } subst es.
      rewrite ctl_talk_app in CO. apply conforms_split in CO; [|eapply one_frame_talk; eassumption|exact H2]. destruct CO as (t1 & C1 & C2).
      destruct (step_target u o w r w1 e1 t t1 SO UM O1 N1 S G1 AG NU C1) as (A & B & C).
      destruct (IH _ _ _ _ _ _ S1 U1 O2 N2 X G2 A B C2) as (A' & B' & C'). split; [exact A'|]. split; [exact B'|].
      intros k Hk. inversion_clear Hk. rewrite C' by assumption. apply C. assumption. }
    destruct r; try (destruct (exec ops w1) as [rs2 w2] eqn:X; injection E as <- <-; eapply Go; reflexivity); injection E as <- <-; apply Stop; reflexivity.
Qed.

(** ** Reading and writing attributes *)
Lemma get_target w k junk x y z v w' es t t' : rbuf_ok w -> x < 256 -> y < 256 -> z < 256 -> getSingleAttribute k junk x y z w = (Ret v, w') ->
  gained w w' es -> tg_session t = se_id (w_se w) -> conforms t (ctl_talk es) t' ->
  fits k v /\ exists rest, tg_attr t (x, y, z) = Some (le k v ++ rest).
Proof.
  intros RB X Y Z E G Id CO. destruct (get_attribute w k junk x y z RB X Y Z) as (o & w1 & E1 & EX & OU). rewrite E in E1. injection E1 as <- <-.
  destruct EX as (_ & _ & _ & _ & _ & Nt & _). rewrite (gained_app _ _ _ _ Nt G) in CO. apply conforms_events in CO.
  destruct CO as [[Q _]|(got & Q & S)]; rewrite Q in OU; [destruct OU; discriminate|]. rewrite <- Id in S. apply serves_get_inv in S; try assumption. rewrite Id in S.
  destruct OU as [(sv & ad & v' & rest & An & Fi & _ & Ev)|[(? & ? & ? & ? & _ & _ & B)|[(_ & B)|(_ & _ & ? & B)]]]; try discriminate.
  injection Ev as <-. split; [exact Fi|]. exists rest. destruct S as [_ [(sv' & a' & d & A & An')|(sv' & st & a' & d & Nz & An')]];
    destruct (answers_inj _ _ _ _ _ _ _ _ _ _ An An') as (_ & H & _ & H'); [|congruence]. rewrite H'. exact A.
Qed.

Lemma set_target w x y z d data w' es t t' : rbuf_ok w -> x < 256 -> y < 256 -> z < 256 -> carries_opt (w_mem w) d data ->
  setSingleAttributeSerializable x y z d w = (Ret tt, w') -> gained w w' es -> tg_session t = se_id (w_se w) -> conforms t (ctl_talk es) t' ->
  t' = put_attr (x, y, z) data t.
Proof.
  intros RB X Y Z CA E G Id CO. destruct (set_attribute w x y z d data RB X Y Z CA) as (o & w1 & E1 & EX & OU). rewrite E in E1. injection E1 as <- <-.
  destruct EX as (_ & _ & _ & _ & _ & Nt & _). rewrite (gained_app _ _ _ _ Nt G) in CO. apply conforms_events in CO.
  destruct CO as [[Q _]|(got & Q & S)]; rewrite Q in OU; [destruct OU; discriminate|]. rewrite <- Id in S. apply serves_set_inv in S; try assumption. rewrite Id in S.
  destruct S as [[-> _]|(_ & sv & st & a & q & Nz & An)]; [reflexivity|]. exfalso.
  destruct OU as [((sv' & a' & q' & An') & _)|[(_ & B)|(_ & _ & ? & B)]]; try discriminate.
  destruct (answers_inj _ _ _ _ _ _ _ _ _ _ An An') as (_ & H & _). congruence.
Qed.

Lemma ret_unit {A} (x : M A) w r w' : (do* x in mret RUnit) w = (Ret r, w') -> exists a, x w = (Ret a, w') /\ r = RUnit.
Proof. unfold mbind. destruct (x w) as [[a| | |] w1]; intros H; try discriminate. injection H as <- <-. eauto. Qed.

Lemma set_get u w x y z d data ops rs w1 k junk v w2 es t t' : session_ok w -> user_memory u w -> Forall (op_ok u) (OpSet x y z d :: ops) ->
  carries_opt u d data -> Forall (fun o => ~ is_open_close o) ops -> Forall (fun o => ~ sets o (x, y, z)) ops ->
  exec (OpSet x y z d :: ops) w = (Ret RUnit :: rs, w1) -> getSingleAttribute k junk x y z w1 = (Ret v, w2) ->
  gained w w2 es -> agrees (w_se w) t -> numbers_ok (w_se w) -> conforms t (ctl_talk es) t' ->
  fits k v /\ exists rest, data = le k v ++ rest.
Proof.
  intros SO UM OK CA NO NS E GE G AG NU CO. inversion_clear OK as [|? ? O1 O2]. rewrite exec_cons in E.
  destruct (step (OpSet x y z d) w) as [r wa] eqn:S. destruct r as [r|e s|ub|]; try discriminate; [|destruct (exec ops wa); discriminate].
  destruct (exec ops wa) as [rs' wb] eqn:X. injection E as -> <- <-.
  destruct (step_kept u _ w _ wa SO UM O1 S) as (S1 & U1 & OF). pose proof OF as (e1 & G1 & _).
  destruct (exec_grows u ops _ _ _ S1 U1 O2 X) as (S2 & U2 & e2 & G2 & H2).
  pose proof O1 as (Hx & Hy & Hz & _).
  destruct (get_attribute wb k junk x y z (proj1 S2) Hx Hy Hz) as (o & wc & E1 & EX & _). rewrite GE in E1. injection E1 as <- <-.
  destruct EX as (_ & _ & _ & _ & _ & G3 & _). set (e3 := events (w_ctl wb) (get_request (se_id (w_se wb)) x y z)) in *.
  assert (Es : es = e1 ++ e2 ++ e3). { unfold gained in *. rewrite G3, G2, G1, <- !app_assoc in G. symmetry. exact (app_inv_head _ _ _ G). } subst es.
  assert (T3 : starts_with_send (ctl_talk e3)). { apply talk_starts. unfold e3. destruct (ctl_talk_events (w_ctl wb) (get_request (se_id (w_se wb)) x y z)) as (n & H). right. eauto. }
  rewrite !ctl_talk_app in CO. apply conforms_split in CO; [|eapply one_frame_talk; eassumption|].
  2:{ destruct H2 as [->|(bs & n & l & ->)]; [exact T3|right; cbn; eauto]. }
  destruct CO as (t1 & C1 & C2).
  destruct (step_target u _ w _ wa e1 t t1 SO UM O1 (fun H => H) S G1 AG NU C1) as (A & B & _).
  assert (Q := S). apply ret_unit in Q. destruct Q as ([] & Q & _).
  assert (Et : t1 = put_attr (x, y, z) data t).
  { eapply set_target; [apply SO|eassumption..| |exact Q|exact G1|apply AG|exact C1]. eapply carries_opt_hext; [apply UM|exact CA]. }
  assert (C2' : exists t2, conforms t1 (ctl_talk e2) t2 /\ conforms t2 (ctl_talk e3) t').
  { clear - C2 X S1 U1 O2 G2 T3. revert wa rs' t1 e2 S1 U1 X G2 C2. induction ops as [|o ops IH]; intros.
    - injection X as <- <-. unfold gained in G2. rewrite <- (app_nil_r (w_net wa)) in G2 at 1. apply app_inv_head in G2. subst e2. exists t1. split; [constructor|exact C2].
    - inversion_clear O2 as [|? ? P1 P2]. rewrite exec_cons in X. destruct (step o wa) as [r w1] eqn:S.
      destruct (step_kept u o wa r w1 S1 U1 P1 S) as (S1' & U1' & OF). pose proof OF as (f1 & F1 & _).
      assert (Stop : wb = w1 -> exists t2, conforms t1 (ctl_talk e2) t2 /\ conforms t2 (ctl_talk e3) t').
      { intros ->. apply conforms_split; [eapply one_frame_talk; eassumption|exact T3|exact C2]. }
      assert (Go : forall rs2, exec ops w1 = (rs2, wb) -> exists t2, conforms t1 (ctl_talk e2) t2 /\ conforms t2 (ctl_talk e3) t').
      { intros rs2 Y. destruct (exec_grows u ops _ _ _ S1' U1' P2 Y) as (_ & _ & f2 & F2 & H2).
        assert (Es : e2 = f1 ++ f2). { unfold gained in *. rewrite F2, F1, <- app_assoc in G2. symmetry. exact (app_inv_head _ _ _ G2). } subst e2.
        rewrite ctl_talk_app, <- app_assoc in C2. apply conforms_split in C2; [|eapply one_frame_talk; eassumption|].
        2:{ destruct H2 as [->|(bs & n & l & ->)]; [exact T3|right; cbn; eauto]. }
        destruct C2 as (t2 & D1 & D2). destruct (IH P2 _ _ _ _ S1' U1' Y F2 D2) as (t3 & D3 & D4). exists t3. split; [|exact D4].
        rewrite ctl_talk_app. clear - D1 D3. induction D1; cbn; [exact D3|eapply conforms_exchange; [eassumption|auto]|apply conforms_unsent; auto]. }
      destruct r; try (destruct (exec ops w1) as [rs2 w2] eqn:Y; injection X as <- <-; eapply Go; reflexivity); injection X as <- <-; apply Stop; reflexivity. }
  destruct C2' as (t2 & D1 & D2).
  destruct (exec_target u ops _ _ _ _ _ _ S1 U1 O2 NO X G2 A B D1) as (A2 & B2 & At).
  destruct (get_target wb k junk x y z v w2 e3 t2 t' (proj1 S2) Hx Hy Hz GE G3 (proj1 (proj2 A2)) D2) as (Fi & rest & Ha).
  split; [exact Fi|]. exists rest. rewrite (At _ NS), Et in Ha. unfold put_attr in Ha. cbn [tg_attr] in Ha. destruct (triple_dec (x, y, z) (x, y, z)); [congruence|contradiction].
Qed.

Lemma set_raised w x y z d data o w' es t t' : rbuf_ok w -> x < 256 -> y < 256 -> z < 256 -> carries_opt (w_mem w) d data ->
  setSingleAttributeSerializable x y z d w = (o, w') -> ~ returned o -> gained w w' es -> tg_session t = se_id (w_se w) -> conforms t (ctl_talk es) t' -> t' = t.
Proof.
  intros RB X Y Z CA E NR G Id CO. destruct (set_attribute w x y z d data RB X Y Z CA) as (o1 & w1 & E1 & EX & OU). rewrite E in E1. injection E1 as <- <-.
  destruct EX as (_ & _ & _ & _ & _ & Nt & _). rewrite (gained_app _ _ _ _ Nt G) in CO. apply conforms_events in CO.
  destruct CO as [[_ ->]|(got & Q & S)]; [reflexivity|]. rewrite Q in OU. rewrite <- Id in S. apply serves_set_inv in S; try assumption. rewrite Id in S.
  destruct S as [(_ & sv & a & q & An)|(-> & _)]; [exfalso|reflexivity].
  destruct OU as [(_ & ->)|[(B & _)|(B & _)]]; [apply NR; exists tt; reflexivity|exact (answers_not_crash _ _ _ _ _ _ An B)|exact (B _ _ _ An)].
Qed.

(** ** Lost replies *)
Lemma lost_open w a b tg n : session_ok w -> ci_assembly a < 256 -> ci_assembly b < 256 -> agrees (w_se w) tg -> numbers_ok (w_se w) ->
  ~ In (se_next_sn (w_se w), se_vendor (w_se w), se_serial (w_se w)) (tg_conns tg) ->
  events (w_ctl w) (open_request (w_se w) a b) = [ESend Ctl (open_request (w_se w) a b) (Some n); ERecv Ctl None] ->
  exists got tg' s w', serves tg (open_request (w_se w) a b) got tg' /\ createConnection a b w = (Throw SystemError s, w') /\ ~ agrees (w_se w') tg'.
Proof.
  intros (RB & FI & _) X Y (Nz & Id & Cs) ((F1 & F2 & F3) & _) Ni Ev.
  destruct (create_connection w a b RB X Y) as (ro & w1 & E1 & EX & NB & OU). unfold create_outcome in OU.
  assert (Q : reply_of (w_ctl w) (open_request (w_se w) a b) = NoReply).
  { revert Ev. unfold events, reply_of, talk. destruct (sent _ _); [|discriminate]. destruct (so_recv (w_ctl w)) as [|[d|] r]; try discriminate. reflexivity. }
  rewrite Q in OU. destruct OU as [[s ->] Ec].
  exists (explicit_reply (se_id (w_se w)) 0xDB 0 (forward_open_reply 0 0 (se_next_sn (w_se w)) (se_vendor (w_se w)) (se_serial (w_se w)) 0 0 x00 [])).
  exists (with_conns (tg_conns tg ++ [(se_next_sn (w_se w), se_vendor (w_se w), se_serial (w_se w))]) tg), s, w1.
  split; [|split; [exact E1|]].
  - unfold open_request, open_message. rewrite <- Id. apply serves_open with (sv := 0xDB) (a := []) (d := forward_open_reply 0 0 (se_next_sn (w_se w)) (se_vendor (w_se w)) (se_serial (w_se w)) 0 0 x00 []) (o2t' := 0) (t2o' := 0) (oapi := 0) (tapi := 0).
    + exact Ni.
    + exists x00, [], []. rewrite app_nil_r. split; [|reflexivity]. repeat split; try assumption; reflexivity.
    + rewrite <- (app_nil_r (explicit_reply _ _ _ _)). rewrite Id. apply answers_reply; try assumption; try reflexivity.
  - intros (_ & _ & B). cbn in B. rewrite Ec, Cs in B. symmetry in B. apply (f_equal len) in B. rewrite len_app in B. cbn in B. unfold len in B. cbn [List.length] in B. lia.
Qed.

Lemma lost_close w i c tg n : session_ok w -> nth_error (se_conns (w_se w)) (N.to_nat i) = Some c -> agrees (w_se w) tg -> numbers_ok (w_se w) ->
  events (w_ctl w) (close_request (w_se w) c) = [ESend Ctl (close_request (w_se w) c) (Some n); ERecv Ctl None] ->
  exists got tg' s w', serves tg (close_request (w_se w) c) got tg' /\ closeConnection i w = (Throw SystemError s, w') /\ ~ agrees (w_se w') tg'.
Proof.
  intros (RB & FI & TK) Hn (Nz & Id & Cs) (_ & KF & _) Ev.
  assert (Tc : cn_tick_size c < 256 /\ cn_ticks c < 256) by (rewrite Forall_forall in TK; apply TK; eapply nth_error_In; exact Hn).
  assert (Kc : key_fits (conn_key c)) by (rewrite Forall_forall in KF; apply KF; eapply nth_error_In; exact Hn). destruct Kc as (F1 & F2 & F3).
  destruct (close_connection w i c RB Hn (proj1 Tc) (proj2 Tc)) as (ro & w1 & E1 & EX & OU). unfold drop_conn_outcome in OU.
  assert (Q : reply_of (w_ctl w) (close_request (w_se w) c) = NoReply).
  { revert Ev. unfold events, reply_of, talk. destruct (sent _ _); [|discriminate]. destruct (so_recv (w_ctl w)) as [|[d|] r]; try discriminate. reflexivity. }
  rewrite Q in OU. destruct OU as [[s ->] Ec].
  assert (I : In (conn_key c) (tg_conns tg)). { rewrite <- Cs. apply in_map. eapply nth_error_In. exact Hn. }
  exists (explicit_reply (se_id (w_se w)) 0xCE 0 (forward_close_reply (cn_sn c) (cn_vendor c) (cn_orig_sn c) x00 [])).
  exists (with_conns (remove triple_dec (conn_key c) (tg_conns tg)) tg), s, w1.
  split; [|split; [exact E1|]].
  - unfold close_request. rewrite <- Id. apply serves_close with (sv := 0xCE) (a := []) (d := forward_close_reply (cn_sn c) (cn_vendor c) (cn_orig_sn c) x00 []).
    + exact I.
    + exists x00, [], []. rewrite app_nil_r. split; [|reflexivity]. repeat split; try assumption; reflexivity.
    + rewrite <- (app_nil_r (explicit_reply _ _ _ _)). rewrite Id. apply answers_reply; try assumption; try reflexivity.
  - intros (_ & _ & B). cbn in B. rewrite Ec, Cs in B. apply (remove_In triple_dec (tg_conns tg) (conn_key c)). rewrite <- B. exact I.
Qed.

(** ** A conversation *)
Definition no_attrs : N * N * N -> option (list byte) := fun _ => None.
Definition tg9 : target := mkTarget 9 no_attrs [].
Lemma agrees_w9 c i : agrees (w_se (w9 c i)) tg9.
Proof. split; [discriminate|]. split; reflexivity. Qed.
Lemma numbers_w9 c i : numbers_ok (w_se (w9 c i)).
Proof. split; [repeat split; reflexivity|]. split; [constructor|constructor]. Qed.

Definition chat_ops : list op := [OpSet 1 2 3 (Some (prim_ser 2 513)); OpCreate ci0 ci0; OpSet 1 2 4 (Some (prim_ser 2 7)); OpCreate ci0 ci0; OpCloseConnection 0].
Definition chat_world : world :=
  w9 [RxData (explicit_reply 9 0x90 0 []); RxData (fo_reply 7); RxData (explicit_reply 9 0x90 8 []); RxData (fo_reply 8); RxData (fc_reply 7);
      RxData (explicit_reply 9 0x8E 0 (le 2 513))] [].
Definition chat_rest : list event :=
  [ESend Ctl (open_request (mkSess 9 0x195 0x4321 7 100 []) ci0 ci0) (Some 94); ERecv Ctl (Some (fo_reply 7));
   ESend Ctl (set_request 9 1 2 4 (le 2 7)) (Some 50); ERecv Ctl (Some (explicit_reply 9 0x90 8 []));
   ESend Ctl (open_request (mkSess 9 0x195 0x4321 8 102 []) ci0 ci0) (Some 94); ERecv Ctl (Some (fo_reply 8));
   ESend Ctl (request 0x6F 9 (rr_request 0x4E manager_path (forward_close 6 80 7 0x195 0x4321 [SClass 2; SInstance 1]))) (Some 62); ERecv Ctl (Some (fc_reply 7))].
Definition chat_set : list event := [ESend Ctl (set_request 9 1 2 3 (le 2 513)) (Some 50); ERecv Ctl (Some (explicit_reply 9 0x90 0 []))].
Definition chat_get : list event := [ESend Ctl (get_request 9 1 2 3) (Some 48); ERecv Ctl (Some (explicit_reply 9 0x8E 0 (le 2 513)))].
Lemma answers_9 sv st d : sv < 256 -> st < 256 -> len d < 60000 -> answers 9 (explicit_reply 9 sv st d) sv st [] d.
Proof. intros A B C. rewrite <- (app_nil_r (explicit_reply _ _ _ _)). apply answers_reply; try assumption; [reflexivity|discriminate]. Qed.
Lemma opened_reply sn : fits 2 sn -> fits 4 (100 + sn) -> fits 4 (200 + sn) ->
  opened (forward_open_reply (100 + sn) (200 + sn) sn 0x195 0x4321 1000 2000 x00 []) (100 + sn) (200 + sn) sn 0x195 0x4321 1000 2000.
Proof. intros A B C. exists x00, [], []. rewrite app_nil_r. split; [|reflexivity]. repeat split; try assumption; reflexivity. Qed.
Lemma serves_open_at tg s o t sv a d o2t t2o oapi tapi got : tg_session tg = se_id s -> ~ In (se_next_sn s, se_vendor s, se_serial s) (tg_conns tg) ->
  opened d o2t t2o (se_next_sn s) (se_vendor s) (se_serial s) oapi tapi -> answers (se_id s) got sv 0 a d ->
  serves tg (open_request s o t) got (with_conns (tg_conns tg ++ [(se_next_sn s, se_vendor s, se_serial s)]) tg).
Proof. intros I N O A. unfold open_request, open_message. rewrite <- I in *. eapply serves_open; eassumption. Qed.
Definition tg_a : target := put_attr (1, 2, 3) (le 2 513) tg9.
Definition tg_b : target := with_conns [(7, 0x195, 0x4321)] tg_a.
Definition tg_c : target := with_conns [(7, 0x195, 0x4321); (8, 0x195, 0x4321)] tg_b.
Definition tg_d : target := with_conns [(8, 0x195, 0x4321)] tg_c.
Lemma conforms_sent t bs n got t1 es t' : n = len bs -> serves t bs got t1 -> conforms t1 es t' ->
  conforms t (ESend Ctl bs (Some n) :: ERecv Ctl (Some got) :: es) t'.
Proof. intros ->. apply conforms_exchange. Qed.
Lemma chat_1 es t' : conforms tg_a es t' -> conforms tg9 (chat_set ++ es) t'.
Proof.
  intros C. apply (conforms_sent _ _ _ _ tg_a); [vm_compute; reflexivity| |exact C].
  apply (serves_set tg9 1 2 3 (le 2 513) 0x90 [] []); try reflexivity. apply (answers_9 0x90 0 []); reflexivity.
Qed.
Lemma chat_2 es t' : conforms tg_d es t' -> conforms tg_a (chat_rest ++ es) t'.
Proof.
  intros C. unfold chat_rest. cbn [app].
  apply (conforms_sent _ _ _ _ tg_b); [vm_compute; reflexivity| |].
  { apply (serves_open_at tg_a (mkSess 9 0x195 0x4321 7 100 []) ci0 ci0 0xDB [] (forward_open_reply (100 + 7) (200 + 7) 7 0x195 0x4321 1000 2000 x00 []) (100 + 7) (200 + 7) 1000 2000);
      [reflexivity|intros []|apply (opened_reply 7); reflexivity|apply (answers_9 0xDB 0); reflexivity]. }
  apply (conforms_sent _ _ _ _ tg_b); [vm_compute; reflexivity| |].
  { apply (serves_refuse tg_b _ 0x90 8 [] []); [discriminate|]. apply (answers_9 0x90 8 []); reflexivity. }
  apply (conforms_sent _ _ _ _ tg_c); [vm_compute; reflexivity| |].
  { apply (serves_open_at tg_b (mkSess 9 0x195 0x4321 8 102 []) ci0 ci0 0xDB [] (forward_open_reply (100 + 8) (200 + 8) 8 0x195 0x4321 1000 2000 x00 []) (100 + 8) (200 + 8) 1000 2000);
      [reflexivity|intros [H|[]]; discriminate H|apply (opened_reply 8); reflexivity|apply (answers_9 0xDB 0); reflexivity]. }
  apply (conforms_sent _ _ _ _ tg_d); [vm_compute; reflexivity| |exact C].
  apply (serves_close tg_c 6 80 7 0x195 0x4321 [SClass 2; SInstance 1] 0xCE [] (forward_close_reply 7 0x195 0x4321 x00 [])); [left; reflexivity| |apply (answers_9 0xCE 0); reflexivity].
  exists x00, [], []. rewrite app_nil_r. split; [|reflexivity]. repeat split; reflexivity.
Qed.
Lemma chat : conforms tg9 (chat_set ++ chat_rest ++ chat_get) tg_d /\ conforms tg9 (chat_set ++ chat_rest) tg_d.
Proof.
  split; apply chat_1; [|rewrite <- (app_nil_r chat_rest)]; apply chat_2; [|constructor].
  apply (conforms_sent _ _ _ _ tg_d); [vm_compute; reflexivity| |constructor].
  apply (serves_get tg_d 1 2 3 0x8E [] (le 2 513)); try reflexivity. apply (answers_9 0x8E 0); reflexivity.
Qed.
Lemma chat_runs : exists rs w1 w2, exec chat_ops chat_world = (rs, w1) /\
  (exists s, rs = [Ret RUnit; Ret (RNumber 0); Throw RuntimeError s; Ret (RNumber 1); Ret RUnit]) /\
  getSingleAttribute 2 0 1 2 3 w1 = (Ret 513, w2) /\ gained chat_world w2 (chat_set ++ chat_rest ++ chat_get) /\
  gained chat_world w1 (chat_set ++ chat_rest).
Proof.
  do 3 eexists. split; [vm_compute; reflexivity|]. split; [eexists; vm_compute; reflexivity|]. split; [vm_compute; reflexivity|]. split; vm_compute; reflexivity.
Qed.
Lemma chat_ops_ok : Forall (op_ok []) chat_ops /\ Forall (fun o => ~ is_open_close o) chat_ops.
Proof.
  split; unfold chat_ops.
  - constructor; [repeat split; try reflexivity; exists (le 2 513); split; [exact (carries_prim _ 2 513)|reflexivity]|].
    constructor; [split; reflexivity|]. constructor; [repeat split; try reflexivity; exists (le 2 7); split; [exact (carries_prim _ 2 7)|reflexivity]|].
    constructor; [split; reflexivity|]. constructor; [exact Logic.I|constructor].
  - repeat constructor; intros [].
Qed.
