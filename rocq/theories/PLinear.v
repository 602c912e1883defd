(** * PLinear: calls that overlap in time (C122). *)
From Verif Require Import PSession2 PSession3 PTarget.
From Verif Require Export Vocab27 PGuests.
Local Open Scope N_scope.

(** ** Traffic that does not concern the target *)
Lemma meets_app a : forall n l l1 b l2, (List.length a <= n)%nat -> meets l a l1 -> meets l1 b l2 -> meets l (a ++ b) l2.
Proof.
  intros n. revert a. induction n as [|n IH]; intros a l l1 b l2 L H B.
  - destruct a; [|cbn in L; lia]. apply meets_none in H. subst. exact B.
  - inversion H as [l0|l0 hh p es' l' M|l0 hh p es' l' M|l0 hh q es' l' Io M|l0 hh q es' l' M|l0 es' l' M|l0 es' l' M|l0 k es' l' M|
      l0 bs body got t1 es' l' E Up Nz Fi Sv M|l0 bs id body got es' l' E Up Fi D R M|l0 bs id op got es' l' E Up Z Nz R M|l0 bs pl got es' l' E Up R M|l0 bs id es' l' E Up Fi M|l0 bs es' l' M]; subst;
      cbn [List.length] in L; cbn [List.app].
    + exact B.
    + apply meets_dial. eapply IH; [|exact M|exact B]. lia.
    + apply meets_no_dial. destruct M as [M|M]; [left|right]; (eapply IH; [|exact M|exact B]; lia).
    + apply meets_io; [exact Io|]. eapply IH; [|exact M|exact B]. lia.
    + apply meets_no_io. destruct M as [M|M]; [left|right]; (eapply IH; [|exact M|exact B]; lia).
    + apply meets_hang_up. eapply IH; [|exact M|exact B]. lia.
    + apply meets_io_shut. eapply IH; [|exact M|exact B]. lia.
    + apply meets_no_shut. eapply IH; [|exact M|exact B]. lia.
    + eapply meets_served; try eassumption; [reflexivity|]. eapply IH; [|exact M|exact B]. lia.
    + eapply meets_unknown; try eassumption; [reflexivity|]. eapply IH; [|exact M|exact B]. lia.
    + eapply meets_registered; try eassumption; [reflexivity|]. eapply IH; [|exact M|exact B]. lia.
    + eapply meets_turned_away; try eassumption; [reflexivity|]. eapply IH; [|exact M|exact B]. lia.
    + eapply meets_bye; try eassumption; [reflexivity|]. eapply IH; [|exact M|exact B]. lia.
    + apply meets_unsent. eapply IH; [|exact M|exact B]. lia.
Qed.
Lemma meets_anywhere n : forall es l1 s up io h, (List.length es <= n)%nat -> Forall unasked es -> meets (line_to s up io h) es l1 ->
  exists up1 io1 h1, l1 = line_to s up1 io1 h1 /\ forall s2, meets (line_to s2 up io h) es (line_to s2 up1 io1 h1).
Proof.
  induction n as [|n IH]; intros es l1 s up io h L F H.
  - destruct es; [|cbn in L; lia]. apply meets_none in H. subst. exists up, io, h. split; [reflexivity|]. intros. constructor.
  - inversion H as [l|l a p es' l' M|l a p es' l' M|l a q es' l' Io M|l a q es' l' M|l es' l' M|l es' l' M|l k es' l' M|
      l bs body got t1 es' l' E Up Nz Fi Sv M|l bs id body got es' l' E Up Fi D R M|l bs id op got es' l' E Up Z Nz R M|l bs pl got es' l' E Up R M|l bs id es' l' E Up Fi M|l bs es' l' M]; subst;
      inversion F as [|? ? F1 F2]; subst; cbn [List.length] in L.
    + exists up, io, h. split; [reflexivity|]. intros. constructor.
    + destruct (IH es' l1 s true io 0 ltac:(lia) F2 M) as (u1 & i1 & h1 & -> & H1). exists u1, i1, h1. split; [reflexivity|]. intros cs. apply meets_dial. apply H1.
    + destruct M as [M|M].
      * destruct (IH es' l1 s up io h ltac:(lia) F2 M) as (u1 & i1 & h1 & -> & H1). exists u1, i1, h1. split; [reflexivity|]. intros cs. apply meets_no_dial. left. apply H1.
      * destruct (IH es' l1 s false io 0 ltac:(lia) F2 M) as (u1 & i1 & h1 & -> & H1). exists u1, i1, h1. split; [reflexivity|]. intros cs. apply meets_no_dial. right. apply H1.
    + destruct (IH es' l1 s up true h ltac:(lia) F2 M) as (u1 & i1 & h1 & -> & H1). exists u1, i1, h1. split; [reflexivity|]. intros cs. apply meets_io; [exact Io|]. apply H1.
    + destruct M as [M|M].
      * destruct (IH es' l1 s up io h ltac:(lia) F2 M) as (u1 & i1 & h1 & -> & H1). exists u1, i1, h1. split; [reflexivity|]. intros cs. apply meets_no_io. left. apply H1.
      * destruct (IH es' l1 s up true h ltac:(lia) F2 M) as (u1 & i1 & h1 & -> & H1). exists u1, i1, h1. split; [reflexivity|]. intros cs. apply meets_no_io. right. apply H1.
    + destruct (IH es' l1 s false io 0 ltac:(lia) F2 M) as (u1 & i1 & h1 & -> & H1). exists u1, i1, h1. split; [reflexivity|]. intros cs. apply meets_hang_up. apply H1.
    + destruct (IH es' l1 s up false h ltac:(lia) F2 M) as (u1 & i1 & h1 & -> & H1). exists u1, i1, h1. split; [reflexivity|]. intros cs. apply meets_io_shut. apply H1.
    + destruct (IH es' l1 s up io h ltac:(lia) F2 M) as (u1 & i1 & h1 & -> & H1). exists u1, i1, h1. split; [reflexivity|]. intros cs. apply meets_no_shut. apply H1.
    + exfalso. exact (F1 _ _ eq_refl).
    + exfalso. exact (F1 _ _ eq_refl).
    + inversion F2 as [|? ? _ F3]; subst. cbn [List.length] in L.
      destruct (IH es' l1 s up io id ltac:(lia) F3 M) as (u1 & i1 & h1 & -> & H1). exists u1, i1, h1. split; [reflexivity|]. intros cs. eapply meets_registered; try eassumption; [reflexivity|]. apply H1.
    + inversion F2 as [|? ? _ F3]; subst. cbn [List.length] in L.
      destruct (IH es' l1 s up io h ltac:(lia) F3 M) as (u1 & i1 & h1 & -> & H1). exists u1, i1, h1. split; [reflexivity|]. intros cs. eapply meets_turned_away; try eassumption; [reflexivity|]. apply H1.
    + destruct (IH es' l1 s up io (if id =? h then 0 else h) ltac:(lia) F2 M) as (u1 & i1 & h1 & -> & H1). exists u1, i1, h1. split; [reflexivity|]. intros cs.
      eapply meets_bye; try eassumption; [reflexivity|]. apply H1.
    + destruct (IH es' l1 s up io h ltac:(lia) F2 M) as (u1 & i1 & h1 & -> & H1). exists u1, i1, h1. split; [reflexivity|]. intros cs. apply meets_unsent. apply H1.
Qed.

(** ** The traffic of a call: one request, or nothing of the kind *)
Definition one_request (es : list event) : Prop := exists k id body, es = events k (request 0x6F id body).
Lemma request_whole k id body a b l l1 : events k (request 0x6F id body) = a ++ b -> meets l a l1 -> a = [] \/ b = [].
Proof.
  intros E M. destruct a as [|x a]; [left; reflexivity|]. right. destruct b as [|y b]; [reflexivity|]. exfalso. revert E. unfold events, talk.
  assert (N1 : forall n a0, meets l (ESend Ctl (request 0x6F id body) (Some n) :: a0) l1 -> a0 <> []).
  { intros n a0 H Z. subst a0. inversion H; subst. eapply not_unregister. eassumption. }
  destruct (sent k (request 0x6F id body)) as [n|].
  - destruct (so_recv k) as [|[d|] r]; cbn [fst snd List.app]; intros E; injection E as <- E.
    + destruct a; discriminate E.
    + destruct a as [|z a]; [exact (N1 _ _ M eq_refl)|]. destruct a; discriminate E.
    + destruct a as [|z a]; [exact (N1 _ _ M eq_refl)|]. destruct a; discriminate E.
  - cbn [fst snd]. intros E. injection E as <- E. destruct a; discriminate E.
Qed.
Lemma request_some k bs : events k bs <> [].
Proof. unfold events, talk. destruct (sent k bs) as [n|]; [destruct (so_recv k) as [|[d|] r]|]; discriminate. Qed.
Lemma call_traffic u e w o w1 es : session_ok w -> user_memory u w -> errand_ok u e -> carry e w = (o, w1) -> gained w w1 es -> Forall unasked es \/ one_request es.
Proof.
  intros SO UM OK E G. destruct e as [a|hn p q|].
  - cbn [carry errand_ok] in *. destruct (perform_other u a w o w1 SO UM OK E) as [(n & -> & Hn & -> & ->)|(body & Nt & Hn & _ & _)].
    + left. assert (es = []) as ->; [|constructor]. unfold gained in G. symmetry. apply (app_inv_head (w_net w)). rewrite app_nil_r. exact G.
    + right. rewrite (gained_app _ _ _ _ Nt G). exists (w_ctl w), (se_id (w_se w)), body. reflexivity.
  - left. cbn [carry] in E. unfold mbind in E. destruct (session_open hn p q w) as [ro w2] eqn:E1.
    assert (w2 = w1) as -> by (destruct ro; apply pair_equal_spec in E; apply E). eapply unasked_open; [apply SO|exact E1|exact G].
  - left. cbn [carry] in E. unfold mbind in E. destruct (session_close w) as [ro w2] eqn:E1.
    assert (w2 = w1) as -> by (destruct ro; apply pair_equal_spec in E; apply E). eapply unasked_close; [apply SO|exact E1|exact G].
Qed.

(** ** Sequential runs grow at the end *)
Lemma gathering_snoc s gs l s1 gs1 i u e next w up io h o w1 es s2 up1 io1 h1 : gathering s gs l s1 gs1 ->
  nth_error gs1 i = Some (mkGuest u (Then e next) w up io h) -> carry e w = (o, w1) -> gained w w1 es -> meets (line_to s1 up io h) es (line_to s2 up1 io1 h1) ->
  gathering s gs (l ++ [(i, e, o)]) s2 (list_set gs1 i (mkGuest u (next_of next o) w1 up1 io1 h1)).
Proof.
  induction 1 as [s gs|s gs j u' e' next' w' up' io' h' o' w1' es' s1' up1' io1' h1' l s' gs' Hj P G M J IH]; intros Hi C Ga Me.
  - cbn [app]. eapply gathering_call; try eassumption. constructor.
  - cbn [app]. eapply gathering_call; try eassumption. apply IH; assumption.
Qed.

(** ** The order in which calls take effect *)
Definition tickets (l : order) : list nat := map fst l.
Definition tracks (l : order) (i : nat) (q : guest) (p : guest * option pending) : Prop :=
  match p with
  | (g, None) => q = g
  | (g, Some b) =>
      let '(mkGuest u c w up io h) := g in
      exists e next es, c = Then e next /\ carry e w = (pe_result b, pe_world b) /\ gained w (pe_world b) es /\
       ((Forall unasked es /\ ~ In (pe_ticket b) (tickets l) /\ exists up0 io0 h0 done, q = mkGuest u c w up0 io0 h0 /\ es = done ++ pe_rest b /\
           forall s2, meets (line_to s2 up0 io0 h0) done (line_to s2 up io h)) \/
        (one_request es /\ ~ In (pe_ticket b) (tickets l) /\ pe_rest b = es /\ q = g) \/
        (pe_rest b = [] /\ q = mkGuest u (next_of next (pe_result b)) (pe_world b) up io h /\ In (pe_ticket b, (i, e, pe_result b)) l))
  end.
Definition ticket_of (p : guest * option pending) : option nat := match snd p with Some b => Some (pe_ticket b) | None => None end.
Definition making (p : guest * option pending) (e : errand) : Prop := exists b next, snd p = Some b /\ gs_story (fst p) = Then e next.
Record ordered (s0 : server) (gs0 : list guest) (tr : list mark) (a : hall) (l : order) (qs : list guest) : Prop := mkOrdered {
  od_run : gathering s0 gs0 (map snd l) (ha_server a) qs;
  od_len : List.length qs = List.length (ha_guests a);
  od_tracks : forall i q p, nth_error qs i = Some q -> nth_error (ha_guests a) i = Some p -> tracks l i q p;
  od_below : forall k, In k (tickets l) -> (k < ha_next a)%nat;
  od_pending : forall i p k, nth_error (ha_guests a) i = Some p -> ticket_of p = Some k -> (k < ha_next a)%nat /\ forall e, making p e -> In (Begins k i e) tr;
  od_apart : forall i j p q k, nth_error (ha_guests a) i = Some p -> nth_error (ha_guests a) j = Some q -> ticket_of p = Some k -> ticket_of q = Some k -> i = j;
  od_account : accounts_for tr l;
  od_time : in_real_time tr l }.

Lemma tickets_snoc l k c : tickets (l ++ [(k, c)]) = tickets l ++ [k].
Proof. unfold tickets. rewrite map_app. reflexivity. Qed.
Lemma account_ends tr l k i e o : accounts_for tr l -> In (Ends k i e o) tr -> In k (tickets l).
Proof. intros (_ & A & _) H. apply A in H. apply (in_map fst) in H. exact H. Qed.
Lemma NoDup_snoc {A} (l : list A) x : NoDup l -> ~ In x l -> NoDup (l ++ [x]).
Proof.
  induction l as [|y l IH]; intros D N; cbn [app]; [constructor; [intros []|constructor]|]. inversion D; subst. constructor.
  - rewrite in_app_iff. intros [H|[H|[]]]; [contradiction|]. apply N. left. symmetry. exact H.
  - apply IH; [assumption|]. intros H. apply N. right. exact H.
Qed.
Lemma account_snoc tr l k i e o : accounts_for tr l -> ~ In k (tickets l) -> In (Begins k i e) tr -> accounts_for tr (l ++ [(k, (i, e, o))]).
Proof.
  intros (D & A & B) N H. split; [|split].
  - change (NoDup (tickets (l ++ [(k, (i, e, o))]))). rewrite tickets_snoc. apply NoDup_snoc; [exact D|exact N].
  - intros k1 i1 e1 o1 H1. apply in_or_app. left. apply A. exact H1.
  - intros k1 i1 e1 o1 H1. apply in_app_or in H1. destruct H1 as [H1|[H1|[]]]; [eapply B; exact H1|]. injection H1 as <- <- <- <-. exact H.
Qed.
Lemma time_snoc tr l k c : accounts_for tr l -> in_real_time tr l -> ~ In k (tickets l) -> in_real_time tr (l ++ [(k, c)]).
Proof.
  intros A T N t1 k1 i e o t2 k' j e' E B I1. change (map fst (l ++ [(k, c)])) with (tickets (l ++ [(k, c)])) in I1. rewrite tickets_snoc in I1.
  unfold comes_before. change (map fst (l ++ [(k, c)])) with (tickets (l ++ [(k, c)])). rewrite tickets_snoc. apply in_app_or in I1. destruct I1 as [I1|[<-|[]]].
  - destruct (T _ _ _ _ _ _ _ _ _ E B I1) as (l1 & l2 & E2 & H1 & H2). exists l1, (l2 ++ [k]). split; [unfold tickets; rewrite E2; apply app_assoc_reverse|]. split; [exact H1|]. apply in_or_app. left. exact H2.
  - exists (tickets l), [k]. split; [reflexivity|]. split; [|left; reflexivity]. eapply account_ends; [exact A|]. rewrite E. apply in_or_app. right. left. reflexivity.
Qed.
Lemma time_mark tr l m : in_real_time tr l -> (forall k i e, m = Begins k i e -> ~ In k (tickets l)) -> in_real_time (tr ++ [m]) l.
Proof.
  intros T N t1 k i e o t2 k' j e' E B I1. destruct t2 as [|x t2] using rev_ind; [destruct B|]. clear IHt2.
  rewrite app_comm_cons, app_assoc in E. apply app_inj_tail in E. destruct E as [E ->]. apply in_app_or in B. destruct B as [B|[B|[]]]; [eapply T; eassumption|].
  exfalso. exact (N _ _ _ B I1).
Qed.
Lemma tracks_snoc l i q p k c : tracks l i q p -> ticket_of p <> Some k -> tracks (l ++ [(k, c)]) i q p.
Proof.
  destruct p as [[u st w up io h] [b|]]; [|exact (fun H _ => H)]. intros (e & next & es & C & E & G & H) N. exists e, next, es. split; [exact C|]. split; [exact E|]. split; [exact G|].
  assert (N2 : ~ In (pe_ticket b) (tickets l) -> ~ In (pe_ticket b) (tickets (l ++ [(k, c)]))).
  { intros H1. rewrite tickets_snoc, in_app_iff. intros [H2|[H2|[]]]; [exact (H1 H2)|]. apply N. cbn. rewrite H2. reflexivity. }
  destruct H as [(F & M & R)|[(F & M & R)|(F & M & R)]].
  - left. split; [exact F|]. split; [exact (N2 M)|exact R].
  - right. left. split; [exact F|]. split; [exact (N2 M)|exact R].
  - right. right. split; [exact F|]. split; [exact M|]. apply in_or_app. left. exact R.
Qed.

Lemma ordered_set s0 gs0 tr s gs k l qs i p q p' : ordered s0 gs0 tr (mkHall s gs k) l qs -> nth_error gs i = Some p -> nth_error qs i = Some q -> tracks l i q p' ->
  ticket_of p' = ticket_of p -> (forall e, making p' e -> making p e) -> ordered s0 gs0 tr (mkHall s (list_set gs i p') k) l qs.
Proof.
  intros [Run Len Tr Be Pe Ap Ac Ti] Hp Hq T K Mk. cbn [ha_server ha_guests ha_next] in *. assert (Li : (i < List.length gs)%nat) by (apply nth_error_Some; congruence).
  assert (At : forall j p1, nth_error (list_set gs i p') j = Some p1 -> (j = i /\ p1 = p') \/ (j <> i /\ nth_error gs j = Some p1)).
  { intros j p1 H. destruct (PeanoNat.Nat.eq_dec i j) as [<-|Ne]; [rewrite nth_error_set_same in H by exact Li; injection H as <-; auto|]. rewrite nth_error_set_other in H by exact Ne. auto. }
  constructor; cbn [ha_server ha_guests ha_next]; auto.
  - rewrite length_list_set. exact Len.
  - intros j q1 p1 Q1 P1. destruct (At _ _ P1) as [[-> ->]|[_ P2]]; [rewrite Hq in Q1; injection Q1 as <-; exact T|exact (Tr _ _ _ Q1 P2)].
  - intros j p1 k1 P1 K1. destruct (At _ _ P1) as [[-> ->]|[_ P2]]; [|exact (Pe _ _ _ P2 K1)]. rewrite K in K1. destruct (Pe _ _ _ Hp K1) as [L1 L2]. split; [exact L1|]. intros e M. apply L2, Mk, M.
  - intros j1 j2 p1 p2 k1 P1 P2 K1 K2. destruct (At _ _ P1) as [[-> ->]|[N1 P3]]; destruct (At _ _ P2) as [[-> ->]|[N2 P4]]; try reflexivity.
    + rewrite K in K1. exact (Ap _ _ _ _ _ Hp P4 K1 K2).
    + rewrite K in K2. exact (Ap _ _ _ _ _ P3 Hp K1 K2).
    + exact (Ap _ _ _ _ _ P3 P4 K1 K2).
Qed.
(** A call takes effect. *)
Lemma ordered_effect s0 gs0 tr s gs k l qs i u e next w up io h n o w1 es up0 io0 h0 s1 up1 io1 h1 rest : ordered s0 gs0 tr (mkHall s gs k) l qs ->
  nth_error gs i = Some (mkGuest u (Then e next) w up io h, Some (mkPending n o w1 rest)) -> nth_error qs i = Some (mkGuest u (Then e next) w up0 io0 h0) ->
  carry e w = (o, w1) -> gained w w1 es -> ~ In n (tickets l) -> meets (line_to s up0 io0 h0) es (line_to s1 up1 io1 h1) ->
  ordered s0 gs0 tr (mkHall s1 (list_set gs i (mkGuest u (Then e next) w up1 io1 h1, Some (mkPending n o w1 []))) k) (l ++ [(n, (i, e, o))]) (list_set qs i (mkGuest u (next_of next o) w1 up1 io1 h1)).
Proof.
  intros [Run Len Tr Be Pe Ap Ac Ti] Hp Hq C G N M. cbn [ha_server ha_guests ha_next] in *. assert (Li : (i < List.length gs)%nat) by (apply nth_error_Some; congruence).
  assert (Lq : (i < List.length qs)%nat) by (rewrite Len; exact Li).
  set (p' := (mkGuest u (Then e next) w up1 io1 h1, Some (mkPending n o w1 []))).
  assert (At : forall j p1, nth_error (list_set gs i p') j = Some p1 -> (j = i /\ p1 = p') \/ (j <> i /\ nth_error gs j = Some p1)).
  { intros j p1 H. destruct (PeanoNat.Nat.eq_dec i j) as [<-|Ne]; [rewrite nth_error_set_same in H by exact Li; injection H as <-; auto|]. rewrite nth_error_set_other in H by exact Ne. auto. }
  destruct (Pe _ _ n Hp eq_refl) as [Ln Bn].
  constructor; cbn [ha_server ha_guests ha_next].
  - rewrite map_app. cbn [map snd]. eapply gathering_snoc; eassumption.
  - rewrite !length_list_set. exact Len.
  - intros j q1 p1 Q1 P1. destruct (At _ _ P1) as [[-> ->]|[Ne P2]].
    + rewrite nth_error_set_same in Q1 by exact Lq. injection Q1 as <-. exists e, next, es. cbn [pe_result pe_world pe_rest pe_ticket]. split; [reflexivity|]. split; [exact C|]. split; [exact G|].
      right. right. split; [reflexivity|]. split; [reflexivity|]. apply in_or_app. right. left. reflexivity.
    + rewrite nth_error_set_other in Q1 by congruence. apply tracks_snoc; [exact (Tr _ _ _ Q1 P2)|]. intros K. apply Ne. exact (Ap _ _ _ _ _ P2 Hp K eq_refl).
  - intros k1 H. rewrite tickets_snoc in H. apply in_app_or in H. destruct H as [H|[<-|[]]]; [exact (Be _ H)|exact Ln].
  - intros j p1 k1 P1 K1. destruct (At _ _ P1) as [[-> ->]|[_ P2]]; [|exact (Pe _ _ _ P2 K1)]. injection K1 as <-. split; [exact Ln|].
    intros e1 (b & nx & Eb & Es). injection Es as <- _. apply Bn. eexists _, next. split; reflexivity.
  - intros j1 j2 p1 p2 k1 P1 P2 K1 K2. destruct (At _ _ P1) as [[-> ->]|[N1 P3]]; destruct (At _ _ P2) as [[-> ->]|[N2 P4]]; try reflexivity.
    + exact (Ap _ _ _ _ k1 Hp P4 K1 K2).
    + exact (Ap _ _ _ _ k1 P3 Hp K1 K2).
    + exact (Ap _ _ _ _ k1 P3 P4 K1 K2).
  - apply account_snoc; [exact Ac|exact N|]. apply Bn. eexists _, next. split; reflexivity.
  - apply time_snoc; assumption.
Qed.
(** A call that took effect returns. *)
Lemma ordered_return s0 gs0 tr s gs k l qs i u e next w up io h n o w1 : ordered s0 gs0 tr (mkHall s gs k) l qs ->
  nth_error gs i = Some (mkGuest u (Then e next) w up io h, Some (mkPending n o w1 [])) -> nth_error qs i = Some (mkGuest u (next_of next o) w1 up io h) -> In (n, (i, e, o)) l ->
  ordered s0 gs0 (tr ++ [Ends n i e o]) (mkHall s (list_set gs i (mkGuest u (next_of next o) w1 up io h, None)) k) l qs.
Proof.
  intros [Run Len Tr Be Pe Ap Ac Ti] Hp Hq I1. cbn [ha_server ha_guests ha_next] in *. assert (Li : (i < List.length gs)%nat) by (apply nth_error_Some; congruence).
  set (p' := (mkGuest u (next_of next o) w1 up io h, @None pending)).
  assert (At : forall j p1, nth_error (list_set gs i p') j = Some p1 -> (j = i /\ p1 = p') \/ (j <> i /\ nth_error gs j = Some p1)).
  { intros j p1 H. destruct (PeanoNat.Nat.eq_dec i j) as [<-|Ne]; [rewrite nth_error_set_same in H by exact Li; injection H as <-; auto|]. rewrite nth_error_set_other in H by exact Ne. auto. }
  constructor; cbn [ha_server ha_guests ha_next]; auto.
  - rewrite length_list_set. exact Len.
  - intros j q1 p1 Q1 P1. destruct (At _ _ P1) as [[-> ->]|[_ P2]]; [rewrite Hq in Q1; injection Q1 as <-; reflexivity|exact (Tr _ _ _ Q1 P2)].
  - intros j p1 k1 P1 K1. destruct (At _ _ P1) as [[-> ->]|[_ P2]]; [discriminate K1|]. destruct (Pe _ _ _ P2 K1) as [L1 L2]. split; [exact L1|]. intros e1 M. apply in_or_app. left. apply L2, M.
  - intros j1 j2 p1 p2 k1 P1 P2 K1 K2. destruct (At _ _ P1) as [[-> ->]|[N1 P3]]; [discriminate K1|]. destruct (At _ _ P2) as [[-> ->]|[N2 P4]]; [discriminate K2|]. exact (Ap _ _ _ _ _ P3 P4 K1 K2).
  - destruct Ac as (D & A & B). split; [exact D|]. split.
    + intros k1 i1 e1 o1 H. apply in_app_or in H. destruct H as [H|[H|[]]]; [exact (A _ _ _ _ H)|]. injection H as <- <- <- <-. exact I1.
    + intros k1 i1 e1 o1 H. apply in_or_app. left. exact (B _ _ _ _ H).
  - apply time_mark; [exact Ti|]. intros ? ? ? H. discriminate H.
Qed.
Lemma ordered_begin s0 gs0 tr s gs k l qs i u e next w up io h o w1 es : ordered s0 gs0 tr (mkHall s gs k) l qs ->
  nth_error gs i = Some (mkGuest u (Then e next) w up io h, None) -> carry e w = (o, w1) -> gained w w1 es -> Forall unasked es \/ one_request es ->
  ordered s0 gs0 (tr ++ [Begins k i e]) (mkHall s (list_set gs i (mkGuest u (Then e next) w up io h, Some (mkPending k o w1 es))) (S k)) l qs.
Proof.
  intros [Run Len Tr Be Pe Ap Ac Ti] Hp C G Cl. cbn [ha_server ha_guests ha_next] in *. assert (Li : (i < List.length gs)%nat) by (apply nth_error_Some; congruence).
  set (p' := (mkGuest u (Then e next) w up io h, Some (mkPending k o w1 es))).
  assert (At : forall j p1, nth_error (list_set gs i p') j = Some p1 -> (j = i /\ p1 = p') \/ (j <> i /\ nth_error gs j = Some p1)).
  { intros j p1 H. destruct (PeanoNat.Nat.eq_dec i j) as [<-|Ne]; [rewrite nth_error_set_same in H by exact Li; injection H as <-; auto|]. rewrite nth_error_set_other in H by exact Ne. auto. }
  assert (Fr : ~ In k (tickets l)) by (intros H; apply Be in H; lia).
  assert (Low : forall j p1, nth_error gs j = Some p1 -> ticket_of p1 <> Some k) by (intros j p1 P1 K1; destruct (Pe _ _ _ P1 K1) as [L _]; lia).
  constructor; cbn [ha_server ha_guests ha_next]; auto.
  - rewrite length_list_set. exact Len.
  - intros j q1 p1 Q1 P1. destruct (At _ _ P1) as [[-> ->]|[_ P2]]; [|exact (Tr _ _ _ Q1 P2)]. pose proof (Tr _ _ _ Q1 Hp) as T. cbn in T. subst q1.
    exists e, next, es. cbn [pe_result pe_world pe_rest pe_ticket]. split; [reflexivity|]. split; [exact C|]. split; [exact G|]. destruct Cl as [F|F].
    + left. split; [exact F|]. split; [exact Fr|]. exists up, io, h, []. split; [reflexivity|]. split; [reflexivity|]. intros. constructor.
    + right. left. auto.
  - intros k1 H. apply Be in H. lia.
  - intros j p1 k1 P1 K1. destruct (At _ _ P1) as [[-> ->]|[_ P2]].
    + injection K1 as <-. split; [lia|]. intros e1 (b & nx & _ & Es). injection Es as <- _. apply in_or_app. right. left. reflexivity.
    + destruct (Pe _ _ _ P2 K1) as [L1 L2]. split; [lia|]. intros e1 M. apply in_or_app. left. apply L2, M.
  - intros j1 j2 p1 p2 k1 P1 P2 K1 K2. destruct (At _ _ P1) as [[-> ->]|[N1 P3]]; destruct (At _ _ P2) as [[-> ->]|[N2 P4]]; try reflexivity.
    + injection K1 as <-. exfalso. exact (Low _ _ P4 K2).
    + injection K2 as <-. exfalso. exact (Low _ _ P3 K1).
    + exact (Ap _ _ _ _ _ P3 P4 K1 K2).
  - destruct Ac as (D & A & B). split; [exact D|]. split.
    + intros k1 i1 e1 o1 H. apply in_app_or in H. destruct H as [H|[H|[]]]; [exact (A _ _ _ _ H)|discriminate H].
    + intros k1 i1 e1 o1 H. apply in_or_app. left. exact (B _ _ _ _ H).
  - apply time_mark; [exact Ti|]. intros ? ? ? H. injection H as <- _ _. exact Fr.
Qed.

Lemma ordered_moves s0 gs0 tr a l qs mk b : Forall (guest_ok s0) gs0 -> NoDup (map goes_by gs0) -> ordered s0 gs0 tr a l qs -> moves a mk b ->
  exists l' qs', ordered s0 gs0 (tr ++ mk) b (l ++ l') qs'.
Proof.
  intros F D O H. pose proof O as [Run Len Tr _ _ _ _ _]. destruct (gathering_turns _ _ _ _ _ Run F D) as (_ & Fq & _).
  assert (Get : forall i p, nth_error (ha_guests a) i = Some p -> exists q, nth_error qs i = Some q).
  { intros i p Hi. destruct (nth_error qs i) as [q|] eqn:Eq; [eauto|]. exfalso. apply nth_error_None in Eq. rewrite Len in Eq. apply nth_error_None in Eq. congruence. }
  destruct H as [s gs k i u e next w up io h o w1 es Hi C G|s gs k i u c w up io h n o w1 es rest s1 up1 io1 h1 Hi M|s gs k i u e next w up io h n o w1 Hi]; cbn [ha_server ha_guests ha_next] in *;
    destruct (Get _ _ Hi) as [q Hq]; pose proof (Tr _ _ _ Hq Hi) as T; cbn [tracks pe_result pe_world pe_rest pe_ticket] in T.
  - exists [], qs. rewrite app_nil_r. eapply ordered_begin; try eassumption. subst q. rewrite Forall_forall in Fq. destruct (Fq _ (nth_error_In _ _ Hq)) as (SO & UM & (OK & _) & _).
    cbn [gs_mem gs_world] in *. eapply call_traffic; eassumption.
  - destruct T as (e & next & es0 & -> & C & G & [(U & N & up0 & io0 & h0 & dn & -> & Es & Me)|[(U & N & Es & ->)|(Es & -> & I1)]]).
    + subst es0. assert (Ue : Forall unasked es) by (apply Forall_app in U; destruct U as [_ U]; apply Forall_app in U; apply U).
      destruct (meets_anywhere _ _ _ _ _ _ _ (le_n _) Ue M) as (up2 & io2 & h2 & E2 & M2). apply line_to_inj in E2. destruct E2 as (-> & -> & -> & ->).
      exists [], qs. rewrite !app_nil_r. eapply ordered_set; [exact O|exact Hi|exact Hq| |reflexivity|].
      * exists e, next, (dn ++ es ++ rest). cbn [pe_result pe_world pe_rest pe_ticket]. split; [reflexivity|]. split; [exact C|]. split; [exact G|]. left. split; [exact U|]. split; [exact N|].
        exists up0, io0, h0, (dn ++ es). split; [reflexivity|]. split; [apply app_assoc|]. intros s2. eapply meets_app; [apply le_n|apply Me|apply M2].
      * intros e1 (b1 & nx & _ & E1). eexists _, nx. split; [reflexivity|exact E1].
    + destruct U as (k0 & id & body & ->). rewrite <- Es in *. destruct (request_whole _ _ _ _ _ _ _ (eq_sym Es) M) as [->| ->].
      * apply meets_none in M. symmetry in M. apply line_to_inj in M. destruct M as (<- & <- & <- & <-). exists [], qs. rewrite !app_nil_r. eapply ordered_set; [exact O|exact Hi|exact Hq| |reflexivity|].
        -- exists e, next, rest. cbn [pe_result pe_world pe_rest pe_ticket]. cbn [app] in *. split; [reflexivity|]. split; [exact C|]. split; [exact G|]. right. left. split; [eexists _, _, _; exact Es|]. auto.
        -- intros e1 (b1 & nx & _ & E1). eexists _, nx. split; [reflexivity|exact E1].
      * rewrite app_nil_r in *. eexists [_], _. eapply ordered_effect; eassumption.
    + destruct es; [|discriminate Es]. cbn in Es. subst rest. apply meets_none in M. symmetry in M. apply line_to_inj in M. destruct M as (<- & <- & <- & <-). exists [], qs. rewrite !app_nil_r.
      eapply ordered_set; [exact O|exact Hi|exact Hq| |reflexivity|].
      * exists e, next, es0. cbn [pe_result pe_world pe_rest pe_ticket]. split; [reflexivity|]. split; [exact C|]. split; [exact G|]. right. right. auto.
      * intros e1 (b1 & nx & _ & E1). eexists _, nx. split; [reflexivity|exact E1].
  - destruct T as (e1 & next1 & es0 & E1 & C & G & [(U & N & up0 & io0 & h0 & dn & -> & Es & Me)|[(U & N & Es & ->)|(Es & -> & I1)]]); injection E1 as <- <-.
    + rewrite app_nil_r in Es. subst dn.
      pose proof (ordered_effect _ _ _ _ _ _ _ _ _ _ _ _ _ _ _ _ _ _ _ _ _ _ _ _ _ _ _ _ O Hi Hq C G N (Me s)) as O2.
      assert (Lg : (i < List.length gs)%nat) by (apply nth_error_Some; congruence). assert (Lq : (i < List.length qs)%nat) by (apply nth_error_Some; congruence).
      exists [(n, (i, e, o))], (list_set qs i (mkGuest u (next_of next o) w1 up io h)).
      replace (list_set gs i (mkGuest u (next_of next o) w1 up io h, None)) with (list_set (list_set gs i (mkGuest u (Then e next) w up io h, Some (mkPending n o w1 []))) i (mkGuest u (next_of next o) w1 up io h, None))
        by apply list_set_set.
      eapply ordered_return; [exact O2|apply nth_error_set_same; exact Lg|apply nth_error_set_same; exact Lq|]. apply in_or_app. right. left. reflexivity.
    + exfalso. destruct U as (k0 & id & body & ->). exact (request_some _ _ (eq_sym Es)).
    + exists [], qs. rewrite app_nil_r. eapply ordered_return; eassumption.
Qed.
Lemma ordered_start s gs : ordered s gs [] (at_rest s gs) [] gs.
Proof.
  unfold at_rest, resting. constructor; cbn [ha_server ha_guests ha_next].
  - constructor.
  - symmetry. apply map_length.
  - intros i q p Q P. rewrite nth_error_map, Q in P. injection P as <-. reflexivity.
  - intros k [].
  - intros i p k P K. rewrite nth_error_map in P. destruct (nth_error gs i); [injection P as <-; discriminate K|discriminate P].
  - intros i j p q k P _ K. rewrite nth_error_map in P. destruct (nth_error gs i); [injection P as <-; discriminate K|discriminate P].
  - split; [constructor|]. split; intros ? ? ? ? [].
  - intros t1 k i e o t2 k' j e' E. destruct t1; discriminate E.
Qed.
Lemma ordered_runs s gs a tr b : goings_on a tr b -> a = at_rest s gs -> Forall (guest_ok s) gs -> NoDup (map goes_by gs) -> exists l qs, ordered s gs tr b l qs.
Proof.
  induction 1 as [a|a tr b mk c _ IH M]; intros E F D.
  - subst a. exists [], gs. apply ordered_start.
  - destruct (IH E F D) as (l & qs & O). destruct (ordered_moves _ _ _ _ _ _ _ _ F D O M) as (l' & qs' & O'). eauto.
Qed.

(** ** What follows *)
Lemma linear s gs tr a : goings_on (at_rest s gs) tr a -> Forall (guest_ok s) gs -> NoDup (map goes_by gs) ->
  exists l gs', accounts_for tr l /\ in_real_time tr l /\ gathering s gs (map snd l) (ha_server a) gs' /\
    takes_turns (map gs_mem gs) (map goes_by gs) s (map seat_of gs) (map snd l) (ha_server a) (map seat_of gs') /\
    forall i g, nth_error (ha_guests a) i = Some (g, None) -> nth_error gs' i = Some g.
Proof.
  intros R F D. destruct (ordered_runs _ _ _ _ _ R eq_refl F D) as (l & qs & [Run Len Tr _ _ _ Ac Ti]). exists l, qs. split; [exact Ac|]. split; [exact Ti|]. split; [exact Run|].
  split; [apply (gathering_turns _ _ _ _ _ Run F D)|]. intros i g Hg. destruct (nth_error qs i) as [q|] eqn:Eq; [rewrite (Tr _ _ _ Eq Hg); reflexivity|].
  exfalso. apply nth_error_None in Eq. rewrite Len in Eq. apply nth_error_None in Eq. congruence.
Qed.

Lemma NoDup_app_apart {A} (l1 l2 : list A) x : NoDup (l1 ++ l2) -> In x l1 -> In x l2 -> False.
Proof.
  induction l1 as [|y l1 IH]; intros D X1 X2; [destruct X1|]. cbn [app] in D. inversion D as [|? ? N D1]; subst. destruct X1 as [->|X1]; [|exact (IH D1 X1 X2)].
  apply N. apply in_or_app. right. exact X2.
Qed.
(** In a list without repetitions the order is strict. *)
Lemma before_asym k k' (l : order) : NoDup (map fst l) -> comes_before k k' l -> comes_before k' k l -> False.
Proof.
  intros D (l1 & l2 & E & A & B) (m1 & m2 & E2 & A2 & B2). rewrite E in D, E2. clear E.
  assert (Dj : forall x, In x l1 -> In x l2 -> False). { intros x. apply NoDup_app_apart. exact D. }
  assert (C : (exists t, m1 = l1 ++ t /\ l2 = t ++ m2) \/ (exists t, l1 = m1 ++ t /\ m2 = t ++ l2)).
  { clear -E2. revert m1 m2 E2. induction l1 as [|x l1 IH]; intros m1 m2 E; [left; exists m1; auto|]. destruct m1 as [|y m1]; [right; exists (x :: l1); auto|].
    cbn in E. injection E as <- E. destruct (IH _ _ E) as [(t & -> & ->)|(t & -> & ->)]; [left|right]; exists t; auto. }
  destruct C as [(t & -> & ->)|(t & -> & ->)].
  - apply (Dj k); [exact A|]. apply in_or_app. right. exact B2.
  - apply (Dj k'); [|exact B]. apply in_or_app. left. exact A2.
Qed.

Lemma fst_entry (l : order) k c1 c2 : NoDup (map fst l) -> In (k, c1) l -> In (k, c2) l -> c1 = c2.
Proof.
  induction l as [|[k0 c0] l IH]; intros D A B; [destruct A|]. cbn [map fst] in D. inversion D as [|? ? N D1]; subst. destruct A as [A|A]; destruct B as [B|B].
  - congruence.
  - injection A as -> ->. exfalso. apply N. exact (in_map fst _ _ B).
  - injection B as -> ->. exfalso. apply N. exact (in_map fst _ _ A).
  - exact (IH D1 A B).
Qed.
Lemma before_split (l : order) k1 c1 k2 c2 : NoDup (map fst l) -> In (k1, c1) l -> In (k2, c2) l -> comes_before k1 k2 l -> exists la lb lc, l = la ++ (k1, c1) :: lb ++ (k2, c2) :: lc.
Proof.
  intros D A B (l1 & l2 & E & X1 & X2). apply map_eq_app in E. destruct E as (x1 & x2 & -> & <- & <-). apply in_map_iff in X1, X2. destruct X1 as ([k c1'] & E1 & X1), X2 as ([k' c2'] & E2 & X2).
  cbn in E1, E2. subst k k'. assert (c1' = c1) as -> by (eapply fst_entry; [exact D|apply in_or_app; left; exact X1|exact A]). assert (c2' = c2) as -> by (eapply fst_entry; [exact D|apply in_or_app; right; exact X2|exact B]).
  apply in_split in X1, X2. destruct X1 as (a1 & a2 & ->), X2 as (b1 & b2 & ->). exists a1, (a2 ++ b1), b2. rewrite <- !app_assoc. reflexivity.
Qed.
(** A read that begins after a write returned gives what was written, if every other write of
    the attribute ended before the write began or begins after the read returned. *)
Lemma linear_remembers s gs a t0 k1 i x y z d val t1 t2 k2 j kk junk v t3 t4 g data :
  goings_on (at_rest s gs) (t0 ++ Begins k1 i (Use (AskSet x y z d)) :: t1 ++ Ends k1 i (Use (AskSet x y z d)) (Ret val) :: t2 ++ Begins k2 j (Use (AskGet kk junk x y z)) :: t3 ++
    Ends k2 j (Use (AskGet kk junk x y z)) (Ret (Value v)) :: t4) a ->
  Forall (guest_ok s) gs -> NoDup (map goes_by gs) -> nth_error gs i = Some g -> carries_opt (gs_mem g) d data ->
  (forall k n d', In (Begins k n (Use (AskSet x y z d'))) (t0 ++ t1 ++ t2 ++ t3) -> exists o, In (Ends k n (Use (AskSet x y z d')) o) t0) ->
  fits kk v /\ exists rest, data = le kk v ++ rest.
Proof.
  set (e1 := Use (AskSet x y z d)). set (e2 := Use (AskGet kk junk x y z)). set (tr := t0 ++ _). intros R F D Hg Cd Ot. destruct (linear _ _ _ _ R F D) as (l & gs' & (Nd & En & Be) & Ti & Ga & _).
  assert (A : In (k1, (i, e1, Ret val)) l). { apply En. unfold tr. apply in_or_app. right. right. apply in_or_app. right. left. reflexivity. }
  assert (B : In (k2, (j, e2, Ret (Value v))) l).
  { apply En. unfold tr. apply in_or_app. right. right. apply in_or_app. right. right. apply in_or_app. right. right. apply in_or_app. right. left. reflexivity. }
  assert (C : comes_before k1 k2 l).
  { apply (Ti (t0 ++ Begins k1 i e1 :: t1) k1 i e1 (Ret val) (t2 ++ Begins k2 j e2 :: t3 ++ Ends k2 j e2 (Ret (Value v)) :: t4) k2 j e2).
    - unfold tr. rewrite <- app_assoc. reflexivity.
    - apply in_or_app. right. left. reflexivity.
    - exact (in_map fst _ _ B). }
  destruct (before_split _ _ _ _ _ Nd A B C) as (la & lb & lc & ->).
  rewrite map_app in Ga. cbn [map snd] in Ga. rewrite map_app in Ga. cbn [map snd] in Ga.
  eapply (guests_remember s gs _ _ (map snd la) i x y z d val (map snd lb) j kk junk v (map snd lc) g data Ga F D Hg Cd).
  rewrite Forall_map, Forall_forall. intros [k [[n e] o]] Hk (d' & v' & Ee & Eo). cbn [fst snd] in Ee, Eo. subst e o.
  set (l := la ++ (k1, (i, e1, Ret val)) :: lb ++ (k2, (j, e2, Ret (Value v))) :: lc) in *.
  assert (Il : In (k, (n, Use (AskSet x y z d'), Ret v')) l). { unfold l. apply in_or_app. right. right. apply in_or_app. left. exact Hk. }
  assert (El : map fst l = map fst la ++ k1 :: map fst lb ++ k2 :: map fst lc). { unfold l. rewrite map_app. cbn [map fst]. rewrite map_app. reflexivity. }
  assert (Hk' : In k (map fst lb)) by exact (in_map fst _ _ Hk).
  assert (C1 : comes_before k1 k l).
  { exists (map fst la ++ [k1]), (map fst lb ++ k2 :: map fst lc). split; [rewrite El, <- app_assoc; reflexivity|]. split; [apply in_or_app; right; left; reflexivity|]. apply in_or_app. left. exact Hk'. }
  assert (C2 : comes_before k k2 l).
  { exists (map fst la ++ k1 :: map fst lb), (k2 :: map fst lc). split; [rewrite El, <- app_assoc; reflexivity|]. split; [apply in_or_app; right; right; exact Hk'|left; reflexivity]. }
  assert (Old : In (Begins k n (Use (AskSet x y z d'))) (t0 ++ t1 ++ t2 ++ t3) -> False).
  { intros H. destruct (Ot _ _ _ H) as [o Ho]. apply in_split in Ho. destruct Ho as (p1 & p2 & Ep). apply (before_asym k k1 l Nd); [|exact C1].
    apply (Ti p1 k n (Use (AskSet x y z d')) o (p2 ++ Begins k1 i e1 :: t1 ++ Ends k1 i e1 (Ret val) :: t2 ++ Begins k2 j e2 :: t3 ++ Ends k2 j e2 (Ret (Value v)) :: t4) k1 i e1).
    - unfold tr. rewrite Ep, <- app_assoc. reflexivity.
    - apply in_or_app. right. left. reflexivity.
    - exact (in_map fst _ _ A). }
  pose proof (Be _ _ _ _ Il) as Hb. unfold tr in Hb. apply in_app_or in Hb. destruct Hb as [Hb|[Hb|Hb]].
  { apply Old. apply in_or_app. left. exact Hb. }
  { injection Hb as <- _ _. exact (before_asym _ _ _ Nd C1 C1). }
  apply in_app_or in Hb. destruct Hb as [Hb|[Hb|Hb]]; [apply Old; apply in_or_app; right; apply in_or_app; left; exact Hb|discriminate Hb|].
  apply in_app_or in Hb. destruct Hb as [Hb|[Hb|Hb]]; [apply Old; do 2 (apply in_or_app; right); apply in_or_app; left; exact Hb|discriminate Hb|].
  apply in_app_or in Hb. destruct Hb as [Hb|[Hb|Hb]]; [apply Old; do 3 (apply in_or_app; right); exact Hb|discriminate Hb|].
  apply (before_asym k k2 l Nd C2).
  apply (Ti (t0 ++ Begins k1 i e1 :: t1 ++ Ends k1 i e1 (Ret val) :: t2 ++ Begins k2 j e2 :: t3) k2 j e2 (Ret (Value v)) t4 k n (Use (AskSet x y z d'))).
  - unfold tr. rewrite <- !app_assoc. cbn [app]. rewrite <- !app_assoc. cbn [app]. rewrite <- !app_assoc. reflexivity.
  - exact Hb.
  - exact (in_map fst _ _ Il).
Qed.

(** ** Calls that alternate whole are among these runs *)
Lemma goings_on_app a tr1 b tr2 c : goings_on a tr1 b -> goings_on b tr2 c -> goings_on a (tr1 ++ tr2) c.
Proof.
  intros H1 H2. induction H2 as [b|b tr b1 mk c _ IH M]; [rewrite app_nil_r; exact H1|]. rewrite app_assoc. eapply goings_on_more; [apply IH; exact H1|exact M].
Qed.
Lemma sequential s gs l s' gs' : gathering s gs l s' gs' -> forall k, goings_on (resting s gs k) (whole_calls k l) (resting s' gs' (k + List.length l)).
Proof.
  induction 1 as [s gs|s gs i u e next w up io h o w1 es s1 up1 io1 h1 l s' gs' Hi C G M J IH]; intros k.
  - rewrite PeanoNat.Nat.add_0_r. constructor.
  - specialize (IH (S k)). change (whole_calls k ((i, e, o) :: l)) with ([Begins k i e] ++ [] ++ [Ends k i e o] ++ whole_calls (S k) l).
    assert (Hi' : nth_error (map (fun g => (g, @None pending)) gs) i = Some (mkGuest u (Then e next) w up io h, None)) by (rewrite nth_error_map, Hi; reflexivity).
    assert (Li : (i < List.length (map (fun g => (g, @None pending)) gs))%nat) by (apply nth_error_Some; congruence).
    eapply goings_on_app; [apply (goings_on_more _ [] _ _ _ (goings_on_nil _)); apply (moves_begin s _ k i u e next w up io h o w1 es Hi' C G)|].
    eapply goings_on_app; [apply (goings_on_more _ [] _ _ _ (goings_on_nil _)); eapply (moves_seen s _ (S k) i u (Then e next) w up io h k o w1 es [] s1 up1 io1 h1); [rewrite app_nil_r; apply nth_error_set_same; exact Li|exact M]|].
    rewrite list_set_set. eapply goings_on_app; [apply (goings_on_more _ [] _ _ _ (goings_on_nil _)); eapply moves_end; apply nth_error_set_same; exact Li|].
    rewrite list_set_set. unfold resting in IH. cbn [List.length]. rewrite <- PeanoNat.Nat.add_succ_comm. rewrite (map_list_set (fun g => (g, @None pending))) in IH. exact IH.
Qed.

(** ** A read and a write that overlap *)
Definition overlap : list mark :=
  [Begins 0 1 dial; Begins 1 0 dial; Ends 1 0 dial (Ret Done); Ends 0 1 dial (Ret Done); Begins 2 1 (Use get3); Begins 3 0 (Use set3);
   Ends 2 1 (Use get3) (Ret (Value 513)); Ends 3 0 (Use set3) (Ret Done)].
Lemma overlapping : exists a, goings_on (at_rest duo_s visitors) overlap a.
Proof.
  set (b1 := after dial world_b). set (a1 := after dial world_a). set (a2 := after (Use set3) a1). set (b2 := after (Use get3) b1).
  set (es_set := [ESend Ctl (set_request 9 1 2 3 (le 2 513)) (Some (len (set_request 9 1 2 3 (le 2 513)))); ERecv Ctl (Some (explicit_reply 9 0x90 0 []))]).
  set (es_get := [ESend Ctl (get_request 10 1 2 3) (Some (len (get_request 10 1 2 3))); ERecv Ctl (Some (explicit_reply 10 0x8E 0 (le 2 513)))]).
  set (s1 := mkServer duo_attr []).
  assert (St : forall a m b tr c, moves a m b -> goings_on b tr c -> goings_on a (m ++ tr) c).
  { intros a m b tr c H1 H2. eapply goings_on_app; [apply (goings_on_more _ [] _ _ _ (goings_on_nil _) H1)|exact H2]. }
  assert (Op : forall s id, fits 4 id -> id <> 0 -> meets (line_to s false false 0) (opening id) (line_to s true true id)) by (intros; apply meets_opening; [assumption|assumption|reflexivity|reflexivity]).
  eexists. unfold overlap, at_rest, resting, visitors. cbn [map].
  eapply (St _ [_]). { eapply (moves_begin _ _ _ 1 [] dial _ world_b false false 0 (Ret Done) b1 (opening 10)); [reflexivity|vm_compute; reflexivity|vm_compute; reflexivity]. }
  cbn [list_set]. eapply (St _ [_]). { eapply (moves_begin _ _ _ 0 [] dial _ world_a false false 0 (Ret Done) a1 (opening 9)); [reflexivity|vm_compute; reflexivity|vm_compute; reflexivity]. }
  cbn [list_set]. eapply (St _ []). { eapply (moves_seen _ _ _ 1 [] _ world_b false false 0 _ _ _ (opening 10) [] duo_s true true 10); [reflexivity|apply Op; [reflexivity|discriminate]]. }
  cbn [list_set]. eapply (St _ []). { eapply (moves_seen _ _ _ 0 [] _ world_a false false 0 _ _ _ (opening 9) [] duo_s true true 9); [reflexivity|apply Op; [reflexivity|discriminate]]. }
  cbn [list_set]. eapply (St _ [_]). { eapply (moves_end _ _ _ 0); reflexivity. }
  cbn [list_set next_of]. eapply (St _ [_]). { eapply (moves_end _ _ _ 1); reflexivity. }
  cbn [list_set next_of]. eapply (St _ [_]). { eapply (moves_begin _ _ _ 1 [] (Use get3) _ b1 true true 10 (Ret (Value 513)) b2 es_get); [reflexivity|vm_compute; reflexivity|vm_compute; reflexivity]. }
  cbn [list_set]. eapply (St _ [_]). { eapply (moves_begin _ _ _ 0 [] (Use set3) _ a1 true true 9 (Ret Done) a2 es_set); [reflexivity|vm_compute; reflexivity|vm_compute; reflexivity]. }
  cbn [list_set]. eapply (St _ []).
  { eapply (moves_seen _ _ _ 0 [] _ a1 true true 9 _ _ _ es_set [] s1 true true 9); [reflexivity|].
    eapply (meets_served (line_to duo_s true true 9) _ _ _ (seen 9 s1)); [reflexivity|reflexivity|discriminate|reflexivity| |apply meets_nil].
    apply (serves_set (seen 9 duo_s) 1 2 3 (le 2 513) 0x90 [] []); try reflexivity. apply (answers_9 0x90 0 []); reflexivity. }
  cbn [list_set]. eapply (St _ []).
  { eapply (moves_seen _ _ _ 1 [] _ b1 true true 10 _ _ _ es_get [] s1 true true 10); [reflexivity|].
    eapply (meets_served (line_to s1 true true 10) _ _ _ (seen 10 s1)); [reflexivity|reflexivity|discriminate|reflexivity| |apply meets_nil].
    apply (serves_get (seen 10 s1) 1 2 3 0x8E [] (le 2 513)); try reflexivity. apply (answers_10 0x8E 0); reflexivity. }
  cbn [list_set]. eapply (St _ [_]). { eapply (moves_end _ _ _ 1); reflexivity. }
  cbn [list_set next_of]. eapply (St _ [_] _ []). { eapply (moves_end _ _ _ 0); reflexivity. }
  apply goings_on_nil.
Qed.
