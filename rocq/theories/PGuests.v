(** * PGuests: clients of one target that come and go (C121). *)
From Verif Require Import PSession2 PSession3 PTarget.
From Verif Require Export Vocab26 PWhole.
Local Open Scope N_scope.

(** ** What a client sees of the line *)
Definition view (cs : list (N * N * N)) (s : server) (up io : bool) (h : N) : line := mkLine up io (mkTarget h (sv_attr s) cs).
Definition own_line (se : session) (s : server) : bool -> bool -> N -> line := view (conns_of se s) s.
Definition unasked (e : event) : Prop := match e with ESend Ctl bs _ => forall id body, bs <> request 0x6F id body | _ => True end.
(** Events without requests to the target leave it as it is. *)
Lemma meets_unasked n : forall es l1 s up io h, (List.length es <= n)%nat -> Forall unasked es -> meets (line_to s up io h) es l1 ->
  exists up1 io1 h1, l1 = line_to s up1 io1 h1 /\ forall cs, meets (view cs s up io h) es (view cs s up1 io1 h1).
Proof.
  induction n as [|n IH]; intros es l1 s up io h L F H.
  - destruct es; [|cbn in L; lia]. apply meets_none in H. subst. exists up, io, h. split; [reflexivity|]. intros. constructor.
  - inversion H as [l|l a p es' l' M|l a p es' l' M|l a q es' l' Io M|l a q es' l' M|l es' l' M|l es' l' M|l k es' l' M|
      l bs body got t1 es' l' E Up Nz Fi Sv M|l bs id body got es' l' E Up Fi D R M|l bs id op got es' l' E Up Z Nz R M|l bs pl got es' l' E Up R M|l bs id es' l' E Up Fi M|l bs es' l' M]; subst;
      inversion F as [|? ? F1 F2]; subst; cbn [List.length] in L.
    + exists up, io, h. split; [reflexivity|]. intros. constructor.
    + destruct (IH es' l1 s true io 0 ltac:(lia) F2 M) as (u1 & i1 & h1 & -> & H1). exists u1, i1, h1. split; [reflexivity|]. intros cs. apply meets_dial. apply H1.
    + destruct M as [M|M].
      * destruct (IH es' l1 s up io h ltac:(lia) F2 M) as (u1 & i1 & h1 & -> & H1). exists u1, i1, h1. split; [reflexivity|]. intros cs. apply meets_no_dial. left. apply H1.
      * destruct (IH es' l1 s false io 0 ltac:(lia) F2 M) as (u1 & i1 & h1 & -> & H1). exists u1, i1, h1. split; [reflexivity|]. intros cs. apply meets_no_dial. right. apply H1.
    + destruct (IH es' l1 s up true h ltac:(lia) F2 M) as (u1 & i1 & h1 & -> & H1). exists u1, i1, h1. split; [reflexivity|]. intros cs. apply meets_io; [exact Io|]. apply H1.
    + destruct M as [M|M].
      * destruct (IH es' l1 s up io h ltac:(lia) F2 M) as (u1 & i1 & h1 & -> & H1). exists u1, i1, h1. split; [reflexivity|]. intros cs. apply meets_no_io. left. apply H1.
      * destruct (IH es' l1 s up true h ltac:(lia) F2 M) as (u1 & i1 & h1 & -> & H1). exists u1, i1, h1. split; [reflexivity|]. intros cs. apply meets_no_io. right. apply H1.
    + destruct (IH es' l1 s false io 0 ltac:(lia) F2 M) as (u1 & i1 & h1 & -> & H1). exists u1, i1, h1. split; [reflexivity|]. intros cs. apply meets_hang_up. apply H1.
    + destruct (IH es' l1 s up false h ltac:(lia) F2 M) as (u1 & i1 & h1 & -> & H1). exists u1, i1, h1. split; [reflexivity|]. intros cs. apply meets_io_shut. apply H1.
    + destruct (IH es' l1 s up io h ltac:(lia) F2 M) as (u1 & i1 & h1 & -> & H1). exists u1, i1, h1. split; [reflexivity|]. intros cs. apply meets_no_shut. apply H1.
    + exfalso. exact (F1 _ _ eq_refl).
    + exfalso. exact (F1 _ _ eq_refl).
    + inversion F2 as [|? ? _ F3]; subst. cbn [List.length] in L.
      destruct (IH es' l1 s up io id ltac:(lia) F3 M) as (u1 & i1 & h1 & -> & H1). exists u1, i1, h1. split; [reflexivity|]. intros cs. eapply meets_registered; try eassumption; [reflexivity|]. apply H1.
    + inversion F2 as [|? ? _ F3]; subst. cbn [List.length] in L.
      destruct (IH es' l1 s up io h ltac:(lia) F3 M) as (u1 & i1 & h1 & -> & H1). exists u1, i1, h1. split; [reflexivity|]. intros cs. eapply meets_turned_away; try eassumption; [reflexivity|]. apply H1.
    + destruct (IH es' l1 s up io (if id =? h then 0 else h) ltac:(lia) F2 M) as (u1 & i1 & h1 & -> & H1). exists u1, i1, h1. split; [reflexivity|]. intros cs.
      eapply meets_bye; try eassumption; [reflexivity|]. apply H1.
    + destruct (IH es' l1 s up io h ltac:(lia) F2 M) as (u1 & i1 & h1 & -> & H1). exists u1, i1, h1. split; [reflexivity|]. intros cs. apply meets_unsent. apply H1.
Qed.
Lemma line_to_inj s up io h s1 up1 io1 h1 : line_to s up io h = line_to s1 up1 io1 h1 -> s = s1 /\ up = up1 /\ io = io1 /\ h = h1.
Proof. destruct s, s1. unfold line_to, seen. cbn. intros H. injection H as -> -> -> -> ->. auto. Qed.
Lemma serves_session t bs got t1 : serves t bs got t1 -> tg_session t1 = tg_session t.
Proof. intros H. inversion H; reflexivity. Qed.

Lemma unasked_closing kc ki : Forall unasked (closing kc ki).
Proof. unfold closing. destruct (close_fails kc); repeat constructor. Qed.
Lemma unasked_register k : Forall unasked (events k register_request).
Proof.
  unfold events, talk. destruct (sent k register_request) as [n|]; [|repeat constructor; intros id body E; exact (not_register _ _ (eq_sym E))].
  destruct (so_recv k) as [|[d|] r]; cbn [fst snd]; repeat constructor; intros id body E; exact (not_register _ _ (eq_sym E)).
Qed.
Lemma unasked_open w h p q o w' es : rbuf_ok w -> session_open h p q w = (o, w') -> gained w w' es -> Forall unasked es.
Proof.
  intros RB E G. destruct (session_open_spec w h p q RB) as (ro & w1 & E1 & _ & _ & _ & S). rewrite E1 in E. apply pair_equal_spec in E. destruct E as [-> ->].
  destruct (open_fails (w_ctl w)); [|destruct (open_fails (w_io w))].
  - destruct S as (Nt & _). rewrite (gained_app _ _ _ _ Nt G). repeat constructor.
  - destruct S as (Nt & _). rewrite (gained_app _ _ _ _ Nt G). repeat constructor.
  - destruct S as (tail & O & Nt). rewrite (gained_app _ _ _ _ Nt G). apply Forall_app. split; [repeat constructor|]. apply Forall_app. split; [apply unasked_register|].
    unfold open_outcome in O. destruct (reply_of _ _) as [| | |got].
    + destruct O as (_ & -> & _). constructor.
    + destruct O as (_ & -> & _). constructor.
    + destruct O as (_ & -> & _). constructor.
    + destruct O as [(ses & _ & _ & -> & _)|[(_ & _ & -> & _)|(_ & _ & _ & -> & _)]]; [constructor|constructor|apply unasked_closing].
Qed.
Lemma unasked_close w o w' es : rbuf_ok w -> session_close w = (o, w') -> gained w w' es -> Forall unasked es.
Proof.
  intros RB E G. destruct (session_close_spec w RB) as (ro & w1 & E1 & _ & _ & _ & S). rewrite E1 in E. apply pair_equal_spec in E. destruct E as [-> ->].
  assert (U : forall n, unasked (ESend Ctl (unregister (se_id (w_se w))) n)) by (intros n id body E; exact (not_unregister _ _ _ (eq_sym E))).
  destruct (sent _ _) as [n|].
  - destruct S as (Nt & _). rewrite (gained_app _ _ _ _ Nt G). apply Forall_app. split; [constructor; [apply U|constructor]|apply unasked_closing].
  - destruct S as (_ & _ & _ & Nt). rewrite (gained_app _ _ _ _ Nt G). constructor; [apply U|constructor].
Qed.

(** A call, as the client sees it. *)
Lemma errand_projects u e w o w' es s up io h s1 up1 io1 h1 : session_ok w -> user_memory u w -> errand_ok u e -> carry e w = (o, w') -> gained w w' es ->
  numbers_ok (w_se w) -> map conn_key (se_conns (w_se w)) = conns_of (w_se w) s -> meets (line_to s up io h) es (line_to s1 up1 io1 h1) ->
  meets (own_line (w_se w) s up io h) es (own_line (w_se w) s1 up1 io1 h1) /\ shifts (se_vendor (w_se w)) (se_serial (w_se w)) s s1.
Proof.
  intros SO UM OK E G NU CS ME.
  assert (Quiet : Forall unasked es -> meets (own_line (w_se w) s up io h) es (own_line (w_se w) s1 up1 io1 h1) /\ shifts (se_vendor (w_se w)) (se_serial (w_se w)) s s1).
  { intros F. destruct (meets_unasked _ _ _ _ _ _ _ (le_n _) F ME) as (u1 & i1 & k1 & L & H). apply line_to_inj in L. destruct L as (-> & -> & -> & ->).
    split; [apply H|left; reflexivity]. }
  destruct e as [a|hn p q|].
  - cbn [carry errand_ok] in *. destruct (perform_other u a w o w' SO UM OK E) as [(n & -> & Hn & -> & ->)|(body & Nt & Hn & _ & _)].
    { apply Quiet. assert (es = []) as ->; [|constructor]. unfold gained in G. symmetry. apply (app_inv_head (w_net w)). rewrite app_nil_r. exact G. }
    pose proof (gained_app _ _ _ _ Nt G) as Es. subst es. apply meets_talk in ME as TK; [|apply SO].
    destruct TK as [(Q & L & Ev)|(got & Q & Up & Ev & [(Id & Nz & t1 & Sv & L)|(Un & R & L)])].
    + apply line_to_inj in L. destruct L as (<- & <- & <- & <-). split; [|left; reflexivity]. rewrite Ev. apply meets_unsent. constructor.
    + cbn [line_to ln_tg ln_up seen tg_session] in Id, Up, Sv. assert (t1 = seen h1 s1 /\ up1 = up /\ io1 = io) as (Et & -> & ->) by exact (conj (eq_sym (f_equal ln_tg L)) (conj (f_equal ln_up L) (f_equal ln_io L))).
      pose proof (serves_session _ _ _ _ Sv) as Hs. rewrite Et in Hs. cbn [seen tg_session] in Hs. subst h1.
      assert (CO : conforms (seen (se_id (w_se w)) s) (ctl_talk (events (w_ctl w) (request 0x6F (se_id (w_se w)) body))) (seen (se_id (w_se w)) s1)).
      { assert (Et2 : t1 = seen (se_id (w_se w)) s1) by (rewrite Et, Id; reflexivity). rewrite <- Et2. eapply serves_events; [|exact Sv|exact Ev|rewrite Id; reflexivity]. exact Id. }
      destruct (call_projects u a w o w' _ s s1 SO UM OK E G NU Nz CS CO) as [CP SH]. split; [|exact SH].
      apply conforms_talk in CP. destruct CP as [(Q2 & _)|(got2 & Q2 & S2 & _)]; [congruence|]. assert (got2 = got) as -> by congruence.
      rewrite Ev. unfold own_line, view. rewrite <- Id. fold (mine (w_se w) s). fold (mine (w_se w) s1).
      eapply (meets_served (mkLine up io (mine (w_se w) s)) _ body got (mine (w_se w) s1)); [reflexivity|exact Up|exact Nz|exact (proj1 (proj2 SO))|exact S2|constructor].
    + apply line_to_inj in L. destruct L as (<- & <- & <- & <-). split; [|left; reflexivity]. rewrite Ev. eapply meets_unknown; [reflexivity|exact Up|exact (proj1 (proj2 SO))|exact Un|exact R|constructor].
  - apply Quiet. cbn [carry] in E. unfold mbind in E. destruct (session_open hn p q w) as [ro w1] eqn:E1.
    assert (w1 = w') as -> by (destruct ro; apply pair_equal_spec in E; apply E). eapply unasked_open; [apply SO|exact E1|exact G].
  - apply Quiet. cbn [carry] in E. unfold mbind in E. destruct (session_close w) as [ro w1] eqn:E1.
    assert (w1 = w') as -> by (destruct ro; apply pair_equal_spec in E; apply E). eapply unasked_close; [apply SO|exact E1|exact G].
Qed.
Lemma shifts_rest v sr s s1 : shifts v sr s s1 -> of_others v sr s1 = of_others v sr s.
Proof.
  unfold of_others. intros [->|[(k & O & _ & ->)|(k & O & _ & ->)]]; [reflexivity|..].
  - rewrite filter_app. cbn [filter]. rewrite O. cbn. apply app_nil_r.
  - rewrite filter_remove. apply remove_none. intros X. apply filter_In in X. destruct X as [_ X]. rewrite O in X. discriminate X.
Qed.
Lemma guest_call s u e next w up io h o w1 es s1 up1 io1 h1 : guest_ok s (mkGuest u (Then e next) w up io h) -> carry e w = (o, w1) -> gained w w1 es ->
  meets (line_to s up io h) es (line_to s1 up1 io1 h1) ->
  let v := se_vendor (w_se w) in let sr := se_serial (w_se w) in
  happens u v sr (part v sr s (seat_of (mkGuest u (Then e next) w up io h))) e o (part v sr s1 (seat_of (mkGuest u (next_of next o) w1 up1 io1 h1))) /\
  shifts v sr s s1 /\ guest_ok s1 (mkGuest u (next_of next o) w1 up1 io1 h1) /\ se_vendor (w_se w1) = v /\ se_serial (w_se w1) = sr.
Proof.
  intros (SO & UM & (OK & KN) & NU & CS) E G ME v sr. cbn [gs_mem gs_story gs_world] in *.
  destruct (errand_projects u e w o w1 es s up io h s1 up1 io1 h1 SO UM OK E G NU CS ME) as [M2 SH].
  assert (TU : tuned w (own_line (w_se w) s up io h)) by (split; [exact NU|exact CS]).
  destruct (call_machine u e w o w1 es _ _ SO UM OK TU E G M2) as (HA & (NU' & CS') & V & Sr). destruct (carry_kept u e w o w1 SO UM OK E) as [SO' UM'].
  split; [exact HA|]. split; [exact SH|]. split; [|auto]. split; [exact SO'|]. split; [exact UM'|]. split; [cbn [gs_mem gs_story]; destruct o; cbn [next_of]; try apply KN; exact I|].
  split; [exact NU'|]. cbn [gs_world]. rewrite CS'. cbn. unfold conns_of. rewrite V, Sr. reflexivity.
Qed.

(** ** All of them *)
Lemma guest_other s s1 g v sr : guest_ok s g -> goes_by g <> (v, sr) -> shifts v sr s s1 -> guest_ok s1 g.
Proof.
  intros (A & B & C & D & F) Ne SH. repeat (split; [assumption|]). rewrite F. unfold conns_of. symmetry. eapply shifts_other; eassumption.
Qed.
Lemma gathering_silent s gs l s' gs' i : gathering s gs l s' gs' -> (forall g, nth_error gs i = Some g -> gs_story g = End) -> Forall (fun c => caller c <> i) l.
Proof.
  induction 1 as [|s gs j u e next w up io h o w1 es s1 up1 io1 h1 l s' gs' Hj P G M J IH]; intros H; constructor.
  - intros Q. cbn in Q. subst j. specialize (H _ Hj). discriminate H.
  - destruct (PeanoNat.Nat.eq_dec j i) as [->|Ne]; [specialize (H _ Hj); discriminate H|]. apply IH. intros g Hg. rewrite nth_error_set_other in Hg by assumption. exact (H _ Hg).
Qed.
Lemma others_ok s s1 gs i g v sr : Forall (guest_ok s) gs -> NoDup (map goes_by gs) -> nth_error gs i = Some g -> goes_by g = (v, sr) -> shifts v sr s s1 ->
  forall g', guest_ok s1 g' -> Forall (guest_ok s1) (list_set gs i g').
Proof.
  intros F D Hi W SH g' G'. rewrite Forall_forall. intros p Ip. apply In_nth_error in Ip. destruct Ip as [j Hj]. destruct (PeanoNat.Nat.eq_dec i j) as [<-|Ne].
  - rewrite nth_error_set_same in Hj by (apply nth_error_Some; congruence). injection Hj as <-. exact G'.
  - rewrite nth_error_set_other in Hj by assumption. eapply guest_other; [rewrite Forall_forall in F; apply F; eapply nth_error_In; exact Hj| |exact SH].
    intros Q. apply Ne. rewrite NoDup_nth_error in D. apply D; [rewrite map_length; apply nth_error_Some; congruence|].
    rewrite !nth_error_map, Hi, Hj. cbn. congruence.
Qed.
Lemma gathering_turns s gs l s' gs' : gathering s gs l s' gs' -> Forall (guest_ok s) gs -> NoDup (map goes_by gs) ->
  takes_turns (map gs_mem gs) (map goes_by gs) s (map seat_of gs) l s' (map seat_of gs') /\ Forall (guest_ok s') gs' /\ map goes_by gs' = map goes_by gs.
Proof.
  induction 1 as [s gs|s gs i u e next w up io h o w1 es s1 up1 io1 h1 l s' gs' Hi P G M J IH]; intros F D.
  - split; [constructor|]. split; [exact F|reflexivity].
  - assert (PK : guest_ok s (mkGuest u (Then e next) w up io h)) by (rewrite Forall_forall in F; apply F; eapply nth_error_In; exact Hi).
    destruct (guest_call _ _ _ _ _ _ _ _ _ _ _ _ _ _ _ PK P G M) as (HA & SH & P1 & V & Sr). cbv zeta in HA.
    set (g' := mkGuest u (next_of next o) w1 up1 io1 h1) in *.
    assert (W : map goes_by (list_set gs i g') = map goes_by gs) by (eapply map_set; [exact Hi|]; unfold goes_by, g'; cbn; congruence).
    assert (U : map gs_mem (list_set gs i g') = map gs_mem gs) by (eapply map_set; [exact Hi|]; reflexivity).
    destruct IH as (T & F' & W').
    { eapply others_ok; [exact F|exact D|exact Hi|reflexivity|exact SH|exact P1]. }
    { rewrite W. exact D. }
    rewrite W, U in *. split; [|split; [exact F'|exact W']].
    eapply takes_turns_call with (vendor := se_vendor (w_se w)) (serial := se_serial (w_se w)).
    + rewrite nth_error_map, Hi. reflexivity.
    + rewrite nth_error_map, Hi. reflexivity.
    + rewrite nth_error_map, Hi. reflexivity.
    + exact HA.
    + apply shifts_rest. exact SH.
    + intros Cr. eapply gathering_silent; [exact J|]. intros g Hg. rewrite nth_error_set_same in Hg by (apply nth_error_Some; congruence). injection Hg as <-. unfold g'. cbn [gs_story].
      destruct o; cbn in *; try contradiction; reflexivity.
    + rewrite map_list_set in T. exact T.
Qed.

(** ** Orderly programs are in a session when they use it *)
Lemma gathering_orderly s gs l s' gs' : gathering s gs l s' gs' -> Forall (guest_ok s) gs -> NoDup (map goes_by gs) -> forall i g b, nth_error gs i = Some g -> orderly b (gs_story g) ->
  (if b then in_session (part (fst (goes_by g)) (snd (goes_by g)) s (seat_of g)) else st_id (seat_of g) = 0) ->
  forall l1 a o l2, l = l1 ++ (i, Use a, o) :: l2 ->
  exists s1 xs1 x s2 x2, takes_turns (map gs_mem gs) (map goes_by gs) s (map seat_of gs) l1 s1 xs1 /\ nth_error xs1 i = Some x /\
    let v := fst (goes_by g) in let sr := snd (goes_by g) in
    in_session (part v sr s1 x) /\ happens (gs_mem g) v sr (part v sr s1 x) (Use a) o (part v sr s2 x2).
Proof.
  induction 1 as [s gs|s gs j u e next w up io h o w1 es s1 up1 io1 h1 l s' gs' Hj P G M J IH]; intros F D i g b Hg Or In l1 a o' l2 El; [destruct l1; discriminate El|].
  assert (PK : guest_ok s (mkGuest u (Then e next) w up io h)) by (rewrite Forall_forall in F; apply F; eapply nth_error_In; exact Hj).
  destruct (guest_call _ _ _ _ _ _ _ _ _ _ _ _ _ _ _ PK P G M) as (HA & SH & P1 & V & Sr). cbv zeta in HA.
  set (g' := mkGuest u (next_of next o) w1 up1 io1 h1) in *. set (g0 := mkGuest u (Then e next) w up io h) in *.
  assert (W : map goes_by (list_set gs j g') = map goes_by gs) by (eapply map_set; [exact Hj|]; unfold goes_by, g', g0; cbn; congruence).
  assert (U : map gs_mem (list_set gs j g') = map gs_mem gs) by (eapply map_set; [exact Hj|]; reflexivity).
  assert (F1 : Forall (guest_ok s1) (list_set gs j g')) by (eapply others_ok; [exact F|exact D|exact Hj|reflexivity|exact SH|exact P1]).
  assert (D1 : NoDup (map goes_by (list_set gs j g'))) by (rewrite W; exact D).
  assert (Ls : (j < List.length gs)%nat) by (apply nth_error_Some; congruence).
  destruct l1 as [|c l1]; cbn [app] in El.
  - injection El as -> -> -> <-. rewrite Hj in Hg. injection Hg as <-. exists s, (map seat_of gs), (seat_of g0), s1, (seat_of g').
    split; [constructor|]. split; [rewrite nth_error_map, Hj; reflexivity|]. cbn [fst snd goes_by]. split; [|exact HA].
    cbn [gs_story g0] in Or. destruct Or as [-> _]. exact In.
  - injection El as Ec El. subst c l.
    assert (Cont : (exists s2 xs1 x s3 x2, takes_turns (map gs_mem (list_set gs j g')) (map goes_by (list_set gs j g')) s1 (map seat_of (list_set gs j g')) l1 s2 xs1 /\ nth_error xs1 i = Some x /\
        let v := fst (goes_by g) in let sr := snd (goes_by g) in in_session (part v sr s2 x) /\ happens (gs_mem g) v sr (part v sr s2 x) (Use a) o' (part v sr s3 x2)) ->
      exists s2 xs1 x s3 x2, takes_turns (map gs_mem gs) (map goes_by gs) s (map seat_of gs) ((j, e, o) :: l1) s2 xs1 /\ nth_error xs1 i = Some x /\
        let v := fst (goes_by g) in let sr := snd (goes_by g) in in_session (part v sr s2 x) /\ happens (gs_mem g) v sr (part v sr s2 x) (Use a) o' (part v sr s3 x2)).
    { intros (s2 & xs1 & x & s3 & x2 & T & R). exists s2, xs1, x, s3, x2. split; [|exact R]. rewrite W, U, map_list_set in T.
      eapply takes_turns_call with (vendor := se_vendor (w_se w)) (serial := se_serial (w_se w)).
      - rewrite nth_error_map, Hj. reflexivity.
      - rewrite nth_error_map, Hj. reflexivity.
      - rewrite nth_error_map, Hj. reflexivity.
      - exact HA.
      - apply shifts_rest. exact SH.
      - intros Cr. assert (Si : Forall (fun c => caller c <> j) (l1 ++ (i, Use a, o') :: l2)).
        { eapply gathering_silent; [exact J|]. intros g2 Hg2. rewrite nth_error_set_same in Hg2 by exact Ls. injection Hg2 as <-. cbn [gs_story g']. destruct o; cbn in *; try contradiction; reflexivity. }
        apply Forall_app in Si. apply Si.
      - exact T. }
    apply Cont. destruct (PeanoNat.Nat.eq_dec j i) as [->|Ne].
    + rewrite Hj in Hg. injection Hg as <-. cbn [gs_story g0] in Or.
      assert (Hg' : nth_error (list_set gs i g') i = Some g') by (apply nth_error_set_same; exact Ls).
      assert (Wg : goes_by g' = goes_by g0) by (unfold goes_by, g', g0; cbn; congruence).
      assert (Step : exists b', orderly b' (gs_story g') /\ (if b' then in_session (part (fst (goes_by g')) (snd (goes_by g')) s1 (seat_of g')) else st_id (seat_of g') = 0)).
      { rewrite Wg. cbn [goes_by fst snd gs_world g0]. destruct o as [r|c m|ub|].
        - destruct e as [a1|hn p q|]; cbn [orderly] in Or.
          + destruct Or as [-> Or]. exists true. split; [apply Or|]. eapply use_session; [exact In|exact HA].
          + destruct Or as [-> Or]. exists true. split; [exact (Or (Ret r))|]. exact (dial_session _ _ _ (part (se_vendor (w_se w)) (se_serial (w_se w)) s (seat_of g0)) _ _ _ _ _ In HA).
          + destruct Or as (-> & Or & _). exists false. split; [exact (Or r)|]. exact (hang_session _ _ _ _ _ _ _ HA eq_refl).
        - destruct e as [a1|hn p q|]; cbn [orderly] in Or.
          + destruct Or as [-> Or]. exists true. split; [apply Or|]. eapply use_session; [exact In|exact HA].
          + destruct Or as [-> Or]. exists false. split; [exact (Or (Throw c m))|]. exact (dial_session _ _ _ (part (se_vendor (w_se w)) (se_serial (w_se w)) s (seat_of g0)) _ _ _ _ _ In HA).
          + destruct Or as (-> & _ & Or). cbn [gs_story g' next_of]. rewrite Or. exfalso.
            assert (Si : Forall (fun c => caller c <> i) (l1 ++ (i, Use a, o') :: l2)).
            { eapply gathering_silent; [exact J|]. intros g2 Hg2. rewrite Hg' in Hg2. injection Hg2 as <-. cbn [gs_story g' next_of]. apply Or. }
            apply Forall_app in Si. destruct Si as [_ Si]. inversion Si as [|? ? Ci _]; subst. apply Ci. reflexivity.
        - exfalso. assert (Si : Forall (fun c => caller c <> i) (l1 ++ (i, Use a, o') :: l2)) by (eapply gathering_silent; [exact J|]; intros g2 Hg2; rewrite Hg' in Hg2; injection Hg2 as <-; reflexivity).
          apply Forall_app in Si. destruct Si as [_ Si]. inversion Si as [|? ? Ci _]; subst. apply Ci. reflexivity.
        - exfalso. assert (Si : Forall (fun c => caller c <> i) (l1 ++ (i, Use a, o') :: l2)) by (eapply gathering_silent; [exact J|]; intros g2 Hg2; rewrite Hg' in Hg2; injection Hg2 as <-; reflexivity).
          apply Forall_app in Si. destruct Si as [_ Si]. inversion Si as [|? ? Ci _]; subst. apply Ci. reflexivity. }
      destruct Step as (b' & Or' & In'). rewrite <- Wg. change (gs_mem g0) with (gs_mem g'). exact (IH F1 D1 i g' b' Hg' Or' In' l1 a o' l2 eq_refl).
    + apply (IH F1 D1 i g b) with (l2 := l2); [rewrite nth_error_set_other by assumption; exact Hg|exact Or| |reflexivity]. destruct b; exact In.
Qed.
Lemma guests_orderly s gs l s' gs' i g l1 a o l2 : gathering s gs l s' gs' -> Forall (guest_ok s) gs -> NoDup (map goes_by gs) -> nth_error gs i = Some g ->
  orderly false (gs_story g) -> se_id (w_se (gs_world g)) = 0 -> l = l1 ++ (i, Use a, o) :: l2 ->
  exists s1 xs1 x v sr, goes_by g = (v, sr) /\ takes_turns (map gs_mem gs) (map goes_by gs) s (map seat_of gs) l1 s1 xs1 /\ nth_error xs1 i = Some x /\ in_session (part v sr s1 x) /\
    (crash o -> (exists n, a = AskLeave n /\ nth_error (filter (owns v sr) (sv_conns s1)) (N.to_nat n) = None) \/
       exists k junk p q r, a = AskGet k junk p q r /\ sv_attr s1 (p, q, r) = Some []).
Proof.
  intros H F D Hg Or Z El. destruct (gathering_orderly _ _ _ _ _ H F D i g false Hg Or Z _ _ _ _ El) as (s1 & xs1 & x & s2 & x2 & T & Hx & IS & HA). cbv zeta in IS, HA.
  exists s1, xs1, x, (fst (goes_by g)), (snd (goes_by g)). split; [apply surjective_pairing|]. split; [exact T|]. split; [exact Hx|]. split; [exact IS|]. intros Cr.
  remember (part (fst (goes_by g)) (snd (goes_by g)) s1 x) as m eqn:Em. remember (part (fst (goes_by g)) (snd (goes_by g)) s2 x2) as m2 eqn:Em2.
  inversion HA as [l0 id sn a' o'' t1 sn1 I1 DO| | |l0 id sn n NR| |l0 id sn a' Up Nz NE| | | | | | | | | | |]; subst m; subst; cbn [crash] in Cr; try contradiction.
  - right. inversion DO; subst; cbn [crash] in Cr; try contradiction.
    match goal with A : tg_attr ?t _ = Some [], E : mkMachine _ _ _ = part _ _ s1 _ |- _ => pose proof (f_equal (fun m => tg_attr (ln_tg (m_line m))) E) as Q; cbn in Q; rewrite Q in A; eauto 8 end.
  - left. exists n. split; [reflexivity|].
    match goal with E : mkMachine _ _ _ = part _ _ s1 _ |- _ => pose proof (f_equal (fun m => tg_conns (ln_tg (m_line m))) E) as Q; cbn in Q end.
    cbn [requests] in NR. rewrite Q in NR. cbn [goes_by fst snd]. revert NR. generalize (nth_error (filter (owns (se_vendor (w_se (gs_world g))) (se_serial (w_se (gs_world g)))) (sv_conns s1)) (N.to_nat n)).
    intros [p|] NR; [exfalso; apply NR; discriminate|reflexivity].
  - exfalso. match goal with E : mkMachine _ _ _ = part _ _ s1 _ |- _ => rewrite <- E in IS end. destruct IS as (_ & _ & IS). cbn in IS. contradiction.
Qed.

(** ** A client that makes no calls notices nothing *)
Lemma guests_apart s gs l s' gs' i g : gathering s gs l s' gs' -> Forall (guest_ok s) gs -> NoDup (map goes_by gs) -> nth_error gs i = Some g -> Forall (fun c => caller c <> i) l ->
  nth_error gs' i = Some g /\ conns_of (w_se (gs_world g)) s' = conns_of (w_se (gs_world g)) s.
Proof.
  intros H F D Hg Q. assert (Z : nth_error gs' i = Some g).
  { clear F D. induction H as [s gs|s gs j u e next w up io h o w1 es s1 up1 io1 h1 l s' gs' Hj P G M J IH]; [exact Hg|]. inversion Q as [|? ? Q1 Q2]; subst. apply IH; [|exact Q2].
    rewrite nth_error_set_other by exact Q1. exact Hg. }
  split; [exact Z|]. destruct (gathering_turns _ _ _ _ _ H F D) as (_ & F' & _). rewrite Forall_forall in F, F'.
  destruct (F g (nth_error_In _ _ Hg)) as (_ & _ & _ & _ & A). destruct (F' g (nth_error_In _ _ Z)) as (_ & _ & _ & _ & B). congruence.
Qed.

(** ** Last write wins *)
Lemma takes_turns_app us ids s xs l1 l2 s' xs' : takes_turns us ids s xs (l1 ++ l2) s' xs' ->
  exists s1 xs1, takes_turns us ids s xs l1 s1 xs1 /\ takes_turns us ids s1 xs1 l2 s' xs'.
Proof.
  revert s xs. induction l1 as [|c l1 IH]; intros s xs H; [do 2 eexists; split; [constructor|exact H]|].
  cbn in H. inversion H as [|? ? i u v sr x e o s1 x1 l ? ? A B C E O Cr T]; subst. destruct (IH _ _ T) as (s2 & xs2 & T1 & T2). do 2 eexists. split; [|exact T2].
  econstructor; try eassumption. intros Z. apply Cr in Z. apply Forall_app in Z. apply Z.
Qed.
Lemma takes_turns_attr us ids s xs l s' xs' x y z : takes_turns us ids s xs l s' xs' -> Forall (fun c => ~ put_there x y z c) l -> sv_attr s' (x, y, z) = sv_attr s (x, y, z).
Proof.
  induction 1 as [|s xs i u v sr st e o s1 st1 l s' xs' A B C E O Cr T IH]; intros F; [reflexivity|]. inversion F as [|? ? F1 F2]; subst. rewrite IH by exact F2.
  apply (happens_attr _ _ _ _ _ _ _ x y z) in E; [exact E|]. intros (d & val & Q). apply F1. injection Q as -> ->. exists d, val. split; reflexivity.
Qed.
Lemma guests_remember s gs s' gs' l1 i x y z d val l2 j k junk v l3 g data :
  gathering s gs (l1 ++ (i, Use (AskSet x y z d), Ret val) :: l2 ++ (j, Use (AskGet k junk x y z), Ret (Value v)) :: l3) s' gs' ->
  Forall (guest_ok s) gs -> NoDup (map goes_by gs) -> nth_error gs i = Some g -> carries_opt (gs_mem g) d data -> Forall (fun c => ~ put_there x y z c) l2 ->
  fits k v /\ exists rest, data = le k v ++ rest.
Proof.
  intros H F D Hg CA N. destruct (gathering_turns _ _ _ _ _ H F D) as (T & _). apply takes_turns_app in T. destruct T as (s1 & xs1 & _ & T).
  inversion T as [|? ? ? u v0 sr0 x0 ? ? s2 x2 ? ? ? A B C E O Cr T2]; subst. apply takes_turns_app in T2. destruct T2 as (s3 & xs3 & T2 & T3).
  apply (takes_turns_attr _ _ _ _ _ _ _ x y z) in T2; [|exact N]. inversion T3 as [|? ? ? u4 v4 sr4 x4 ? ? s5 x5 ? ? ? A4 B4 C4 E4 O4 Cr4 _]; subst.
  rewrite nth_error_map, Hg in A. injection A as <-.
  assert (W : sv_attr s2 (x, y, z) = Some data).
  { remember (part v0 sr0 s1 x0) as m. remember (part v0 sr0 s2 x2) as m2 eqn:Em. inversion E as [la ia sa aa oa ta sna _ D1| | | | | | | | | | | | | | | |]; subst m; subst. inversion D1; subst.
    match goal with Q : mkMachine (with_tg (put_attr _ ?d2 _) _) _ _ = part _ _ _ _, C2 : carries_opt _ d ?d2 |- _ =>
      change (sv_attr s2 (x, y, z)) with (tg_attr (ln_tg (m_line (part v0 sr0 s2 x2))) (x, y, z)); rewrite <- Q; assert (d2 = data) as -> by (eapply carries_opt_inj; eassumption) end.
    cbn [m_line ln_tg with_tg put_attr tg_attr]. destruct (triple_dec (x, y, z) (x, y, z)); [reflexivity|congruence]. }
  remember (part v4 sr4 s3 x4) as m eqn:Em. remember (part v4 sr4 s5 x5) as m5. inversion E4 as [lb ib sb ab ob tb snb _ D2| | | | | | | | | | | | | | | |]; subst m5; subst. inversion D2; subst.
  match goal with A : tg_attr (ln_tg lb) _ = Some (le k v ++ ?rest), Q : mkMachine lb _ _ = part _ _ s3 _ |- _ => 
    pose proof (f_equal (fun m => tg_attr (ln_tg (m_line m)) (x, y, z)) Q) as Q2; cbn in Q2; split; [assumption|exists rest]; rewrite Q2, T2, W in A; injection A as A; exact A end.
Qed.

(** ** Two clients: one reads what the other left *)
Definition wb (ctl : list rx) : world := session_make [] (mkSock [] [] ctl []) (mkSock [] [] [] []) 0x195 0x5555 7 100.
Definition visitor_a : story := then_if dial (then_if (Use set3) (then_if HangUp End)).
Definition visitor_b : story := then_if dial (then_if (Use get3) End).
Definition world_a : world := w0 [RxData (registered 9); RxData (explicit_reply 9 0x90 0 [])] [].
Definition world_b : world := wb [RxData (registered 10); RxData (explicit_reply 10 0x8E 0 (le 2 513))].
Definition visitors : list guest := [mkGuest [] visitor_a world_a false false 0; mkGuest [] visitor_b world_b false false 0].
Definition visits : list (nat * errand * outcome told) :=
  [(1%nat, dial, Ret Done); (0%nat, dial, Ret Done); (0%nat, Use set3, Ret Done); (0%nat, HangUp, Ret Done); (1%nat, Use get3, Ret (Value 513))].
Lemma visitors_ok : Forall (guest_ok duo_s) visitors /\ NoDup (map goes_by visitors) /\
  Forall (fun g => orderly false (gs_story g) /\ se_id (w_se (gs_world g)) = 0) visitors.
Proof.
  assert (K1 : story_ok [] visitor_a).
  { split; [exact I|]. intros [v|c m|b|]; try exact I. split; [exact set3_ok|]. intros [v1|c m|b|]; try exact I. split; [exact I|]. intros [v2|c m|b|]; exact I. }
  assert (K2 : story_ok [] visitor_b). { split; [exact I|]. intros [v|c m|b|]; try exact I. split; [exact get3_ok|]. intros [v1|c m|b|]; exact I. }
  split; [|split].
  - constructor; [|constructor; [|constructor]].
    + split; [apply session_ok_w0|]. split; [apply user_memory_w0|]. split; [exact K1|]. split; [split; [repeat split; reflexivity|split; constructor]|reflexivity].
    + split; [split; [exact (rbuf_make _ _ _ _ _ _ _)|split; [reflexivity|constructor]]|]. split; [split; [intros b bl E; destruct b; discriminate|intros bl E; cbn in E; discriminate]|].
      split; [exact K2|]. split; [split; [repeat split; reflexivity|split; constructor]|reflexivity].
  - constructor; [intros [H|[]]; discriminate H|]. constructor; [intros []|constructor].
  - repeat constructor.
    + intros [v|c m|b|]; try exact I. split; [reflexivity|]. intros [v1|c m|b|]; try exact I. split; [reflexivity|]. split; [intros v2; exact I|reflexivity].
    + intros [v|c m|b|]; try exact I. split; [reflexivity|]. intros [v1|c m|b|]; exact I.
Qed.
Lemma visiting : exists gs', gathering duo_s visitors visits (mkServer duo_attr []) gs'.
Proof.
  set (b1 := after dial world_b). set (a1 := after dial world_a). set (a2 := after (Use set3) a1). set (a3 := after HangUp a2). set (b2 := after (Use get3) b1).
  eexists. unfold visits, visitors.
  eapply (gathering_call _ _ 1 [] dial _ world_b false false 0 _ b1 (opening 10) duo_s true true 10); [reflexivity|vm_compute; reflexivity|vm_compute; reflexivity|apply meets_opening; try reflexivity; discriminate|].
  eapply (gathering_call _ _ 0 [] dial _ world_a false false 0 _ a1 (opening 9) duo_s true true 9); [reflexivity|vm_compute; reflexivity|vm_compute; reflexivity|apply meets_opening; try reflexivity; discriminate|].
  eapply (gathering_call _ _ 0 [] (Use set3) _ a1 true true 9 _ a2 [ESend Ctl (set_request 9 1 2 3 (le 2 513)) (Some (len (set_request 9 1 2 3 (le 2 513)))); ERecv Ctl (Some (explicit_reply 9 0x90 0 []))] (mkServer duo_attr []) true true 9);
    [reflexivity|vm_compute; reflexivity|vm_compute; reflexivity| |].
  { eapply (meets_served (line_to duo_s true true 9) _ _ _ (seen 9 (mkServer duo_attr []))); [reflexivity|reflexivity|discriminate|reflexivity| |apply meets_nil].
    apply (serves_set (seen 9 duo_s) 1 2 3 (le 2 513) 0x90 [] []); try reflexivity. apply (answers_9 0x90 0 []); reflexivity. }
  eapply (gathering_call _ _ 0 [] HangUp _ a2 true true 9 _ a3 [ESend Ctl (unregister 9) (Some (len (unregister 9))); EClose Ctl true; EClose Io true] (mkServer duo_attr []) false false 0);
    [reflexivity|vm_compute; reflexivity|vm_compute; reflexivity| |].
  { eapply (meets_bye (line_to (mkServer duo_attr []) true true 9) _ 9); try reflexivity. apply meets_hang_up. apply meets_io_shut. apply meets_nil. }
  eapply (gathering_call _ _ 1 [] (Use get3) _ b1 true true 10 _ b2 [ESend Ctl (get_request 10 1 2 3) (Some (len (get_request 10 1 2 3))); ERecv Ctl (Some (explicit_reply 10 0x8E 0 (le 2 513)))] (mkServer duo_attr []) true true 10);
    [reflexivity|vm_compute; reflexivity|vm_compute; reflexivity| |apply gathering_nil].
  eapply (meets_served (line_to (mkServer duo_attr []) true true 10) _ _ _ (seen 10 (mkServer duo_attr []))); [reflexivity|reflexivity|discriminate|reflexivity| |apply meets_nil].
  apply (serves_get (seen 10 (mkServer duo_attr [])) 1 2 3 0x8E [] (le 2 513)); try reflexivity. apply (answers_10 0x8E 0); reflexivity.
Qed.
