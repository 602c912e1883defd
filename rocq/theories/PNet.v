(** * PNet: the concrete sockets (C60, C61, C88-C90). *)
From Verif Require Export Vocab11 PRest.
From Coq Require Import Arith.PeanoNat.
Local Open Scope N_scope.

Lemma clash_spec a b : clash a b = true <-> same_port a b.
Proof.
  unfold clash, same_port. destruct (N.eqb_spec (e_port a) 0), (N.eqb_spec (e_port a) (e_port b)), (N.eqb_spec (e_addr a) (e_addr b)), (N.eqb_spec (e_addr a) 0), (N.eqb_spec (e_addr b) 0);
    cbn; split; intros H; try discriminate; try reflexivity; intuition congruence.
Qed.
Lemma same_port_sym a b : same_port a b -> same_port b a.
Proof. intros (A & B & C). split; [congruence|]. split; [congruence|]. intuition. Qed.
Lemma in_use_owned e h i u a : udp_at h i u -> us_fd u = FClosed -> existsb (clash a) (in_use e h) = true <-> owned e h i a.
Proof.
  intros U C. rewrite existsb_exists. unfold in_use, owned. split.
  - intros (b & I & K). apply clash_spec in K. apply in_app_or in I. destruct I as [I|I]; [left; eauto|right].
    apply in_flat_map in I. destruct I as (v & Iv & Ib). apply In_nth_error in Iv. destruct Iv as (j & J).
    unfold bound_of in Ib. destruct (us_fd v) as [| |b'] eqn:F; [destruct Ib|destruct Ib|]. destruct Ib as [<-|[]].
    exists j, v, b'. split; [|auto]. intros ->. unfold udp_at in U. rewrite U in J. injection J as <-. congruence.
  - intros [(b & I & K)|(j & v & b & _ & V & F & K)]; exists b; (split; [apply in_or_app|apply clash_spec; exact K]); [left; exact I|right].
    apply in_flat_map. exists v. split; [eapply nth_error_In; exact V|]. unfold bound_of. rewrite F. left. reflexivity.
Qed.
Lemma only_set h i u u0 : udp_at h i u0 -> only_udp h (ho_set_udp i u h) i u.
Proof.
  intros U. split; [apply nth_error_set_same; eapply nth_error_lt; exact U|]. split; [|auto]. intros j N. apply nth_error_set_other. congruence.
Qed.
Lemma open_exact e n p i h u : udp_at h i u ->
  match en_resolve e n p with
  | [] => exists s, udp_open e n p i h = (Throw SystemError s, h)
  | r :: _ =>
      (us_fd u = FClosed -> ~ owned e h i (us_local u) ->
         exists h', udp_open e n p i h = (Ret tt, h') /\ only_udp h h' i (mkUdp (FBound (us_local u)) (us_local u) r)) /\
      (us_fd u = FClosed -> owned e h i (us_local u) ->
         exists s h', udp_open e n p i h = (Throw SystemError s, h') /\ only_udp h h' i (mkUdp FOpen (us_local u) r)) /\
      (us_fd u <> FClosed ->
         exists s h', udp_open e n p i h = (Throw SystemError s, h') /\ only_udp h h' i (mkUdp (us_fd u) (us_local u) r))
  end.
Proof.
  intros U. unfold udp_open. unfold udp_at in U. rewrite U. destruct (en_resolve e n p) as [|r rs]; [eauto|]. cbn [us_set_remote us_fd us_local]. split; [|split].
  - intros C O. rewrite C. destruct (existsb _ _) eqn:E; [destruct O; eapply in_use_owned; eauto|]. eexists. split; [reflexivity|]. eapply only_set. exact U.
  - intros C O. rewrite C. apply (in_use_owned e h i u _ U C) in O. rewrite O. do 2 eexists. split; [reflexivity|]. eapply only_set. exact U.
  - intros C. destruct (us_fd u) eqn:F; [destruct C; reflexivity| |]; do 2 eexists; (split; [reflexivity|]); rewrite <- F; eapply only_set; exact U.
Qed.
Lemma send_exact i h u bs : udp_at h i u ->
  (us_fd u = FClosed -> exists s, udp_send i bs h = (Throw SystemError s, h)) /\
  (us_fd u <> FClosed -> 65507 < len bs -> exists s, udp_send i bs h = (Throw SystemError s, h)) /\
  (us_fd u <> FClosed -> len bs <= 65507 -> exists h' u', udp_send i bs h = (Ret (len bs), h') /\ ho_sent h' = ho_sent h ++ [(i, us_remote u, bs)] /\
     udp_at h' i u' /\ us_fd u' <> FClosed /\ us_remote u' = us_remote u /\ us_local u' = us_local u).
Proof.
  intros U. unfold udp_send. unfold udp_at in U. rewrite U. split; [|split].
  - intros ->. eauto.
  - intros C L. destruct (us_fd u); [congruence| |]; (destruct (N.ltb_spec 65507 (len bs)); [eauto|lia]).
  - intros C L. destruct (N.ltb_spec 65507 (len bs)); [lia|].
    destruct (us_fd u) eqn:F; [congruence| |]; do 2 eexists; (split; [reflexivity|]); (split; [reflexivity|]);
      (split; [apply nth_error_set_same; eapply nth_error_lt; exact U|]); (split; [discriminate|auto]).
Qed.
(** A failed open on an open socket redirects what is sent. *)
Lemma open_redirects e n p i h u r rs bs : udp_at h i u -> us_fd u <> FClosed -> en_resolve e n p = r :: rs -> len bs <= 65507 ->
  exists s h1 h2, udp_open e n p i h = (Throw SystemError s, h1) /\ udp_send i bs h1 = (Ret (len bs), h2) /\ ho_sent h2 = ho_sent h ++ [(i, r, bs)].
Proof.
  intros U F R L. pose proof (open_exact e n p i h u U) as X. rewrite R in X. destruct X as (_ & _ & X). destruct (X F) as (s & h1 & E & (U1 & _ & _ & S1)).
  destruct (send_exact i h1 _ bs U1) as (_ & _ & Y). destruct (Y F L) as (h2 & u' & E2 & S2 & _). exists s, h1, h2. rewrite S1 in S2. auto.
Qed.

(** Once open, a socket stays open until it is closed. *)
Lemma set_udp_at h i u j : nth_error (ho_udp (ho_set_udp i u h)) j = if Nat.eqb i j then (if Nat.ltb j (List.length (ho_udp h)) then Some u else None) else nth_error (ho_udp h) j.
Proof.
  cbn [ho_set_udp ho_udp]. destruct (Nat.eqb_spec i j) as [->|N].
  - destruct (Nat.ltb_spec j (List.length (ho_udp h))) as [L|L]; [apply nth_error_set_same; exact L|]. apply nth_error_None. rewrite length_list_set. exact L.
  - apply nth_error_set_other. congruence.
Qed.
Definition fd_step (e : env) (c : call) (h : host) (o : outcome N) (j : nat) (v v' : udp_socket) : Prop :=
  us_local v' = us_local v /\
  ((us_fd v' = us_fd v /\ c <> UClose j /\ forall n p, c = UOpen j n p -> exists s, o = Throw SystemError s) \/
   (c = UClose j /\ us_fd v' = FClosed /\ o = Ret 0) \/
   (exists n p, c = UOpen j n p /\ us_fd v = FClosed /\ us_fd v' = FBound (us_local v) /\ ~ owned e h j (us_local v) /\ o = Ret 0) \/
   (exists n p s, c = UOpen j n p /\ us_fd v = FClosed /\ us_fd v' = FOpen /\ o = Throw SystemError s) \/
   (exists bs, c = USend j bs /\ us_fd v = FOpen /\ us_fd v' = FBound (mkEnd 0 0))).
Lemma keep_fd e c h o j v : c <> UClose j -> (forall n p, c = UOpen j n p -> exists s, o = Throw SystemError s) -> fd_step e c h o j v v.
Proof. intros A B. split; [reflexivity|]. left. auto. Qed.
Lemma step_at e c h o h' j v' : do_call e c h = (o, h') -> udp_at h' j v' -> exists v, udp_at h j v /\ fd_step e c h o j v v'.
Proof.
  unfold udp_at. destruct c as [i n p|i|i bs|i n p|i]; cbn [do_call]; intros H V.
  - unfold udp_open in H. destruct (nth_error (ho_udp h) i) as [u|] eqn:U.
    2: { injection H as <- <-. exists v'. split; [exact V|]. apply keep_fd; [discriminate|]. intros n' p' E. injection E as -> -> ->. congruence. }
    destruct (en_resolve e n p) as [|r rs]; [injection H as <- <-; exists v'; split; [exact V|]; apply keep_fd; [discriminate|eauto]|].
    cbn [us_set_remote us_fd us_local] in H. destruct (us_fd u) eqn:F.
    + destruct (existsb _ _) eqn:X; injection H as <- <-; rewrite set_udp_at in V; (destruct (Nat.eqb_spec i j) as [<-|N];
        [|exists v'; split; [exact V|]; apply keep_fd; [discriminate|congruence]]);
        (destruct (Nat.ltb_spec i (List.length (ho_udp h))) as [L|L]; [|discriminate V]); injection V as <-; exists u; (split; [exact U|]); (split; [reflexivity|]).
      * do 3 right. left. do 3 eexists. auto.
      * do 2 right. left. do 2 eexists. split; [reflexivity|]. split; [exact F|]. split; [reflexivity|]. split; [|reflexivity].
        intros O. apply (in_use_owned e h i u _ U F) in O. congruence.
    + injection H as <- <-. rewrite set_udp_at in V. destruct (Nat.eqb_spec i j) as [<-|N];
        [|exists v'; split; [exact V|]; apply keep_fd; [discriminate|congruence]].
      destruct (Nat.ltb_spec i (List.length (ho_udp h))) as [L|L]; [|discriminate V]. injection V as <-. exists u. split; [exact U|]. split; [reflexivity|].
      left. split; [reflexivity|]. split; [discriminate|]. eauto.
    + injection H as <- <-. rewrite set_udp_at in V. destruct (Nat.eqb_spec i j) as [<-|N];
        [|exists v'; split; [exact V|]; apply keep_fd; [discriminate|congruence]].
      destruct (Nat.ltb_spec i (List.length (ho_udp h))) as [L|L]; [|discriminate V]. injection V as <-. exists u. split; [exact U|]. split; [reflexivity|].
      left. split; [reflexivity|]. split; [discriminate|]. eauto.
  - unfold udp_close in H. destruct (nth_error (ho_udp h) i) as [u|] eqn:U.
    2: { injection H as <- <-. exists v'. split; [exact V|]. apply keep_fd; [|discriminate]. intros E. injection E as ->. congruence. }
    injection H as <- <-. rewrite set_udp_at in V. destruct (Nat.eqb_spec i j) as [<-|N];
      [|exists v'; split; [exact V|]; apply keep_fd; [congruence|discriminate]].
    destruct (Nat.ltb_spec i (List.length (ho_udp h))) as [L|L]; [|discriminate V]. injection V as <-. exists u. split; [exact U|]. split; [reflexivity|].
    right. left. auto.
  - unfold udp_send in H. destruct (nth_error (ho_udp h) i) as [u|] eqn:U.
    2: { injection H as <- <-. exists v'. split; [exact V|]. apply keep_fd; discriminate. }
    destruct (us_fd u) eqn:F; [injection H as <- <-; exists v'; split; [exact V|]; apply keep_fd; discriminate| |];
      (destruct (65507 <? len bs); [injection H as <- <-; exists v'; split; [exact V|]; apply keep_fd; discriminate|]);
      injection H as <- <-; cbn [ho_log ho_udp] in V; rewrite set_udp_at in V; (destruct (Nat.eqb_spec i j) as [<-|N];
      [|exists v'; split; [exact V|]; apply keep_fd; discriminate]);
      (destruct (Nat.ltb_spec i (List.length (ho_udp h))) as [L|L]; [|discriminate V]); injection V as <-; exists u; (split; [exact U|]); (split; [reflexivity|]).
    + do 4 right. eauto.
    + left. split; [symmetry; exact F|]. split; discriminate.
  - assert (K : ho_udp h' = ho_udp h).
    { unfold tcp_open in H. destruct (nth_error (ho_tcp h) i); [|injection H as <- <-; reflexivity]. destruct (en_resolve e n p); [injection H as <- <-; reflexivity|].
      destruct (tcp_connect _ _ _). injection H as <- <-. reflexivity. }
    rewrite K in V. exists v'. split; [exact V|]. apply keep_fd; discriminate.
  - assert (K : ho_udp h' = ho_udp h).
    { unfold tcp_close in H. destruct (nth_error (ho_tcp h) i); injection H as <- <-; reflexivity. }
    rewrite K in V. exists v'. split; [exact V|]. apply keep_fd; discriminate.
Qed.
Lemma apart_step e c h o h' : do_call e c h = (o, h') -> ports_apart h -> ports_apart h'.
Proof.
  intros H A i j u' v' a b U V N Fu Fv S.
  destruct (step_at _ _ _ _ _ _ _ H U) as (u & U0 & _ & Su). destruct (step_at _ _ _ _ _ _ _ H V) as (v & V0 & _ & Sv).
  assert (P : e_port a <> 0 /\ e_port b <> 0) by (destruct S as (S1 & S2 & _); split; congruence).
  destruct Su as [(Eu & _)|[(_ & Eu & _)|[(n & p & -> & Cu & Eu & Ou & _)|[(n & p & s & -> & Cu & Eu & _)|(bs & -> & _ & Eu)]]]]; try congruence.
  - destruct Sv as [(Ev & _)|[(_ & Ev & _)|[(n & p & -> & Cv & Ev & Ov & _)|[(n & p & s & -> & Cv & Ev & _)|(bs & -> & _ & Ev)]]]]; try congruence.
    + apply (A i j u v a b U0 V0 N); congruence.
    + apply Ov. right. exists i, u, a. split; [exact N|]. split; [exact U0|]. split; [congruence|]. rewrite Ev in Fv. injection Fv as <-. apply same_port_sym. exact S.
    + rewrite Ev in Fv. injection Fv as <-. destruct P as [_ P]. destruct P. reflexivity.
  - destruct Sv as [(Ev & _)|[(K & Ev & _)|[(n' & p' & K & _)|[(n' & p' & s & K & _)|(bs & K & _)]]]]; try congruence.
    apply Ou. right. exists j, v, b. split; [congruence|]. split; [exact V0|]. split; [congruence|]. rewrite Eu in Fu. injection Fu as <-. exact S.
  - rewrite Eu in Fu. injection Fu as <-. destruct P as [P _]. destruct P. reflexivity.
Qed.
Lemma apart_calls cs : forall h, ports_apart h -> ports_apart (snd (do_calls cs h)).
Proof.
  induction cs as [|[e c] cs IH]; intros h A; cbn [do_calls]; [exact A|]. destruct (do_call e c h) as [o h1] eqn:E. pose proof (apart_step _ _ _ _ _ E A) as A1.
  destruct o; try exact A1; specialize (IH h1 A1); destruct (do_calls cs h1); exact IH.
Qed.
Lemma apart_new h : (forall u, In u (ho_udp h) -> us_fd u = FClosed) -> ports_apart h.
Proof. intros C i j u v a b U V _ F. apply nth_error_In in U. rewrite (C u U) in F. discriminate. Qed.
Lemma port_refused e n p h i j u v a : udp_at h i u -> udp_at h j v -> i <> j -> us_fd v = FBound a -> same_port (us_local u) a ->
  exists s h', udp_open e n p i h = (Throw SystemError s, h').
Proof.
  intros U V N F S. pose proof (open_exact e n p i h u U) as X. destruct (en_resolve e n p) as [|r rs]; [destruct X as [s X]; eauto|]. destruct X as (_ & X & Y).
  destruct (us_fd u) as [| |l] eqn:Fu.
  - destruct X as (s & h' & E & _); [reflexivity| |eauto]. right. exists j, v, a. auto.
  - destruct Y as (s & h' & E & _); [discriminate|eauto].
  - destruct Y as (s & h' & E & _); [discriminate|eauto].
Qed.
(** After a failed bind, every open fails until the socket is closed. *)
Lemma open_length e c h o h' : do_call e c h = (o, h') -> List.length (ho_udp h') = List.length (ho_udp h).
Proof.
  destruct c as [i n p|i|i bs|i n p|i]; cbn [do_call]; intros H.
  - unfold udp_open in H. destruct (nth_error (ho_udp h) i) as [u|]; [|injection H as <- <-; reflexivity].
    destruct (en_resolve e n p); [injection H as <- <-; reflexivity|]. cbn [us_set_remote us_fd us_local] in H.
    destruct (us_fd u); [destruct (existsb _ _)| |]; injection H as <- <-; apply length_list_set.
  - unfold udp_close in H. destruct (nth_error (ho_udp h) i) as [u|]; injection H as <- <-; [apply length_list_set|reflexivity].
  - unfold udp_send in H. destruct (nth_error (ho_udp h) i) as [u|]; [|injection H as <- <-; reflexivity].
    destruct (us_fd u); [injection H as <- <-; reflexivity| |]; (destruct (_ <? _); injection H as <- <-; [reflexivity|apply length_list_set]).
  - unfold tcp_open in H. destruct (nth_error (ho_tcp h) i); [|injection H as <- <-; reflexivity]. destruct (en_resolve e n p); [injection H as <- <-; reflexivity|].
    destruct (tcp_connect _ _ _). injection H as <- <-. reflexivity.
  - unfold tcp_close in H. destruct (nth_error (ho_tcp h) i); injection H as <- <-; reflexivity.
Qed.
Lemma open_stays cs : forall h i u, udp_at h i u -> us_fd u <> FClosed -> Forall (fun x => not_closed i (snd x)) cs ->
  forall k e n p o, nth_error cs k = Some (e, UOpen i n p) -> nth_error (fst (do_calls cs h)) k = Some o -> exists s, o = Throw SystemError s.
Proof.
  induction cs as [|[e c] cs IH]; intros h i u U F A k e' n p o K O; [destruct k; discriminate|]. apply Forall_cons_iff in A. destruct A as [A1 A]. cbn [snd] in A1.
  cbn [do_calls] in O. destruct (do_call e c h) as [o1 h1] eqn:E.
  assert (exists u1, udp_at h1 i u1) as (u1 & U1).
  { unfold udp_at in *. apply nth_error_lt in U. rewrite <- (open_length _ _ _ _ _ E) in U. destruct (nth_error (ho_udp h1) i) eqn:Q; [eauto|]. apply nth_error_None in Q. lia. }
  destruct (step_at _ _ _ _ _ _ _ E U1) as (u0 & U0 & _ & S). unfold udp_at in U, U0. rewrite U in U0. injection U0 as <-.
  assert (us_fd u1 <> FClosed /\ forall n p, c = UOpen i n p -> exists s, o1 = Throw SystemError s) as [F1 R1].
  { destruct S as [(S & _ & R)|[(S & _)|[(n' & p' & -> & S & _)|[(n' & p' & s & -> & S & _)|(bs & -> & _ & S)]]]]; [split; [congruence|exact R]|destruct (A1 S)|congruence|congruence|].
    split; [congruence|discriminate]. }
  destruct k as [|k]; cbn [nth_error] in K.
  - injection K as -> ->. destruct (R1 _ _ eq_refl) as (s & ->). destruct (do_calls cs h1). injection O as <-. eauto.
  - destruct o1; [| |destruct k; discriminate O|destruct k; discriminate O]; specialize (IH h1 i u1 U1 F1 A k e' n p o K);
      destruct (do_calls cs h1); exact (IH O).
Qed.
Lemma bind_failure e n p i h u r rs : udp_at h i u -> us_fd u = FClosed -> en_resolve e n p = r :: rs -> owned e h i (us_local u) ->
  exists s h1, udp_open e n p i h = (Throw SystemError s, h1) /\
    forall cs, Forall (fun x => not_closed i (snd x)) cs -> forall k e' n' p' o, nth_error cs k = Some (e', UOpen i n' p') ->
    nth_error (fst (do_calls cs h1)) k = Some o -> exists s', o = Throw SystemError s'.
Proof.
  intros U C R O. pose proof (open_exact e n p i h u U) as X. rewrite R in X. destruct X as (_ & X & _). destruct (X C O) as (s & h1 & E & U1 & _).
  exists s, h1. split; [exact E|]. intros cs A k e' n' p' o K Q. refine (open_stays cs h1 i _ U1 _ A k e' n' p' o K Q). discriminate.
Qed.
(** ** Link to the session model *)
Lemma possible cs : forall h i u b, udp_at h i u -> (b = true -> us_fd u <> FClosed) -> udp_possible b (udp_events i cs (fst (do_calls cs h))).
Proof.
  induction cs as [|[e c] cs IH]; intros h i u b U B; [exact Logic.I|]. cbn [do_calls]. destruct (do_call e c h) as [o h1] eqn:E.
  assert (exists u1, udp_at h1 i u1) as (u1 & U1).
  { unfold udp_at in *. apply nth_error_lt in U. rewrite <- (open_length _ _ _ _ _ E) in U. destruct (nth_error (ho_udp h1) i) eqn:Q; [eauto|]. apply nth_error_None in Q. lia. }
  destruct (step_at _ _ _ _ _ _ _ E U1) as (u0 & U0 & _ & S). unfold udp_at in U, U0. rewrite U in U0. injection U0 as <-.
  assert (T : exists os, (os = [] \/ os = fst (do_calls cs h1)) /\ fst (match o with Undef _ | Stuck => ([o], h1) | _ => let (os, h2) := do_calls cs h1 in (o :: os, h2) end) = o :: os).
  { destruct o; [| |exists []; auto|exists []; auto]; destruct (do_calls cs h1) as [os h2]; exists os; auto. }
  destruct T as (os & T & ->).
  assert (N : forall i, udp_events i cs [] = []) by (intros i'; destruct cs as [|[? []] ?]; reflexivity).
  assert (G : forall b', (b' = true -> us_fd u1 <> FClosed) -> udp_possible b' (udp_events i cs os)).
  { intros b' B'. destruct T as [->| ->]; [rewrite N; exact Logic.I|]. eapply IH; eassumption. }
  destruct c as [j n p|j|j bs|j n p|j]; cbn [udp_events].
  - destruct (Nat.eqb_spec j i) as [->|Nj].
    + destruct S as [(S & _ & R)|[(S & _)|[(n' & p' & _ & S0 & S & _ & ->)|[(n' & p' & s & _ & S0 & S & ->)|(bs & S & _)]]]]; try discriminate.
      * destruct (R _ _ eq_refl) as (s & ->). cbn [udp_possible]. apply G. rewrite S; exact B.
      * cbn [udp_possible]. split; [destruct b; [destruct (B eq_refl S0)|reflexivity]|]. apply G. congruence.
      * cbn [udp_possible]. apply G. congruence.
    + apply G. intros Q. destruct S as [(S & _)|[(S & _)|[(n' & p' & S & _)|[(n' & p' & s & S & _)|(bs & S & _)]]]]; try congruence. rewrite S. auto.
  - destruct (Nat.eqb_spec j i) as [->|Nj].
    + destruct S as [(S & R & _)|[(_ & S & ->)|[(n' & p' & S & _)|[(n' & p' & s & S & _)|(bs & S & _)]]]]; try discriminate; [congruence|].
      cbn [udp_possible]. apply G. discriminate.
    + apply G. intros Q. destruct S as [(S & _)|[(S & _)|[(n' & p' & S & _)|[(n' & p' & s & S & _)|(bs & S & _)]]]]; try congruence. rewrite S. auto.
  - apply G. intros Q. destruct S as [(S & _)|[(S & _)|[(n' & p' & S & _)|[(n' & p' & s & S & _)|(bs' & _ & _ & S)]]]]; try congruence. rewrite S. auto.
  - apply G. intros Q. destruct S as [(S & _)|[(S & _)|[(n' & p' & S & _)|[(n' & p' & s & S & _)|(bs' & S & _)]]]]; try congruence. rewrite S. auto.
  - apply G. intros Q. destruct S as [(S & _)|[(S & _)|[(n' & p' & S & _)|[(n' & p' & s & S & _)|(bs' & S & _)]]]]; try congruence. rewrite S. auto.
Qed.
Lemma possible_new cs h i u : udp_at h i u -> us_fd u = FClosed -> udp_possible false (udp_events i cs (fst (do_calls cs h))).
Proof. intros U C. apply (possible cs h i u false U). discriminate. Qed.
(** ** TCP *)
Lemma connect_first e : forall rs t, (exists r, first_accepting e rs r /\ tcp_connect e rs t = (Ret tt, TConnected r)) \/
  ((forall x, In x rs -> en_accepts e x = false) /\ exists s, tcp_connect e rs t = (Throw SystemError s, match rs with [] => t | _ => TOpen end)).
Proof.
  induction rs as [|r rs IH]; intros t; cbn [tcp_connect].
  - right. split; [intros x []|eauto].
  - destruct (en_accepts e r) eqn:A.
    + left. exists r. split; [|reflexivity]. exists [], rs. split; [reflexivity|]. split; [intros x []|exact A].
    + destruct (IH TOpen) as [(r' & (a & b & -> & Na & Ar) & E)|(N & s & E)].
      * left. exists r'. split; [|exact E]. exists (r :: a), b. split; [reflexivity|]. split; [|exact Ar]. intros x [<-|I]; [exact A|exact (Na x I)].
      * right. split; [intros x [<-|I]; [exact A|exact (N x I)]|]. exists s. rewrite E. destruct rs; reflexivity.
Qed.
Lemma only_set_tcp h i t t0 : tcp_at h i t0 -> only_tcp h (ho_set_tcp i t h) i t.
Proof.
  intros U. split; [apply nth_error_set_same; eapply nth_error_lt; exact U|]. split; [|auto]. intros j N. apply nth_error_set_other. congruence.
Qed.
Lemma tcp_exact e n p i h t : tcp_at h i t ->
  (exists r h', first_accepting e (en_resolve e n p) r /\ tcp_open e n p i h = (Ret tt, h') /\ only_tcp h h' i (TConnected r)) \/
  ((forall x, In x (en_resolve e n p) -> en_accepts e x = false) /\
   exists s h', tcp_open e n p i h = (Throw SystemError s, h') /\
     ((en_resolve e n p = [] /\ h' = h) \/ (en_resolve e n p <> [] /\ only_tcp h h' i TOpen))).
Proof.
  intros T. unfold tcp_open. unfold tcp_at in T. rewrite T. pose proof (connect_first e (en_resolve e n p) t) as C.
  destruct (en_resolve e n p) as [|r0 rs].
  - right. split; [intros x []|]. do 2 eexists. split; [reflexivity|]. left. auto.
  - destruct C as [(r & A & E)|(N & s & E)]; rewrite E.
    + left. exists r. eexists. split; [exact A|]. split; [reflexivity|]. eapply only_set_tcp. exact T.
    + right. split; [exact N|]. do 2 eexists. split; [reflexivity|]. right. split; [discriminate|]. eapply only_set_tcp. exact T.
Qed.
Lemma tcp_lost e n p i h old : tcp_at h i (TConnected old) -> en_resolve e n p <> [] -> (forall x, In x (en_resolve e n p) -> en_accepts e x = false) ->
  exists s h', tcp_open e n p i h = (Throw SystemError s, h') /\ tcp_at h' i TOpen.
Proof.
  intros T R N. destruct (tcp_exact e n p i h _ T) as [(r & h' & (a & b & E & _ & A) & _)|(_ & s & h' & E & [[Q _]|[_ O]])].
  - rewrite N in A; [discriminate|]. rewrite E. apply in_or_app. right. left. reflexivity.
  - contradiction.
  - exists s, h'. split; [exact E|exact (proj1 O)].
Qed.
(** ** The test socket under any interleaving *)
Lemma ts_run_inv cs : forall t s rx, len (ts_tx t) = 4096 -> ts_tx_count t = N.min 4096 (len s) -> take (ts_tx_count t) (ts_tx t) = take 4096 s ->
  let ds := fst (ts_run cs t) in let t' := snd (ts_run cs t) in
  (rx = List.concat ds ++ ts_rx t' <-> rx = ts_rx t) /\ ts_rx_count t' = ts_rx_count t + len (List.concat ds) /\
  Forall2 (fun c d => len d <= asked c /\ (len d < asked c -> ts_rx t' = [])) cs ds /\
  ts_tx_count t' = N.min 4096 (len (sent_since s cs)) /\ take (ts_tx_count t') (ts_tx t') = take 4096 (sent_since s cs) /\
  (ts_open t', (ts_host t', ts_port t')) = last_opened (ts_open t) (ts_host t, ts_port t) cs.
Proof.
  induction cs as [|c cs IH]; intros t s rx L C T; cbn zeta; cbn [ts_run].
  - cbn [fst snd List.concat app sent_since last_opened]. change (len (@nil byte)) with 0. split; [tauto|]. split; [lia|]. split; [constructor|]. auto.
  - destruct (ts_do c t) as [d t1] eqn:E. destruct (ts_run cs t1) as [ds t2] eqn:R. cbn [fst snd List.concat].
    assert (I : exists s1, len (ts_tx t1) = 4096 /\ ts_tx_count t1 = N.min 4096 (len s1) /\ take (ts_tx_count t1) (ts_tx t1) = take 4096 s1 /\
      sent_since s (c :: cs) = sent_since s1 cs /\ last_opened (ts_open t) (ts_host t, ts_port t) (c :: cs) = last_opened (ts_open t1) (ts_host t1, ts_port t1) cs /\
      ts_rx t = d ++ ts_rx t1 /\ ts_rx_count t1 = ts_rx_count t + len d /\ len d <= asked c /\ (len d < asked c -> ts_rx t1 = [])).
    { destruct c as [h p| |bs|n|]; cbn [ts_do] in E.
      - injection E as <- <-. exists s. cbn [ts_do_open ts_tx ts_tx_count ts_open ts_host ts_port ts_rx ts_rx_count asked sent_since last_opened app]. change (len (@nil byte)) with 0. repeat split; auto; lia.
      - injection E as <- <-. exists s. cbn [ts_do_close ts_tx ts_tx_count ts_open ts_host ts_port ts_rx ts_rx_count asked sent_since last_opened app]. change (len (@nil byte)) with 0. repeat split; auto; lia.
      - apply pair_equal_spec in E. destruct E as [<- <-]. exists (s ++ bs). cbn [ts_send snd ts_tx ts_tx_count ts_open ts_host ts_port ts_rx ts_rx_count asked sent_since last_opened app]. change (len (@nil byte)) with 0.
        rewrite (len_app s bs). remember (N.min (len bs) (4096 - ts_tx_count t)) as n eqn:En. assert (Ln : n <= len bs) by lia. assert (Cn : ts_tx_count t + n <= 4096) by lia.
        split; [rewrite !len_app, !len_take, len_drop; lia|]. split; [lia|]. split; [|repeat split; auto; lia].
        rewrite app_assoc. rewrite (take_app (ts_tx_count t + n)) by (rewrite len_app, !len_take; lia). rewrite T. subst n.
        destruct (N.le_gt_cases 4096 (len s)).
        + replace (ts_tx_count t) with 4096 by lia. rewrite N.sub_diag, N.min_0_r, take_0, app_nil_r. symmetry. apply take_app_l. lia.
        + rewrite (take_all 4096 s) by lia. rewrite (take_app_ge 4096 s) by lia. f_equal. rewrite C.
          replace (N.min 4096 (len s)) with (len s) by lia. destruct (N.le_gt_cases (len bs) (4096 - len s)).
          * rewrite N.min_l by lia. rewrite !take_all by lia. reflexivity.
          * rewrite N.min_r by lia. reflexivity.
      - unfold ts_receive in E. injection E as <- <-. exists s. cbn [ts_tx ts_tx_count ts_open ts_host ts_port ts_rx ts_rx_count asked sent_since last_opened].
        repeat split; auto.
        + rewrite len_take. destruct (N.le_gt_cases n (len (ts_rx t))); [rewrite N.min_l by lia; symmetry; apply take_drop|]. rewrite N.min_r by lia. rewrite take_all, drop_all by lia. symmetry. apply app_nil_r.
        + rewrite len_take. lia.
        + rewrite len_take. intros H. apply drop_all. lia.
      - injection E as <- <-. exists []. cbn [ts_clear ts_tx ts_tx_count ts_open ts_host ts_port ts_rx ts_rx_count asked sent_since last_opened app]. change (len (@nil byte)) with 0.
        split; [rewrite len_app, len_zeros, len_drop; lia|]. split; [lia|]. split; [reflexivity|]. repeat split; auto; lia. }
    destruct I as (s1 & L1 & C1 & T1 & -> & -> & Rx & Rc & La & Le). specialize (IH t1 s1 (ts_rx t1) L1 C1 T1). cbn zeta in IH. rewrite R in IH. cbn [fst snd] in IH.
    destruct IH as (A & B & F & D & G & K). pose proof (proj2 A eq_refl) as A'. split.
    + rewrite Rx, A', app_assoc. tauto.
    + split; [rewrite B, Rc, len_app; lia|]. split; [|auto]. constructor; [|exact F]. split; [exact La|]. intros H. specialize (Le H).
      rewrite Le in A'. symmetry in A'. apply app_eq_nil in A'. tauto.
Qed.
Lemma ts_history cs junk rx : len junk = 4096 ->
  let ds := fst (ts_run cs (ts_make junk rx)) in let t := snd (ts_run cs (ts_make junk rx)) in
  rx = List.concat ds ++ ts_rx t /\ ts_rx_count t = len (List.concat ds) /\
  Forall2 (fun c d => len d <= asked c /\ (len d < asked c -> ts_rx t = [])) cs ds /\
  ts_tx_count t = N.min 4096 (len (sent_since [] cs)) /\ take (ts_tx_count t) (ts_tx t) = take 4096 (sent_since [] cs) /\
  (ts_open t, (ts_host t, ts_port t)) = last_opened false (EmptyString, EmptyString) cs.
Proof.
  intros J. assert (I := ts_run_inv cs (ts_make junk rx) [] rx J eq_refl eq_refl). cbn zeta in *. destruct I as (A & B & C).
  split; [apply A; reflexivity|]. split; [exact B|exact C].
Qed.
