(** Proofs for C135. *)
From Verif Require Export Vocab38 PNet.
From Coq Require Import Logic.FinFun.
Local Open Scope N_scope.

Definition total {A} (f : A -> N) (l : list A) : N := fold_right (fun u n => f u + n) 0 l.
Lemma held_total h : n_held h = total u_holds (ho_udp h) + total t_holds (ho_tcp h). Proof. reflexivity. Qed.
Lemma total_set {A} (f : A -> N) x y : forall l i, nth_error l i = Some x -> total f (list_set l i y) + f x = total f l + f y.
Proof.
  induction l as [|a l IH]; intros [|i] H; cbn [nth_error list_set] in *; try discriminate H; cbn [total fold_right].
  - injection H as ->. unfold total. lia.
  - specialize (IH i H). unfold total in *. lia.
Qed.
Lemma total_in {A} (f : A -> N) x : forall l i, nth_error l i = Some x -> f x <= total f l.
Proof.
  induction l as [|a l IH]; intros [|i] H; cbn [nth_error] in *; try discriminate H; cbn [total fold_right].
  - injection H as ->. lia.
  - specialize (IH i H). unfold total in *. lia.
Qed.
Lemma total_count {A} (f : A -> N) : (forall x, f x = 0 \/ f x = 1) -> forall l, exists is, NoDup is /\ (forall i, In i is <-> exists x, nth_error l i = Some x /\ f x = 1) /\ len is = total f l.
Proof.
  intros B. induction l as [|a l (is & D & M & E)].
  - exists []. split; [constructor|]. split; [|reflexivity]. intros i. split; [intros []|]. intros (x & H & _). destruct i; discriminate H.
  - cbn [total fold_right]. fold (total f l).
    assert (D2 : NoDup (map S is)) by (apply Injective_map_NoDup; [intros x y Q; injection Q as ->; reflexivity|exact D]).
    assert (M2 : forall i, In i (map S is) <-> exists k x, i = S k /\ nth_error l k = Some x /\ f x = 1).
    { intros i. rewrite in_map_iff. split.
      - intros (k & <- & H). apply M in H. destruct H as (x & H1 & H2). exists k, x. auto.
      - intros (k & x & -> & H1 & H2). exists k. split; [reflexivity|]. apply M. exists x. auto. }
    assert (L2 : len (map S is) = total f l) by (rewrite <- E; unfold len; rewrite map_length; reflexivity).
    destruct (B a) as [Z|Z]; rewrite Z.
    + exists (map S is). split; [exact D2|]. split; [|rewrite L2; reflexivity]. intros i. rewrite M2. split.
      * intros (k & x & -> & H1 & H2). exists x. auto.
      * intros (x & H1 & H2). destruct i as [|k]; cbn [nth_error] in H1; [injection H1 as ->; rewrite Z in H2; discriminate H2|]. exists k, x. auto.
    + exists (0%nat :: map S is). split; [constructor; [|exact D2]|split].
      * rewrite M2. intros (k & x & Q & _). discriminate Q.
      * intros i. cbn [In]. rewrite M2. split.
        -- intros [<-|(k & x & -> & H1 & H2)]; [exists a; auto|]. exists x. auto.
        -- intros (x & H1 & H2). destruct i as [|k]; [left; reflexivity|right]. exists k, x. auto.
      * rewrite len_cons, L2. lia.
Qed.
Lemma u_01 u : u_holds u = 0 \/ u_holds u = 1. Proof. unfold u_holds. destruct (us_fd u); auto. Qed.
Lemma t_01 t : t_holds t = 0 \/ t_holds t = 1. Proof. destruct t; auto. Qed.
Lemma u_live u : u_holds u = 1 <-> us_fd u <> FClosed. Proof. unfold u_holds. destruct (us_fd u); split; intros H; try discriminate; try reflexivity; exfalso; apply H; reflexivity. Qed.
Lemma t_live t : t_holds t = 1 <-> t <> TClosed. Proof. destruct t; split; intros H; try discriminate; try reflexivity; exfalso; apply H; reflexivity. Qed.
Lemma same_len {A} (a b : list A) : NoDup a -> NoDup b -> (forall x, In x a <-> In x b) -> len a = len b.
Proof.
  intros D1 D2 M. assert (L1 := NoDup_incl_length D1 (fun x H => proj1 (M x) H)). assert (L2 := NoDup_incl_length D2 (fun x H => proj2 (M x) H)). unfold len. lia.
Qed.
Lemma holding_is h : holding h (n_held h).
Proof.
  destruct (total_count u_holds u_01 (ho_udp h)) as (us & D1 & M1 & E1). destruct (total_count t_holds t_01 (ho_tcp h)) as (ts & D2 & M2 & E2).
  exists us, ts. split; [exact D1|]. split; [exact D2|]. split; [|split].
  - intros i. rewrite M1. unfold udp_live, udp_at. split; intros (x & H1 & H2); exists x; (split; [exact H1|apply u_live; exact H2]).
  - intros i. rewrite M2. unfold tcp_live, tcp_at. split; intros (x & H1 & H2); exists x; (split; [exact H1|apply t_live; exact H2]).
  - rewrite E1, E2. reflexivity.
Qed.
Lemma holding_fun h a b : holding h a -> holding h b -> a = b.
Proof.
  intros (us & ts & D1 & D2 & M1 & M2 & <-) (us' & ts' & D1' & D2' & M1' & M2' & <-).
  rewrite (same_len us us'), (same_len ts ts'); try assumption; [reflexivity|..]; intros x; [rewrite M2, M2'|rewrite M1, M1']; reflexivity.
Qed.
Lemma holding_iff h n : holding h n <-> n = n_held h.
Proof. split; [intros H; exact (holding_fun _ _ _ H (holding_is h))|intros ->; apply holding_is]. Qed.

Lemma held_udp h i u v : udp_at h i u -> n_held (ho_set_udp i v h) + u_holds u = n_held h + u_holds v.
Proof. intros H. rewrite !held_total. cbn [ho_set_udp ho_udp ho_tcp]. pose proof (total_set u_holds u v (ho_udp h) i H). lia. Qed.
Lemma held_tcp h i t v : tcp_at h i t -> n_held (ho_set_tcp i v h) + t_holds t = n_held h + t_holds v.
Proof. intros H. rewrite !held_total. cbn [ho_set_tcp ho_udp ho_tcp]. pose proof (total_set t_holds t v (ho_tcp h) i H). lia. Qed.
Lemma held_has h i t : tcp_at h i t -> t_holds t <= n_held h.
Proof. intros H. rewrite held_total. pose proof (total_in t_holds t _ i H). lia. Qed.

(** Enough descriptors. *)
Lemma udp_enough l e n p i h u : udp_at h i u -> (us_fd u = FClosed -> n_held h < l) -> udp_open_l l e n p i h = udp_open e n p i h.
Proof.
  intros H L. unfold udp_open_l, udp_open. rewrite H. destruct (en_resolve e n p) as [|r rs]; [reflexivity|]. cbn [us_set_remote us_fd].
  destruct (us_fd u); [|reflexivity ..]. specialize (L eq_refl). destruct (N.leb_spec l (n_held h)); [lia|reflexivity].
Qed.
Lemma connect_enough l others e : others < l -> forall rs t, t <> TClosed -> tcp_connect_l l others e rs t = tcp_connect e rs t.
Proof.
  intros L. induction rs as [|r rs IH]; intros t T; cbn [tcp_connect_l tcp_connect].
  - destruct t; [exfalso; apply T; reflexivity|reflexivity ..].
  - destruct (N.leb_spec l others); [lia|]. destruct (en_accepts e r); [reflexivity|]. apply IH. discriminate.
Qed.
Lemma tcp_enough l e n p i h t : tcp_at h i t -> n_held h - t_holds t < l -> tcp_open_l l e n p i h = tcp_open e n p i h.
Proof.
  intros H L. unfold tcp_open_l, tcp_open. rewrite H. destruct (en_resolve e n p) as [|r rs]; [reflexivity|].
  cbn [tcp_connect_l tcp_connect]. destruct (N.leb_spec l (n_held h - t_holds t)); [lia|]. destruct (en_accepts e r); [reflexivity|].
  rewrite connect_enough by (try lia; discriminate). reflexivity.
Qed.
(** None left. *)
Lemma udp_none l e n p i h u r rs : udp_at h i u -> us_fd u = FClosed -> en_resolve e n p = r :: rs -> l <= n_held h ->
  exists s h', udp_open_l l e n p i h = (Throw SystemError s, h') /\ only_udp h h' i (mkUdp FClosed (us_local u) r).
Proof.
  intros H C E L. unfold udp_open_l. rewrite H, E. cbn [us_set_remote us_fd]. rewrite C. destruct (N.leb_spec l (n_held h)); [|lia].
  do 2 eexists. split; [reflexivity|]. unfold us_set_remote. rewrite C. eapply only_set. exact H.
Qed.
Lemma connect_none l others e : l <= others -> forall rs, exists s, tcp_connect_l l others e rs TClosed = (Throw SystemError s, TClosed).
Proof.
  intros L. induction rs as [|r rs IH]; cbn [tcp_connect_l]; [eexists; reflexivity|]. destruct (N.leb_spec l others); [exact IH|lia].
Qed.
Lemma set_same {A} (l : list A) i x : nth_error l i = Some x -> list_set l i x = l.
Proof. revert i. induction l as [|a l IH]; intros [|i] H; cbn [nth_error list_set] in *; try discriminate H; [injection H as ->; reflexivity|]. rewrite IH by exact H. reflexivity. Qed.
Lemma tcp_none l e n p i h : tcp_at h i TClosed -> l <= n_held h -> exists s, tcp_open_l l e n p i h = (Throw SystemError s, h).
Proof.
  intros H L. unfold tcp_open_l. rewrite H. destruct (en_resolve e n p) as [|r rs]; [eexists; reflexivity|].
  cbn [t_holds]. destruct (connect_none l (n_held h - 0) e ltac:(lia) (r :: rs)) as (s & E). rewrite E. eexists. unfold ho_set_tcp.
  rewrite (set_same _ _ _ H). destruct h. reflexivity.
Qed.

(** The limit is kept. *)
Lemma connect_held l others e : forall rs t o t', tcp_connect_l l others e rs t = (o, t') -> t_holds t' = 0 \/ others < l \/ (rs = [] /\ t' = t).
Proof.
  induction rs as [|r rs IH]; intros t o t' E; cbn [tcp_connect_l] in E; [injection E as <- <-; auto|].
  destruct (N.leb_spec l others) as [L|L]; [|auto]. apply IH in E. destruct E as [E|[E|[-> ->]]]; auto.
Qed.
Lemma step_limit l e c h o h' : do_call_l l e c h = (o, h') -> n_held h' <= N.max (n_held h) l.
Proof.
  destruct c; cbn [do_call_l do_call]; unfold on_unit.
  - unfold udp_open_l. destruct (nth_error (ho_udp h) i) as [u|] eqn:H; [|intros E; injection E as _ <-; lia].
    destruct (en_resolve e name port) as [|r rs]; [intros E; injection E as _ <-; lia|]. cbn [us_set_remote us_fd us_local].
    destruct (us_fd u) eqn:F.
    + destruct (N.leb_spec l (n_held h)).
      * intros E. injection E as _ <-. pose proof (held_udp h i u (us_set_remote r u) H) as Q. unfold u_holds in Q. cbn [us_set_remote us_fd] in Q. rewrite F in Q. lia.
      * destruct (existsb _ _); intros E; injection E as _ <-;
          match goal with |- n_held (ho_set_udp i ?v h) <= _ => pose proof (held_udp h i u v H) as Q end; unfold u_holds in Q; cbn in Q; rewrite F in Q; lia.
    + intros E. injection E as _ <-. pose proof (held_udp h i u (us_set_remote r u) H) as Q. unfold u_holds in Q. cbn [us_set_remote us_fd] in Q. rewrite F in Q. lia.
    + intros E. injection E as _ <-. pose proof (held_udp h i u (us_set_remote r u) H) as Q. unfold u_holds in Q. cbn [us_set_remote us_fd] in Q. rewrite F in Q. lia.
  - unfold udp_close. destruct (nth_error (ho_udp h) i) as [u|] eqn:H; intros E; injection E as _ <-; [|lia].
    pose proof (held_udp h i u (us_set_fd FClosed u) H) as Q. cbn in Q. lia.
  - unfold udp_send. destruct (nth_error (ho_udp h) i) as [u|] eqn:H; [|intros E; injection E as _ <-; lia].
    destruct (us_fd u) eqn:F; [intros E; injection E as _ <-; lia|..]; (destruct (65507 <? len bs); intros E; injection E as _ <-; [lia|]);
      match goal with |- n_held (ho_log _ _ _ (ho_set_udp i ?v h)) <= _ => pose proof (held_udp h i u v H) as Q; change (n_held (ho_set_udp i v h) <= N.max (n_held h) l) end;
      unfold u_holds in Q; cbn in Q; rewrite F in Q; lia.
  - unfold tcp_open_l. destruct (nth_error (ho_tcp h) i) as [t|] eqn:H; [|intros E; injection E as _ <-; lia].
    destruct (en_resolve e name port) as [|r rs]; [intros E; injection E as _ <-; lia|].
    destruct (tcp_connect_l _ _ _ _ _) as [o' t'] eqn:C. intros E. injection E as _ <-.
    pose proof (held_tcp h i t t' H) as Q. pose proof (held_has h i t H) as Q2. apply connect_held in C. destruct (t_01 t'), C as [C|[C|[C _]]]; try discriminate C; lia.
  - unfold tcp_close. destruct (nth_error (ho_tcp h) i) as [t|] eqn:H; intros E; injection E as _ <-; [|lia].
    pose proof (held_tcp h i t TClosed H) as Q. cbn [t_holds] in Q. lia.
Qed.
Lemma runs_limit L cs : Forall (fun x => fst (fst x) <= L) cs -> forall h, n_held h <= L -> n_held (snd (do_calls_l cs h)) <= L.
Proof.
  induction 1 as [|[[l e] c] cs F _ IH]; intros h H; cbn [do_calls_l]; [exact H|]. cbn [fst] in F.
  destruct (do_call_l l e c h) as [o h1] eqn:E. apply step_limit in E. assert (H1 : n_held h1 <= L) by lia. specialize (IH h1 H1).
  destruct o; cbn [snd]; try exact H1; destruct (do_calls_l cs h1); exact IH.
Qed.

(** Who holds one. *)
Lemma set_live_u h i v j : udp_live (ho_set_udp i v h) j -> (j = i /\ us_fd v <> FClosed) \/ (j <> i /\ udp_live h j).
Proof.
  intros (u & H & K). unfold udp_at in H. rewrite set_udp_at in H. destruct (PeanoNat.Nat.eqb_spec i j) as [->|N0].
  - destruct (Nat.ltb j (List.length (ho_udp h))); [|discriminate H]. injection H as ->. left. auto.
  - right. split; [auto|]. exists u. auto.
Qed.
Lemma nth_set {A} (l : list A) v : forall i j x, nth_error (list_set l i v) j = Some x -> (j = i /\ x = v) \/ (j <> i /\ nth_error l j = Some x).
Proof.
  induction l as [|a l IH]; intros [|i] [|j] x H; cbn [list_set nth_error] in *; try discriminate H; auto.
  - injection H as ->. auto.
  - apply IH in H. destruct H as [[-> ->]|[N0 H]]; auto.
Qed.
Lemma set_live_t h i v j : tcp_live (ho_set_tcp i v h) j -> (j = i /\ v <> TClosed) \/ (j <> i /\ tcp_live h j).
Proof.
  intros (t & H & K). unfold tcp_at in H. cbn [ho_set_tcp ho_tcp] in H. apply nth_set in H. destruct H as [[-> ->]|[N0 H]]; [left; auto|]. right. split; [exact N0|]. exists t. auto.
Qed.
Lemma step_live l e c h o h' : do_call_l l e c h = (o, h') ->
  (forall j, udp_live h' j -> c <> UClose j /\ (udp_live h j \/ exists n p, c = UOpen j n p)) /\
  (forall j, tcp_live h' j -> c <> TCloseC j /\ (tcp_live h j \/ exists n p, c = TOpenC j n p)).
Proof.
  destruct c; cbn [do_call_l do_call]; unfold on_unit.
  - assert (G : forall v, (forall j, udp_live (ho_set_udp i v h) j -> UOpen i name port <> UClose j /\ (udp_live h j \/ exists n p, UOpen i name port = UOpen j n p)) /\
      (forall j, tcp_live (ho_set_udp i v h) j -> UOpen i name port <> TCloseC j /\ (tcp_live h j \/ exists n p, UOpen i name port = TOpenC j n p))).
    { intros v. split; intros j K; (split; [discriminate|]); [|left; exact K]. apply set_live_u in K. destruct K as [[-> _]|[_ K]]; [right; do 2 eexists; reflexivity|left; exact K]. }
    unfold udp_open_l. destruct (nth_error (ho_udp h) i) as [u|] eqn:H; [|intros E; injection E as _ <-; split; intros; (split; [discriminate|auto])].
    destruct (en_resolve e name port) as [|r rs]; [intros E; injection E as _ <-; split; intros; (split; [discriminate|auto])|]. cbn [us_set_remote us_fd us_local].
    destruct (us_fd u); [destruct (l <=? n_held h); [|destruct (existsb _ _)]|..]; intros E; injection E as _ <-; apply G.
  - unfold udp_close. destruct (nth_error (ho_udp h) i) as [u|] eqn:H; intros E; injection E as _ <-.
    + split; intros j K; [|split; [discriminate|left; exact K]]. apply set_live_u in K. destruct K as [[_ K]|[N0 K]]; [exfalso; apply K; reflexivity|]. split; [congruence|auto].
    + split; intros j K; [|split; [discriminate|auto]]. split; [|auto]. intros Q. injection Q as ->. destruct K as (u & K & _). unfold udp_at in K. rewrite H in K. discriminate K.
  - unfold udp_send. destruct (nth_error (ho_udp h) i) as [u|] eqn:H; [|intros E; injection E as _ <-; split; intros; (split; [discriminate|auto])].
    destruct (us_fd u) eqn:F; [intros E; injection E as _ <-; split; intros; (split; [discriminate|auto])|..];
      (destruct (65507 <? len bs); intros E; injection E as _ <-; [split; intros; (split; [discriminate|auto])|]);
      (split; intros j K; (split; [discriminate|left]); [|exact K]);
      (assert (K2 : udp_live (ho_set_udp i (us_set_fd match us_fd u with FOpen => FBound (mkEnd 0 0) | f => f end u) h) j) by (rewrite F; exact K));
      (apply set_live_u in K2; destruct K2 as [[-> _]|[_ K2]]; [exists u; split; [exact H|congruence]|exact K2]).
  - unfold tcp_open_l. destruct (nth_error (ho_tcp h) i) as [t|] eqn:H; [|intros E; injection E as _ <-; split; intros; (split; [discriminate|auto])].
    destruct (en_resolve e name port) as [|r rs]; [intros E; injection E as _ <-; split; intros; (split; [discriminate|auto])|].
    destruct (tcp_connect_l _ _ _ _ _) as [o' t']. intros E. injection E as _ <-.
    split; intros j K; (split; [discriminate|]); [left; exact K|]. apply set_live_t in K. destruct K as [[-> _]|[_ K]]; [right; do 2 eexists; reflexivity|left; exact K].
  - unfold tcp_close. destruct (nth_error (ho_tcp h) i) as [t|] eqn:H; intros E; injection E as _ <-.
    + split; intros j K; [split; [discriminate|left; exact K]|]. apply set_live_t in K. destruct K as [[_ K]|[N0 K]]; [exfalso; apply K; reflexivity|]. split; [congruence|auto].
    + split; intros j K; [split; [discriminate|auto]|]. split; [|auto]. intros Q. injection Q as ->. destruct K as (u & K & _). unfold tcp_at in K. rewrite H in K. discriminate K.
Qed.
Lemma runs_live cs : forall h,
  (forall j, udp_live (snd (do_calls_l cs h)) j -> udp_asked (made cs (fst (do_calls_l cs h))) j \/ (udp_live h j /\ ~ In (UClose j) (made cs (fst (do_calls_l cs h))))) /\
  (forall j, tcp_live (snd (do_calls_l cs h)) j -> tcp_asked (made cs (fst (do_calls_l cs h))) j \/ (tcp_live h j /\ ~ In (TCloseC j) (made cs (fst (do_calls_l cs h))))).
Proof.
  induction cs as [|[[l e] c] cs IH]; intros h; cbn [do_calls_l].
  - split; intros j K; right; (split; [exact K|intros []]).
  - destruct (do_call_l l e c h) as [o h1] eqn:E. apply step_live in E. destruct E as [E1 E2].
    assert (One : made ((l, e, c) :: cs) [o] = [c]) by reflexivity.
    assert (Stop : (forall j, udp_live h1 j -> udp_asked [c] j \/ (udp_live h j /\ ~ In (UClose j) [c])) /\
      (forall j, tcp_live h1 j -> tcp_asked [c] j \/ (tcp_live h j /\ ~ In (TCloseC j) [c]))).
    { split; intros j K; [destruct (E1 j K) as [N0 [K2|(n & p & ->)]]|destruct (E2 j K) as [N0 [K2|(n & p & ->)]]].
      - right. split; [exact K2|]. intros [Q|[]]. apply N0. exact Q.
      - left. exists [], n, p, []. split; [reflexivity|intros []].
      - right. split; [exact K2|]. intros [Q|[]]. apply N0. exact Q.
      - left. exists [], n, p, []. split; [reflexivity|intros []]. }
    assert (Go : forall o', (forall j, udp_live (snd (let (os, h2) := do_calls_l cs h1 in (o' :: os, h2))) j ->
        udp_asked (made ((l, e, c) :: cs) (fst (let (os, h2) := do_calls_l cs h1 in (o' :: os, h2)))) j \/ (udp_live h j /\ ~ In (UClose j) (made ((l, e, c) :: cs) (fst (let (os, h2) := do_calls_l cs h1 in (o' :: os, h2)))))) /\
      (forall j, tcp_live (snd (let (os, h2) := do_calls_l cs h1 in (o' :: os, h2))) j ->
        tcp_asked (made ((l, e, c) :: cs) (fst (let (os, h2) := do_calls_l cs h1 in (o' :: os, h2)))) j \/ (tcp_live h j /\ ~ In (TCloseC j) (made ((l, e, c) :: cs) (fst (let (os, h2) := do_calls_l cs h1 in (o' :: os, h2))))))).
    { intros o'. specialize (IH h1). destruct (do_calls_l cs h1) as [os h2]. cbn [fst snd] in *. change (made ((l, e, c) :: cs) (o' :: os)) with (c :: made cs os). destruct IH as [I1 I2].
      split; intros j K; [destruct (I1 j K) as [(a & n & p & b & Q & N1)|[K1 N1]]|destruct (I2 j K) as [(a & n & p & b & Q & N1)|[K1 N1]]].
      - left. exists (c :: a), n, p, b. rewrite Q. split; [reflexivity|exact N1].
      - destruct (E1 j K1) as [N0 [K2|(n & p & ->)]].
        + right. split; [exact K2|]. intros [Q|Q]; [apply N0; exact Q|apply N1; exact Q].
        + left. exists [], n, p, (made cs os). split; [reflexivity|exact N1].
      - left. exists (c :: a), n, p, b. rewrite Q. split; [reflexivity|exact N1].
      - destruct (E2 j K1) as [N0 [K2|(n & p & ->)]].
        + right. split; [exact K2|]. intros [Q|Q]; [apply N0; exact Q|apply N1; exact Q].
        + left. exists [], n, p, (made cs os). split; [reflexivity|exact N1]. }
    destruct o; [apply Go|apply Go|exact Stop|exact Stop].
Qed.
Lemma runs_kept cs h os h' : all_closed h -> do_calls_l cs h = (os, h') ->
  (forall i, udp_live h' i -> udp_asked (made cs os) i) /\ (forall i, tcp_live h' i -> tcp_asked (made cs os) i).
Proof.
  intros [A B] E. pose proof (runs_live cs h) as [I1 I2]. rewrite E in I1, I2. cbn [fst snd] in *.
  split; intros i K; [destruct (I1 i K) as [Q|[Q _]]; [exact Q|destruct (A i Q)]|destruct (I2 i K) as [Q|[Q _]]; [exact Q|destruct (B i Q)]].
Qed.

(** In the words of Vocab38. *)
Lemma one_limit l e c h o h' n : holding h n -> do_call_l l e c h = (o, h') -> exists n', holding h' n' /\ n' <= N.max n l.
Proof. intros H E. apply holding_iff in H. subst n. exists (n_held h'). split; [apply holding_is|]. eapply step_limit. exact E. Qed.
Lemma all_limit l cs h os h' n : holding h n -> n <= l -> Forall (fun x => fst (fst x) <= l) cs -> do_calls_l cs h = (os, h') -> exists n', holding h' n' /\ n' <= l.
Proof.
  intros H L F E. apply holding_iff in H. subst n. exists (n_held h'). split; [apply holding_is|]. pose proof (runs_limit l cs F h L) as Q. rewrite E in Q. exact Q.
Qed.
Lemma closed_back h i n : holding h n ->
  (udp_live h i -> exists h', udp_close i h = (Ret tt, h') /\ ~ udp_live h' i /\ holding h' (n - 1) /\ n <> 0) /\
  (tcp_live h i -> exists h', tcp_close i h = (Ret tt, h') /\ ~ tcp_live h' i /\ holding h' (n - 1) /\ n <> 0).
Proof.
  intros H. apply holding_iff in H. subst n. split; intros (u & U & K).
  - unfold udp_close. rewrite U. eexists. split; [reflexivity|]. split.
    + intros Q. apply set_live_u in Q. destruct Q as [[_ Q]|[Q _]]; apply Q; reflexivity.
    + apply u_live in K. pose proof (held_udp h i u (us_set_fd FClosed u) U) as Q. change (u_holds (us_set_fd FClosed u)) with 0 in Q. split; [apply holding_iff; lia|lia].
  - unfold tcp_close. rewrite U. eexists. split; [reflexivity|]. split.
    + intros Q. apply set_live_t in Q. destruct Q as [[_ Q]|[Q _]]; apply Q; reflexivity.
    + apply t_live in K. pose proof (held_tcp h i u TClosed U) as Q. change (t_holds TClosed) with 0 in Q. split; [apply holding_iff; lia|lia].
Qed.
Lemma none_left l e name port i h n : holding h n -> l <= n ->
  (forall u r rs, udp_at h i u -> us_fd u = FClosed -> en_resolve e name port = r :: rs ->
     exists s h', udp_open_l l e name port i h = (Throw SystemError s, h') /\ only_udp h h' i (mkUdp FClosed (us_local u) r) /\ holding h' n) /\
  (tcp_at h i TClosed -> exists s, tcp_open_l l e name port i h = (Throw SystemError s, h)).
Proof.
  intros H L. apply holding_iff in H. subst n. split.
  - intros u r rs U C E. destruct (udp_none l e name port i h u r rs U C E L) as (s & h' & Q & O). exists s, h'. split; [exact Q|]. split; [exact O|].
    apply holding_iff. destruct O as (U' & Oth & T & _).
    assert (Hs : ho_udp h' = list_set (ho_udp h) i (mkUdp FClosed (us_local u) r)).
    { unfold udp_open_l in Q. rewrite U, E in Q. cbn [us_set_remote us_fd] in Q. rewrite C in Q. destruct (N.leb_spec l (n_held h)); [|lia]. injection Q as _ <-. cbn [ho_set_udp ho_udp]. unfold us_set_remote. rewrite C. reflexivity. }
    rewrite !held_total, T, Hs. pose proof (total_set u_holds u (mkUdp FClosed (us_local u) r) (ho_udp h) i U) as W. change (u_holds (mkUdp FClosed (us_local u) r)) with 0 in W. unfold u_holds at 2 in W. rewrite C in W. lia.
  - intros T. exact (tcp_none l e name port i h T L).
Qed.
Lemma enough l e name port i h n : holding h n ->
  (forall u, udp_at h i u -> n < l \/ us_fd u <> FClosed -> udp_open_l l e name port i h = udp_open e name port i h) /\
  (forall t, tcp_at h i t -> n < l \/ (t <> TClosed /\ n = l) -> tcp_open_l l e name port i h = tcp_open e name port i h).
Proof.
  intros H. apply holding_iff in H. subst n. split.
  - intros u U [L|K]; (eapply udp_enough; [exact U|]); [intros _; exact L|intros C; destruct (K C)].
  - intros t T K. eapply tcp_enough; [exact T|]. destruct K as [K|[K1 K2]]; [lia|]. apply t_live in K1. pose proof (held_has h i t T). lia.
Qed.

Lemma nth_ext_opt {A} : forall a b : list A, (forall i, nth_error a i = nth_error b i) -> a = b.
Proof.
  induction a as [|x a IH]; intros [|y b] H; [reflexivity|discriminate (H 0%nat)|discriminate (H 0%nat)|].
  assert (Q := H 0%nat). injection Q as ->. f_equal. apply IH. intros i. exact (H (S i)).
Qed.
Lemma first_fun e r r' : forall rs, first_accepting e rs r -> first_accepting e rs r' -> r' = r.
Proof.
  intros rs (a & b & E & A & R) (a' & b' & E' & A' & R'). subst rs. revert a' E' A'. induction a as [|x a IH]; intros [|x' a'] E' A'; cbn [app] in E'; injection E' as Q E'.
  - symmetry; exact Q.
  - subst x'. rewrite (A' r (or_introl eq_refl)) in R. discriminate R.
  - subst x. rewrite (A r' (or_introl eq_refl)) in R'. discriminate R'.
  - apply (IH (fun z Z => A z (or_intror Z)) a' E' (fun z Z => A' z (or_intror Z))).
Qed.
Lemma only_tcp_held h h' i t v : tcp_at h i t -> only_tcp h h' i v -> n_held h' + t_holds t = n_held h + t_holds v.
Proof.
  intros T (T' & O & U & _). rewrite !held_total, U.
  assert (E : ho_tcp h' = list_set (ho_tcp h) i v).
  { apply nth_ext_opt. intros j. destruct (PeanoNat.Nat.eq_dec j i) as [->|N0].
    - rewrite nth_error_set_same by (eapply nth_error_lt; exact T). exact T'.
    - rewrite nth_error_set_other by congruence. apply O. exact N0. }
  rewrite E. pose proof (total_set t_holds t v (ho_tcp h) i T). lia.
Qed.
Lemma only_udp_held h h' i t v : udp_at h i t -> only_udp h h' i v -> n_held h' + u_holds t = n_held h + u_holds v.
Proof.
  intros T (T' & O & U & _). rewrite !held_total, U.
  assert (E : ho_udp h' = list_set (ho_udp h) i v).
  { apply nth_ext_opt. intros j. destruct (PeanoNat.Nat.eq_dec j i) as [->|N0].
    - rewrite nth_error_set_same by (eapply nth_error_lt; exact T). exact T'.
    - rewrite nth_error_set_other by congruence. apply O. exact N0. }
  rewrite E. pose proof (total_set u_holds t v (ho_udp h) i T). lia.
Qed.
Lemma session_left l e name p io i j h u n r r0 rs : holding h n -> tcp_at h i TClosed -> udp_at h j u -> us_fd u = FClosed ->
  first_accepting e (en_resolve e name p) r -> en_resolve e name io = r0 :: rs ->
  (l <= n -> exists s, session_opens l e name p io i j h = (Throw SystemError s, h)) /\
  (n + 1 = l -> exists s h', session_opens l e name p io i j h = (Throw SystemError s, h') /\ tcp_at h' i (TConnected r) /\ holding h' l) /\
  (n + 1 < l -> owned e h j (us_local u) -> exists s h', session_opens l e name p io i j h = (Throw SystemError s, h') /\ tcp_at h' i (TConnected r) /\ udp_live h' j /\ holding h' (n + 2)) /\
  (n + 1 < l -> ~ owned e h j (us_local u) -> exists h', session_opens l e name p io i j h = (Ret tt, h') /\ tcp_at h' i (TConnected r) /\ udp_live h' j /\ holding h' (n + 2)).
Proof.
  intros H T U C F E. assert (Hn := proj1 (holding_iff h n) H). 
  assert (Step : n < l -> exists h1, tcp_open_l l e name p i h = (Ret tt, h1) /\ only_tcp h h1 i (TConnected r) /\ n_held h1 = n + 1 /\ udp_at h1 j u).
  { intros L. rewrite (proj2 (enough l e name p i h n H) TClosed T (or_introl L)).
    destruct (tcp_exact e name p i h TClosed T) as [(r' & h1 & F' & Q & O)|(A & _)].
    - assert (r' = r). { eapply first_fun; eauto. } subst r'. exists h1. split; [exact Q|]. split; [exact O|]. split.
      + pose proof (only_tcp_held h h1 i TClosed (TConnected r) T O) as W. cbn [t_holds] in W. lia.
      + destruct O as (_ & _ & W & _). unfold udp_at. rewrite W. exact U.
    - exfalso. destruct F as (a & b & Q & _ & Acc). rewrite (A r) in Acc; [discriminate Acc|]. rewrite Q. apply in_or_app. right. left. reflexivity. }
  split; [|split; [|split]].
  - intros L. destruct (proj2 (none_left l e name p i h n H L) T) as (s & Q). unfold session_opens. rewrite Q. eexists. reflexivity.
  - intros L. destruct Step as (h1 & Q & O & W & U1); [lia|]. unfold session_opens. rewrite Q.
    destruct (udp_none l e name io j h1 u r0 rs U1 C E ltac:(lia)) as (s & h' & Q2 & O2). rewrite Q2. exists s, h'. split; [reflexivity|]. split.
    + destruct O2 as (_ & _ & X & _). unfold tcp_at. rewrite X. apply O.
    + apply holding_iff. pose proof (only_udp_held _ _ _ _ _ U1 O2) as X. unfold u_holds in X. cbn [us_fd] in X. rewrite C in X. lia.
  - intros L Ow. destruct Step as (h1 & Q & O & W & U1); [lia|]. unfold session_opens. rewrite Q.
    rewrite (udp_enough l e name io j h1 u U1) by (intros _; lia). pose proof (open_exact e name io j h1 u U1) as X. rewrite E in X. destruct X as (_ & X & _).
    destruct (X C) as (s & h' & Q2 & O2).
    { destruct O as (_ & _ & Y & _). unfold owned, udp_at in *. rewrite Y. exact Ow. }
    rewrite Q2. exists s, h'. split; [reflexivity|]. split; [|split].
    + destruct O2 as (_ & _ & Y & _). unfold tcp_at. rewrite Y. apply O.
    + exists (mkUdp FOpen (us_local u) r0). split; [apply O2|discriminate].
    + apply holding_iff. pose proof (only_udp_held _ _ _ _ _ U1 O2) as Y. unfold u_holds in Y. cbn [us_fd] in Y. rewrite C in Y. lia.
  - intros L Ow. destruct Step as (h1 & Q & O & W & U1); [lia|]. unfold session_opens. rewrite Q.
    rewrite (udp_enough l e name io j h1 u U1) by (intros _; lia). pose proof (open_exact e name io j h1 u U1) as X. rewrite E in X. destruct X as (X & _).
    destruct (X C) as (h' & Q2 & O2).
    { destruct O as (_ & _ & Y & _). unfold owned, udp_at in *. rewrite Y. exact Ow. }
    rewrite Q2. exists h'. split; [reflexivity|]. split; [|split].
    + destruct O2 as (_ & _ & Y & _). unfold tcp_at. rewrite Y. apply O.
    + exists (mkUdp (FBound (us_local u)) (us_local u) r0). split; [apply O2|discriminate].
    + apply holding_iff. pose proof (only_udp_held _ _ _ _ _ U1 O2) as Y. unfold u_holds in Y. cbn [us_fd] in Y. rewrite C in Y. lia.
Qed.

(** Opening again. *)
Lemma session_again l e name p io i j h t u n r r0 rs : holding h n -> tcp_at h i t -> t <> TClosed -> udp_at h j u -> us_fd u = FClosed ->
  first_accepting e (en_resolve e name p) r -> en_resolve e name io = r0 :: rs -> n < l -> ~ owned e h j (us_local u) ->
  exists h', session_opens l e name p io i j h = (Ret tt, h') /\ tcp_at h' i (TConnected r) /\ udp_at h' j (mkUdp (FBound (us_local u)) (us_local u) r0) /\ holding h' (n + 1).
Proof.
  intros H T NT U C F E L Ow. assert (Hn := proj1 (holding_iff h n) H).
  assert (Step : exists h1, tcp_open_l l e name p i h = (Ret tt, h1) /\ only_tcp h h1 i (TConnected r) /\ n_held h1 = n /\ udp_at h1 j u).
  { rewrite (proj2 (enough l e name p i h n H) t T (or_introl L)).
    destruct (tcp_exact e name p i h t T) as [(r' & h1 & F' & Q & O)|(A & _)].
    - assert (r' = r) by (eapply first_fun; eauto). subst r'. exists h1. split; [exact Q|]. split; [exact O|]. split.
      + pose proof (only_tcp_held h h1 i t (TConnected r) T O) as W. apply t_live in NT. cbn [t_holds] in W. lia.
      + destruct O as (_ & _ & W & _). unfold udp_at. rewrite W. exact U.
    - exfalso. destruct F as (a & b & Q & _ & Acc). rewrite (A r) in Acc; [discriminate Acc|]. rewrite Q. apply in_or_app. right. left. reflexivity. }
  destruct Step as (h1 & Q & O & W & U1). unfold session_opens. rewrite Q.
  rewrite (udp_enough l e name io j h1 u U1) by (intros _; lia). pose proof (open_exact e name io j h1 u U1) as X. rewrite E in X. destruct X as (X & _).
  destruct (X C) as (h' & Q2 & O2).
  { destruct O as (_ & _ & Y & _). unfold owned, udp_at in *. rewrite Y. exact Ow. }
  rewrite Q2. exists h'. split; [reflexivity|]. split; [|split].
  - destruct O2 as (_ & _ & Y & _). unfold tcp_at. rewrite Y. apply O.
  - apply O2.
  - apply holding_iff. pose proof (only_udp_held _ _ _ _ _ U1 O2) as Y. unfold u_holds in Y. cbn [us_fd] in Y. rewrite C in Y. lia.
Qed.
Lemma tcp_open_udp l e n p i h o h' : tcp_open_l l e n p i h = (o, h') -> ho_udp h' = ho_udp h.
Proof.
  unfold tcp_open_l. destruct (nth_error (ho_tcp h) i); [|intros E; injection E as _ <-; reflexivity]. destruct (en_resolve e n p); [intros E; injection E as _ <-; reflexivity|].
  destruct (tcp_connect_l _ _ _ _ _). intros E. injection E as _ <-. reflexivity.
Qed.
Lemma tcp_open_raises l e n p i h t : tcp_at h i t -> exists o h', tcp_open_l l e n p i h = (o, h') /\ (o = Ret tt \/ exists s, o = Throw SystemError s).
Proof.
  intros T. unfold tcp_open_l. rewrite T. destruct (en_resolve e n p) as [|r rs]; [do 2 eexists; split; [reflexivity|eauto]|].
  destruct (tcp_connect_l _ _ _ _ _) as [o t'] eqn:E. do 2 eexists. split; [reflexivity|]. revert E. generalize (n_held h - t_holds t). intros others E. clear T. revert t E. generalize (r :: rs). intros l0.
  induction l0 as [|x l0 IH]; intros t E; cbn [tcp_connect_l] in E; [injection E as <- _; eauto|].
  destruct (l <=? others); [eapply IH; exact E|]. destruct (en_accepts e x); [injection E as <- _; auto|]. eapply IH; exact E.
Qed.
Lemma session_stuck l e name p io i j h t u : tcp_at h i t -> udp_at h j u -> us_fd u <> FClosed ->
  exists s h' u', session_opens l e name p io i j h = (Throw SystemError s, h') /\ udp_at h' j u' /\ us_fd u' <> FClosed.
Proof.
  intros T U C. unfold session_opens. destruct (tcp_open_raises l e name p i h t T) as (o & h1 & E & O). rewrite E. pose proof (tcp_open_udp _ _ _ _ _ _ _ _ E) as Q.
  assert (U1 : udp_at h1 j u) by (unfold udp_at; rewrite Q; exact U).
  destruct O as [->|(s & ->)]; [|do 3 eexists; split; [reflexivity|]; split; [exact U1|exact C]].
  rewrite (udp_enough l e name io j h1 u U1) by (intros Z; destruct (C Z)).
  pose proof (open_exact e name io j h1 u U1) as X. destruct (en_resolve e name io) as [|r0 rs].
  - destruct X as (s & X). rewrite X. do 3 eexists. split; [reflexivity|]. split; [exact U1|exact C].
  - destruct X as (_ & _ & X). destruct (X C) as (s & h' & Q2 & O2). rewrite Q2. do 3 eexists. split; [reflexivity|]. split; [apply O2|exact C].
Qed.
