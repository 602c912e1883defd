(** * POwners: proofs about the pointers to sockets, C118. *)
From Verif Require Import PNet PTarget PSession2 PObjects PPlant PWhole Vocab24.
Local Open Scope N_scope.

Definition cnt (t : what) (c : cells) : N := match count t c with Some n => n | None => 0 end.
Definition pos (p : ptr) (c : cells) : Prop := match p with Some t => 0 < cnt t c | None => True end.
Definition sizes (c c' : cells) : Prop :=
  List.length (ho_tcp (ce_host c')) = List.length (ho_tcp (ce_host c)) /\ List.length (ho_udp (ce_host c')) = List.length (ho_udp (ce_host c)) /\
  List.length (ce_tcp c') = List.length (ce_tcp c) /\ List.length (ce_udp c') = List.length (ce_udp c).
(** Sockets nobody points to are shut. *)
Definition tidied (c : cells) : Prop := forall t n, count t c = Some n -> n = 0 -> is_shut t (ce_host c).
Definition sound (c : cells) : Prop :=
  List.length (ce_tcp c) = List.length (ho_tcp (ce_host c)) /\ List.length (ce_udp c) = List.length (ho_udp (ce_host c)) /\ tidied c.

Lemma same_what_spec a b : same_what a b = true <-> a = b.
Proof. destruct a as [i|i], b as [j|j]; cbn; try (split; discriminate); rewrite PeanoNat.Nat.eqb_eq; split; congruence. Qed.
Lemma points_self t : points t (Some t) = 1.
Proof. cbn. rewrite (proj2 (same_what_spec t t) eq_refl). reflexivity. Qed.
Lemma points_other t x : x <> t -> points t (Some x) = 0.
Proof. intros N. cbn. destruct (same_what x t) eqn:Q; [apply same_what_spec in Q; contradiction|reflexivity]. Qed.
Lemma what_dec (a b : what) : {a = b} + {a <> b}.
Proof. destruct (same_what a b) eqn:Q; [left; apply same_what_spec; exact Q|right; intros ->; rewrite (proj2 (same_what_spec b b) eq_refl) in Q; discriminate]. Qed.
Lemma count_set t n c t' : (exists k, count t c = Some k) -> count t' (set_count t n c) = if same_what t t' then Some n else count t' c.
Proof.
  intros [k K]. destruct t as [i|i], t' as [j|j]; cbn in *; try reflexivity; rewrite (list_set_nth _ _ _ _ K); reflexivity.
Qed.
Lemma cnt_set t n c t' : (exists k, count t c = Some k) -> cnt t' (set_count t n c) = if same_what t t' then n else cnt t' c.
Proof. intros K. unfold cnt. rewrite (count_set t n c t' K). destruct (same_what t t'); reflexivity. Qed.
Lemma set_sizes t n c : sizes c (set_count t n c).
Proof. destruct t; cbn; unfold sizes; cbn; rewrite ?PMem.length_list_set; repeat split; reflexivity. Qed.
Lemma sizes_trans a b c : sizes a b -> sizes b c -> sizes a c.
Proof. unfold sizes. intuition congruence. Qed.
Lemma host_set t n c : ce_host (set_count t n c) = ce_host c.
Proof. destruct t; reflexivity. Qed.

Lemma retain_ok p c : pos p c -> sound c -> exists c', retain p c = Ret c' /\ sound c' /\ sizes c c' /\ ce_host c' = ce_host c /\ forall t, cnt t c' = cnt t c + points t p.
Proof.
  intros P So. destruct p as [x|]; cbn [retain].
  - cbn [pos] in P. unfold cnt in P. destruct (count x c) as [n|] eqn:C; [|lia]. assert (Z : n =? 0 = false) by (apply N.eqb_neq; lia). rewrite Z.
    eexists. split; [reflexivity|]. split; [|split; [apply set_sizes|split; [apply host_set|]]].
    + destruct So as (S1 & S2 & T). destruct (set_sizes x (n + 1) c) as (A & B & C' & D). split; [congruence|]. split; [congruence|].
      intros t k K Kz. rewrite host_set. rewrite (count_set x (n + 1) c t (ex_intro _ _ C)) in K. destruct (same_what x t); [injection K as K; lia|]. eapply T; eassumption.
    + intros t. rewrite (cnt_set x (n + 1) c t (ex_intro _ _ C)). cbn [points]. destruct (same_what x t) eqn:Q; [apply same_what_spec in Q; subst t; unfold cnt; rewrite C; reflexivity|lia].
  - exists c. split; [reflexivity|]. split; [exact So|]. split; [repeat split|]. split; [reflexivity|]. intros t. cbn. lia.
Qed.
Lemma shut_lengths t h : List.length (ho_tcp (shut t h)) = List.length (ho_tcp h) /\ List.length (ho_udp (shut t h)) = List.length (ho_udp h).
Proof.
  destruct t as [i|i]; cbn; unfold tcp_close, udp_close; [destruct (nth_error (ho_tcp h) i)|destruct (nth_error (ho_udp h) i)]; cbn; rewrite ?PMem.length_list_set; split; reflexivity.
Qed.
Lemma shut_shuts t h : match t with STcp i => (i < List.length (ho_tcp h))%nat | SUdp i => (i < List.length (ho_udp h))%nat end -> is_shut t (shut t h).
Proof.
  intros L. destruct t as [i|i]; cbn in *; destruct (nth_some _ _ L) as [x X]; unfold tcp_close, udp_close, tcp_at, udp_at; rewrite X; cbn.
  - apply PMem.nth_error_set_same. exact L.
  - eexists. split; [apply PMem.nth_error_set_same; exact L|reflexivity].
Qed.
Lemma shut_keeps t t' h : is_shut t' h -> is_shut t' (shut t h).
Proof.
  destruct t as [i|i], t' as [j|j]; cbn; unfold tcp_close, udp_close, tcp_at, udp_at; intros S.
  - destruct (nth_error (ho_tcp h) i) eqn:E; [|exact S]. cbn. rewrite (list_set_nth _ _ _ _ E). destruct (Nat.eqb i j); [reflexivity|exact S].
  - destruct (nth_error (ho_tcp h) i); exact S.
  - destruct (nth_error (ho_udp h) i); exact S.
  - destruct (nth_error (ho_udp h) i) eqn:E; [|exact S]. cbn. rewrite (list_set_nth _ _ _ _ E). destruct (Nat.eqb i j); [eexists; split; reflexivity|exact S].
Qed.
Lemma release_ok p c : pos p c -> sound c -> exists c', release p c = Ret c' /\ sound c' /\ sizes c c' /\ forall t, cnt t c' + points t p = cnt t c.
Proof.
  intros P So. destruct p as [x|]; cbn [release].
  - cbn [pos] in P. unfold cnt in P. destruct (count x c) as [n|] eqn:C; [|lia]. assert (Z : n =? 0 = false) by (apply N.eqb_neq; lia). rewrite Z.
    destruct So as (S1 & S2 & T). destruct (n =? 1) eqn:O.
    + apply N.eqb_eq in O. subst n. eexists. split; [reflexivity|]. set (c1 := mkCells (shut x (ce_host c)) (ce_tcp c) (ce_udp c)).
      assert (Cc : forall t, count t c1 = count t c) by (intros []; reflexivity).
      destruct (shut_lengths x (ce_host c)) as [L1 L2]. destruct (set_sizes x 0 c1) as (A & B & C' & D). cbn [c1 ce_host ce_tcp ce_udp] in A, B, C', D.
      split; [split; [congruence|split; [congruence|]]|split; [|]].
      * intros t k K Kz. rewrite host_set. cbn [c1 ce_host]. rewrite (count_set x 0 c1 t) in K by (rewrite Cc; eauto). destruct (same_what x t) eqn:Q.
        -- apply same_what_spec in Q. subst t. apply shut_shuts. destruct x as [i|i]; cbn in C |- *; [rewrite <- S1|rewrite <- S2]; eapply nth_lt; exact C.
        -- rewrite Cc in K. apply shut_keeps. eapply T; eassumption.
      * repeat split; congruence.
      * intros t. rewrite (cnt_set x 0 c1 t) by (rewrite Cc; eauto). cbn [points]. destruct (same_what x t) eqn:Q; [apply same_what_spec in Q; subst t; unfold cnt; rewrite C; reflexivity|].
        unfold cnt. rewrite Cc. lia.
    + apply N.eqb_neq in O. eexists. split; [reflexivity|]. destruct (set_sizes x (n - 1) c) as (A & B & C' & D).
      split; [split; [congruence|split; [congruence|]]|split; [repeat split; congruence|]].
      * intros t k K Kz. rewrite host_set. rewrite (count_set x (n - 1) c t (ex_intro _ _ C)) in K. destruct (same_what x t); [injection K as K; lia|]. eapply T; eassumption.
      * intros t. rewrite (cnt_set x (n - 1) c t (ex_intro _ _ C)). cbn [points]. destruct (same_what x t) eqn:Q; [apply same_what_spec in Q; subst t; unfold cnt; rewrite C; lia|lia].
  - exists c. split; [reflexivity|]. split; [exact So|]. split; [repeat split|]. intros t. cbn. lia.
Qed.
Lemma pos_more p c c' : pos p c -> (forall t, cnt t c <= cnt t c') -> pos p c'.
Proof. destruct p as [t|]; cbn; [|auto]. intros A B. specialize (B t). lia. Qed.
Lemma pos_points p c : (forall t, points t p <= cnt t c) -> pos p c.
Proof. destruct p as [t|]; cbn [pos]; [|auto]. intros H. specialize (H t). rewrite points_self in H. lia. Qed.

Lemma construct_ok p q c : pos p c -> pos q c -> sound c -> exists c', construct_ptrs p q c = Ret c' /\ sound c' /\ sizes c c' /\ forall t, cnt t c' = cnt t c + points t p + points t q.
Proof.
  intros P Q So. unfold construct_ptrs.
  destruct (retain_ok p c P So) as (c1 & -> & S1 & Z1 & _ & C1). cbn [obind].
  destruct (retain_ok q c1) as (c2 & -> & S2 & Z2 & _ & C2); [eapply pos_more; [exact Q|intros t; rewrite C1; lia]|exact S1|]. cbn [obind].
  destruct (retain_ok p c2) as (c3 & -> & S3 & Z3 & _ & C3); [eapply pos_more; [exact P|intros t; rewrite C2, C1; lia]|exact S2|]. cbn [obind].
  destruct (retain_ok q c3) as (c4 & -> & S4 & Z4 & _ & C4); [eapply pos_more; [exact Q|intros t; rewrite C3, C2, C1; lia]|exact S3|]. cbn [obind].
  destruct (release_ok q c4) as (c5 & -> & S5 & Z5 & C5); [eapply pos_more; [exact Q|intros t; rewrite C4, C3, C2, C1; lia]|exact S4|]. cbn [obind].
  destruct (release_ok p c5) as (c6 & -> & S6 & Z6 & C6).
  { apply pos_points. intros t. specialize (C5 t). rewrite C4, C3, C2, C1 in C5. lia. }
  { exact S5. }
  exists c6. split; [reflexivity|]. split; [exact S6|]. split; [repeat (eapply sizes_trans; [eassumption|]); repeat split|].
  intros t. specialize (C5 t). specialize (C6 t). rewrite C4, C3, C2, C1 in C5. lia.
Qed.
Lemma copy_ok p q c : pos p c -> pos q c -> sound c -> exists c', copy_ptrs p q c = Ret c' /\ sound c' /\ sizes c c' /\ forall t, cnt t c' = cnt t c + points t p + points t q.
Proof.
  intros P Q So. unfold copy_ptrs. destruct (retain_ok p c P So) as (c1 & -> & S1 & Z1 & _ & C1). cbn [obind].
  destruct (retain_ok q c1) as (c2 & -> & S2 & Z2 & _ & C2); [eapply pos_more; [exact Q|intros t; rewrite C1; lia]|exact S1|].
  exists c2. split; [reflexivity|]. split; [exact S2|]. split; [eapply sizes_trans; eassumption|]. intros t. rewrite C2, C1. lia.
Qed.
Lemma end_ok p q c : (forall t, points t p + points t q <= cnt t c) -> sound c -> exists c', end_ptrs p q c = Ret c' /\ sound c' /\ sizes c c' /\ forall t, cnt t c' + points t p + points t q = cnt t c.
Proof.
  intros P So. unfold end_ptrs. destruct (release_ok q c) as (c1 & -> & S1 & Z1 & C1); [apply pos_points; intros t; specialize (P t); lia|exact So|]. cbn [obind].
  destruct (release_ok p c1) as (c2 & -> & S2 & Z2 & C2); [apply pos_points; intros t; specialize (P t); specialize (C1 t); lia|exact S1|].
  exists c2. split; [reflexivity|]. split; [exact S2|]. split; [eapply sizes_trans; eassumption|]. intros t. specialize (C1 t). specialize (C2 t). lia.
Qed.
Lemma assign_ok a b a' b' c : (forall t, points t a + points t b <= cnt t c) -> pos a' c -> pos b' c -> (forall t, points t b' + points t a <= cnt t c) -> sound c ->
  exists c', assign_ptrs a b a' b' c = Ret c' /\ sound c' /\ sizes c c' /\ forall t, cnt t c' + points t a + points t b = cnt t c + points t a' + points t b'.
Proof.
  intros P A B H So. unfold assign_ptrs, assign_ptr.
  destruct (retain_ok a' c A So) as (c1 & -> & S1 & Z1 & _ & C1). cbn [obind].
  destruct (release_ok a c1) as (c2 & -> & S2 & Z2 & C2); [apply pos_points; intros t; specialize (P t); rewrite C1; lia|exact S1|]. cbn [obind].
  destruct (retain_ok b' c2) as (c3 & -> & S3 & Z3 & _ & C3).
  { destruct b' as [t|]; [|exact I]. cbn [pos] in *. specialize (C2 t). specialize (H t). rewrite C1 in C2. rewrite points_self in H.
    assert (points t a <= 1) by (destruct a as [x|]; cbn; [destruct (same_what x t)|]; lia). lia. }
  { exact S2. }
  cbn [obind]. destruct (release_ok b c3) as (c4 & -> & S4 & Z4 & C4).
  { apply pos_points. intros t. specialize (P t). specialize (C2 t). rewrite C1 in C2. rewrite C3. lia. }
  { exact S3. }
  exists c4. split; [reflexivity|]. split; [exact S4|]. split; [repeat (eapply sizes_trans; [eassumption|]); repeat split|].
  intros t. specialize (C2 t). specialize (C4 t). rewrite C1 in C2. rewrite C3 in C4. lia.
Qed.

(** ** The counts are right in every scene a program reaches. *)
Lemma total_app {A} (f : A -> N) l l2 : total f (l ++ l2) = total f l + total f l2.
Proof. induction l as [|x l IH]; cbn; [reflexivity|]. rewrite IH. lia. Qed.
Lemma total_set {A} (f : A -> N) l : forall i x y, nth_error l i = Some x -> total f (list_set l i y) + f x = total f l + f y.
Proof.
  induction l as [|a l IH]; intros [|i] x y; cbn; try discriminate.
  - intros E. injection E as ->. lia.
  - intros E. specialize (IH i x y E). lia.
Qed.
Lemma total_le {A} (f : A -> N) l : forall i x, nth_error l i = Some x -> f x <= total f l.
Proof.
  induction l as [|a l IH]; intros [|i] x; cbn; try discriminate.
  - intros E. injection E as ->. lia.
  - intros E. specialize (IH i x E). lia.
Qed.
Lemma total_two {A} (f : A -> N) l : forall i j x y, nth_error l i = Some x -> nth_error l j = Some y -> i <> j -> f x + f y <= total f l.
Proof.
  induction l as [|a l IH]; intros [|i] [|j] x y; cbn; try discriminate; intros Ei Ej N; try lia.
  - injection Ei as ->. pose proof (total_le f l j y Ej). lia.
  - injection Ej as ->. pose proof (total_le f l i x Ei). lia.
  - assert (i <> j) by congruence. specialize (IH i j x y Ei Ej H). lia.
Qed.
Definition of_var (t : what) (v : option ptr) : N := match v with Some p => points t p | None => 0 end.
Definition of_obj (t : what) (o : option holder) : N := match o with Some x => points t (hl_ctl x) + points t (hl_io x) | None => 0 end.
Lemma held_split t s : held_by t s = total (of_var t) (sc_vars s) + total (of_obj t) (sc_objs s).
Proof. reflexivity. Qed.
Definition holder_ok (o : option holder) : Prop := match o with Some x => session_ok (hl_world x) | None => True end.
Definition kept_count (s : scene) : Prop :=
  sound (sc_cells s) /\ (forall t, cnt t (sc_cells s) = held_by t s) /\ Forall holder_ok (sc_objs s).

Lemma user_nil w : user_memory [] w.
Proof. split; [intros b x H; destruct b; discriminate|]. intros bl H. destruct (w_rbuf w); discriminate. Qed.
Lemma call_others e k ev c h o h1 : call_of k ev = Some c -> do_call e c h = (o, h1) ->
  forall t, t <> STcp (po_tcp k) -> t <> SUdp (po_udp k) -> is_shut t h -> is_shut t h1.
Proof.
  intros C D t N1 N2 Sh.
  assert (SU : forall u' l, is_shut t (mkHost (list_set (ho_udp h) (po_udp k) u') (ho_tcp h) l)).
  { intros u' l. destruct t as [i|i]; cbn in *; [exact Sh|]. unfold udp_at in *. cbn. rewrite PMem.nth_error_set_other by congruence. exact Sh. }
  assert (ST : forall t', is_shut t (ho_set_tcp (po_tcp k) t' h)).
  { intros t'. destruct t as [i|i]; cbn in *; [|exact Sh]. unfold tcp_at in *. cbn. rewrite PMem.nth_error_set_other by congruence. exact Sh. }
  destruct ev as [[] n p b|[] bs n|[] d|[] b]; try discriminate C; injection C as <-; cbn [do_call] in D.
  - unfold tcp_open in D. destruct (nth_error (ho_tcp h) _); [|injection D as <- <-; exact Sh]. destruct (en_resolve e n p); [injection D as <- <-; exact Sh|].
    destruct (tcp_connect _ _ _). injection D as <- <-. apply ST.
  - unfold udp_open in D. destruct (nth_error (ho_udp h) _); [|injection D as <- <-; exact Sh]. destruct (en_resolve e n p); [injection D as <- <-; exact Sh|].
    destruct (us_fd _); [destruct (existsb _ _)|..]; injection D as <- <-; apply SU.
  - unfold udp_send in D. destruct (nth_error (ho_udp h) _) as [x|]; [|injection D as <- <-; exact Sh]. destruct (us_fd _); [injection D as <- <-; exact Sh|..];
      destruct (_ <? _); injection D as <- <-; try exact Sh; apply SU.
  - unfold tcp_close in D. destruct (nth_error (ho_tcp h) _); injection D as <- <-; [apply ST|exact Sh].
  - unfold udp_close in D. destruct (nth_error (ho_udp h) _); injection D as <- <-; [apply SU|exact Sh].
Qed.
Lemma plays_others k h es h' : plays k h es h' -> forall t, t <> STcp (po_tcp k) -> t <> SUdp (po_udp k) -> is_shut t h -> is_shut t h'.
Proof.
  induction 1 as [h|h ev c e o h1 es h' Ca D W P IH|h bs n es h' Up P IH|h d es h' Up P IH|h d es h' Up P IH]; intros t N1 N2 Sh; auto.
  apply IH; auto. eapply call_others; eassumption.
Qed.
Lemma on_its_sound x c es h : on_its x (ce_host c) es h -> sound c -> (forall t, points t (hl_ctl x) + points t (hl_io x) <= cnt t c) ->
  sound (with_host h c) /\ sizes c (with_host h c) /\ forall t, cnt t (with_host h c) = cnt t c.
Proof.
  intros O (S1 & S2 & T) Le. assert (K : forall t, count t (with_host h c) = count t c) by (intros []; reflexivity).
  assert (L : List.length (ho_tcp h) = List.length (ho_tcp (ce_host c)) /\ List.length (ho_udp h) = List.length (ho_udp (ce_host c))).
  { destruct O as [[_ ->]|(t & u & _ & _ & P)]; [auto|exact (plays_sizes _ _ _ _ P)]. }
  destruct L as [L1 L2]. split; [split; [cbn; congruence|split; [cbn; congruence|]]|split; [unfold sizes; cbn; auto|intros t; unfold cnt; rewrite K; reflexivity]].
  intros t n C Z. rewrite K in C. pose proof (T t n C Z) as Sh. destruct O as [[_ ->]|(i & j & A & B & P)]; [exact Sh|].
  cbn [with_host ce_host]. specialize (Le t). unfold cnt in Le. rewrite C in Le. rewrite A, B in Le.
  eapply (plays_others _ _ _ _ P); cbn [po_tcp po_udp]; [intros ->; rewrite points_self in Le; lia|intros ->; rewrite points_self in Le; lia|exact Sh].
Qed.
Lemma obj_le s i x : kept_count s -> obj s i x -> forall t, points t (hl_ctl x) + points t (hl_io x) <= cnt t (sc_cells s).
Proof. intros (_ & C & _) O t. rewrite C, held_split. pose proof (total_le (of_obj t) _ _ _ O) as L. cbn [of_obj] in L. lia. Qed.
Lemma var_le s v p : kept_count s -> var s v p -> forall t, points t p <= cnt t (sc_cells s).
Proof. intros (_ & C & _) O t. rewrite C, held_split. pose proof (total_le (of_var t) _ _ _ O) as L. cbn [of_var] in L. lia. Qed.
Lemma obj_ok s i x : kept_count s -> obj s i x -> session_ok (hl_world x).
Proof. intros (_ & _ & F) O. exact (proj1 (Forall_forall _ _) F _ (nth_error_In _ _ O)). Qed.
Lemma forall_set {A} (Q : A -> Prop) l : forall i y, Forall Q l -> Q y -> Forall Q (list_set l i y).
Proof. induction l as [|a l IH]; intros [|i] y F Y; cbn; auto; inversion F; subst; constructor; auto. Qed.
Lemma two_le s i j x y : kept_count s -> obj s i x -> obj s j y -> forall t, points t (hl_io y) + points t (hl_ctl x) <= cnt t (sc_cells s).
Proof.
  intros K X Y t. destruct (PeanoNat.Nat.eq_dec i j) as [->|N].
  - unfold obj in *. rewrite X in Y. injection Y as <-. pose proof (obj_le s j x K X t). lia.
  - destruct K as (_ & C & _). rewrite C, held_split. pose proof (total_two (of_obj t) _ _ _ _ _ X Y N) as L. cbn [of_obj] in L. lia.
Qed.
Lemma nth_app_len {A} (l : list A) x i n : nth_error (l ++ [x]) i = Some n -> nth_error l i = Some n \/ (i = List.length l /\ n = x).
Proof.
  intros E. destruct (PeanoNat.Nat.lt_ge_cases i (List.length l)) as [L|L].
  - rewrite nth_error_app1 in E by exact L. auto.
  - rewrite nth_error_app2 in E by exact L. destruct (i - List.length l)%nat as [|k] eqn:D; cbn in E; [injection E as <-; right; split; [lia|reflexivity]|destruct k; discriminate].
Qed.
Lemma nth_app_eq {A} (l : list A) x i : nth_error (l ++ [x]) i = if Nat.eqb (List.length l) i then Some x else nth_error l i.
Proof.
  destruct (Nat.eqb (List.length l) i) eqn:Q.
  - apply PeanoNat.Nat.eqb_eq in Q. subst i. rewrite nth_error_app2 by lia. rewrite PeanoNat.Nat.sub_diag. reflexivity.
  - apply PeanoNat.Nat.eqb_neq in Q. destruct (PeanoNat.Nat.lt_ge_cases i (List.length l)) as [L|L].
    + apply nth_error_app1. exact L.
    + rewrite (proj2 (nth_error_None l i) L). apply nth_error_None. rewrite app_length. cbn. lia.
Qed.
Lemma made_sound p c c' : (make_tcp c = (p, c') \/ exists a n, make_udp a n c = (p, c')) -> sound c -> sound c' /\ forall t, cnt t c' = cnt t c + points t p.
Proof.
  intros M (S1 & S2 & T).
  destruct M as [M|(a & n & M)]; cbn in M; injection M as <- <-; (split; [split; [cbn; rewrite ?app_length; cbn; lia|split; [cbn; rewrite ?app_length; cbn; lia|]]|]).
  - intros [i|i] k K Z; cbn in K |- *.
    + rewrite nth_app_eq in K. unfold tcp_at. cbn. destruct (Nat.eqb _ i); [injection K as K; lia|]. pose proof (T (STcp i) k K Z) as H. cbn in H. unfold tcp_at in H.
      rewrite nth_error_app1 by (eapply nth_lt; exact H). exact H.
    + exact (T (SUdp i) k K Z).
  - intros [i|i]; unfold cnt; cbn; [|lia]. rewrite nth_app_eq, S1. destruct (Nat.eqb _ i) eqn:Q; [|lia]. apply PeanoNat.Nat.eqb_eq in Q. subst i. rewrite (proj2 (nth_error_None (ce_tcp c) _)) by lia. reflexivity.
  - intros [i|i] k K Z; cbn in K |- *.
    + exact (T (STcp i) k K Z).
    + rewrite nth_app_eq in K. unfold udp_at. cbn. destruct (Nat.eqb _ i); [injection K as K; lia|]. destruct (T (SUdp i) k K Z) as (u & U & F). unfold udp_at in U.
      exists u. split; [|exact F]. rewrite nth_error_app1 by (eapply nth_lt; exact U). exact U.
  - intros [i|i]; unfold cnt; cbn; [lia|]. rewrite nth_app_eq, S2. destruct (Nat.eqb _ i) eqn:Q; [|lia]. apply PeanoNat.Nat.eqb_eq in Q. subst i. rewrite (proj2 (nth_error_None (ce_udp c) _)) by lia. reflexivity.
Qed.

Lemma does_kept s d es s' : does_to s d es s' -> kept_count s -> kept_count s'.
Proof.
  intros D K. pose proof K as (So & Cn & F).
  assert (V : forall c p, sound c -> (forall t, cnt t c = cnt t (sc_cells s) + points t p) -> kept_count (mkScene c (sc_vars s ++ [Some p]) (sc_objs s))).
  { intros c p S' C. split; [exact S'|]. split; [|exact F]. intros t. cbn [sc_cells]. rewrite C, Cn, !held_split. cbn [sc_vars sc_objs]. rewrite total_app. cbn [total of_var]. lia. }
  assert (O : forall c p q w, sound c -> session_ok w -> (forall t, cnt t c = cnt t (sc_cells s) + points t p + points t q) -> kept_count (mkScene c (sc_vars s) (sc_objs s ++ [Some (mkHold p q w)]))).
  { intros c p q w S' W C. split; [exact S'|]. split; [|apply Forall_app; split; [exact F|constructor; [exact W|constructor]]].
    intros t. cbn [sc_cells]. rewrite C, Cn, !held_split. cbn [sc_vars sc_objs]. rewrite total_app. cbn [total of_obj hl_ctl hl_io]. lia. }
  destruct D as [p c M|a n p c M| |v p c V1 R|v p c V1 R|v1 v2 p q c w V1 V2 R W Z|i x c w X R W Z|i j x y c w X Y R W Z|i x w es h c X E G H R|i x o r w es h X U E G H].
  - destruct (made_sound p (sc_cells s) c) as [A B]; [left; exact M|exact So|]. apply V; assumption.
  - destruct (made_sound p (sc_cells s) c) as [A B]; [right; eauto|exact So|]. apply V; assumption.
  - apply V; [exact So|]. intros t. cbn. lia.
  - destruct (retain_ok p (sc_cells s) (pos_points _ _ (var_le s v p K V1)) So) as (c' & E & S' & _ & _ & C'). rewrite R in E. injection E as <-. apply V; assumption.
  - destruct (release_ok p (sc_cells s) (pos_points _ _ (var_le s v p K V1)) So) as (c' & E & S' & _ & C'). rewrite R in E. injection E as <-.
    split; [exact S'|]. split; [|exact F]. intros t. specialize (C' t). specialize (Cn t). cbn [sc_cells]. rewrite held_split in *. cbn [sc_vars sc_objs].
    pose proof (total_set (of_var t) _ _ _ None V1) as L. cbn [of_var] in L. lia.
  - destruct (construct_ok p q (sc_cells s) (pos_points _ _ (var_le s v1 p K V1)) (pos_points _ _ (var_le s v2 q K V2)) So) as (c' & E & S' & _ & C').
    rewrite R in E. injection E as <-. apply O; assumption.
  - pose proof (obj_le s i x K X) as L. destruct (copy_ok (hl_ctl x) (hl_io x) (sc_cells s)) as (c' & E & S' & _ & C'); [apply pos_points; intros t; specialize (L t); lia|apply pos_points; intros t; specialize (L t); lia|exact So|].
    rewrite R in E. injection E as <-. apply O; assumption.
  - pose proof (obj_le s i x K X) as L. pose proof (obj_le s j y K Y) as L2.
    destruct (assign_ok (hl_ctl x) (hl_io x) (hl_ctl y) (hl_io y) (sc_cells s)) as (c' & E & S' & _ & C');
      [exact L|apply pos_points; intros t; specialize (L2 t); lia|apply pos_points; intros t; specialize (L2 t); lia|exact (two_le s i j x y K X Y)|exact So|].
    rewrite R in E. injection E as <-. split; [exact S'|]. split; [|apply forall_set; [exact F|exact W]].
    intros t. specialize (C' t). specialize (Cn t). cbn [sc_cells]. rewrite held_split in *. cbn [sc_vars sc_objs].
    pose proof (total_set (of_obj t) _ _ _ (Some (mkHold (hl_ctl y) (hl_io y) w)) X) as L3. cbn [of_obj hl_ctl hl_io] in L3. lia.
  - pose proof (obj_le s i x K X) as L. destruct (on_its_sound _ _ _ _ H So L) as (S1 & _ & C1).
    destruct (end_ok (hl_ctl x) (hl_io x) (with_host h (sc_cells s))) as (c' & E' & S' & _ & C'); [intros t; rewrite C1; exact (L t)|exact S1|].
    rewrite R in E'. injection E' as <-. split; [exact S'|]. split; [|apply forall_set; [exact F|exact I]].
    intros t. specialize (C' t). rewrite C1 in C'. specialize (Cn t). cbn [sc_cells]. rewrite held_split in *. cbn [sc_vars sc_objs].
    pose proof (total_set (of_obj t) _ _ _ None X) as L3. cbn [of_obj hl_ctl hl_io] in L3. lia.
  - pose proof (obj_le s i x K X) as L. destruct (on_its_sound _ _ _ _ H So L) as (S1 & _ & C1). split; [exact S1|]. split.
    + intros t. cbn [sc_cells]. rewrite C1, Cn, !held_split. cbn [sc_vars sc_objs].
      pose proof (total_set (of_obj t) _ _ _ (Some (mkHold (hl_ctl x) (hl_io x) w)) X) as L3. cbn [of_obj hl_ctl hl_io] in L3. lia.
    + apply forall_set; [exact F|]. cbn [holder_ok hl_world]. exact (proj1 (step_kept [] _ _ _ _ (obj_ok s i x K X) (user_nil _) U E)).
Qed.
Lemma nobody_kept : kept_count nobody.
Proof.
  split; [split; [reflexivity|split; [reflexivity|]]|split; [|constructor]].
  - intros [[|i]|[|i]] n H; discriminate.
  - intros [[|i]|[|i]]; reflexivity.
Qed.
Lemma history_kept s l s' : history s l s' -> kept_count s -> kept_count s'.
Proof. induction 1; auto. intros K. apply IHhistory. eapply does_kept; eassumption. Qed.
Lemma reached l s : history nobody l s -> kept_count s.
Proof. intros H. eapply history_kept; [exact H|exact nobody_kept]. Qed.

(** ** What C118 says. *)
Lemma counts l s t : history nobody l s -> made t s -> count t (sc_cells s) = Some (held_by t s) /\ (held_by t s = 0 -> is_shut t (ce_host (sc_cells s))).
Proof.
  intros H M. destruct (reached l s H) as ((S1 & S2 & T) & C & _). specialize (C t). unfold cnt in C.
  assert (X : exists n, count t (sc_cells s) = Some n) by (destruct t as [i|i]; cbn in M |- *; apply nth_some; lia).
  destruct X as [n X]. rewrite X in C. subst n. split; [exact X|]. intros Z. eapply T; eassumption.
Qed.
Lemma held_made l s t : history nobody l s -> 0 < held_by t s -> made t s.
Proof.
  intros H P. destruct (reached l s H) as ((S1 & S2 & T) & C & _). specialize (C t). unfold cnt in C. destruct (count t (sc_cells s)) as [n|] eqn:E; [|lia].
  destruct t as [i|i]; cbn in E |- *; [rewrite <- S1|rewrite <- S2]; eapply nth_lt; exact E.
Qed.
Lemma nothing_left l s t : history nobody l s -> Forall (fun v => v = None) (sc_vars s) -> Forall (fun o => o = None) (sc_objs s) -> made t s -> count t (sc_cells s) = Some 0 /\ is_shut t (ce_host (sc_cells s)).
Proof.
  intros H V O M. destruct (counts l s t H M) as [C Sh].
  assert (Z : held_by t s = 0).
  { rewrite held_split. assert (A : forall l0 : list (option ptr), Forall (fun v => v = None) l0 -> total (of_var t) l0 = 0) by (induction 1 as [|x l0 -> _ IH]; cbn; [reflexivity|exact IH]).
    assert (B : forall l0 : list (option holder), Forall (fun v => v = None) l0 -> total (of_obj t) l0 = 0) by (induction 1 as [|x l0 -> _ IH]; cbn; [reflexivity|exact IH]).
    rewrite A, B by assumption. reflexivity. }
  rewrite Z in C. auto.
Qed.

(** A socket somebody holds is not closed because others let go of it. *)
Definition keeps (c c' : cells) : Prop := forall t, 0 < cnt t c' -> 0 < cnt t c /\ same_socket t (ce_host c) (ce_host c').
Lemma same_refl t h : same_socket t h h.
Proof. destruct t; reflexivity. Qed.
Lemma same_trans t a b c : same_socket t a b -> same_socket t b c -> same_socket t a c.
Proof. destruct t; cbn; congruence. Qed.
Lemma keeps_trans a b c : keeps a b -> keeps b c -> keeps a c.
Proof. intros A B t P. destruct (B t P) as [P1 Q1]. destruct (A t P1) as [P2 Q2]. split; [exact P2|]. eapply same_trans; eassumption. Qed.
Lemma keeps_refl c : keeps c c.
Proof. intros t P. split; [exact P|apply same_refl]. Qed.
Lemma retain_keeps p c c' : retain p c = Ret c' -> keeps c c'.
Proof.
  destruct p as [x|]; cbn [retain]; intros E; [|injection E as <-; intros t P; split; [exact P|apply same_refl]].
  destruct (count x c) as [n|] eqn:C; [|discriminate]. destruct (n =? 0) eqn:Z; [discriminate|]. injection E as <-. apply N.eqb_neq in Z.
  intros t P. rewrite host_set. split; [|apply same_refl]. rewrite (cnt_set x (n + 1) c t) in P by eauto. destruct (same_what x t) eqn:Q; [|exact P].
  apply same_what_spec in Q. subst t. unfold cnt. rewrite C. lia.
Qed.
Lemma shut_others t x h : x <> t -> same_socket t h (shut x h).
Proof.
  intros N. destruct x as [i|i], t as [j|j]; cbn; unfold tcp_close, udp_close; try (destruct (nth_error (ho_tcp h) i)); try (destruct (nth_error (ho_udp h) i)); cbn; try reflexivity;
    rewrite PMem.nth_error_set_other by congruence; reflexivity.
Qed.
Lemma release_keeps p c c' : release p c = Ret c' -> keeps c c'.
Proof.
  destruct p as [x|]; cbn [release]; intros E; [|injection E as <-; intros t P; split; [exact P|apply same_refl]].
  destruct (count x c) as [n|] eqn:C; [|discriminate]. destruct (n =? 0) eqn:Z; [discriminate|]. apply N.eqb_neq in Z.
  destruct (n =? 1); injection E as <-; intros t P; rewrite host_set.
  - set (c1 := mkCells (shut x (ce_host c)) (ce_tcp c) (ce_udp c)) in *. assert (Cc : forall t, count t c1 = count t c) by (intros []; reflexivity).
    rewrite (cnt_set x 0 c1 t) in P by (rewrite Cc; eauto). destruct (same_what x t) eqn:Q; [lia|]. split; [unfold cnt in *; rewrite Cc in P; exact P|].
    cbn [c1 ce_host]. apply shut_others. intros ->. rewrite (proj2 (same_what_spec t t) eq_refl) in Q. discriminate.
  - rewrite (cnt_set x (n - 1) c t) in P by eauto. split; [|apply same_refl]. destruct (same_what x t) eqn:Q; [|exact P]. apply same_what_spec in Q. subst t. unfold cnt. rewrite C. lia.
Qed.
Lemma obind_ret {A B} (x : outcome A) (f : A -> outcome B) r : obind x f = Ret r -> exists a, x = Ret a /\ f a = Ret r.
Proof. destruct x; cbn; try discriminate. eauto. Qed.
Ltac chain := repeat match goal with
  | H : obind _ _ = Ret _ |- _ => apply obind_ret in H; destruct H as (? & ? & ?)
  | H : retain _ _ = Ret _ |- _ => apply retain_keeps in H
  | H : release _ _ = Ret _ |- _ => apply release_keeps in H
  end.
Lemma construct_keeps p q c c' : construct_ptrs p q c = Ret c' -> keeps c c'.
Proof. unfold construct_ptrs. intros E. chain. repeat (eapply keeps_trans; [eassumption|]). apply keeps_refl. Qed.
Lemma copy_keeps p q c c' : copy_ptrs p q c = Ret c' -> keeps c c'.
Proof. unfold copy_ptrs. intros E. chain. repeat (eapply keeps_trans; [eassumption|]). apply keeps_refl. Qed.
Lemma end_keeps p q c c' : end_ptrs p q c = Ret c' -> keeps c c'.
Proof. unfold end_ptrs. intros E. chain. repeat (eapply keeps_trans; [eassumption|]). apply keeps_refl. Qed.
Lemma assign_keeps p q p' q' c c' : assign_ptrs p q p' q' c = Ret c' -> keeps c c'.
Proof. unfold assign_ptrs, assign_ptr. intros E. chain. repeat (eapply keeps_trans; [eassumption|]). apply keeps_refl. Qed.
Lemma same_app t h g : match t with STcp i => (i < List.length (ho_tcp h))%nat /\ exists l, ho_tcp g = ho_tcp h ++ l | SUdp i => (i < List.length (ho_udp h))%nat /\ exists l, ho_udp g = ho_udp h ++ l end -> same_socket t h g.
Proof. destruct t as [i|i]; intros [L [l E]]; cbn; rewrite E, nth_error_app1 by exact L; reflexivity. Qed.
Lemma call_same e k ev c h o h1 : call_of k ev = Some c -> do_call e c h = (o, h1) -> forall t, t <> STcp (po_tcp k) -> t <> SUdp (po_udp k) -> same_socket t h h1.
Proof.
  intros C D t N1 N2.
  assert (SU : forall u' l, same_socket t h (mkHost (list_set (ho_udp h) (po_udp k) u') (ho_tcp h) l)).
  { intros u' l. destruct t as [i|i]; cbn; [reflexivity|]. rewrite PMem.nth_error_set_other by congruence. reflexivity. }
  assert (ST : forall t', same_socket t h (ho_set_tcp (po_tcp k) t' h)).
  { intros t'. destruct t as [i|i]; cbn; [|reflexivity]. rewrite PMem.nth_error_set_other by congruence. reflexivity. }
  pose proof (same_refl t h) as Sh.
  destruct ev as [[] n p b|[] bs n|[] d|[] b]; try discriminate C; injection C as <-; cbn [do_call] in D.
  - unfold tcp_open in D. destruct (nth_error (ho_tcp h) _); [|injection D as <- <-; exact Sh]. destruct (en_resolve e n p); [injection D as <- <-; exact Sh|].
    destruct (tcp_connect _ _ _). injection D as <- <-. apply ST.
  - unfold udp_open in D. destruct (nth_error (ho_udp h) _); [|injection D as <- <-; exact Sh]. destruct (en_resolve e n p); [injection D as <- <-; exact Sh|].
    destruct (us_fd _); [destruct (existsb _ _)|..]; injection D as <- <-; apply SU.
  - unfold udp_send in D. destruct (nth_error (ho_udp h) _) as [x|]; [|injection D as <- <-; exact Sh]. destruct (us_fd _); [injection D as <- <-; exact Sh|..];
      destruct (_ <? _); injection D as <- <-; try exact Sh; apply SU.
  - unfold tcp_close in D. destruct (nth_error (ho_tcp h) _); injection D as <- <-; [apply ST|exact Sh].
  - unfold udp_close in D. destruct (nth_error (ho_udp h) _); injection D as <- <-; [apply SU|exact Sh].
Qed.
Lemma plays_same k h es h' : plays k h es h' -> forall t, t <> STcp (po_tcp k) -> t <> SUdp (po_udp k) -> same_socket t h h'.
Proof.
  induction 1 as [h|h ev c e o h1 es h' Ca D W P IH|h bs n es h' Up P IH|h d es h' Up P IH|h d es h' Up P IH]; intros t N1 N2; auto; [apply same_refl|].
  eapply same_trans; [eapply call_same; eassumption|]. apply IH; assumption.
Qed.
Lemma on_its_same x h es h' t : on_its x h es h' -> hl_ctl x <> Some t -> hl_io x <> Some t -> same_socket t h h'.
Proof.
  intros [[_ ->]|(i & j & A & B & P)] N1 N2; [apply same_refl|]. eapply (plays_same _ _ _ _ P); cbn; congruence.
Qed.
Lemma undisturbed l s d es s' t : history nobody l s -> does_to s d es s' -> made t s -> 0 < held_by t s' ->
  (forall i x, (d = DEnd i \/ exists o, d = DCall i o) -> obj s i x -> hl_ctl x <> Some t /\ hl_io x <> Some t) -> same_socket t (ce_host (sc_cells s)) (ce_host (sc_cells s')).
Proof.
  intros H D M P Nd. pose proof (reached l s H) as K. pose proof (does_kept s d es s' D K) as (_ & Cn & _). rewrite <- Cn in P.
  destruct D as [p c Mk|a n p c Mk| |v p c V1 R|v p c V1 R|v1 v2 p q c w V1 V2 R W Z|i x c w X R W Z|i j x y c w X Y R W Z|i x w es h c X E G O R|i x o r w es h X U E G O]; cbn [sc_cells] in *.
  - injection Mk as <- <-. apply same_app. destruct t; cbn in M |- *; split; try exact M; [eauto|exists []; rewrite app_nil_r; reflexivity].
  - injection Mk as <- <-. apply same_app. destruct t; cbn in M |- *; split; try exact M; [exists []; rewrite app_nil_r; reflexivity|eauto].
  - apply same_refl.
  - exact (proj2 (retain_keeps _ _ _ R t P)).
  - exact (proj2 (release_keeps _ _ _ R t P)).
  - exact (proj2 (construct_keeps _ _ _ _ R t P)).
  - exact (proj2 (copy_keeps _ _ _ _ R t P)).
  - exact (proj2 (assign_keeps _ _ _ _ _ _ R t P)).
  - destruct (Nd i x (or_introl eq_refl) X) as [N1 N2]. eapply same_trans; [eapply on_its_same; eassumption|]. exact (proj2 (end_keeps _ _ _ _ R t P)).
  - destruct (Nd i x (or_intror (ex_intro _ o eq_refl)) X) as [N1 N2]. cbn [with_host ce_host]. eapply on_its_same; eassumption.
Qed.

(** Every step on the pointers is possible. *)
Lemma safe l s : history nobody l s ->
  (forall v p, var s v p -> (exists c, retain p (sc_cells s) = Ret c) /\ exists c, release p (sc_cells s) = Ret c) /\
  (forall v1 v2 p q, var s v1 p -> var s v2 q -> exists c, construct_ptrs p q (sc_cells s) = Ret c) /\
  (forall i x, obj s i x -> exists c, copy_ptrs (hl_ctl x) (hl_io x) (sc_cells s) = Ret c) /\
  (forall i j x y, obj s i x -> obj s j y -> exists c, assign_ptrs (hl_ctl x) (hl_io x) (hl_ctl y) (hl_io y) (sc_cells s) = Ret c) /\
  (forall i x es h, obj s i x -> on_its x (ce_host (sc_cells s)) es h -> exists c, end_ptrs (hl_ctl x) (hl_io x) (with_host h (sc_cells s)) = Ret c).
Proof.
  intros H. pose proof (reached l s H) as K. pose proof K as (So & Cn & F).
  split; [|split; [|split; [|split]]].
  - intros v p V. pose proof (pos_points _ _ (var_le s v p K V)) as P. destruct (retain_ok p _ P So) as (c & E & _). destruct (release_ok p _ P So) as (c2 & E2 & _). eauto.
  - intros v1 v2 p q V1 V2. destruct (construct_ok p q (sc_cells s) (pos_points _ _ (var_le s v1 p K V1)) (pos_points _ _ (var_le s v2 q K V2)) So) as (c & E & _). eauto.
  - intros i x X. pose proof (obj_le s i x K X) as L.
    destruct (copy_ok (hl_ctl x) (hl_io x) (sc_cells s)) as (c & E & _); [apply pos_points; intros t; specialize (L t); lia|apply pos_points; intros t; specialize (L t); lia|exact So|]. eauto.
  - intros i j x y X Y. pose proof (obj_le s i x K X) as L. pose proof (obj_le s j y K Y) as L2.
    destruct (assign_ok (hl_ctl x) (hl_io x) (hl_ctl y) (hl_io y) (sc_cells s)) as (c & E & _);
      [exact L|apply pos_points; intros t; specialize (L2 t); lia|apply pos_points; intros t; specialize (L2 t); lia|exact (two_le s i j x y K X Y)|exact So|]. eauto.
  - intros i x es h X O. pose proof (obj_le s i x K X) as L. destruct (on_its_sound _ _ _ _ O So L) as (S1 & _ & C1).
    destruct (end_ok (hl_ctl x) (hl_io x) (with_host h (sc_cells s))) as (c & E & _); [intros t; rewrite C1; exact (L t)|exact S1|]. eauto.
Qed.

(** The last pointer to the socket of an open session. *)
Lemma obj_holds s i x t : obj s i x -> hl_ctl x = Some t -> 1 <= held_by t s.
Proof.
  intros X A. rewrite held_split. pose proof (total_le (of_obj t) _ _ _ X) as L. cbn [of_obj] in L. rewrite A, points_self in L. lia.
Qed.
Lemma obj_set s i k x y v c : obj s i x -> k <> i -> obj (mkScene c v (list_set (sc_objs s) k y)) i x.
Proof. intros X N. unfold obj in *. cbn. rewrite PMem.nth_error_set_other by exact N. exact X. Qed.
Lemma obj_here s i y v c x : obj s i x -> obj (mkScene c v (list_set (sc_objs s) i (Some y))) i y.
Proof. intros X. unfold obj in *. cbn. apply PMem.nth_error_set_same. eapply nth_lt. exact X. Qed.
Lemma told l s d es s' i x t : history nobody l s -> does_to s d es s' -> (forall j k, d <> DAssign j k) -> obj s i x -> hl_ctl x = Some t -> se_id (w_se (hl_world x)) <> 0 -> held_by t s' = 0 ->
  d = DEnd i /\ exists n, In (ESend Ctl (unregister (se_id (w_se (hl_world x)))) n) es.
Proof.
  intros H D Na X A Z Z'. pose proof (reached l s H) as K.
  assert (Gone : forall y, obj s' i y -> hl_ctl y = Some t -> False) by (intros y Y B; pose proof (obj_holds s' i y t Y B); lia).
  destruct D as [p c Mk|a n p c Mk| |v p c V1 R|v p c V1 R|v1 v2 p q c w V1 V2 R W Zw|j x' c w X' R W Zw|j k x' y c w X' Y R W Zw|j x' w es h c X' E G O R|j x' o r w es h X' U E G O].
  all: try (exfalso; exact (Gone x X A)).
  - exfalso. apply (Gone x); [|exact A]. unfold obj in *. cbn. rewrite nth_error_app1 by (eapply nth_lt; exact X). exact X.
  - exfalso. apply (Gone x); [|exact A]. unfold obj in *. cbn. rewrite nth_error_app1 by (eapply nth_lt; exact X). exact X.
  - exfalso. apply (Na j k). reflexivity.
  - destruct (PeanoNat.Nat.eq_dec j i) as [->|N]; [|exfalso; apply (Gone x); [apply obj_set; assumption|exact A]].
    unfold obj in X, X'. rewrite X in X'. injection X' as <-. split; [reflexivity|].
    destruct (session_destroy_spec (hl_world x)) as (w' & E' & Sp); [exact (proj1 (obj_ok s i x K X))|]. rewrite E in E'. injection E' as <-.
    assert (Zb : (se_id (w_se (hl_world x)) =? 0) = false) by (apply N.eqb_neq; exact Z). rewrite Zb in Sp. destruct Sp as (n & tail & Wn & _). unfold gained in G. rewrite Wn in G. apply app_inv_head in G.
    exists n. rewrite <- G. left. reflexivity.
  - exfalso. destruct (PeanoNat.Nat.eq_dec j i) as [->|N]; [|apply (Gone x); [apply obj_set; assumption|exact A]].
    unfold obj in X, X'. rewrite X in X'. injection X' as <-. eapply Gone; [eapply obj_here; exact X|exact A].
Qed.
Lemma dropped l s i j x y t es s' : history nobody l s -> obj s i x -> obj s j y -> does_to s (DAssign i j) es s' -> hl_ctl x = Some t -> held_by t s' = 0 ->
  es = [] /\ is_shut t (ce_host (sc_cells s')).
Proof.
  intros H X Y D A Z. pose proof (reached l s H) as K. pose proof (does_kept _ _ _ _ D K) as ((S1 & S2 & T) & Cn & _). specialize (Cn t). rewrite Z in Cn.
  assert (Cx : exists n, count t (sc_cells s) = Some n).
  { pose proof (obj_holds s i x t X A) as L. destruct K as (_ & C & _). specialize (C t). unfold cnt in C. destruct (count t (sc_cells s)); [eauto|lia]. }
  inversion D as [| | | | | | |i' j' x' y' c w X' Y' R W Zw| |]; subst. split; [reflexivity|]. cbn [sc_cells] in *.
  assert (Sz : sizes (sc_cells s) c).
  { unfold obj in *. rewrite X in X'. injection X' as <-. rewrite Y in Y'. injection Y' as <-. pose proof (obj_le s i x K X) as L. pose proof (obj_le s j y K Y) as L2.
    destruct (assign_ok (hl_ctl x) (hl_io x) (hl_ctl y) (hl_io y) (sc_cells s)) as (c' & E & _ & Sz & _);
      [exact L|apply pos_points; intros u; specialize (L2 u); lia|apply pos_points; intros u; specialize (L2 u); lia|exact (two_le s i j x y K X Y)|exact (proj1 K)|]. rewrite R in E. injection E as <-. exact Sz. }
  destruct Cx as [n Cx]. assert (Cy : exists m, count t c = Some m).
  { destruct Sz as (_ & _ & E1 & E2). destruct t as [k|k]; cbn in *; apply nth_some; [rewrite E1|rewrite E2]; eapply nth_lt; exact Cx. }
  destruct Cy as [m Cy]. apply (T t m Cy). unfold cnt in Cn. rewrite Cy in Cn. exact Cn.
Qed.

(** ** Programs that do this. *)
Lemma do_opened s i x n id w1 t h1 h2 : obj s i x -> hl_ctl x = Some (STcp t) -> hl_io x = Some (SUdp t) -> step (open_of n) (hl_world x) = (Ret RUnit, w1) -> gained (hl_world x) w1 (PPlant.opened n id) ->
  do_call two_plcs (TOpenC t n "44818") (ce_host (sc_cells s)) = (Ret 0, h1) -> do_call two_plcs (UOpen t n "2222") h1 = (Ret 0, h2) -> (exists r, tcp_at h2 t (TConnected r)) ->
  does_to s (DCall i (open_of n)) (PPlant.opened n id) (mkScene (with_host h2 (sc_cells s)) (sc_vars s) (list_set (sc_objs s) i (Some (mkHold (hl_ctl x) (hl_io x) w1)))).
Proof.
  intros X A B E G D1 D2 T. eapply do_step; [exact X|exact I|exact E|exact G|]. right. exists t, t. split; [exact A|]. split; [exact B|]. eapply (plays_opened (hl_world x) n id _ t); eassumption.
Qed.
Definition ending (id : N) : list event := [ESend Ctl (unregister id) (Some (len (unregister id))); EClose Ctl true; EClose Io true].
(** A session that is the only one to hold its sockets: opened, then ended. *)
Lemma whole_life : exists s s' x, history nobody
  [(DTcp, []); (DUdp 0 2222, []); (DSession 0 1, []); (DDrop 0, []); (DDrop 1, []); (DCall 0 (open_of "a"), PPlant.opened "a" 9)] s /\
  obj s 0 x /\ hl_ctl x = Some (STcp 0) /\ se_id (w_se (hl_world x)) = 9 /\ held_by (STcp 0) s = 1 /\ tcp_at (ce_host (sc_cells s)) 0 (TConnected (mkEnd 1 44818)) /\
  does_to s (DEnd 0) (ending 9) s' /\ held_by (STcp 0) s' = 0 /\ count (STcp 0) (sc_cells s') = Some 0 /\ is_shut (SUdp 0) (ce_host (sc_cells s')).
Proof.
  set (w := w0 [RxData (registered 9)] []). set (w1 := snd (step (open_of "a") w)). set (w2 := snd (session_destroy w1)).
  set (h := mkHost [us_make 0 2222] [TClosed] []). set (h1 := bound h 0 1 2222). set (h2 := ho_set_udp 0 (mkUdp FClosed (mkEnd 0 2222) (mkEnd 1 44818)) (ho_set_tcp 0 TClosed h)).
  set (x := mkHold (Some (STcp 0)) (Some (SUdp 0)) w). set (x1 := mkHold (Some (STcp 0)) (Some (SUdp 0)) w1).
  exists (mkScene (mkCells h1 [1] [1]) [None; None] [Some x1]), (mkScene (mkCells h2 [0] [0]) [None; None] [None]), x1.
  split.
  { eapply history_deed; [apply do_tcp; reflexivity|]. eapply history_deed; [apply do_udp; reflexivity|].
    eapply history_deed; [apply (do_session _ 0 1 (Some (STcp 0)) (Some (SUdp 0)) (mkCells h [2] [2]) w); [reflexivity|reflexivity|reflexivity|apply session_ok_w0|reflexivity]|].
    eapply history_deed; [apply (do_drop _ 0 (Some (STcp 0)) (mkCells h [1] [2])); reflexivity|]. eapply history_deed; [apply (do_drop _ 1 (Some (SUdp 0)) (mkCells h [1] [1])); reflexivity|].
    eapply history_deed; [|apply history_nil].
    apply (do_opened (mkScene (mkCells h [1] [1]) [None; None] [Some x]) 0 x "a" 9 w1 0 (ho_set_tcp 0 (TConnected (mkEnd 1 44818)) h) h1); [reflexivity|reflexivity|reflexivity|vm_compute; reflexivity|vm_compute; reflexivity|reflexivity|reflexivity|eexists; reflexivity]. }
  split; [reflexivity|]. split; [reflexivity|]. split; [vm_compute; reflexivity|]. split; [reflexivity|]. split; [reflexivity|].
  split.
  { apply (do_end (mkScene (mkCells h1 [1] [1]) [None; None] [Some x1]) 0 x1 w2 (ending 9) h2 (mkCells h2 [0] [0])); [reflexivity|vm_compute; reflexivity|vm_compute; reflexivity| |reflexivity].
    right. exists 0%nat, 0%nat. split; [reflexivity|]. split; [reflexivity|]. apply plays_send; [intros _; eexists; reflexivity|].
    eapply (plays_call _ _ _ _ two_plcs); [reflexivity|vm_compute; reflexivity|eexists; reflexivity|].
    eapply (plays_call _ _ _ _ two_plcs); [reflexivity|vm_compute; reflexivity|eexists; reflexivity|apply plays_nil]. }
  split; [reflexivity|]. split; [reflexivity|]. eexists. split; reflexivity.
Qed.
(** A new session assigned to the variable of an open one. *)
Definition replacing : list (deed * list event) :=
  [(DTcp, []); (DUdp 0 2222, []); (DTcp, []); (DUdp 0 2223, []); (DSession 0 1, []); (DSession 2 3, []); (DDrop 0, []); (DDrop 1, []); (DDrop 2, []); (DDrop 3, []);
   (DCall 0 (open_of "a"), PPlant.opened "a" 9)].
Definition rest : list (deed * list event) := [(DAssign 0 1, []); (DEnd 1, []); (DEnd 0, [])].
Lemma forgotten : exists s s', history nobody replacing s /\ (exists x, obj s 0 x /\ hl_ctl x = Some (STcp 0) /\ se_id (w_se (hl_world x)) = 9) /\
  history s rest s' /\ (forall i x, ~ obj s' i x) /\ forall t, made t s' -> is_shut t (ce_host (sc_cells s')).
Proof.
  set (w := w0 [RxData (registered 9)] []). set (w1 := snd (step (open_of "a") w)). set (v := w0 [] []).
  set (h := mkHost [us_make 0 2222; us_make 0 2223] [TClosed; TClosed] []). set (h1 := bound h 0 1 2222).
  set (h2 := ho_set_udp 0 (mkUdp FClosed (mkEnd 0 2222) (mkEnd 1 44818)) (ho_set_tcp 0 TClosed h)).
  set (x := mkHold (Some (STcp 0)) (Some (SUdp 0)) w). set (x1 := mkHold (Some (STcp 0)) (Some (SUdp 0)) w1). set (y := mkHold (Some (STcp 1)) (Some (SUdp 1)) v).
  set (gone := [None; None; None; None] : list (option ptr)).
  exists (mkScene (mkCells h1 [1; 1] [1; 1]) gone [Some x1; Some y]), (mkScene (mkCells h2 [0; 0] [0; 0]) gone [None; None]).
  split.
  { unfold replacing. eapply history_deed; [apply do_tcp; reflexivity|]. eapply history_deed; [apply do_udp; reflexivity|].
    eapply history_deed; [apply do_tcp; reflexivity|]. eapply history_deed; [apply do_udp; reflexivity|].
    eapply history_deed; [apply (do_session _ 0 1 (Some (STcp 0)) (Some (SUdp 0)) (mkCells h [2; 1] [2; 1]) w); [reflexivity|reflexivity|reflexivity|apply session_ok_w0|reflexivity]|].
    eapply history_deed; [apply (do_session _ 2 3 (Some (STcp 1)) (Some (SUdp 1)) (mkCells h [2; 2] [2; 2]) v); [reflexivity|reflexivity|reflexivity|apply session_ok_w0|reflexivity]|].
    eapply history_deed; [apply (do_drop _ 0 (Some (STcp 0)) (mkCells h [1; 2] [2; 2])); reflexivity|]. eapply history_deed; [apply (do_drop _ 1 (Some (SUdp 0)) (mkCells h [1; 2] [1; 2])); reflexivity|].
    eapply history_deed; [apply (do_drop _ 2 (Some (STcp 1)) (mkCells h [1; 1] [1; 2])); reflexivity|]. eapply history_deed; [apply (do_drop _ 3 (Some (SUdp 1)) (mkCells h [1; 1] [1; 1])); reflexivity|].
    eapply history_deed; [|apply history_nil].
    apply (do_opened (mkScene (mkCells h [1; 1] [1; 1]) gone [Some x; Some y]) 0 x "a" 9 w1 0 (ho_set_tcp 0 (TConnected (mkEnd 1 44818)) h) h1); [reflexivity|reflexivity|reflexivity|vm_compute; reflexivity|vm_compute; reflexivity|reflexivity|reflexivity|eexists; reflexivity]. }
  split; [exists x1; split; [reflexivity|split; [reflexivity|vm_compute; reflexivity]]|].
  split.
  { unfold rest. eapply history_deed; [apply (do_assign _ 0 1 x1 y (mkCells h2 [0; 2] [0; 2]) v); [reflexivity|reflexivity|reflexivity|apply session_ok_w0|reflexivity]|].
    eapply history_deed; [apply (do_end _ 1 y v [] h2 (mkCells h2 [0; 1] [0; 1])); [reflexivity|reflexivity|unfold gained; rewrite app_nil_r; reflexivity|left; split; reflexivity|reflexivity]|].
    eapply history_deed; [apply (do_end _ 0 y v [] h2 (mkCells h2 [0; 0] [0; 0])); [reflexivity|reflexivity|unfold gained; rewrite app_nil_r; reflexivity|left; split; reflexivity|reflexivity]|].
    apply history_nil. }
  split; [intros [|[|[|i]]] z Z; discriminate|].
  intros [[|[|i]]|[|[|i]]] M; cbn in M; try lia; cbn; [reflexivity|reflexivity|eexists; split; reflexivity|eexists; split; reflexivity].
Qed.

Lemma forgotten_all : exists s s', history nobody replacing s /\ (exists x, obj s 0 x /\ hl_ctl x = Some (STcp 0) /\ se_id (w_se (hl_world x)) = 9) /\
  history s rest s' /\ (forall i x, ~ obj s' i x) /\ (forall t, made t s' -> is_shut t (ce_host (sc_cells s'))) /\
  In (DCall 0 (open_of "a"), PPlant.opened "a" 9) replacing /\ In (DAssign 0 1, []) rest /\ forall d es, In (d, es) rest -> es = [].
Proof.
  destruct forgotten as (s & s' & A & B & C & D & E). exists s, s'. split; [exact A|]. split; [exact B|]. split; [exact C|]. split; [exact D|]. split; [exact E|].
  split; [cbn; auto 20|]. split; [left; reflexivity|]. intros d es [H|[H|[H|[]]]]; injection H as <- <-; reflexivity.
Qed.
(** Two sessions on the same sockets; the second is assigned to itself, the first ends. *)
Lemma shared_pair : exists s s' s2 x, history nobody [(DTcp, []); (DUdp 0 2222, []); (DSession 0 1, []); (DCopySession 0, []); (DDrop 0, []); (DNull, []); (DAssign 1 1, [])] s /\
  held_by (STcp 0) s = 2 /\ held_by (SUdp 0) s = 3 /\ var s 2 None /\ obj s 1 x /\ does_to s (DDrop 1) [] s' /\ held_by (SUdp 0) s' = 2 /\ count (SUdp 0) (sc_cells s') = Some 2 /\
  does_to s' (DEnd 0) [] s2 /\ held_by (STcp 0) s2 = 1.
Proof.
  set (w := w0 [] []). set (h := mkHost [us_make 0 2222] [TClosed] []). set (x := mkHold (Some (STcp 0)) (Some (SUdp 0)) w).
  exists (mkScene (mkCells h [2] [3]) [None; Some (Some (SUdp 0)); Some None] [Some x; Some x]), (mkScene (mkCells h [2] [2]) [None; None; Some None] [Some x; Some x]),
    (mkScene (mkCells h [1] [1]) [None; None; Some None] [None; Some x]), x.
  split.
  { eapply history_deed; [apply do_tcp; reflexivity|]. eapply history_deed; [apply do_udp; reflexivity|].
    eapply history_deed; [apply (do_session _ 0 1 (Some (STcp 0)) (Some (SUdp 0)) (mkCells h [2] [2]) w); [reflexivity|reflexivity|reflexivity|apply session_ok_w0|reflexivity]|].
    eapply history_deed; [apply (do_copy_session _ 0 x (mkCells h [3] [3]) w); [reflexivity|reflexivity|apply session_ok_w0|reflexivity]|].
    eapply history_deed; [apply (do_drop _ 0 (Some (STcp 0)) (mkCells h [2] [3])); reflexivity|]. eapply history_deed; [apply do_null|].
    eapply history_deed; [apply (do_assign _ 1 1 x x (mkCells h [2] [3]) w); [reflexivity|reflexivity|reflexivity|apply session_ok_w0|reflexivity]|]. apply history_nil. }
  split; [reflexivity|]. split; [reflexivity|]. split; [reflexivity|]. split; [reflexivity|]. split; [apply (do_drop (mkScene (mkCells h [2] [3]) [None; Some (Some (SUdp 0)); Some None] [Some x; Some x]) 1 (Some (SUdp 0)) (mkCells h [2] [2])); reflexivity|].
  split; [reflexivity|]. split; [reflexivity|].
  split; [|reflexivity]. apply (do_end (mkScene (mkCells h [2] [2]) [None; None; Some None] [Some x; Some x]) 0 x w [] h (mkCells h [1] [1])); [reflexivity|reflexivity|unfold gained; rewrite app_nil_r; reflexivity|left; split; reflexivity|reflexivity].
Qed.
