(** * PCopies: proofs about copies of packets, C129. *)
From Verif Require Import Vocab33 PMem.
From Verif Require PRest.
Local Open Scope N_scope.

Section Copies.
Variable m0 : heap.

Definition good (m : heap) (sb : sbuf) : Prop :=
  (sb_alloc sb = None /\ keeps_view m0 (sb_data sb)) \/
  exists b bs, sb = mkSB (mkV b 0 (len bs)) (Some b) /\ (List.length m0 <= b)%nat /\ nth_error m b = Some (Some bs).

Record inv (m : heap) (c : cells) (f : nat -> N) : Prop := mkInv {
  i_len : (List.length m0 <= List.length m)%nat;
  i_pre : forall b, (b < List.length m0)%nat -> nth_error m b = nth_error m0 b;
  i_cnt : forall q, f q = match nth_error c q with Some (n, _) => n | None => 0 end;
  i_good : forall q n sb, nth_error c q = Some (n, sb) -> 0 < n -> good m sb;
  i_dis : forall q q' n n' sb sb' b, nth_error c q = Some (n, sb) -> nth_error c q' = Some (n', sb') -> 0 < n -> 0 < n' ->
            sb_alloc sb = Some b -> sb_alloc sb' = Some b -> q = q';
  i_own : forall b bs, (List.length m0 <= b)%nat -> nth_error m b = Some (Some bs) ->
            exists q n sb, nth_error c q = Some (n, sb) /\ 0 < n /\ sb_alloc sb = Some b }.

Definition refs (p : sptr) (q : nat) : N := match p with Some x => if Nat.eqb x q then 1 else 0 | None => 0 end.
Definition sb_of (c : cells) (q : nat) : option sbuf := match nth_error c q with Some (_, sb) => Some sb | None => None end.
Definition kept (m : heap) (c : cells) (m' : heap) (c' : cells) (q : nat) : Prop :=
  sb_of c' q = sb_of c q /\ forall sb, sb_of c q = Some sb -> load_view m' (sb_data sb) = load_view m (sb_data sb).
Definition keeps (f : nat -> N) (m : heap) (c : cells) (m' : heap) (c' : cells) : Prop := forall q, 0 < f q -> kept m c m' c' q.

Lemma kept_refl m c q : kept m c m c q. Proof. split; auto. Qed.
Lemma kept_trans m c m1 c1 m2 c2 q : kept m c m1 c1 q -> kept m1 c1 m2 c2 q -> kept m c m2 c2 q.
Proof. intros [A B] [A' B']. split; [congruence|]. intros sb H. rewrite B' by congruence. apply B; exact H. Qed.

Lemma inv_ext m c f g : (forall q, f q = g q) -> inv m c f -> inv m c g.
Proof. intros E [A B C D F G]. constructor; auto. intros q. rewrite <- E. apply C. Qed.

Lemma refs_self q : refs (Some q) q = 1. Proof. unfold refs. rewrite PeanoNat.Nat.eqb_refl. reflexivity. Qed.
Lemma refs_other q x : x <> q -> refs (Some x) q = 0. Proof. intros H. unfold refs. apply PeanoNat.Nat.eqb_neq in H. rewrite H. reflexivity. Qed.

Lemma nth_set2 {A} (l : list A) i x y j : nth_error l i = Some x -> nth_error (list_set l i y) j = if Nat.eqb i j then Some y else nth_error l j.
Proof.
  intros H. destruct (Nat.eqb i j) eqn:E.
  - apply PeanoNat.Nat.eqb_eq in E. subst. apply nth_error_set_same. apply nth_error_Some. congruence.
  - apply PeanoNat.Nat.eqb_neq in E. apply nth_error_set_other. exact E.
Qed.

Lemma load_pre m v bs : (forall b, (b < List.length m0)%nat -> nth_error m b = nth_error m0 b) -> load_view m0 v = Ret bs -> load_view m v = Ret bs.
Proof.
  intros P. unfold load_view, load. destruct (v_len v =? 0); [auto|]. destruct (nth_error m0 (v_blk v)) as [x|] eqn:E; [|discriminate].
  rewrite P, E; [auto|]. apply nth_error_Some. congruence.
Qed.

Lemma good_reads m c f q n sb : inv m c f -> nth_error c q = Some (n, sb) -> 0 < n -> exists bs, load_view m (sb_data sb) = Ret bs.
Proof.
  intros I E P. destruct (i_good _ _ _ I q n sb E P) as [(_ & bs & V)|(b & bs & -> & _ & L)].
  - exists bs. exact (load_pre m _ _ (i_pre _ _ _ I) V).
  - unfold load_view, load. cbn [sb_data v_len v_blk v_off]. destruct (len bs =? 0); [eauto|]. rewrite L, N.add_0_l, N.leb_refl. eauto.
Qed.

(** Only the count changes. *)
Lemma count_inv m c f q n sb k : inv m c f -> nth_error c q = Some (n, sb) -> 0 < n -> 0 < k ->
  inv m (list_set c q (k, sb)) (fun j => if Nat.eqb q j then k else f j) /\ forall j, kept m c m (list_set c q (k, sb)) j.
Proof.
  intros I E Pn Pk. pose proof (fun j => nth_set2 c q _ (k, sb) j E) as Nq. destruct I as [A B C D F G]. split; [constructor; auto|].
  - intros j. rewrite Nq. destruct (Nat.eqb q j) eqn:Ej; [reflexivity|]. apply C.
  - intros j n' sb'. rewrite Nq. destruct (Nat.eqb q j) eqn:Ej; [|apply D]. intros H _. injection H as <- <-. exact (D q n sb E Pn).
  - intros j j' n1 n2 s1 s2 b. rewrite !Nq. destruct (Nat.eqb q j) eqn:Ej, (Nat.eqb q j') eqn:Ej'.
    + apply PeanoNat.Nat.eqb_eq in Ej, Ej'. congruence.
    + apply PeanoNat.Nat.eqb_eq in Ej. subst j. intros H H2 _ P2 L L2. injection H as <- <-. exact (F q j' n n2 sb s2 b E H2 Pn P2 L L2).
    + apply PeanoNat.Nat.eqb_eq in Ej'. subst j'. intros H H2 P1 _ L L2. injection H2 as <- <-. exact (F j q n1 n s1 sb b H E P1 Pn L L2).
    + apply F.
  - intros b bs L H. destruct (G b bs L H) as (j & n' & sb' & Ec & Pn' & Al). exists j. rewrite Nq. destruct (Nat.eqb q j) eqn:Ej.
    + apply PeanoNat.Nat.eqb_eq in Ej. subst j. rewrite E in Ec. injection Ec as <- <-. eauto.
    + eauto.
  - intros j. unfold kept, sb_of. rewrite Nq. destruct (Nat.eqb q j) eqn:Ej; [|auto]. apply PeanoNat.Nat.eqb_eq in Ej. subst j. rewrite E. auto.
Qed.

Lemma retain_ok m r c f p : inv m c f -> (forall q, p = Some q -> 0 < f q) ->
  exists c', c_retain p m r c = (Ret tt, m, r, c') /\ inv m c' (fun q => f q + refs p q) /\ forall j, kept m c m c' j.
Proof.
  intros I P. destruct p as [q|].
  - specialize (P q eq_refl). unfold c_retain. pose proof (i_cnt _ _ _ I q) as C. destruct (nth_error c q) as [[n sb]|] eqn:E; [|lia].
    replace (n =? 0) with false by (symmetry; apply N.eqb_neq; lia). destruct (count_inv m c f q n sb (n + 1) I E) as [I' K]; [lia..|].
    eexists. split; [reflexivity|]. split; [|exact K]. revert I'. apply inv_ext. intros j. destruct (Nat.eqb q j) eqn:Ej.
    + apply PeanoNat.Nat.eqb_eq in Ej. subst j. rewrite refs_self. lia.
    + apply PeanoNat.Nat.eqb_neq in Ej. rewrite (refs_other j q Ej). lia.
  - exists c. split; [reflexivity|]. split; [|intros; apply kept_refl]. revert I. apply inv_ext. intros q. cbn [refs]. lia.
Qed.

Lemma load_other m b v : v_blk v <> b -> load_view (list_set m b None) v = load_view m v.
Proof. intros H. unfold load_view, load. rewrite nth_error_set_other by (intros ->; exact (H eq_refl)). reflexivity. Qed.
Lemma load_empty m m' v : v_len v = 0 -> load_view m v = load_view m' v.
Proof. intros H. unfold load_view, load. rewrite H. reflexivity. Qed.
Lemma view_inside v : keeps_view m0 v -> v_len v = 0 \/ (v_blk v < List.length m0)%nat.
Proof.
  intros (bs & H). unfold load_view, load in H. destruct (v_len v =? 0) eqn:E; [left; apply N.eqb_eq; exact E|]. right.
  apply nth_error_Some. intros X. rewrite X in H. discriminate.
Qed.

Definition less (m m2 : heap) : Prop := List.length m = List.length m2 /\ given_from m m2.
Lemma less_refl m : less m m. Proof. split; [reflexivity|]. intros b. left. reflexivity. Qed.
Lemma less_set m b bl : nth_error m b = Some (Some bl) -> less (list_set m b None) m.
Proof. intros H. split; [apply length_list_set|]. intros x. rewrite (nth_set2 m b _ None x H). destruct (Nat.eqb b x); auto. Qed.
Lemma less_trans a b c : less a b -> less b c -> less a c.
Proof. intros [L G] [L' G']. split; [congruence|]. intros x. destruct (G x) as [->|E]; [|right; exact E]. apply G'. Qed.

Lemma release_ok m r c f p : inv m c (fun q => f q + refs p q) ->
  exists m' c', c_release p m r c = (Ret tt, m', r, c') /\ inv m' c' f /\ keeps f m c m' c' /\ less m' m /\ (match p with Some q => 0 < f q | None => True end -> m' = m).
Proof.
  intros I. destruct p as [q|]; [|exists m, c; split; [reflexivity|]; split; [revert I; apply inv_ext; intros; cbn [refs]; lia|]; split; [intros j _; apply kept_refl|split; [apply less_refl|reflexivity]]].
  pose proof (i_cnt _ _ _ I q) as C. cbv beta in C. rewrite refs_self in C. unfold c_release. destruct (nth_error c q) as [[n sb]|] eqn:E; [|lia].
  replace (n =? 0) with false by (symmetry; apply N.eqb_neq; lia). destruct (n =? 1) eqn:E1.
  - apply N.eqb_eq in E1. rewrite E1 in E, C. clear n E1. assert (Fq : f q = 0) by lia. pose proof (fun j => nth_set2 c q _ (0, sb) j E) as Nq.
    assert (Dec : forall m', (List.length m0 <= List.length m')%nat -> (forall b, (b < List.length m0)%nat -> nth_error m' b = nth_error m0 b) ->
      (forall b, Some b <> sb_alloc sb -> nth_error m' b = nth_error m b) -> (forall b, Some b = sb_alloc sb -> nth_error m' b = Some None) ->
      inv m' (list_set c q (0, sb)) f /\ keeps f m c m' (list_set c q (0, sb))).
    { intros m' Lm Pm Om Fm. destruct I as [A B Cn D F G]. split; [constructor; auto|].
      - intros j. rewrite Nq. specialize (Cn j). cbv beta in Cn. destruct (Nat.eqb q j) eqn:Ej.
        + apply PeanoNat.Nat.eqb_eq in Ej. subst j. exact Fq.
        + apply PeanoNat.Nat.eqb_neq in Ej. rewrite (refs_other j q Ej) in Cn. rewrite <- Cn. lia.
      - intros j n' sb'. rewrite Nq. destruct (Nat.eqb q j) eqn:Ej; [intros H; injection H as <- <-; lia|]. intros H P.
        apply PeanoNat.Nat.eqb_neq in Ej. destruct (D j n' sb' H P) as [V|(b & bs & -> & Lb & Nb)]; [left; exact V|]. right. exists b, bs.
        split; [reflexivity|]. split; [exact Lb|]. rewrite Om; [exact Nb|]. intros X. symmetry in X.
        exact (Ej (F q j 1 n' sb _ b E H ltac:(lia) P X eq_refl)).
      - intros j j' n1 n2 s1 s2 b. rewrite !Nq. destruct (Nat.eqb q j); [intros H; injection H as <- <-; lia|]. destruct (Nat.eqb q j'); [intros _ H; injection H as <- <-; lia|]. apply F.
      - intros b bs Lb H. destruct (G b bs Lb) as (j & n' & sb' & Ec & Pn & Al).
        { destruct (sb_alloc sb) as [y|] eqn:Ey; [destruct (PeanoNat.Nat.eq_dec b y) as [->|Ny]|].
          - rewrite (Fm y eq_refl) in H. discriminate.
          - rewrite <- (Om b); [exact H|]. congruence.
          - rewrite <- (Om b); [exact H|]. discriminate. }
        exists j, n', sb'. rewrite Nq. destruct (Nat.eqb q j) eqn:Ej; [|auto]. apply PeanoNat.Nat.eqb_eq in Ej. subst j. rewrite E in Ec. injection Ec as <- <-.
        rewrite (Fm b (eq_sym Al)) in H. discriminate.
      - intros j Pj. assert (Nj : q <> j) by (intros ->; lia). unfold kept, sb_of. rewrite Nq. replace (Nat.eqb q j) with false by (symmetry; apply PeanoNat.Nat.eqb_neq; exact Nj).
        split; [reflexivity|]. intros sj. specialize (Cn j). cbv beta in Cn. destruct (nth_error c j) as [[nj s]|] eqn:Es; [|discriminate]. intros H. injection H as ->.
        assert (Pn : 0 < nj) by lia. destruct (D j nj sj Es Pn) as [(_ & V)|(b & bs & -> & Lb & Nb)].
        + destruct V as (bs & V). rewrite (load_pre m' _ _ Pm V). symmetry. exact (load_pre m _ _ B V).
        + unfold load_view, load. cbn [sb_data v_blk v_off v_len]. rewrite Om; [reflexivity|]. intros X. symmetry in X.
          exact (Nj (F q j 1 nj sb _ b E Es ltac:(lia) Pn X eq_refl)). }
    destruct (i_good _ _ _ I q 1 sb E ltac:(lia)) as [(Al & _)|(b & bs & -> & Lb & Nb)].
    + unfold sb_destroy. rewrite Al in *. exists m, (list_set c q (0, sb)). split; [reflexivity|].
      destruct (Dec m (i_len _ _ _ I) (i_pre _ _ _ I)) as [I' K]; [reflexivity|discriminate|]. split; [exact I'|]. split; [exact K|]. split; [apply less_refl|reflexivity].
    + unfold sb_destroy, free. cbn [sb_alloc]. rewrite Nb. exists (list_set m b None). eexists. split; [reflexivity|].
      destruct (Dec (list_set m b None)) as [I' K].
      * rewrite length_list_set. exact (i_len _ _ _ I).
      * intros x Lx. rewrite nth_error_set_other by lia. apply (i_pre _ _ _ I). exact Lx.
      * cbn [sb_alloc]. intros x Nx. apply nth_error_set_other. congruence.
      * cbn [sb_alloc]. intros x Ex. injection Ex as ->. apply nth_error_set_same. apply nth_error_Some. congruence.
      * split; [exact I'|]. split; [exact K|]. split; [exact (less_set m b bs Nb)|lia].
  - apply N.eqb_neq in E1. destruct (count_inv m c _ q n sb (n - 1) I E) as [I' K]; [lia..|]. exists m. eexists. split; [reflexivity|].
    split; [|split; [intros j _; exact (K j)|split; [apply less_refl|reflexivity]]]. revert I'. apply inv_ext. intros j. destruct (Nat.eqb q j) eqn:Ej.
    + apply PeanoNat.Nat.eqb_eq in Ej. subst j. lia.
    + apply PeanoNat.Nat.eqb_neq in Ej. rewrite (refs_other j q Ej). lia.
Qed.

Lemma nth_app_end {A} (l : list A) x j : nth_error (l ++ [x]) j = if Nat.eqb (List.length l) j then Some x else nth_error l j.
Proof.
  destruct (Nat.eqb (List.length l) j) eqn:E.
  - apply PeanoNat.Nat.eqb_eq in E. subst j. rewrite nth_error_app2, PeanoNat.Nat.sub_diag by lia. reflexivity.
  - apply PeanoNat.Nat.eqb_neq in E. destruct (Compare_dec.lt_dec j (List.length l)) as [L|L]; [apply nth_error_app1; exact L|].
    rewrite (proj2 (nth_error_None l j)) by lia. apply nth_error_None. rewrite app_length. cbn [List.length]. lia.
Qed.

Lemma make_ok m c f v : inv m c f -> keeps_view m0 v ->
  inv m (c ++ [(1, sb_of_view v)]) (fun q => f q + refs (Some (List.length c)) q) /\ keeps f m c m (c ++ [(1, sb_of_view v)]) /\ f (List.length c) = 0.
Proof.
  intros I V. pose proof (nth_app_end c (1, sb_of_view v)) as Nq. assert (F0 : f (List.length c) = 0).
  { rewrite (i_cnt _ _ _ I). rewrite (proj2 (nth_error_None c _)) by lia. reflexivity. }
  destruct I as [A B C D F G]. split; [constructor; auto|split; [|exact F0]].
  - intros j. rewrite Nq. destruct (Nat.eqb (List.length c) j) eqn:Ej.
    + apply PeanoNat.Nat.eqb_eq in Ej. subst j. rewrite refs_self. lia.
    + apply PeanoNat.Nat.eqb_neq in Ej. rewrite (refs_other _ _ Ej), <- C. lia.
  - intros j n sb. rewrite Nq. destruct (Nat.eqb _ j); [|apply D]. intros H _. injection H as <- <-. left. split; [reflexivity|exact V].
  - intros j j' n1 n2 s1 s2 b. rewrite !Nq. destruct (Nat.eqb _ j); [intros H; injection H as <- <-; intros; discriminate|].
    destruct (Nat.eqb _ j'); [intros _ H; injection H as <- <-; intros; discriminate|]. apply F.
  - intros b bs Lb H. destruct (G b bs Lb H) as (j & n & sb & E & P & Al). exists j, n, sb. rewrite Nq. destruct (Nat.eqb _ j) eqn:Ej; [|auto].
    apply PeanoNat.Nat.eqb_eq in Ej. subst j. rewrite (proj2 (nth_error_None c _)) in E by lia. discriminate.
  - intros j Pj. unfold kept, sb_of. rewrite Nq. destruct (Nat.eqb _ j) eqn:Ej; [apply PeanoNat.Nat.eqb_eq in Ej; subst j; lia|]. auto.
Qed.

Lemma empty_kept : keeps_view m0 (sb_data sb_empty). Proof. exists []. reflexivity. Qed.

(** ** Reading *)
Lemma view_drop_kept v n : keeps_view m0 v -> keeps_view m0 (view_drop v n).
Proof.
  intros (bs & H). unfold keeps_view, load_view, load, view_drop in *. cbn [v_blk v_off v_len]. destruct (v_len v - N.min (v_len v) n =? 0) eqn:E; [eauto|]. apply N.eqb_neq in E.
  replace (v_len v =? 0) with false in H by (symmetry; apply N.eqb_neq; lia). destruct (nth_error m0 (v_blk v)) as [[bl|]|]; try discriminate.
  destruct (v_off v + v_len v <=? len bl) eqn:L; [|discriminate]. apply N.leb_le in L.
  replace (v_off v + N.min (v_len v) n + (v_len v - N.min (v_len v) n) <=? len bl) with true by (symmetry; apply N.leb_le; lia). eauto.
Qed.
Lemma view_take_kept v n : keeps_view m0 v -> keeps_view m0 (view_take v n).
Proof.
  intros (bs & H). unfold keeps_view, load_view, load, view_take in *. cbn [v_blk v_off v_len]. destruct (N.min (v_len v) n =? 0) eqn:E; [eauto|]. apply N.eqb_neq in E.
  replace (v_len v =? 0) with false in H by (symmetry; apply N.eqb_neq; lia). destruct (nth_error m0 (v_blk v)) as [[bl|]|]; try discriminate.
  destruct (v_off v + v_len v <=? len bl) eqn:L; [|discriminate]. apply N.leb_le in L.
  replace (v_off v + N.min (v_len v) n <=? len bl) with true by (symmetry; apply N.leb_le; lia). eauto.
Qed.
Lemma load_kept v n m : keeps_view m0 v -> (forall b, (b < List.length m0)%nat -> nth_error m b = nth_error m0 b) -> n <= v_len v -> exists bs, load m (v_blk v) (v_off v) n = Ret bs.
Proof.
  intros K P L. destruct (view_take_kept v n K) as (bs & H). apply (load_pre m _ _ P) in H. unfold load_view, view_take in H. cbn [v_blk v_off v_len] in H.
  rewrite N.min_r in H by exact L. eauto.
Qed.

Definition from_str (r : reader) : bool := match r with RStr _ _ _ => true | RBuf _ _ => false end.
(** Reads of scalars: the memory stays, and what is left to read is the caller's. *)
Definition calm {T A} (x : D T A) : Prop := forall m r t, (forall b, (b < List.length m0)%nat -> nth_error m b = nth_error m0 b) -> keeps_input m0 r ->
  match x m r t with
  | (o, m', r', t') => m' = m /\ keeps_input m0 r' /\ match o with Ret _ | Throw _ _ => True | Undef u => u = Indeterminate /\ from_str r = true | Stuck => False end /\ from_str r' = from_str r
  end.

Lemma calm_bind {T A B} (x : D T A) (g : A -> D T B) : calm x -> (forall a, calm (g a)) -> calm (dbind x g).
Proof.
  intros X G m r t P K. unfold dbind. specialize (X m r t P K). destruct (x m r t) as [[[[a|e s|u|] m1] r1] t1]; [|exact X..].
  destruct X as (-> & K1 & _ & S1). specialize (G a m r1 t1 P K1). destruct (g a m r1 t1) as [[[o2 m2] r2] t2]. rewrite <- S1. exact G.
Qed.
Lemma calm_raw {T} n (get : T -> list byte) set : calm (rd_raw n get set).
Proof.
  intros m r t P K. unfold rd_raw. destruct r as [v c|d p g].
  - destruct (v_len v <? n) eqn:L; [split; [reflexivity|]; split; [exact K|]; split; [exact Logic.I|reflexivity]|]. apply N.ltb_ge in L. destruct (load_kept v n m K P L) as (bs & ->).
    split; [reflexivity|]. split; [apply view_drop_kept; exact K|]. split; [exact Logic.I|reflexivity].
  - unfold str_read. destruct g; repeat split.
Qed.
Lemma calm_local {T} k : calm (@rd_local T k).
Proof.
  intros m r t P K. unfold rd_local. destruct r as [v c|d p g].
  - destruct (v_len v <? N.of_nat k) eqn:L; [split; [reflexivity|]; split; [exact K|]; split; [exact Logic.I|reflexivity]|]. apply N.ltb_ge in L. destruct (load_kept v _ m K P L) as (bs & ->).
    split; [reflexivity|]. split; [apply view_drop_kept; exact K|]. split; [exact Logic.I|reflexivity].
  - unfold str_read. destruct g; [destruct (_ <? _)|destruct (len _ <? _)]; repeat split.
Qed.
Lemma calm_zoom {T U A} (get : T -> U) put (x : D U A) : calm x -> calm (dzoom get put x).
Proof. intros X m r t P K. unfold dzoom. specialize (X m r (get t) P K). destruct (x m r (get t)) as [[[o m1] r1] u]. exact X. Qed.
Lemma calm_hdr : calm hdr_deserialize.
Proof. unfold hdr_deserialize, rd_uint. repeat (apply calm_bind; [apply calm_raw|intros _]). apply calm_raw. Qed.
(** The header never meets an indeterminate value. *)
Definition definite {T} (x : D T unit) : Prop := forall m r t, (forall b, (b < List.length m0)%nat -> nth_error m b = nth_error m0 b) -> keeps_input m0 r -> done (fst (fst (fst (x m r t)))).
Lemma definite_bind {T} (x y : D T unit) : calm x -> definite x -> definite y -> definite (x ;;; y).
Proof.
  intros X DX DY m r t P K. unfold dbind. specialize (X m r t P K). specialize (DX m r t P K). destruct (x m r t) as [[[[a|e s|u|] m1] r1] t1]; try exact DX.
  destruct X as (-> & K1 & _). exact (DY m r1 t1 P K1).
Qed.
Lemma definite_raw {T} n (get : T -> list byte) set : definite (rd_raw n get set).
Proof.
  intros m r t P K. unfold rd_raw. destruct r as [v c|d p g].
  - destruct (v_len v <? n) eqn:L; [exact Logic.I|]. apply N.ltb_ge in L. destruct (load_kept v n m K P L) as (bs & ->). exact Logic.I.
  - destruct (str_read d p g n). exact Logic.I.
Qed.
Lemma definite_hdr : definite hdr_deserialize.
Proof. unfold hdr_deserialize, rd_uint. repeat (apply definite_bind; [apply calm_raw|apply definite_raw|]). apply definite_raw. Qed.

Lemma zeros_len n : len (zeros n) = n.
Proof. unfold zeros, len. rewrite repeat_length. apply N2Nat.id. Qed.
Lemma sb_buf n m v c : sb_deserialize_len n m (RBuf v c) sb_empty =
  if v_len v <? n then (Throw LengthError "Buffer too small to deserialize value", m, RBuf v c, sb_empty) else (Ret tt, m, RBuf (view_drop v n) (c + n), sb_of_view (view_take v n)).
Proof. cbv beta iota zeta delta [sb_deserialize_len sb_delete dbind rd_is_buffer dget dret sb_empty sb_alloc rd_view dmod sb_of_view]. destruct (v_len v <? n); reflexivity. Qed.
Lemma sb_str n m d p g : 0 < n -> sb_deserialize_len n m (RStr d p g) sb_empty =
  let sb := mkSB (mkV (List.length m) 0 n) (Some (List.length m)) in
  let (got, r') := str_read d p g n in
  match store (m ++ [Some (zeros n)]) (List.length m) 0 got with
  | Ret m' => (Ret tt, m', r', sb)
  | Throw e s => (Throw e s, m ++ [Some (zeros n)], r', sb) | Undef u => (Undef u, m ++ [Some (zeros n)], r', sb) | Stuck => (Stuck, m ++ [Some (zeros n)], r', sb)
  end.
Proof.
  intros Pn. assert (E : (n =? 0) = false) by (apply N.eqb_neq; lia).
  cbv beta iota zeta delta [sb_deserialize_len sb_delete dbind rd_is_buffer dget dret sb_empty sb_alloc sb_data null_view v_len]. rewrite E.
  cbv beta iota zeta delta [d_alloc alloc dmod rd_into sb_data v_len v_blk v_off]. destruct (str_read d p g n) as [got r']. destruct (store _ _ _ got); reflexivity.
Qed.
Lemma fill n m r : 0 < n -> (List.length m0 <= List.length m)%nat -> (forall b, (b < List.length m0)%nat -> nth_error m b = nth_error m0 b) -> keeps_input m0 r ->
  (exists e s, sb_deserialize_len n m r sb_empty = (Throw e s, m, r, sb_empty)) \/
  (exists r' v, sb_deserialize_len n m r sb_empty = (Ret tt, m, r', sb_of_view v) /\ keeps_view m0 v /\ keeps_input m0 r') \/
  (exists r' bs, len bs = n /\ sb_deserialize_len n m r sb_empty = (Ret tt, m ++ [Some bs], r', mkSB (mkV (List.length m) 0 (len bs)) (Some (List.length m))) /\ keeps_input m0 r').
Proof.
  intros Pn L P K. destruct r as [v c|d p g].
  - rewrite sb_buf. destruct (v_len v <? n) eqn:E; [left; do 2 eexists; reflexivity|].
    right. left. exists (RBuf (view_drop v n) (c + n)), (view_take v n). split; [reflexivity|]. split; [apply view_take_kept; exact K|apply view_drop_kept; exact K].
  - right. right. rewrite sb_str by exact Pn. cbv zeta.
    destruct (str_read d p g n) as [got r'] eqn:Eg. assert (Lg : len got <= n).
    { unfold str_read in Eg. destruct g; injection Eg as <- <-; [change (len (@nil byte)) with 0; lia|]. unfold take, len. rewrite firstn_length. lia. }
    assert (Kr : keeps_input m0 r'). { unfold str_read in Eg. destruct g; injection Eg as <- <-; exact Logic.I. }
    unfold store. destruct (len got =? 0) eqn:E0.
    + exists r', (zeros n). rewrite zeros_len. split; [reflexivity|]. split; [reflexivity|exact Kr].
    + rewrite nth_error_app2, PeanoNat.Nat.sub_diag by lia. cbn [nth_error]. rewrite N.add_0_l, zeros_len. replace (len got <=? n) with true by (symmetry; apply N.leb_le; exact Lg).
      rewrite list_set_app_end. exists r'. eexists. split; [|split; [|exact Kr]].
      2:{ cbn [app take]. instantiate (1 := take 0 (zeros n) ++ got ++ drop (len got) (zeros n)).
          replace (len (take 0 (zeros n) ++ got ++ drop (len got) (zeros n))) with n; [reflexivity|].
          unfold take, drop, len. rewrite !app_length, firstn_length, skipn_length. unfold zeros. rewrite repeat_length. unfold len in Lg. lia. }
      unfold take, drop, len. rewrite !app_length, firstn_length, skipn_length. unfold zeros. rewrite repeat_length. unfold len in Lg. lia.
Qed.

(** An object that was just made gets its contents. *)
Lemma filled_gen m c f q k s0 v : inv m c f -> nth_error c q = Some (k, s0) -> sb_alloc s0 = None -> 0 < k -> keeps_view m0 v ->
  inv m (list_set c q (k, sb_of_view v)) f /\ forall j, j <> q -> kept m c m (list_set c q (k, sb_of_view v)) j.
Proof.
  intros I E E0 Pk V. pose proof (fun j => nth_set2 c q _ (k, sb_of_view v) j E) as Nq. destruct I as [A B C D F G]. split; [constructor; auto|].
  - intros j. rewrite Nq. destruct (Nat.eqb q j) eqn:Ej; [|apply C]. apply PeanoNat.Nat.eqb_eq in Ej. subst j. rewrite C, E. reflexivity.
  - intros j n sb. rewrite Nq. destruct (Nat.eqb q j); [|apply D]. intros H _. injection H as <- <-. left. split; [reflexivity|exact V].
  - intros j j' n1 n2 s1 s2 b. rewrite !Nq. destruct (Nat.eqb q j); [intros H; injection H as <- <-; intros; discriminate|].
    destruct (Nat.eqb q j'); [intros _ H; injection H as <- <-; intros; discriminate|]. apply F.
  - intros b bs Lb H. destruct (G b bs Lb H) as (j & n & sb & Ec & P & Al). exists j, n, sb. rewrite Nq. destruct (Nat.eqb q j) eqn:Ej; [|auto].
    apply PeanoNat.Nat.eqb_eq in Ej. subst j. rewrite E in Ec. injection Ec as <- <-. congruence.
  - intros j Nj. unfold kept, sb_of. rewrite Nq. destruct (Nat.eqb q j) eqn:Ej; [apply PeanoNat.Nat.eqb_eq in Ej; congruence|]. auto.
Qed.
Lemma filled_view m c f q k v : inv m c f -> nth_error c q = Some (k, sb_empty) -> 0 < k -> keeps_view m0 v ->
  inv m (list_set c q (k, sb_of_view v)) f /\ forall j, j <> q -> kept m c m (list_set c q (k, sb_of_view v)) j.
Proof. intros I E. exact (filled_gen m c f q k sb_empty v I E eq_refl). Qed.
Lemma emptied m c f q k sb b : inv m c f -> nth_error c q = Some (k, sb) -> 0 < k -> sb_alloc sb = Some b ->
  inv (list_set m b None) (list_set c q (k, sb_empty)) f /\ forall j, j <> q -> 0 < f j -> kept m c (list_set m b None) (list_set c q (k, sb_empty)) j.
Proof.
  intros I E Pk Al. pose proof (fun j => nth_set2 c q _ (k, sb_empty) j E) as Nq.
  destruct (i_good _ _ _ I q k sb E Pk) as [[X _]|(b' & bs & -> & Lb & Nb)]; [congruence|]. cbn [sb_alloc] in Al. injection Al as ->.
  pose proof (fun j => nth_set2 m b _ None j Nb) as Nm. destruct I as [A B C D F G].
  assert (Pre : forall x, (x < List.length m0)%nat -> nth_error (list_set m b None) x = nth_error m0 x) by (intros x L; rewrite nth_error_set_other by lia; exact (B x L)).
  assert (Oth : forall j n s b', j <> q -> nth_error c j = Some (n, s) -> 0 < n -> sb_alloc s = Some b' -> b' <> b).
  { intros j n s b' Nj Hj Pj Alj ->. exact (Nj (F j q n k s _ b Hj E Pj Pk Alj eq_refl)). }
  split; [constructor|].
  - rewrite length_list_set. exact A.
  - exact Pre.
  - intros j. rewrite Nq. destruct (Nat.eqb q j) eqn:Ej; [|apply C]. apply PeanoNat.Nat.eqb_eq in Ej. subst j. rewrite C, E. reflexivity.
  - intros j n s. rewrite Nq. destruct (Nat.eqb q j) eqn:Ej.
    + intros H _. injection H as <- <-. left. split; [reflexivity|exact empty_kept].
    + apply PeanoNat.Nat.eqb_neq in Ej. intros H P. destruct (D j n s H P) as [V|(b' & x & -> & L' & N')]; [left; exact V|]. right. exists b', x. split; [reflexivity|]. split; [exact L'|].
      rewrite nth_error_set_other; [exact N'|]. intros X. exact (Oth j n _ b' (not_eq_sym Ej) H P eq_refl (eq_sym X)).
  - intros j j' n1 n2 s1 s2 x. rewrite !Nq. destruct (Nat.eqb q j); [intros H; injection H as <- <-; discriminate|]. destruct (Nat.eqb q j'); [intros _ H; injection H as <- <-; discriminate|]. apply F.
  - intros x bx Lx H. rewrite Nm in H. destruct (Nat.eqb b x) eqn:Ex; [discriminate|]. apply PeanoNat.Nat.eqb_neq in Ex. destruct (G x bx Lx H) as (j & n & s & Ec & P & Al). exists j, n, s. rewrite Nq.
    destruct (Nat.eqb q j) eqn:Ej; [|auto]. apply PeanoNat.Nat.eqb_eq in Ej. subst j. rewrite E in Ec. injection Ec as <- <-. cbn [sb_alloc] in Al. congruence.
  - intros j Nj Pj. unfold kept, sb_of. rewrite Nq. destruct (Nat.eqb q j) eqn:Ej; [apply PeanoNat.Nat.eqb_eq in Ej; congruence|]. split; [reflexivity|].
    rewrite C in Pj. destruct (nth_error c j) as [[n s]|] eqn:Ec; [|discriminate]. intros s' H. injection H as <-.
    destruct (D j n s Ec Pj) as [(_ & x & V)|(b' & x & -> & L' & N')].
    + rewrite (load_pre _ _ _ Pre V). symmetry. exact (load_pre m _ _ B V).
    + unfold load_view, load. cbn [sb_data v_blk v_off v_len]. rewrite nth_error_set_other; [reflexivity|]. intros X. exact (Oth j n _ b' Nj Ec Pj eq_refl (eq_sym X)).
Qed.
Lemma filled_block m c f q k bs : inv m c f -> nth_error c q = Some (k, sb_empty) -> 0 < k ->
  let sb := mkSB (mkV (List.length m) 0 (len bs)) (Some (List.length m)) in
  inv (m ++ [Some bs]) (list_set c q (k, sb)) f /\ forall j, j <> q -> 0 < f j -> kept m c (m ++ [Some bs]) (list_set c q (k, sb)) j.
Proof.
  intros I E Pk sb. pose proof (fun j => nth_set2 c q _ (k, sb) j E) as Nq. pose proof (nth_app_end m (Some bs)) as Nm. destruct I as [A B C D F G].
  assert (Old : forall b y, nth_error m b = Some y -> nth_error (m ++ [Some bs]) b = Some y /\ b <> List.length m).
  { intros b y H. assert (L : (b < List.length m)%nat) by (apply nth_error_Some; congruence). rewrite nth_error_app1 by exact L. split; [exact H|lia]. }
  assert (Pre : forall b, (b < List.length m0)%nat -> nth_error (m ++ [Some bs]) b = nth_error m0 b).
  { intros b L. rewrite <- B by exact L. apply nth_error_app1. lia. }
  split; [constructor|].
  - rewrite app_length. lia.
  - exact Pre.
  - intros j. rewrite Nq. destruct (Nat.eqb q j) eqn:Ej; [|apply C]. apply PeanoNat.Nat.eqb_eq in Ej. subst j. rewrite C, E. reflexivity.
  - intros j n s. rewrite Nq. destruct (Nat.eqb q j).
    + intros H _. injection H as <- <-. right. exists (List.length m), bs. split; [reflexivity|]. split; [exact A|]. rewrite Nm, PeanoNat.Nat.eqb_refl. reflexivity.
    + intros H P. destruct (D j n s H P) as [V|(b & x & -> & Lb & Nb)]; [left; exact V|]. right. exists b, x. split; [reflexivity|]. split; [exact Lb|]. apply (Old b _ Nb).
  - intros j j' n1 n2 s1 s2 b. rewrite !Nq. destruct (Nat.eqb q j) eqn:Ej, (Nat.eqb q j') eqn:Ej'.
    + apply PeanoNat.Nat.eqb_eq in Ej, Ej'. congruence.
    + intros H H2 _ P2 L L2. injection H as <- <-. injection L as <-. destruct (D j' n2 s2 H2 P2) as [(X & _)|(b & x & -> & _ & Nb)]; [congruence|].
      cbn [sb_alloc] in L2. injection L2 as ->. destruct (Old _ _ Nb) as [_ X]. exfalso. exact (X eq_refl).
    + intros H H2 P1 _ L L2. injection H2 as <- <-. injection L2 as <-. destruct (D j n1 s1 H P1) as [(X & _)|(b & x & -> & _ & Nb)]; [congruence|].
      cbn [sb_alloc] in L. injection L as ->. destruct (Old _ _ Nb) as [_ X]. exfalso. exact (X eq_refl).
    + apply F.
  - intros b x Lb H. rewrite Nm in H. destruct (Nat.eqb (List.length m) b) eqn:Eb.
    + apply PeanoNat.Nat.eqb_eq in Eb. subst b. exists q, k, sb. rewrite Nq, PeanoNat.Nat.eqb_refl. auto.
    + destruct (G b x Lb H) as (j & n & s & Ec & P & Al). exists j, n, s. rewrite Nq. destruct (Nat.eqb q j) eqn:Ej; [|auto].
      apply PeanoNat.Nat.eqb_eq in Ej. subst j. rewrite E in Ec. injection Ec as <- <-. discriminate.
  - intros j Nj Pj. unfold kept, sb_of. rewrite Nq. destruct (Nat.eqb q j) eqn:Ej; [apply PeanoNat.Nat.eqb_eq in Ej; congruence|]. split; [reflexivity|].
    rewrite C in Pj. destruct (nth_error c j) as [[n s]|] eqn:Ec; [|discriminate]. intros s' H. injection H as <-.
    destruct (D j n s Ec Pj) as [(_ & x & V)|(b & x & -> & Lb & Nb)].
    + rewrite (load_pre _ _ _ Pre V). symmetry. exact (load_pre m _ _ B V).
    + unfold load_view, load. cbn [sb_data v_blk v_off v_len]. rewrite (proj1 (Old _ _ Nb)), Nb. reflexivity.
Qed.

Lemma into_ok m r c f q k n : inv m c f -> nth_error c q = Some (k, sb_empty) -> 0 < k -> 0 < n -> keeps_input m0 r ->
  exists o m' r' sb, sb_deserialize_len n m r sb_empty = (o, m', r', sb) /\ c_into (Some q) n m r c = (o, m', r', list_set c q (k, sb)) /\ done o /\ keeps_input m0 r' /\
    inv m' (list_set c q (k, sb)) f /\ (forall j, j <> q -> 0 < f j -> kept m c m' (list_set c q (k, sb)) j) /\ ((exists e s, o = Throw e s) -> sb = sb_empty /\ m' = m).
Proof.
  intros I E Pk Pn K. unfold c_into. rewrite E. replace (k =? 0) with false by (symmetry; apply N.eqb_neq; lia).
  destruct (fill n m r Pn (i_len _ _ _ I) (i_pre _ _ _ I) K) as [(e & s & H)|[(r' & v & H & V & K')|(r' & bs & Lb & H & K')]]; rewrite H.
  - exists (Throw e s), m, r, sb_empty. rewrite (list_set_same c q _ E). split; [reflexivity|]. split; [reflexivity|]. split; [exact Logic.I|]. split; [exact K|]. split; [exact I|]. split; [intros; apply kept_refl|]. auto.
  - destruct (filled_view m c f q k v I E Pk V) as [I' Ke]. exists (Ret tt), m, r', (sb_of_view v). split; [reflexivity|]. split; [reflexivity|]. split; [exact Logic.I|]. split; [exact K'|]. split; [exact I'|].
    split; [intros j Nj _; exact (Ke j Nj)|]. intros (e & s & X). discriminate.
  - destruct (filled_block m c f q k bs I E Pk) as [I' Ke]. eexists (Ret tt), _, r', _. split; [reflexivity|]. split; [reflexivity|]. split; [exact Logic.I|]. split; [exact K'|]. split; [exact I'|].
    split; [exact Ke|]. intros (e & s & X). discriminate.
Qed.

(** ** Packets *)
Lemma on_cells_eq {X A} (x : D cells A) m r c (a : X) : on_cells x m r (c, a) = match x m r c with (o, m', r', c') => (o, m', r', (c', a)) end.
Proof. reflexivity. Qed.
Lemma bind_run {T A B} (x : D T A) (g : A -> D T B) m r t a m' r' t' : x m r t = (Ret a, m', r', t') -> dbind x g m r t = g a m' r' t'.
Proof. intros H. unfold dbind. rewrite H. reflexivity. Qed.
Lemma bind_throw {T A B} (x : D T A) (g : A -> D T B) m r t e s m' r' t' : x m r t = (Throw e s, m', r', t') -> dbind x g m r t = (Throw e s, m', r', t').
Proof. intros H. unfold dbind. rewrite H. reflexivity. Qed.
Lemma bind_undef {T A B} (x : D T A) (g : A -> D T B) m r t u m' r' t' : x m r t = (Undef u, m', r', t') -> dbind x g m r t = (Undef u, m', r', t').
Proof. intros H. unfold dbind. rewrite H. reflexivity. Qed.

Lemma assign_ok m r c f p q : inv m c (fun j => f j + refs p j) -> (forall j, q = Some j -> 0 < f j + refs p j) ->
  exists m' c', c_assign p q m r c = (Ret tt, m', r, c') /\ inv m' c' (fun j => f j + refs q j) /\ keeps (fun j => f j + refs q j) m c m' c' /\ less m' m.
Proof.
  intros I P. destruct (retain_ok m r c _ q I P) as (c1 & E1 & I1 & K1).
  destruct (release_ok m r c1 (fun j => f j + refs q j) p) as (m2 & c2 & E2 & I2 & K2 & L2 & _).
  { revert I1. apply inv_ext. intros j. lia. }
  exists m2, c2. split; [|split; [exact I2|split; [|exact L2]]].
  - unfold c_assign. rewrite (bind_run _ _ _ _ _ _ _ _ _ E1). exact E2.
  - intros j Pj. eapply kept_trans; [apply K1|apply K2; exact Pj].
Qed.

Lemma pk_payload_ok m r c h p q f : inv m c (fun j => f j + refs p j) -> (forall j, q = Some j -> 0 < f j + refs p j) ->
  exists m' c', pk_payload q m r (c, (h, p)) = (Ret tt, m', r, (c', (h, q))) /\ inv m' c' (fun j => f j + refs q j) /\ keeps (fun j => f j + refs q j) m c m' c' /\ less m' m.
Proof.
  intros I P. destruct (assign_ok m r c f p q I P) as (m' & c' & E & I' & K & L). exists m', c'. split; [|auto].
  unfold pk_payload. erewrite bind_run by reflexivity. cbn [snd]. erewrite bind_run by (rewrite on_cells_eq, E; reflexivity). reflexivity.
Qed.

Definition obj_of (c : cells) (p : sptr) : option ser := match p with Some q => option_map ser_of_sbuf (sb_of c q) | None => None end.
(** [m2], [pk] are what the plain decode leaves: [m'] is [m2] without what was given back. *)
Lemma header_run m r c h p : (forall b, (b < List.length m0)%nat -> nth_error m b = nth_error m0 b) -> keeps_input m0 r ->
  exists o r' h', hdr_deserialize m r h = (o, m, r', h') /\ done o /\ keeps_input m0 r' /\ pk_header hdr_deserialize m r (c, (h, p)) = (o, m, r', (c, (h', p))) /\
    forall q, dzoom ep_header ep_set_header hdr_deserialize m r (mkEP h q) = (o, m, r', mkEP h' q).
Proof.
  intros P K. pose proof (calm_hdr m r h P K) as C. pose proof (definite_hdr m r h P K) as Df. unfold pk_header, on_it, dzoom. cbn [fst snd ep_header].
  destruct (hdr_deserialize m r h) as [[[o m1] r1] h1]. destruct C as (-> & K1 & _). exists o, r1, h1. repeat split; auto.
Qed.

Lemma length_cell_last {A} (l : list A) x : nth_error (l ++ [x]) (List.length l) = Some x.
Proof. rewrite nth_app_end, PeanoNat.Nat.eqb_refl. reflexivity. Qed.
Lemma sb_set (c : cells) q k k' sb sb' : nth_error c q = Some (k, sb) -> sb_of (list_set c q (k', sb')) q = Some sb'.
Proof. intros E. unfold sb_of. rewrite (nth_set2 c q _ _ _ E), PeanoNat.Nat.eqb_refl. reflexivity. Qed.

Definition same_packet (m : heap) (x : outcome unit * heap * reader * (cells * pkt)) (y : outcome unit * heap * reader * encap_packet) : Prop :=
  match x, y with
  | (o, m', r', (c', (h', p'))), (o2, m2, r2, pk) => o2 = o /\ r2 = r' /\ pk = mkEP h' (obj_of c' p') /\ less m' m2
  end.
Definition fine (c : cells) (m : heap) {X} (U : X -> nat -> N) (f : nat -> N) (x : outcome unit * heap * reader * (cells * X)) : Prop :=
  match x with (o, m', r', (c', a)) => done o /\ keeps_input m0 r' /\ inv m' c' (fun j => f j + U a j) /\ keeps f m c m' c' end.
Definition pkt_refs (p : pkt) : nat -> N := refs (snd p).

Lemma keeps_le f g m c m' c' : (forall j, f j <= g j) -> keeps g m c m' c' -> keeps f m c m' c'.
Proof. intros L K j P. apply K. specialize (L j). lia. Qed.
Lemma keeps_trans f m c m1 c1 m2 c2 : keeps f m c m1 c1 -> keeps f m1 c1 m2 c2 -> keeps f m c m2 c2.
Proof. intros A B j P. eapply kept_trans; [apply A|apply B]; exact P. Qed.


Lemma zero_apart m c f p : inv m c (fun j => f j + refs p j) -> forall j, 0 < f j + refs p j -> j <> List.length c.
Proof. intros I j P ->. pose proof (i_cnt _ _ _ I (List.length c)) as C. cbv beta in C. rewrite (proj2 (nth_error_None c _)) in C by lia. lia. Qed.
Lemma obj_kept f m c m' c' p : keeps f m c m' c' -> (forall j, p = Some j -> 0 < f j) -> obj_of c' p = obj_of c p.
Proof. intros K P. destruct p as [q|]; [|reflexivity]. unfold obj_of. rewrite (proj1 (K q (P q eq_refl))). reflexivity. Qed.
Lemma refs_pos p j : p = Some j -> 0 < refs p j. Proof. intros ->. rewrite refs_self. lia. Qed.

(** A new object is filled; whoever has pointers sees nothing of it. *)
Lemma new_filled m r c f n : inv m c f -> 0 < n -> keeps_input m0 r ->
  let q := List.length c in
  exists o m' r' sb c', sb_deserialize_len n m r sb_empty = (o, m', r', sb) /\ c_into (Some q) n m r (c ++ [(1, sb_empty)]) = (o, m', r', c') /\
    nth_error c' q = Some (1, sb) /\ done o /\ keeps_input m0 r' /\ inv m' c' (fun j => f j + refs (Some q) j) /\ keeps f m c m' c' /\ ((exists e s, o = Throw e s) -> m' = m).
Proof.
  intros I Pn K q. destruct (make_ok m c f _ I empty_kept) as (I1 & K1 & F0). change (sb_of_view (sb_data sb_empty)) with sb_empty in *.
  destruct (into_ok m r _ _ q 1 n I1 (length_cell_last c _) ltac:(lia) Pn K) as (o & m2 & r2 & sb & E & E2 & Do & K2 & I2 & Ke & Th).
  exists o, m2, r2, sb. eexists. split; [exact E|]. split; [exact E2|]. split; [rewrite (nth_set2 _ _ _ _ _ (length_cell_last c _)), PeanoNat.Nat.eqb_refl; reflexivity|].
  split; [exact Do|]. split; [exact K2|]. split; [exact I2|]. split; [|intros X; apply (proj2 (Th X))].
  intros j Pj. eapply kept_trans; [apply K1; exact Pj|]. apply Ke; [|lia]. intros ->. unfold q in Pj. lia.
Qed.

Lemma pk_decode_ok m r c h p f : inv m c (fun j => f j + refs p j) -> keeps_input m0 r ->
  fine c m pkt_refs f (pk_decode m r (c, (h, p))) /\ same_packet m (pk_decode m r (c, (h, p))) (ep_deserialize m r (mkEP h (obj_of c p))).
Proof.
  intros I K. destruct (header_run m r c h p (i_pre _ _ _ I) K) as (o & r1 & h1 & _ & Do & K1 & E1 & E1').
  unfold pk_decode, ep_deserialize. destruct o as [[]|e s|u|]; try contradiction.
  2:{ unfold dbind. rewrite E1, E1'. split; [split; [exact Logic.I|split; [exact K1|split; [exact I|intros j _; apply kept_refl]]]|].
      split; [reflexivity|]. split; [reflexivity|]. split; [reflexivity|apply less_refl]. }
  erewrite bind_run by exact E1. erewrite (bind_run (dzoom ep_header ep_set_header hdr_deserialize)) by exact (E1' _).
  erewrite bind_run by reflexivity. erewrite (bind_run dget) by reflexivity. cbn [fst snd ep_header]. destruct (0 <? h_length h1) eqn:E0.
  - apply N.ltb_lt in E0. destruct (new_filled m r1 c _ (h_length h1) I E0 K1) as (o & m2 & r2 & sb & c2 & Es & Ei & Eq & Do2 & K2 & I2 & Ke & Th).
    set (q := List.length c) in *. erewrite bind_run by (rewrite on_cells_eq; unfold c_make; reflexivity). fold q. unfold d_then. destruct o as [[]|e s|u|]; try contradiction.
    + erewrite (bind_run (on_cells (c_into _ _))) by (rewrite on_cells_eq, Ei; reflexivity). erewrite (bind_run (dlocal _ _)) by (unfold dlocal; rewrite Es; reflexivity).
      destruct (pk_payload_ok m2 r2 c2 h1 p (Some q) (fun j => f j + refs (Some q) j)) as (m3 & c3 & E3 & I3 & Ke3 & L3).
      { revert I2. apply inv_ext. intros j. lia. } { intros j Hj. pose proof (refs_pos _ _ Hj). lia. }
      cbv beta. rewrite E3, on_cells_eq. destruct (release_ok m3 r2 c3 (fun j => f j + refs (Some q) j) (Some q) I3) as (m4 & c4 & E4 & I4 & Ke4 & L4 & _). rewrite E4.
      split; [split; [exact Logic.I|split; [exact K2|split; [exact I4|]]]|].
      * eapply keeps_trans; [apply (keeps_le f _ _ _ _ _ (fun j => N.le_add_r _ _) Ke)|].
        eapply keeps_trans; [refine (keeps_le f _ _ _ _ _ _ Ke3); intros j; lia|refine (keeps_le f _ _ _ _ _ _ Ke4); intros j; lia].
      * split; [reflexivity|]. split; [reflexivity|]. split; [|exact (less_trans _ _ _ L4 L3)]. unfold ep_set_payload_field. cbn [ep_header]. f_equal. cbn [snd].
        assert (S2 : sb_of c2 q = Some sb) by (unfold sb_of; rewrite Eq; reflexivity). unfold obj_of.
        rewrite (proj1 (Ke4 q ltac:(cbv beta; rewrite refs_self; lia))), (proj1 (Ke3 q ltac:(cbv beta; rewrite refs_self; lia))), S2. reflexivity.
    + assert (m2 = m) by (apply Th; eauto). subst m2.
      erewrite bind_throw by (rewrite on_cells_eq, Ei; reflexivity). rewrite on_cells_eq. destruct (release_ok m r2 c2 _ (Some q) I2) as (m4 & c4 & E4 & I4 & Ke4 & L4 & _). rewrite E4.
      unfold dbind, dlocal. rewrite Es. pose proof (keeps_trans _ _ _ _ _ _ _ Ke Ke4) as KK. split; [split; [exact Logic.I|split; [exact K2|split; [exact I4|]]]|].
      * refine (keeps_le f _ _ _ _ _ _ KK). intros j; lia.
      * split; [reflexivity|]. split; [reflexivity|]. split; [|exact L4]. f_equal. symmetry. apply (obj_kept _ _ _ _ _ _ KK). intros j Hj. pose proof (refs_pos _ _ Hj). lia.
  - destruct (pk_payload_ok m r1 c h1 p None f I) as (m2 & c2 & E2 & I2 & Ke & L2); [discriminate|]. rewrite E2.
    split; [split; [exact Logic.I|split; [exact K1|split; [exact I2|]]]|].
    + refine (keeps_le f _ _ _ _ _ _ Ke). intros j; lia.
    + split; [reflexivity|]. split; [reflexivity|]. split; [reflexivity|exact L2].
Qed.

Lemma pk_new_ok m r c h p f : inv m c (fun j => f j + refs p j) ->
  let q := List.length c in
  exists m' c', pk_new m r (c, (h, p)) = (Ret q, m', r, (c', (h, Some q))) /\ nth_error c' q = Some (1, sb_empty) /\ inv m' c' (fun j => f j + refs (Some q) j) /\
    keeps f m c m' c' /\ less m' m.
Proof.
  intros I q. destruct (make_ok m c _ _ I empty_kept) as (I1 & K1 & F0). change (sb_of_view (sb_data sb_empty)) with sb_empty in *. unfold pk_new.
  erewrite bind_run by (rewrite on_cells_eq; unfold c_make; reflexivity). fold q. destruct (pk_payload_ok m r (c ++ [(1, sb_empty)]) h p (Some q) (fun j => f j + refs (Some q) j)) as (m3 & c3 & E3 & I3 & Ke3 & L3).
  { revert I1. apply inv_ext. intros j. unfold q. lia. } { intros j Hj. pose proof (refs_pos _ _ Hj). lia. }
  cbn [snd]. erewrite bind_run by exact E3. destruct (release_ok m3 r c3 (fun j => f j + refs (Some q) j) (Some q) I3) as (m4 & c4 & E4 & I4 & Ke4 & L4 & _).
  erewrite bind_run by (rewrite on_cells_eq, E4; reflexivity). exists m4, c4. split; [reflexivity|]. split; [|split; [exact I4|split; [|exact (less_trans _ _ _ L4 L3)]]].
  - pose proof (proj1 (Ke4 q ltac:(cbv beta; rewrite refs_self; lia))) as A. rewrite (proj1 (Ke3 q ltac:(cbv beta; rewrite refs_self; lia))) in A.
    pose proof (i_cnt _ _ _ I4 q) as C. cbv beta in C. rewrite refs_self in C. unfold sb_of in A. unfold q in A at 2. rewrite length_cell_last in A.
    destruct (nth_error c4 q) as [[n sb]|]; [|lia]. injection A as ->. f_equal. f_equal. unfold q in C. lia.
  - eapply keeps_trans; [refine (keeps_le f _ _ _ _ _ _ K1); intros j; lia|].
    eapply keeps_trans; [refine (keeps_le f _ _ _ _ _ _ Ke3); intros j; lia|refine (keeps_le f _ _ _ _ _ _ Ke4); intros j; lia].
Qed.

Lemma less_app m m2 x : less m m2 -> less (m ++ [x]) (m2 ++ [x]).
Proof.
  intros [L G]. split; [rewrite !app_length, L; reflexivity|]. intros b. rewrite !nth_app_end, L. destruct (Nat.eqb _ b); [left; reflexivity|apply G].
Qed.
Lemma fill_less n m2 m r o m3 r3 sb : 0 < n -> less m2 m -> sb_deserialize_len n m2 r sb_empty = (o, m3, r3, sb) ->
  exists m4, sb_deserialize_len n m r sb_empty = (o, m4, r3, sb) /\ less m3 m4.
Proof.
  intros Pn Le. destruct r as [v c|d p g].
  - rewrite !sb_buf. destruct (v_len v <? n); intros H; apply pair_equal_spec in H; destruct H as [H <-]; apply pair_equal_spec in H; destruct H as [H <-]; apply pair_equal_spec in H; destruct H as [<- <-]; eauto.
  - rewrite !sb_str by exact Pn. cbv zeta. rewrite (proj1 Le). destruct (str_read d p g n) as [got r']. unfold store.
    destruct (len got =? 0).
    + intros H; apply pair_equal_spec in H; destruct H as [H <-]; apply pair_equal_spec in H; destruct H as [H <-]; apply pair_equal_spec in H; destruct H as [<- <-]. eexists. split; [reflexivity|]. apply less_app. exact Le.
    + rewrite <- (proj1 Le) at 1. rewrite !length_cell_last. destruct (_ <=? _).
      * rewrite list_set_app_end. rewrite <- (proj1 Le) at 1. rewrite list_set_app_end.
        intros H; apply pair_equal_spec in H; destruct H as [H <-]; apply pair_equal_spec in H; destruct H as [H <-]; apply pair_equal_spec in H; destruct H as [<- <-]. eexists. split; [reflexivity|]. apply less_app. exact Le.
      * intros H; apply pair_equal_spec in H; destruct H as [H <-]; apply pair_equal_spec in H; destruct H as [H <-]; apply pair_equal_spec in H; destruct H as [<- <-]. eexists. split; [reflexivity|]. apply less_app. exact Le.
Qed.

Lemma pk_decode_len_ok n m r c h p f : inv m c (fun j => f j + refs p j) -> keeps_input m0 r ->
  fine c m pkt_refs f (pk_decode_len n m r (c, (h, p))) /\ same_packet m (pk_decode_len n m r (c, (h, p))) (ep_deserialize_len n m r (mkEP h (obj_of c p))).
Proof.
  intros I K. unfold pk_decode_len, ep_deserialize_len.
  assert (Raise : forall e s r' h', keeps_input m0 r' -> fine c m pkt_refs f (Throw e s, m, r', (c, (h', p))) /\
    same_packet m (Throw e s, m, r', (c, (h', p))) (Throw e s, m, r', mkEP h' (obj_of c p))).
  { intros e s r' h' K'. split; [split; [exact Logic.I|split; [exact K'|split; [exact I|intros j _; apply kept_refl]]]|].
    split; [reflexivity|]. split; [reflexivity|]. split; [reflexivity|apply less_refl]. }
  destruct (n <? hdr_getLength); [apply Raise; exact K|].
  destruct (header_run m r c h p (i_pre _ _ _ I) K) as (o & r1 & h1 & _ & Do & K1 & E1 & E1').
  destruct o as [[]|e s|u|]; try contradiction; [|unfold dbind; rewrite E1, E1'; apply Raise; exact K1].
  erewrite bind_run by exact E1. erewrite (bind_run (dzoom ep_header ep_set_header hdr_deserialize)) by exact (E1' _).
  erewrite bind_run by reflexivity. erewrite (bind_run dget) by reflexivity. cbn [fst snd ep_header].
  destruct (negb (n =? hdr_getLength + h_length h1)); [apply Raise; exact K1|]. destruct (0 <? h_length h1) eqn:E0.
  - apply N.ltb_lt in E0. destruct (pk_new_ok m r1 c h1 p f I) as (m2 & c2 & E2 & Eq & I2 & Ke2 & L2). set (q := List.length c) in *. erewrite bind_run by exact E2.
    rewrite on_cells_eq. erewrite (bind_run (dmod _)) by reflexivity.
    destruct (into_ok m2 r1 c2 _ q 1 (h_length h1) I2 Eq ltac:(lia) E0 K1) as (o & m3 & r3 & sb & Es & Ei & Do3 & K3 & I3 & Ke3 & Th). rewrite Ei.
    assert (KK : keeps f m c m3 (list_set c2 q (1, sb))).
    { intros j Pj. eapply kept_trans; [apply Ke2; exact Pj|]. apply Ke3; [|lia]. intros ->. unfold q in Pj. pose proof (zero_apart m c f p I (List.length c) ltac:(lia)). congruence. }
    split; [split; [exact Do3|split; [exact K3|split; [exact I3|exact KK]]]|].
    destruct (fill_less _ _ _ _ _ _ _ _ E0 L2 Es) as (m4 & E4 & L4).
    assert (Ob : sb_of (list_set c2 q (1, sb)) q = Some sb) by exact (sb_set c2 q 1 1 _ sb Eq).
    unfold dbind at 1, dlocal. rewrite E4. destruct o as [[]|e s|u|]; try contradiction.
    + split; [reflexivity|]. split; [reflexivity|]. split; [|exact L4]. unfold ep_set_payload_field. cbn [ep_header]. unfold obj_of. rewrite Ob. reflexivity.
    + split; [reflexivity|]. split; [reflexivity|]. split; [|exact L4]. unfold ep_set_payload_field. cbn [ep_header]. unfold obj_of. rewrite Ob.
      destruct (Th ltac:(eauto)) as [-> _]. reflexivity.
  - destruct (pk_payload_ok m r1 c h1 p None f I) as (m2 & c2 & E2 & I2 & Ke & L2); [discriminate|]. rewrite E2.
    split; [split; [exact Logic.I|split; [exact K1|split; [exact I2|]]]|].
    + refine (keeps_le f _ _ _ _ _ _ Ke). intros j; lia.
    + split; [reflexivity|]. split; [reflexivity|]. split; [reflexivity|exact L2].
Qed.

(** ** Items *)
Definition pre (m : heap) : Prop := forall b, (b < List.length m0)%nat -> nth_error m b = nth_error m0 b.
Lemma load_same m M v n : keeps_view m0 v -> pre m -> pre M -> n <= v_len v -> exists bs, load m (v_blk v) (v_off v) n = Ret bs /\ load M (v_blk v) (v_off v) n = Ret bs.
Proof.
  intros K P Q L. destruct (view_take_kept v n K) as (bs & H). exists bs. pose proof (load_pre m _ _ P H) as A. pose proof (load_pre M _ _ Q H) as B.
  unfold load_view, view_take in A, B. cbn [v_blk v_off v_len] in A, B. rewrite N.min_r in A, B by exact L. auto.
Qed.
Definition calm_out {A} (r : reader) (o : outcome A) : Prop := match o with Ret _ | Throw _ _ => True | Undef u => u = Indeterminate /\ from_str r = true | Stuck => False end.
Lemma type_run m M r c ty p d : pre m -> pre M -> keeps_input m0 r ->
  exists o r' ty', on_it (rd_uint 2 fst (fun v (t : itm) => (v, snd t))) m r (c, (ty, p)) = (o, m, r', (c, (ty', p))) /\
    rd_uint 2 it_type it_set_type M r (mkItem ty d) = (o, M, r', mkItem ty' d) /\ keeps_input m0 r' /\ done o /\ from_str r' = from_str r.
Proof.
  intros P Q K. unfold on_it, dzoom, rd_uint, rd_raw. cbn [fst snd]. destruct r as [v k|x n g].
  - destruct (v_len v <? _) eqn:L.
    + do 3 eexists. split; [reflexivity|]. split; [reflexivity|]. split; [exact K|]. split; [exact Logic.I|reflexivity].
    + apply N.ltb_ge in L. destruct (load_same m M v _ K P Q L) as (bs & -> & ->). do 3 eexists. split; [reflexivity|]. split; [reflexivity|].
      split; [apply view_drop_kept; exact K|]. split; [exact Logic.I|reflexivity].
  - destruct (str_read x n g (N.of_nat 2)) as [got r'] eqn:Er. do 3 eexists. split; [reflexivity|]. split; [reflexivity|].
    unfold str_read in Er. destruct g; injection Er as _ <-; (split; [exact Logic.I|]; split; [exact Logic.I|reflexivity]).
Qed.
Lemma count_run {T U} k m M r (t : T) (u : U) : pre m -> pre M -> keeps_input m0 r ->
  exists o r', rd_local k m r t = (o, m, r', t) /\ rd_local k M r u = (o, M, r', u) /\ keeps_input m0 r' /\ calm_out r o /\ from_str r' = from_str r.
Proof.
  intros P Q K. unfold rd_local. destruct r as [v j|x n g].
  - destruct (v_len v <? _) eqn:L.
    + do 2 eexists. split; [reflexivity|]. split; [reflexivity|]. split; [exact K|]. split; [exact Logic.I|reflexivity].
    + apply N.ltb_ge in L. destruct (load_same m M v _ K P Q L) as (bs & -> & ->). do 2 eexists. split; [reflexivity|]. split; [reflexivity|].
      split; [apply view_drop_kept; exact K|]. split; [exact Logic.I|reflexivity].
  - destruct (str_read x n g (N.of_nat k)) as [got r'] eqn:Er.
    assert (Z : keeps_input m0 r' /\ from_str r' = true) by (unfold str_read in Er; destruct g; injection Er as _ <-; split; [exact Logic.I|reflexivity|exact Logic.I|reflexivity]).
    destruct (len got <? _); do 2 eexists; (split; [reflexivity|]; split; [reflexivity|]; split; [apply Z|]; split; [|apply Z]); [split; reflexivity|exact Logic.I].
Qed.
Lemma im_data_ok m r c ty p q f : inv m c (fun j => f j + refs p j) -> (forall j, q = Some j -> 0 < f j + refs p j) ->
  exists m' c', im_data q m r (c, (ty, p)) = (Ret tt, m', r, (c', (ty, q))) /\ inv m' c' (fun j => f j + refs q j) /\ keeps (fun j => f j + refs q j) m c m' c' /\ less m' m.
Proof.
  intros I P. destruct (assign_ok m r c f p q I P) as (m' & c' & E & I' & K & L). exists m', c'. split; [|auto].
  unfold im_data. erewrite bind_run by reflexivity. cbn [snd]. erewrite bind_run by (rewrite on_cells_eq, E; reflexivity). reflexivity.
Qed.
Lemma app_pre M x : (List.length m0 <= List.length M)%nat -> pre M -> pre (M ++ [x]).
Proof. intros L P b H. rewrite <- P by exact H. apply nth_error_app1. lia. Qed.
Lemma fill_pre n M r o M' r' sb : 0 < n -> (List.length m0 <= List.length M)%nat -> pre M -> keeps_input m0 r -> sb_deserialize_len n M r sb_empty = (o, M', r', sb) -> pre M' /\ from_str r' = from_str r.
Proof.
  intros Pn L P K E. split.
  - destruct (fill n M r Pn L P K) as [(e & s & H)|[(r1 & v & H & _)|(r1 & bs & _ & H & _)]]; rewrite E in H; apply pair_equal_spec in H; destruct H as [H _];
      apply pair_equal_spec in H; destruct H as [H _]; apply pair_equal_spec in H; destruct H as [_ ->]; [exact P|exact P|apply app_pre; assumption].
  - destruct r as [v c|d p g].
    + rewrite sb_buf in E. destruct (v_len v <? n); apply pair_equal_spec in E; destruct E as [E _]; apply pair_equal_spec in E; destruct E as [_ <-]; reflexivity.
    + rewrite sb_str in E by exact Pn. cbv zeta in E. destruct (str_read d p g n) as [got r1] eqn:Er. assert (from_str r1 = true) by (unfold str_read in Er; destruct g; injection Er as _ <-; reflexivity).
      destruct (store _ _ _ got); apply pair_equal_spec in E; destruct E as [E _]; apply pair_equal_spec in E; destruct E as [_ <-]; assumption.
Qed.

(** An item decoded; [M] is where the plain decode runs. *)
Lemma im_decode_ok m M r c f : inv m c f -> less m M -> pre M -> keeps_input m0 r ->
  exists o m' r' c' i M', im_decode m r (c, (EIP_ITEM_NULL, None)) = (o, m', r', (c', i)) /\ it_deserialize M r it_null = (o, M', r', mkItem (fst i) (obj_of c' (snd i))) /\
    keeps_input m0 r' /\ from_str r' = from_str r /\ calm_out r o /\ inv m' c' (fun j => f j + refs (snd i) j) /\ keeps f m c m' c' /\ less m' M' /\ pre M'.
Proof.
  intros I Le Q K. assert (P : pre m) by exact (i_pre _ _ _ I). assert (LM : (List.length m0 <= List.length M)%nat) by (rewrite <- (proj1 Le); exact (i_len _ _ _ I)).
  destruct (type_run m M r c EIP_ITEM_NULL None None P Q K) as (o & r1 & ty & E1 & E1' & K1 & D1 & S1). unfold im_decode, it_deserialize, it_null.
  assert (I0 : inv m c (fun j => f j + refs None j)) by (revert I; apply inv_ext; intros j; cbn [refs]; lia).
  destruct o as [[]|e s|u|]; try contradiction.
  2:{ rewrite (bind_throw _ _ _ _ _ _ _ _ _ _ E1). rewrite (bind_throw _ _ _ _ _ _ _ _ _ _ E1'). exists (Throw e s), m, r1, c, (ty, None), M. do 2 (split; [reflexivity|]). split; [exact K1|]. split; [exact S1|].
      split; [exact Logic.I|]. split; [exact I0|]. split; [intros j _; apply kept_refl|]. split; assumption. }
  rewrite (bind_run _ _ _ _ _ _ _ _ _ E1). rewrite (bind_run _ _ _ _ _ _ _ _ _ E1').
  destruct (count_run 2 m M r1 (c, (ty, None) : itm) (mkItem ty None) P Q K1) as (o & r2 & E2 & E2' & K2 & D2 & S2).
  destruct o as [n|e s|u|]; try contradiction.
  2:{ rewrite (bind_throw _ _ _ _ _ _ _ _ _ _ E2). rewrite (bind_throw _ _ _ _ _ _ _ _ _ _ E2'). exists (Throw e s), m, r2, c, (ty, None), M. do 2 (split; [reflexivity|]). split; [exact K2|]. split; [congruence|].
      split; [exact Logic.I|]. split; [exact I0|]. split; [intros j _; apply kept_refl|]. split; assumption. }
  2:{ rewrite (bind_undef _ _ _ _ _ _ _ _ _ E2), (bind_undef _ _ _ _ _ _ _ _ _ E2'). exists (Undef u), m, r2, c, (ty, None), M. do 2 (split; [reflexivity|]). split; [exact K2|]. split; [congruence|].
      split; [destruct D2 as [-> D2]; split; [reflexivity|congruence]|]. split; [exact I0|]. split; [intros j _; apply kept_refl|]. split; assumption. }
  rewrite (bind_run _ _ _ _ _ _ _ _ _ E2). rewrite (bind_run _ _ _ _ _ _ _ _ _ E2'). unfold it_deserializeData. destruct (0 <? n) eqn:E0.
  - apply N.ltb_lt in E0. destruct (make_ok m c f _ I empty_kept) as (I1 & Ke1 & F0). change (sb_of_view (sb_data sb_empty)) with sb_empty in *. set (q := List.length c) in *.
    erewrite bind_run by (rewrite on_cells_eq; unfold c_make; reflexivity). fold q. erewrite (bind_run (dmod _)) by reflexivity.
    destruct (im_data_ok m r2 (c ++ [(1, sb_empty)]) ty None (Some q) (fun j => f j + refs (Some q) j)) as (m3 & c3 & E3 & I3 & Ke3 & L3).
    { revert I1. apply inv_ext. intros j. cbn [refs]. lia. } { intros j Hj. pose proof (refs_pos _ _ Hj). lia. }
    erewrite bind_run by exact E3. destruct (release_ok m3 r2 c3 (fun j => f j + refs (Some q) j) (Some q) I3) as (m4 & c4 & E4 & I4 & Ke4 & L4 & _).
    erewrite bind_run by (rewrite on_cells_eq, E4; reflexivity). rewrite on_cells_eq.
    assert (Eq : nth_error c4 q = Some (1, sb_empty)).
    { pose proof (proj1 (Ke4 q ltac:(cbv beta; rewrite refs_self; lia))) as A. rewrite (proj1 (Ke3 q ltac:(cbv beta; rewrite refs_self; lia))) in A.
      pose proof (i_cnt _ _ _ I4 q) as C. cbv beta in C. rewrite refs_self in C. unfold sb_of in A. unfold q in A at 2. rewrite length_cell_last in A.
      destruct (nth_error c4 q) as [[n' sb]|]; [|lia]. injection A as ->. f_equal. f_equal. unfold q in C, F0. lia. }
    destruct (into_ok m4 r2 c4 _ q 1 n I4 Eq ltac:(lia) E0 K2) as (o & m5 & r5 & sb & Es & Ei & Do & K5 & I5 & Ke5 & Th). rewrite Ei.
    destruct (fill_less _ _ M _ _ _ _ _ E0 (less_trans _ _ _ L4 (less_trans _ _ _ L3 Le)) Es) as (M' & E' & L').
    destruct (fill_pre _ _ _ _ _ _ _ E0 LM Q K2 E') as [Q' S5].
    assert (KK : keeps f m c m5 (list_set c4 q (1, sb))).
    { intros j Pj. eapply kept_trans; [apply Ke1; exact Pj|]. eapply kept_trans; [apply Ke3; lia|]. eapply kept_trans; [apply Ke4; lia|]. apply Ke5; [|lia]. intros ->. unfold q in Pj, F0. lia. }
    assert (Ob : sb_of (list_set c4 q (1, sb)) q = Some sb) by exact (sb_set c4 q 1 1 _ sb Eq).
    exists o, m5, r5, (list_set c4 q (1, sb)), (ty, Some q), M'. split; [reflexivity|]. split.
    { unfold dbind, dlocal. rewrite E'. destruct o as [[]|e s|u|]; try contradiction.
      - unfold dmod, it_set_data. cbn [it_type fst snd]. unfold obj_of. rewrite Ob. reflexivity.
      - unfold it_set_data. cbn [it_type fst snd]. unfold obj_of. rewrite Ob. destruct (Th ltac:(eauto)) as [-> _]. reflexivity. }
    split; [exact K5|]. split; [congruence|]. split; [destruct o; [exact Logic.I|exact Logic.I|contradiction|contradiction]|]. split; [exact I5|]. split; [exact KK|]. split; assumption.
  - destruct (im_data_ok m r2 c ty None None f I0) as (m3 & c3 & E3 & I3 & Ke3 & L3); [discriminate|].
    exists (Ret tt), m3, r2, c3, (ty, None), M. split; [exact E3|]. split; [reflexivity|]. split; [exact K2|]. split; [congruence|]. split; [exact Logic.I|]. split; [exact I3|].
    split; [refine (keeps_le f _ _ _ _ _ _ Ke3); intros j; lia|]. split; [exact (less_trans _ _ _ L3 Le)|exact Q].
Qed.

(** ** Several pointers *)
Fixpoint refsl (l : list sptr) (q : nat) : N := match l with [] => 0 | p :: l' => refs p q + refsl l' q end.
Lemma refsl_app a b q : refsl (a ++ b) q = refsl a q + refsl b q.
Proof. induction a as [|p a IH]; cbn [app refsl]; [lia|]. rewrite IH. lia. Qed.
Lemma refsl_in l q : @In sptr (Some q) l -> 0 < refsl l q.
Proof. induction l as [|p l IH]; [contradiction|]. intros [->|H]; cbn [refsl]; [rewrite refs_self; lia|]. specialize (IH H). lia. Qed.
Lemma retains_ok l : forall m r c f, inv m c f -> (forall q, @In sptr (Some q) l -> 0 < f q) ->
  exists c', c_all c_retain l m r c = (Ret tt, m, r, c') /\ inv m c' (fun q => f q + refsl l q) /\ forall j, kept m c m c' j.
Proof.
  induction l as [|p l IH]; intros m r c f I P; cbn [c_all].
  - exists c. split; [reflexivity|]. split; [revert I; apply inv_ext; intros q; cbn [refsl]; lia|intros j; apply kept_refl].
  - destruct (retain_ok m r c f p I) as (c1 & E1 & I1 & K1); [intros q ->; apply P; left; reflexivity|]. rewrite (bind_run _ _ _ _ _ _ _ _ _ E1).
    destruct (IH m r c1 _ I1) as (c2 & E2 & I2 & K2); [intros q H; specialize (P q (or_intror H)); lia|]. exists c2. split; [exact E2|].
    split; [revert I2; apply inv_ext; intros q; cbn [refsl]; lia|]. intros j. eapply kept_trans; [apply K1|apply K2].
Qed.
Lemma releases_ok l : forall m r c f, inv m c (fun q => f q + refsl l q) ->
  exists m' c', c_all c_release l m r c = (Ret tt, m', r, c') /\ inv m' c' f /\ keeps f m c m' c' /\ less m' m.
Proof.
  induction l as [|p l IH]; intros m r c f I; cbn [c_all].
  - exists m, c. split; [reflexivity|]. split; [revert I; apply inv_ext; intros q; cbn [refsl]; lia|]. split; [intros j _; apply kept_refl|apply less_refl].
  - destruct (release_ok m r c (fun q => f q + refsl l q) p) as (m1 & c1 & E1 & I1 & K1 & L1 & _); [revert I; apply inv_ext; intros q; cbn [refsl]; lia|]. rewrite (bind_run _ _ _ _ _ _ _ _ _ E1).
    destruct (IH m1 r c1 f I1) as (m2 & c2 & E2 & I2 & K2 & L2). exists m2, c2. split; [exact E2|]. split; [exact I2|]. split; [|exact (less_trans _ _ _ L2 L1)].
    eapply keeps_trans; [refine (keeps_le f _ _ _ _ _ _ K1); intros j; lia|exact K2].
Qed.

(** ** Lists of items *)
Definition plain (c : cells) (l : list itm) : cpf_packet := map (fun i => mkItem (fst i) (obj_of c (snd i))) l.
Lemma plain_kept f m c m' c' l : keeps f m c m' c' -> (forall j, @In sptr (Some j) (map snd l) -> 0 < f j) -> plain c' l = plain c l.
Proof.
  intros K P. unfold plain. apply map_ext_in. intros i H. f_equal. apply (obj_kept f _ _ _ _ _ K). intros j E. apply P. rewrite <- E. apply in_map. exact H.
Qed.
Lemma is_push_ok m r c (l : list itm) (i : itm) f : inv m c (fun j => f j + refsl (map snd l) j) -> (forall q, snd i = Some q -> 0 < f q + refsl (map snd l) q) ->
  exists c', is_push i m r (c, l) = (Ret tt, m, r, (c', l ++ [i])) /\ inv m c' (fun j => f j + refsl (map snd (l ++ [i])) j) /\ forall j, kept m c m c' j.
Proof.
  intros I P. destruct (retain_ok m r c _ (snd i) I P) as (c1 & E1 & I1 & K1). exists c1. split; [|split; [|exact K1]].
  - unfold is_push. erewrite bind_run by (rewrite on_cells_eq, E1; reflexivity). reflexivity.
  - revert I1. apply inv_ext. intros j. rewrite map_app, refsl_app. cbn [map refsl]. lia.
Qed.
Lemma is_one_ok m M r c l f : inv m c (fun j => f j + refsl (map snd l) j) -> less m M -> pre M -> keeps_input m0 r ->
  exists o m' r' c' l' M', is_one m r (c, l) = (o, m', r', (c', l')) /\ keeps_input m0 r' /\ from_str r' = from_str r /\ calm_out r o /\
    match o with
    | Ret _ => exists i, l' = l ++ [i] /\ dlocal it_null it_deserialize M r (plain c l) = (Ret (mkItem (fst i) (obj_of c' (snd i))), M', r', plain c l)
    | Throw e s => l' = l /\ dlocal it_null it_deserialize M r (plain c l) = (Throw e s, M', r', plain c l)
    | Undef u => dlocal it_null it_deserialize M r (plain c l) = (Undef u, M', r', plain c l)
    | Stuck => False
    end /\ (done o -> inv m' c' (fun j => f j + refsl (map snd l') j) /\ keeps (fun j => f j + refsl (map snd l) j) m c m' c' /\ less m' M' /\ pre M').
Proof.
  intros I Le Q K. destruct (im_decode_ok m M r c _ I Le Q K) as (o & m1 & r1 & c1 & i & M1 & E1 & E1' & K1 & S1 & D1 & I1 & Ke1 & L1 & Q1).
  unfold is_one. cbn [fst snd]. rewrite E1. unfold dlocal. rewrite E1'. unfold d_then. destruct o as [[]|e s|u|]; [| | |contradiction].
  - destruct (is_push_ok m1 r1 c1 l i (fun j => f j + refs (snd i) j)) as (c2 & E2 & I2 & K2).
    { revert I1. apply inv_ext. intros j. lia. } { intros q H. pose proof (refs_pos _ _ H). lia. }
    rewrite E2, on_cells_eq. destruct (release_ok m1 r1 c2 (fun j => f j + refsl (map snd (l ++ [i])) j) (snd i)) as (m3 & c3 & E3 & I3 & K3 & L3 & _).
    { revert I2. apply inv_ext. intros j. lia. }
    rewrite E3. exists (Ret tt), m3, r1, c3, (l ++ [i]), M1. split; [reflexivity|]. split; [exact K1|]. split; [exact S1|]. split; [exact Logic.I|]. split.
    + exists i. split; [reflexivity|]. do 4 f_equal. destruct i as [ty [q|]]; [|reflexivity]. cbn [fst snd] in *. f_equal. unfold obj_of. f_equal. symmetry.
      rewrite (proj1 (K3 q ltac:(cbv beta; rewrite map_app, refsl_app; cbn [map refsl snd]; rewrite refs_self; lia))), (proj1 (K2 q)). reflexivity.
    + intros _. split; [exact I3|]. split; [|split; [exact (less_trans _ _ _ L3 L1)|exact Q1]].
      intros j Pj. eapply kept_trans; [apply Ke1; exact Pj|]. eapply kept_trans; [apply K2|]. apply K3. rewrite map_app, refsl_app. lia.
  - unfold dthrow. rewrite on_cells_eq. destruct (release_ok m1 r1 c1 _ (snd i) I1) as (m3 & c3 & E3 & I3 & K3 & L3 & _). rewrite E3.
    exists (Throw e s), m3, r1, c3, l, M1. split; [reflexivity|]. split; [exact K1|]. split; [exact S1|]. split; [exact Logic.I|]. split; [split; reflexivity|].
    intros _. split; [exact I3|]. split; [|split; [exact (less_trans _ _ _ L3 L1)|exact Q1]]. eapply keeps_trans; [exact Ke1|exact K3].
  - unfold dundef. exists (Undef u), m1, r1, c1, l, M1. split; [reflexivity|]. split; [exact K1|]. split; [exact S1|]. split; [exact D1|]. split; [reflexivity|]. intros [].
Qed.
Definition same_items (x : outcome unit * heap * reader * (cells * list itm)) (y : outcome unit * heap * reader * cpf_packet) : Prop :=
  match x, y with (o, m', r', (c', l')), (o2, m2, r2, p) => o2 = o /\ (done o -> r2 = r' /\ p = plain c' l' /\ less m' m2) end.
Definition okay (c : cells) (m : heap) (f : nat -> N) (r : reader) (x : outcome unit * heap * reader * (cells * list itm)) : Prop :=
  match x with (o, m', r', (c', l')) => calm_out r o /\ (done o -> keeps_input m0 r' /\ inv m' c' (fun j => f j + refsl (map snd l') j) /\ keeps f m c m' c') end.
Lemma is_loop_ok n : forall m M r c l f, inv m c (fun j => f j + refsl (map snd l) j) -> less m M -> pre M -> keeps_input m0 r ->
  okay c m f r (is_loop n m r (c, l)) /\ same_items (is_loop n m r (c, l)) (cpf_loop n M r (plain c l)).
Proof.
  induction n as [|n IH]; intros m M r c l f I Le Q K; cbn [is_loop cpf_loop].
  - split; [split; [exact Logic.I|]|split; [reflexivity|]]; intros _.
    + split; [exact K|]. split; [exact I|intros j _; apply kept_refl].
    + split; [reflexivity|]. split; [reflexivity|exact Le].
  - destruct (is_one_ok m M r c l f I Le Q K) as (o & m1 & r1 & c1 & l1 & M1 & E1 & K1 & S1 & D1 & E1' & R). destruct o as [[]|e s|u|]; [| | |contradiction].
    + destruct E1' as (i & -> & E1'). destruct (R Logic.I) as (I1 & Ke1 & L1 & Q1). rewrite (bind_run _ _ _ _ _ _ _ _ _ E1), (bind_run _ _ _ _ _ _ _ _ _ E1').
      erewrite (bind_run (dmod _)) by reflexivity.
      replace (plain c l ++ [mkItem (fst i) (obj_of c1 (snd i))]) with (plain c1 (l ++ [i])).
      2:{ unfold plain at 1. rewrite map_app. fold (plain c1 l). rewrite (plain_kept _ _ _ _ _ l Ke1) by (intros j H; pose proof (refsl_in _ _ H); cbv beta; lia). reflexivity. }
      destruct (IH m1 M1 r1 c1 (l ++ [i]) f I1 L1 Q1 K1) as [A B]. split; [|exact B]. unfold okay in *. destruct (is_loop n m1 r1 (c1, l ++ [i])) as [[[o2 m2] r2] [c2 l2]].
      destruct A as [A1 A2]. split; [unfold calm_out in *; destruct o2; [exact Logic.I|exact Logic.I|rewrite <- S1; exact A1|exact A1]|]. intros D. destruct (A2 D) as (A3 & A4 & A5). split; [exact A3|]. split; [exact A4|].
      eapply keeps_trans; [|exact A5]. refine (keeps_le f _ _ _ _ _ _ Ke1). intros j; lia.
    + destruct E1' as (-> & E1'). destruct (R Logic.I) as (I1 & Ke1 & L1 & Q1). rewrite (bind_throw _ _ _ _ _ _ _ _ _ _ E1), (bind_throw _ _ _ _ _ _ _ _ _ _ E1').
      split; [split; [exact Logic.I|]|split; [reflexivity|]]; intros _.
      * split; [exact K1|]. split; [exact I1|]. refine (keeps_le f _ _ _ _ _ _ Ke1). intros j; lia.
      * split; [reflexivity|]. split; [|exact L1]. symmetry. apply (plain_kept _ _ _ _ _ l Ke1). intros j H. pose proof (refsl_in _ _ H). cbv beta. lia.
    + rewrite (bind_undef _ _ _ _ _ _ _ _ _ E1), (bind_undef _ _ _ _ _ _ _ _ _ E1'). split; [split; [exact D1|intros []]|split; [reflexivity|intros []]].
Qed.
Lemma is_decode_ok m r c l f p : inv m c (fun j => f j + refsl (map snd l) j) -> keeps_input m0 r ->
  okay c m f r (is_decode m r (c, l)) /\ same_items (is_decode m r (c, l)) (cpf_deserialize m r p).
Proof.
  intros I K. destruct (releases_ok (map snd l) m r c f I) as (m1 & c1 & E1 & I1 & K1 & L1). unfold is_decode, cpf_deserialize.
  erewrite bind_run by reflexivity. cbn [snd]. erewrite bind_run by (rewrite on_cells_eq, E1; reflexivity). erewrite (bind_run (dmod _)) by reflexivity. erewrite (bind_run (dmod _)) by reflexivity. cbn [fst].
  destruct (count_run 2 m1 m r (c1, [] : list itm) ([] : cpf_packet) (i_pre _ _ _ I1) (i_pre _ _ _ I) K) as (o & r2 & E2 & E2' & K2 & D2 & S2).
  destruct o as [n|e s|u|]; [| | |contradiction].
  - rewrite (bind_run _ _ _ _ _ _ _ _ _ E2), (bind_run _ _ _ _ _ _ _ _ _ E2').
    destruct (is_loop_ok (N.to_nat n) m1 m r2 c1 [] f) as [A B]; [revert I1; apply inv_ext; intros j; cbn [map refsl]; lia|exact L1|exact (i_pre _ _ _ I)|exact K2|].
    split; [|exact B]. unfold okay in *. destruct (is_loop _ m1 r2 (c1, [])) as [[[o2 m2] r3] [c2 l2]]. destruct A as [A1 A2].
    split; [unfold calm_out in *; destruct o2; [exact Logic.I|exact Logic.I|rewrite <- S2; exact A1|exact A1]|]. intros D. destruct (A2 D) as (A3 & A4 & A5). split; [exact A3|]. split; [exact A4|]. eapply keeps_trans; [exact K1|exact A5].
  - rewrite (bind_throw _ _ _ _ _ _ _ _ _ _ E2), (bind_throw _ _ _ _ _ _ _ _ _ _ E2'). split; [split; [exact Logic.I|]|split; [reflexivity|]]; intros _.
    + split; [exact K2|]. split; [revert I1; apply inv_ext; intros j; cbn [map refsl]; lia|exact K1].
    + split; [reflexivity|]. split; [reflexivity|exact L1].
  - rewrite (bind_undef _ _ _ _ _ _ _ _ _ E2), (bind_undef _ _ _ _ _ _ _ _ _ E2'). split; [split; [exact D2|intros []]|split; [reflexivity|intros []]].
Qed.

(** ** Replies *)
Lemma service_run m M r c a b (pd : sptr * sptr) x y : pre m -> pre M -> keeps_input m0 r ->
  exists o r' a', rp_service m r (c, ((a, b), pd)) = (o, m, r', (c, ((a', b), pd))) /\
    rd_uint 1 ms_service ms_set_service M r (mkMRR a b x y) = (o, M, r', mkMRR a' b x y) /\ keeps_input m0 r' /\ done o /\ from_str r' = from_str r.
Proof.
  intros P Q K. unfold rp_service, on_it, dzoom, rd_uint, rd_raw. cbn [fst snd]. destruct r as [v k|z n g].
  - destruct (v_len v <? _) eqn:L.
    + do 3 eexists. split; [reflexivity|]. split; [reflexivity|]. split; [exact K|]. split; [exact Logic.I|reflexivity].
    + apply N.ltb_ge in L. destruct (load_same m M v _ K P Q L) as (bs & -> & ->). do 3 eexists. split; [reflexivity|]. split; [reflexivity|].
      split; [apply view_drop_kept; exact K|]. split; [exact Logic.I|reflexivity].
  - destruct (str_read z n g (N.of_nat 1)) as [got r'] eqn:Er. do 3 eexists. split; [reflexivity|]. split; [reflexivity|].
    unfold str_read in Er. destruct g; injection Er as _ <-; (split; [exact Logic.I|]; split; [exact Logic.I|reflexivity]).
Qed.
Lemma status_run m M r c a b (pd : sptr * sptr) x y : pre m -> pre M -> keeps_input m0 r ->
  exists o r' b', rp_status m r (c, ((a, b), pd)) = (o, m, r', (c, ((a, b'), pd))) /\
    rd_uint 1 ms_status ms_set_status M r (mkMRR a b x y) = (o, M, r', mkMRR a b' x y) /\ keeps_input m0 r' /\ done o /\ from_str r' = from_str r.
Proof.
  intros P Q K. unfold rp_status, on_it, dzoom, rd_uint, rd_raw. cbn [fst snd]. destruct r as [v k|z n g].
  - destruct (v_len v <? _) eqn:L.
    + do 3 eexists. split; [reflexivity|]. split; [reflexivity|]. split; [exact K|]. split; [exact Logic.I|reflexivity].
    + apply N.ltb_ge in L. destruct (load_same m M v _ K P Q L) as (bs & -> & ->). do 3 eexists. split; [reflexivity|]. split; [reflexivity|].
      split; [apply view_drop_kept; exact K|]. split; [exact Logic.I|reflexivity].
  - destruct (str_read z n g (N.of_nat 1)) as [got r'] eqn:Er. do 3 eexists. split; [reflexivity|]. split; [reflexivity|].
    unfold str_read in Er. destruct g; injection Er as _ <-; (split; [exact Logic.I|]; split; [exact Logic.I|reflexivity]).
Qed.
Lemma positive_int_pos n i : positive_int n = Some i -> 0 < i.
Proof. unfold positive_int. destruct ((0 <? n mod 4294967296) && _) eqn:E; [|discriminate]. intros H. injection H as <-. apply andb_prop in E. apply N.ltb_lt. apply E. Qed.
Lemma rp_read_ok {X} n m M r c (x : X) y f : inv m c f -> less m M -> pre M -> keeps_input m0 r ->
  exists o o2 m' r' c' M', rp_read n m r (c, x) = (o, m', r', (c', x)) /\ ms_readData n M r y = (o2, M', r', y) /\
    keeps_input m0 r' /\ from_str r' = from_str r /\ keeps f m c m' c' /\ less m' M' /\ pre M' /\
    ((exists q, o = Ret q /\ o2 = Ret (obj_of c' q) /\ inv m' c' (fun j => f j + refs q j)) \/ (exists e s, o = Throw e s /\ o2 = Throw e s /\ inv m' c' f)).
Proof.
  intros I Le Q K. assert (LM : (List.length m0 <= List.length M)%nat) by (rewrite <- (proj1 Le); exact (i_len _ _ _ I)). unfold rp_read, ms_readData.
  destruct (positive_int n) as [i|] eqn:En.
  - assert (Pi : 0 < i) by exact (positive_int_pos n i En). destruct (new_filled m r c f i I Pi K) as (o & m1 & r1 & sb & c1 & Es & Ei & Eq & Do & K1 & I1 & Ke1 & Th). set (q := List.length c) in *.
    destruct (fill_less _ _ M _ _ _ _ _ Pi Le Es) as (M' & E' & L'). destruct (fill_pre _ _ _ _ _ _ _ Pi LM Q K E') as [Q' S1].
    erewrite bind_run by (rewrite on_cells_eq; unfold c_make; reflexivity). fold q. destruct o as [[]|e s|u|]; try contradiction.
    + exists (Ret (Some q)), (Ret (obj_of c1 (Some q))), m1, r1, c1, M'. split.
      { erewrite bind_run; [reflexivity|]. unfold d_guard. rewrite on_cells_eq, Ei. reflexivity. }
      split. { unfold dbind, dlocal. rewrite E'. unfold dret, obj_of, sb_of. rewrite Eq. reflexivity. }
      split; [exact K1|]. split; [exact S1|]. split; [exact Ke1|]. split; [exact L'|]. split; [exact Q'|]. left. exists (Some q). split; [reflexivity|]. split; [reflexivity|exact I1].
    + destruct (release_ok m1 r1 c1 f (Some q) I1) as (m2 & c2 & E2 & I2 & Ke2 & L2 & _).
      exists (Throw e s), (Throw e s), m2, r1, c2, M'. split.
      { erewrite bind_throw; [reflexivity|]. unfold d_guard. rewrite on_cells_eq, Ei. rewrite on_cells_eq, E2. reflexivity. }
      split. { unfold dbind, dlocal. rewrite E'. reflexivity. }
      split; [exact K1|]. split; [exact S1|]. split; [eapply keeps_trans; [exact Ke1|exact Ke2]|]. split; [exact (less_trans _ _ _ L2 L')|]. split; [exact Q'|]. right. exists e, s. auto.
  - exists (Ret None), (Ret None), m, r, c, M. split; [reflexivity|]. split; [reflexivity|]. split; [exact K|]. split; [reflexivity|]. split; [intros j _; apply kept_refl|]. split; [exact Le|]. split; [exact Q|].
    left. exists None. split; [reflexivity|]. split; [reflexivity|]. revert I. apply inv_ext. intros j. cbn [refs]. lia.
Qed.
(** A pointer takes what a temporary has. *)
Lemma moved_ok m r c f p q : inv m c (fun j => f j + refs p j + refs q j) ->
  exists m1 c1 m2 c2, c_assign p q m r c = (Ret tt, m1, r, c1) /\ c_release q m1 r c1 = (Ret tt, m2, r, c2) /\
    inv m2 c2 (fun j => f j + refs q j) /\ keeps (fun j => f j + refs q j) m c m2 c2 /\ less m2 m.
Proof.
  intros I. destruct (assign_ok m r c (fun j => f j + refs q j) p q) as (m1 & c1 & E1 & I1 & K1 & L1).
  { revert I. apply inv_ext. intros j. lia. } { intros j Hj. pose proof (refs_pos _ _ Hj). lia. }
  destruct (release_ok m1 r c1 (fun j => f j + refs q j) q I1) as (m2 & c2 & E2 & I2 & K2 & L2 & _).
  exists m1, c1, m2, c2. split; [exact E1|]. split; [exact E2|]. split; [exact I2|]. split; [|exact (less_trans _ _ _ L2 L1)].
  intros j Pj. eapply kept_trans; [apply K1; cbv beta in *; lia|apply K2; exact Pj].
Qed.
Lemma rp_additional_ok m r c ab (p d q : sptr) f : inv m c (fun j => f j + refs p j + refs q j) ->
  exists m' c', rp_additional q m r (c, (ab, (p, d))) = (Ret tt, m', r, (c', (ab, (q, d)))) /\ inv m' c' (fun j => f j + refs q j) /\ keeps (fun j => f j + refs q j) m c m' c' /\ less m' m.
Proof.
  intros I. destruct (moved_ok m r c f p q I) as (m1 & c1 & m2 & c2 & E1 & E2 & R). exists m2, c2. split; [|exact R].
  unfold rp_additional. erewrite bind_run by reflexivity. cbn [fst snd]. erewrite bind_run by (rewrite on_cells_eq, E1; reflexivity). erewrite (bind_run (dmod _)) by reflexivity. cbn [fst snd]. rewrite on_cells_eq, E2. reflexivity.
Qed.
Lemma rp_data_ok m r c ab (p d q : sptr) f : inv m c (fun j => f j + refs d j + refs q j) ->
  exists m' c', rp_data q m r (c, (ab, (p, d))) = (Ret tt, m', r, (c', (ab, (p, q)))) /\ inv m' c' (fun j => f j + refs q j) /\ keeps (fun j => f j + refs q j) m c m' c' /\ less m' m.
Proof.
  intros I. destruct (moved_ok m r c f d q I) as (m1 & c1 & m2 & c2 & E1 & E2 & R). exists m2, c2. split; [|exact R].
  unfold rp_data. erewrite bind_run by reflexivity. cbn [fst snd]. erewrite bind_run by (rewrite on_cells_eq, E1; reflexivity). erewrite (bind_run (dmod _)) by reflexivity. cbn [fst snd]. rewrite on_cells_eq, E2. reflexivity.
Qed.
Definition rpl_refs (p : rpl) (j : nat) : N := refs (fst (snd p)) j + refs (snd (snd p)) j.
Definition plain_reply (c : cells) (p : rpl) : mr_response := mkMRR (fst (fst p)) (snd (fst p)) (obj_of c (fst (snd p))) (obj_of c (snd (snd p))).
Definition same_reply (x : outcome unit * heap * reader * (cells * rpl)) (y : outcome unit * heap * reader * mr_response) : Prop :=
  match x, y with (o, m', r', (c', p')), (o2, m2, r2, p) => o2 = o /\ (done o -> r2 = r' /\ p = plain_reply c' p' /\ less m' m2) end.
Definition replied (c : cells) (m : heap) (f : nat -> N) (r : reader) (x : outcome unit * heap * reader * (cells * rpl)) : Prop :=
  match x with (o, m', r', (c', p')) => calm_out r o /\ (done o -> keeps_input m0 r' /\ inv m' c' (fun j => f j + rpl_refs p' j) /\ keeps f m c m' c') end.
Lemma count_reads {T} m r (t : T) : exists k, rd_count m r t = (Ret k, m, r, t).
Proof. unfold rd_count. destruct r; eauto. Qed.
Lemma rp_decode_ok n m r c p f : inv m c (fun j => f j + rpl_refs p j) -> keeps_input m0 r ->
  replied c m f r (rp_decode_len n m r (c, p)) /\ same_reply (rp_decode_len n m r (c, p)) (ms_deserialize_len n m r (plain_reply c p)).
Proof.
  destruct p as [[a b] [p d]]. intros I K. pose proof (i_pre _ _ _ I) as P. unfold rp_decode_len, ms_deserialize_len, plain_reply. cbn [fst snd].
  set (x := obj_of c p). set (y := obj_of c d).
  assert (Raise : forall e s r' a' b', keeps_input m0 r' -> replied c m f r (Throw e s, m, r', (c, ((a', b'), (p, d)))) /\
    same_reply (Throw e s, m, r', (c, ((a', b'), (p, d)))) (Throw e s, m, r', mkMRR a' b' x y)).
  { intros e s r' a' b' K'. split; [split; [exact Logic.I|]|split; [reflexivity|]]; intros _.
    - split; [exact K'|]. split; [exact I|intros j _; apply kept_refl].
    - split; [reflexivity|]. split; [reflexivity|apply less_refl]. }
  destruct (service_run m m r c a b (p, d) x y P P K) as (o & r1 & a1 & E & E' & K1 & D1 & S1). destruct o as [[]|e s|u|]; try contradiction.
  2:{ rewrite (bind_throw _ _ _ _ _ _ _ _ _ _ E), (bind_throw _ _ _ _ _ _ _ _ _ _ E'). apply Raise. exact K1. }
  rewrite (bind_run _ _ _ _ _ _ _ _ _ E), (bind_run _ _ _ _ _ _ _ _ _ E'). clear E E'.
  destruct (status_run m m r1 c a1 b (p, d) x y P P K1) as (o & r2 & b2 & E & E' & K2 & D2 & S2). destruct o as [[]|e s|u|]; try contradiction.
  2:{ rewrite (bind_throw _ _ _ _ _ _ _ _ _ _ E), (bind_throw _ _ _ _ _ _ _ _ _ _ E'). apply Raise. exact K2. }
  rewrite (bind_run _ _ _ _ _ _ _ _ _ E), (bind_run _ _ _ _ _ _ _ _ _ E'). clear E E'.
  destruct (status_run m m r2 c a1 b2 (p, d) x y P P K2) as (o & r3 & b3 & E & E' & K3 & D3 & S3). destruct o as [[]|e s|u|]; try contradiction.
  2:{ rewrite (bind_throw _ _ _ _ _ _ _ _ _ _ E), (bind_throw _ _ _ _ _ _ _ _ _ _ E'). apply Raise. exact K3. }
  rewrite (bind_run _ _ _ _ _ _ _ _ _ E), (bind_run _ _ _ _ _ _ _ _ _ E'). clear E E'.
  destruct (count_run 1 m m r3 (c, ((a1, b3), (p, d)) : rpl) (mkMRR a1 b3 x y) P P K3) as (o & r4 & E & E' & K4 & D4 & S4). destruct o as [al|e s|u|]; try contradiction.
  2:{ rewrite (bind_throw _ _ _ _ _ _ _ _ _ _ E), (bind_throw _ _ _ _ _ _ _ _ _ _ E'). apply Raise. exact K4. }
  2:{ rewrite (bind_undef _ _ _ _ _ _ _ _ _ E), (bind_undef _ _ _ _ _ _ _ _ _ E'). split; [split; [|intros []]|split; [reflexivity|intros []]].
      destruct D4 as [-> D4]. split; [reflexivity|congruence]. }
  rewrite (bind_run _ _ _ _ _ _ _ _ _ E), (bind_run _ _ _ _ _ _ _ _ _ E'). clear E E' D1 D2 D3 D4.
  unfold rpl_refs in I. cbn [fst snd] in I.
  destruct (rp_read_ok (2 * al) m m r4 c (((a1, b3), (p, d)) : rpl) (mkMRR a1 b3 x y) _ I (less_refl m) P K4) as (o & o2 & m5 & r5 & c5 & M5 & E & E' & K5 & S5 & Ke5 & L5 & Q5 & Z).
  assert (Ob5 : obj_of c5 p = x /\ obj_of c5 d = y).
  { split; refine (obj_kept _ _ _ _ _ _ Ke5 _); intros j Hj; pose proof (refs_pos _ _ Hj); cbv beta; lia. }
  assert (Kf5 : keeps f m c m5 c5) by (refine (keeps_le _ _ _ _ _ _ _ Ke5); intros j; lia).
  destruct Z as [(q & -> & -> & I5)|(e & s & -> & -> & I5)].
  2:{ rewrite (bind_throw _ _ _ _ _ _ _ _ _ _ E), (bind_throw _ _ _ _ _ _ _ _ _ _ E'). split; [split; [exact Logic.I|]|split; [reflexivity|]]; intros _.
      - split; [exact K5|]. split; [exact I5|exact Kf5].
      - split; [reflexivity|]. split; [|exact L5]. unfold plain_reply. cbn [fst snd]. rewrite (proj1 Ob5), (proj2 Ob5). reflexivity. }
  rewrite (bind_run _ _ _ _ _ _ _ _ _ E), (bind_run _ _ _ _ _ _ _ _ _ E'). clear E E'. erewrite (bind_run (dmod _)) by reflexivity. unfold ms_set_additional. cbn [ms_service ms_status ms_data].
  destruct (rp_additional_ok m5 r5 c5 (a1, b3) p d q (fun j => f j + refs d j)) as (m6 & c6 & E & I6 & Ke6 & L6).
  { revert I5. apply inv_ext. intros j. lia. }
  rewrite (bind_run _ _ _ _ _ _ _ _ _ E). clear E.
  destruct (count_reads m6 r5 (c6, ((a1, b3), (q, d)) : rpl)) as (k & E). destruct (count_reads M5 r5 (mkMRR a1 b3 (obj_of c5 q) y)) as (k' & E').
  assert (k' = k) by (revert E E'; unfold rd_count; destruct r5; intros; congruence). subst k'.
  rewrite (bind_run _ _ _ _ _ _ _ _ _ E), (bind_run _ _ _ _ _ _ _ _ _ E'). clear E E'.
  destruct (rp_read_ok (u64 (n + 18446744073709551616 - k)) m6 M5 r5 c6 (((a1, b3), (q, d)) : rpl) (mkMRR a1 b3 (obj_of c5 q) y) _ I6 (less_trans _ _ _ L6 L5) Q5 K5) as (o & o2 & m7 & r7 & c7 & M7 & E & E' & K7 & S7 & Ke7 & L7 & Q7 & Z).
  assert (Ob7 : obj_of c7 q = obj_of c5 q /\ obj_of c7 d = y).
  { rewrite <- (proj2 Ob5). split.
    - rewrite (obj_kept _ _ _ _ _ q Ke7) by (intros j Hj; pose proof (refs_pos _ _ Hj); cbv beta; lia). refine (obj_kept _ _ _ _ _ q Ke6 _). intros j Hj; pose proof (refs_pos _ _ Hj); cbv beta; lia.
    - rewrite (obj_kept _ _ _ _ _ d Ke7) by (intros j Hj; pose proof (refs_pos _ _ Hj); cbv beta; lia). refine (obj_kept _ _ _ _ _ d Ke6 _). intros j Hj; pose proof (refs_pos _ _ Hj); cbv beta; lia. }
  assert (Kf7 : keeps f m c m7 c7).
  { eapply keeps_trans; [exact Kf5|]. eapply keeps_trans; [refine (keeps_le _ _ _ _ _ _ _ Ke6)|refine (keeps_le _ _ _ _ _ _ _ Ke7)]; intros j; lia. }
  destruct Z as [(g & -> & -> & I7)|(e & s & -> & -> & I7)].
  2:{ rewrite (bind_throw _ _ _ _ _ _ _ _ _ _ E), (bind_throw _ _ _ _ _ _ _ _ _ _ E'). split; [split; [exact Logic.I|]|split; [reflexivity|]]; intros _.
      - split; [exact K7|]. split; [|exact Kf7]. revert I7. apply inv_ext. intros j. unfold rpl_refs. cbn [fst snd]. lia.
      - split; [reflexivity|]. split; [|exact L7]. unfold plain_reply. cbn [fst snd]. rewrite (proj1 Ob7), (proj2 Ob7). reflexivity. }
  rewrite (bind_run _ _ _ _ _ _ _ _ _ E), (bind_run _ _ _ _ _ _ _ _ _ E'). clear E E'.
  destruct (rp_data_ok m7 r7 c7 (a1, b3) q d g (fun j => f j + refs q j)) as (m8 & c8 & E & I8 & Ke8 & L8).
  { revert I7. apply inv_ext. intros j. lia. }
  rewrite E. split; [split; [exact Logic.I|]|split; [reflexivity|]]; intros _.
  - split; [exact K7|]. split; [revert I8; apply inv_ext; intros j; unfold rpl_refs; cbn [fst snd]; lia|]. eapply keeps_trans; [exact Kf7|]. refine (keeps_le _ _ _ _ _ _ _ Ke8). intros j; lia.
  - split; [reflexivity|]. split; [|exact (less_trans _ _ _ L8 L7)]. unfold plain_reply, ms_set_data. cbn [fst snd ms_service ms_status ms_additional].
    rewrite <- (proj1 Ob7). f_equal; symmetry; refine (obj_kept _ _ _ _ _ _ Ke8 _); intros j Hj; pose proof (refs_pos _ _ Hj); cbv beta; lia.
Qed.

(** ** setPayload *)
Lemma pk_set_ok m r c h p q f : inv m c (fun j => f j + refs p j) -> (forall j, q = Some j -> 0 < f j) ->
  exists m' c' h', pk_set q m r (c, (h, p)) = (Ret tt, m', r, (c', (h', q))) /\ inv m' c' (fun j => f j + refs q j) /\ keeps f m c m' c' /\
    ep_setPayload (obj_of c q) (mkEP h (obj_of c p)) = Ret (mkEP h' (obj_of c' q)).
Proof.
  intros I P. destruct (retain_ok m r c _ q I) as (c1 & E1 & I1 & K1); [intros j Hj; specialize (P j Hj); lia|].
  destruct (pk_payload_ok m r c1 h p q (fun j => f j + refs q j)) as (m2 & c2 & E2 & I2 & K2 & L2).
  { revert I1. apply inv_ext. intros j. lia. } { intros j Hj. specialize (P j Hj). lia. }
  destruct (release_ok m2 r c2 (fun j => f j + refs q j) q I2) as (m3 & c3 & E3 & I3 & K3 & _).
  assert (KK : keeps f m c m3 c3).
  { intros j Pj. eapply kept_trans; [apply K1|]. eapply kept_trans; [apply K2; lia|apply K3; lia]. }
  eexists m3, c3, _. split; [|split; [exact I3|split; [exact KK|]]].
  - unfold pk_set. erewrite bind_run by (rewrite on_cells_eq, E1; reflexivity). rewrite (bind_run _ _ _ _ _ _ _ _ _ E2). erewrite bind_run by reflexivity. rewrite on_cells_eq. cbn [fst snd]. rewrite E3. reflexivity.
  - destruct q as [q|]; [|reflexivity]. specialize (P q eq_refl). rewrite (obj_kept f m c m3 c3 (Some q) KK) by (intros j Hj; injection Hj as <-; exact P).
    pose proof (proj1 (K2 q ltac:(cbv beta; lia))) as A. rewrite (proj1 (K1 q)) in A. pose proof (i_cnt _ _ _ I q) as C. cbv beta in C. unfold sb_of in A.
    destruct (nth_error c q) as [[n sb]|] eqn:E; [|lia]. unfold obj_of, sb_of, pk_length. rewrite E. destruct (nth_error c2 q) as [[n2 sb2]|]; [|discriminate]. injection A as ->. reflexivity.
Qed.

(** ** Programs *)
Definition pts (x : option thing) : list sptr := match x with Some t => pointers t | None => [] end.
Fixpoint uses (l : list (option thing)) (q : nat) : N := match l with [] => 0 | x :: l' => refsl (pts x) q + uses l' q end.
Lemma uses_app a b q : uses (a ++ b) q = uses a q + uses b q.
Proof. induction a as [|p a IH]; cbn [app uses]; [lia|]. rewrite IH. lia. Qed.
Lemma uses_set l : forall i x y q, nth_error l i = Some x -> uses (list_set l i y) q = uses (list_set l i None) q + refsl (pts y) q.
Proof.
  induction l as [|z l IH]; intros [|i] x y q H; try discriminate; cbn [nth_error list_set uses] in *.
  - cbn [pts refsl]. lia.
  - rewrite (IH i x y q H). lia.
Qed.
Lemma uses_in l : forall k t p q, nth_error l k = Some (Some t) -> In p (pointers t) -> p = Some q -> 0 < uses l q.
Proof.
  induction l as [|z l IH]; intros [|k] t p q H Hp ->; try discriminate; cbn [nth_error uses] in *.
  - injection H as ->. cbn [pts]. pose proof (refsl_in _ _ Hp). lia.
  - specialize (IH k t _ q H Hp eq_refl). lia.
Qed.
Lemma uses_find l q : 0 < uses l q -> exists k t, nth_error l k = Some (Some t) /\ @In sptr (Some q) (pointers t).
Proof.
  assert (R : forall p, 0 < refsl p q -> @In sptr (Some q) p).
  { induction p as [|x p IH]; cbn [refsl]; [lia|]. destruct (refs x q) eqn:E; [intros H; right; apply IH; lia|]. intros _. left. unfold refs in E. destruct x as [y|]; [|discriminate].
    destruct (Nat.eqb y q) eqn:Ey; [|discriminate]. apply PeanoNat.Nat.eqb_eq in Ey. congruence. }
  induction l as [|z l IH]; cbn [uses]; [lia|]. destruct (refsl (pts z) q) eqn:E.
  - intros H. destruct IH as (k & t & A & B); [lia|]. exists (S k), t. split; assumption.
  - intros _. destruct z as [t|]; [|discriminate]. exists O, t. split; [reflexivity|]. apply R. cbn [pts] in E. rewrite E. lia.
Qed.
Definition sane (s : desk) : Prop := inv (dk_mem s) (dk_cells s) (uses (dk_vars s)).
Lemma shows_kept f s s' t : keeps f (dk_mem s) (dk_cells s) (dk_mem s') (dk_cells s') -> (forall q, @In sptr (Some q) (pointers t) -> 0 < f q) -> shows s' t = shows s t.
Proof.
  intros K P. unfold shows. apply map_ext_in. intros [q|] H; [|reflexivity]. destruct (K q (P q H)) as [A B]. unfold data_of, object. unfold sb_of in A, B.
  destruct (nth_error (dk_cells s') q) as [[n sb]|], (nth_error (dk_cells s) q) as [[n' sb']|]; try discriminate; [|reflexivity]. injection A as ->. rewrite (B sb' eq_refl). reflexivity.
Qed.
Lemma obj_object s p : option_map ser_of_sbuf (object s p) = obj_of (dk_cells s) p.
Proof. destruct p as [q|]; [|reflexivity]. unfold object, obj_of, sb_of. destruct (nth_error (dk_cells s) q) as [[n sb]|]; reflexivity. Qed.
Lemma var_nth s i t : var_of s i = Some t -> nth_error (dk_vars s) i = Some (Some t).
Proof. unfold var_of. destruct (nth_error (dk_vars s) i) as [x|]; [congruence|discriminate]. Qed.
Lemma nth_var s i t : nth_error (dk_vars s) i = Some (Some t) -> var_of s i = Some t.
Proof. unfold var_of. intros ->. reflexivity. Qed.
(** The variables that are not the one at [i]. *)
Definition rest (s : desk) (i : nat) : nat -> N := uses (list_set (dk_vars s) i None).
Lemma rest_in s i k t q : k <> i -> var_of s k = Some t -> @In sptr (Some q) (pointers t) -> 0 < rest s i q.
Proof. intros N H Hq. refine (uses_in _ k t _ q _ Hq eq_refl). rewrite nth_error_set_other by congruence. apply var_nth. exact H. Qed.
Definition steady (s s' : desk) (x : option nat) : Prop := forall k t, x <> Some k -> var_of s k = Some t -> var_of s' k = Some t /\ shows s' t = shows s t.
Lemma update_ok s i t y m' c' : sane s -> var_of s i = Some t -> inv m' c' (fun j => rest s i j + refsl (pts y) j) -> keeps (rest s i) (dk_mem s) (dk_cells s) m' c' ->
  sane (mkDesk m' c' (list_set (dk_vars s) i y)) /\ steady s (mkDesk m' c' (list_set (dk_vars s) i y)) (Some i).
Proof.
  intros Sa Hi I K. apply var_nth in Hi. split.
  - unfold sane. cbn [dk_mem dk_cells dk_vars]. revert I. apply inv_ext. intros q. unfold rest. symmetry. apply (uses_set _ i (Some t)). exact Hi.
  - intros k u Nk Hk. split.
    + apply nth_var. cbn [dk_vars]. rewrite nth_error_set_other by congruence. apply var_nth. exact Hk.
    + apply (shows_kept (rest s i)); [exact K|]. intros q Hq. apply (rest_in s i k u q); [congruence|exact Hk|exact Hq].
Qed.
Lemma append_ok s t m' c' : inv m' c' (fun j => uses (dk_vars s) j + refsl (pointers t) j) -> keeps (uses (dk_vars s)) (dk_mem s) (dk_cells s) m' c' ->
  sane (mkDesk m' c' (dk_vars s ++ [Some t])) /\ steady s (mkDesk m' c' (dk_vars s ++ [Some t])) None.
Proof.
  intros I K. split.
  - unfold sane. cbn [dk_mem dk_cells dk_vars]. revert I. apply inv_ext. intros q. rewrite uses_app. cbn [uses pts]. lia.
  - intros k u _ Hk. apply var_nth in Hk. split.
    + apply nth_var. cbn [dk_vars]. rewrite nth_error_app1; [exact Hk|]. apply nth_error_Some. congruence.
    + apply (shows_kept (uses (dk_vars s))); [exact K|]. intros q Hq. exact (uses_in _ k u _ q Hk Hq eq_refl).
Qed.
Lemma sane_rest s i t : sane s -> var_of s i = Some t -> inv (dk_mem s) (dk_cells s) (fun j => rest s i j + refsl (pointers t) j).
Proof.
  intros Sa H. apply var_nth in H. revert Sa. apply inv_ext. intros q. unfold rest. rewrite <- (list_set_same _ _ _ H) at 1. exact (uses_set _ i (Some t) (Some t) q H).
Qed.
Lemma sane_packet s i p : sane s -> var_of s i = Some (TPacket p) -> inv (dk_mem s) (dk_cells s) (fun j => rest s i j + refs (snd p) j).
Proof. intros Sa H. generalize (sane_rest s i _ Sa H). apply inv_ext. intros q. cbn [pointers refsl]. lia. Qed.
Lemma sane_reply s i p : sane s -> var_of s i = Some (TReply p) -> inv (dk_mem s) (dk_cells s) (fun j => rest s i j + rpl_refs p j).
Proof. intros Sa H. generalize (sane_rest s i _ Sa H). apply inv_ext. intros q. unfold rpl_refs. cbn [pointers refsl]. lia. Qed.
Definition step_ok (a : deal) (s : desk) : Prop :=
  match perform a s with (o, s') => (makes_sense a s -> harmless a o) /\ (done o -> sane s' /\ steady s s' (target a)) end.
Lemma keeps_all f m c m' c' : (forall j, kept m c m' c' j) -> keeps f m c m' c'. Proof. intros K j _. apply K. Qed.
Lemma copy_ok s t i : sane s -> var_of s i = Some t -> exists c', c_all c_retain (pointers t) (dk_mem s) no_input (dk_cells s) = (Ret tt, dk_mem s, no_input, c') /\
  inv (dk_mem s) c' (fun j => uses (dk_vars s) j + refsl (pointers t) j) /\ forall j, kept (dk_mem s) (dk_cells s) (dk_mem s) c' j.
Proof. intros Sa H. apply retains_ok; [exact Sa|]. intros q Hq. exact (uses_in _ i t _ q (var_nth _ _ _ H) Hq eq_refl). Qed.
Lemma get_ok s i t p : sane s -> var_of s i = Some t -> In p (pointers t) -> exists c', c_retain p (dk_mem s) no_input (dk_cells s) = (Ret tt, dk_mem s, no_input, c') /\
  inv (dk_mem s) c' (fun j => uses (dk_vars s) j + refsl [p] j) /\ forall j, kept (dk_mem s) (dk_cells s) (dk_mem s) c' j.
Proof.
  intros Sa H Hp. destruct (retain_ok (dk_mem s) no_input (dk_cells s) _ p Sa) as (c' & E & I & K); [intros q Hq; exact (uses_in _ i t _ q (var_nth _ _ _ H) Hp Hq)|].
  exists c'. split; [exact E|]. split; [|exact K]. revert I. apply inv_ext. intros q. cbn [refsl]. lia.
Qed.
Lemma assign_var_ok s i j t u : sane s -> var_of s i = Some t -> var_of s j = Some u ->
  exists m' c', (c_all c_retain (pointers u) ;;; c_all c_release (pointers t)) (dk_mem s) no_input (dk_cells s) = (Ret tt, m', no_input, c') /\
    inv m' c' (fun q => rest s i q + refsl (pointers u) q) /\ keeps (fun q => rest s i q + refsl (pointers u) q) (dk_mem s) (dk_cells s) m' c'.
Proof.
  intros Sa Hi Hj. destruct (copy_ok s u j Sa Hj) as (c1 & E1 & I1 & K1).
  destruct (releases_ok (pointers t) (dk_mem s) no_input c1 (fun q => rest s i q + refsl (pointers u) q)) as (m2 & c2 & E2 & I2 & K2 & _).
  { revert I1. apply inv_ext. intros q. pose proof (uses_set _ i (Some t) (Some t) q (var_nth _ _ _ Hi)) as Z. rewrite (list_set_same _ _ _ (var_nth _ _ _ Hi)) in Z. unfold rest. cbn [pts] in Z. lia. }
  exists m2, c2. split; [rewrite (bind_run _ _ _ _ _ _ _ _ _ E1); exact E2|]. split; [exact I2|]. intros q Pq. eapply kept_trans; [apply K1|apply K2; exact Pq].
Qed.
Lemma other_class i j s p q : var_of s i = Some p -> var_of s j = Some q -> same_class p q = false -> i <> j.
Proof. intros A B C ->. rewrite A in B. injection B as <-. destruct p; discriminate. Qed.

Ltac dead := split; [cbn [makes_sense]; intros Hs; exfalso; repeat match goal with H : exists _, _ |- _ => destruct H | H : _ /\ _ |- _ => destruct H | H : _ \/ _ |- _ => destruct H end; congruence|intros []].
Lemma step a s : sane s -> fair m0 a -> step_ok a s.
Proof.
  intros Sa Fa. destruct a as [k h| | | |v|i|i j|i|i r|i n r|i|i|i|i k|i j|i ty j]; unfold step_ok, perform, new_var; cbv zeta; cbn [target fair] in *.
  - split; [intros _; exact Logic.I|]. intros _. apply append_ok; [|intros j _; apply kept_refl]. revert Sa. apply inv_ext. intros q. cbn. lia.
  - split; [intros _; exact Logic.I|]. intros _. apply append_ok; [|intros j _; apply kept_refl]. revert Sa. apply inv_ext. intros q. cbn. lia.
  - split; [intros _; exact Logic.I|]. intros _. apply append_ok; [|intros j _; apply kept_refl]. revert Sa. apply inv_ext. intros q. cbn. lia.
  - split; [intros _; exact Logic.I|]. intros _. apply append_ok; [|intros j _; apply kept_refl]. revert Sa. apply inv_ext. intros q. cbn. lia.
  - destruct (make_ok _ _ _ _ Sa Fa) as (I & K & _). unfold c_make. split; [intros _; exact Logic.I|]. intros _. apply append_ok; [|exact K]. revert I. apply inv_ext. intros q. cbn [pointers refsl]. lia.
  - destruct (var_of s i) as [t|] eqn:E; [|dead]. destruct (copy_ok s t i Sa E) as (c' & -> & I & K). split; [intros _; exact Logic.I|]. intros _. apply append_ok; [exact I|apply keeps_all; exact K].
  - destruct (var_of s i) as [t|] eqn:E; [|dead]. destruct (var_of s j) as [u|] eqn:E'; [|dead].
    destruct (same_class t u) eqn:Ec; [|dead]. destruct (assign_var_ok s i j t u Sa E E') as (m' & c' & -> & I & K). split; [intros _; exact Logic.I|]. intros _.
    apply (update_ok s i t); [exact Sa|exact E|exact I|]. refine (keeps_le _ _ _ _ _ _ _ K). intros q; lia.
  - destruct (var_of s i) as [t|] eqn:E; [|dead].
    destruct (releases_ok (pointers t) (dk_mem s) no_input (dk_cells s) (rest s i) (sane_rest s i t Sa E)) as (m' & c' & -> & I & K & _). split; [intros _; exact Logic.I|]. intros _.
    apply (update_ok s i t); [exact Sa|exact E| |exact K]. revert I. apply inv_ext. intros q. cbn [pts refsl]. lia.
  - destruct (var_of s i) as [[[h p]|l|p|p]|] eqn:E; [| | |dead..].
    + unfold on_packet. destruct (pk_decode_ok _ r _ h p _ (sane_packet s i _ Sa E) Fa) as [F _]. unfold fine in F. destruct (pk_decode _ r _) as [[[o m'] r'] [c' p']]. destruct F as (D & _ & I & K).
      split; [intros _; destruct o; [exact Logic.I|exact Logic.I|contradiction|contradiction]|]. intros _. apply (update_ok s i _ _ _ _ Sa E); [|exact K]. revert I. apply inv_ext. intros q. unfold pkt_refs. cbn [pts pointers refsl]. lia.
    + unfold on_items. destruct (is_decode_ok _ r _ l _ [] (sane_rest s i _ Sa E) Fa) as [F _]. unfold okay in F. destruct (is_decode _ r _) as [[[o m'] r'] [c' l']]. destruct F as (D & F).
      split; [intros _; unfold calm_out in D; destruct o; [exact Logic.I|exact Logic.I|destruct D as [D1 D2]; split; [exact D1|destruct r; [discriminate|exact Logic.I]]|contradiction]|]. intros Do. destruct (F Do) as (_ & I & K).
      apply (update_ok s i _ _ _ _ Sa E); [exact I|exact K].
    + unfold on_reply, dthrow. split; [intros _; exact Logic.I|]. intros _. apply (update_ok s i _ _ _ _ Sa E); [|intros j _; apply kept_refl]. exact (sane_rest s i _ Sa E).
  - destruct (var_of s i) as [[[h p]|l|p|p]|] eqn:E; [| | |dead..].
    + unfold on_packet. destruct (pk_decode_len_ok n _ r _ h p _ (sane_packet s i _ Sa E) Fa) as [F _]. unfold fine in F. destruct (pk_decode_len n _ r _) as [[[o m'] r'] [c' p']]. destruct F as (D & _ & I & K).
      split; [intros _; destruct o; [exact Logic.I|exact Logic.I|contradiction|contradiction]|]. intros _. apply (update_ok s i _ _ _ _ Sa E); [|exact K]. revert I. apply inv_ext. intros q. unfold pkt_refs. cbn [pts pointers refsl]. lia.
    + unfold on_items. destruct (is_decode_ok _ r _ l _ [] (sane_rest s i _ Sa E) Fa) as [F _]. unfold okay in F. destruct (is_decode _ r _) as [[[o m'] r'] [c' l']]. destruct F as (D & F).
      split; [intros _; unfold calm_out in D; destruct o; [exact Logic.I|exact Logic.I|destruct D as [D1 D2]; split; [exact D1|destruct r; [discriminate|exact Logic.I]]|contradiction]|]. intros Do. destruct (F Do) as (_ & I & K).
      apply (update_ok s i _ _ _ _ Sa E); [exact I|exact K].
    + unfold on_reply. destruct (rp_decode_ok n _ r _ p _ (sane_reply s i _ Sa E) Fa) as [F _]. unfold replied in F. destruct (rp_decode_len n _ r _) as [[[o m'] r'] [c' p']]. destruct F as (D & F).
      split; [intros _; unfold calm_out in D; destruct o; [exact Logic.I|exact Logic.I|destruct D as [D1 D2]; split; [exact D1|destruct r; [discriminate|exact Logic.I]]|contradiction]|]. intros Do. destruct (F Do) as (_ & I & K).
      apply (update_ok s i _ _ _ _ Sa E); [|exact K]. revert I. apply inv_ext. intros q. unfold rpl_refs. cbn [pts pointers refsl]. lia.
  - destruct (var_of s i) as [[p|l|p|p]|] eqn:E; [|dead..].
    destruct (get_ok s i _ (snd p) Sa E (or_introl eq_refl)) as (c' & -> & I & K). split; [intros _; exact Logic.I|]. intros _. apply append_ok; [exact I|apply keeps_all; exact K].
  - destruct (var_of s i) as [[p|l|p|p]|] eqn:E; [dead|dead| |dead..].
    destruct (get_ok s i _ (fst (snd p)) Sa E (or_introl eq_refl)) as (c' & -> & I & K). split; [intros _; exact Logic.I|]. intros _. apply append_ok; [exact I|apply keeps_all; exact K].
  - destruct (var_of s i) as [[p|l|p|p]|] eqn:E; [dead|dead| |dead..].
    destruct (get_ok s i _ (snd (snd p)) Sa E (or_intror (or_introl eq_refl))) as (c' & -> & I & K). split; [intros _; exact Logic.I|]. intros _. apply append_ok; [exact I|apply keeps_all; exact K].
  - destruct (var_of s i) as [[p|l|p|p]|] eqn:E; [dead| |dead..].
    destruct (nth_error l k) as [[ty p]|] eqn:Ek; [|dead].
    destruct (get_ok s i _ p Sa E) as (c' & -> & I & K); [cbn [pointers]; exact (in_map snd _ _ (nth_error_In _ _ Ek))|]. split; [intros _; exact Logic.I|]. intros _. apply append_ok; [exact I|apply keeps_all; exact K].
  - destruct (var_of s i) as [[[h p]|l|p|p]|] eqn:E; [|dead..]. destruct (var_of s j) as [[p'|l'|p'|q]|] eqn:E'; [dead..| |dead].
    unfold on_packet. destruct (pk_set_ok _ no_input _ h p q _ (sane_packet s i _ Sa E)) as (m' & c' & h' & -> & I & K & _).
    { intros x ->. apply (rest_in s i j (TPtr (Some x)) x); [|exact E'|left; reflexivity]. intros ->. congruence. }
    split; [intros _; exact Logic.I|]. intros _. apply (update_ok s i _ _ _ _ Sa E); [|exact K]. revert I. apply inv_ext. intros x. cbn [pts pointers refsl snd]. lia.
  - destruct (var_of s i) as [[p|l|p|p]|] eqn:E; [dead| |dead..]. destruct (var_of s j) as [[p'|l'|p'|q]|] eqn:E'; [dead..| |dead].
    unfold on_items. destruct (is_push_ok _ no_input _ l (u16 ty, q) _ (sane_rest s i _ Sa E)) as (c' & -> & I & K).
    { intros x Hx. cbn [snd] in Hx. subst q. enough (0 < rest s i x) by lia. apply (rest_in s i j (TPtr (Some x)) x); [|exact E'|left; reflexivity]. intros ->. congruence. }
    split; [intros _; exact Logic.I|]. intros _. apply (update_ok s i _ _ _ _ Sa E); [exact I|apply keeps_all; exact K].
Qed.
End Copies.

Lemma begun_sane m0 : sane m0 (begun m0).
Proof.
  constructor; cbn [begun dk_mem dk_cells dk_vars uses].
  - apply le_n.
  - reflexivity.
  - intros q. destruct q; reflexivity.
  - intros q n sb H. destruct q; discriminate.
  - intros q q' n n' sb sb' b H. destruct q; discriminate.
  - intros b bs L H. exfalso. assert (b < List.length m0)%nat by (apply nth_error_Some; congruence). lia.
Qed.
Lemma reaches_sane m0 l s : reaches m0 l s -> sane m0 s.
Proof.
  induction 1 as [|l s a o s' R IH F P D]; [apply begun_sane|]. pose proof (step m0 a s IH F) as Z. unfold step_ok in Z. rewrite P in Z. apply Z. exact D.
Qed.
Lemma copies_safe m0 l s a : reaches m0 l s -> fair m0 a -> makes_sense a s -> harmless a (fst (perform a s)).
Proof. intros R F M. pose proof (step m0 a s (reaches_sane _ _ _ R) F) as Z. unfold step_ok in Z. destruct (perform a s) as [o s']. apply Z. exact M. Qed.
Lemma pointer_cell m0 l s k t q : reaches m0 l s -> var_of s k = Some t -> @In sptr (Some q) (pointers t) -> exists n sb, nth_error (dk_cells s) q = Some (n, sb) /\ 0 < n.
Proof.
  intros R H Hq. pose proof (reaches_sane _ _ _ R) as I. pose proof (uses_in _ k t _ q (var_nth _ _ _ H) Hq eq_refl) as P. rewrite (i_cnt _ _ _ _ I q) in P.
  destruct (nth_error (dk_cells s) q) as [[n sb]|]; [eauto|lia].
Qed.
Lemma copies_readable m0 l s k t p : reaches m0 l s -> var_of s k = Some t -> In p (pointers t) -> p = None \/ exists bs, data_of s p = Some (Ret bs).
Proof.
  intros R H Hp. destruct p as [q|]; [|left; reflexivity]. right. destruct (pointer_cell _ _ _ _ _ _ R H Hp) as (n & sb & E & P).
  destruct (good_reads m0 _ _ _ _ _ _ (reaches_sane _ _ _ R) E P) as (bs & Hb). exists bs. unfold data_of, object. rewrite E, Hb. reflexivity.
Qed.
Lemma copies_kept m0 l s a o s' k t : reaches m0 l s -> fair m0 a -> perform a s = (o, s') -> done o -> target a <> Some k -> var_of s k = Some t ->
  var_of s' k = Some t /\ shows s' t = shows s t.
Proof. intros R F P D N H. pose proof (step m0 a s (reaches_sane _ _ _ R) F) as Z. unfold step_ok in Z. rewrite P in Z. destruct Z as [_ Z]. destruct (Z D) as [_ Z2]. exact (Z2 k t N H). Qed.
Lemma copies_caller m0 l s b : reaches m0 l s -> (b < List.length m0)%nat -> nth_error (dk_mem s) b = nth_error m0 b.
Proof. intros R. exact (i_pre _ _ _ _ (reaches_sane _ _ _ R) b). Qed.
Lemma copies_copied m0 l s i t : reaches m0 l s -> var_of s i = Some t ->
  exists s', perform (KCopy i) s = (Ret tt, s') /\ dk_mem s' = dk_mem s /\ var_of s' (List.length (dk_vars s)) = Some t /\ shows s' t = shows s t.
Proof.
  intros R H. unfold perform. cbv zeta. rewrite H. destruct (copy_ok m0 s t i (reaches_sane _ _ _ R) H) as (c' & -> & _ & K). unfold new_var. eexists. split; [reflexivity|]. split; [reflexivity|]. split.
  - apply nth_var. cbn [dk_vars]. apply length_cell_last.
  - apply (shows_kept (fun _ => 1)); [intros j _; apply K|]. intros; lia.
Qed.
Lemma copies_assigned m0 l s i j t u : reaches m0 l s -> var_of s i = Some t -> var_of s j = Some u -> same_class t u = true ->
  exists s', perform (KAssign i j) s = (Ret tt, s') /\ var_of s' i = Some u /\ shows s' u = shows s u.
Proof.
  intros R Hi Hj C. unfold perform. cbv zeta. rewrite Hi, Hj, C. destruct (assign_var_ok m0 s i j t u (reaches_sane _ _ _ R) Hi Hj) as (m' & c' & -> & _ & K). eexists. split; [reflexivity|]. split.
  - apply nth_var. cbn [dk_vars]. apply nth_error_set_same. apply nth_error_Some. rewrite (var_nth _ _ _ Hi). discriminate.
  - refine (shows_kept _ s (mkDesk m' c' (list_set (dk_vars s) i (Some u))) u K _). intros q Hq. pose proof (refsl_in _ _ Hq). cbv beta. lia.
Qed.
Lemma copies_got m0 l s i p : reaches m0 l s -> var_of s i = Some (TPacket p) ->
  exists s', perform (KGet i) s = (Ret tt, s') /\ dk_mem s' = dk_mem s /\ var_of s' (List.length (dk_vars s)) = Some (TPtr (snd p)) /\ data_of s' (snd p) = data_of s (snd p).
Proof.
  intros R H. unfold perform. cbv zeta. rewrite H. destruct (get_ok m0 s i _ (snd p) (reaches_sane _ _ _ R) H (or_introl eq_refl)) as (c' & -> & _ & K). unfold new_var. eexists. split; [reflexivity|]. split; [reflexivity|]. split.
  - apply nth_var. cbn [dk_vars]. apply length_cell_last.
  - assert (Z : shows (mkDesk (dk_mem s) c' (dk_vars s ++ [Some (TPtr (snd p))])) (TPacket p) = shows s (TPacket p)) by (apply (shows_kept (fun _ => 1)); [intros j _; apply K|intros; lia]).
    injection Z as Z. exact Z.
Qed.
Lemma var_set s m c i t x : var_of s i = Some t -> var_of (mkDesk m c (list_set (dk_vars s) i (Some x))) i = Some x.
Proof. intros H. apply nth_var. cbn [dk_vars]. apply nth_error_set_same. apply nth_error_Some. rewrite (var_nth _ _ _ H). discriminate. Qed.
Lemma packet_eq s p : packet_of s p = mkEP (fst p) (obj_of (dk_cells s) (snd p)).
Proof. unfold packet_of. rewrite obj_object. reflexivity. Qed.
Lemma items_eq s l : items_of s l = plain (dk_cells s) l.
Proof. unfold items_of, plain. apply map_ext. intros i. rewrite obj_object. reflexivity. Qed.
Lemma decoded m0 l s i p r : reaches m0 l s -> var_of s i = Some (TPacket p) -> keeps_input m0 r ->
  exists o s' p' m2 r2, perform (KDecode i r) s = (o, s') /\ var_of s' i = Some (TPacket p') /\
    ep_deserialize (dk_mem s) r (packet_of s p) = (o, m2, r2, packet_of s' p') /\ given_from (dk_mem s') m2.
Proof.
  intros R H K. unfold perform. cbv zeta. rewrite H. destruct p as [h p]. rewrite packet_eq. cbn [fst snd].
  destruct (pk_decode_ok m0 _ r _ h p _ (sane_packet m0 s i _ (reaches_sane _ _ _ R) H) K) as [_ Sm]. unfold on_packet, same_packet in *.
  destruct (pk_decode _ r _) as [[[o m'] r'] [c' [h' p']]]. destruct (ep_deserialize _ r _) as [[[o2 m2] r2] pk]. destruct Sm as (-> & -> & -> & L).
  eexists o, _, (h', p'), m2, r'. split; [reflexivity|]. split; [exact (var_set s _ _ i _ _ H)|]. split; [rewrite packet_eq; reflexivity|exact (proj2 L)].
Qed.
Lemma decoded_len m0 l s i p n r : reaches m0 l s -> var_of s i = Some (TPacket p) -> keeps_input m0 r ->
  exists o s' p' m2 r2, perform (KDecodeLen i n r) s = (o, s') /\ var_of s' i = Some (TPacket p') /\
    ep_deserialize_len n (dk_mem s) r (packet_of s p) = (o, m2, r2, packet_of s' p') /\ given_from (dk_mem s') m2.
Proof.
  intros R H K. unfold perform. cbv zeta. rewrite H. destruct p as [h p]. rewrite packet_eq. cbn [fst snd].
  destruct (pk_decode_len_ok m0 n _ r _ h p _ (sane_packet m0 s i _ (reaches_sane _ _ _ R) H) K) as [_ Sm]. unfold on_packet, same_packet in *.
  destruct (pk_decode_len n _ r _) as [[[o m'] r'] [c' [h' p']]]. destruct (ep_deserialize_len n _ r _) as [[[o2 m2] r2] pk]. destruct Sm as (-> & -> & -> & L).
  eexists o, _, (h', p'), m2, r'. split; [reflexivity|]. split; [exact (var_set s _ _ i _ _ H)|]. split; [rewrite packet_eq; reflexivity|exact (proj2 L)].
Qed.
Lemma decoded_items m0 l s i x r : reaches m0 l s -> var_of s i = Some (TItems x) -> keeps_input m0 r ->
  exists o s' x' m2 r2 y, perform (KDecode i r) s = (o, s') /\ var_of s' i = Some (TItems x') /\
    cpf_deserialize (dk_mem s) r (items_of s x) = (o, m2, r2, y) /\ (done o -> y = items_of s' x' /\ given_from (dk_mem s') m2).
Proof.
  intros R H K. unfold perform. cbv zeta. rewrite H.
  destruct (is_decode_ok m0 _ r _ x _ (items_of s x) (sane_rest m0 s i _ (reaches_sane _ _ _ R) H) K) as [_ Sm]. unfold on_items, same_items in *.
  destruct (is_decode _ r _) as [[[o m'] r'] [c' x']]. destruct (cpf_deserialize _ r _) as [[[o2 m2] r2] y]. destruct Sm as (-> & Z).
  eexists o, _, x', m2, r2, y. split; [reflexivity|]. split; [exact (var_set s _ _ i _ _ H)|]. split; [reflexivity|]. intros D. destruct (Z D) as (_ & -> & L). rewrite items_eq. split; [reflexivity|exact (proj2 L)].
Qed.
Lemma reply_eq s p : reply_of s p = plain_reply (dk_cells s) p.
Proof. unfold reply_of, plain_reply. rewrite !obj_object. reflexivity. Qed.
Lemma decoded_reply m0 l s i p n r : reaches m0 l s -> var_of s i = Some (TReply p) -> keeps_input m0 r ->
  exists o s' p' m2 r2 y, perform (KDecodeLen i n r) s = (o, s') /\ var_of s' i = Some (TReply p') /\
    ms_deserialize_len n (dk_mem s) r (reply_of s p) = (o, m2, r2, y) /\ (done o -> y = reply_of s' p' /\ given_from (dk_mem s') m2).
Proof.
  intros R H K. unfold perform. cbv zeta. rewrite H, reply_eq.
  destruct (rp_decode_ok m0 n _ r _ p _ (sane_reply m0 s i _ (reaches_sane _ _ _ R) H) K) as [_ Sm]. unfold on_reply, same_reply in *.
  destruct (rp_decode_len n _ r _) as [[[o m'] r'] [c' p']]. destruct (ms_deserialize_len n _ r _) as [[[o2 m2] r2] y]. destruct Sm as (-> & Z).
  eexists o, _, p', m2, r2, y. split; [reflexivity|]. split; [exact (var_set s _ _ i _ _ H)|]. split; [reflexivity|]. intros D. destruct (Z D) as (_ & -> & L). rewrite reply_eq. split; [reflexivity|exact (proj2 L)].
Qed.
Lemma got_reply m0 l s i p : reaches m0 l s -> var_of s i = Some (TReply p) ->
  (exists s', perform (KGetStatus i) s = (Ret tt, s') /\ dk_mem s' = dk_mem s /\ var_of s' (List.length (dk_vars s)) = Some (TPtr (fst (snd p))) /\ data_of s' (fst (snd p)) = data_of s (fst (snd p))) /\
  (exists s', perform (KGetData i) s = (Ret tt, s') /\ dk_mem s' = dk_mem s /\ var_of s' (List.length (dk_vars s)) = Some (TPtr (snd (snd p))) /\ data_of s' (snd (snd p)) = data_of s (snd (snd p))).
Proof.
  intros R H. assert (G : forall q, In q (pointers (TReply p)) -> exists s', new_var (TPtr q) (c_retain q (dk_mem s) no_input (dk_cells s)) s = (Ret tt, s') /\ dk_mem s' = dk_mem s /\
    var_of s' (List.length (dk_vars s)) = Some (TPtr q) /\ data_of s' q = data_of s q).
  { intros q Hq. destruct (get_ok m0 s i _ q (reaches_sane _ _ _ R) H Hq) as (c' & -> & _ & K). unfold new_var. eexists. split; [reflexivity|]. split; [reflexivity|]. split.
    - apply nth_var. cbn [dk_vars]. apply length_cell_last.
    - assert (Z : shows (mkDesk (dk_mem s) c' (dk_vars s ++ [Some (TPtr q)])) (TPtr q) = shows s (TPtr q)) by (apply (shows_kept (fun _ => 1)); [intros j _; apply K|intros; lia]).
      injection Z as Z. exact Z. }
  unfold perform. cbv zeta. rewrite H. split; apply G; [left; reflexivity|right; left; reflexivity].
Qed.
Lemma was_set m0 l s i j p q : reaches m0 l s -> var_of s i = Some (TPacket p) -> var_of s j = Some (TPtr q) ->
  exists s' p', perform (KSet i j) s = (Ret tt, s') /\ var_of s' i = Some (TPacket p') /\ ep_setPayload (option_map ser_of_sbuf (object s q)) (packet_of s p) = Ret (packet_of s' p') /\ snd p' = q.
Proof.
  intros R H H'. unfold perform. cbv zeta. rewrite H, H'. destruct p as [h p]. rewrite packet_eq, obj_object. cbn [fst snd]. unfold on_packet.
  destruct (pk_set_ok m0 _ no_input _ h p q _ (sane_packet m0 s i _ (reaches_sane _ _ _ R) H)) as (m' & c' & h' & -> & _ & _ & E).
  { intros x ->. apply (rest_in s i j (TPtr (Some x)) x); [|exact H'|left; reflexivity]. intros ->. congruence. }
  eexists _, (h', q). split; [reflexivity|]. split; [exact (var_set s _ _ i _ _ H)|]. split; [rewrite packet_eq; exact E|reflexivity].
Qed.
Lemma copies_memory m0 l s b bs : reaches m0 l s -> (List.length m0 <= b)%nat -> nth_error (dk_mem s) b = Some (Some bs) ->
  exists k t p sb, var_of s k = Some t /\ In p (pointers t) /\ object s p = Some sb /\ sb_alloc sb = Some b.
Proof.
  intros R L H. pose proof (reaches_sane _ _ _ R) as I. destruct (i_own _ _ _ _ I b bs L H) as (q & n & sb & E & P & Al).
  pose proof (i_cnt _ _ _ _ I q) as C. rewrite E in C. destruct (uses_find (dk_vars s) q) as (k & t & Hk & Hq); [rewrite C; exact P|].
  exists k, t, (Some q), sb. split; [apply nth_var; exact Hk|]. split; [exact Hq|]. split; [|exact Al]. unfold object. rewrite E. reflexivity.
Qed.
Lemma holders_refs l q : len (filter (same_pointer (Some q)) l) = refsl l q.
Proof.
  induction l as [|p l IH]; [reflexivity|]. cbn [filter refsl]. destruct p as [x|]; cbn [same_pointer refs]; [|rewrite IH; lia]. rewrite (PeanoNat.Nat.eqb_sym q x). destruct (Nat.eqb x q); [|rewrite IH; lia]. rewrite len_cons, IH. lia.
Qed.
Lemma holders_uses s q : holders s q = uses (dk_vars s) q.
Proof.
  unfold holders, all_pointers. rewrite holders_refs. induction (dk_vars s) as [|x l IH]; [reflexivity|]. cbn [map List.concat uses]. rewrite refsl_app, IH. destruct x; cbn [pts refsl]; lia.
Qed.
Lemma copies_count m0 l s q n sb : reaches m0 l s -> nth_error (dk_cells s) q = Some (n, sb) -> n = holders s q.
Proof. intros R E. pose proof (i_cnt _ _ _ _ (reaches_sane _ _ _ R) q) as C. rewrite E in C. rewrite holders_uses. symmetry. exact C. Qed.
Lemma copies_ended m0 l s : reaches m0 l s -> (forall k, var_of s k = None) -> forall b, nth_error (dk_mem s) b = nth_error m0 b \/ nth_error (dk_mem s) b = Some None.
Proof.
  intros R N b. destruct (PeanoNat.Nat.lt_ge_cases b (List.length m0)) as [L|L]; [left; exact (copies_caller _ _ _ _ R L)|].
  destruct (nth_error (dk_mem s) b) as [[bs|]|] eqn:E; [|right; reflexivity|left; symmetry; apply nth_error_None; exact L].
  destruct (copies_memory _ _ _ _ _ R L E) as (k & t & _ & _ & H & _). rewrite N in H. discriminate.
Qed.
Lemma run_reaches_from m0 l : forall l0 s s', reaches m0 l0 s -> Forall (fair m0) l -> run_deals l s = Some s' -> reaches m0 (l0 ++ l) s'.
Proof.
  induction l as [|a l IH]; intros l0 s s' R F E; cbn [run_deals] in E.
  - injection E as <-. rewrite app_nil_r. exact R.
  - inversion F as [|x y Fa Fl]; subst. replace (l0 ++ a :: l) with ((l0 ++ [a]) ++ l) by (rewrite <- app_assoc; reflexivity).
    destruct (perform a s) as [[u|e n|u|] s1] eqn:P; try discriminate; apply (IH _ s1 s'); auto; exact (reaches_more _ _ _ _ _ _ R Fa P Logic.I).
Qed.
Lemma run_reaches m0 l s : Forall (fair m0) l -> run_deals l (begun m0) = Some s -> reaches m0 l s.
Proof. intros F E. exact (run_reaches_from m0 l [] _ s (reaches_none m0) F E). Qed.

(** ** C130: decoding through a pointer *)
Lemma into_buf n m v k sb : sb_deserialize_len n m (RBuf v k) sb =
  match sb_alloc sb with
  | Some b => match free m b with
              | Ret m' => if v_len v <? n then (Throw LengthError "Buffer too small to deserialize value", m', RBuf v k, mkSB (sb_data sb) None)
                          else (Ret tt, m', RBuf (view_drop v n) (k + n), mkSB (view_take v n) None)
              | Throw e s => (Throw e s, m, RBuf v k, sb) | Undef u => (Undef u, m, RBuf v k, sb) | Stuck => (Stuck, m, RBuf v k, sb)
              end
  | None => if v_len v <? n then (Throw LengthError "Buffer too small to deserialize value", m, RBuf v k, sb) else (Ret tt, m, RBuf (view_drop v n) (k + n), mkSB (view_take v n) (sb_alloc sb))
  end.
Proof.
  cbv beta iota zeta delta [sb_deserialize_len sb_delete dbind rd_is_buffer dget dret]. destruct (sb_alloc sb) as [b|] eqn:E.
  - cbv beta iota zeta delta [d_free]. destruct (free m b) as [m'|e s|u|]; [|reflexivity..]. cbv beta iota zeta delta [dmod rd_view]. destruct (v_len v <? n); reflexivity.
  - cbv beta iota zeta delta [dmod rd_view]. rewrite ?E. destruct (v_len v <? n); rewrite ?E; reflexivity.
Qed.
Lemma through_short m0 l s i q sb b v k n : reaches m0 l s -> var_of s i = Some (TPtr (Some q)) -> object s (Some q) = Some sb -> sb_alloc sb = Some b -> v_len (sb_data sb) <> 0 -> v_len v < n ->
  exists s', through i n (RBuf v k) s = (Throw LengthError "Buffer too small to deserialize value", s') /\ dk_vars s' = dk_vars s /\ data_of s' (Some q) = Some (Undef UseAfterFree).
Proof.
  intros R H O Al L0 L. pose proof (reaches_sane _ _ _ R) as I. destruct (pointer_cell _ _ _ _ _ _ R H (or_introl eq_refl)) as (c & sb' & E & P).
  unfold object in O. rewrite E in O. injection O as ->. destruct (i_good _ _ _ _ I q c sb E P) as [[X _]|(b' & bs & -> & Lb & Nb)]; [congruence|]. cbn [sb_alloc sb_data v_len] in *. injection Al as ->.
  unfold through. rewrite H. unfold c_into. rewrite E. replace (c =? 0) with false by (symmetry; apply N.eqb_neq; lia). rewrite into_buf. cbn [sb_alloc]. unfold free. rewrite Nb.
  replace (v_len v <? n) with true by (symmetry; apply N.ltb_lt; exact L). eexists. split; [reflexivity|]. split; [reflexivity|].
  unfold data_of, object. cbn [dk_cells dk_mem]. rewrite (nth_set2 _ _ _ _ _ E), PeanoNat.Nat.eqb_refl. cbn [sb_data]. unfold load_view, load. cbn [v_blk v_off v_len].
  rewrite (proj2 (N.eqb_neq _ _) L0), nth_error_set_same by (apply nth_error_Some; congruence). reflexivity.
Qed.
Lemma through_buffer m0 l s i q v k n : reaches m0 l s -> var_of s i = Some (TPtr (Some q)) -> keeps_view m0 v -> n <= v_len v ->
  exists s', through i n (RBuf v k) s = (Ret tt, s') /\ dk_vars s' = dk_vars s /\ object s' (Some q) = Some (sb_of_view (view_take v n)) /\
    (forall j t p, var_of s' j = Some t -> In p (pointers t) -> p = None \/ exists bs, data_of s' p = Some (Ret bs)) /\
    (forall j t p, var_of s' j = Some t -> In p (pointers t) -> p <> Some q -> data_of s' p = data_of s p) /\
    (forall b, (b < List.length m0)%nat -> nth_error (dk_mem s') b = nth_error m0 b).
Proof.
  intros R H V L. pose proof (reaches_sane _ _ _ R) as I. destruct (pointer_cell _ _ _ _ _ _ R H (or_introl eq_refl)) as (c & sb & E & P).
  assert (W : exists m' r', sb_deserialize_len n (dk_mem s) (RBuf v k) sb = (Ret tt, m', r', sb_of_view (view_take v n)) /\
    inv m0 m' (list_set (dk_cells s) q (c, sb_of_view (view_take v n))) (uses (dk_vars s)) /\
    forall j, j <> q -> 0 < uses (dk_vars s) j -> kept (dk_mem s) (dk_cells s) m' (list_set (dk_cells s) q (c, sb_of_view (view_take v n))) j).
  { rewrite into_buf. replace (v_len v <? n) with false by (symmetry; apply N.ltb_ge; exact L). destruct (sb_alloc sb) as [b|] eqn:Al.
    - destruct (emptied m0 _ _ _ q c sb b I E P Al) as [I1 K1]. destruct (i_good _ _ _ _ I q c sb E P) as [[X _]|(b' & bs & -> & Lb & Nb)]; [congruence|]. cbn [sb_alloc] in Al. injection Al as ->.
      unfold free. rewrite Nb. do 2 eexists. split; [reflexivity|].
      assert (E1 : nth_error (list_set (dk_cells s) q (c, sb_empty)) q = Some (c, sb_empty)) by (rewrite (nth_set2 _ _ _ _ _ E), PeanoNat.Nat.eqb_refl; reflexivity).
      destruct (filled_view m0 _ _ _ q c (view_take v n) I1 E1 P (view_take_kept m0 v n V)) as [I2 K2]. rewrite list_set_set in I2, K2. split; [exact I2|].
      intros j Nj Pj. eapply kept_trans; [apply K1; assumption|apply K2; exact Nj].
    - do 2 eexists. split; [reflexivity|]. destruct (filled_gen m0 _ _ _ q c sb (view_take v n) I E Al P (view_take_kept m0 v n V)) as [I2 K2]. split; [exact I2|]. intros j Nj _. apply K2. exact Nj. }
  destruct W as (m' & r' & Es & I' & K). unfold through. rewrite H. unfold c_into. rewrite E. replace (c =? 0) with false by (symmetry; apply N.eqb_neq; lia). rewrite Es.
  eexists. split; [reflexivity|]. split; [reflexivity|]. cbn [dk_mem dk_cells dk_vars]. split; [|split; [|split; [|exact (i_pre _ _ _ _ I')]]].
  - unfold object. cbn [dk_cells]. rewrite (nth_set2 _ _ _ _ _ E), PeanoNat.Nat.eqb_refl. reflexivity.
  - intros j t p Hj Hp. destruct p as [x|]; [|left; reflexivity]. right. pose proof (uses_in _ j t _ x (var_nth _ _ _ Hj) Hp eq_refl) as Px. cbn [dk_vars] in Px. rewrite (i_cnt _ _ _ _ I' x) in Px.
    unfold data_of, object. cbn [dk_cells dk_mem]. destruct (nth_error _ x) as [[nx sx]|] eqn:Ex; [|lia]. destruct (good_reads m0 _ _ _ _ _ _ I' Ex Px) as (bs & ->). eauto.
  - intros j t p Hj Hp Np. destruct p as [x|]; [|reflexivity]. pose proof (uses_in _ j t _ x (var_nth _ _ _ Hj) Hp eq_refl) as Px. cbn [dk_vars] in Px.
    destruct (K x) as [A B]; [congruence|exact Px|]. unfold sb_of in A, B. unfold data_of, object. cbn [dk_cells dk_mem].
    destruct (nth_error (list_set _ _ _) x) as [[n1 s1]|], (nth_error (dk_cells s) x) as [[n2 s2]|]; try discriminate; [|reflexivity]. injection A as ->. rewrite (B s2 eq_refl). reflexivity.
Qed.
Lemma through_length m0 l s i k p q v c n : reaches m0 l s -> var_of s i = Some (TPtr (Some q)) -> var_of s k = Some (TPacket p) -> snd p = Some q -> keeps_view m0 v -> n <= v_len v -> n <> h_length (fst p) ->
  exists s' sb, through i n (RBuf v c) s = (Ret tt, s') /\ var_of s' k = Some (TPacket p) /\ object s' (snd p) = Some sb /\ v_len (sb_data sb) <> h_length (fst p).
Proof.
  intros R H Hk Hp V L N. destruct (through_buffer m0 l s i q v c n R H V L) as (s' & E & Ev & O & _). exists s'. eexists. split; [exact E|]. split; [|split; [rewrite Hp; exact O|]].
  - unfold var_of in *. rewrite Ev. exact Hk.
  - cbn [sb_of_view sb_data view_take v_len]. rewrite N.min_r by exact L. exact N.
Qed.
Lemma through_stream m0 l s i q sb d p bs : reaches m0 l s -> var_of s i = Some (TPtr (Some q)) -> object s (Some q) = Some sb -> sb_alloc sb = None ->
  take (v_len (sb_data sb)) (drop p d) = bs -> len bs = v_len (sb_data sb) ->
  exists s' old, through i (v_len (sb_data sb)) (RStr d p false) s = (Ret tt, s') /\ load_view m0 (sb_data sb) = Ret old /\ load_view (dk_mem s') (sb_data sb) = Ret bs.
Proof.
  intros R H O Al Tk L. pose proof (reaches_sane _ _ _ R) as I. destruct (pointer_cell _ _ _ _ _ _ R H (or_introl eq_refl)) as (c & sb' & E & P).
  unfold object in O. rewrite E in O. injection O as ->. destruct (i_good _ _ _ _ I q c sb E P) as [[_ (old & V)]|(b' & x & -> & _)]; [|discriminate].
  pose proof (load_pre m0 _ _ _ (i_pre _ _ _ _ I) V) as V'. destruct (PRest.store_only (dk_mem s) (sb_data sb) old bs V' L) as (m' & St & W & _).
  unfold through. rewrite H. unfold c_into. rewrite E. replace (c =? 0) with false by (symmetry; apply N.eqb_neq; lia).
  assert (Es : sb_deserialize_len (v_len (sb_data sb)) (dk_mem s) (RStr d p false) sb = (Ret tt, m', RStr d (p + len bs) (len bs <? v_len (sb_data sb)), sb)).
  { cbv beta iota zeta delta [sb_deserialize_len dbind rd_is_buffer dget dret]. rewrite N.eqb_refl. cbv beta iota zeta delta [rd_into str_read]. rewrite Tk, St. reflexivity. }
  rewrite Es. eexists _, old. split; [reflexivity|]. split; [exact V|exact W].
Qed.
