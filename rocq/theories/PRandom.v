(** * PRandom: lemmas about the first numbers of sessions. *)
From Verif Require Import Random Vocab8 Vocab20 PHistory PAlias.
From Coq Require Import Lia ListDec.
Local Open Scope N_scope.

Lemma new_key gen time vendor serial k s i s' : new_session gen time vendor serial k s = (i, s') ->
  exists ob, alive s' i ob /\ next_key (ob_se ob) = (u16 (snd (gen time)), u16 vendor, u32 serial).
Proof.
  unfold new_session. destruct (gen time) as [c n]. unfold session_make. cbn [alloc w_se w_mem w_rbuf].
  intros E. assert (I := f_equal fst E). assert (J := f_equal snd E). cbn [fst snd] in *. subst.
  eexists. split; [unfold alive; cbn [st_objs]; apply nth_error_app_end|]. reflexivity.
Qed.

Definition all16 : list N := map N.of_nat (seq 0 (N.to_nat 65536)).
Lemma all16_in x : x < 65536 -> In x all16.
Proof. intros L. unfold all16. apply in_map_iff. exists (N.to_nat x). split; [apply N2Nat.id|]. apply in_seq. lia. Qed.
Lemma all16_len : len all16 = 65536.
Proof. unfold all16, len. rewrite map_length, seq_length. apply N2Nat.id. Qed.

Lemma dup_pre (f : N -> N) l : (forall x, f x < 65536) -> NoDup l -> 65536 < len l -> exists x y, In x l /\ In y l /\ x <> y /\ f x = f y.
Proof.
  intros B D L. destruct (ListDec.NoDup_dec N.eq_dec (map f l)) as [Y|Y].
  - exfalso. assert (I : incl (map f l) all16) by (intros x X; apply in_map_iff in X as (z & <- & _); apply all16_in, B).
    pose proof (NoDup_incl_length Y I) as H. rewrite map_length in H. pose proof all16_len as A. unfold len in *. lia.
  - clear B L. induction l as [|a l IH]; [exfalso; apply Y; constructor|]. inversion D as [|? ? N1 N2]; subst.
    destruct (in_dec N.eq_dec (f a) (map f l)) as [X|X].
    + apply in_map_iff in X as (b & E & I). exists a, b. split; [left; reflexivity|]. split; [right; exact I|]. split; [intros ->; auto|auto].
    + destruct IH as (x & y & Ix & Iy & R); [exact N2|intros Z; apply Y; cbn [map]; constructor; assumption|]. exists x, y. split; [right; exact Ix|]. split; [right; exact Iy|exact R].
Qed.

Lemma pigeonhole gen times vendor serial : NoDup times -> 65536 < len times ->
  exists t1 t2, In t1 times /\ In t2 times /\ t1 <> t2 /\
    forall k1 k2 s s' i1 i2 s1 s2, new_session gen t1 vendor serial k1 s = (i1, s1) -> new_session gen t2 vendor serial k2 s' = (i2, s2) ->
      exists ob1 ob2, alive s1 i1 ob1 /\ alive s2 i2 ob2 /\ next_key (ob_se ob1) = next_key (ob_se ob2).
Proof.
  intros D L. destruct (dup_pre (fun t => u16 (snd (gen t))) times) as (t1 & t2 & I1 & I2 & Ne & E); [intros; apply N.mod_lt; discriminate|exact D|exact L|].
  exists t1, t2. split; [exact I1|]. split; [exact I2|]. split; [exact Ne|]. intros k1 k2 s s' i1 i2 s1 s2 E1 E2.
  destruct (new_key _ _ _ _ _ _ _ _ E1) as (o1 & A1 & K1), (new_key _ _ _ _ _ _ _ _ E2) as (o2 & A2 & K2). exists o1, o2. rewrite K1, K2, E. auto.
Qed.

Lemma boost_reused : exists t1 t2, 1797000000 <= t1 /\ t1 < t2 /\ t2 < t1 + 160 /\ fst (boost_start t1) <> fst (boost_start t2) /\
  forall vendor serial k1 k2 s s' i1 i2 s1 s2, new_session boost_start t1 vendor serial k1 s = (i1, s1) -> new_session boost_start t2 vendor serial k2 s' = (i2, s2) ->
      exists ob1 ob2, alive s1 i1 ob1 /\ alive s2 i2 ob2 /\ next_key (ob_se ob1) = next_key (ob_se ob2).
Proof.
  exists 1797000014, 1797000173. split; [discriminate|]. split; [reflexivity|]. split; [reflexivity|]. split; [vm_compute; discriminate|].
  intros vendor serial k1 k2 s s' i1 i2 s1 s2 E1 E2.
  destruct (new_key _ _ _ _ _ _ _ _ E1) as (o1 & A1 & K1), (new_key _ _ _ _ _ _ _ _ E2) as (o2 & A2 & K2). exists o1, o2. split; [exact A1|]. split; [exact A2|].
  rewrite K1, K2. replace (snd (boost_start 1797000173)) with (snd (boost_start 1797000014)) by (vm_compute; reflexivity). reflexivity.
Qed.

(** ** Ranges *)
Lemma sn_apart a b i j n1 n2 : a < 65536 -> b < 65536 -> n1 <= (b + 65536 - a) mod 65536 -> n2 <= (a + 65536 - b) mod 65536 ->
  i < n1 -> j < n2 -> (a + i) mod 65536 <> (b + j) mod 65536.
Proof.
  intros A B L1 L2 I J E.
  assert (R : forall x y, x < 65536 -> y < 65536 -> (y + 65536 - x) mod 65536 = if x <=? y then y - x else y + 65536 - x).
  { intros x y X Y. destruct (N.leb_spec x y); [replace (y + 65536 - x) with (y - x + 1 * 65536) by lia; rewrite N.mod_add by lia|]; apply N.mod_small; lia. }
  rewrite R in L1, L2 by assumption.
  pose proof (N.div_mod (a + i) 65536 ltac:(discriminate)) as P. pose proof (N.div_mod (b + j) 65536 ltac:(discriminate)) as Q. rewrite E in P.
  destruct (N.leb_spec a b), (N.leb_spec b a); try lia.
  all: set (p := (a + i) / 65536) in *; set (q := (b + j) / 65536) in *; assert (p = q \/ p >= q + 1 \/ q >= p + 1) as [Z|[Z|Z]] by lia; nia.
Qed.

Lemma from_start ops w rs w' : fits 2 (se_next_sn (w_se w)) -> fits 4 (se_next_id (w_se w)) -> se_conns (w_se w) = [] -> exec ops w = (rs, w') ->
  (forall x, In x (map se_next_sn (attempts ops w)) -> exists i, i < len (attempts ops w) /\ x = (se_next_sn (w_se w) + i) mod 65536) /\
  (forall c, In c (se_conns (w_se w')) -> exists i, i < len (attempts ops w) /\ cn_sn c = (se_next_sn (w_se w) + i) mod 65536).
Proof.
  intros F1 F2 C E. apply fits2_lt in F1. apply fits4_lt in F2.
  assert (I : numbered_upto (se_next_sn (w_se w)) (se_next_id (w_se w)) 0 (w_se w)).
  { split; [|split].
    - unfold nth_sn. rewrite N.add_0_r, N.mod_small; [reflexivity|assumption].
    - unfold nth_id. rewrite N.add_0_r, N.mod_small; [reflexivity|assumption].
    - exists []. rewrite C. split; [reflexivity|]. split; constructor. }
  destruct (numbered_history _ _ _ _ _ _ _ I E) as ((_ & _ & js & J1 & J2 & J3) & H2 & H3). unfold len in *. split.
  - intros x X. rewrite H2 in X. apply in_map_iff in X as (i & <- & Ii). apply in_seq in Ii. exists (N.of_nat i). split; [lia|]. unfold nth_sn. f_equal.
  - intros c X. apply (in_map cn_sn) in X. rewrite J1 in X. apply in_map_iff in X as (i & Ei & Ii). rewrite Forall_forall in J3. apply J3 in Ii.
    exists i. split; [lia|]. rewrite <- Ei. reflexivity.
Qed.

Lemma ranges_apart ops1 ops2 w1 w2 rs1 rs2 w1' w2' :
  fits 2 (se_next_sn (w_se w1)) -> fits 4 (se_next_id (w_se w1)) -> se_conns (w_se w1) = [] ->
  fits 2 (se_next_sn (w_se w2)) -> fits 4 (se_next_id (w_se w2)) -> se_conns (w_se w2) = [] ->
  exec ops1 w1 = (rs1, w1') -> exec ops2 w2 = (rs2, w2') ->
  len (attempts ops1 w1) <= (se_next_sn (w_se w2) + 65536 - se_next_sn (w_se w1)) mod 65536 ->
  len (attempts ops2 w2) <= (se_next_sn (w_se w1) + 65536 - se_next_sn (w_se w2)) mod 65536 ->
  (forall x, In x (map next_key (attempts ops1 w1)) -> ~ In x (map next_key (attempts ops2 w2))) /\
  (forall k, In k (map conn_key (se_conns (w_se w1'))) -> ~ In k (map conn_key (se_conns (w_se w2')))).
Proof.
  intros A1 A2 A3 B1 B2 B3 E1 E2 L1 L2.
  destruct (from_start _ _ _ _ A1 A2 A3 E1) as [P1 Q1], (from_start _ _ _ _ B1 B2 B3 E2) as [P2 Q2]. apply fits2_lt in A1. apply fits2_lt in B1.
  split.
  - intros x X Y. apply in_map_iff in X as (s1 & <- & X), Y as (s2 & Q & Y). assert (Qs : se_next_sn s2 = se_next_sn s1) by (unfold next_key in Q; congruence).
    apply (in_map se_next_sn) in X. apply (in_map se_next_sn) in Y. destruct (P1 _ X) as (i & Li & Ei), (P2 _ Y) as (j & Lj & Ej).
    apply (sn_apart _ _ i j _ _ A1 B1 L1 L2 Li Lj). congruence.
  - intros x X Y. apply in_map_iff in X as (s1 & <- & X), Y as (s2 & Q & Y). assert (Qs : cn_sn s2 = cn_sn s1) by (unfold conn_key in Q; congruence).
    destruct (Q1 _ X) as (i & Li & Ei), (Q2 _ Y) as (j & Lj & Ej).
    apply (sn_apart _ _ i j _ _ A1 B1 L1 L2 Li Lj). congruence.
Qed.
