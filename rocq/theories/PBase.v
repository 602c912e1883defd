(** Lemmas on lists, bytes and little-endian numbers. *)
From Verif Require Export Spec Serial.
From Coq Require Export ZifyBool ZifyNat ZifyN.
From Coq Require Import ZArith.
Ltac Zify.zify_post_hook ::= Z.div_mod_to_equations.

Lemma len_nil {A} : len (@nil A) = 0. Proof. reflexivity. Qed.
Lemma len_cons {A} (x : A) l : len (x :: l) = 1 + len l.
Proof. unfold len. simpl List.length. lia. Qed.
Lemma len_app {A} (a b : list A) : len (a ++ b) = len a + len b.
Proof. unfold len. rewrite app_length. lia. Qed.
Lemma len_map {A B} (f : A -> B) l : len (map f l) = len l.
Proof. unfold len. rewrite map_length. reflexivity. Qed.
Lemma len_zeros n : len (zeros n) = n.
Proof. unfold len, zeros. rewrite repeat_length. lia. Qed.
Lemma len_take {A} n (l : list A) : len (take n l) = N.min n (len l).
Proof. unfold len, take. rewrite firstn_length. lia. Qed.
Lemma len_drop {A} n (l : list A) : len (drop n l) = len l - n.
Proof. unfold len, drop. rewrite skipn_length. lia. Qed.
Lemma len_0 {A} (l : list A) : len l = 0 -> l = [].
Proof. destruct l; [auto|]. rewrite len_cons. lia. Qed.

Lemma take_app_len {A} (a b : list A) : take (len a) (a ++ b) = a.
Proof.
  unfold take, len. rewrite Nat2N.id, firstn_app, Nat.sub_diag, firstn_all. simpl. apply app_nil_r.
Qed.
Lemma drop_app_len {A} (a b : list A) : drop (len a) (a ++ b) = b.
Proof. unfold drop, len. rewrite Nat2N.id, skipn_app, Nat.sub_diag, skipn_all. reflexivity. Qed.
Lemma take_app {A} n (a b : list A) : len a = n -> take n (a ++ b) = a.
Proof. intros <-. apply take_app_len. Qed.
Lemma drop_app {A} n (a b : list A) : len a = n -> drop n (a ++ b) = b.
Proof. intros <-. apply drop_app_len. Qed.
Lemma take_app_ge {A} n (a b : list A) : len a <= n -> take n (a ++ b) = a ++ take (n - len a) b.
Proof. intros L. unfold take, len in *. rewrite firstn_app, firstn_all2 by lia. do 2 f_equal. lia. Qed.
Lemma take_app_l {A} n (a b : list A) : n <= len a -> take n (a ++ b) = take n a.
Proof. intros L. unfold take, len in *. rewrite firstn_app. replace (N.to_nat n - List.length a)%nat with 0%nat by lia. cbn. apply app_nil_r. Qed.
Lemma take_drop {A} n (l : list A) : take n l ++ drop n l = l.
Proof. apply firstn_skipn. Qed.
Lemma take_all {A} n (l : list A) : len l <= n -> take n l = l.
Proof. intros. unfold take. apply firstn_all2. unfold len in *. lia. Qed.
Lemma drop_all {A} n (l : list A) : len l <= n -> drop n l = [].
Proof. intros. unfold drop. apply skipn_all2. unfold len in *. lia. Qed.
Lemma take_0 {A} (l : list A) : take 0 l = [].
Proof. reflexivity. Qed.
Lemma drop_0 {A} (l : list A) : drop 0 l = l.
Proof. reflexivity. Qed.
Lemma drop_drop {A} a b (l : list A) : drop a (drop b l) = drop (b + a) l.
Proof.
  unfold drop. rewrite N2Nat.inj_add. generalize (N.to_nat b) as n. generalize (N.to_nat a) as k.
  intros k n. revert l. induction n as [|n IH]; intros l; [reflexivity|].
  destruct l; [rewrite !skipn_nil; reflexivity|]. apply IH.
Qed.
Lemma take_take {A} a b (l : list A) : take a (take b l) = take (N.min a b) l.
Proof. unfold take. rewrite firstn_firstn. f_equal. lia. Qed.
Lemma take_plus {A} a b (l : list A) : take (a + b) l = take a l ++ take b (drop a l).
Proof.
  unfold take, drop. rewrite N2Nat.inj_add.
  generalize (N.to_nat b) as k. generalize (N.to_nat a) as n. intros n k. revert l.
  induction n as [|n IH]; intros l; [reflexivity|]. destruct l; simpl; [rewrite firstn_nil; reflexivity|].
  f_equal. apply IH.
Qed.
Lemma take_drop_comm {A} a b (l : list A) : take a (drop b l) = drop b (take (b + a) l).
Proof.
  unfold take, drop. rewrite N2Nat.inj_add.
  generalize (N.to_nat b) as n. generalize (N.to_nat a) as k. intros k n. revert l.
  induction n as [|n IH]; intros l; [reflexivity|]. destruct l; simpl; [apply firstn_nil|]. apply IH.
Qed.
Lemma split_at {A} n (l : list A) : n <= len l -> exists a b, l = a ++ b /\ len a = n.
Proof.
  intros. exists (take n l), (drop n l). rewrite take_drop, len_take. split; [reflexivity|lia].
Qed.
Lemma app_eq_len {A} (a b c d : list A) : a ++ b = c ++ d -> len a = len c -> a = c /\ b = d.
Proof.
  intros H L. pose proof (f_equal (take (len a)) H) as H1. rewrite take_app_len, L, take_app_len in H1.
  pose proof (f_equal (drop (len a)) H) as H2. rewrite drop_app_len, L, drop_app_len in H2. auto.
Qed.

(** Bytes *)
Lemma to_N_lt b : Byte.to_N b < 256.
Proof. pose proof (Byte.to_N_bounded b). lia. Qed.
Lemma octet_to_N b : octet (Byte.to_N b) = b.
Proof. unfold octet. rewrite Byte.of_to_N. reflexivity. Qed.
Lemma to_N_octet n : n < 256 -> Byte.to_N (octet n) = n.
Proof.
  intros H. unfold octet. destruct (Byte.of_N n) eqn:E.
  - apply Byte.to_of_N_iff in E. auto.
  - apply Byte.of_N_None_iff in E. lia.
Qed.
Lemma byte_of_octet n : byte_of n = octet (n mod 256).
Proof. reflexivity. Qed.
Lemma octet_inj a b : a < 256 -> b < 256 -> octet a = octet b -> a = b.
Proof. intros Ha Hb H. rewrite <- (to_N_octet a Ha), <- (to_N_octet b Hb), H. reflexivity. Qed.

(** Little endian *)
Lemma len_le k v : len (le k v) = N.of_nat k.
Proof. revert v. induction k; intros v; [reflexivity|]. cbn [le]. rewrite len_cons, IHk. lia. Qed.

Lemma pow256_pos k : 0 < 256 ^ N.of_nat k.
Proof. apply N.neq_0_lt_0, N.pow_nonzero. discriminate. Qed.
Lemma pow256_S k : 256 ^ N.of_nat (S k) = 256 * 256 ^ N.of_nat k.
Proof. rewrite Nat2N.inj_succ, N.pow_succ_r'. reflexivity. Qed.

Lemma num_le k v : fits k v -> num (le k v) = v.
Proof.
  unfold fits. revert v. induction k; intros v H.
  - cbn in *. lia.
  - cbn [le num]. rewrite to_N_octet by (apply N.mod_lt; discriminate).
    rewrite pow256_S in H. rewrite IHk.
    + rewrite N.add_comm. symmetry. apply N.div_mod'.
    + apply N.div_lt_upper_bound; [discriminate|]. assumption.
Qed.
Lemma num_bound bs : num bs < 256 ^ len bs.
Proof.
  unfold len. induction bs as [|b bs IH]; [cbn; lia|]. cbn [num List.length].
  rewrite pow256_S. pose proof (to_N_lt b). nia.
Qed.
Lemma le_num bs : le (List.length bs) (num bs) = bs.
Proof.
  induction bs as [|b bs IH]; [reflexivity|]. cbn [num List.length le].
  pose proof (to_N_lt b) as Hb.
  replace ((Byte.to_N b + 256 * num bs) mod 256) with (Byte.to_N b).
  - rewrite octet_to_N. f_equal.
    replace ((Byte.to_N b + 256 * num bs) / 256) with (num bs); [exact IH|].
    rewrite N.mul_comm, N.div_add by discriminate. rewrite N.div_small by assumption. lia.
  - rewrite N.mul_comm, N.mod_add by discriminate. rewrite N.mod_small by assumption. reflexivity.
Qed.
Lemma le_num_k k bs : len bs = N.of_nat k -> le k (num bs) = bs.
Proof. intros H. replace k with (List.length bs) by (unfold len in H; lia). apply le_num. Qed.
Lemma fits_num k bs : len bs = N.of_nat k -> fits k (num bs).
Proof. intros H. unfold fits. rewrite <- H. apply num_bound. Qed.
Lemma le_inj k a b : fits k a -> fits k b -> le k a = le k b -> a = b.
Proof. intros Ha Hb H. rewrite <- (num_le k a Ha), <- (num_le k b Hb), H. reflexivity. Qed.

Lemma host_bytes_le k v : host_bytes k v = le k v.
Proof.
  unfold host_bytes.
  assert (H : forall s u, map (fun i => byte_of (N.shiftr u (8 * N.of_nat i))) (seq s k)
                          = le k (N.shiftr u (8 * N.of_nat s))).
  { induction k as [|k IH]; intros s u; [reflexivity|]. cbn [seq map le]. rewrite byte_of_octet. f_equal.
    rewrite IH. f_equal. change 256 with (2 ^ 8). rewrite <- N.shiftr_div_pow2, N.shiftr_shiftr.
    f_equal. lia. }
  rewrite (H O v). change (8 * N.of_nat 0) with 0. rewrite N.shiftr_0_r. reflexivity.
Qed.
Lemma lor_shift8 a x : a < 256 -> N.lor a (N.shiftl x 8) = a + 256 * x.
Proof.
  intros H. replace (N.shiftl x 8) with (256 * x) by (rewrite N.shiftl_mul_pow2; change (2^8) with 256; lia).
  rewrite N.add_nocarry_lxor.
  - symmetry. apply N.lxor_lor.
    apply N.bits_inj. intros n. rewrite N.land_spec, N.bits_0.
    destruct (N.lt_ge_cases n 8).
    + replace (256 * x) with (x * 2 ^ 8) by (change (2^8) with 256; lia).
      rewrite N.mul_pow2_bits_low by assumption. apply andb_false_r.
    + rewrite (N.bits_above_log2 a); [reflexivity|].
      destruct (N.eq_dec a 0) as [->|Hz]; [cbn; lia|].
      apply N.log2_lt_pow2; [lia|]. apply N.lt_le_trans with 256; [assumption|].
      change 256 with (2 ^ 8). apply N.pow_le_mono_r; [discriminate|assumption].
  - apply N.bits_inj. intros n. rewrite N.land_spec, N.bits_0.
    destruct (N.lt_ge_cases n 8).
    + replace (256 * x) with (x * 2 ^ 8) by (change (2^8) with 256; lia).
      rewrite N.mul_pow2_bits_low by assumption. apply andb_false_r.
    + rewrite (N.bits_above_log2 a); [reflexivity|].
      destruct (N.eq_dec a 0) as [->|Hz]; [cbn; lia|].
      apply N.log2_lt_pow2; [lia|]. apply N.lt_le_trans with 256; [assumption|].
      change 256 with (2 ^ 8). apply N.pow_le_mono_r; [discriminate|assumption].
Qed.
Lemma host_value_num bs : host_value bs = num bs.
Proof.
  unfold host_value. induction bs as [|b bs IH]; [reflexivity|]. cbn [fold_right num]. rewrite IH.
  apply lor_shift8, to_N_lt.
Qed.
Lemma len_host_bytes k v : len (host_bytes k v) = N.of_nat k.
Proof. rewrite host_bytes_le. apply len_le. Qed.
