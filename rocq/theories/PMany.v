(** * PMany: packets of any number of items (C111), numbers of any size given to constructors. *)
From Verif Require Export PCodec2 PCodec3 PMemory.
Local Open Scope N_scope.

Lemma le2_mod n : le 2 n = le 2 (n mod 65536).
Proof. cbn [le]. f_equal; [f_equal; lia|]. f_equal. f_equal. lia. Qed.
Lemma le4_mod n : le 4 n = le 4 (n mod 4294967296).
Proof. cbn [le]. repeat (f_equal; [f_equal; lia|]). f_equal. f_equal. lia. Qed.
Lemma f2_length {A B} (P : A -> B -> Prop) xs ys : Forall2 P xs ys -> List.length xs = List.length ys.
Proof. induction 1; cbn; congruence. Qed.
Lemma len_wrapped {A} (xs : list A) : len (take (len xs mod 65536) xs) = len xs mod 65536.
Proof. rewrite len_take. pose proof (N.mod_le (len xs) 65536). lia. Qed.
Lemma cpf_wraps xs : let n := len xs mod 65536 in cpf xs = cpf (take n xs) ++ items (drop n xs).
Proof.
  cbv zeta. unfold cpf. rewrite len_wrapped, <- le2_mod, <- app_assoc. f_equal. unfold items. rewrite <- flat_map_app, take_drop. reflexivity.
Qed.
Lemma many_items m its xs : Forall2 (item_carries m) its xs -> Forall item_ok xs ->
  let n := len xs mod 65536 in
  carries m (cpf_ser its) (cpf xs) /\
  forall m' v c p0 rest, reads m' v (cpf xs ++ rest) ->
    let got := len (cpf (take n xs)) in
    exists p, cpf_deserialize m' (RBuf v c) p0 = (Ret tt, m', RBuf (view_drop v got) (c + got), p) /\
      Forall2 (item_is m') p (take n xs) /\ reads m' (view_drop v got) (items (drop n xs) ++ rest).
Proof.
  intros H O n. split; [apply cpf_carries; [assumption|apply item_ok_small, O]|]. intros m' v c p0 rest R got.
  assert (K : cpf_ok (take n xs)).
  { split; [|subst n; rewrite len_wrapped; apply N.mod_lt; discriminate]. rewrite <- (take_drop n xs) in O. apply Forall_app in O. apply O. }
  pose proof (cpf_wraps xs) as W0. cbv zeta in W0. fold n in W0. rewrite W0, <- app_assoc in R.
  destruct (cpf_packet_decode m' v c p0 _ R) as [(ys & r & p & Oy & E & X & W & D)|[N _]].
  - apply cpf_inj in E; [|assumption..]. destruct E as [<- <-]. eauto.
  - exfalso. eapply N; [exact K|reflexivity].
Qed.
Lemma items_lost m its xs : Forall2 (item_carries m) its xs -> Forall item_ok xs -> 65536 <= len xs ->
  carries m (cpf_ser its) (cpf xs) /\
  forall m' v c p0 rest, reads m' v (cpf xs ++ rest) -> exists r p, cpf_deserialize m' (RBuf v c) p0 = (Ret tt, m', r, p) /\ len p = len xs mod 65536 /\ len p < len xs.
Proof.
  intros H O L. destruct (many_items m its xs H O) as [C D]. split; [exact C|]. intros m' v c p0 rest R.
  destruct (D _ _ c p0 _ R) as (p & E & W & _). do 2 eexists. split; [exact E|]. apply f2_length in W.
  assert (Z : len p = len xs mod 65536) by (unfold len at 1; rewrite W; apply len_wrapped).
  split; [exact Z|]. rewrite Z. pose proof (N.mod_lt (len xs) 65536). lia.
Qed.
Lemma many_example : let it := it_make 0xB1 (Some (prim_ser 2 7)) in let its := repeat it (N.to_nat 65537) in let xs := repeat (0xB1, le 2 7) (N.to_nat 65537) in
  Forall2 (item_carries []) its xs /\ Forall item_ok xs /\ 65536 <= len xs.
Proof.
  cbv zeta. split; [|split].
  - assert (H : item_carries [] (it_make 0xB1 (Some (prim_ser 2 7))) (0xB1, le 2 7)) by (split; [reflexivity|apply carries_prim]).
    generalize (N.to_nat 65537). intros n. induction n; constructor; assumption.
  - generalize (N.to_nat 65537). intros n. induction n; constructor; [split; reflexivity|assumption].
  - unfold len. rewrite repeat_length, N2Nat.id. discriminate.
Qed.

(** ** Whatever the constructors are given *)
Lemma made_item m ty d bs : carries_opt m d bs -> len bs < 65536 ->
  exists wire, carries m (it_ser (it_make ty d)) wire /\
  forall m' v c i0 rest, reads m' v (wire ++ rest) -> exists r i, it_deserialize m' (RBuf v c) i0 = (Ret tt, m', r, i) /\
    it_type i = ty mod 2 ^ 16 /\ holds m' (it_data i) bs.
Proof.
  intros C L. exists (item (u16 ty, bs)). split; [apply it_carries; [split; [reflexivity|exact C]|exact L]|]. intros m' v c i0 rest R.
  assert (O : item_ok (u16 ty, bs)) by (split; [apply N.mod_lt; discriminate|exact L]).
  destruct (item_decode m' v c i0 _ R) as [(x & rs & i & Ox & E & D & [I1 I2] & _)|[N _]].
  - apply item_app_inj in E; [|assumption..]. destruct E as [<- <-]. do 2 eexists. split; [exact D|]. split; [exact I1|exact I2].
  - exfalso. eapply N; [exact O|reflexivity].
Qed.
Lemma made_address m conn seq : carries m (sa_ser (sa_make conn seq)) (seq_address conn seq) /\
  forall m' v c g0 rest, reads m' v (seq_address conn seq ++ rest) -> exists r, sa_deserialize m' (RBuf v c) g0 = (Ret tt, m', r, mkSA (conn mod 2 ^ 32) (seq mod 2 ^ 32)).
Proof.
  assert (E : seq_address conn seq = seq_address (u32 conn) (u32 seq)) by (unfold seq_address, u32; rewrite (le4_mod conn), (le4_mod seq); reflexivity).
  rewrite E. destruct (seq_address_roundtrip m (u32 conn) (u32 seq)) as (C & _ & D); [apply N.mod_lt; discriminate..|].
  split; [exact (sa_carries m (sa_make conn seq))|]. intros m' v c g0 rest R. exact (D m' v c g0 rest R).
Qed.
Lemma made_sequenced T (c : cls T) m (b : T) num s data : carries m s data -> carries m (sq_ser (sq_num (sq_make b num)) s) (le 2 num ++ data) /\
  forall m' v cnt b0 n0 rest m2 r b2, reads m' v ((le 2 num ++ data) ++ rest) -> c_des c m' (RBuf (view_drop v 2) (cnt + 2)) b0 = (Ret tt, m2, r, b2) ->
    c_des (sq_cls c) m' (RBuf v cnt) (mkSeq b0 n0 false) = (Ret tt, m2, r, mkSeq b2 (num mod 2 ^ 16) false).
Proof.
  intros C. rewrite le2_mod. split; [apply sq_carries, C|]. intros m' v cnt b0 n0 rest m2 r b2 R E.
  rewrite <- app_assoc in R. destruct (seq_decode_buffer c m' v cnt b0 n0 (u16 num) (data ++ rest)) as [H _]; [apply N.mod_lt; discriminate|exact R|].
  destruct (H _ _ _ _ E) as (f & X & Y). rewrite (Y eq_refl) in X. exact X.
Qed.
