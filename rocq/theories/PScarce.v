(** * PScarce: decoding when memory runs out (C128). *)
From Verif Require Export Vocab32 PFresh4 PLife.
Local Open Scope N_scope.

Definition thrown {A} (o : outcome A) : bool := match o with Throw _ _ => true | _ => false end.
(** Reads: memory is as before, the reader is of the same kind, and only buffers raise. *)
Definition mild {T A} (x : D T A) : Prop := forall m r t o m' r' t', x m r t = (o, m', r', t') ->
  m' = m /\ from_buffer r' = from_buffer r /\ (thrown o = true -> from_buffer r = true).
Lemma mild_raw {T} n (get : T -> list byte) set : mild (rd_raw n get set).
Proof.
  intros m [v c|d p f] t o m' r' t'; cbn [rd_raw].
  - destruct (_ <? _); [|destruct (load _ _ _ _)]; intros H; injection H as <- <- <- <-; auto.
  - unfold str_read. destruct f; intros H; injection H as <- <- <- <-; split; [reflexivity|split; [reflexivity|discriminate]|reflexivity|split; [reflexivity|discriminate]].
Qed.
Lemma mild_local {T} k : mild (@rd_local T k).
Proof.
  intros m [v c|d p f] t o m' r' t'; cbn [rd_local].
  - destruct (_ <? _); [|destruct (load _ _ _ _)]; intros H; injection H as <- <- <- <-; auto.
  - unfold str_read. destruct f; destruct (_ <? _); intros H; injection H as <- <- <- <-; (split; [reflexivity|split; [reflexivity|discriminate]]).
Qed.
Lemma mild_bind {T A B} (x : D T A) (k : A -> D T B) : mild x -> (forall a, mild (k a)) -> mild (dbind x k).
Proof.
  intros X K m r t o m' r' t'. unfold dbind. destruct (x m r t) as [[[o1 m1] r1] t1] eqn:E. destruct (X _ _ _ _ _ _ _ E) as (-> & R & Th). destruct o1 as [a|e s|u|].
  - intros H. destruct (K _ _ _ _ _ _ _ _ H) as (-> & R2 & Th2). rewrite R in *. auto.
  - intros H; injection H as <- <- <- <-. auto.
  - intros H; injection H as <- <- <- <-. split; [reflexivity|split; [exact R|discriminate]].
  - intros H; injection H as <- <- <- <-. split; [reflexivity|split; [exact R|discriminate]].
Qed.
Lemma mild_zoom {T U A} (get : T -> U) put (x : D U A) : mild x -> mild (dzoom get put x).
Proof. intros X m r t o m' r' t'. unfold dzoom. destruct (x m r (get t)) as [[[o1 m1] r1] t1] eqn:E. intros H; injection H as <- <- <- <-. exact (X _ _ _ _ _ _ _ E). Qed.
Lemma mild_hdr : mild hdr_deserialize.
Proof. unfold hdr_deserialize, rd_uint. repeat (apply mild_bind; [apply mild_raw|intros _]). apply mild_raw. Qed.

(** The data of a message: a view, a new block, or an exception of a buffer. *)
Definition fetched (m : heap) (r : reader) (n : N) (o : outcome sbuf) (m' : heap) : Prop :=
  (exists v, o = Ret (sb_of_view v) /\ m' = m /\ from_buffer r = true) \/
  (exists bs, len bs = n /\ o = Ret (mkSB (mkV (List.length m) 0 n) (Some (List.length m))) /\ m' = m ++ [Some bs] /\ from_buffer r = false) \/
  (exists c s, o = Throw c s /\ m' = m /\ from_buffer r = true).
Lemma local_o {T} su n m r (t : T) : 0 < n ->
  (exists o m' r', dlocal sb_empty (sb_deserialize_len n) m r t = (o, m', r', t) /\ dlocal sb_empty (sb_deserialize_len_o su n) m r t = (o, m', r', t) /\ from_buffer r' = from_buffer r /\ fetched m r n o m') \/
  (dlocal sb_empty (sb_deserialize_len_o su n) m r t = (bad_alloc, m, r, t) /\ su_bytes su m r n = false).
Proof.
  intros Z. assert (Z2 : (n =? 0) = false) by (apply N.eqb_neq; lia). destruct r as [v c|d p f].
  - left. unfold dlocal, sb_deserialize_len, sb_deserialize_len_o, rd_is_buffer, dbind. unfold sb_delete, dbind, dget. cbn [sb_empty sb_alloc]. unfold dret, rd_view. destruct (_ <? _).
    + do 3 eexists. split; [reflexivity|]. split; [reflexivity|]. split; [reflexivity|]. right; right. do 2 eexists. split; [reflexivity|]. split; reflexivity.
    + do 3 eexists. split; [reflexivity|]. split; [reflexivity|]. split; [reflexivity|]. left. eexists. split; [reflexivity|split; reflexivity].
  - destruct (su_bytes su m (RStr d p f) n) eqn:K.
    + left.
      assert (X : exists bs p' f', len bs = n /\ rd_into (T := sbuf) (mkV (List.length m) 0 n) (m ++ [Some (zeros n)]) (RStr d p f) (mkSB (mkV (List.length m) 0 n) (Some (List.length m)))
        = (Ret tt, m ++ [Some bs], RStr d p' f', mkSB (mkV (List.length m) 0 n) (Some (List.length m)))).
      { unfold rd_into. cbn [v_len v_blk v_off]. unfold str_read. destruct f.
        - unfold store. change (len [] =? 0) with true. cbv iota. do 3 eexists. split; [apply len_zeros|reflexivity].
        - set (got := take n (drop p d)). assert (G : len got <= n) by (unfold got; rewrite len_take; lia). unfold store. destruct (len got =? 0) eqn:Q.
          + do 3 eexists. split; [apply len_zeros|reflexivity].
          + rewrite nth_error_app_end, len_zeros. replace (0 + len got <=? n) with true by (symmetry; apply N.leb_le; lia). rewrite list_set_app_end.
            do 3 eexists. split; [|reflexivity]. change (take 0 (zeros n)) with (@nil byte). cbn [app]. rewrite len_app, len_drop, len_zeros. lia. }
      destruct X as (bs & p' & f' & L & X).
      unfold dlocal, sb_deserialize_len, sb_deserialize_len_o, rd_is_buffer, dbind, dget. cbn [sb_empty null_view sb_data v_len]. rewrite Z2.
      unfold sb_delete, dbind, dget, dret, need. cbn [sb_empty sb_alloc]. cbv beta iota. rewrite K. unfold d_alloc, alloc, dmod. cbn [sb_data]. rewrite X.
      do 3 eexists. split; [reflexivity|]. split; [reflexivity|]. split; [reflexivity|]. right; left. exists bs. split; [exact L|]. split; [reflexivity|]. split; reflexivity.
    + right. unfold dlocal, sb_deserialize_len_o, rd_is_buffer, dbind, dget. cbn [sb_empty null_view sb_data v_len]. rewrite Z2.
      unfold sb_delete, dbind, dget, dret, need. cbn [sb_empty sb_alloc]. cbv beta iota. rewrite K. split; reflexivity.
Qed.
Lemma no_bytes su m r n : 0 < n -> su_bytes su m r n = false -> refuses su.
Proof. intros P K. left. exists m, r, n. split; assumption. Qed.
Lemma no_object su m r : su_object su m r = false -> refuses su.
Proof. intros K. right; left. exists m, r. exact K. Qed.
Lemma no_place su m r l : su_place su m r l = false -> refuses su.
Proof. intros K. right; right. exists m, r, l. exact K. Qed.

(** ** Packets *)
Lemma packet_o su m r x :
  ep_deserialize_o su m r x = ep_deserialize m r x \/
  exists r' x', ep_deserialize_o su m r x = (bad_alloc, m, r', x') /\ ep_payload x' = ep_payload x /\ refuses su.
Proof.
  unfold ep_deserialize, ep_deserialize_o. unfold dbind, dget. destruct (dzoom ep_header ep_set_header hdr_deserialize m r x) as [[[o1 m1] r1] x1] eqn:E.
  destruct (mild_zoom _ _ _ mild_hdr _ _ _ _ _ _ _ E) as (-> & R & _). assert (P : ep_payload x1 = ep_payload x).
  { revert E. unfold dzoom. destruct (hdr_deserialize m r (ep_header x)) as [[[? ?] ?] ?]. intros H; injection H as _ _ _ <-. reflexivity. }
  destruct o1 as [[]|e s|u|]; try (left; reflexivity). destruct (N.ltb_spec 0 (h_length (ep_header x1))) as [Lt|Ge]; [|left; reflexivity].
  unfold need. destruct (su_object su m r1) eqn:O; [|right; exists r1, x1; split; [reflexivity|]; split; [exact P|exact (no_object _ _ _ O)]].
  destruct (local_o su (h_length (ep_header x1)) m r1 x1 Lt) as [(o & m' & r' & -> & -> & _ & _)|[-> K]]; [left; reflexivity|].
  right. exists r1, x1. split; [reflexivity|]. split; [exact P|exact (no_bytes _ _ _ _ Lt K)].
Qed.
Lemma packet_len_o su n m r x :
  ep_deserialize_len_o su n m r x = ep_deserialize_len n m r x \/
  exists r' x', ep_deserialize_len_o su n m r x = (bad_alloc, m, r', x') /\ kept_or_empty (ep_payload x) (ep_payload x') /\ refuses su.
Proof.
  unfold ep_deserialize_len, ep_deserialize_len_o. destruct (n <? _); [left; reflexivity|]. unfold dbind, dget. destruct (dzoom ep_header ep_set_header hdr_deserialize m r x) as [[[o1 m1] r1] x1] eqn:E.
  destruct (mild_zoom _ _ _ mild_hdr _ _ _ _ _ _ _ E) as (-> & R & _). assert (P : ep_payload x1 = ep_payload x).
  { revert E. unfold dzoom. destruct (hdr_deserialize m r (ep_header x)) as [[[? ?] ?] ?]. intros H; injection H as _ _ _ <-. reflexivity. }
  destruct o1 as [[]|e s|u|]; try (left; reflexivity). destruct (negb _); [left; reflexivity|]. destruct (N.ltb_spec 0 (h_length (ep_header x1))) as [Lt|Ge]; [|left; reflexivity].
  unfold need. destruct (su_object su m r1) eqn:O; [|right; exists r1, x1; split; [reflexivity|]; split; [left; exact P|exact (no_object _ _ _ O)]].
  unfold dmod. set (x2 := ep_set_payload_field _ x1). destruct (local_o su (h_length (ep_header x1)) m r1 x2 Lt) as [(o & m' & r' & -> & -> & _ & _)|[-> K]]; [left; reflexivity|].
  right. exists r1, x2. split; [reflexivity|]. split; [right; reflexivity|exact (no_bytes _ _ _ _ Lt K)].
Qed.

(** ** Items *)
Definition made (m : heap) (o : outcome unit) (m' : heap) (r : reader) (i : cpf_item) : Prop :=
  (o = Ret tt -> exists bs, m' = m ++ map Some bs /\ own_blocks (from_buffer r) (List.length m) bs [i] /\ (from_buffer r = true -> bs = [])) /\
  (thrown o = true -> m' = m /\ from_buffer r = true).
Lemma item_o su m r x :
  (exists o m' r' i, it_deserialize_o su m r x = (o, m', r', i) /\ it_deserialize m r x = (o, m', r', i) /\ from_buffer r' = from_buffer r /\ made m o m' r i) \/
  (exists r' x', it_deserialize_o su m r x = (bad_alloc, m, r', x') /\ kept_or_empty (it_data x) (it_data x') /\ refuses su).
Proof.
  unfold it_deserialize, it_deserialize_o, it_deserializeData. unfold dbind. destruct (rd_uint 2 it_type it_set_type m r x) as [[[o1 m1] r1] x1] eqn:E.
  destruct (mild_raw _ _ _ _ _ _ _ _ _ _ E) as (-> & R1 & T1). assert (P : it_data x1 = it_data x).
  { revert E. unfold rd_uint, rd_raw. destruct r; [destruct (_ <? _); [|destruct (load _ _ _ _)]|destruct (str_read _ _ _ _)]; intros H; apply (f_equal snd) in H; cbn [snd] in H; subst; reflexivity. }
  destruct o1 as [[]|e s|u|]; try (left; do 4 eexists; split; [reflexivity|]; split; [reflexivity|]; split; [exact R1|]; split; [discriminate|]; first [discriminate|intros _; split; [reflexivity|exact (T1 eq_refl)]]).
  destruct (rd_local 2 m r1 x1) as [[[o2 m2] r2] x2] eqn:E2. destruct (mild_local _ _ _ _ _ _ _ _ E2) as (-> & R2 & T2). rewrite R1 in R2, T2.
  assert (P2 : x2 = x1). { revert E2. unfold rd_local. destruct r1; [destruct (_ <? _); [|destruct (load _ _ _ _)]|destruct (str_read _ _ _ _); destruct (_ <? _)]; intros H; apply (f_equal snd) in H; cbn [snd] in H; subst; reflexivity. }
  destruct o2 as [n|e s|u|]; try (left; do 4 eexists; split; [reflexivity|]; split; [reflexivity|]; split; [exact R2|]; split; [discriminate|]; first [discriminate|intros _; split; [reflexivity|exact (T2 eq_refl)]]).
  destruct (N.ltb_spec 0 n) as [Lt|Ge].
  - unfold need. destruct (su_object su m r2) eqn:O; [|right; exists r2, x2; split; [reflexivity|]; split; [left; congruence|exact (no_object _ _ _ O)]].
    unfold dmod. set (x3 := it_set_data _ x2). destruct (local_o su n m r2 x3 Lt) as [(o & m' & r' & -> & -> & R3 & F)|[-> K]].
    + left. destruct F as [(v & -> & -> & Bk)|[(bs & L & -> & -> & Bk)|(c & s & -> & -> & Bk)]]; do 4 eexists; (split; [reflexivity|]; split; [reflexivity|]; split; [congruence|]; split; [try discriminate|try discriminate]).
      * intros _. exists []. split; [symmetry; apply app_nil_r|]. split; [apply ob_view; [congruence|constructor]|reflexivity].
      * intros _. exists [bs]. split; [reflexivity|]. split; [rewrite <- L; apply ob_data; constructor|]. rewrite R2 in Bk. rewrite Bk. discriminate.
      * intros _. split; [reflexivity|]. congruence.
    + right. exists r2, x3. split; [reflexivity|]. split; [right; reflexivity|exact (no_bytes _ _ _ _ Lt K)].
  - left. unfold dmod. do 4 eexists. split; [reflexivity|]. split; [reflexivity|]. split; [exact R2|]. split; [|discriminate].
    intros _. exists []. split; [symmetry; apply app_nil_r|]. split; [apply ob_plain; constructor|reflexivity].
Qed.
Lemma ob_join q b bs l cs k : own_blocks q b bs l -> own_blocks q (b + List.length bs) cs k -> own_blocks q b (bs ++ cs) (l ++ k).
Proof.
  induction 1 as [b|b bs l t H IH|b bs l t v Vk H IH|b y bs l t H IH]; intros K; cbn [app List.length] in *.
  - rewrite PeanoNat.Nat.add_0_r in K. exact K.
  - apply ob_plain. exact (IH K).
  - apply ob_view; [exact Vk|exact (IH K)].
  - apply ob_data. apply IH. cbn. rewrite PeanoNat.Nat.add_succ_r in K. exact K.
Qed.
Lemma set_mid {A} (a : list A) x y c : list_set (a ++ x :: c) (List.length a) y = a ++ y :: c.
Proof. induction a as [|z a IH]; [reflexivity|]. cbn. rewrite IH. reflexivity. Qed.
Lemma nth_mid {A} (a : list A) x c : nth_error (a ++ x :: c) (List.length a) = Some x.
Proof. induction a as [|z a IH]; [reflexivity|exact IH]. Qed.
(** They can be destroyed. *)
Lemma own_end q b bs l : own_blocks q b bs l -> forall m z, List.length m = b -> cpf_destroy (m ++ map Some bs ++ z) l = (Ret tt, m ++ given_back bs ++ z).
Proof.
  induction 1 as [b|b bs l t H IH|b bs l t v Vk H IH|b x bs l t H IH]; intros m z L.
  - reflexivity.
  - cbn [cpf_destroy it_data drop_data]. apply IH. exact L.
  - cbn [cpf_destroy it_data drop_data s_sbuf ser_of_sbuf]. unfold sb_destroy. cbn [sb_alloc sb_of_view]. apply IH. exact L.
  - cbn [cpf_destroy it_data drop_data s_sbuf ser_of_sbuf map given_back app]. unfold sb_destroy, free. cbn [sb_alloc]. subst b. rewrite nth_mid, set_mid.
    specialize (IH (m ++ [None]) z). rewrite <- !app_assoc in IH. cbn [app] in IH. rewrite IH; [reflexivity|]. rewrite app_length. cbn. lia.
Qed.
Lemma own_dropped {T} q b bs l : own_blocks q b bs l -> forall m z r (t : T), List.length m = b -> d_drop_items l (m ++ map Some bs ++ z) r t = (Ret tt, m ++ given_back bs ++ z, r, t).
Proof.
  induction 1 as [b|b bs l t0 H IH|b bs l t0 v Vk H IH|b x bs l t0 H IH]; intros m z r t L.
  - reflexivity.
  - cbn [d_drop_items it_data d_drop]. unfold dbind, dret. apply IH. exact L.
  - cbn [d_drop_items it_data d_drop s_sbuf ser_of_sbuf sb_alloc sb_of_view]. unfold dbind, dret. apply IH. exact L.
  - cbn [d_drop_items it_data d_drop s_sbuf ser_of_sbuf map given_back sb_alloc app]. unfold dbind, d_free, free. subst b. rewrite nth_mid, set_mid.
    specialize (IH (m ++ [None]) z r t). rewrite <- !app_assoc in IH. cbn [app] in IH. rewrite IH; [reflexivity|]. rewrite app_length. cbn. lia.
Qed.
(** What a list of items is after a decode, and after one that found no memory. *)
Definition listed (m : heap) (o : outcome unit) (m' : heap) (k : bool) (l : cpf_packet) : Prop :=
  (o = Ret tt -> exists bs, m' = m ++ map Some bs /\ own_blocks k (List.length m) bs l) /\
  (thrown o = true -> m' = m /\ own_blocks k (List.length m) [] l).

Lemma loop_o su n m0 : forall r bs l, own_blocks (from_buffer r) (List.length m0) bs l -> (from_buffer r = true -> bs = []) ->
  (exists o m' r' l', cpf_loop_o su n (m0 ++ map Some bs) r l = (o, m', r', l') /\ cpf_loop n (m0 ++ map Some bs) r l = (o, m', r', l') /\ listed m0 o m' (from_buffer r) l') \/
  exists r' bs' z l', cpf_loop_o su n (m0 ++ map Some bs) r l = (bad_alloc, m0 ++ map Some bs' ++ z, r', l') /\ own_blocks (from_buffer r) (List.length m0) bs' l' /\ spare z /\ refuses su.
Proof.
  induction n as [|n IH]; intros r bs l H Hb; cbn [cpf_loop cpf_loop_o].
  { left. do 4 eexists. split; [reflexivity|]. split; [reflexivity|]. split; [|discriminate]. intros _. exists bs. split; [reflexivity|exact H]. }
  unfold dbind, dlocal.
  destruct (item_o su (m0 ++ map Some bs) r it_null) as [(o & m' & r' & i & -> & -> & R & Mr & Mt)|(r' & x' & -> & _ & K)].
  - destruct o as [[]|e s|u|].
    + destruct (Mr eq_refl) as (cs & -> & Oc & Cb). rewrite app_length, map_length in Oc. pose proof (ob_join _ _ _ _ _ _ H Oc) as J.
      rewrite <- app_assoc, <- map_app. unfold push_o, dmod. destruct (su_place su _ r' l) eqn:Pl.
      * assert (Jb : from_buffer r' = true -> bs ++ cs = []) by (rewrite R; intros Q; rewrite (Hb Q), (Cb Q); reflexivity).
        rewrite <- R in J. specialize (IH r' (bs ++ cs) (l ++ [i]) J Jb). rewrite R in IH. destruct IH as [(o & m' & r2 & l' & E1 & E2 & Ls & Lt)|(r2 & bs' & z & l' & E1 & O2 & Z & K)].
        -- left. exists o, m', r2, l'. split; [exact E1|]. split; [exact E2|]. split; assumption.
        -- right. exists r2, bs', z, l'. split; [exact E1|]. split; [exact O2|]. split; assumption.
      * right. rewrite map_app.
        assert (Dr : exists z, spare z /\ @d_drop cpf_packet (it_data i) (m0 ++ map Some bs ++ map Some cs) r' l = (Ret tt, m0 ++ map Some bs ++ z, r', l)).
        { inversion Oc as [|b0 b1 l0 ty O0|b0 b1 l0 ty v V0 O0|b0 x b1 l0 ty O0]; subst; inversion O0; subst.
          - exists []. split; [left; reflexivity|reflexivity].
          - exists []. split; [left; reflexivity|reflexivity].
          - exists [None]. split; [right; reflexivity|]. cbn [it_data d_drop s_sbuf ser_of_sbuf sb_alloc map]. unfold d_free, free.
            rewrite app_assoc. replace (List.length m0 + List.length bs)%nat with (List.length (m0 ++ map Some bs)) by (rewrite app_length, map_length; reflexivity).
            rewrite nth_mid, set_mid, <- app_assoc. reflexivity. }
        destruct Dr as (z & Z & Dr). unfold dbind. rewrite Dr. unfold d_outcome. exists r', bs, z, l. split; [reflexivity|]. split; [exact H|]. split; [exact Z|exact (no_place _ _ _ _ Pl)].
    + left. do 4 eexists. split; [reflexivity|]. split; [reflexivity|]. split; [discriminate|]. intros _. destruct (Mt eq_refl) as [-> Q]. rewrite (Hb Q) in *. split; [apply app_nil_r|exact H].
    + left. do 4 eexists. split; [reflexivity|]. split; [reflexivity|]. split; discriminate.
    + left. do 4 eexists. split; [reflexivity|]. split; [reflexivity|]. split; discriminate.
  - right. exists r', bs, [], l. rewrite app_nil_r. split; [reflexivity|]. split; [exact H|]. split; [left; reflexivity|exact K].
Qed.
Lemma items_both su m r x :
  (exists o m' r' l', cpf_deserialize_o su m r x = (o, m', r', l') /\ cpf_deserialize m r x = (o, m', r', l') /\ listed m o m' (from_buffer r) l') \/
  exists r' bs' z l', cpf_deserialize_o su m r x = (bad_alloc, m ++ map Some bs' ++ z, r', l') /\ own_blocks (from_buffer r) (List.length m) bs' l' /\ spare z /\ refuses su.
Proof.
  unfold cpf_deserialize, cpf_deserialize_o, dbind. unfold dmod. destruct (@rd_local cpf_packet 2 m r []) as [[[o2 m2] r2] x2] eqn:E2.
  destruct (mild_local _ _ _ _ _ _ _ _ E2) as (-> & R2 & T2).
  assert (P2 : x2 = []). { revert E2. unfold rd_local. destruct r; [destruct (_ <? _); [|destruct (load _ _ _ _)]|destruct (str_read _ _ _ _); destruct (_ <? _)]; intros H; apply (f_equal snd) in H; cbn [snd] in H; subst; reflexivity. }
  subst x2. destruct o2 as [n|e q|ub|].
  - pose proof (loop_o su (N.to_nat n) m r2 [] [] (ob_none _ _) (fun _ => eq_refl)) as Q. cbn [map] in Q. rewrite app_nil_r, R2 in Q. exact Q.
  - left. do 4 eexists. split; [reflexivity|]. split; [reflexivity|]. split; [discriminate|]. intros _. split; [reflexivity|constructor].
  - left. do 4 eexists. split; [reflexivity|]. split; [reflexivity|]. split; discriminate.
  - left. do 4 eexists. split; [reflexivity|]. split; [reflexivity|]. split; discriminate.
Qed.
Lemma items_end_o su m r x :
  cpf_deserialize_o su m r x = cpf_deserialize m r x \/
  exists r' bs z x', cpf_deserialize_o su m r x = (bad_alloc, m ++ map Some bs ++ z, r', x') /\ own_blocks (from_buffer r) (List.length m) bs x' /\ spare z /\
    cpf_destroy (m ++ map Some bs ++ z) x' = (Ret tt, m ++ given_back bs ++ z) /\ refuses su.
Proof.
  destruct (items_both su m r x) as [(o & m' & r' & l' & -> & -> & _)|(r' & bs & z & l' & E & O & Z & K)]; [left; reflexivity|right].
  exists r', bs, z, l'. split; [exact E|]. split; [exact O|]. split; [exact Z|]. split; [exact (own_end _ _ _ _ O m z eq_refl)|exact K].
Qed.

(** ** Router replies *)
Lemma bind_eq {T A B} (x : D T A) (k : A -> D T B) m r t : dbind x k m r t =
  match x m r t with (Ret a, m', r', t') => k a m' r' t' | (Throw c s, m', r', t') => (Throw c s, m', r', t') | (Undef u, m', r', t') => (Undef u, m', r', t') | (Stuck, m', r', t') => (Stuck, m', r', t') end.
Proof. reflexivity. Qed.
Lemma dmod_eq {T} (f : T -> T) m r t : dmod f m r t = (Ret tt, m, r, f t).
Proof. reflexivity. Qed.
Lemma dget_eq {T} m r (t : T) : dget m r t = (Ret t, m, r, t).
Proof. reflexivity. Qed.
Lemma at_eq {T A} (l : list A) i m r (t : T) : d_at l i m r t = match nth_error l i with Some x => (Ret x, m, r, t) | None => (Throw OutOfRange "vector::_M_range_check", m, r, t) end.
Proof. unfold d_at. destruct (nth_error l i); reflexivity. Qed.
Lemma read_o su n m r t :
  (exists o m' r', ms_readData_o su n m r t = (o, m', r', t) /\ ms_readData n m r t = (o, m', r', t) /\ from_buffer r' = from_buffer r /\
     (forall d, o = Ret d -> exists bs, m' = m ++ map Some bs /\ own_blocks (from_buffer r) (List.length m) bs [mkItem 0 d] /\ (from_buffer r = true -> bs = []))) \/
  (ms_readData_o su n m r t = (bad_alloc, m, r, t) /\ refuses su).
Proof.
  unfold ms_readData, ms_readData_o. destruct (positive_int n) as [i|] eqn:P.
  - assert (Lt : 0 < i). { revert P. unfold positive_int. destruct (N.ltb_spec 0 (n mod 4294967296)); [|discriminate]. destruct (_ <? _); [|discriminate]. intros Q; injection Q as <-. assumption. }
    rewrite !bind_eq. unfold need. destruct (su_object su m r) eqn:O; [|right; split; [reflexivity|exact (no_object _ _ _ O)]]. rewrite bind_eq.
    destruct (local_o su i m r t Lt) as [(o & m' & r' & -> & -> & R & F)|[-> K]]; [left|right; split; [reflexivity|exact (no_bytes _ _ _ _ Lt K)]].
    destruct F as [(v & -> & -> & Bk)|[(bs & L & -> & -> & Bk)|(c & s & -> & -> & Bk)]]; unfold dret; do 3 eexists; (split; [reflexivity|]; split; [reflexivity|]; split; [exact R|]); intros d Q; try discriminate; injection Q as <-.
    + exists []. split; [symmetry; apply app_nil_r|]. split; [apply ob_view; [congruence|constructor]|reflexivity].
    + exists [bs]. split; [reflexivity|]. split; [rewrite <- L; apply ob_data; constructor|]. rewrite Bk. discriminate.
  - left. unfold dret. do 3 eexists. split; [reflexivity|]. split; [reflexivity|]. split; [reflexivity|]. intros d Q; injection Q as <-. exists []. split; [symmetry; apply app_nil_r|]. split; [apply ob_plain; constructor|reflexivity].
Qed.
Lemma router_o su n m r x :
  ms_deserialize_len_o su n m r x = ms_deserialize_len n m r x \/
  exists r' bs x', ms_deserialize_len_o su n m r x = (bad_alloc, m ++ map Some bs, r', x') /\ ms_data x' = ms_data x /\
    (bs = [] /\ ms_additional x' = ms_additional x \/ own_blocks (from_buffer r) (List.length m) bs [mkItem 0 (ms_additional x')]) /\ (from_buffer r = true -> bs = []) /\ refuses su.
Proof.
  assert (R : forall (get : mr_response -> N) set (k h : unit -> D mr_response unit) m r x,
    (forall v y, ms_data (set v y) = ms_data y /\ ms_additional (set v y) = ms_additional y) ->
    (forall r1 x1, ms_data x1 = ms_data x -> ms_additional x1 = ms_additional x -> from_buffer r1 = from_buffer r ->
       k tt m r1 x1 = h tt m r1 x1 \/ exists r' bs x', k tt m r1 x1 = (bad_alloc, m ++ map Some bs, r', x') /\ ms_data x' = ms_data x /\
         (bs = [] /\ ms_additional x' = ms_additional x \/ own_blocks (from_buffer r) (List.length m) bs [mkItem 0 (ms_additional x')]) /\ (from_buffer r = true -> bs = []) /\ refuses su) ->
    dbind (rd_uint 1 get set) k m r x = dbind (rd_uint 1 get set) h m r x \/ exists r' bs x', dbind (rd_uint 1 get set) k m r x = (bad_alloc, m ++ map Some bs, r', x') /\ ms_data x' = ms_data x /\
         (bs = [] /\ ms_additional x' = ms_additional x \/ own_blocks (from_buffer r) (List.length m) bs [mkItem 0 (ms_additional x')]) /\ (from_buffer r = true -> bs = []) /\ refuses su).
  { intros get set k h m0 r0 x0 St K. rewrite !bind_eq. unfold rd_uint. destruct (rd_raw _ _ _ m0 r0 x0) as [[[o1 m1] r1] x1] eqn:E. destruct (mild_raw _ _ _ _ _ _ _ _ _ _ E) as (-> & R1 & _).
    assert (Q : ms_data x1 = ms_data x0 /\ ms_additional x1 = ms_additional x0).
    { revert E. unfold rd_raw. destruct r0; [destruct (_ <? _); [|destruct (load _ _ _ _)]|destruct (str_read _ _ _ _)]; intros H; apply (f_equal snd) in H; cbn [snd] in H; subst; auto. }
    destruct Q as [Q1 Q2]. destruct o1 as [[]|e s|u|]; try (left; reflexivity). exact (K r1 x1 Q1 Q2 R1). }
  unfold ms_deserialize_len, ms_deserialize_len_o.
  apply R; [intros v y; split; reflexivity|]. intros r1 x1 D1 A1 B1. rewrite <- B1, <- D1, <- A1. apply R; [intros v y; split; reflexivity|]. intros r2 x2 D2 A2 B2. rewrite <- B2, <- D2, <- A2. apply R; [intros v y; split; reflexivity|].
  intros r3 x3 D3 A3 B3. rewrite <- B3, <- D3, <- A3. clear R B1 D1 A1 B2 D2 A2 B3 D3 A3. rewrite !bind_eq.
  destruct (rd_local 1 m r3 x3) as [[[o4 m4] r4] x4] eqn:E4. destruct (mild_local _ _ _ _ _ _ _ _ E4) as (-> & R4 & _).
  assert (P4 : x4 = x3). { revert E4. unfold rd_local. destruct r3; [destruct (_ <? _); [|destruct (load _ _ _ _)]|destruct (str_read _ _ _ _); destruct (_ <? _)]; intros H; apply (f_equal snd) in H; cbn [snd] in H; subst; reflexivity. }
  subst x4. destruct o4 as [al|e s|u|]; [|left; reflexivity|left; reflexivity|left; reflexivity]. rewrite !bind_eq.
  destruct (read_o su (2 * al) m r4 x3) as [(o & m' & r5 & -> & -> & R5 & F)|[-> K]]; [|right; exists r4, [], x3; rewrite app_nil_r; split; [reflexivity|]; split; [reflexivity|]; split; [left; split; reflexivity|]; split; [reflexivity|exact K]].
  destruct o as [d|e s|u|]; [|left; reflexivity|left; reflexivity|left; reflexivity]. destruct (F d eq_refl) as (bs & -> & Ob & Bb). rewrite !bind_eq, !dmod_eq. cbv beta iota. rewrite !bind_eq.
  set (x6 := ms_set_additional d x3). assert (C : exists c, rd_count (m ++ map Some bs) r5 x6 = (Ret c, m ++ map Some bs, r5, x6)) by (destruct r5; eexists; reflexivity). destruct C as (c & ->). cbv beta iota. rewrite !bind_eq.
  destruct (read_o su (u64 (n + 18446744073709551616 - c)) (m ++ map Some bs) r5 x6) as [(o & m' & r7 & -> & -> & _ & _)|[-> K]]; [left; reflexivity|].
  right. exists r5, bs, x6. split; [reflexivity|]. split; [destruct x3; reflexivity|]. rewrite <- R4. split; [right; exact Ob|]. split; [exact Bb|exact K].
Qed.

(** ** Unconnected replies *)
Lemma copy_o su m r x i (l : cpf_packet) q b bs : own_blocks q b bs l -> In i l ->
  it_getDataAs (ms_cls_o su) i m r x = it_getDataAs ms_cls i m r x \/
  exists x', it_getDataAs (ms_cls_o su) i m r x = (bad_alloc, m, r, x') /\ ms_data x' = ms_data x /\ refuses su.
Proof.
  intros O Hi.
  assert (Q : it_data i = None \/ exists sb, it_data i = Some (ser_of_sbuf sb)).
  { induction O as [b|b bs l t H IH|b bs l t v Vk H IH|b y bs l t H IH]; [destruct Hi| | |]; (destruct Hi as [<-|Hi]; [|exact (IH Hi)]); [left; reflexivity|right; eexists; reflexivity|right; eexists; reflexivity]. }
  unfold it_getDataAs, d_copy. destruct Q as [->|(sb & ->)]; [left; reflexivity|]. unfold copy_serializable. cbn [s_sbuf ser_of_sbuf c_sb ms_cls ms_cls_o s_length]. unfold run_reader, deserialize_len. cbn [c_deslen ms_cls ms_cls_o].
  destruct (router_o su (v_len (sb_data sb)) m (RBuf (sb_data sb) 0) x) as [->|(r' & bs' & x' & -> & Da & _ & Bb & K)]; [left; reflexivity|right].
  rewrite (Bb eq_refl). cbn [map]. rewrite app_nil_r. exists x'. split; [reflexivity|]. split; assumption.
Qed.
Lemma reply_o su m r x :
  rrs_deserialize_o su m r x = rrs_deserialize m r x \/
  exists r' bs x', rrs_deserialize_o su m r x = (bad_alloc, m ++ given_back bs, r', x') /\ ms_data (rr_ext x') = ms_data (rr_ext x) /\ refuses su.
Proof.
  unfold rrs_deserialize, rrs_deserialize_o, rr_deserialize, rr_deserialize_o.
  assert (R : forall k (get : rr_data mr_response -> N) set m r x o m' r' x', (forall v y, rr_ext (set v y) = rr_ext y) -> rd_uint k get set m r x = (o, m', r', x') -> m' = m /\ rr_ext x' = rr_ext x).
  { intros k get set m0 r0 x0 o m' r' x' St E. destruct (mild_raw _ _ _ _ _ _ _ _ _ _ E) as (-> & _ & _). split; [reflexivity|].
    revert E. unfold rd_uint, rd_raw. destruct r0; [destruct (_ <? _); [|destruct (load _ _ _ _)]|destruct (str_read _ _ _ _)]; intros H; apply (f_equal snd) in H; cbn [snd] in H; subst; auto. }
  rewrite !bind_eq. destruct (rd_uint 4 _ _ m r x) as [[[o1 m1] r1] x1] eqn:E1. apply R in E1; [|reflexivity]. destruct E1 as [-> X1]. destruct o1 as [[]|e s|u|]; [|left; reflexivity|left; reflexivity|left; reflexivity].
  rewrite !bind_eq. destruct (rd_uint 2 _ _ m r1 x1) as [[[o2 m2] r2] x2] eqn:E2. apply R in E2; [|reflexivity]. destruct E2 as [-> X2]. destruct o2 as [[]|e s|u|]; [|left; reflexivity|left; reflexivity|left; reflexivity]. clear R.
  rewrite <- X1, <- X2. clear X1 X2. rewrite !bind_eq. unfold cpf_scoped, dlocal.
  destruct (items_both su m r2 []) as [(o & m' & r3 & l & -> & -> & Lr & Lt)|(r3 & bs & z & l & -> & O & Z & K)].
  - destruct o as [[]|e s|u|]; [| |left; reflexivity|left; reflexivity].
    + destruct (Lr eq_refl) as (bs & -> & O). clear Lr Lt. set (mm := m ++ map Some bs).
      assert (Dr : forall r t, @d_drop_items (rr_data mr_response) l mm r t = (Ret tt, m ++ given_back bs, r, t)).
      { intros ra ta. pose proof (own_dropped _ _ _ _ O m [] ra ta eq_refl) as Q. rewrite !app_nil_r in Q. exact Q. }
      match goal with |- dfinally ?a ?f mm r3 x2 = dfinally ?b ?f mm r3 x2 \/ _ =>
        assert (Q : a mm r3 x2 = b mm r3 x2 \/ exists x', a mm r3 x2 = (bad_alloc, mm, r3, x') /\ ms_data (rr_ext x') = ms_data (rr_ext x2) /\ refuses su) end.
      { destruct (_ <? 2); [left; reflexivity|]. rewrite !bind_eq. rewrite !at_eq. destruct (nth_error l 0) as [i0|]; [|left; reflexivity]. cbv beta iota.
        destruct (negb _); [left; reflexivity|]. rewrite !bind_eq. unfold d_outcome. destruct (it_getDataLength i0) as [n0|e s|u|]; [|left; reflexivity|left; reflexivity|left; reflexivity].
        destruct (negb _); [left; reflexivity|]. rewrite !bind_eq. rewrite !at_eq. destruct (nth_error l 1) as [i1|] eqn:N1; [|left; reflexivity]. cbv beta iota.
        destruct (negb _); [left; reflexivity|]. unfold dzoom. destruct (copy_o su mm r3 (rr_ext x2) i1 l _ _ _ O (nth_error_In _ _ N1)) as [->|(x' & -> & Da & K)]; [left; reflexivity|].
        right. exists (rr_set_ext x' x2). split; [reflexivity|]. split; [exact Da|exact K]. }
      unfold dfinally. destruct Q as [->|(x' & -> & Da & K)]; [left; reflexivity|]. right. unfold bad_alloc. rewrite bind_eq, Dr. unfold dthrow. exists r3, bs, x'. split; [reflexivity|]. split; assumption.
    + left. destruct (Lt eq_refl) as [-> O]. rewrite bind_eq. pose proof (own_dropped _ _ _ _ O m [] r3 x2 eq_refl) as Q. cbn [map given_back app] in Q. rewrite app_nil_r in Q. rewrite Q. reflexivity.
  - right. unfold bad_alloc. rewrite bind_eq. rewrite (own_dropped _ _ _ _ O m z r3 x2 eq_refl). unfold dthrow.
    assert (G : exists cs, given_back bs ++ z = given_back cs). { destruct Z as [->| ->]; [exists bs; apply app_nil_r|exists (bs ++ [[]])]. unfold given_back. rewrite map_app. reflexivity. }
    destruct G as (cs & ->). exists r3, cs, x2. split; [reflexivity|]. split; [reflexivity|exact K].
Qed.

(** ** Enough memory *)
Lemma never su : plenty su -> ~ refuses su.
Proof. intros (A & B & C) [(m & r & n & _ & K)|[(m & r & K)|(m & r & l & K)]]; [rewrite A in K|rewrite B in K|rewrite C in K]; discriminate. Qed.
Lemma enough su : plenty su ->
  (forall n m r s, sb_deserialize_len_o su n m r s = sb_deserialize_len n m r s) /\
  (forall m r x, ep_deserialize_o su m r x = ep_deserialize m r x) /\
  (forall n m r x, ep_deserialize_len_o su n m r x = ep_deserialize_len n m r x) /\
  (forall m r x, it_deserialize_o su m r x = it_deserialize m r x) /\
  (forall m r x, cpf_deserialize_o su m r x = cpf_deserialize m r x) /\
  (forall n m r x, ms_deserialize_len_o su n m r x = ms_deserialize_len n m r x) /\
  (forall m r x, rrs_deserialize_o su m r x = rrs_deserialize m r x).
Proof.
  intros P. pose proof (never _ P) as Nv. destruct P as (A & _ & _). split; [|split; [|split; [|split; [|split; [|split]]]]].
  - intros n m r s. unfold sb_deserialize_len_o, sb_deserialize_len. rewrite !bind_eq. unfold rd_is_buffer. destruct r as [v c|d p f]; [reflexivity|]. rewrite !bind_eq, !dget_eq. cbv beta iota. rewrite !bind_eq.
    destruct (n =? _); [reflexivity|]. rewrite !bind_eq. destruct (sb_delete m (RStr d p f) s) as [[[o1 m1] r1] s1]. destruct o1; try reflexivity. rewrite bind_eq. unfold need. rewrite A. reflexivity.
  - intros m r x. destruct (packet_o su m r x) as [E|(r' & x' & _ & _ & K)]; [exact E|destruct (Nv K)].
  - intros n m r x. destruct (packet_len_o su n m r x) as [E|(r' & x' & _ & _ & K)]; [exact E|destruct (Nv K)].
  - intros m r x. destruct (item_o su m r x) as [(o & m' & r' & i & -> & -> & _)|(r' & x' & _ & _ & K)]; [reflexivity|destruct (Nv K)].
  - intros m r x. destruct (items_end_o su m r x) as [E|(r' & bs & z & x' & _ & _ & _ & _ & K)]; [exact E|destruct (Nv K)].
  - intros n m r x. destruct (router_o su n m r x) as [E|(r' & bs & x' & _ & _ & _ & _ & K)]; [exact E|destruct (Nv K)].
  - intros m r x. destruct (reply_o su m r x) as [E|(r' & bs & x' & _ & _ & K)]; [exact E|destruct (Nv K)].
Qed.

(** ** Buffer objects *)
Lemma plain_o su n m r s : sb_alloc s = None ->
  sb_deserialize_len_o su n m r s = sb_deserialize_len n m r s \/
  sb_deserialize_len_o su n m r s = (bad_alloc, m, r, s) /\ su_bytes su m r n = false.
Proof.
  intros A. unfold sb_deserialize_len_o, sb_deserialize_len, rd_is_buffer. destruct r as [v c|d p f]; [left; reflexivity|]. unfold dbind, dget. cbv beta iota. destruct (n =? _); [left; reflexivity|].
  unfold sb_delete, dbind, dget. rewrite A. unfold dret, need. destruct (su_bytes su m (RStr d p f) n); [left; reflexivity|right; split; reflexivity].
Qed.
Lemma freed_nth m b (bl : list byte) : nth_error m b = Some (Some bl) -> nth_error (list_set m b None) b = Some (@None (list byte)).
Proof. revert b. induction m as [|x m IH]; intros [|b] H; try discriminate; [reflexivity|]. apply IH. exact H. Qed.
Lemma owner_o su n m d p f b k bl : nth_error m b = Some (Some bl) -> 0 < k -> n <> k -> (forall m', free m b = Ret m' -> su_bytes su m' (RStr d p f) n = false) ->
  let s := mkSB (mkV b 0 k) (Some b) in
  exists m' s', sb_deserialize_len_o su n m (RStr d p f) s = (bad_alloc, m', RStr d p f, s') /\
    sb_data s' = sb_data s /\ nth_error m' b = Some None /\ load_view m' (sb_data s') = Undef UseAfterFree /\
    (forall out, fst (fst (sb_serialize s' m' (WStr out))) = Undef UseAfterFree) /\
    (forall d' p', k <= len (drop p' d') -> match sb_deserialize_len k m' (RStr d' p' false) s' with (o, _, _, _) => o = Undef UseAfterFree end) /\
    sb_destroy m' s' = (Ret tt, m').
Proof.
  intros Hb Kp Nk Ok. cbv zeta. exists (list_set m b None), (mkSB (mkV b 0 k) None).
  assert (Fr : free m b = Ret (list_set m b None)) by (unfold free; rewrite Hb; reflexivity). pose proof (freed_nth _ _ _ Hb) as Fn.
  assert (Ld : load (list_set m b None) b 0 k = Undef UseAfterFree).
  { unfold load. replace (k =? 0) with false by (symmetry; apply N.eqb_neq; lia). rewrite Fn. reflexivity. }
  split; [|split; [reflexivity|split; [exact Fn|split; [exact Ld|split; [|split; [|reflexivity]]]]]].
  - unfold sb_deserialize_len_o, rd_is_buffer. unfold dbind, dget. cbn [sb_data v_len]. cbv beta iota. replace (n =? k) with false by (symmetry; apply N.eqb_neq; exact Nk).
    unfold sb_delete, dbind, dget. cbn [sb_alloc]. unfold d_free. rewrite Fr. unfold dmod, need. cbn [sb_data]. rewrite (Ok _ Fr). reflexivity.
  - intros out. unfold sb_serialize, w_view, load_view. cbn [sb_data v_blk v_off v_len]. rewrite Ld. reflexivity.
  - intros d' p' L. unfold sb_deserialize_len, rd_is_buffer. unfold dbind, dget. cbn [sb_data v_len]. cbv beta iota. rewrite N.eqb_refl. unfold dret, rd_into, str_read. cbn [sb_data v_blk v_off v_len].
    set (got := take k (drop p' d')). assert (G : len got = k) by (unfold got; rewrite len_take; lia). unfold store. rewrite G. replace (k =? 0) with false by (symmetry; apply N.eqb_neq; lia). rewrite Fn. reflexivity.
Qed.
Lemma one_item_o su m r x :
  it_deserialize_o su m r x = it_deserialize m r x \/
  exists r' x', it_deserialize_o su m r x = (bad_alloc, m, r', x') /\ kept_or_empty (it_data x) (it_data x') /\ refuses su.
Proof. destruct (item_o su m r x) as [(o & m' & r' & i & -> & -> & _)|H]; [left; reflexivity|right; exact H]. Qed.
Lemma router_end_o su n m r x :
  ms_deserialize_len_o su n m r x = ms_deserialize_len n m r x \/
  exists r' bs x', ms_deserialize_len_o su n m r x = (bad_alloc, m ++ map Some bs, r', x') /\ ms_data x' = ms_data x /\
    (bs = [] /\ ms_additional x' = ms_additional x \/ own_blocks (from_buffer r) (List.length m) bs [mkItem 0 (ms_additional x')]) /\ refuses su.
Proof. destruct (router_o su n m r x) as [E|(r' & bs & x' & E & D & A & _ & K)]; [left; exact E|right]. exists r', bs, x'. split; [exact E|]. split; [exact D|]. split; assumption. Qed.
