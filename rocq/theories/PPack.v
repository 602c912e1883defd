(** Decoders of the message classes on a buffer. *)
From Verif Require Export PDec.

Ltac tidy_views := rewrite ?view_drop_drop, ?N.add_0_l;
  repeat match goal with
  | |- context [?a + N.pos ?p + N.pos ?q] =>
      let s := eval vm_compute in (N.pos p + N.pos q) in replace (a + N.pos p + N.pos q) with (a + s) by lia
  end.

Ltac cnt :=
  match goal with
  | |- (_, _, RBuf _ ?c, _) = (_, _, RBuf _ ?c', _) => replace c with c' by lia; reflexivity
  end.
(** The failed branch of a decode. *)
Ltac short := eexists; eexists; reflexivity.

Lemma le_app_inj k x y a b : fits k x -> fits k y -> le k x ++ a = le k y ++ b -> x = y /\ a = b.
Proof.
  intros Hx Hy H. apply app_eq_len in H; [|rewrite !len_le; reflexivity]. destruct H as [H ->].
  split; [apply (le_inj k); assumption|reflexivity].
Qed.
Lemma app_inj_len {A} n (a b c d : list A) : len a = n -> len c = n -> a ++ b = c ++ d -> a = c /\ b = d.
Proof. intros. apply app_eq_len; congruence. Qed.
Lemma fits1 n : n < 256 -> fits 1 n. Proof. unfold fits. change (256 ^ N.of_nat 1) with 256. auto. Qed.
Lemma fits2 n : n < 65536 -> fits 2 n. Proof. unfold fits. change (256 ^ N.of_nat 2) with 65536. auto. Qed.
Lemma fits4 n : n < 4294967296 -> fits 4 n. Proof. unfold fits. change (256 ^ N.of_nat 4) with 4294967296. auto. Qed.
Lemma fits1_lt n : fits 1 n -> n < 256. Proof. unfold fits. change (256 ^ N.of_nat 1) with 256. auto. Qed.
Lemma fits2_lt n : fits 2 n -> n < 65536. Proof. unfold fits. change (256 ^ N.of_nat 2) with 65536. auto. Qed.
Lemma fits4_lt n : fits 4 n -> n < 4294967296. Proof. unfold fits. change (256 ^ N.of_nat 4) with 4294967296. auto. Qed.
Lemma le_1 n : n < 256 -> le 1 n = [octet n].
Proof. intros H. cbn [le]. rewrite N.mod_small by lia. reflexivity. Qed.
Lemma le_mod k n : le k (n mod 256 ^ N.of_nat k) = le k n.
Proof.
  revert n. induction k as [|k IH]; intros n; [reflexivity|]. cbn [le]. rewrite pow256_S.
  pose proof (pow256_pos k) as P. set (q := 256 ^ N.of_nat k) in *.
  rewrite N.mod_mul_r by lia. replace (n mod 256 + 256 * ((n / 256) mod q)) with (((n / 256) mod q) * 256 + n mod 256) by lia.
  f_equal.
  - f_equal. rewrite N.add_comm, N.mod_add by lia. apply N.mod_mod. lia.
  - rewrite N.div_add_l by lia. rewrite (N.div_small (n mod 256)) by (apply N.mod_lt; lia). rewrite N.add_0_r. apply IH.
Qed.
Lemma le_u8 n : le 1 (u8 n) = le 1 n. Proof. apply (le_mod 1). Qed.
Lemma le_u16 n : le 2 (u16 n) = le 2 n. Proof. apply (le_mod 2). Qed.
Lemma le_u32 n : le 4 (u32 n) = le 4 n. Proof. apply (le_mod 4). Qed.

(** ** Encapsulation header *)
Lemma len_header a b c d e f g : len (header a b c d e f g) = 24.
Proof. unfold header. lens. reflexivity. Qed.

Lemma hdr_decode m v c h bs : reads m v bs ->
  (len bs < 24 /\ exists r' h', hdr_deserialize m (RBuf v c) h = (Throw LengthError SHORT, m, r', h')) \/
  (exists cmd n ses st c0 c1 o rest,
     bs = header cmd n ses st c0 c1 o ++ rest /\
     (fits 2 cmd /\ fits 2 n /\ fits 4 ses /\ fits 4 st /\ fits 4 c0 /\ fits 4 c1 /\ fits 4 o) /\
     reads m (view_drop v 24) rest /\
     hdr_deserialize m (RBuf v c) h = (Ret tt, m, RBuf (view_drop v 24) (c + 24), mkHdr cmd n ses st c0 c1 o)).
Proof.
  intros H. unfold hdr_deserialize.
  duint cmd; [left; lens; split; [lia|short]|].
  duint n; [left; lens; split; [lia|short]|].
  duint ses; [left; lens; split; [lia|short]|].
  duint st; [left; lens; split; [lia|short]|].
  draw a; [left; lens; split; [lia|short]|].
  duint o; [left; lens; split; [lia|short]|].
  right. destruct (split_at 4 a) as (a0 & a1 & -> & L0); [lia|]. lens.
  exists cmd, n, ses, st, (num a0), (num a1), o. eexists.
  split; [unfold header; rewrite !le_num_k by lia; rewrite <- !app_assoc; reflexivity|].
  split; [repeat split; try assumption; apply fits_num; lia|].
  split; [exact H|].
  rewrite (take_app 4), (drop_app 4) by assumption. rewrite !host_value_num.
  cnt.
Qed.

(** ** Encapsulation packet *)

Lemma header_inj a b c d e f g a' b' c' d' e' f' g' r r' :
  fits 2 a -> fits 2 b -> fits 4 c -> fits 4 d -> fits 4 e -> fits 4 f -> fits 4 g ->
  fits 2 a' -> fits 2 b' -> fits 4 c' -> fits 4 d' -> fits 4 e' -> fits 4 f' -> fits 4 g' ->
  header a b c d e f g ++ r = header a' b' c' d' e' f' g' ++ r' ->
  (a, b, c, d, e, f, g) = (a', b', c', d', e', f', g') /\ r = r'.
Proof.
  intros. unfold header in *. repeat rewrite <- app_assoc in *.
  repeat match goal with
  | H : le _ ?x ++ _ = le _ ?y ++ _ |- _ => apply le_app_inj in H; [destruct H as [? H]; subst|assumption..]
  end. auto.
Qed.
Lemma frame_inj a b c d e f p r a' b' c' d' e' f' p' r' :
  frame_fits a b c d e f p -> frame_fits a' b' c' d' e' f' p' ->
  frame a b c d e f p ++ r = frame a' b' c' d' e' f' p' ++ r' ->
  (a, b, c, d, e, f) = (a', b', c', d', e', f') /\ p = p' /\ r = r'.
Proof.
  unfold frame_fits, frame. intros (H1 & H2 & H3 & H4 & H5 & H6 & H7) (G1 & G2 & G3 & G4 & G5 & G6 & G7) E.
  repeat rewrite <- app_assoc in E. apply header_inj in E; try assumption; try (apply fits2; assumption).
  destruct E as [E1 E2]. injection E1 as -> L -> -> -> -> ->. apply app_eq_len in E2; [|assumption].
  destruct E2 as [-> ->]. auto.
Qed.

Lemma frame_len a b c d e f p : len (frame a b c d e f p) = 24 + len p.
Proof. unfold frame. rewrite len_app, len_header. reflexivity. Qed.

Lemma window_0 v off : window v off 0 = None. Proof. reflexivity. Qed.
Lemma window_pos v off n : 0 < n -> window v off n = Some (ser_of_sbuf (sb_of_view (view_take (view_drop v off) n))).
Proof. intros H. unfold window. destruct (N.eqb_spec n 0); [lia|reflexivity]. Qed.

Lemma ep_decode m v c p0 bs : reads m v bs ->
  ((forall cmd ses st c0 c1 o payload rest, frame_fits cmd ses st c0 c1 o payload ->
      bs <> frame cmd ses st c0 c1 o payload ++ rest) /\
   exists r' p', ep_deserialize m (RBuf v c) p0 = (Throw LengthError SHORT, m, r', p')) \/
  (exists cmd ses st c0 c1 o payload rest,
     frame_fits cmd ses st c0 c1 o payload /\ bs = frame cmd ses st c0 c1 o payload ++ rest /\
     ep_deserialize m (RBuf v c) p0
     = (Ret tt, m, RBuf (view_drop v (24 + len payload)) (c + (24 + len payload)),
        mkEP (mkHdr cmd (len payload) ses st c0 c1 o) (window v 24 (len payload)))).
Proof.
  intros H. unfold ep_deserialize.
  destruct (hdr_decode m v c (ep_header p0) bs H)
    as [[L (r' & h' & E)]|(cmd & n & ses & st & c0 & c1 & o & rest & -> & F & R & E)].
  - left. split.
    + intros. intros ->. rewrite len_app, frame_len in L. lia.
    + exists r', (ep_set_header h' p0).
      apply dbind_throw. unfold dzoom. rewrite E. reflexivity.
  - erewrite dbind_ret; [|unfold dzoom; rewrite E; reflexivity].
    erewrite dbind_ret; [|reflexivity]. cbn [ep_header ep_set_header h_length].
    destruct F as (F1 & F2 & F3 & F4 & F5 & F6 & F7). pose proof (fits2_lt _ F2) as F2'.
    destruct (N.ltb_spec 0 n) as [Hn|Hn].
    + clear H. draw payload.
      * left. split; [|short]. intros ? ? ? ? ? ? payload' rest' (G1 & G2 & G3 & G4 & G5 & G6 & G7) X.
        unfold frame in X. repeat rewrite <- app_assoc in X.
        apply header_inj in X; try assumption; try (apply fits2; assumption).
        destruct X as [X1 X2]. injection X1 as -> -> -> -> -> -> ->. subst rest. lens. lia.
      * right. exists cmd, ses, st, c0, c1, o, payload; eexists. subst n.
        split; [unfold frame_fits; tauto|].
        split; [unfold frame; rewrite <- app_assoc; reflexivity|].
        unfold dmod. cbn [ep_set_payload_field ep_set_header ep_header].
        rewrite window_pos by assumption. cnt.
    + assert (n = 0) by lia. subst n. right. exists cmd, ses, st, c0, c1, o, [], rest.
      split; [unfold frame_fits; rewrite len_nil; repeat split; try assumption; lia|].
      split; [unfold frame; rewrite app_nil_r; reflexivity|].
      reflexivity.
Qed.

(** With a stated length. *)
Lemma ep_decode_len m v c p0 bs n : reads m v bs ->
  ((forall cmd ses st c0 c1 o payload rest, frame_fits cmd ses st c0 c1 o payload ->
      n = len (frame cmd ses st c0 c1 o payload) ->
      bs <> frame cmd ses st c0 c1 o payload ++ rest) /\
   exists s r' p', ep_deserialize_len n m (RBuf v c) p0 = (Throw LengthError s, m, r', p')) \/
  (exists cmd ses st c0 c1 o payload rest,
     frame_fits cmd ses st c0 c1 o payload /\ n = len (frame cmd ses st c0 c1 o payload) /\
     bs = frame cmd ses st c0 c1 o payload ++ rest /\
     ep_deserialize_len n m (RBuf v c) p0
     = (Ret tt, m, RBuf (view_drop v n) (c + n),
        mkEP (mkHdr cmd (len payload) ses st c0 c1 o) (window v 24 (len payload)))).
Proof.
  intros H. unfold ep_deserialize_len, hdr_getLength. destruct (N.ltb_spec n 24) as [Hs|Hs].
  { left. split; [|eexists; short]. intros. rewrite frame_len in *. lia. }
  destruct (hdr_decode m v c (ep_header p0) bs H)
    as [[L (r' & h' & E)]|(cmd & k & ses & st & c0 & c1 & o & rest & -> & F & R & E)].
  - left. split.
    + intros. intros ->. rewrite len_app, frame_len in L. lia.
    + exists SHORT, r', (ep_set_header h' p0).
      apply dbind_throw. unfold dzoom. rewrite E. reflexivity.
  - erewrite dbind_ret; [|unfold dzoom; rewrite E; reflexivity].
    erewrite dbind_ret; [|reflexivity]. cbn [ep_header ep_set_header h_length].
    destruct F as (F1 & F2 & F3 & F4 & F5 & F6 & F7). pose proof (fits2_lt _ F2) as F2'.
    assert (K : forall cmd' ses' st' c0' c1' o' payload' rest', frame_fits cmd' ses' st' c0' c1' o' payload' ->
               header cmd k ses st c0 c1 o ++ rest = frame cmd' ses' st' c0' c1' o' payload' ++ rest' ->
               len payload' = k /\ rest = payload' ++ rest').
    { intros ? ? ? ? ? ? payload' rest' (G1 & G2 & G3 & G4 & G5 & G6 & G7) X.
      unfold frame in X. repeat rewrite <- app_assoc in X.
      apply header_inj in X; try assumption; try (apply fits2; assumption).
      destruct X as [X1 X2]. injection X1 as -> -> -> -> -> -> ->. auto. }
    destruct (N.eqb_spec n (24 + k)) as [->|Hk]; cbn [negb].
    2:{ left. split; [|eexists; short]. intros ? ? ? ? ? ? payload' rest' G Hn X.
        destruct (K _ _ _ _ _ _ _ _ G X) as [<- ->]. rewrite frame_len in Hn. lia. }
    destruct (N.ltb_spec 0 k) as [Hn|Hn].
    + erewrite dbind_ret; [|reflexivity]. clear H. draw payload.
      * left. split; [|eexists; short]. intros ? ? ? ? ? ? payload' rest' G Hn' X.
        destruct (K _ _ _ _ _ _ _ _ G X) as [<- ->]. lens. lia.
      * right. exists cmd, ses, st, c0, c1, o, payload; eexists. subst k.
        split; [unfold frame_fits; tauto|]. rewrite frame_len. split; [reflexivity|].
        split; [unfold frame; rewrite <- app_assoc; reflexivity|].
        unfold dmod. cbn [ep_set_payload_field ep_set_header ep_header].
        rewrite window_pos by assumption. cnt.
    + assert (k = 0) by lia. subst k. right. exists cmd, ses, st, c0, c1, o, [], rest.
      split; [unfold frame_fits; rewrite len_nil; repeat split; try assumption; lia|].
      change (len (@nil byte)) with 0. split; [reflexivity|].
      split; [unfold frame; rewrite app_nil_r; reflexivity|].
      reflexivity.
Qed.

(** ** CPF items *)
Lemma item_app_inj x y a b : item_ok x -> item_ok y -> item x ++ a = item y ++ b -> x = y /\ a = b.
Proof.
  destruct x as [tx dx], y as [ty dy]. unfold item_ok, item. cbn [fst snd]. intros [H1 H2] [G1 G2] E.
  repeat rewrite <- app_assoc in E. apply le_app_inj in E; [|apply fits2; assumption..]. destruct E as [-> E].
  apply le_app_inj in E; [|apply fits2; assumption..]. destruct E as [L E].
  apply app_eq_len in E; [|assumption]. destruct E as [-> ->]. auto.
Qed.
Lemma len_item x : len (item x) = 4 + len (snd x).
Proof. unfold item. lens. lia. Qed.

Lemma it_decode m v c i0 bs : reads m v bs ->
  ((forall x rest, item_ok x -> bs <> item x ++ rest) /\
   exists r' i', it_deserialize m (RBuf v c) i0 = (Throw LengthError SHORT, m, r', i')) \/
  (exists ty d rest, item_ok (ty, d) /\ bs = item (ty, d) ++ rest /\ reads m (view_drop v (4 + len d)) rest /\
     it_deserialize m (RBuf v c) i0
     = (Ret tt, m, RBuf (view_drop v (4 + len d)) (c + (4 + len d)), mkItem ty (window v 4 (len d)))).
Proof.
  intros H. unfold it_deserialize.
  duint ty; [left; split; [|short]; intros x r _ ->; rewrite len_app, len_item in *; lia|].
  duint n; [left; split; [|short]; intros x r _ E; apply (f_equal len) in E; rewrite !len_app, len_item, len_le in *; lia|].
  pose proof (fits2_lt _ F) as F'. pose proof (fits2_lt _ F0) as F0'.
  unfold it_deserializeData. destruct (N.ltb_spec 0 n) as [Hn|Hn].
  - erewrite dbind_ret; [|reflexivity]. draw d.
    + left. split; [|short]. intros [ty' d'] r' [G1 G2] E. unfold item in E. cbn [fst snd] in *.
      repeat rewrite <- app_assoc in E. apply le_app_inj in E; [|try apply fits2; assumption..].
      destruct E as [-> E]. apply le_app_inj in E; [|try apply fits2; assumption..]. destruct E as [-> ->].
      lens. lia.
    + right. exists ty, d; eexists; subst n. split; [split; assumption|].
      split; [unfold item; cbn [fst snd]; repeat rewrite <- app_assoc; reflexivity|].
      split; [exact H|]. unfold dmod. cbn [it_set_data it_set_type it_type it_data].
      rewrite window_pos by assumption. cnt.
  - assert (n = 0) by lia. subst n. right. exists ty, []; eexists. split; [split; [assumption|reflexivity]|].
    split; [unfold item; cbn [fst snd]; change (len (@nil byte)) with 0; repeat rewrite <- app_assoc; reflexivity|].
    change (len (@nil byte)) with 0. split; [exact H|]. unfold dmod. cbn [it_set_data it_set_type it_type it_data]. cnt.
Qed.

Lemma it_decode_len m v c i0 bs l : reads m v bs ->
  ((forall x rest, item_ok x -> len (item x) <= l -> bs <> item x ++ rest) /\
   exists s r' i', it_deserialize_len l m (RBuf v c) i0 = (Throw LengthError s, m, r', i')) \/
  (exists ty d rest, item_ok (ty, d) /\ len (item (ty, d)) <= l /\ bs = item (ty, d) ++ rest /\
     it_deserialize_len l m (RBuf v c) i0
     = (Ret tt, m, RBuf (view_drop v (4 + len d)) (c + (4 + len d)), mkItem ty (window v 4 (len d)))).
Proof.
  intros H. unfold it_deserialize_len. destruct (N.ltb_spec l 4) as [Hl|Hl].
  { left. split; [|eexists; short]. intros x rest _ Hx. rewrite len_item in Hx. lia. }
  duint ty; [left; split; [|eexists; short]; intros x r _ _ ->; rewrite len_app, len_item in *; lia|].
  duint n; [left; split; [|eexists; short]; intros x r _ _ E; apply (f_equal len) in E; rewrite !len_app, len_item, len_le in *; lia|].
  pose proof (fits2_lt _ F) as F'. pose proof (fits2_lt _ F0) as F0'.
  assert (K : forall x r, item_ok x -> le 2 ty ++ le 2 n ++ rest = item x ++ r -> len (snd x) = n /\ rest = snd x ++ r).
  { intros [ty' d'] r' [G1 G2] E. unfold item in E. cbn [fst snd] in *.
    repeat rewrite <- app_assoc in E. apply le_app_inj in E; [|try apply fits2; assumption..].
    destruct E as [-> E]. apply le_app_inj in E; [|try apply fits2; assumption..]. destruct E as [-> ->]. auto. }
  destruct (N.ltb_spec l (n + 4)) as [Hl'|Hl'].
  { left. split; [|eexists; short]. intros x r Hx Lx E. destruct (K x r Hx E) as [<- _].
    rewrite len_item in Lx. lia. }
  unfold it_deserializeData. destruct (N.ltb_spec 0 n) as [Hn|Hn].
  - erewrite dbind_ret; [|reflexivity]. draw d.
    + left. split; [|eexists; short]. intros x r Hx Lx E. destruct (K x r Hx E) as [<- ->]. lens. lia.
    + right. exists ty, d; eexists; subst n. split; [split; assumption|]. rewrite len_item. cbn [snd]. split; [lia|].
      split; [unfold item; cbn [fst snd]; repeat rewrite <- app_assoc; reflexivity|].
      unfold dmod. cbn [it_set_data it_set_type it_type it_data].
      rewrite window_pos by assumption. cnt.
  - assert (n = 0) by lia. subst n. right. exists ty, []; eexists. split; [split; [assumption|reflexivity]|].
    rewrite len_item. cbn [snd]. change (len (@nil byte)) with 0. split; [lia|].
    split; [unfold item; cbn [fst snd]; change (len (@nil byte)) with 0; repeat rewrite <- app_assoc; reflexivity|].
     unfold dmod. cbn [it_set_data it_set_type it_type it_data]. cnt.
Qed.

Lemma items_cons x xs : items (x :: xs) = item x ++ items xs. Proof. reflexivity. Qed.
Lemma items_app xs ys : items (xs ++ ys) = items xs ++ items ys.
Proof. unfold items. apply flat_map_app. Qed.

Lemma items_inj xs : forall ys a b, Forall item_ok xs -> Forall item_ok ys -> List.length xs = List.length ys ->
  items xs ++ a = items ys ++ b -> xs = ys /\ a = b.
Proof.
  induction xs as [|x xs IH]; intros [|y ys] a b Hx Hy L E; try discriminate; [auto|].
  rewrite !items_cons in E. repeat rewrite <- app_assoc in E.
  apply item_app_inj in E; [|inversion Hx; assumption|inversion Hy; assumption]. destruct E as [-> E].
  apply IH in E; [|inversion Hx; assumption|inversion Hy; assumption|cbn in L; lia]. destruct E as [-> ->]. auto.
Qed.

(** The items the loop produces are windows on the buffer. *)
Fixpoint item_windows (v : view) (off : N) (xs : list (N * list byte)) : cpf_packet :=
  match xs with
  | [] => []
  | x :: xs' => mkItem (fst x) (window v (off + 4) (len (snd x))) :: item_windows v (off + 4 + len (snd x)) xs'
  end.

Lemma window_drop v a off n : window (view_drop v a) off n = window v (a + off) n.
Proof. unfold window. rewrite view_drop_drop. reflexivity. Qed.

Lemma cpf_loop_decode k : forall m v off c its bs, reads m (view_drop v off) bs ->
  ((forall xs rest, Forall item_ok xs -> List.length xs = k -> bs <> items xs ++ rest) /\
   exists r' p', cpf_loop k m (RBuf (view_drop v off) c) its = (Throw LengthError SHORT, m, r', p')) \/
  (exists xs rest, Forall item_ok xs /\ List.length xs = k /\ bs = items xs ++ rest /\
     cpf_loop k m (RBuf (view_drop v off) c) its
     = (Ret tt, m, RBuf (view_drop v (off + len (items xs))) (c + len (items xs)), its ++ item_windows v off xs)).
Proof.
  induction k as [|k IH]; intros m v off c its bs H; cbn [cpf_loop].
  - right. exists [], bs. split; [constructor|]. split; [reflexivity|]. split; [reflexivity|].
    change (len (items [])) with 0. rewrite !N.add_0_r. cbn [item_windows]. rewrite app_nil_r. reflexivity.
  - destruct (it_decode m (view_drop v off) c it_null bs H)
      as [[N (r' & i' & E)]|(ty & d & rest & O & -> & R & E)].
    + left. split.
      * intros [|x xs] rest Hx Hl; [discriminate|]. rewrite items_cons, <- app_assoc. apply N. inversion Hx; assumption.
      * exists r', its. apply dbind_throw. unfold dlocal. rewrite E. reflexivity.
    + erewrite dbind_ret; [|unfold dlocal; rewrite E; reflexivity].
      erewrite dbind_ret; [|reflexivity].
      rewrite view_drop_drop in *. destruct (IH m v (off + (4 + len d)) (c + (4 + len d)) (its ++ [mkItem ty (window (view_drop v off) 4 (len d))]) rest R)
        as [[N (r' & p' & E')]|(xs & rest' & Hx & Hl & -> & E')].
      * left. split; [|eauto]. intros [|x xs] r Hx Hl; [discriminate|]. rewrite items_cons, <- app_assoc. intros X.
        apply item_app_inj in X; [|assumption|inversion Hx; assumption]. destruct X as [_ X].
        apply N in X; [assumption|inversion Hx; assumption|cbn in Hl; lia].
      * right. exists ((ty, d) :: xs), rest'. split; [constructor; assumption|]. split; [cbn; lia|].
        split; [rewrite items_cons, <- app_assoc; reflexivity|].
        rewrite E', items_cons, len_app, len_item. cbn [snd item_windows fst].
        rewrite window_drop, <- app_assoc. cbn [List.app].
        replace (off + 4 + len d) with (off + (4 + len d)) by lia.
        replace (off + (4 + len d) + len (items xs)) with (off + (4 + len d + len (items xs))) by lia.
        replace (c + (4 + len d) + len (items xs)) with (c + (4 + len d + len (items xs))) by lia.
        reflexivity.
Qed.

Lemma cpf_inj xs ys a b : cpf_ok xs -> cpf_ok ys -> cpf xs ++ a = cpf ys ++ b -> xs = ys /\ a = b.
Proof.
  intros [H1 H2] [G1 G2] E. unfold cpf in E. repeat rewrite <- app_assoc in E.
  apply le_app_inj in E; [|apply fits2; assumption..]. destruct E as [L E].
  apply items_inj in E; try assumption. unfold len in L. lia.
Qed.
Lemma len_cpf xs : len (cpf xs) = 2 + len (items xs).
Proof. unfold cpf. lens. lia. Qed.

Lemma cpf_decode m v c p0 bs : reads m v bs ->
  ((forall xs rest, cpf_ok xs -> bs <> cpf xs ++ rest) /\
   exists r' p', cpf_deserialize m (RBuf v c) p0 = (Throw LengthError SHORT, m, r', p')) \/
  (exists xs rest, cpf_ok xs /\ bs = cpf xs ++ rest /\
     cpf_deserialize m (RBuf v c) p0
     = (Ret tt, m, RBuf (view_drop v (len (cpf xs))) (c + len (cpf xs)), item_windows v 2 xs)).
Proof.
  intros H. unfold cpf_deserialize. erewrite dbind_ret; [|reflexivity]. cbv beta.
  duint n; [left; split; [|short]; intros xs r _ ->; rewrite len_app, len_cpf in *; lia|].
  destruct (cpf_loop_decode (N.to_nat n) m v 2 (c + 2) [] rest H)
    as [[N (r' & p' & E)]|(xs & rest' & Hx & Hl & -> & E)].
  - left. split; [|exists r', p'; exact E]. intros xs r [Hx Lx] X. unfold cpf in X. rewrite <- app_assoc in X.
    apply le_app_inj in X; [|try apply fits2; assumption..]. destruct X as [-> X].
    apply N in X; [assumption|assumption|]. unfold len. lia.
  - right. exists xs, rest'. assert (L : len xs = n) by (unfold len; lia).
    split; [split; [assumption|rewrite L; apply fits2_lt; assumption]|].
    split; [unfold cpf; rewrite L, <- app_assoc; reflexivity|].
    rewrite len_cpf. replace (c + (2 + len (items xs))) with (c + 2 + len (items xs)) by lia. exact E.
Qed.

Lemma item_windows_is m v xs : forall off bs rest, reads m v bs -> drop off bs = items xs ++ rest ->
  Forall2 (item_is m) (item_windows v off xs) xs.
Proof.
  induction xs as [|x xs IH]; intros off bs rest H E; cbn [item_windows]; constructor.
  - split; [reflexivity|]. cbn [it_data]. rewrite items_cons in E. unfold item in E.
    assert (D4 : drop (off + 4) bs = snd x ++ items xs ++ rest).
    { rewrite <- drop_drop, E. repeat rewrite <- app_assoc. rewrite app_assoc. apply drop_app. lens. reflexivity. }
    assert (L : off + 4 + len (snd x) <= len bs).
    { apply (f_equal len) in E. rewrite len_drop in E. lens. lia. }
    replace (snd x) with (take (len (snd x)) (drop (off + 4) bs)) at 2 by (rewrite D4; apply take_app_len).
    apply window_holds; [assumption|lia].
  - apply (IH (off + 4 + len (snd x)) bs rest); [assumption|].
    rewrite <- drop_drop, <- drop_drop, E, items_cons. unfold item. repeat rewrite <- app_assoc.
    rewrite (app_assoc (le 2 _) (le 2 _)). rewrite (drop_app 4) by (lens; reflexivity). apply drop_app_len.
Qed.
Lemma cpf_windows_is m v xs rest : reads m v (cpf xs ++ rest) -> Forall2 (item_is m) (item_windows v 2 xs) xs.
Proof.
  intros H. eapply item_windows_is with (rest := rest); [exact H|]. unfold cpf. rewrite <- app_assoc.
  apply drop_app. apply len_le.
Qed.
