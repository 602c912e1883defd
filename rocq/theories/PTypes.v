(** Proofs for C101, C102: typed attributes, reused objects. *)
From Verif Require Export Vocab14 PTarget PRest.
From Coq Require Import ZArith Lia.
Local Open Scope N_scope.

(** ** C101 *)
Lemma twos_le k : forall v, twos k v = le k (Z.to_N (v mod 2 ^ (8 * Z.of_nat k)))%Z.
Proof.
  induction k as [|k IH]; intros v; cbn [twos le]; [reflexivity|]. rewrite IH.
  assert (P : (0 < 2 ^ (8 * Z.of_nat k))%Z) by (apply Z.pow_pos_nonneg; lia).
  replace (2 ^ (8 * Z.of_nat (S k)))%Z with (256 * 2 ^ (8 * Z.of_nat k))%Z
    by (replace (8 * Z.of_nat (S k))%Z with (8 + 8 * Z.of_nat k)%Z by lia; rewrite Z.pow_add_r by lia; reflexivity).
  set (M := (2 ^ (8 * Z.of_nat k))%Z) in *. rewrite (Z.rem_mul_r v 256 M) by lia.
  pose proof (Z.mod_pos_bound v 256 ltac:(lia)) as B. pose proof (Z.mod_pos_bound (v / 256) M P) as B2.
  set (a := (v mod 256)%Z) in *. set (b := ((v / 256) mod M)%Z) in *.
  assert (X : Z.to_N (a + 256 * b) = Z.to_N a + Z.to_N b * 256) by lia.
  rewrite X. rewrite N.mod_add by discriminate. rewrite N.div_add by discriminate.
  rewrite N.mod_small by lia. rewrite (N.div_small (Z.to_N a)) by lia. reflexivity.
Qed.
Lemma rep_fits t v : fits (width t) (e_rep t v).
Proof.
  unfold e_rep. assert (B := Z.mod_pos_bound v (2 ^ (8 * Z.of_nat (width t)))). destruct t; cbn [width] in *; unfold fits;
  (match goal with |- _ < ?x => let y := eval vm_compute in x in change x with y end);
  (match type of B with context [(2 ^ (8 * Z.of_nat ?k))%Z] => let e := constr:((2 ^ (8 * Z.of_nat k))%Z) in let y := eval vm_compute in e in change e with y in * end); lia.
Qed.
Lemma rep_value t v : in_range t v -> e_value t (e_rep t v) = Ret v.
Proof.
  unfold e_rep. destruct t; cbn [width in_range e_value]; intros R;
  (match goal with |- context [(2 ^ (8 * Z.of_nat ?k))%Z] => let e := constr:((2 ^ (8 * Z.of_nat k))%Z) in let y := eval vm_compute in e in change e with y in * end).
  1: destruct R as [-> | ->]; reflexivity.
  all: try (rewrite Z.mod_small by lia; f_equal; lia).
  all: revert R; match goal with |- context [(?x mod ?M)%Z] => intros R; destruct (Z_le_gt_dec 0 x);
        [rewrite (Z.mod_small x M) by lia | rewrite <- (Z.mod_unique x M (-1) (x + M)) by lia] end;
       match goal with |- context [?a <? ?b] => destruct (N.ltb_spec a b) end; try lia; f_equal; lia.
Qed.
Lemma rep_twos t v : le (width t) (e_rep t v) = twos (width t) v.
Proof. unfold e_rep. rewrite twos_le. reflexivity. Qed.
Lemma typed_set t w c i a v : rbuf_ok w -> c < 256 -> i < 256 -> a < 256 ->
  let req := set_request (se_id (w_se w)) c i a (twos (width t) v) in
  exists o w', setAttribute t c i a v w = (o, w') /\ exchanged w req w' /\
  forall got sv ad q, reply_of (w_ctl w) req = Reply got -> answers (se_id (w_se w)) got sv 0 ad q -> o = Ret tt.
Proof.
  intros R Hc Hi Ha. cbv zeta. unfold setAttribute, setSingleAttribute. rewrite <- rep_twos.
  destruct (set_attribute w c i a (Some (prim_ser (width t) (e_rep t v))) (le (width t) (e_rep t v)) R Hc Hi Ha (carries_prim _ _ _)) as (o & w' & E & X & O).
  exists o, w'. split; [exact E|]. split; [exact X|]. intros got sv ad q G A. rewrite G in O. destruct O as [[_ O]|[[C _]|[N _]]]; [exact O| |].
  - exfalso. exact (answers_not_crash _ _ _ _ _ _ A C).
  - exfalso. exact (N _ _ _ A).
Qed.
Lemma read_back t junk w c i a got sv ad n rest : rbuf_ok w -> c < 256 -> i < 256 -> a < 256 ->
  reply_of (w_ctl w) (get_request (se_id (w_se w)) c i a) = Reply got -> fits (width t) n -> answers (se_id (w_se w)) got sv 0 ad (le (width t) n ++ rest) ->
  exists w', getAttribute t junk c i a w = (e_value t n, w') /\ exchanged w (get_request (se_id (w_se w)) c i a) w'.
Proof.
  intros R Hc Hi Ha Er F A. destruct (get_attribute w (width t) junk c i a R Hc Hi Ha) as (o & w' & E & X & O). rewrite Er in O.
  assert (Eo : o = Ret n).
  { destruct O as [(sv' & ad' & v' & rest' & A' & F' & _ & ->)|[(sv' & ad' & d & s & A' & L & _)|[[C _]|(N & _)]]].
    - destruct (answers_inj _ _ _ _ _ _ _ _ _ _ A A') as (_ & _ & _ & Y). apply app_eq_len in Y; [|rewrite !len_le; reflexivity].
      destruct Y as [Y _]. f_equal. symmetry. eapply le_inj; eassumption.
    - destruct (answers_inj _ _ _ _ _ _ _ _ _ _ A A') as (_ & _ & _ & <-). rewrite len_app, len_le in L. lia.
    - destruct C as [C|(sv' & ad' & A')]; [exfalso; exact (answers_not_crash _ _ _ _ _ _ A C)|].
      destruct (answers_inj _ _ _ _ _ _ _ _ _ _ A A') as (_ & _ & _ & Y). apply (f_equal len) in Y. rewrite len_app, len_le in Y.
      change (len (@nil byte)) with 0 in Y. destruct t; cbn [width] in Y; lia.
    - exfalso. exact (N _ _ _ A). }
  subst o. exists w'. split; [|exact X]. unfold getAttribute, mbind. rewrite E. reflexivity.
Qed.
Lemma typed_get t junk w c i a got sv ad v rest : rbuf_ok w -> c < 256 -> i < 256 -> a < 256 -> in_range t v ->
  reply_of (w_ctl w) (get_request (se_id (w_se w)) c i a) = Reply got -> answers (se_id (w_se w)) got sv 0 ad (twos (width t) v ++ rest) ->
  exists w', getAttribute t junk c i a w = (Ret v, w') /\ exchanged w (get_request (se_id (w_se w)) c i a) w'.
Proof.
  intros R Hc Hi Ha V Er A. rewrite <- rep_twos in A. rewrite <- (rep_value t v V). eapply read_back; try eassumption. apply rep_fits.
Qed.
Lemma bool_trap junk w c i a got sv ad b rest : rbuf_ok w -> c < 256 -> i < 256 -> a < 256 -> b <> x00 -> b <> x01 ->
  reply_of (w_ctl w) (get_request (se_id (w_se w)) c i a) = Reply got -> answers (se_id (w_se w)) got sv 0 ad (b :: rest) ->
  exists w', getAttribute EBool junk c i a w = (Undef Indeterminate, w').
Proof.
  intros R Hc Hi Ha B0 B1 Er A.
  assert (L : b :: rest = le (width EBool) (Byte.to_N b) ++ rest).
  { cbn [width le List.app]. f_equal. destruct b; reflexivity. }
  rewrite L in A. destruct (read_back EBool junk w c i a got sv ad (Byte.to_N b) rest R Hc Hi Ha Er) as (w' & E & _); [destruct b; reflexivity|exact A|].
  exists w'. rewrite E. f_equal. cbn [e_value]. destruct (N.eqb_spec (Byte.to_N b) 0) as [Z|Z]; [exfalso; apply B0; destruct b; try discriminate; reflexivity|].
  destruct (N.eqb_spec (Byte.to_N b) 1) as [Z1|Z1]; [exfalso; apply B1; destruct b; try discriminate; reflexivity|]. reflexivity.
Qed.
Lemma typed_round u w x y z ty v ops rs w1 junk v' w2 es t t' : session_ok w -> user_memory u w -> in_range ty v -> x < 256 -> y < 256 -> z < 256 ->
  Forall (op_ok u) ops -> Forall (fun o => ~ is_open_close o) ops -> Forall (fun o => ~ sets o (x, y, z)) ops ->
  exec (OpSet x y z (Some (prim_ser (width ty) (e_rep ty v))) :: ops) w = (Ret RUnit :: rs, w1) -> getAttribute ty junk x y z w1 = (Ret v', w2) ->
  gained w w2 es -> agrees (w_se w) t -> numbers_ok (w_se w) -> conforms t (ctl_talk es) t' -> v' = v.
Proof.
  intros S U V Hx Hy Hz O1 O2 O3 E G Gn Ag Nu Co. unfold getAttribute, mbind in G.
  destruct (getSingleAttribute (width ty) junk x y z w1) as [[n| | |] w3] eqn:E3; try discriminate.
  unfold mout in G. apply pair_equal_spec in G. destruct G as [G <-].
  assert (K : carries_opt u (Some (prim_ser (width ty) (e_rep ty v))) (le (width ty) (e_rep ty v))) by apply carries_prim.
  assert (O0 : op_ok u (OpSet x y z (Some (prim_ser (width ty) (e_rep ty v))))).
  { cbn [op_ok]. split; [exact Hx|]. split; [exact Hy|]. split; [exact Hz|]. eexists. split; [exact K|]. rewrite len_le. destruct ty; reflexivity. }
  destruct (set_get u w x y z (Some (prim_ser (width ty) (e_rep ty v))) (le (width ty) (e_rep ty v)) ops rs w1 (width ty) junk n w3 es t t') as (F & rest & D);
    try assumption; [apply Forall_cons; assumption|].
  rewrite <- (app_nil_r (le (width ty) (e_rep ty v))) in D. apply app_eq_len in D; [|rewrite !len_le; reflexivity]. destruct D as [D _].
  apply le_inj in D; [|apply rep_fits|exact F]. subst n. rewrite (rep_value ty v V) in G. injection G as <-. reflexivity.
Qed.

(** ** C102 *)
Definition related {T A} (P Q : T -> T -> Prop) (x y : D T A) : Prop := forall m v c t t', P t t' ->
  match x m (RBuf v c) t, y m (RBuf v c) t' with
  | (o, m1, r1, u), (o', m1', r1', u') => o' = o /\ m1' = m1 /\ r1' = r1 /\ forall a, o = Ret a -> Q u u' /\ exists v' c', r1 = RBuf v' c'
  end.
Lemma rel_bind {T A B} (P Q R : T -> T -> Prop) (x y : D T A) (f g : A -> D T B) :
  related P Q x y -> (forall a, related Q R (f a) (g a)) -> related P R (dbind x f) (dbind y g).
Proof.
  intros X F m v c t t' H. specialize (X m v c t t' H). unfold dbind.
  destruct (x m (RBuf v c) t) as [[[o m1] r1] u], (y m (RBuf v c) t') as [[[o' m1'] r1'] u']. destruct X as (-> & -> & -> & X).
  destruct o as [a|e s|e|]; [|repeat split; discriminate..].
  destruct (X a eq_refl) as (Y & v' & c' & ->). exact (F a m1 v' c' u u' Y).
Qed.
Lemma rel_raw {T} (P Q : T -> T -> Prop) n g g' s s' : (forall t t' bs, P t t' -> Q (s bs t) (s' bs t')) ->
  related P Q (rd_raw (T := T) n g s) (rd_raw n g' s').
Proof.
  intros S m v c t t' H. unfold rd_raw. destruct (v_len v <? n); [repeat split; discriminate|].
  destruct (load m (v_blk v) (v_off v) n) as [bs| | |]; repeat split; try discriminate; eauto.
Qed.
Lemma rel_uint {T} (P Q : T -> T -> Prop) k g g' s s' : (forall t t' x, P t t' -> Q (s x t) (s' x t')) ->
  related P Q (rd_uint (T := T) k g s) (rd_uint k g' s').
Proof. intros S. apply rel_raw. intros. apply S. assumption. Qed.
Lemma rel_local {T} (P : T -> T -> Prop) k : related P P (rd_local k) (rd_local k).
Proof.
  intros m v c t t' H. unfold rd_local. destruct (v_len v <? N.of_nat k); [repeat split; discriminate|].
  destruct (load m (v_blk v) (v_off v) (N.of_nat k)) as [bs| | |]; repeat split; try discriminate; eauto.
Qed.
Lemma rel_skip {T} (P : T -> T -> Prop) n : related P P (rd_skip n) (rd_skip n).
Proof. intros m v c t t' H. unfold rd_skip. destruct (v_len v <? n); repeat split; try discriminate; eauto. Qed.
Lemma rel_count {T} (P : T -> T -> Prop) : related P P rd_count rd_count.
Proof. intros m v c t t' H. unfold rd_count. repeat split; eauto. Qed.
Lemma rel_mod {T} (P Q : T -> T -> Prop) f g : (forall t t', P t t' -> Q (f t) (g t')) -> related P Q (dmod f) (dmod g).
Proof. intros F m v c t t' H. unfold dmod. repeat split; eauto. Qed.
Lemma rel_ret {T A} (P : T -> T -> Prop) (a : A) : related P P (dret a) (dret a).
Proof. intros m v c t t' H. unfold dret. repeat split; eauto. Qed.
Lemma rel_throw {T A} (P Q : T -> T -> Prop) e s : related (A := A) P Q (dthrow e s) (dthrow e s).
Proof. intros m v c t t' H. unfold dthrow. repeat split; discriminate. Qed.
Lemma rel_undef {T A} (P Q : T -> T -> Prop) e : related (A := A) P Q (dundef e) (dundef e).
Proof. intros m v c t t' H. unfold dundef. repeat split; discriminate. Qed.
Lemma rel_out {T A} (P : T -> T -> Prop) (x : outcome A) : related P P (d_outcome x) (d_outcome x).
Proof. intros m v c t t' H. unfold d_outcome. repeat split; eauto. Qed.
Lemma rel_at {T A} (P : T -> T -> Prop) (l : list A) i : related P P (d_at l i) (d_at l i).
Proof. unfold d_at. destruct (nth_error l i); [apply rel_ret|apply rel_throw]. Qed.
(** A local object: the reader must be a buffer afterwards. *)
Definition stays {T A} (x : D T A) : Prop := forall m v c t a m' r u, x m (RBuf v c) t = (Ret a, m', r, u) -> exists v' c', r = RBuf v' c'.
Lemma rel_dlocal {T U} (P : T -> T -> Prop) (u0 : U) x : stays x -> related P P (dlocal u0 x) (dlocal u0 x).
Proof.
  intros S m v c t t' H. unfold dlocal. destruct (x m (RBuf v c) u0) as [[[o m1] r1] u] eqn:E.
  destruct o; repeat split; try discriminate; try assumption. eapply S. exact E.
Qed.
Lemma rel_stays {T A} (P Q : T -> T -> Prop) (x : D T A) : (forall t, P t t) -> related P Q x x -> stays x.
Proof.
  intros I R m v c t a m' r u E. specialize (R m v c t t (I t)). rewrite E in R. destruct R as (_ & _ & _ & R). apply (R a eq_refl).
Qed.
Lemma rel_zoom {T U A} (P Q : T -> T -> Prop) (P' Q' : U -> U -> Prop) (g : T -> U) p (x y : D U A) :
  (forall t t', P t t' -> P' (g t) (g t')) -> (forall t t' u u', P t t' -> Q' u u' -> Q (p u t) (p u' t')) ->
  related P' Q' x y -> related P Q (dzoom g p x) (dzoom g p y).
Proof.
  intros G S R m v c t t' H. unfold dzoom. specialize (R m v c (g t) (g t') (G t t' H)).
  destruct (x m (RBuf v c) (g t)) as [[[o m1] r1] u], (y m (RBuf v c) (g t')) as [[[o' m1'] r1'] u']. destruct R as (-> & -> & -> & R).
  repeat split. - apply S; [exact H|]. apply (R a H0). - apply (R a H0).
Qed.
Lemma rel_weak {T A} (P P' Q Q' : T -> T -> Prop) (x y : D T A) : (forall t t', P t t' -> P' t t') -> (forall t t', Q' t t' -> Q t t') ->
  related P' Q' x y -> related P Q x y.
Proof.
  intros A1 A2 R m v c t t' H. specialize (R m v c t t' (A1 _ _ H)).
  destruct (x m (RBuf v c) t) as [[[o m1] r1] u], (y m (RBuf v c) t') as [[[o' m1'] r1'] u']. destruct R as (-> & -> & -> & R).
  split; [reflexivity|]. split; [reflexivity|]. split; [reflexivity|]. intros a E. destruct (R a E). auto.
Qed.
(** Equal objects. *)
Lemma sb_stays n : stays (sb_deserialize_len n).
Proof.
  intros m v c t a m' r u E. apply sb_inv in E. destruct E as (_ & v' & ->). eauto.
Qed.
Definition anyT {T} (t t' : T) : Prop := True.
Lemma forget_of {T} (x : D T unit) : related anyT eq x x -> forall t0 t1, same_into x t0 t1.
Proof.
  intros R t0 t1 m v c. specialize (R m v c t0 t1 Logic.I). unfold alike.
  destruct (x m (RBuf v c) t0) as [[[o m1] r1] u], (x m (RBuf v c) t1) as [[[o' m1'] r1'] u']. destruct R as (-> & -> & -> & R).
  repeat split. intros E. symmetry. apply (R tt E).
Qed.
Lemma forgets_virtual {T} check (x : D T unit) sb : related anyT eq x x -> forgets (mkCls (DLVirtual check) x sb).
Proof.
  intros R t0 t1. split; [exact (forget_of x R t0 t1)|]. intros n. unfold deserialize_len. cbn [c_deslen c_des].
  destruct (check 0 n) as [[e s]|]; [|exact (forget_of x R t0 t1)]. apply forget_of. apply rel_throw.
Qed.
Lemma forgets_direct {T} f (x : D T unit) sb : related anyT eq x x -> (forall n, related anyT eq (f n) (f n)) -> forgets (mkCls (DLDirect f) x sb).
Proof. intros R F t0 t1. split; [exact (forget_of x R t0 t1)|]. intros n. exact (forget_of _ (F n) t0 t1). Qed.

(** Members read so far. *)
Definition same {T U} (f : T -> U) (P : T -> T -> Prop) (t t' : T) : Prop := P t t' /\ f t = f t'.
Ltac parts := unfold same, anyT in *; cbn in *; repeat match goal with H : _ /\ _ |- _ => destruct H end.
Ltac member := intros; parts; repeat split; try assumption; try congruence.
Ltac whole := intros; repeat match goal with t : _ |- _ = _ => is_var t; destruct t end; parts; congruence.
Ltac with_bind f tac := match goal with |- related ?P _ _ _ => apply (rel_bind P (same f P)); [tac|intros _] end.
Ltac reads f := with_bind f ltac:(apply rel_uint; member).
Ltac reads_raw f := with_bind f ltac:(apply rel_raw; member).
Ltac keeps tac := match goal with |- related ?P _ _ _ => apply (rel_bind P P); [tac|intros ?] end.

Lemma hdr_rel : related anyT eq hdr_deserialize hdr_deserialize.
Proof.
  unfold hdr_deserialize. reads h_command. reads h_length. reads h_session. reads h_status.
  with_bind (fun h => (h_ctx0 h, h_ctx1 h)) ltac:(apply rel_raw; member). apply rel_uint. intros [] [] x H. parts. unfold hdr_set_options. cbn. congruence.
Qed.
Lemma payload_rel {T} (P Q : T -> T -> Prop) n (f g : option ser -> T -> T) : (forall t t' d, P t t' -> Q (f d t) (g d t')) ->
  related P Q (sb <- dlocal sb_empty (sb_deserialize_len n) ;;; dmod (f (Some (ser_of_sbuf sb)))) (sb <- dlocal sb_empty (sb_deserialize_len n) ;;; dmod (g (Some (ser_of_sbuf sb)))).
Proof.
  intros F. apply (rel_bind P P); [apply rel_dlocal; apply sb_stays|]. intros sb. apply rel_mod. intros. apply F. assumption.
Qed.
Lemma rel_get {T A} (P Q : T -> T -> Prop) (f g : T -> D T A) : (forall t t', P t t' -> related (fun u u' => u = t /\ u' = t') Q (f t) (g t')) ->
  related P Q (dbind dget f) (dbind dget g).
Proof. intros F m v c t t' H. unfold dbind, dget. exact (F t t' H m v c t t' (conj eq_refl eq_refl)). Qed.
Lemma ep_rel : related anyT eq ep_deserialize ep_deserialize.
Proof.
  unfold ep_deserialize. apply (rel_bind _ (same ep_header anyT)).
  - eapply (rel_zoom _ _ anyT eq); [| |exact hdr_rel]; [intros; exact Logic.I|]. intros t t' u u' _ ->. split; [exact Logic.I|reflexivity].
  - intros _. apply rel_get. intros t t' [_ E]. rewrite E. destruct (0 <? h_length (ep_header t')).
    + apply payload_rel. intros ? ? d [-> ->]. unfold ep_set_payload_field. rewrite E. reflexivity.
    + apply rel_mod. intros ? ? [-> ->]. unfold ep_set_payload_field. rewrite E. reflexivity.
Qed.
Lemma ep_len_rel n : related anyT eq (ep_deserialize_len n) (ep_deserialize_len n).
Proof.
  unfold ep_deserialize_len. destruct (n <? hdr_getLength); [apply rel_throw|]. apply (rel_bind _ (same ep_header anyT)).
  - eapply (rel_zoom _ _ anyT eq); [| |exact hdr_rel]; [intros; exact Logic.I|]. intros t t' u u' _ ->. split; [exact Logic.I|reflexivity].
  - intros _. apply rel_get. intros t t' [_ E]. rewrite E. destruct (negb _); [apply rel_throw|]. destruct (0 <? h_length (ep_header t')).
    + apply (rel_bind _ eq).
      * apply rel_mod. intros ? ? [-> ->]. unfold ep_set_payload_field. rewrite E. reflexivity.
      * intros _. apply (payload_rel eq eq). intros ? ? d ->. reflexivity.
    + apply rel_mod. intros ? ? [-> ->]. unfold ep_set_payload_field. rewrite E. reflexivity.
Qed.
Lemma it_data_rel n : related (same it_type anyT) eq (it_deserializeData n) (it_deserializeData n).
Proof.
  unfold it_deserializeData. destruct (0 <? n).
  - apply (rel_bind _ eq); [apply rel_mod; intros t t' [_ E]; unfold it_set_data; rewrite E; reflexivity|]. intros _. apply payload_rel. intros ? ? d ->. reflexivity.
  - apply rel_mod; intros t t' [_ E]; unfold it_set_data; rewrite E; reflexivity.
Qed.
Lemma it_rel : related anyT eq it_deserialize it_deserialize.
Proof. unfold it_deserialize. reads it_type. keeps ltac:(apply rel_local). apply it_data_rel. Qed.
Lemma it_len_rel n : related anyT eq (it_deserialize_len n) (it_deserialize_len n).
Proof.
  unfold it_deserialize_len. destruct (n <? 4); [apply rel_throw|]. reads it_type. keeps ltac:(apply rel_local). destruct (n <? _); [apply rel_throw|apply it_data_rel].
Qed.
Lemma cpf_loop_rel n : related eq eq (cpf_loop n) (cpf_loop n).
Proof.
  induction n as [|n IH]; cbn [cpf_loop]; [apply rel_ret|]. keeps ltac:(apply rel_dlocal; eapply rel_stays; [|exact it_rel]; intros; exact Logic.I).
  keeps ltac:(apply rel_mod; intros ? ? ->; reflexivity). exact IH.
Qed.
Lemma cpf_rel : related anyT eq cpf_deserialize cpf_deserialize.
Proof.
  unfold cpf_deserialize. apply (rel_bind _ eq); [apply rel_mod; reflexivity|]. intros _. keeps ltac:(apply rel_local). apply cpf_loop_rel.
Qed.
Lemma read_data_rel (P : mr_response -> mr_response -> Prop) n : related P P (ms_readData n) (ms_readData n).
Proof. unfold ms_readData. destruct (positive_int n); [|apply rel_ret]. keeps ltac:(apply rel_dlocal; apply sb_stays). apply rel_ret. Qed.
Lemma ms_rel n : related anyT eq (ms_deserialize_len n) (ms_deserialize_len n).
Proof.
  unfold ms_deserialize_len. reads ms_service. with_bind (fun t : mr_response => tt) ltac:(apply rel_uint; member). reads ms_status.
  keeps ltac:(apply rel_local). keeps ltac:(apply read_data_rel). with_bind ms_additional ltac:(apply rel_mod; member).
  keeps ltac:(apply rel_count). keeps ltac:(apply read_data_rel). apply rel_mod. intros [] [] H. parts. unfold ms_set_data. cbn. congruence.
Qed.
Lemma rel_finally {T A} (P Q : T -> T -> Prop) (x y : D T A) p :
  related P Q x y -> related P Q (dfinally x (d_drop_items p)) (dfinally y (d_drop_items p)).
Proof.
  intros R m v c t t' H. specialize (R m v c t t' H). unfold dfinally.
  destruct (x m (RBuf v c) t) as [[[o m1] r1] u], (y m (RBuf v c) t') as [[[o' m1'] r1'] u']. destruct R as (-> & -> & -> & R).
  destruct (drop_items_pure p m1) as (od & m2 & E). destruct o as [a|e s|e|]; try (repeat split; discriminate).
  - unfold dbind. rewrite !E. destruct od; try (repeat split; discriminate). unfold dret. repeat split; try (apply (R a eq_refl)).
  - unfold dbind. rewrite !E. destruct od; try (repeat split; discriminate).
Qed.
Lemma rr_rel {X} (setData : cpf_item -> D (rr_data X) unit) :
  (forall i, related (same rr_timeout (same rr_iface anyT)) eq (setData i) (setData i)) -> related anyT eq (rr_deserialize setData) (rr_deserialize setData).
Proof.
  intros S. unfold rr_deserialize. reads (@rr_iface X). reads (@rr_timeout X).
  keeps ltac:(apply rel_dlocal; eapply rel_stays; [|exact cpf_rel]; intros; exact Logic.I).
  apply rel_finally. destruct (cpf_getItemCount _ <? 2); [apply rel_throw|]. keeps ltac:(apply rel_at). destruct (negb _); [apply rel_throw|].
  keeps ltac:(apply rel_out). destruct (negb _); [apply rel_throw|]. keeps ltac:(apply rel_at). destruct (negb _); [apply rel_throw|]. apply S.
Qed.
Lemma run_rel {T} (x : D T unit) v m t t' : related anyT eq x x ->
  match run_reader x v m t, run_reader x v m t' with (o, m1, u), (o', m1', u') => o' = o /\ m1' = m1 /\ (o = Ret tt -> u' = u) end.
Proof.
  intros R. unfold run_reader. specialize (R m v 0 t t' Logic.I).
  destruct (x m (RBuf v 0) t) as [[[o m1] r1] u], (x m (RBuf v 0) t') as [[[o' m1'] r1'] u']. destruct R as (-> & -> & _ & R). repeat split.
  intros E. symmetry. apply (R tt E).
Qed.
Lemma copy_rel s m (t t' : mr_response) :
  match copy_serializable ms_cls s m t, copy_serializable ms_cls s m t' with (o, m1, u), (o', m1', u') => o' = o /\ m1' = m1 /\ (o = Ret tt -> u' = u) end.
Proof.
  unfold copy_serializable. cbn [c_sb ms_cls]. destruct (s_sbuf s) as [sb|]; [destruct (s_length s) as [n| | |]; [apply run_rel; apply ms_rel|repeat split; discriminate..]|].
  destruct (s_length s) as [n| | |]; [|repeat split; discriminate..]. destruct (alloc m (zeros n)) as [b m1].
  destruct (s_serialize s m1 (WBuf (mkV b 0 n) 0)) as [[[[]|e x|e|] m2] w2].
  - pose proof (run_rel (deserialize_len ms_cls n) (mkV b 0 n) m2 t t' (ms_rel n)) as R.
    destruct (run_reader _ _ _ t) as [[o m3] u], (run_reader _ _ _ t') as [[o' m3'] u']. destruct R as (-> & -> & R).
    destruct (free m3 b); repeat split; discriminate || exact R.
  - destruct (free m2 b); repeat split; discriminate.
  - destruct (free m2 b); repeat split; discriminate.
  - destruct (free m2 b); repeat split; discriminate.
Qed.
Lemma data_rel i : related anyT eq (it_getDataAs ms_cls i) (it_getDataAs ms_cls i).
Proof.
  unfold it_getDataAs, d_copy. intros m v c t t' _. destruct (it_data i) as [s|]; [|repeat split; discriminate].
  pose proof (copy_rel s m t t') as R. destruct (copy_serializable ms_cls s m t) as [[o m1] u], (copy_serializable ms_cls s m t') as [[o' m1'] u'].
  destruct R as (-> & -> & R). repeat split; eauto. destruct a. symmetry. apply R. assumption.
Qed.
Lemma rg_rel : related anyT eq rg_deserialize rg_deserialize.
Proof. unfold rg_deserialize. reads rg_version. apply rel_uint. intros [] [] x H. parts. congruence. Qed.
Lemma sa_rel : related anyT eq sa_deserialize sa_deserialize.
Proof. unfold sa_deserialize. reads sa_connection. apply rel_uint. intros [] [] x H. parts. congruence. Qed.
Lemma fs_rel : related anyT eq fs_deserialize fs_deserialize.
Proof.
  unfold fs_deserialize. reads fs_o2t_id. reads fs_t2o_id. reads fs_conn_sn. reads fs_vendor. reads fs_orig_sn. reads fs_o2t_api. reads fs_t2o_api.
  keeps ltac:(apply rel_local). keeps ltac:(apply rel_skip). destruct (0 <? _).
  - apply payload_rel. intros [] [] d H. parts. unfold fs_set_data. cbn. congruence.
  - apply rel_mod. intros [] [] H. parts. unfold fs_set_data. cbn. congruence.
Qed.
Lemma cs_rel : related anyT eq cs_deserialize cs_deserialize.
Proof.
  unfold cs_deserialize. reads cs_conn_sn. reads cs_vendor. reads cs_orig_sn. keeps ltac:(apply rel_local). keeps ltac:(apply rel_skip). destruct (0 <? _).
  - apply (payload_rel _ _ _ (fun d f => mkFCS (cs_conn_sn f) (cs_vendor f) (cs_orig_sn f) d) (fun d f => mkFCS (cs_conn_sn f) (cs_vendor f) (cs_orig_sn f) d)).
    intros [] [] d H. parts. congruence.
  - apply rel_mod. intros [] [] H. parts. congruence.
Qed.
Lemma prim_rel k : related anyT eq (prim_des k) (prim_des k).
Proof. unfold prim_des. apply rel_uint. reflexivity. Qed.
Lemma len_resize n l : len (resize n l) = n.
Proof. unfold resize. rewrite len_app, len_take, len_zeros. lia. Qed.
Lemma id_rel : related anyT eq id_deserialize id_deserialize.
Proof.
  unfold id_deserialize. reads id_version. reads_raw id_sockaddr. reads id_vendor. reads id_device. reads id_product. reads_raw id_revision.
  reads id_status. reads id_serial. keeps ltac:(apply rel_local).
  match goal with |- related ?P _ _ _ => apply (rel_bind P (fun t t' => P t t' /\ len (id_name t) = a /\ len (id_name t') = a)) end.
  { apply rel_mod. intros t t' H. cbn [id_name id_set_name]. rewrite !len_resize. split; [|split; reflexivity]. parts. repeat split; assumption. }
  intros _. match goal with |- related (fun t t' => ?P t t' /\ _) _ _ _ => apply (rel_bind _ (same id_name P)) end.
  - unfold rd_name. apply rel_get. intros t t' (H & L & L'). rewrite L, L'. destruct (a <? a); [apply rel_undef|].
    apply rel_raw. intros u u' bs [-> ->]. split; [parts; repeat split; assumption|]. cbn [id_name id_set_name]. rewrite !drop_all by lia. reflexivity.
  - intros _. apply rel_uint. intros [] [] x H. parts. unfold id_set_state. cbn. congruence.
Qed.
Lemma rrs_rel : related anyT eq rrs_deserialize rrs_deserialize.
Proof.
  apply rr_rel. intros i. eapply (rel_zoom _ _ anyT eq); [| |apply data_rel]; [intros; exact Logic.I|].
  intros [] [] u u' H ->. parts. unfold rr_set_ext. cbn. congruence.
Qed.
Lemma all_forget : forgets hdr_cls /\ forgets ep_cls /\ forgets it_cls /\ forgets cpf_cls /\ forgets mq_cls /\ forgets ms_cls /\ forgets rr_base_cls /\
  forgets rrq_cls /\ forgets rrs_cls /\ forgets rg_cls /\ forgets sa_cls /\ forgets id_cls /\ forgets fo_cls /\ forgets fc_cls /\ forgets fs_cls /\ forgets cs_cls /\
  (forall k, forgets (prim_cls k)).
Proof.
  split; [apply forgets_virtual, hdr_rel|]. split; [apply forgets_direct; [apply ep_rel|apply ep_len_rel]|]. split; [apply forgets_direct; [apply it_rel|apply it_len_rel]|].
  split; [apply forgets_virtual, cpf_rel|]. split; [apply forgets_direct; intros; apply rel_throw|]. split; [apply forgets_direct; [apply rel_throw|apply ms_rel]|].
  split; [apply forgets_virtual, rr_rel; intros _; intros m v c [? ? []] [? ? []] H; parts; unfold dret; repeat split; eauto; congruence|].
  split; [apply forgets_virtual, rr_rel; intros _; apply rel_throw|]. split; [apply forgets_virtual, rrs_rel|]. split; [apply forgets_virtual, rg_rel|].
  split; [apply forgets_virtual, sa_rel|]. split; [apply forgets_virtual, id_rel|]. split; [apply forgets_direct; intros; apply rel_throw|].
  split; [apply forgets_direct; intros; apply rel_throw|]. split; [apply forgets_virtual, fs_rel|]. split; [apply forgets_virtual, cs_rel|].
  intros k. apply forgets_virtual, prim_rel.
Qed.
(** Objects with a sequence number. *)
Lemma alike_base {T} (x : D T unit) (q0 q1 : seqitem T) m v c : alike (x m (RBuf v c) (sq_base q0)) (x m (RBuf v c) (sq_base q1)) ->
  sq_num q0 = sq_num q1 ->
  alike (dbind (on_base x) (fun _ => dmod (sq_put_busy false)) m (RBuf v c) q0) (dbind (on_base x) (fun _ => dmod (sq_put_busy false)) m (RBuf v c) q1).
Proof.
  intros H E. unfold dbind, on_base, dzoom, alike in *. destruct (x m (RBuf v c) (sq_base q0)) as [[[o m1] r1] u], (x m (RBuf v c) (sq_base q1)) as [[[o' m1'] r1'] u'].
  destruct H as (-> & -> & -> & H). destruct o as [[]|e s|e|]; unfold dmod; repeat split; try discriminate.
  intros _. rewrite (H eq_refl). unfold sq_put_busy, sq_put_base. cbn. rewrite E. reflexivity.
Qed.
Lemma alike_busy {T} (x : D T unit) (q0 q1 : seqitem T) : (forall m v c, alike (x m (RBuf v c) (sq_base q0)) (x m (RBuf v c) (sq_base q1))) ->
  forall m v c, alike
    (dbind (rd_uint 2 sq_num sq_put_num) (fun _ => dbind (dmod (sq_put_busy true)) (fun _ => dbind (on_base x) (fun _ => dmod (sq_put_busy false)))) m (RBuf v c) q0)
    (dbind (rd_uint 2 sq_num sq_put_num) (fun _ => dbind (dmod (sq_put_busy true)) (fun _ => dbind (on_base x) (fun _ => dmod (sq_put_busy false)))) m (RBuf v c) q1).
Proof.
  intros H m v c. unfold dbind at 1 4. unfold rd_uint, rd_raw. destruct (v_len v <? N.of_nat 2); [repeat split; discriminate|].
  destruct (load m (v_blk v) (v_off v) (N.of_nat 2)) as [bs| | |]; [|repeat split; discriminate..].
  change (@dbind (seqitem T) unit unit (dmod (sq_put_busy true))) with (fun (f : unit -> D (seqitem T) unit) => fun m r t => f tt m r (sq_put_busy (T := T) true t)).
  cbv beta. apply alike_base; [apply H|reflexivity].
Qed.
Lemma sequenced_alike {T} (c : cls T) q0 q1 : sq_busy q0 = false -> sq_busy q1 = false ->
  (same_into (c_des c) (sq_base q0) (sq_base q1) -> same_into (sq_deserialize c) q0 q1) /\
  (forall n, same_into (c_des c) (sq_base q0) (sq_base q1) -> same_into (deserialize_len c (sq_sublen n)) (sq_base q0) (sq_base q1) -> same_into (sq_deserialize_len c n) q0 q1).
Proof.
  intros B0 B1. split.
  - intros H m v k. unfold sq_deserialize, dbind at 1 5, dget. rewrite B0, B1. apply alike_busy. exact H.
  - intros n D H m v k. unfold sq_deserialize_len, dbind at 1 5, dget. rewrite B0, B1. unfold deserialize_len in H. unfold sq_base_deslen.
    destruct (c_deslen c) as [f|check]; [apply alike_busy; exact H|]. destruct (check 2 (sq_sublen n)) as [[e s]|].
    + unfold dbind at 1 4. unfold rd_uint, rd_raw. destruct (v_len v <? N.of_nat 2); [repeat split; discriminate|].
      destruct (load m (v_blk v) (v_off v) (N.of_nat 2)) as [bs| | |]; repeat split; discriminate.
    + pose proof (alike_busy (c_des c) q0 q1 D m v k) as A. unfold dbind in *. unfold rd_uint, rd_raw in *.
      destruct (v_len v <? N.of_nat 2); [repeat split; discriminate|].
      destruct (load m (v_blk v) (v_off v) (N.of_nat 2)) as [bs| | |]; [|repeat split; discriminate..]. unfold sq_deserialize, dbind, dget, dmod in *.
      cbn [sq_busy sq_put_busy]. exact A.
Qed.
Lemma buffer_alike n t0 t1 : sb_alloc t0 = None -> sb_alloc t1 = None -> same_into (sb_deserialize_len n) t0 t1.
Proof.
  intros A0 A1 m v c. unfold sb_deserialize_len, rd_is_buffer, sb_delete, dbind, dget, dret. rewrite A0, A1. unfold rd_view.
  destruct (v_len v <? n); [repeat split; discriminate|]. unfold dmod. repeat split. rewrite A0, A1. reflexivity.
Qed.

(** ** Examples *)
Lemma get_typed_example : let w := w9 [RxData (explicit_reply 9 0x8E 0 [xfe; xff])] [] in
  rbuf_ok w /\ in_range EInt (-2) /\ reply_of (w_ctl w) (get_request (se_id (w_se w)) 1 2 3) = Reply (explicit_reply 9 0x8E 0 [xfe; xff]) /\
  answers (se_id (w_se w)) (explicit_reply 9 0x8E 0 [xfe; xff]) 0x8E 0 [] (twos (width EInt) (-2) ++ []) /\
  exists w', getAttribute EInt 77 1 2 3 w = (Ret (-2)%Z, w').
Proof.
  split; [apply rbuf_w9|]. split; [cbn; lia|]. split; [vm_compute; reflexivity|].
  split; [change (twos (width EInt) (-2) ++ []) with [xfe; xff]; apply answers_9; reflexivity|]. eexists. vm_compute. reflexivity.
Qed.
Lemma bool_example : let w := w9 [RxData (explicit_reply 9 0x8E 0 [xff])] [] in
  rbuf_ok w /\ reply_of (w_ctl w) (get_request (se_id (w_se w)) 1 2 3) = Reply (explicit_reply 9 0x8E 0 [xff]) /\
  answers (se_id (w_se w)) (explicit_reply 9 0x8E 0 [xff]) 0x8E 0 [] [xff].
Proof. split; [apply rbuf_w9|]. split; [vm_compute; reflexivity|]. apply answers_9; reflexivity. Qed.
Lemma set_typed_example : let w := w9 [RxData (explicit_reply 9 0x90 0 [])] [] in
  rbuf_ok w /\ twos (width EDint) (-2147483648) = [x00; x00; x00; x80] /\ exists w', setAttribute EDint 1 2 3 (-2147483648) w = (Ret tt, w').
Proof. split; [apply rbuf_w9|]. split; [vm_compute; reflexivity|]. eexists. vm_compute. reflexivity. Qed.
Lemma typed_round_example : in_range EInt 513 /\ Some (prim_ser 2 513) = Some (prim_ser (width EInt) (e_rep EInt 513)) /\
  exists rs w1 w2, exec chat_ops chat_world = (Ret RUnit :: rs, w1) /\ getAttribute EInt 0 1 2 3 w1 = (Ret 513%Z, w2).
Proof.
  split; [cbn; lia|]. split; [reflexivity|]. do 3 eexists. split; [vm_compute; reflexivity|]. vm_compute. reflexivity.
Qed.
Lemma reuse_example : let m := [Some (bl [1;0;7;0;0;0;9;0])] in
  c_des sa_cls m (RBuf (mkV 0 0 8) 0) (mkSA 5 6) = (Ret tt, m, RBuf (mkV 0 8 0) 8, mkSA 0x70001 0x90000) /\
  c_des sa_cls m (RBuf (mkV 0 0 8) 0) (mkSA 0 0) = (Ret tt, m, RBuf (mkV 0 8 0) 8, mkSA 0x70001 0x90000).
Proof. split; vm_compute; reflexivity. Qed.
Lemma reuse_seq_example : let m := [Some (bl [1;0;7;0;0;0;9;0])] in let q0 := sq_make (mkSA 5 6) 3 in let q1 := sq_make (mkSA 0 0) 0 in
  sq_busy q0 = false /\ sq_busy q1 = false /\ same_into (c_des sa_cls) (sq_base q0) (sq_base q1) /\ exists s r q,
  sq_deserialize sa_cls m (RBuf (mkV 0 0 8) 0) q0 = (Throw LengthError s, m, r, q) /\ sq_busy q = true.
Proof.
  split; [reflexivity|]. split; [reflexivity|]. split; [exact (forget_of _ sa_rel _ _)|]. do 3 eexists. split; vm_compute; reflexivity.
Qed.
