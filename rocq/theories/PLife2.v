(** * How much memory a decode from a stream takes *)
From Verif Require Export PLife PCodec2.
From Verif Require Import PLocal.
From Coq Require Import Lia.

Lemma bytes_app m k : heap_bytes (m ++ k) = heap_bytes m + heap_bytes k.
Proof. unfold heap_bytes. induction m as [|[bs|] m IH]; cbn [List.app fold_right]; lia. Qed.
Lemma bytes_set m b old x : nth_error m b = Some (Some old) ->
  heap_bytes (list_set m b x) + len old = heap_bytes m + match x with Some bs => len bs | None => 0 end.
Proof.
  unfold heap_bytes. revert b. induction m as [|y m IH]; intros [|b] H; try discriminate; cbn [list_set fold_right nth_error] in *.
  - injection H as ->. destruct x; lia.
  - specialize (IH b H). destruct y; lia.
Qed.
Lemma bytes_store m b o bs m' : store m b o bs = Ret m' -> heap_bytes m' = heap_bytes m.
Proof.
  unfold store. destruct (N.eqb_spec (len bs) 0); [congruence|]. destruct (nth_error m b) as [[old|]|] eqn:E; try discriminate.
  destruct (N.leb_spec (o + len bs) (len old)); [|discriminate]. intros Hs. injection Hs as <-.
  pose proof (bytes_set m b old (Some (take o old ++ bs ++ drop (o + len bs) old)) E) as B. cbv beta iota in B.
  rewrite !len_app, len_take, len_drop in B. lia.
Qed.
Lemma bytes_free m b m' : free m b = Ret m' -> heap_bytes m' <= heap_bytes m.
Proof.
  unfold free. destruct (nth_error m b) as [[old|]|] eqn:E; try discriminate. intros H. injection H as <-.
  pose proof (bytes_set m b old None E) as B. cbv beta iota in B. lia.
Qed.
Lemma bytes_drop_items {T} l : forall m r (t : T) o m' r' t', d_drop_items l m r t = (o, m', r', t') -> heap_bytes m' <= heap_bytes m.
Proof.
  induction l as [|i l IH]; intros m r t o m' r' t' H; cbn [d_drop_items] in H.
  - unfold dret in H. injection H as <- <- <- <-. lia.
  - assert (K : forall o1 m1 r1 t1, d_drop (it_data i) m r t = (o1, m1, r1, t1) -> heap_bytes m1 <= heap_bytes m).
    { intros o1 m1 r1 t1. unfold d_drop, d_free, dret. destruct (it_data i) as [s|]; [|intros E; injection E as <- <- <- <-; lia].
      destruct (s_sbuf s) as [sb|]; [|intros E; injection E as <- <- <- <-; lia].
      destruct (sb_alloc sb) as [b|]; [|intros E; injection E as <- <- <- <-; lia].
      destruct (free m b) eqn:F; intros E; injection E as <- <- <- <-; try lia. eapply bytes_free; eassumption. }
    unfold dbind in H. destruct (d_drop (it_data i) m r t) as [[[o1 m1] r1] t1]. specialize (K _ _ _ _ eq_refl).
    destruct o1; [apply IH in H; lia|injection H as <- <- <- <-; lia..].
Qed.

(** Cost of a decode: at most [k] bytes more, on the same stream; and what it gives. *)
Definition cost {T A} (k : N) (P : T -> Prop) (Q : A -> T -> Prop) (x : D T A) : Prop := forall m d p f t, P t ->
  match x m (RStr d p f) t with
  | (o, m', r, t') => heap_bytes m' <= heap_bytes m + k /\ (exists p' f', r = RStr d p' f') /\ forall a, o = Ret a -> Q a t'
  end.
Lemma c_bind {T A B} j k (P : T -> Prop) (Q : A -> T -> Prop) (R : B -> T -> Prop) x f : cost j P Q x -> (forall a, cost k (Q a) R (f a)) -> cost (j + k) P R (dbind x f).
Proof.
  intros X F m d p fl t H. specialize (X m d p fl t H). unfold dbind. destruct (x m (RStr d p fl) t) as [[[o m1] r1] t1].
  destruct X as (BX & (p1 & f1 & ->) & K). destruct o as [a|e s|u|]; [|split; [lia|]; split; [eauto|discriminate]..].
  specialize (F a m1 d p1 f1 t1 (K a eq_refl)). destruct (f a m1 (RStr d p1 f1) t1) as [[[o2 m2] r2] t2].
  destruct F as (B2 & E2 & K2). split; [lia|]. split; assumption.
Qed.
Lemma c_more {T A} j k (P : T -> Prop) (Q : A -> T -> Prop) x : cost j P Q x -> j <= k -> cost k P Q x.
Proof. intros X L m d p f t H. specialize (X m d p f t H). destruct (x m _ t) as [[[o m1] r1] t1]. destruct X as (B & E & K). split; [lia|]. split; assumption. Qed.
Lemma c_ret {T A} (P : T -> Prop) (Q : A -> T -> Prop) a : (forall t, P t -> Q a t) -> cost 0 P Q (dret a).
Proof. intros H m d p f t X. cbn. split; [lia|]. split; [eauto|]. intros b [= <-]. auto. Qed.
Lemma c_throw {T A} k (P : T -> Prop) (Q : A -> T -> Prop) e s : cost k P Q (dthrow e s).
Proof. intros m d p f t X. cbn. split; [lia|]. split; [eauto|discriminate]. Qed.
Lemma c_mod {T} (P : T -> Prop) (Q : unit -> T -> Prop) g : (forall t, P t -> Q tt (g t)) -> cost 0 P Q (dmod g).
Proof. intros H m d p f t X. cbn. split; [lia|]. split; [eauto|]. intros [] _. auto. Qed.
Lemma c_get {T} (P : T -> Prop) (Q : T -> T -> Prop) : (forall t, P t -> Q t t) -> cost 0 P Q dget.
Proof. intros H m d p f t X. cbn. split; [lia|]. split; [eauto|]. intros b [= <-]. auto. Qed.
Lemma str_read_same d p f n : exists p' f', snd (str_read d p f n) = RStr d p' f'.
Proof. unfold str_read. destruct f; cbn; eauto. Qed.
Lemma c_raw {T} n (P : T -> Prop) (Q : unit -> T -> Prop) get set : (forall t bs, P t -> len bs <= n -> Q tt (set (bs ++ drop (len bs) (get t)) t)) -> cost 0 P Q (rd_raw n get set).
Proof.
  intros H m d p f t X. unfold rd_raw. destruct (str_read d p f n) as [got r'] eqn:E.
  split; [lia|]. pose proof (str_read_same d p f n) as S. rewrite E in S. split; [exact S|]. intros [] _. apply H; [assumption|].
  unfold str_read in E. destruct f; [injection E as <- <-; change (len (@nil byte)) with 0; lia|]. injection E as <- <-. rewrite len_take. lia.
Qed.
Lemma c_uint {T} k (P : T -> Prop) (Q : unit -> T -> Prop) get set : (forall t x, P t -> fits k x -> Q tt (set x t)) -> cost 0 P Q (rd_uint k get set).
Proof.
  intros H. apply c_raw. intros t bs X L. apply H; [assumption|]. apply host_fits. rewrite len_app, len_drop, len_host_bytes. lia.
Qed.
Lemma c_local {T} k (P : T -> Prop) (Q : N -> T -> Prop) : (forall t x, P t -> fits k x -> Q x t) -> cost 0 P Q (rd_local k).
Proof.
  intros H m d p f t X. unfold rd_local. pose proof (str_read_same d p f (N.of_nat k)) as S.
  destruct (str_read d p f (N.of_nat k)) as [got r'] eqn:E. destruct (N.ltb_spec (len got) (N.of_nat k)).
  - split; [lia|]. split; [exact S|discriminate].
  - split; [lia|]. split; [exact S|]. intros x [= <-]. apply H; [assumption|]. apply host_fits.
    unfold str_read in E. destruct f; [injection E as <- <-; change (len (@nil byte)) with 0 in *; lia|]. injection E as <- <-. rewrite len_take in *. lia.
Qed.
Lemma c_skip {T} n (P : T -> Prop) (Q : unit -> T -> Prop) : (forall t, P t -> Q tt t) -> cost 0 P Q (rd_skip n).
Proof.
  intros H m d p f t X. unfold rd_skip. destruct f; [|destruct (_ <=? _)]; (split; [lia|]); (split; [eauto|]); intros [] _; auto.
Qed.
Lemma c_zoom {T U A} k (P : T -> Prop) (Q : A -> T -> Prop) (P' : U -> Prop) (Q' : A -> U -> Prop) get put x : cost k P' Q' x -> (forall t, P t -> P' (get t)) ->
  (forall t a u, P t -> Q' a u -> Q a (put u t)) -> cost k P Q (dzoom get put x).
Proof.
  intros X H1 H2 m d p f t H. unfold dzoom. specialize (X m d p f (get t) (H1 t H)). destruct (x m _ (get t)) as [[[o m1] r1] u].
  destruct X as (B & E & K). split; [lia|]. split; [assumption|]. intros a Ea. apply H2; [assumption|]. apply K. assumption.
Qed.
Lemma c_sb {T} n (P : T -> Prop) : cost n P (fun _ => P) (dlocal sb_empty (sb_deserialize_len n)).
Proof.
  intros m d p f t H. unfold dlocal, sb_deserialize_len, rd_is_buffer, dbind, dget, sb_empty, null_view. cbn [sb_data v_len].
  destruct (N.eqb_spec n 0) as [->|Z].
  - unfold dret, rd_into. cbn [sb_data v_len v_blk v_off]. destruct (str_read d p f 0) as [got r'] eqn:E.
    pose proof (str_read_same d p f 0) as S. rewrite E in S. cbn [snd] in S.
    destruct (store m _ _ got) as [m2| | |] eqn:ES; (split; [try apply bytes_store in ES; lia|]); (split; [exact S|]); try discriminate. auto.
  - unfold sb_delete, dbind, dget, dret, d_alloc, alloc, dmod, rd_into. cbn [sb_alloc sb_data v_len v_blk v_off].
    destruct (str_read d p f n) as [got r'] eqn:E. pose proof (str_read_same d p f n) as S. rewrite E in S. cbn [snd] in S.
    assert (B : heap_bytes (m ++ [Some (zeros n)]) = heap_bytes m + n).
    { rewrite bytes_app. unfold heap_bytes at 2. cbn [fold_right]. rewrite len_zeros. lia. }
    destruct (store _ _ _ got) as [m2| | |] eqn:ES; (split; [try apply bytes_store in ES; lia|]); (split; [exact S|]); try discriminate. auto.
Qed.
Lemma cost_frugal {T} k (x : D T unit) Q : cost k (fun _ => True) Q x -> frugal k x.
Proof.
  intros X m d p t o m' r t' H. specialize (X m d p false t Logic.I). rewrite H in X. lia.
Qed.

(** ** Messages with at most one payload *)
Definition tr {T} : T -> Prop := fun _ => True.
Definition tr2 {A T} : A -> T -> Prop := fun _ _ => True.
Lemma c_seq {T A B} k (P : T -> Prop) (Q : A -> T -> Prop) (R : B -> T -> Prop) x f :
  cost 0 P Q x -> (forall a, cost k (Q a) R (f a)) -> cost k P R (dbind x f).
Proof. intros X F. apply (c_more (0 + k)); [|lia]. eapply c_bind; eassumption. Qed.
Ltac seq := eapply c_seq with (Q := tr2); [first [apply c_uint|apply c_raw|apply c_skip|apply c_mod]; intros; exact Logic.I|intros []].
Lemma hdr_cost : cost 0 tr (fun _ h => h_length h < 65536) hdr_deserialize.
Proof.
  unfold hdr_deserialize. apply (c_more (0 + (0 + (0 + (0 + (0 + 0)))))); [|lia].
  eapply c_bind with (Q := tr2); [apply c_uint; intros; exact Logic.I|intros ?].
  eapply c_bind with (Q := fun _ h => h_length h < 65536); [apply c_uint; intros t x _ F; exact F|intros ?].
  eapply c_bind with (Q := fun _ h => h_length h < 65536); [apply c_uint; intros t x F _; exact F|intros ?].
  eapply c_bind with (Q := fun _ h => h_length h < 65536); [apply c_uint; intros t x F _; exact F|intros ?].
  eapply c_bind with (Q := fun _ h => h_length h < 65536); [apply c_raw; intros t x F _; exact F|intros ?].
  apply c_uint; intros t x F _; exact F.
Qed.
Lemma ep_cost : cost 65535 tr tr2 ep_deserialize.
Proof.
  unfold ep_deserialize. apply (c_more (0 + (0 + 65535))); [|lia].
  eapply c_bind with (Q := fun _ p => h_length (ep_header p) < 65536).
  { eapply c_zoom; [exact hdr_cost|intros; exact Logic.I|]. intros t a u _ F. exact F. }
  intros ?. eapply c_bind with (Q := fun q p => h_length (ep_header q) < 65536); [apply c_get; auto|intros p].
  intros m d q f t L. revert t L. destruct (0 <? h_length (ep_header p)).
  - intros t L. assert (K : cost 65535 (fun _ => True) tr2 (sb <- dlocal sb_empty (sb_deserialize_len (h_length (ep_header p))) ;;; dmod (ep_set_payload_field (Some (ser_of_sbuf sb))))).
    { apply (c_more (h_length (ep_header p) + 0)); [|lia]. eapply c_bind; [apply c_sb|]. intros sb. apply c_mod. intros; exact Logic.I. }
    exact (K m d q f t Logic.I).
  - intros t L. assert (K : cost 65535 (fun _ => True) tr2 (dmod (ep_set_payload_field None))).
    { apply (c_more 0); [|lia]. apply c_mod. intros; exact Logic.I. }
    exact (K m d q f t Logic.I).
Qed.
Lemma rg_cost : cost 0 tr tr2 rg_deserialize.
Proof. unfold rg_deserialize. seq. apply c_uint. intros; exact Logic.I. Qed.
Lemma sa_cost : cost 0 tr tr2 sa_deserialize.
Proof. unfold sa_deserialize. seq. apply c_uint. intros; exact Logic.I. Qed.
Lemma c_if_data {T} (P : T -> Prop) n (g : sbuf -> T -> T) h : (0 < n -> n < 256) ->
  cost 510 P tr2 (if 0 <? n then sb <- dlocal sb_empty (sb_deserialize_len (n * 2)) ;;; dmod (g sb) else dmod h).
Proof.
  intros L. destruct (N.ltb_spec 0 n).
  - apply (c_more (n * 2 + 0)); [|lia]. eapply c_bind; [apply c_sb|]. intros sb. apply c_mod. intros; exact Logic.I.
  - apply (c_more 0); [|lia]. apply c_mod. intros; exact Logic.I.
Qed.
Lemma c_size {T} (x : N -> D T unit) : (forall n, n < 256 -> cost 510 tr tr2 (x n)) -> cost 510 tr tr2 (n <- rd_local 1 ;;; x n).
Proof.
  intros X. apply (c_more (0 + 510)); [|lia]. eapply c_bind with (Q := fun n _ => n < 256); [apply c_local; intros t n _ F; exact F|].
  intros n m d p f t L. exact (X n L m d p f t Logic.I).
Qed.
Lemma fs_cost : cost 510 tr tr2 fs_deserialize.
Proof.
  unfold fs_deserialize. do 7 seq. apply c_size. intros n L. seq. apply c_if_data. lia.
Qed.
Lemma cs_cost : cost 510 tr tr2 cs_deserialize.
Proof. unfold cs_deserialize. do 3 seq. apply c_size. intros n L. seq. apply c_if_data. lia. Qed.
Lemma id_cost : cost 0 tr tr2 id_deserialize.
Proof.
  unfold id_deserialize. do 8 seq. eapply c_seq with (Q := tr2); [apply c_local; intros; exact Logic.I|intros n].
  seq. eapply c_seq with (Q := tr2); [|intros []; apply c_uint; intros; exact Logic.I].
  unfold rd_name. eapply c_seq with (Q := tr2); [apply c_get; intros; exact Logic.I|intros i].
  destruct (_ <? _).
  - intros m d p f t _. cbn. split; [lia|]. split; [eauto|discriminate].
  - apply c_raw. intros; exact Logic.I.
Qed.

(** ** Items: what is taken is paid for by bytes of the stream, except in the last one *)
Definition purse (r : reader) : N := match r with RStr d p f => if f then 0 else len (drop p d) + 65535 | RBuf _ _ => 0 end.
Lemma str_read_purse d p f n got r : str_read d p f n = (got, r) -> purse r + (if f then 0 else len got) <= purse (RStr d p f) /\
  (f = false -> len got <= n) /\ (f = false -> len got < n -> purse r = 0) /\ (f = true -> got = []) /\ exists p' f', r = RStr d p' f'.
Proof.
  unfold str_read. destruct f; intros H; injection H as <- <-.
  - cbn [purse]. repeat split; try discriminate; try lia; eauto.
  - set (got := take n (drop p d)). assert (L : len got = N.min n (len (drop p d))) by (unfold got; apply len_take).
    cbn [purse]. rewrite len_drop in *. rewrite len_drop. repeat split; try discriminate; eauto.
    + destruct (N.ltb_spec (len got) n); lia.
    + lia.
    + intros _ S. destruct (N.ltb_spec (len got) n); lia.
Qed.
Definition pays {T A} (x : D T A) : Prop := forall m d p f t o m' r t', x m (RStr d p f) t = (o, m', r, t') ->
  heap_bytes m' + purse r <= heap_bytes m + purse (RStr d p f) /\ exists p' f', r = RStr d p' f'.
Lemma pays_bind {T A B} (x : D T A) (f : A -> D T B) : pays x -> (forall a, pays (f a)) -> pays (dbind x f).
Proof.
  intros X F m d p fl t o m' r t'. unfold dbind. destruct (x m (RStr d p fl) t) as [[[o1 m1] r1] t1] eqn:E.
  destruct (X _ _ _ _ _ _ _ _ _ E) as (L & (p1 & f1 & ->)).
  destruct o1 as [a|e s|u|]; intros H; try (injection H as <- <- <- <-; split; [assumption|eauto]).
  destruct (F a _ _ _ _ _ _ _ _ _ H) as (L2 & E2). split; [lia|assumption].
Qed.
Lemma pays_uint {T} k (get : T -> N) set : pays (rd_uint k get set).
Proof.
  intros m d p f t o m' r t'. unfold rd_uint, rd_raw. destruct (str_read d p f (N.of_nat k)) as [got r1] eqn:E.
  apply str_read_purse in E as (L & _ & _ & _ & X). intros H. injection H as <- <- <- <-. split; [destruct f; lia|assumption].
Qed.
Lemma pays_mod {T} (g : T -> T) : pays (dmod g).
Proof. intros m d p f t o m' r t' H. injection H as <- <- <- <-. split; [lia|eauto]. Qed.
Lemma pays_ret {T A} (a : A) : pays (T := T) (dret a).
Proof. intros m d p f t o m' r t' H. injection H as <- <- <- <-. split; [lia|eauto]. Qed.
Lemma pays_dlocal {T U} (u : U) x : pays x -> pays (T := T) (dlocal u x).
Proof.
  intros X m d p f t o m' r t'. unfold dlocal. destruct (x m (RStr d p f) u) as [[[o1 m1] r1] t1] eqn:E.
  apply X in E. destruct o1; intros H; injection H as <- <- <- <-; exact E.
Qed.
(** A number read into a local: the stream has not failed when there is one. *)
Lemma pays_local {T A} k (x : N -> D T A) :
  (forall n, fits k n -> forall m d p t o m' r t', x n m (RStr d p false) t = (o, m', r, t') ->
     heap_bytes m' + purse r <= heap_bytes m + purse (RStr d p false) /\ exists p' f', r = RStr d p' f') ->
  (0 < k)%nat -> pays (n <- rd_local k ;;; x n).
Proof.
  intros X K m d p f t o m' r t'. unfold dbind, rd_local. destruct (str_read d p f (N.of_nat k)) as [got r1] eqn:E. pose proof E as E0.
  apply str_read_purse in E as (L & L2 & _ & L3 & Y). destruct (N.ltb_spec (len got) (N.of_nat k)) as [S|S].
  - intros H. injection H as <- <- <- <-. split; [destruct f; lia|exact Y].
  - destruct f; [rewrite (L3 eq_refl) in S; change (len (@nil byte)) with 0 in S; lia|]. unfold str_read in E0. injection E0 as Eg <-.
    rewrite Eg in *. destruct (N.ltb_spec (len got) (N.of_nat k)) as [S2|S2]; [lia|]. intros H. apply X in H.
    + destruct H as [L4 Z]. split; [cbn [purse] in *; lia|exact Z].
    + apply host_fits. specialize (L2 eq_refl). lia.
Qed.
Lemma sb_pays {T} n m d p (t : T) o m' r t' : n <= 65535 -> dlocal sb_empty (sb_deserialize_len n) m (RStr d p false) t = (o, m', r, t') ->
  heap_bytes m' + purse r <= heap_bytes m + purse (RStr d p false) /\ exists p' f', r = RStr d p' f'.
Proof.
  intros B H. assert (HB : heap_bytes m' <= heap_bytes m + n).
  { pose proof (c_sb n (fun _ : T => True) m d p false t Logic.I) as K. rewrite H in K. lia. }
  revert H. unfold dlocal, sb_deserialize_len, rd_is_buffer, dbind, dget, sb_empty, null_view. cbn [sb_data v_len].
  destruct (N.eqb_spec n 0) as [->|Z].
  - unfold dret, rd_into. cbn [sb_data v_len v_blk v_off]. destruct (str_read d p false 0) as [got r1] eqn:E.
    apply str_read_purse in E as (L & _ & _ & _ & X).
    destruct (store m _ _ got) as [m2| | |] eqn:ES; intros H; injection H as <- <- <- <-; (split; [lia|exact X]).
  - unfold sb_delete, dbind, dget, dret, d_alloc, alloc, dmod, rd_into. cbn [sb_alloc sb_data v_len v_blk v_off].
    destruct (str_read d p false n) as [got r1] eqn:E. apply str_read_purse in E as (L & L2 & L3 & _ & X). specialize (L2 eq_refl). specialize (L3 eq_refl).
    assert (Q : heap_bytes m' + purse r1 <= heap_bytes m + purse (RStr d p false)).
    { destruct (N.eq_dec (len got) n) as [Eq|Ne]; [lia|]. rewrite L3 by lia. cbn [purse]. lia. }
    destruct (store _ _ _ got) as [m2| | |] eqn:ES; intros H; injection H as <- <- <- <-; (split; [exact Q|exact X]).
Qed.
Lemma it_pays : pays it_deserialize.
Proof.
  unfold it_deserialize. apply pays_bind; [apply pays_uint|intros ?]. apply pays_local; [|lia].
  intros n F m d p t o m' r t'. unfold it_deserializeData. destruct (0 <? n); [|intros H; eapply pays_mod; exact H].
  unfold dbind at 1, dmod at 1. unfold dbind. intros H.
  match type of H with context [dlocal ?s ?x ?m ?r ?t] => destruct (dlocal s x m r t) as [[[o1 m1] r1] t1] eqn:E end.
  apply sb_pays in E; [|unfold fits in F; change (256 ^ N.of_nat 2) with 65536 in F; lia]. destruct E as [L (p1 & f1 & ->)].
  destruct o1; [|injection H as <- <- <- <-; split; [lia|eauto]..]. apply pays_mod in H. destruct H as [L2 X]. split; [lia|exact X].
Qed.
Lemma cpf_pays : pays cpf_deserialize.
Proof.
  unfold cpf_deserialize. apply pays_bind; [apply pays_mod|intros ?]. apply pays_local; [|lia].
  assert (K : forall n, pays (cpf_loop n)).
  { induction n as [|n IH]; cbn [cpf_loop]; [apply pays_ret|]. apply pays_bind; [apply pays_dlocal, it_pays|]. intros i.
    apply pays_bind; [apply pays_mod|intros ?; exact IH]. }
  intros n _ m d p t o m' r t' H. eapply K. exact H.
Qed.
Lemma pays_frugal {T} (x : D T unit) : pays x -> frugal 65535 x.
Proof. intros X m d p t o m' r t' H. apply X in H. destruct H as [L _]. cbn [purse] in L. lia. Qed.

(** ** RR data *)
Definition sraw (d : option ser) : Prop := match d with Some s => exists sb, s = ser_of_sbuf sb | None => True end.
Lemma dbind_inv {T A B} (x : D T A) (f : A -> D T B) m r t b m' r' t' : dbind x f m r t = (Ret b, m', r', t') ->
  exists a m1 r1 t1, x m r t = (Ret a, m1, r1, t1) /\ f a m1 r1 t1 = (Ret b, m', r', t').
Proof. unfold dbind. destruct (x m r t) as [[[[a|e s|u|] m1] r1] t1]; try discriminate. intros H. exists a, m1, r1, t1. auto. Qed.
Lemma it_sraw m r t m' r' i : it_deserialize m r t = (Ret tt, m', r', i) -> sraw (it_data i).
Proof.
  unfold it_deserialize. intros H. apply dbind_inv in H as (? & ? & ? & ? & _ & H). apply dbind_inv in H as (n & ? & ? & ? & _ & H).
  unfold it_deserializeData in H. destruct (0 <? n).
  - apply dbind_inv in H as (? & ? & ? & ? & _ & H). apply dbind_inv in H as (sb & ? & ? & ? & _ & H).
    injection H as <- <- <-. cbn. eauto.
  - injection H as <- <- <-. exact Logic.I.
Qed.
Lemma cpf_loop_sraw n : forall m r its m' r' its', Forall (fun i => sraw (it_data i)) its ->
  cpf_loop n m r its = (Ret tt, m', r', its') -> Forall (fun i => sraw (it_data i)) its'.
Proof.
  induction n as [|n IH]; intros m r its m' r' its' F H; cbn [cpf_loop] in H.
  - injection H as <- <- <-. assumption.
  - apply dbind_inv in H as (i & m1 & r1 & t1 & E & H). unfold dlocal in E.
    destruct (it_deserialize m r it_null) as [[[[[]|e s|u|] m2] r2] i2] eqn:EI; try discriminate. injection E as <- <- <- <-.
    apply it_sraw in EI. apply dbind_inv in H as (? & m3 & r3 & t3 & E & H). injection E as <- <- <- <-.
    eapply IH; [|exact H]. apply Forall_app. split; [assumption|]. apply Forall_cons; [assumption|constructor].
Qed.
Lemma cpf_sraw m r t m' r' l : cpf_deserialize m r t = (Ret tt, m', r', l) -> Forall (fun i => sraw (it_data i)) l.
Proof.
  unfold cpf_deserialize. intros H. apply dbind_inv in H as (? & ? & ? & ? & E & H). injection E as <- <- <- <-.
  apply dbind_inv in H as (n & ? & ? & t1 & E & H). assert (t1 = []) as ->.
  { revert E. unfold rd_local. destruct r as [v c|d p f].
    - destruct (_ <? _); [discriminate|]. destruct (load _ _ _ _); try discriminate. congruence.
    - destruct (str_read _ _ _ _) as [got r1]. destruct (_ <? _); [discriminate|]. congruence. }
  eapply cpf_loop_sraw; [|exact H]. constructor.
Qed.
Definition still {T A} (x : D T A) : Prop := forall m r t, snd (fst (fst (x m r t))) = m.
Lemma still_bind {T A B} (x : D T A) (f : A -> D T B) : still x -> (forall a, still (f a)) -> still (dbind x f).
Proof.
  intros X F m r t. unfold dbind. specialize (X m r t). destruct (x m r t) as [[[o m1] r1] t1]. cbn in X. subst m1.
  destruct o; [apply F|reflexivity..].
Qed.
Lemma tail_still {X} (setData : cpf_item -> D (rr_data X) unit) l : Forall (fun i => sraw (it_data i)) l ->
  (forall i, sraw (it_data i) -> still (setData i)) -> still (rr_tail setData l).
Proof.
  intros F K. unfold rr_tail. assert (T : forall e s, still (dthrow e s : D (rr_data X) unit)) by (intros e s m r t; reflexivity).
  destruct (_ <? 2); [apply T|]. assert (A : forall j (f : cpf_item -> D (rr_data X) unit), (forall i, nth_error l j = Some i -> still (f i)) -> still (i <- d_at l j ;;; f i)).
  { intros j f H m r t. unfold d_at, dbind. destruct (nth_error l j) as [i|]; [|reflexivity]. unfold dret. apply H. reflexivity. }
  apply A. intros i0 _. destruct (negb _); [apply T|]. apply still_bind; [intros m r t; reflexivity|]. intros n0. destruct (negb _); [apply T|].
  apply A. intros i1 E. destruct (negb _); [apply T|]. apply K. rewrite Forall_forall in F. apply F. eapply nth_error_In. exact E.
Qed.
Lemma rr_frugal {X} (setData : cpf_item -> D (rr_data X) unit) : (forall i, sraw (it_data i) -> still (setData i)) ->
  frugal 65535 (rr_deserialize setData).
Proof.
  intros K m d p t o m' r t'. rewrite rr_deserialize_eq. intros H.
  assert (P : pays (rd_uint 4 rr_iface (@rr_set_iface X) ;;; rd_uint 2 rr_timeout rr_set_timeout ;;; dlocal [] cpf_deserialize)).
  { apply pays_bind; [apply pays_uint|intros ?]. apply pays_bind; [apply pays_uint|intros ?]. apply pays_dlocal, cpf_pays. }
  assert (E : exists o1 m1 r1 t1, (rd_uint 4 rr_iface (@rr_set_iface X) ;;; rd_uint 2 rr_timeout rr_set_timeout ;;; dlocal [] cpf_deserialize) m (RStr d p false) t = (o1, m1, r1, t1) /\
     heap_bytes m' <= heap_bytes m1).
  { revert H. unfold dbind.
    destruct (rd_uint 4 rr_iface rr_set_iface m (RStr d p false) t) as [[[oa ma] ra] ta].
    destruct oa as [a|? ?|?|]; [|intros H; injection H as <- <- <- <-; do 4 eexists; (split; [reflexivity|lia])..].
    destruct (rd_uint 2 rr_timeout rr_set_timeout ma ra ta) as [[[ob mb] rb] tb].
    destruct ob as [b|? ?|?|]; [|intros H; injection H as <- <- <- <-; do 4 eexists; (split; [reflexivity|lia])..].
    unfold dlocal. destruct (cpf_deserialize mb rb []) as [[[oc mc] rc] l] eqn:EC.
    destruct oc as [[]|? ?|?|]; [|intros H; injection H as <- <- <- <-; do 4 eexists; (split; [reflexivity|lia])..].
    intros H. do 4 eexists. split; [reflexivity|]. apply cpf_sraw in EC. pose proof (tail_still setData l EC K mc rc tb) as S.
    unfold dfinally in H. destruct (rr_tail setData l mc rc tb) as [[[od md] rd] td]. cbn in S. subst md.
    destruct od as [a0|e s|u|].
    - unfold dbind in H. destruct (d_drop_items l mc rd td) as [[[oe me] re] te] eqn:ED. apply bytes_drop_items in ED.
      destruct oe; injection H as <- <- <- <-; lia.
    - unfold dbind in H. destruct (d_drop_items l mc rd td) as [[[oe me] re] te] eqn:ED. apply bytes_drop_items in ED.
      destruct oe; injection H as <- <- <- <-; lia.
    - injection H as <- <- <- <-. lia.
    - injection H as <- <- <- <-. lia. }
  destruct E as (o1 & m1 & r1 & t1 & E & L). apply P in E. destruct E as [L2 _]. cbn [purse] in L2. lia.
Qed.
Lemma rrs_frugal : frugal 65535 rrs_deserialize.
Proof.
  apply rr_frugal. intros i R m r t. unfold dzoom, it_getDataAs, d_copy. destruct (it_data i) as [s|]; [|reflexivity].
  destruct R as [sb ->]. unfold copy_serializable. cbn [s_length s_sbuf ser_of_sbuf c_sb ms_cls]. unfold run_reader, deserialize_len. cbn [c_deslen ms_cls].
  destruct (k_ms (v_len (sb_data sb)) m (sb_data sb) 0 (rr_ext t)) as (o & v1 & c1 & t1 & ->). reflexivity.
Qed.
Lemma frugal_all :
  (frugal 0 (c_des hdr_cls) /\ frugal 0 (c_des rg_cls) /\ frugal 0 (c_des sa_cls) /\ frugal 0 (c_des id_cls)) /\
  (frugal 510 (c_des fs_cls) /\ frugal 510 (c_des cs_cls)) /\
  (frugal 65535 (c_des ep_cls) /\ frugal 65535 (c_des it_cls) /\ frugal 65535 (c_des cpf_cls)) /\
  (frugal 65535 (c_des rr_base_cls) /\ frugal 65535 (c_des rrq_cls) /\ frugal 65535 (c_des rrs_cls)).
Proof.
  repeat split.
  - eapply cost_frugal. intros m d p f t _. exact (hdr_cost m d p f t Logic.I).
  - exact (cost_frugal _ _ _ rg_cost).
  - exact (cost_frugal _ _ _ sa_cost).
  - exact (cost_frugal _ _ _ id_cost).
  - exact (cost_frugal _ _ _ fs_cost).
  - exact (cost_frugal _ _ _ cs_cost).
  - exact (cost_frugal _ _ _ ep_cost).
  - exact (pays_frugal _ it_pays).
  - exact (pays_frugal _ cpf_pays).
  - apply rr_frugal. intros i _ m r t. reflexivity.
  - apply rr_frugal. intros i _ m r t. reflexivity.
  - exact rrs_frugal.
Qed.

(** ** Length fields that promise more than comes *)
Lemma str_sb_short {T} n m d p (t : T) : n <> 0 -> len (drop p d) < n ->
  exists bs, len bs = n /\ dlocal sb_empty (sb_deserialize_len n) m (RStr d p false) t
  = (Ret (mkSB (mkV (List.length m) 0 n) (Some (List.length m))), m ++ [Some bs], RStr d (p + len (drop p d)) true, t).
Proof.
  intros Z L. unfold dlocal, sb_deserialize_len, rd_is_buffer, dbind, dget, sb_empty, null_view.
  cbn [sb_data v_len]. destruct (N.eqb_spec n 0); [lia|].
  unfold sb_delete, dbind, dget, dret, d_alloc, alloc, dmod, rd_into, str_read. cbn [sb_alloc sb_data v_len v_blk v_off].
  rewrite take_all by lia. set (got := drop p d) in *. destruct (N.ltb_spec (len got) n); [|lia].
  unfold store. destruct (N.eqb_spec (len got) 0).
  - exists (zeros n). split; [apply len_zeros|]. reflexivity.
  - rewrite nth_error_app_end, len_zeros. destruct (N.leb_spec (0 + len got) n); [|lia]. rewrite list_set_app_end.
    eexists. split; [|reflexivity]. rewrite !len_app, len_take, len_drop, len_zeros. lia.
Qed.
Lemma bytes_one m bs : heap_bytes (m ++ [Some bs]) = heap_bytes m + len bs.
Proof. rewrite bytes_app. unfold heap_bytes at 2. cbn [fold_right]. lia. Qed.
Lemma ep_promise m d p p0 cmd n ses st c0 c1 o rest : fits 2 cmd -> fits 2 n -> fits 4 ses -> fits 4 st -> fits 4 c0 -> fits 4 c1 -> fits 4 o ->
  drop p d = header cmd n ses st c0 c1 o ++ rest -> len rest < n ->
  exists m' r pk, ep_deserialize m (RStr d p false) p0 = (Ret tt, m', r, pk) /\ heap_bytes m' = heap_bytes m + n.
Proof.
  intros F1 F2 F3 F4 F5 F6 F7 H L. unfold ep_deserialize. erewrite dbind_ret.
  2:{ unfold dzoom. rewrite (hdr_stream m d p (ep_header p0) _ _ _ _ _ _ _ _ F1 F2 F3 F4 F5 F6 F7 H). reflexivity. }
  apply (drop_next _ 24) in H; [|apply len_header]. erewrite dbind_ret; [|reflexivity]. cbn [ep_header ep_set_header h_length].
  destruct (N.ltb_spec 0 n); [|lia]. destruct (str_sb_short (T := encap_packet) n m d (p + 24) (ep_set_header (mkHdr cmd n ses st c0 c1 o) p0)) as (bs & Lb & E); [lia|rewrite H; assumption|].
  erewrite dbind_ret by exact E. unfold dmod. do 3 eexists. split; [reflexivity|]. rewrite bytes_one, Lb. reflexivity.
Qed.
Lemma it_promise m d p i0 ty n rest : fits 2 ty -> fits 2 n -> drop p d = le 2 ty ++ le 2 n ++ rest -> len rest < n ->
  exists m' r i, it_deserialize m (RStr d p false) i0 = (Ret tt, m', r, i) /\ heap_bytes m' = heap_bytes m + n.
Proof.
  intros F1 F2 H L. unfold it_deserialize. suint H. erewrite dbind_ret; [|eapply str_local; [exact H|assumption]]. snext H.
  unfold it_deserializeData. destruct (N.ltb_spec 0 n); [|lia]. erewrite dbind_ret; [|reflexivity].
  match goal with |- context [dbind (dlocal _ _) _ _ (RStr _ ?q _) ?t] => destruct (str_sb_short n m d q t) as (bs & Lb & E); [lia|rewrite H; assumption|] end.
  erewrite dbind_ret by exact E. unfold dmod. do 3 eexists. split; [reflexivity|]. rewrite bytes_one, Lb. reflexivity.
Qed.
Lemma bytes_live l : heap_bytes (PStream.live l) = fold_right (fun x n => len x + n) 0 l.
Proof. unfold heap_bytes, PStream.live. induction l as [|x l IH]; cbn [List.map fold_right]; [reflexivity|]. rewrite IH. reflexivity. Qed.
Lemma ep_whole m d p p0 cmd ses st c0 c1 o payload rest : frame_fits cmd ses st c0 c1 o payload ->
  drop p d = frame cmd ses st c0 c1 o payload ++ rest ->
  exists m' r pk, ep_deserialize m (RStr d p false) p0 = (Ret tt, m', r, pk) /\ heap_bytes m' = heap_bytes m + len payload.
Proof.
  intros F H. do 3 eexists. split; [apply (ep_stream_at m d p p0 _ _ _ _ _ _ _ _ F H)|]. rewrite bytes_app, bytes_live. unfold blk.
  destruct (N.eqb_spec (len payload) 0); cbn [fold_right]; lia.
Qed.
Lemma cpf_whole m d p p0 xs rest : cpf_ok xs -> drop p d = cpf xs ++ rest ->
  exists m' r l, cpf_deserialize m (RStr d p false) p0 = (Ret tt, m', r, l) /\
    heap_bytes m' = heap_bytes m + fold_right (fun x n => len (snd x) + n) 0 xs.
Proof.
  intros O H. do 3 eexists. split; [apply (cpf_stream_at m d p p0 xs rest O H)|]. rewrite bytes_app, bytes_live. f_equal.
  unfold blks. clear. induction xs as [|[ty x] xs IH]; cbn [flat_map fold_right snd]; [reflexivity|]. rewrite <- IH. unfold blk.
  destruct (N.eqb_spec (len x) 0); cbn [List.app fold_right]; lia.
Qed.

(** ** Examples *)
Lemma life_example : frame_fits 0x6F 7 0 0 0 0 (cpf [(0, []); (0xB2, [x01; x02; x03])]) /\ cpf_ok [(0, []); (0xB2, [x01; x02; x03])] /\
  exists r p, ep_deserialize [Some (frame 0x6F 7 0 0 0 0 [x01; x02])] (RBuf (mkV 0 0 26) 0) (ep_make0 0 0) = (Ret tt, [Some (frame 0x6F 7 0 0 0 0 [x01; x02])], r, p) /\ ep_payload p <> None.
Proof.
  split; [repeat split|]. split; [split; [repeat constructor|reflexivity]|]. do 2 eexists. split; [vm_compute; reflexivity|discriminate].
Qed.
Lemma bytes_example : frame_fits 0x65 1 0 0 0 0 ([x01; x02; x03]) /\ cpf_ok [(0, []); (0xB2, [x01; x02; x03])] /\ fits 2 65535 /\
  heap_bytes [Some [x01; x02]; None; Some ([x03])] = 3.
Proof. split; [repeat split|]. split; [split; [repeat constructor|reflexivity]|]. split; reflexivity. Qed.
