(** * Decoding depends on the block it decodes from only *)
From Verif Require Export PBase PMem PDec Vocab9 PProcs.
From Verif Require Import PPack2.

(** Decoding from block [b], from an object with [P] to an object and a value with [Q]. *)
Definition loc {T A} (b : nat) (P : T -> Prop) (Q : A -> T -> Prop) (x : D T A) : Prop :=
  forall m m' v c t, nth_error m b = nth_error m' b -> v_blk v = b -> P t ->
  exists o v' c' t', x m (RBuf v c) t = (o, m, RBuf v' c', t') /\ x m' (RBuf v c) t = (o, m', RBuf v' c', t') /\
    v_blk v' = b /\ forall a, o = Ret a -> Q a t'.
Definition any {T} : T -> Prop := fun _ => True.
Definition any2 {A T} : A -> T -> Prop := fun _ _ => True.
(** The payload, if any, is in block [b]. *)
Definition raw_in (b : nat) (d : option ser) : Prop := d = None \/ exists sb, d = Some (ser_of_sbuf sb) /\ v_blk (sb_data sb) = b /\ sb_alloc sb = None.

Lemma load_same m m' b off n : nth_error m b = nth_error m' b -> load m b off n = load m' b off n.
Proof. intros E. unfold load. rewrite E. reflexivity. Qed.

Lemma host_fits k bs : len bs = N.of_nat k -> fits k (host_value bs).
Proof. intros L. rewrite host_value_num. apply fits_num. exact L. Qed.
Section rules.
  Context {T : Type} (b : nat).
  Implicit Types P : T -> Prop.
  Lemma l_ret {A} P (Q : A -> T -> Prop) a : (forall t, P t -> Q a t) -> loc b P Q (dret a).
  Proof. intros H m m' v c t E V p. do 4 eexists. split; [reflexivity|]. split; [reflexivity|]. split; [exact V|]. intros a' [= <-]. exact (H t p). Qed.
  Lemma l_throw {A} P (Q : A -> T -> Prop) e s : loc b P Q (dthrow e s).
  Proof. intros m m' v c t E V p. do 4 eexists. split; [reflexivity|]. split; [reflexivity|]. split; [exact V|]. discriminate. Qed.
  Lemma l_mod P (Q : unit -> T -> Prop) f : (forall t, P t -> Q tt (f t)) -> loc b P Q (dmod f).
  Proof. intros H m m' v c t E V p. do 4 eexists. split; [reflexivity|]. split; [reflexivity|]. split; [exact V|]. intros [] _. exact (H t p). Qed.
  Lemma l_get P (Q : T -> T -> Prop) : (forall t, P t -> Q t t) -> loc b P Q dget.
  Proof. intros H m m' v c t E V p. do 4 eexists. split; [reflexivity|]. split; [reflexivity|]. split; [exact V|]. intros a' [= <-]. exact (H t p). Qed.
  Lemma l_outcome {A} P (Q : A -> T -> Prop) x : (forall t a, P t -> x = Ret a -> Q a t) -> loc b P Q (d_outcome x).
  Proof. intros H m m' v c t E V p. do 4 eexists. split; [reflexivity|]. split; [reflexivity|]. split; [exact V|]. intros a. exact (H t a p). Qed.
  Lemma l_count P (Q : N -> T -> Prop) : (forall t n, P t -> Q n t) -> loc b P Q rd_count.
  Proof. intros H m m' v c t E V p. do 4 eexists. split; [reflexivity|]. split; [reflexivity|]. split; [exact V|]. intros a _. exact (H t a p). Qed.
  Lemma l_at {A} P (Q : A -> T -> Prop) l i : (forall t a, P t -> nth_error l i = Some a -> Q a t) -> loc b P Q (d_at l i).
  Proof. intros H. unfold d_at. destruct (nth_error l i) eqn:E; [|apply l_throw]. apply l_ret. intros t p. exact (H t a p eq_refl). Qed.
  Lemma l_bind {A B} P (Q : A -> T -> Prop) (R : B -> T -> Prop) x f : loc b P Q x -> (forall a, loc b (Q a) R (f a)) -> loc b P R (dbind x f).
  Proof.
    intros X F m m' v c t E V p. unfold dbind. destruct (X m m' v c t E V p) as (o & v1 & c1 & t1 & E1 & E2 & V1 & q). rewrite E1, E2.
    destruct o as [a|e s|ub|]; [exact (F a m m' v1 c1 t1 E V1 (q a eq_refl))| | |]; (do 4 eexists; split; [reflexivity|]; split; [reflexivity|]; split; [exact V1|]; discriminate).
  Qed.
  Lemma l_raw P (Q : unit -> T -> Prop) n get set : (forall t bs, P t -> len bs = n -> Q tt (set bs t)) -> loc b P Q (rd_raw n get set).
  Proof.
    intros H m m' v c t E V p. unfold rd_raw.
    destruct (v_len v <? n); [do 4 eexists; split; [reflexivity|]; split; [reflexivity|]; split; [exact V|]; discriminate|].
    rewrite <- (load_same m m' (v_blk v)) by (rewrite V; exact E).
    destruct (load m (v_blk v) (v_off v) n) eqn:L; do 4 eexists; (split; [reflexivity|]; split; [reflexivity|]; split; [exact V|]); try discriminate. intros [] _.
    apply H; [exact p|]. eapply load_len. exact L.
  Qed.
  Lemma l_uint P (Q : unit -> T -> Prop) k get set : (forall t n, P t -> fits k n -> Q tt (set n t)) -> loc b P Q (rd_uint k get set).
  Proof. intros H. apply l_raw. intros t bs p L. apply H; [exact p|]. apply host_fits. exact L. Qed.
  Lemma l_local P (Q : N -> T -> Prop) k : (forall t n, P t -> Q n t) -> loc b P Q (rd_local k).
  Proof.
    intros H m m' v c t E V p. unfold rd_local.
    destruct (v_len v <? N.of_nat k); [do 4 eexists; split; [reflexivity|]; split; [reflexivity|]; split; [exact V|]; discriminate|].
    rewrite <- (load_same m m' (v_blk v)) by (rewrite V; exact E).
    destruct (load m (v_blk v) (v_off v) (N.of_nat k)); do 4 eexists; (split; [reflexivity|]; split; [reflexivity|]; split; [exact V|]); try discriminate. auto.
  Qed.
  Lemma l_skip P (Q : unit -> T -> Prop) n : (forall t, P t -> Q tt t) -> loc b P Q (rd_skip n).
  Proof.
    intros H m m' v c t E V p. unfold rd_skip.
    destruct (v_len v <? n); do 4 eexists; (split; [reflexivity|]; split; [reflexivity|]; split; [exact V|]); try discriminate. intros [] _. auto.
  Qed.
  Lemma l_sb P (Q : sbuf -> T -> Prop) n : (forall t sb, P t -> v_blk (sb_data sb) = b -> sb_alloc sb = None -> Q sb t) -> loc b P Q (dlocal sb_empty (sb_deserialize_len n)).
  Proof.
    intros H m m' v c t E V p. unfold dlocal, sb_deserialize_len, dbind, rd_is_buffer, sb_delete, dbind, dget. cbn [sb_alloc sb_empty].
    unfold dret, rd_view. destruct (v_len v <? n); unfold dmod; do 4 eexists; (split; [reflexivity|]; split; [reflexivity|]; split; [exact V|]); try discriminate.
    intros sb [= <-]. apply H; [exact p|exact V|reflexivity].
  Qed.
  Lemma l_weaken {A} P P' (Q Q' : A -> T -> Prop) x : loc b P Q x -> (forall t, P' t -> P t) -> (forall a t, Q a t -> Q' a t) -> loc b P' Q' x.
  Proof.
    intros X H1 H2 m m' v c t E V p. destruct (X m m' v c t E V (H1 t p)) as (o & v1 & c1 & t1 & E1 & E2 & V1 & q).
    exists o, v1, c1, t1. split; [exact E1|]. split; [exact E2|]. split; [exact V1|]. intros a e. apply H2, q, e.
  Qed.
End rules.
Lemma l_zoom {T U A} b (P : T -> Prop) (P' : U -> Prop) (Q : A -> T -> Prop) (Q' : A -> U -> Prop) get put x : loc b P' Q' x ->
  (forall t, P t -> P' (get t)) -> (forall t a u, P t -> Q' a u -> Q a (put u t)) -> loc b P Q (dzoom get put x).
Proof.
  intros X H1 H2 m m' v c t E V p. unfold dzoom. destruct (X m m' v c (get t) E V (H1 t p)) as (o & v1 & c1 & t1 & E1 & E2 & V1 & q). rewrite E1, E2.
  do 4 eexists. split; [reflexivity|]. split; [reflexivity|]. split; [exact V1|]. intros a e. exact (H2 t a t1 p (q a e)).
Qed.
Lemma l_dlocal {T U} b (P : T -> Prop) (P' : U -> Prop) (Q : U -> T -> Prop) (Q' : unit -> U -> Prop) u x : loc b P' Q' x -> P' u ->
  (forall t u', P t -> Q' tt u' -> Q u' t) -> loc b P Q (dlocal u x).
Proof.
  intros X H1 H2 m m' v c t E V p. unfold dlocal. destruct (X m m' v c u E V H1) as (o & v1 & c1 & t1 & E1 & E2 & V1 & q). rewrite E1, E2.
  destruct o as [[]|e s|ub|]; do 4 eexists; (split; [reflexivity|]; split; [reflexivity|]; split; [exact V1|]); try discriminate.
  intros a [= <-]. exact (H2 t t1 p (q tt eq_refl)).
Qed.

(** Decoders of plain members. *)
Lemma any_bind {T A B} b (x : D T A) (f : A -> D T B) : loc b any any2 x -> (forall a, loc b any any2 (f a)) -> loc b any any2 (dbind x f).
Proof. intros X F. eapply l_bind; [exact X|]. intros a. eapply l_weaken; [apply F| |]; intros; exact Logic.I. Qed.
Lemma any_zoom {T U A} b (get : T -> U) put (x : D U A) : loc b any any2 x -> loc b any any2 (dzoom get put x).
Proof. intros X. eapply l_zoom; [exact X| |]; intros; exact Logic.I. Qed.
Ltac plain := repeat first
  [ apply any_bind; [|intros ?]
  | apply any_zoom
  | apply l_ret; intros; exact Logic.I | apply l_throw | apply l_mod; intros; exact Logic.I | apply l_get; intros; exact Logic.I
  | apply l_outcome; intros; exact Logic.I | apply l_count; intros; exact Logic.I | apply l_at; intros; exact Logic.I
  | apply l_uint; intros; exact Logic.I | apply l_raw; intros; exact Logic.I | apply l_local; intros; exact Logic.I
  | apply l_skip; intros; exact Logic.I | apply l_sb; intros; exact Logic.I
  | match goal with |- loc _ _ _ (if ?c then _ else _) => destruct c end ].
Lemma l_hdr b : loc b any any2 hdr_deserialize. Proof. unfold hdr_deserialize. plain. Qed.
Lemma l_rg b : loc b any any2 rg_deserialize. Proof. unfold rg_deserialize. plain. Qed.
Lemma l_sa b : loc b any any2 sa_deserialize. Proof. unfold sa_deserialize. plain. Qed.
Lemma l_id b : loc b any any2 id_deserialize. 
Proof. assert (H : loc b any any2 id_flat) by (unfold id_flat; plain). intros m m' v c t. rewrite !id_flat_eq. apply H. Qed.
Lemma l_fs b : loc b any any2 fs_deserialize. Proof. unfold fs_deserialize. plain. Qed.
Lemma l_cs b : loc b any any2 cs_deserialize. Proof. unfold cs_deserialize. plain. Qed.

(** Decoders of payloads. *)
Lemma l_hdr_session b : loc b any (fun _ h => fits 4 (h_session h)) hdr_deserialize.
Proof.
  unfold hdr_deserialize. do 2 (eapply l_bind with (Q := any2); [apply l_uint; intros; exact Logic.I|intros ?]).
  eapply l_bind with (Q := fun _ h => fits 4 (h_session h)); [apply l_uint; intros t n _ F; exact F|intros ?].
  eapply l_bind with (Q := fun _ h => fits 4 (h_session h)); [apply l_uint; intros t n F _; exact F|intros ?].
  eapply l_bind with (Q := fun _ h => fits 4 (h_session h)); [apply l_raw; intros t n F _; exact F|intros ?].
  apply l_uint. intros t n F _. exact F.
Qed.
Definition reply_in (b : nat) (p : encap_packet) : Prop := raw_in b (ep_payload p) /\ fits 4 (h_session (ep_header p)).
Lemma l_ep b : loc b any (fun _ => reply_in b) ep_deserialize.
Proof.
  unfold ep_deserialize. eapply l_bind with (Q := fun _ p => fits 4 (h_session (ep_header p))).
  { eapply l_zoom; [apply l_hdr_session|auto|]. intros t a h _ F. exact F. }
  intros ?. eapply l_bind with (Q := fun _ p => fits 4 (h_session (ep_header p))); [apply l_get; auto|intros p]. destruct (0 <? _).
  - eapply l_bind with (Q := fun sb p => (v_blk (sb_data sb) = b /\ sb_alloc sb = None) /\ fits 4 (h_session (ep_header p))); [apply l_sb; auto|].
    intros sb. apply l_mod. intros t [E F]. split; [|exact F]. right. exists sb. split; [reflexivity|exact E].
  - apply l_mod. intros t F. split; [left; reflexivity|exact F].
Qed.
Lemma l_ep_len b n : loc b any any2 (ep_deserialize_len n).
Proof. unfold ep_deserialize_len. plain. Qed.
Lemma l_it_data b n : loc b any (fun _ i => raw_in b (it_data i)) (it_deserializeData n).
Proof.
  unfold it_deserializeData. destruct (0 <? n); [|apply l_mod; intros; left; reflexivity].
  eapply l_bind with (Q := any2); [apply l_mod; intros; exact Logic.I|intros ?].
  eapply l_bind with (Q := fun sb _ => v_blk (sb_data sb) = b /\ sb_alloc sb = None); [apply l_sb; auto|]. intros sb. apply l_mod. intros t E. right. exists sb. split; [reflexivity|exact E].
Qed.
Lemma l_it b : loc b any (fun _ i => raw_in b (it_data i)) it_deserialize.
Proof.
  unfold it_deserialize. eapply l_bind with (Q := any2); [apply l_uint; intros; exact Logic.I|intros ?].
  eapply l_bind with (Q := any2); [apply l_local; intros; exact Logic.I|intros n]. apply l_it_data.
Qed.
Lemma l_it_len b n : loc b any any2 (it_deserialize_len n).
Proof.
  unfold it_deserialize_len. plain. eapply l_weaken; [apply l_it_data| |]; intros; exact Logic.I.
Qed.
Lemma l_cpf b : loc b any (fun _ p => Forall (fun i => raw_in b (it_data i)) p) cpf_deserialize.
Proof.
  unfold cpf_deserialize. eapply l_bind with (Q := fun _ p => p = []); [apply l_mod; reflexivity|intros ?].
  eapply l_bind with (Q := fun _ p => Forall (fun i => raw_in b (it_data i)) p); [apply l_local; intros t n ->; constructor|intros n].
  generalize (N.to_nat n). clear n. intros n. induction n as [|n IH]; cbn [cpf_loop]; [apply l_ret; auto|].
  eapply l_bind with (Q := fun i p => raw_in b (it_data i) /\ Forall (fun i => raw_in b (it_data i)) p).
  { eapply l_dlocal; [apply l_it|exact Logic.I|]. cbn. auto. }
  intros i. eapply l_bind; [|intros ?; exact IH]. apply l_mod. intros p [H F]. apply Forall_app. split; [exact F|]. constructor; [exact H|constructor].
Qed.
Lemma l_read_data b (P : mr_response -> Prop) n : loc b P (fun d t => raw_in b d /\ P t) (ms_readData n).
Proof.
  unfold ms_readData. destruct (positive_int n) as [i|]; [|apply l_ret; intros t p; split; [left; reflexivity|exact p]].
  eapply l_bind with (Q := fun sb t => (v_blk (sb_data sb) = b /\ sb_alloc sb = None) /\ P t); [apply l_sb; auto|]. intros sb. apply l_ret. intros t [[E A] p]. split; [|exact p]. right. exists sb. auto.
Qed.
Lemma l_ms b n : loc b any (fun _ s => raw_in b (ms_additional s) /\ raw_in b (ms_data s)) (ms_deserialize_len n).
Proof.
  unfold ms_deserialize_len. do 3 (eapply l_bind with (Q := any2); [apply l_uint; intros; exact Logic.I|intros ?]).
  eapply l_bind with (Q := any2); [apply l_local; intros; exact Logic.I|intros al].
  eapply l_bind; [eapply l_weaken; [apply (l_read_data b any)|auto|intros a9 t H; exact H]|intros ad]. cbv beta.
  eapply l_bind with (Q := fun _ s => raw_in b (ms_additional s)); [apply l_mod; intros t [H _]; exact H|intros ?].
  eapply l_bind with (Q := fun _ s => raw_in b (ms_additional s)); [apply l_count; auto|intros c].
  eapply l_bind; [eapply l_weaken; [apply (l_read_data b (fun s => raw_in b (ms_additional s)))|auto|intros d t H; exact H]|intros d]. cbv beta.
  apply l_mod. intros t [H1 H2]. split; assumption.
Qed.
(** Extraction from a payload in block [b]. *)
Lemma l_copy {U} b (c : cls U) P (Q : unit -> U -> Prop) d : c_sb c = None -> (forall n, loc b P Q (deserialize_len c n)) -> raw_in b d -> loc b P Q (d_copy c d).
Proof.
  intros C K R m m' v cnt t E V p. unfold d_copy. destruct R as [->|(sb & -> & B & _)].
  - do 4 eexists. split; [reflexivity|]. split; [reflexivity|]. split; [exact V|]. discriminate.
  - unfold copy_serializable. cbn [s_length s_sbuf ser_of_sbuf]. rewrite C. unfold run_reader.
    destruct (K (v_len (sb_data sb)) m m' (sb_data sb) 0 t E B p) as (o & v1 & c1 & t1 & -> & -> & _ & q).
    do 4 eexists. split; [reflexivity|]. split; [reflexivity|]. split; [exact V|]. exact q.
Qed.
Lemma l_rr {X} b (Q : unit -> rr_data X -> Prop) (setData : cpf_item -> D (rr_data X) unit) :
  (forall i, raw_in b (it_data i) -> loc b any Q (setData i)) -> loc b any Q (rr_deserialize setData).
Proof.
  intros S. unfold rr_deserialize. do 2 (eapply l_bind with (Q := any2); [apply l_uint; intros; exact Logic.I|intros ?]).
  eapply l_bind with (Q := fun p _ => Forall (fun i => raw_in b (it_data i)) p).
  { eapply l_dlocal; [apply l_cpf|exact Logic.I|]. auto. }
  intros p. match goal with |- loc b ?P Q (dfinally ?x _) => cut (loc b P Q x) end.
  { intros K m m' v c t E V H. assert (U : Forall (fun i => unowned (it_data i)) p).
    { eapply Forall_impl; [|exact H]. intros i [->|(sb & -> & _ & A)]; cbn [unowned]; eauto. }
    rewrite !(finally_noop _ _ (drop_unowned p U)). exact (K m m' v c t E V H). }
  destruct (_ <? 2); [apply l_throw|].
  eapply l_bind with (Q := fun _ _ => Forall (fun i => raw_in b (it_data i)) p); [apply l_at; auto|intros i0].
  destruct (negb _); [apply l_throw|].
  eapply l_bind with (Q := fun _ _ => Forall (fun i => raw_in b (it_data i)) p); [apply l_outcome; auto|intros n0].
  destruct (negb _); [apply l_throw|].
  eapply l_bind with (Q := fun i _ => raw_in b (it_data i)).
  { apply l_at. intros t i F E. rewrite Forall_forall in F. apply F. eapply nth_error_In. exact E. }
  intros i. destruct (negb _); [apply l_throw|].
  intros m m' v c t E V H. exact (S i H m m' v c t E V Logic.I).
Qed.
Lemma l_rrs b : loc b any (fun _ r => raw_in b (ms_additional (rr_ext r)) /\ raw_in b (ms_data (rr_ext r))) rrs_deserialize.
Proof.
  apply l_rr. intros i R. eapply l_zoom with (P' := any) (Q' := fun _ s => raw_in b (ms_additional s) /\ raw_in b (ms_data s)); [|intros t H; exact Logic.I|intros t a s _ H; exact H].
  unfold it_getDataAs. apply l_copy; [reflexivity|intros n; apply l_ms|exact R].
Qed.

(** ** The library's classes *)
Lemma loc_dec {T A} (x : D T A) : (forall b, loc b any any2 x) -> local_dec x.
Proof.
  intros H m m' v c t E. destruct (H (v_blk v) m m' v c t E eq_refl Logic.I) as (o & v1 & c1 & t1 & E1 & E2 & _).
  exists o, v1, c1, t1. auto.
Qed.
Definition loc_cls {T} (c : cls T) : Prop := (forall b, loc b any any2 (c_des c)) /\ forall b n, loc b any any2 (deserialize_len c n).
Lemma l_virtual {T} check (x : D T unit) sb : (forall b, loc b any any2 x) -> loc_cls (mkCls (DLVirtual check) x sb).
Proof. intros K. split; [exact K|]. intros b n. unfold deserialize_len. cbn [c_deslen c_des]. destruct (check 0 n) as [[e s]|]; [apply l_throw|apply K]. Qed.
Lemma loc_all :
  loc_cls hdr_cls /\ loc_cls ep_cls /\ loc_cls it_cls /\ loc_cls cpf_cls /\ loc_cls mq_cls /\ loc_cls ms_cls /\
  loc_cls rr_base_cls /\ loc_cls rrq_cls /\ loc_cls rrs_cls /\ loc_cls rg_cls /\ loc_cls sa_cls /\ loc_cls id_cls /\
  loc_cls fo_cls /\ loc_cls fc_cls /\ loc_cls fs_cls /\ loc_cls cs_cls /\ forall k, loc_cls (prim_cls k).
Proof.
  repeat match goal with |- _ /\ _ => split end; try (intros k); try (apply l_virtual; intros b).
  - apply l_hdr.
  - split; [|intros b n; apply l_ep_len]. intros b. eapply l_weaken; [apply l_ep| |]; intros; exact Logic.I.
  - split; [|intros b n; apply l_it_len]. intros b. eapply l_weaken; [apply l_it| |]; intros; exact Logic.I.
  - eapply l_weaken; [apply l_cpf| |]; intros; exact Logic.I.
  - split; intros; apply l_throw.
  - split; [intros b; apply l_throw|]. intros b n. eapply l_weaken; [apply l_ms| |]; intros; exact Logic.I.
  - apply l_rr. intros. apply l_ret. intros; exact Logic.I.
  - apply l_rr. intros. apply l_throw.
  - eapply l_weaken; [apply l_rrs| |]; intros; exact Logic.I.
  - apply l_rg.
  - apply l_sa.
  - apply l_id.
  - split; intros; apply l_throw.
  - split; intros; apply l_throw.
  - apply l_fs.
  - apply l_cs.
  - cbn. apply l_uint. intros; exact Logic.I.
Qed.
Lemma loc_seq {T} (c : cls T) : loc_cls c -> loc_cls (sq_cls c).
Proof.
  intros [K1 K2].
  assert (S : forall b, loc b any any2 (sq_deserialize c)).
  { intros b. unfold sq_deserialize. apply any_bind; [apply l_get; intros; exact Logic.I|intros q]. destruct (sq_busy q); [apply any_zoom, K1|].
    apply any_bind; [apply l_uint; intros; exact Logic.I|intros ?]. apply any_bind; [apply l_mod; intros; exact Logic.I|intros ?].
    apply any_bind; [apply any_zoom, K1|intros ?]. apply l_mod; intros; exact Logic.I. }
  assert (B : forall b n, loc b any any2 (sq_base_deslen c n)).
  { intros b n. unfold sq_base_deslen. pose proof (K2 b n) as H. unfold deserialize_len in H. destruct (c_deslen c); [apply any_zoom, H|].
    destruct (check 2 n) as [[e s]|]; [apply l_throw|apply S]. }
  split; [exact S|]. intros b n. unfold deserialize_len, sq_cls. cbn [c_deslen]. unfold sq_deserialize_len.
  apply any_bind; [apply l_get; intros; exact Logic.I|intros q]. destruct (sq_busy q); [apply B|].
  apply any_bind; [apply l_uint; intros; exact Logic.I|intros ?]. apply any_bind; [apply l_mod; intros; exact Logic.I|intros ?].
  apply any_bind; [apply B|intros ?]. apply l_mod; intros; exact Logic.I.
Qed.
Lemma loc_local {T} (c : cls T) : loc_cls c -> local_cls c.
Proof. intros [_ K] n. apply loc_dec. intros b. apply K. Qed.
