(** * Decoding depends on the bytes it decodes from only *)
From Verif Require Export PLocal Vocab17.
From Verif Require Import PPack2.

(** A view inside the view [g]. *)
Definition in_view (g v : view) : Prop := v_blk v = v_blk g /\ v_off g <= v_off v /\ v_off v + v_len v <= v_off g + v_len g.
(** Decoding inside [g], from an object with [P] to an object and a value with [Q]. *)
Definition snug {T A} (g : view) (P : T -> Prop) (Q : A -> T -> Prop) (x : D T A) : Prop :=
  forall m m' v c t, agree_in g m m' -> in_view g v -> P t ->
  exists o v' c' t', x m (RBuf v c) t = (o, m, RBuf v' c', t') /\ x m' (RBuf v c) t = (o, m', RBuf v' c', t') /\
    in_view g v' /\ forall a, o = Ret a -> Q a t'.
(** The payload, if any, is inside [g]. *)
Definition held (g : view) (d : option ser) : Prop := d = None \/ exists sb, d = Some (ser_of_sbuf sb) /\ in_view g (sb_data sb) /\ sb_alloc sb = None.

Lemma in_view_self g : in_view g g. Proof. repeat split; lia. Qed.
Lemma in_view_drop g v n : in_view g v -> (v_len v <? n) = false -> in_view g (view_drop v n).
Proof. intros (B & L & H) F. apply N.ltb_ge in F. unfold in_view, view_drop. cbn. repeat split; [exact B|lia|lia]. Qed.
Lemma in_view_take g v n : in_view g v -> in_view g (view_take v n).
Proof. intros (B & L & H). unfold in_view, view_take. cbn. repeat split; [exact B|lia|lia]. Qed.
Lemma agree_load g m m' v n : agree_in g m m' -> in_view g v -> (v_len v <? n) = false -> load m (v_blk v) (v_off v) n = load m' (v_blk v) (v_off v) n.
Proof. intros A (B & L & H) F. apply N.ltb_ge in F. rewrite B. apply A; lia. Qed.
Section rules.
  Context {T : Type} (g : view).
  Implicit Types P : T -> Prop.
  Lemma sg_ret {A} P (Q : A -> T -> Prop) a : (forall t, P t -> Q a t) -> snug g P Q (dret a).
  Proof. intros H m m' v c t E V p. do 4 eexists. split; [reflexivity|]. split; [reflexivity|]. split; [exact V|]. intros a' [= <-]. exact (H t p). Qed.
  Lemma sg_throw {A} P (Q : A -> T -> Prop) e s : snug g P Q (dthrow e s).
  Proof. intros m m' v c t E V p. do 4 eexists. split; [reflexivity|]. split; [reflexivity|]. split; [exact V|]. discriminate. Qed.
  Lemma sg_mod P (Q : unit -> T -> Prop) f : (forall t, P t -> Q tt (f t)) -> snug g P Q (dmod f).
  Proof. intros H m m' v c t E V p. do 4 eexists. split; [reflexivity|]. split; [reflexivity|]. split; [exact V|]. intros [] _. exact (H t p). Qed.
  Lemma sg_get P (Q : T -> T -> Prop) : (forall t, P t -> Q t t) -> snug g P Q dget.
  Proof. intros H m m' v c t E V p. do 4 eexists. split; [reflexivity|]. split; [reflexivity|]. split; [exact V|]. intros a' [= <-]. exact (H t p). Qed.
  Lemma sg_outcome {A} P (Q : A -> T -> Prop) x : (forall t a, P t -> x = Ret a -> Q a t) -> snug g P Q (d_outcome x).
  Proof. intros H m m' v c t E V p. do 4 eexists. split; [reflexivity|]. split; [reflexivity|]. split; [exact V|]. intros a. exact (H t a p). Qed.
  Lemma sg_count P (Q : N -> T -> Prop) : (forall t n, P t -> Q n t) -> snug g P Q rd_count.
  Proof. intros H m m' v c t E V p. do 4 eexists. split; [reflexivity|]. split; [reflexivity|]. split; [exact V|]. intros a _. exact (H t a p). Qed.
  Lemma sg_at {A} P (Q : A -> T -> Prop) l i : (forall t a, P t -> nth_error l i = Some a -> Q a t) -> snug g P Q (d_at l i).
  Proof. intros H. unfold d_at. destruct (nth_error l i) eqn:E; [|apply sg_throw]. apply sg_ret. intros t p. exact (H t a p eq_refl). Qed.
  Lemma sg_bind {A B} P (Q : A -> T -> Prop) (R : B -> T -> Prop) x f : snug g P Q x -> (forall a, snug g (Q a) R (f a)) -> snug g P R (dbind x f).
  Proof.
    intros X F m m' v c t E V p. unfold dbind. destruct (X m m' v c t E V p) as (o & v1 & c1 & t1 & E1 & E2 & V1 & q). rewrite E1, E2.
    destruct o as [a|e s|ub|]; [exact (F a m m' v1 c1 t1 E V1 (q a eq_refl))| | |]; (do 4 eexists; split; [reflexivity|]; split; [reflexivity|]; split; [exact V1|]; discriminate).
  Qed.
  Lemma sg_raw P (Q : unit -> T -> Prop) n get set : (forall t bs, P t -> len bs = n -> Q tt (set bs t)) -> snug g P Q (rd_raw n get set).
  Proof.
    intros H m m' v c t E V p. unfold rd_raw.
    destruct (v_len v <? n) eqn:F; [do 4 eexists; split; [reflexivity|]; split; [reflexivity|]; split; [exact V|]; discriminate|].
    rewrite <- (agree_load g m m' v n E V F). pose proof (in_view_drop g v n V F) as V'.
    destruct (load m (v_blk v) (v_off v) n) eqn:L; do 4 eexists; (split; [reflexivity|]; split; [reflexivity|]; split; [eassumption|]); try discriminate. intros [] _.
    apply H; [exact p|]. eapply load_len. exact L.
  Qed.
  Lemma sg_uint P (Q : unit -> T -> Prop) k get set : (forall t n, P t -> fits k n -> Q tt (set n t)) -> snug g P Q (rd_uint k get set).
  Proof. intros H. apply sg_raw. intros t bs p L. apply H; [exact p|]. apply host_fits. exact L. Qed.
  Lemma sg_local P (Q : N -> T -> Prop) k : (forall t n, P t -> Q n t) -> snug g P Q (rd_local k).
  Proof.
    intros H m m' v c t E V p. unfold rd_local.
    destruct (v_len v <? N.of_nat k) eqn:F; [do 4 eexists; split; [reflexivity|]; split; [reflexivity|]; split; [exact V|]; discriminate|].
    rewrite <- (agree_load g m m' v _ E V F). pose proof (in_view_drop g v _ V F) as V'.
    destruct (load m (v_blk v) (v_off v) (N.of_nat k)); do 4 eexists; (split; [reflexivity|]; split; [reflexivity|]; split; [eassumption|]); try discriminate. auto.
  Qed.
  Lemma sg_skip P (Q : unit -> T -> Prop) n : (forall t, P t -> Q tt t) -> snug g P Q (rd_skip n).
  Proof.
    intros H m m' v c t E V p. unfold rd_skip.
    destruct (v_len v <? n) eqn:F; [do 4 eexists; split; [reflexivity|]; split; [reflexivity|]; split; [exact V|]; discriminate|].
    pose proof (in_view_drop g v _ V F) as V'. do 4 eexists; (split; [reflexivity|]; split; [reflexivity|]; split; [eassumption|]). intros [] _. auto.
  Qed.
  Lemma sg_sb P (Q : sbuf -> T -> Prop) n : (forall t sb, P t -> in_view g (sb_data sb) /\ sb_alloc sb = None -> Q sb t) -> snug g P Q (dlocal sb_empty (sb_deserialize_len n)).
  Proof.
    intros H m m' v c t E V p. unfold dlocal, sb_deserialize_len, dbind, rd_is_buffer, sb_delete, dbind, dget. cbn [sb_alloc sb_empty].
    unfold dret, rd_view. destruct (v_len v <? n) eqn:F; unfold dmod; [do 4 eexists; split; [reflexivity|]; split; [reflexivity|]; split; [exact V|]; discriminate|].
    pose proof (in_view_drop g v _ V F) as V'. do 4 eexists; (split; [reflexivity|]; split; [reflexivity|]; split; [eassumption|]).
    intros sb [= <-]. apply H; [exact p|]. split; [apply in_view_take; exact V|reflexivity].
  Qed.
  Lemma sg_weaken {A} P P' (Q Q' : A -> T -> Prop) x : snug g P Q x -> (forall t, P' t -> P t) -> (forall a t, Q a t -> Q' a t) -> snug g P' Q' x.
  Proof.
    intros X H1 H2 m m' v c t E V p. destruct (X m m' v c t E V (H1 t p)) as (o & v1 & c1 & t1 & E1 & E2 & V1 & q).
    exists o, v1, c1, t1. split; [exact E1|]. split; [exact E2|]. split; [exact V1|]. intros a e. apply H2, q, e.
  Qed.
End rules.
Lemma sg_zoom {T U A} g (P : T -> Prop) (P' : U -> Prop) (Q : A -> T -> Prop) (Q' : A -> U -> Prop) get put x : snug g P' Q' x ->
  (forall t, P t -> P' (get t)) -> (forall t a u, P t -> Q' a u -> Q a (put u t)) -> snug g P Q (dzoom get put x).
Proof.
  intros X H1 H2 m m' v c t E V p. unfold dzoom. destruct (X m m' v c (get t) E V (H1 t p)) as (o & v1 & c1 & t1 & E1 & E2 & V1 & q). rewrite E1, E2.
  do 4 eexists. split; [reflexivity|]. split; [reflexivity|]. split; [exact V1|]. intros a e. exact (H2 t a t1 p (q a e)).
Qed.
Lemma sg_dlocal {T U} g (P : T -> Prop) (P' : U -> Prop) (Q : U -> T -> Prop) (Q' : unit -> U -> Prop) u x : snug g P' Q' x -> P' u ->
  (forall t u', P t -> Q' tt u' -> Q u' t) -> snug g P Q (dlocal u x).
Proof.
  intros X H1 H2 m m' v c t E V p. unfold dlocal. destruct (X m m' v c u E V H1) as (o & v1 & c1 & t1 & E1 & E2 & V1 & q). rewrite E1, E2.
  destruct o as [[]|e s|ub|]; do 4 eexists; (split; [reflexivity|]; split; [reflexivity|]; split; [exact V1|]); try discriminate.
  intros a [= <-]. exact (H2 t t1 p (q tt eq_refl)).
Qed.

(** Decoders of plain members. *)
Lemma sany_bind {T A B} g (x : D T A) (f : A -> D T B) : snug g any any2 x -> (forall a, snug g any any2 (f a)) -> snug g any any2 (dbind x f).
Proof. intros X F. eapply sg_bind; [exact X|]. intros a. eapply sg_weaken; [apply F| |]; intros; exact Logic.I. Qed.
Lemma sany_zoom {T U A} g (get : T -> U) put (x : D U A) : snug g any any2 x -> snug g any any2 (dzoom get put x).
Proof. intros X. eapply sg_zoom; [exact X| |]; intros; exact Logic.I. Qed.
Ltac splain := repeat first
  [ apply sany_bind; [|intros ?]
  | apply sany_zoom
  | apply sg_ret; intros; exact Logic.I | apply sg_throw | apply sg_mod; intros; exact Logic.I | apply sg_get; intros; exact Logic.I
  | apply sg_outcome; intros; exact Logic.I | apply sg_count; intros; exact Logic.I | apply sg_at; intros; exact Logic.I
  | apply sg_uint; intros; exact Logic.I | apply sg_raw; intros; exact Logic.I | apply sg_local; intros; exact Logic.I
  | apply sg_skip; intros; exact Logic.I | apply sg_sb; intros; exact Logic.I
  | match goal with |- snug _ _ _ (if ?c then _ else _) => destruct c end ].
Lemma sg_hdr g : snug g any any2 hdr_deserialize. Proof. unfold hdr_deserialize. splain. Qed.
Lemma sg_rg g : snug g any any2 rg_deserialize. Proof. unfold rg_deserialize. splain. Qed.
Lemma sg_sa g : snug g any any2 sa_deserialize. Proof. unfold sa_deserialize. splain. Qed.
Lemma sg_id g : snug g any any2 id_deserialize. 
Proof. assert (H : snug g any any2 id_flat) by (unfold id_flat; splain). intros m m' v c t. rewrite !id_flat_eq. apply H. Qed.
Lemma sg_fs g : snug g any any2 fs_deserialize. Proof. unfold fs_deserialize. splain. Qed.
Lemma sg_cs g : snug g any any2 cs_deserialize. Proof. unfold cs_deserialize. splain. Qed.

(** Decoders of payloads. *)
Lemma sg_hdr_session g : snug g any (fun _ h => fits 4 (h_session h)) hdr_deserialize.
Proof.
  unfold hdr_deserialize. do 2 (eapply sg_bind with (Q := any2); [apply sg_uint; intros; exact Logic.I|intros ?]).
  eapply sg_bind with (Q := fun _ h => fits 4 (h_session h)); [apply sg_uint; intros t n _ F; exact F|intros ?].
  eapply sg_bind with (Q := fun _ h => fits 4 (h_session h)); [apply sg_uint; intros t n F _; exact F|intros ?].
  eapply sg_bind with (Q := fun _ h => fits 4 (h_session h)); [apply sg_raw; intros t n F _; exact F|intros ?].
  apply sg_uint. intros t n F _. exact F.
Qed.
Definition held_reply (g : view) (p : encap_packet) : Prop := held g (ep_payload p) /\ fits 4 (h_session (ep_header p)).
Lemma sg_ep g : snug g any (fun _ => held_reply g) ep_deserialize.
Proof.
  unfold ep_deserialize. eapply sg_bind with (Q := fun _ p => fits 4 (h_session (ep_header p))).
  { eapply sg_zoom; [apply sg_hdr_session|auto|]. intros t a h _ F. exact F. }
  intros ?. eapply sg_bind with (Q := fun _ p => fits 4 (h_session (ep_header p))); [apply sg_get; auto|intros p]. destruct (0 <? _).
  - eapply sg_bind with (Q := fun sb p => (in_view g (sb_data sb) /\ sb_alloc sb = None) /\ fits 4 (h_session (ep_header p))); [apply sg_sb; auto|].
    intros sb. apply sg_mod. intros t [E F]. split; [|exact F]. right. exists sb. split; [reflexivity|exact E].
  - apply sg_mod. intros t F. split; [left; reflexivity|exact F].
Qed.
Lemma sg_ep_len g n : snug g any any2 (ep_deserialize_len n).
Proof. unfold ep_deserialize_len. splain. Qed.
Lemma sg_it_data g n : snug g any (fun _ i => held g (it_data i)) (it_deserializeData n).
Proof.
  unfold it_deserializeData. destruct (0 <? n); [|apply sg_mod; intros; left; reflexivity].
  eapply sg_bind with (Q := any2); [apply sg_mod; intros; exact Logic.I|intros ?].
  eapply sg_bind with (Q := fun sb _ => in_view g (sb_data sb) /\ sb_alloc sb = None); [apply sg_sb; auto|]. intros sb. apply sg_mod. intros t E. right. exists sb. split; [reflexivity|exact E].
Qed.
Lemma sg_it g : snug g any (fun _ i => held g (it_data i)) it_deserialize.
Proof.
  unfold it_deserialize. eapply sg_bind with (Q := any2); [apply sg_uint; intros; exact Logic.I|intros ?].
  eapply sg_bind with (Q := any2); [apply sg_local; intros; exact Logic.I|intros n]. apply sg_it_data.
Qed.
Lemma sg_it_len g n : snug g any any2 (it_deserialize_len n).
Proof.
  unfold it_deserialize_len. splain. eapply sg_weaken; [apply sg_it_data| |]; intros; exact Logic.I.
Qed.
Lemma sg_cpf g : snug g any (fun _ p => Forall (fun i => held g (it_data i)) p) cpf_deserialize.
Proof.
  unfold cpf_deserialize. eapply sg_bind with (Q := fun _ p => p = []); [apply sg_mod; reflexivity|intros ?].
  eapply sg_bind with (Q := fun _ p => Forall (fun i => held g (it_data i)) p); [apply sg_local; intros t n ->; constructor|intros n].
  generalize (N.to_nat n). clear n. intros n. induction n as [|n IH]; cbn [cpf_loop]; [apply sg_ret; auto|].
  eapply sg_bind with (Q := fun i p => held g (it_data i) /\ Forall (fun i => held g (it_data i)) p).
  { eapply sg_dlocal; [apply sg_it|exact Logic.I|]. cbn. auto. }
  intros i. eapply sg_bind; [|intros ?; exact IH]. apply sg_mod. intros p [H F]. apply Forall_app. split; [exact F|]. constructor; [exact H|constructor].
Qed.
Lemma sg_read_data g (P : mr_response -> Prop) n : snug g P (fun d t => held g d /\ P t) (ms_readData n).
Proof.
  unfold ms_readData. destruct (positive_int n) as [i|]; [|apply sg_ret; intros t p; split; [left; reflexivity|exact p]].
  eapply sg_bind with (Q := fun sb t => (in_view g (sb_data sb) /\ sb_alloc sb = None) /\ P t); [apply sg_sb; auto|]. intros sb. apply sg_ret. intros t [[E A] p]. split; [|exact p]. right. exists sb. auto.
Qed.
Lemma sg_ms g n : snug g any (fun _ s => held g (ms_additional s) /\ held g (ms_data s)) (ms_deserialize_len n).
Proof.
  unfold ms_deserialize_len. do 3 (eapply sg_bind with (Q := any2); [apply sg_uint; intros; exact Logic.I|intros ?]).
  eapply sg_bind with (Q := any2); [apply sg_local; intros; exact Logic.I|intros al].
  eapply sg_bind; [eapply sg_weaken; [apply (sg_read_data g any)|auto|intros a9 t H; exact H]|intros ad]. cbv beta.
  eapply sg_bind with (Q := fun _ s => held g (ms_additional s)); [apply sg_mod; intros t [H _]; exact H|intros ?].
  eapply sg_bind with (Q := fun _ s => held g (ms_additional s)); [apply sg_count; auto|intros c].
  eapply sg_bind; [eapply sg_weaken; [apply (sg_read_data g (fun s => held g (ms_additional s)))|auto|intros d t H; exact H]|intros d]. cbv beta.
  apply sg_mod. intros t [H1 H2]. split; assumption.
Qed.
(** Extraction from a payload in block [g]. *)
Lemma sg_copy {U} g (c : cls U) P (Q : unit -> U -> Prop) d : c_sb c = None -> (forall n, snug g P Q (deserialize_len c n)) -> held g d -> snug g P Q (d_copy c d).
Proof.
  intros C K R m m' v cnt t E V p. unfold d_copy. destruct R as [->|(sb & -> & B & _)].
  - do 4 eexists. split; [reflexivity|]. split; [reflexivity|]. split; [exact V|]. discriminate.
  - unfold copy_serializable. cbn [s_length s_sbuf ser_of_sbuf]. rewrite C. unfold run_reader.
    destruct (K (v_len (sb_data sb)) m m' (sb_data sb) 0 t E B p) as (o & v1 & c1 & t1 & -> & -> & _ & q).
    do 4 eexists. split; [reflexivity|]. split; [reflexivity|]. split; [exact V|]. exact q.
Qed.
Lemma sg_rr {X} g (Q : unit -> rr_data X -> Prop) (setData : cpf_item -> D (rr_data X) unit) :
  (forall i, held g (it_data i) -> snug g any Q (setData i)) -> snug g any Q (rr_deserialize setData).
Proof.
  intros S. unfold rr_deserialize. do 2 (eapply sg_bind with (Q := any2); [apply sg_uint; intros; exact Logic.I|intros ?]).
  eapply sg_bind with (Q := fun p _ => Forall (fun i => held g (it_data i)) p).
  { eapply sg_dlocal; [apply sg_cpf|exact Logic.I|]. auto. }
  intros p. match goal with |- snug g ?P Q (dfinally ?x _) => cut (snug g P Q x) end.
  { intros K m m' v c t E V H. assert (U : Forall (fun i => unowned (it_data i)) p).
    { eapply Forall_impl; [|exact H]. intros i [->|(sb & -> & _ & A)]; cbn [unowned]; eauto. }
    rewrite !(finally_noop _ _ (drop_unowned p U)). exact (K m m' v c t E V H). }
  destruct (_ <? 2); [apply sg_throw|].
  eapply sg_bind with (Q := fun _ _ => Forall (fun i => held g (it_data i)) p); [apply sg_at; auto|intros i0].
  destruct (negb _); [apply sg_throw|].
  eapply sg_bind with (Q := fun _ _ => Forall (fun i => held g (it_data i)) p); [apply sg_outcome; auto|intros n0].
  destruct (negb _); [apply sg_throw|].
  eapply sg_bind with (Q := fun i _ => held g (it_data i)).
  { apply sg_at. intros t i F E. rewrite Forall_forall in F. apply F. eapply nth_error_In. exact E. }
  intros i. destruct (negb _); [apply sg_throw|].
  intros m m' v c t E V H. exact (S i H m m' v c t E V Logic.I).
Qed.
Lemma sg_rrs g : snug g any (fun _ r => held g (ms_additional (rr_ext r)) /\ held g (ms_data (rr_ext r))) rrs_deserialize.
Proof.
  apply sg_rr. intros i R. eapply sg_zoom with (P' := any) (Q' := fun _ s => held g (ms_additional s) /\ held g (ms_data s)); [|intros t H; exact Logic.I|intros t a s _ H; exact H].
  unfold it_getDataAs. apply sg_copy; [reflexivity|intros n; apply sg_ms|exact R].
Qed.

(** ** The library's classes *)
Lemma snug_tight {T A} (x : D T A) : (forall g, snug g any any2 x) -> tight x.
Proof.
  intros H m m' v c t E. destruct (H v m m' v c t E (in_view_self v) Logic.I) as (o & v1 & c1 & t1 & E1 & E2 & _).
  exists o, v1, c1, t1. auto.
Qed.
Definition snug_cls {T} (c : cls T) : Prop := (forall g, snug g any any2 (c_des c)) /\ forall g n, snug g any any2 (deserialize_len c n).
Lemma sg_virtual {T} check (x : D T unit) sb : (forall g, snug g any any2 x) -> snug_cls (mkCls (DLVirtual check) x sb).
Proof. intros K. split; [exact K|]. intros g n. unfold deserialize_len. cbn [c_deslen c_des]. destruct (check 0 n) as [[e s]|]; [apply sg_throw|apply K]. Qed.
Lemma snug_all :
  snug_cls hdr_cls /\ snug_cls ep_cls /\ snug_cls it_cls /\ snug_cls cpf_cls /\ snug_cls mq_cls /\ snug_cls ms_cls /\
  snug_cls rr_base_cls /\ snug_cls rrq_cls /\ snug_cls rrs_cls /\ snug_cls rg_cls /\ snug_cls sa_cls /\ snug_cls id_cls /\
  snug_cls fo_cls /\ snug_cls fc_cls /\ snug_cls fs_cls /\ snug_cls cs_cls /\ forall k, snug_cls (prim_cls k).
Proof.
  repeat match goal with |- _ /\ _ => split end; try (intros k); try (apply sg_virtual; intros g).
  - apply sg_hdr.
  - split; [|intros g n; apply sg_ep_len]. intros g. eapply sg_weaken; [apply sg_ep| |]; intros; exact Logic.I.
  - split; [|intros g n; apply sg_it_len]. intros g. eapply sg_weaken; [apply sg_it| |]; intros; exact Logic.I.
  - eapply sg_weaken; [apply sg_cpf| |]; intros; exact Logic.I.
  - split; intros; apply sg_throw.
  - split; [intros g; apply sg_throw|]. intros g n. eapply sg_weaken; [apply sg_ms| |]; intros; exact Logic.I.
  - apply sg_rr. intros. apply sg_ret. intros; exact Logic.I.
  - apply sg_rr. intros. apply sg_throw.
  - eapply sg_weaken; [apply sg_rrs| |]; intros; exact Logic.I.
  - apply sg_rg.
  - apply sg_sa.
  - apply sg_id.
  - split; intros; apply sg_throw.
  - split; intros; apply sg_throw.
  - apply sg_fs.
  - apply sg_cs.
  - cbn. apply sg_uint. intros; exact Logic.I.
Qed.
Lemma snug_seq {T} (c : cls T) : snug_cls c -> snug_cls (sq_cls c).
Proof.
  intros [K1 K2].
  assert (S : forall g, snug g any any2 (sq_deserialize c)).
  { intros g. unfold sq_deserialize. apply sany_bind; [apply sg_get; intros; exact Logic.I|intros q]. destruct (sq_busy q); [apply sany_zoom, K1|].
    apply sany_bind; [apply sg_uint; intros; exact Logic.I|intros ?]. apply sany_bind; [apply sg_mod; intros; exact Logic.I|intros ?].
    apply sany_bind; [apply sany_zoom, K1|intros ?]. apply sg_mod; intros; exact Logic.I. }
  assert (B : forall g n, snug g any any2 (sq_base_deslen c n)).
  { intros g n. unfold sq_base_deslen. pose proof (K2 g n) as H. unfold deserialize_len in H. destruct (c_deslen c); [apply sany_zoom, H|].
    destruct (check 2 n) as [[e s]|]; [apply sg_throw|apply S]. }
  split; [exact S|]. intros g n. unfold deserialize_len, sq_cls. cbn [c_deslen]. unfold sq_deserialize_len.
  apply sany_bind; [apply sg_get; intros; exact Logic.I|intros q]. destruct (sq_busy q); [apply B|].
  apply sany_bind; [apply sg_uint; intros; exact Logic.I|intros ?]. apply sany_bind; [apply sg_mod; intros; exact Logic.I|intros ?].
  apply sany_bind; [apply B|intros ?]. apply sg_mod; intros; exact Logic.I.
Qed.
Lemma snug_cls_tight {T} (c : cls T) : snug_cls c -> tight_cls c.
Proof. intros [K1 K2]. split; [|intros n]; apply snug_tight; intros g; [apply K1|apply K2]. Qed.
