(** Proofs for C132. *)
From Verif Require Import PStream PLife PCopies PRest PSend PScarce Vocab35.

Definition ok_run {T A} (x X : D T A) m d p t : Prop :=
  exists o m' p' t', x m (RStr d p false) t = (o, m', RStr d p' false, t') /\ X m (RStr d p false) t = (o, m', RStr d p' false, t') /\
    (p <= len d -> p' <= len d /\ forall e, x m (RStr (d ++ e) p false) t = (o, m', RStr (d ++ e) p' false, t')).
Definition bad_run {T A} (x X : D T A) m d p t : Prop :=
  exists o m' p' t' m2 p2 t2, x m (RStr d p false) t = (o, m', RStr d p' true, t') /\ X m (RStr d p false) t = (ios_failure, m2, RStr d p2 true, t2).
Definition tied {T A} (x X : D T A) : Prop :=
  (forall m d p t, ok_run x X m d p t \/ bad_run x X m d p t) /\
  (forall m d p t, exists o m' p' t', x m (RStr d p true) t = (o, m', RStr d p' true, t')).
Definition steady {T A} (x : D T A) : Prop := forall m r t, exists o m' t', (forall r', x m r' t = (o, m', r', t')) /\ x m r t = (o, m', r, t').

Lemma tied_same {T A} (x X : D T A) : tied x X -> same_or_raises x X.
Proof.
  intros [H _] m d p t. destruct (H m d p t) as [(o & m' & p' & t' & E & F & _)|(o & m' & p' & t' & m2 & p2 & t2 & E & F)].
  - exists o, m', p', false, t'. split; assumption.
  - exists o, m', p', true, t'. split; [exact E|]. exists m2, p2, t2. exact F.
Qed.
Lemma tied_steady {T A} (x : D T A) : steady x -> tied x x.
Proof.
  intros H. split; intros m d p t.
  - left. destruct (H m (RStr d p false) t) as (o & m' & t' & E & _). exists o, m', p, t'. split; [apply E|]. split; [apply E|]. intros Q. split; [exact Q|]. intros e. apply E.
  - destruct (H m (RStr d p true) t) as (o & m' & t' & E & _). exists o, m', p, t'. apply E.
Qed.
Ltac std := intros m r t; do 3 eexists; split; [intros r'; reflexivity|reflexivity].
Lemma st_ret {T A} (a : A) : steady (@dret T A a). Proof. std. Qed.
Lemma st_throw {T A} c s : steady (@dthrow T A c s). Proof. std. Qed.
Lemma st_out {T A} (o : outcome A) : steady (@d_outcome T A o). Proof. std. Qed.
Lemma st_get {T} : steady (@dget T). Proof. std. Qed.
Lemma st_mod {T} (f : T -> T) : steady (dmod f). Proof. std. Qed.
Lemma st_at {T A} (l : list A) i : steady (@d_at T A l i).
Proof. unfold d_at. destruct (nth_error l i); [apply st_ret|apply st_throw]. Qed.
Lemma st_bind {T A B} (x : D T A) (f : A -> D T B) : steady x -> (forall a, steady (f a)) -> steady (dbind x f).
Proof.
  intros H G m r t. destruct (H m r t) as (o & m' & t' & E & E0). unfold dbind. destruct o as [a|c s|u|].
  - destruct (G a m' r t') as (o2 & m2 & t2 & F & F0). exists o2, m2, t2. split; [intros r'; rewrite E; apply F|rewrite E; apply F].
  - exists (Throw c s), m', t'. split; [intros r'|]; rewrite E; reflexivity.
  - exists (Undef u), m', t'. split; [intros r'|]; rewrite E; reflexivity.
  - exists Stuck, m', t'. split; [intros r'|]; rewrite E; reflexivity.
Qed.
Lemma st_zoom {T U A} get put (x : D U A) : steady x -> steady (@dzoom T U A get put x).
Proof.
  intros H m r t. destruct (H m r (get t)) as (o & m' & t' & E & _). unfold dzoom. exists o, m', (put t' t).
  split; [intros r'|]; rewrite E; reflexivity.
Qed.
Lemma st_free {T} b : steady (@d_free T b).
Proof. intros m r t. unfold d_free. destruct (free m b); do 3 eexists; (split; [intros r'; reflexivity|reflexivity]). Qed.
Lemma st_drop {T} p : steady (@d_drop T p).
Proof. unfold d_drop. destruct p as [s|]; [|apply st_ret]. destruct (s_sbuf s) as [sb|]; [|apply st_ret]. destruct (sb_alloc sb); [apply st_free|apply st_ret]. Qed.
Lemma st_drops {T} l : steady (@d_drop_items T l).
Proof. induction l as [|i l IH]; cbn [d_drop_items]; [apply st_ret|apply st_bind; [apply st_drop|intros _; exact IH]]. Qed.
Lemma st_fin {T A} (x : D T A) f : steady x -> steady f -> steady (dfinally x f).
Proof.
  intros H G m r t. destruct (H m r t) as (o & m' & t' & E & _). unfold dfinally. destruct o as [a|c s|u|].
  - destruct (st_bind f (fun _ => dret a) G (fun _ => st_ret a) m' r t') as (o2 & m2 & t2 & F & _). exists o2, m2, t2. split; [intros r'|]; rewrite E; apply F.
  - destruct (st_bind f (fun _ => @dthrow T A c s) G (fun _ => st_throw c s) m' r t') as (o2 & m2 & t2 & F & _). exists o2, m2, t2. split; [intros r'|]; rewrite E; apply F.
  - exists (Undef u), m', t'. split; [intros r'|]; rewrite E; reflexivity.
  - exists Stuck, m', t'. split; [intros r'|]; rewrite E; reflexivity.
Qed.
Lemma st_as {U} (c : cls U) i : steady (it_getDataAs c i).
Proof.
  intros m r t. unfold it_getDataAs, d_copy. destruct (it_data i) as [s|].
  - destruct (copy_serializable c s m t) as [[o m'] t']. do 3 eexists. split; [intros r'; reflexivity|reflexivity].
  - do 3 eexists. split; [intros r'; reflexivity|reflexivity].
Qed.

Lemma tied_bind {T A B} (x X : D T A) (f F : A -> D T B) : tied x X -> (forall a, tied (f a) (F a)) -> tied (dbind x f) (dbind X F).
Proof.
  intros [H K] G. split; intros m d p t.
  - destruct (H m d p t) as [(o & m' & p' & t' & E & E' & L)|(o & m' & p' & t' & m2 & p2 & t2 & E & E')].
    + destruct o as [a|c s|u|].
      2-4: left; unfold ok_run, dbind; rewrite E, E'; do 4 eexists; split; [reflexivity|]; split; [reflexivity|]; intros Q; destruct (L Q) as [L1 L2]; split; [exact L1|]; intros e; rewrite L2; reflexivity.
      destruct (G a) as [Ga _]. destruct (Ga m' d p' t') as [(o2 & m2 & p2 & t2 & E2 & E2' & L')|(o2 & m2 & p2 & t2 & m3 & p3 & t3 & E2 & E2')].
      * left. unfold ok_run, dbind. rewrite E, E'. exists o2, m2, p2, t2. split; [exact E2|]. split; [exact E2'|]. intros Q. destruct (L Q) as [L1 L2].
        destruct (L' L1) as [L3 L4]. split; [exact L3|]. intros e. rewrite L2. apply L4.
      * right. unfold bad_run, dbind. rewrite E, E'. do 7 eexists. split; [exact E2|exact E2'].
    + right. unfold bad_run, dbind. rewrite E, E'. destruct o as [a|c s|u|].
      2-4: do 7 eexists; split; reflexivity.
      destruct (G a) as [_ Ka]. destruct (Ka m' d p' t') as (o3 & m3 & p3 & t3 & E3). do 7 eexists. split; [exact E3|reflexivity].
  - destruct (K m d p t) as (o & m' & p' & t' & E). unfold dbind. rewrite E. destruct o as [a|c s|u|].
    2-4: do 4 eexists; reflexivity.
    destruct (G a) as [_ Ka]. apply Ka.
Qed.
Lemma tied_zoom {T U A} get put (x X : D U A) : tied x X -> tied (@dzoom T U A get put x) (dzoom get put X).
Proof.
  intros [H K]. split; intros m d p t.
  - destruct (H m d p (get t)) as [(o & m' & p' & t' & E & E' & L)|(o & m' & p' & t' & m2 & p2 & t2 & E & E')].
    + left. unfold ok_run, dzoom. rewrite E, E'. do 4 eexists. split; [reflexivity|]. split; [reflexivity|]. intros Q. destruct (L Q) as [L1 L2].
      split; [exact L1|]. intros e. rewrite L2. reflexivity.
    + right. unfold bad_run, dzoom. rewrite E, E'. do 7 eexists. split; reflexivity.
  - destruct (K m d p (get t)) as (o & m' & p' & t' & E). unfold dzoom. rewrite E. do 4 eexists. reflexivity.
Qed.

(** Reads. *)
Lemma drop_app_within {A} n (a b : list A) : n <= len a -> drop n (a ++ b) = drop n a ++ b.
Proof.
  intros L. rewrite <- (take_drop n a) at 1. rewrite <- app_assoc. apply drop_app. rewrite len_take. lia.
Qed.
Lemma read_app (d : list byte) p n e : p <= len d -> n <= len (drop p d) -> take n (drop p (d ++ e)) = take n (drop p d).
Proof. intros P L. rewrite drop_app_within by exact P. apply take_app_l. exact L. Qed.
Lemma rd_run (d : list byte) p n : let got := take n (drop p d) in
  (len got <? n) = true \/ (len got <? n) = false /\ len got = n /\ (p <= len d -> p + n <= len d /\ forall e, str_read (d ++ e) p false n = (got, RStr (d ++ e) (p + n) false)).
Proof.
  cbv zeta. destruct (len (take n (drop p d)) <? n) eqn:E; [left; reflexivity|right]. apply N.ltb_ge in E.
  pose proof (len_take n (drop p d)) as L. split; [reflexivity|]. assert (E0 : len (take n (drop p d)) = n) by lia. split; [exact E0|]. intros P.
  pose proof (len_drop p d) as L2. split; [lia|]. intros e. unfold str_read. rewrite read_app by lia. rewrite E0, N.ltb_irrefl. reflexivity.
Qed.
Lemma tied_raw {T} n get set : tied (@rd_raw T n get set) (rd_raw_x n get set).
Proof.
  split; intros m d p t.
  - unfold ok_run, bad_run, rd_raw_x, raising, rd_raw, str_read. pose proof (rd_run d p n) as [E|(E & E0 & L)]; cbv zeta in *.
    + right. rewrite E. do 7 eexists. split; reflexivity.
    + left. rewrite E. do 4 eexists. split; [reflexivity|]. split; [reflexivity|]. intros P. destruct (L P) as [L1 L2]. rewrite E0. split; [exact L1|].
      intros e. specialize (L2 e). unfold str_read in L2. apply pair_equal_spec in L2. destruct L2 as [-> ->]. rewrite E0. reflexivity.
  - unfold rd_raw, str_read. do 4 eexists. reflexivity.
Qed.
Lemma tied_uint {T} k get set : tied (@rd_uint T k get set) (rd_uint_x k get set).
Proof. apply tied_raw. Qed.
Lemma tied_skip {T} n : tied (@rd_skip T n) (rd_skip_x n).
Proof.
  split; intros m d p t.
  - unfold ok_run, bad_run, rd_skip_x, raising, rd_skip. destruct (p + n <=? len d) eqn:E.
    + left. do 4 eexists. split; [reflexivity|]. split; [reflexivity|]. apply N.leb_le in E. intros _. split; [exact E|]. intros e. rewrite len_app.
      replace (p + n <=? len d + len e) with true by (symmetry; apply N.leb_le; lia). reflexivity.
    + right. do 7 eexists. split; reflexivity.
  - unfold rd_skip. do 4 eexists. reflexivity.
Qed.
Lemma tied_count {T} : tied (@rd_count T) rd_count.
Proof.
  split; intros m d p t; unfold ok_run, rd_count.
  - left. do 4 eexists. split; [reflexivity|]. split; [reflexivity|]. intros P. split; [exact P|]. intros e. reflexivity.
  - do 4 eexists. reflexivity.
Qed.
Lemma tied_local {T} k : (0 < k)%nat -> tied (@rd_local T k) (rd_local_x k).
Proof.
  intros Pk. split; intros m d p t.
  - unfold ok_run, bad_run, rd_local_x, dlocal, rd_uint_x, raising, rd_uint, rd_raw, rd_local, str_read. pose proof (rd_run d p (N.of_nat k)) as [E|(E & E0 & L)]; cbv zeta in *.
    + right. rewrite E. do 7 eexists. split; reflexivity.
    + left. rewrite E. exists (Ret (host_value (take (N.of_nat k) (drop p d)))). do 3 eexists. split; [reflexivity|]. split.
      * replace (drop (len (take (N.of_nat k) (drop p d))) (host_bytes k 0)) with (@nil byte); [rewrite app_nil_r; reflexivity|].
        rewrite E0. symmetry. apply drop_all. rewrite len_host_bytes. lia.
      * intros P. destruct (L P) as [L1 L2]. rewrite E0. split; [exact L1|].
        intros e. specialize (L2 e). unfold str_read in L2. apply pair_equal_spec in L2. destruct L2 as [-> L3]. rewrite E0 in *. rewrite L3.
        rewrite N.ltb_irrefl. reflexivity.
  - unfold rd_local, str_read. change (len []) with 0. replace (0 <? N.of_nat k) with true by (symmetry; apply N.ltb_lt; lia). do 4 eexists. reflexivity.
Qed.
Lemma tied_name n : tied (rd_name n) (rd_name_x n).
Proof.
  split; intros m d p t.
  - unfold ok_run, bad_run, rd_name_x, raising, rd_name, dbind, dget. destruct (len (id_name t) <? n).
    + left. unfold dundef. do 4 eexists. split; [reflexivity|]. split; [reflexivity|]. intros P. split; [exact P|]. intros e. reflexivity.
    + destruct (tied_raw n (fun i => take n (id_name i)) (fun bs i => id_set_name (bs ++ drop n (id_name i)) i)) as [H _].
      exact (H m d p t).
  - unfold rd_name, dbind, dget. destruct (len (id_name t) <? n); [do 4 eexists; reflexivity|]. unfold rd_raw, str_read. do 4 eexists. reflexivity.
Qed.

(** Buffer objects. *)
Lemma store_last m n got : len got <= n -> store (m ++ [Some (zeros n)]) (List.length m) 0 got = Ret (m ++ [Some (padded n got)]).
Proof.
  intros L. unfold store, padded. destruct (N.eqb_spec (len got) 0) as [E|E].
  - rewrite (len_0 _ E). cbn [List.app]. change (len (@nil byte)) with 0. rewrite N.sub_0_r. reflexivity.
  - rewrite nth_error_app_end, len_zeros. destruct (N.leb_spec (0 + len got) n); [|lia]. rewrite list_set_app_end.
    change (take 0 (zeros n)) with (@nil byte). cbn [List.app]. rewrite N.add_0_l.
    do 4 f_equal. unfold drop, zeros. rewrite N2Nat.inj_sub. generalize (N.to_nat n) as a. generalize (N.to_nat (len got)) as b.
    induction b; intros a; [rewrite PeanoNat.Nat.sub_0_r; reflexivity|]. destruct a; [reflexivity|]. cbn. apply IHb.
Qed.
Definition newsb (m : heap) (n : N) : sbuf := mkSB (mkV (List.length m) 0 n) (Some (List.length m)).
Lemma sb_plain n m d p f : 0 < n -> sb_deserialize_len n m (RStr d p f) sb_empty =
  let got := fst (str_read d p f n) in (Ret tt, m ++ [Some (padded n got)], snd (str_read d p f n), newsb m n).
Proof.
  intros P. rewrite (sb_str n m d p f P). cbv zeta. destruct (str_read d p f n) as [got r'] eqn:E. cbn [fst snd].
  rewrite store_last; [reflexivity|]. unfold str_read in E. destruct f; injection E as <- _; [change (len []) with 0; lia|]. rewrite len_take. lia.
Qed.
Lemma sb_strict n m d p : 0 < n -> let got := take n (drop p d) in sb_deserialize_len_x n m (RStr d p false) sb_empty =
  (if len got <? n then ios_failure else Ret tt, m ++ [Some (padded n got)], RStr d (p + len got) (len got <? n), newsb m n).
Proof.
  intros Pn. assert (E : (n =? 0) = false) by (apply N.eqb_neq; lia). cbv zeta.
  cbv beta iota zeta delta [sb_deserialize_len_x sb_delete dbind rd_is_buffer dget dret sb_empty sb_alloc sb_data null_view v_len]. rewrite E.
  cbv beta iota zeta delta [d_alloc alloc dmod rd_into_x raising rd_into sb_data v_len v_blk v_off str_read].
  rewrite store_last by (rewrite len_take; lia). destruct (len (take n (drop p d)) <? n); reflexivity.
Qed.
Lemma scoped_x {T} n m d p (t : T) : 0 < n -> let got := take n (drop p d) in sb_scoped_x n m (RStr d p false) t =
  if len got <? n then (ios_failure, m ++ [None], RStr d (p + len got) true, t) else (Ret (newsb m n), m ++ [Some (padded n got)], RStr d (p + len got) false, t).
Proof.
  intros P. cbv zeta. unfold sb_scoped_x, dscoped. rewrite sb_strict by exact P. destruct (len (take n (drop p d)) <? n); [|reflexivity].
  cbv beta iota delta [ios_failure dbind d_drop ser_of_sbuf s_sbuf newsb sb_alloc d_free]. rewrite free_app_end. reflexivity.
Qed.
Lemma member_x {T} (put : option ser -> T -> T) n m d p (t : T) : 0 < n -> let got := take n (drop p d) in sb_member_x put n m (RStr d p false) t =
  (if len got <? n then ios_failure else Ret tt, m ++ [Some (padded n got)], RStr d (p + len got) (len got <? n), put (Some (ser_of_sbuf (newsb m n))) t).
Proof. intros P. cbv zeta. unfold sb_member_x, dzoom. rewrite sb_strict by exact P. reflexivity. Qed.
Lemma tied_scoped_sb {T} n : 0 < n -> tied (@dlocal T sbuf sb_empty (sb_deserialize_len n)) (sb_scoped_x n).
Proof.
  intros P. split; intros m d p t.
  - unfold ok_run, bad_run. rewrite (scoped_x n m d p t P). unfold dlocal. rewrite (sb_plain n m d p false P). cbv zeta. unfold str_read. cbn [fst snd].
    pose proof (rd_run d p n) as [E|(E & E0 & L)]; cbv zeta in *; rewrite E.
    + right. do 7 eexists. split; reflexivity.
    + left. do 4 eexists. split; [reflexivity|]. split; [reflexivity|]. intros Q. destruct (L Q) as [L1 L2]. rewrite E0. split; [exact L1|].
      intros e. rewrite (sb_plain n m (d ++ e) p false P). cbv zeta. rewrite L2. reflexivity.
  - unfold dlocal. rewrite (sb_plain n m d p true P). cbv zeta. unfold str_read. cbn [fst snd]. do 4 eexists. reflexivity.
Qed.
Lemma tied_member {T} (put : option ser -> T -> T) n : (forall a b t, put a (put b t) = put a t) -> 0 < n ->
  tied (dmod (put (Some (ser_of_sbuf sb_empty))) ;;; sb <- dlocal sb_empty (sb_deserialize_len n) ;;; dmod (put (Some (ser_of_sbuf sb)))) (sb_member_x put n).
Proof.
  intros A P.
  assert (Q : forall m d p f t, (dmod (put (Some (ser_of_sbuf sb_empty))) ;;; sb <- dlocal sb_empty (sb_deserialize_len n) ;;; dmod (put (Some (ser_of_sbuf sb)))) m (RStr d p f) t =
     (Ret tt, m ++ [Some (padded n (fst (str_read d p f n)))], snd (str_read d p f n), put (Some (ser_of_sbuf (newsb m n))) t)).
  { intros m d p f t. unfold dbind, dmod, dlocal. rewrite (sb_plain n m d p f P). cbv zeta. cbn [fst snd]. try rewrite A. reflexivity. }
  split; intros m d p t.
  - unfold ok_run, bad_run. rewrite (member_x put n m d p t P), (Q m d p false t). cbv zeta. unfold str_read. cbn [fst snd].
    pose proof (rd_run d p n) as [E|(E & E0 & L)]; cbv zeta in *; rewrite E.
    + right. do 7 eexists. split; reflexivity.
    + left. do 4 eexists. split; [reflexivity|]. split; [reflexivity|]. intros R. destruct (L R) as [L1 L2]. rewrite E0. split; [exact L1|].
      intros e. rewrite Q, L2. reflexivity.
  - rewrite Q. unfold str_read. cbn [fst snd]. do 4 eexists. reflexivity.
Qed.
Definition tidy {T U} (u0 : U) (drop : U -> D T unit) (X : D U unit) : Prop := forall m d p,
  (exists m' p' u, X m (RStr d p false) u0 = (Ret tt, m', RStr d p' false, u)) \/
  (exists m' p' u m3, X m (RStr d p false) u0 = (ios_failure, m', RStr d p' true, u) /\ forall r t, drop u m' r t = (Ret tt, m3, r, t)).
Lemma tied_scoped {T U} (u0 : U) (drop : U -> D T unit) x X : tied x X -> tidy u0 drop X -> tied (dlocal u0 x) (dscoped u0 drop X).
Proof.
  intros [H K] W. split; intros m d p t.
  - destruct (H m d p u0) as [(o & m' & p' & t' & E & E' & L)|(o & m' & p' & t' & m2 & p2 & t2 & E & E')].
    + left. destruct (W m d p) as [(m3 & p3 & u & F)|(m3 & p3 & u & m4 & F & _)]; rewrite F in E'; [|congruence].
      apply pair_equal_spec in E'. destruct E' as [E' ->]. apply pair_equal_spec in E'. destruct E' as [E' Ep]. injection Ep as ->.
      apply pair_equal_spec in E'. destruct E' as [<- ->]. unfold ok_run, dlocal, dscoped. rewrite E, F. do 4 eexists. split; [reflexivity|].
      split; [reflexivity|]. intros Q. destruct (L Q) as [L1 L2]. split; [exact L1|]. intros e. rewrite L2. reflexivity.
    + right. destruct (W m d p) as [(m3 & p3 & u & F)|(m3 & p3 & u & m4 & F & G)]; rewrite F in E'; [discriminate|].
      unfold bad_run, dlocal, dscoped. rewrite E, F. cbv beta iota delta [ios_failure dbind]. rewrite G. destruct o; do 7 eexists; (split; [reflexivity|reflexivity]).
  - unfold dlocal. destruct (K m d p u0) as (o & m' & p' & t' & E). rewrite E. destruct o; do 4 eexists; reflexivity.
Qed.

(** The classes. *)
Ltac tied_step := lazymatch goal with
  | |- tied (dbind _ _) (dbind _ _) => apply tied_bind; [|intros ?]
  | |- tied (rd_uint _ _ _) _ => apply tied_uint
  | |- tied (rd_raw _ _ _) _ => apply tied_raw
  | |- tied (rd_local _) _ => apply tied_local; apply PeanoNat.Nat.lt_0_succ
  | |- tied (rd_skip _) _ => apply tied_skip
  | |- tied rd_count _ => apply tied_count
  | |- tied (rd_name _) _ => apply tied_name
  | |- tied (dmod _) _ => apply tied_steady, st_mod
  | |- tied dget _ => apply tied_steady, st_get
  | |- tied (dret _) _ => apply tied_steady, st_ret
  | |- tied (dthrow _ _) _ => apply tied_steady, st_throw
  | |- tied (dzoom _ _ _) _ => apply tied_zoom
  end.
Lemma tied_hdr : tied hdr_deserialize hdr_deserialize_x.
Proof. unfold hdr_deserialize, hdr_deserialize_x. repeat tied_step. Qed.
Lemma tied_ep : tied ep_deserialize ep_deserialize_x.
Proof.
  unfold ep_deserialize, ep_deserialize_x. tied_step; [tied_step; apply tied_hdr|]. tied_step; [tied_step|].
  destruct (0 <? h_length (ep_header a0)) eqn:E; [|tied_step]. apply N.ltb_lt in E. tied_step; [apply tied_scoped_sb; exact E|tied_step].
Qed.
Lemma tied_ep_len n : tied (ep_deserialize_len n) (ep_deserialize_len_x n).
Proof.
  unfold ep_deserialize_len, ep_deserialize_len_x. destruct (n <? hdr_getLength); [tied_step|]. tied_step; [tied_step; apply tied_hdr|]. tied_step; [tied_step|].
  destruct (negb _); [tied_step|]. destruct (0 <? h_length (ep_header a0)) eqn:E; [|tied_step]. apply N.ltb_lt in E.
  apply (tied_member ep_set_payload_field); [reflexivity|exact E].
Qed.
Lemma tied_data n : tied (it_deserializeData n) (it_deserializeData_x n).
Proof.
  unfold it_deserializeData, it_deserializeData_x. destruct (0 <? n) eqn:E; [|tied_step]. apply N.ltb_lt in E. apply (tied_member it_set_data); [reflexivity|exact E].
Qed.
Lemma tied_item : tied it_deserialize it_deserialize_x.
Proof. unfold it_deserialize, it_deserialize_x. do 4 try tied_step. apply tied_data. Qed.
Lemma tied_item_len l : tied (it_deserialize_len l) (it_deserialize_len_x l).
Proof.
  unfold it_deserialize_len, it_deserialize_len_x. destruct (l <? 4); [tied_step|]. do 4 try tied_step.
  destruct (l <? a0 + 4); [tied_step|apply tied_data].
Qed.

(** Reads that touch no memory: they return, or raise, and leave [g] of the object alone. *)
Definition calm {T A G} (g : T -> G) (X : D T A) : Prop := forall m d p t,
  (exists a p' t', X m (RStr d p false) t = (Ret a, m, RStr d p' false, t') /\ g t' = g t) \/
  (exists p' t', X m (RStr d p false) t = (ios_failure, m, RStr d p' true, t') /\ g t' = g t).
Lemma calm_raw {T G} (g : T -> G) n get set : (forall v t, g (set v t) = g t) -> calm g (rd_raw_x n get set).
Proof.
  intros K m d p t. unfold rd_raw_x, raising, rd_raw, str_read. destruct (len (take n (drop p d)) <? n).
  - right. do 2 eexists. split; [reflexivity|apply K].
  - left. do 3 eexists. split; [reflexivity|apply K].
Qed.
Lemma calm_uint {T G} (g : T -> G) k get set : (forall v t, g (set v t) = g t) -> calm g (rd_uint_x k get set).
Proof. intros K. apply calm_raw. intros v t. apply K. Qed.
Lemma calm_skip {T G} (g : T -> G) n : calm g (rd_skip_x n).
Proof.
  intros m d p t. unfold rd_skip_x, raising, rd_skip. destruct (p + n <=? len d); [left; do 3 eexists|right; do 2 eexists]; (split; reflexivity).
Qed.
Lemma calm_local {T G} (g : T -> G) k : calm g (rd_local_x k).
Proof.
  intros m d p t. unfold rd_local_x, dlocal, rd_uint_x, raising, rd_uint, rd_raw, str_read.
  destruct (len (take (N.of_nat k) (drop p d)) <? N.of_nat k); [right; do 2 eexists|left; do 3 eexists]; (split; reflexivity).
Qed.
Lemma calm_count {T G} (g : T -> G) : calm g rd_count.
Proof. intros m d p t. left. do 3 eexists. split; reflexivity. Qed.
Lemma calm_mod {T G} (g : T -> G) f : (forall t, g (f t) = g t) -> calm g (dmod f).
Proof. intros K m d p t. left. do 3 eexists. split; [reflexivity|apply K]. Qed.
Lemma calm_get {T G} (g : T -> G) : calm g dget.
Proof. intros m d p t. left. do 3 eexists. split; reflexivity. Qed.
Lemma calm_bind {T A B G} (g : T -> G) (X : D T A) (k : A -> D T B) : calm g X -> (forall a, calm g (k a)) -> calm g (dbind X k).
Proof.
  intros H K m d p t. destruct (H m d p t) as [(a & p' & t' & E & Q)|(p' & t' & E & Q)]; rewrite bind_eq, E.
  - destruct (K a m d p' t') as [(b & p2 & t2 & F & R)|(p2 & t2 & F & R)]; rewrite F; [left; exists b, p2, t2|right; exists p2, t2]; (split; [reflexivity|congruence]).
  - right. exists p', t'. split; [reflexivity|exact Q].
Qed.
Lemma calm_zoom {T U A G} (g : T -> G) (get : T -> U) put (X : D U A) : (forall u t, g (put u t) = g t) -> calm (fun _ => tt) X -> calm g (dzoom get put X).
Proof.
  intros K H m d p t. unfold dzoom. destruct (H m d p (get t)) as [(a & p' & t' & E & _)|(p' & t' & E & _)]; rewrite E;
    [left; exists a, p', (put t' t)|right; exists p', (put t' t)]; (split; [reflexivity|apply K]).
Qed.
Ltac calm_step := lazymatch goal with
  | |- calm _ (dbind _ _) => apply calm_bind; [|intros ?]
  | |- calm _ (rd_uint_x _ _ _) => apply calm_uint; reflexivity
  | |- calm _ (rd_raw_x _ _ _) => apply calm_raw; reflexivity
  | |- calm _ (rd_local_x _) => apply calm_local
  | |- calm _ (rd_skip_x _) => apply calm_skip
  | |- calm _ rd_count => apply calm_count
  | |- calm _ (dmod _) => apply calm_mod; reflexivity
  | |- calm _ dget => apply calm_get
  | |- calm _ (dzoom _ _ _) => apply calm_zoom; [reflexivity|]
  end.
Lemma calm_hdr : calm (fun _ => tt) hdr_deserialize_x.
Proof. unfold hdr_deserialize_x. repeat calm_step. Qed.
Lemma calm_rg : calm (fun _ => tt) rg_deserialize_x. Proof. unfold rg_deserialize_x. repeat calm_step. Qed.
Lemma calm_sa : calm (fun _ => tt) sa_deserialize_x. Proof. unfold sa_deserialize_x. repeat calm_step. Qed.
Lemma calm_prim k : calm (fun _ => tt) (prim_des_x k). Proof. unfold prim_des_x. repeat calm_step. Qed.

(** What is left after a raise. *)
Lemma packet_left m d p x m2 r2 x2 : ep_deserialize_x m (RStr d p false) x = (ios_failure, m2, r2, x2) ->
  exists z, m2 = m ++ z /\ spare z /\ ep_payload x2 = ep_payload x.
Proof.
  intros E. unfold ep_deserialize_x in E. rewrite bind_eq in E.
  destruct (calm_zoom ep_payload ep_header ep_set_header _ (fun u t => eq_refl) calm_hdr m d p x) as [(a & p' & t' & F & Q)|(p' & t' & F & Q)]; rewrite F in E.
  - rewrite bind_eq, dget_eq in E. destruct (0 <? h_length (ep_header t')) eqn:L; [|rewrite dmod_eq in E; discriminate]. apply N.ltb_lt in L.
    rewrite bind_eq, (scoped_x _ m d p' t' L) in E. cbv zeta in E.
    destruct (len (take (h_length (ep_header t')) (drop p' d)) <? h_length (ep_header t')); cbv beta iota delta [ios_failure] in E; [|rewrite dmod_eq in E; discriminate].
    apply pair_equal_spec in E. destruct E as [E <-]. apply pair_equal_spec in E. destruct E as [E _]. apply pair_equal_spec in E. destruct E as [_ <-].
    exists [None]. split; [reflexivity|]. split; [right; reflexivity|exact Q].
  - cbv beta iota delta [ios_failure] in E. apply pair_equal_spec in E. destruct E as [E <-]. apply pair_equal_spec in E. destruct E as [E _]. apply pair_equal_spec in E. destruct E as [_ <-].
    exists []. split; [symmetry; apply app_nil_r|]. split; [left; reflexivity|exact Q].
Qed.
Lemma len_padded n (got : list byte) : len got <= n -> len (padded n got) = n.
Proof. intros L. unfold padded. rewrite len_app, len_zeros. lia. Qed.
Lemma len_got n (d : list byte) : len (take n d) <= n. Proof. rewrite len_take. lia. Qed.
Lemma own_new m n (got : list byte) ty : len got <= n -> own_blocks false (List.length m) [padded n got] [mkItem ty (Some (ser_of_sbuf (newsb m n)))].
Proof. intros L. unfold newsb. rewrite <- (len_padded n got L) at 2. apply ob_data, ob_none. Qed.
Lemma told_left n m d p x m2 r2 x2 : ep_deserialize_len_x n m (RStr d p false) x = (ios_failure, m2, r2, x2) ->
  (m2 = m /\ ep_payload x2 = ep_payload x) \/ exists bs, m2 = m ++ [Some bs] /\ own_blocks false (List.length m) [bs] [mkItem 0 (ep_payload x2)].
Proof.
  intros E. unfold ep_deserialize_len_x in E. destruct (n <? hdr_getLength); [discriminate|]. rewrite bind_eq in E.
  destruct (calm_zoom ep_payload ep_header ep_set_header _ (fun u t => eq_refl) calm_hdr m d p x) as [(a & p' & t' & F & Q)|(p' & t' & F & Q)]; rewrite F in E.
  - rewrite bind_eq, dget_eq in E. destruct (negb _); [discriminate|]. destruct (0 <? h_length (ep_header t')) eqn:L; [|rewrite dmod_eq in E; discriminate]. apply N.ltb_lt in L.
    rewrite (member_x ep_set_payload_field _ m d p' t' L) in E. cbv zeta in E. apply pair_equal_spec in E. destruct E as [E <-].
    apply pair_equal_spec in E. destruct E as [E _]. apply pair_equal_spec in E. destruct E as [_ <-]. right. eexists. split; [reflexivity|].
    apply own_new, len_got.
  - cbv beta iota delta [ios_failure] in E. apply pair_equal_spec in E. destruct E as [E <-]. apply pair_equal_spec in E. destruct E as [E _]. apply pair_equal_spec in E. destruct E as [_ <-].
    left. split; [reflexivity|exact Q].
Qed.
Definition item_end (m : heap) (x : cpf_item) (m' : heap) (i : cpf_item) : Prop :=
  (m' = m /\ it_data i = it_data x) \/ exists bs, m' = m ++ map Some bs /\ own_blocks false (List.length m) bs [i].
Lemma own_none b i : it_data i = None -> own_blocks false b [] [i].
Proof. destruct i as [ty o]. cbn. intros ->. apply ob_plain, ob_none. Qed.
Lemma item_data n m d p x :
  (exists bs p' i, it_deserializeData_x n m (RStr d p false) x = (Ret tt, m ++ map Some bs, RStr d p' false, i) /\ own_blocks false (List.length m) bs [i]) \/
  (exists bs p' i, it_deserializeData_x n m (RStr d p false) x = (ios_failure, m ++ map Some bs, RStr d p' true, i) /\ own_blocks false (List.length m) bs [i]).
Proof.
  unfold it_deserializeData_x. destruct (0 <? n) eqn:L.
  - apply N.ltb_lt in L. rewrite (member_x it_set_data n m d p x L). cbv zeta. destruct (len (take n (drop p d)) <? n); [right|left];
      (exists [padded n (take n (drop p d))]; do 2 eexists; split; [reflexivity|apply own_new, len_got]).
  - left. exists []. rewrite dmod_eq. cbn [map]. rewrite app_nil_r. do 2 eexists. split; [reflexivity|]. apply own_none. reflexivity.
Qed.
Lemma item_x m d p x :
  (exists bs p' i, it_deserialize_x m (RStr d p false) x = (Ret tt, m ++ map Some bs, RStr d p' false, i) /\ own_blocks false (List.length m) bs [i]) \/
  (exists m' p' i, it_deserialize_x m (RStr d p false) x = (ios_failure, m', RStr d p' true, i) /\ item_end m x m' i).
Proof.
  unfold it_deserialize_x. rewrite bind_eq.
  destruct (calm_uint it_data 2 it_type it_set_type (fun v t => eq_refl) m d p x) as [(a & p' & t' & F & Q)|(p' & t' & F & Q)]; rewrite F.
  - rewrite bind_eq. destruct (calm_local it_data 2 m d p' t') as [(b & p2 & t2 & G & R)|(p2 & t2 & G & R)]; rewrite G.
    + destruct (item_data b m d p2 t2) as [H|(bs & p3 & i & H & O)]; [left; exact H|right]. rewrite H. do 3 eexists. split; [reflexivity|]. right. exists bs. split; [reflexivity|exact O].
    + right. do 3 eexists. split; [reflexivity|]. left. split; [reflexivity|congruence].
  - right. do 3 eexists. split; [reflexivity|]. left. split; [reflexivity|congruence].
Qed.
Lemma item_len_left l m d p x m2 r2 x2 : it_deserialize_len_x l m (RStr d p false) x = (ios_failure, m2, r2, x2) -> item_end m x m2 x2.
Proof.
  unfold it_deserialize_len_x. destruct (l <? 4); [discriminate|]. rewrite bind_eq.
  destruct (calm_uint it_data 2 it_type it_set_type (fun v t => eq_refl) m d p x) as [(a & p' & t' & F & Q)|(p' & t' & F & Q)]; rewrite F.
  - rewrite bind_eq. destruct (calm_local it_data 2 m d p' t') as [(b & p2 & t2 & G & R)|(p2 & t2 & G & R)]; rewrite G.
    + destruct (l <? b + 4); [discriminate|]. destruct (item_data b m d p2 t2) as [(bs & p3 & i & H & O)|(bs & p3 & i & H & O)]; rewrite H; intros E; [discriminate|].
      apply pair_equal_spec in E. destruct E as [E <-]. apply pair_equal_spec in E. destruct E as [E _]. apply pair_equal_spec in E. destruct E as [_ <-].
      right. exists bs. split; [reflexivity|exact O].
    + intros E. apply pair_equal_spec in E. destruct E as [E <-]. apply pair_equal_spec in E. destruct E as [E _]. apply pair_equal_spec in E. destruct E as [_ <-]. left. split; [reflexivity|congruence].
  - intros E. apply pair_equal_spec in E. destruct E as [E <-]. apply pair_equal_spec in E. destruct E as [E _]. apply pair_equal_spec in E. destruct E as [_ <-]. left. split; [reflexivity|congruence].
Qed.
Lemma item_left m d p x m2 r2 x2 : it_deserialize_x m (RStr d p false) x = (ios_failure, m2, r2, x2) -> item_end m x m2 x2.
Proof.
  intros E. destruct (item_x m d p x) as [(bs & p' & i & F & _)|(m' & p' & i & F & O)]; rewrite F in E; [discriminate|].
  apply pair_equal_spec in E. destruct E as [E <-]. apply pair_equal_spec in E. destruct E as [E _]. apply pair_equal_spec in E. destruct E as [_ <-]. exact O.
Qed.
(** One item of the loop: what comes of it, and that nothing stays when it raises. *)
Lemma own_item_len bs b i : own_blocks false b bs [i] -> bs = [] \/ exists x, bs = [x].
Proof.
  intros H. inversion H as [|? ? ? ? K|? ? ? ? ? Q K|? x ? ? ? K]; subst; [|discriminate|]; inversion K; subst; [left; reflexivity|right; eexists; reflexivity].
Qed.
Lemma own_drop_one {T} m bs i r (t : T) : own_blocks false (List.length m) bs [i] -> d_drop (it_data i) (m ++ map Some bs) r t = (Ret tt, m ++ given_back bs, r, t).
Proof.
  intros H. pose proof (own_dropped _ _ _ _ H m [] r t eq_refl) as E. rewrite !app_nil_r in E. cbn [d_drop_items] in E. rewrite bind_eq in E.
  destruct (d_drop (it_data i) (m ++ map Some bs) r t) as [[[o m'] r'] t'] eqn:F. destruct o as [[]|c s|u|]; try discriminate. cbv beta iota delta [dret] in E. exact E.
Qed.
Lemma tidy_item {T} : tidy it_null (fun i => @d_drop T (it_data i)) it_deserialize_x.
Proof.
  intros m d p. destruct (item_x m d p it_null) as [(bs & p' & i & F & _)|(m' & p' & i & F & O)]; [left; do 3 eexists; exact F|right].
  destruct O as [[-> O]|(bs & -> & O)].
  - exists m, p', i, m. split; [exact F|]. intros r t. rewrite O. reflexivity.
  - exists (m ++ map Some bs), p', i, (m ++ given_back bs). split; [exact F|]. intros r t. apply own_drop_one; exact O.
Qed.
Lemma scoped_item {T} m d p (t : T) :
  (exists bs p' i, dscoped it_null (fun i => d_drop (it_data i)) it_deserialize_x m (RStr d p false) t = (Ret i, m ++ map Some bs, RStr d p' false, t) /\ own_blocks false (List.length m) bs [i]) \/
  (exists z p', dscoped it_null (fun i => d_drop (it_data i)) it_deserialize_x m (RStr d p false) t = (ios_failure, m ++ z, RStr d p' true, t) /\ spare z).
Proof.
  unfold dscoped. destruct (item_x m d p it_null) as [(bs & p' & i & F & O)|(m' & p' & i & F & O)]; rewrite F.
  - left. do 3 eexists. split; [reflexivity|exact O].
  - right. cbv beta iota delta [ios_failure]. destruct O as [[-> O]|(bs & -> & O)].
    + exists [], p'. rewrite bind_eq, O, app_nil_r. split; [reflexivity|left; reflexivity].
    + exists (given_back bs), p'. rewrite bind_eq, (own_drop_one m bs i _ t O). split; [reflexivity|].
      destruct (own_item_len _ _ _ O) as [->|(y & ->)]; [left|right]; reflexivity.
Qed.
Lemma loop_x n m0 d : forall p bs l, own_blocks false (List.length m0) bs l ->
  (exists bs' p' l', cpf_loop_x n (m0 ++ map Some bs) (RStr d p false) l = (Ret tt, m0 ++ map Some bs', RStr d p' false, l') /\ own_blocks false (List.length m0) bs' l') \/
  (exists bs' z p' l', cpf_loop_x n (m0 ++ map Some bs) (RStr d p false) l = (ios_failure, m0 ++ map Some bs' ++ z, RStr d p' true, l') /\ own_blocks false (List.length m0) bs' l' /\ spare z).
Proof.
  induction n as [|n IH]; intros p bs l O; cbn [cpf_loop_x].
  - left. do 3 eexists. split; [reflexivity|exact O].
  - rewrite bind_eq. destruct (scoped_item (m0 ++ map Some bs) d p l) as [(cs & p' & i & F & Q)|(z & p' & F & Q)]; rewrite F.
    + rewrite bind_eq, dmod_eq, <- app_assoc, <- map_app. apply IH. apply ob_join; [exact O|]. rewrite app_length, map_length in Q. exact Q.
    + right. rewrite <- app_assoc. do 4 eexists. split; [reflexivity|]. split; [exact O|exact Q].
Qed.
Lemma items_x m d p x :
  (exists bs p' l, cpf_deserialize_x m (RStr d p false) x = (Ret tt, m ++ map Some bs, RStr d p' false, l) /\ own_blocks false (List.length m) bs l) \/
  (exists bs z p' l, cpf_deserialize_x m (RStr d p false) x = (ios_failure, m ++ map Some bs ++ z, RStr d p' true, l) /\ own_blocks false (List.length m) bs l /\ spare z).
Proof.
  unfold cpf_deserialize_x. rewrite bind_eq, dmod_eq, bind_eq.
  destruct (calm_local (fun l : cpf_packet => l) 2 m d p []) as [(a & p' & t' & F & Q)|(p' & t' & F & Q)]; rewrite F; rewrite Q in *.
  - pose proof (loop_x (N.to_nat a) m d p' [] [] (ob_none _ _)) as K. cbn [map] in K. rewrite app_nil_r in K. exact K.
  - right. exists [], []. cbn [map]. rewrite !app_nil_r. do 2 eexists. split; [reflexivity|]. split; [apply ob_none|left; reflexivity].
Qed.
Lemma items_left m d p x m2 r2 x2 : cpf_deserialize_x m (RStr d p false) x = (ios_failure, m2, r2, x2) ->
  exists bs z, m2 = m ++ map Some bs ++ z /\ own_blocks false (List.length m) bs x2 /\ spare z /\ cpf_destroy m2 x2 = (Ret tt, m ++ given_back bs ++ z).
Proof.
  intros E. destruct (items_x m d p x) as [(bs & p' & i & F & _)|(bs & z & p' & l & F & O & Z)]; rewrite F in E; [discriminate|].
  apply pair_equal_spec in E. destruct E as [E <-]. apply pair_equal_spec in E. destruct E as [E _]. apply pair_equal_spec in E. destruct E as [_ <-].
  exists bs, z. split; [reflexivity|]. split; [exact O|]. split; [exact Z|]. apply (own_end _ _ _ _ O m z eq_refl).
Qed.
Lemma tidy_items {T} : tidy [] (@d_drop_items T) cpf_deserialize_x.
Proof.
  intros m d p. destruct (items_x m d p []) as [(bs & p' & i & F & _)|(bs & z & p' & l & F & O & Z)]; [left; do 3 eexists; exact F|right].
  do 4 eexists. split; [exact F|]. intros r t. apply (own_dropped _ _ _ _ O m z r t eq_refl).
Qed.
Lemma tied_loop n : tied (cpf_loop n) (cpf_loop_x n).
Proof.
  induction n as [|n IH]; cbn [cpf_loop cpf_loop_x]; [tied_step|]. tied_step; [apply tied_scoped; [apply tied_item|apply tidy_item]|]. tied_step; [tied_step|exact IH].
Qed.
Lemma tied_cpf : tied cpf_deserialize cpf_deserialize_x.
Proof. unfold cpf_deserialize, cpf_deserialize_x. do 4 try tied_step. apply tied_loop. Qed.
Lemma tied_read n : tied (ms_readData n) (ms_readData_x n).
Proof.
  unfold ms_readData, ms_readData_x, positive_int. cbv zeta. destruct (_ && _) eqn:E; [|tied_step]. apply andb_prop in E. destruct E as [E _]. apply N.ltb_lt in E.
  tied_step; [apply tied_scoped_sb; exact E|tied_step].
Qed.
Lemma tied_ms n : tied (ms_deserialize_len n) (ms_deserialize_len_x n).
Proof. unfold ms_deserialize_len, ms_deserialize_len_x. repeat first [tied_step|apply tied_read]. Qed.
Lemma st_checks {X} (setData : cpf_item -> D (rr_data X) unit) pkt : (forall i, steady (setData i)) -> steady (dfinally
    (if cpf_getItemCount pkt <? 2 then dthrow LogicError "Not enough items in RR Data"
     else
       i0 <- d_at pkt 0 ;;;
       (if negb (it_type i0 =? EIP_ITEM_NULL) then dthrow LogicError "Address other than null in RR Data"
        else
          n0 <- d_outcome (it_getDataLength i0) ;;;
          (if negb (n0 =? 0) then dthrow LogicError "Data length greater than zero in null address type"
           else
             i1 <- d_at pkt 1 ;;;
             (if negb (it_type i1 =? EIP_ITEM_UNCONNECTED_MESSAGE)
              then dthrow LogicError "Unexpected data type in RR Data"
              else setData i1))))
    (d_drop_items pkt)).
Proof.
  intros K. apply st_fin; [|apply st_drops]. destruct (_ <? 2); [apply st_throw|]. apply st_bind; [apply st_at|intros i0]. destruct (negb _); [apply st_throw|].
  apply st_bind; [apply st_out|intros n0]. destruct (negb _); [apply st_throw|]. apply st_bind; [apply st_at|intros i1]. destruct (negb _); [apply st_throw|apply K].
Qed.
Lemma tied_rr {X} (setData : cpf_item -> D (rr_data X) unit) : (forall i, steady (setData i)) -> tied (rr_deserialize setData) (rr_deserialize_x setData).
Proof.
  intros K. unfold rr_deserialize, rr_deserialize_x. do 4 try tied_step; [apply tied_scoped; [apply tied_cpf|apply tidy_items]|]. apply tied_steady, st_checks, K.
Qed.
Lemma st_response i : steady (dzoom rr_ext rr_set_ext (it_getDataAs ms_cls i)).
Proof. apply st_zoom, st_as. Qed.
Lemma tied_rrs : tied rrs_deserialize rrs_deserialize_x.
Proof. apply tied_rr. intros i. apply st_response. Qed.
Lemma tied_rg : tied rg_deserialize rg_deserialize_x. Proof. unfold rg_deserialize, rg_deserialize_x. repeat tied_step. Qed.
Lemma tied_sa : tied sa_deserialize sa_deserialize_x. Proof. unfold sa_deserialize, sa_deserialize_x. repeat tied_step. Qed.
Lemma tied_prim k : tied (prim_des k) (prim_des_x k). Proof. unfold prim_des, prim_des_x. repeat tied_step. Qed.
Lemma tied_id : tied id_deserialize id_deserialize_x. Proof. unfold id_deserialize, id_deserialize_x. repeat tied_step. Qed.
Lemma twice_pos n : (0 <? n) = true -> 0 < n * 2. Proof. intros E. apply N.ltb_lt in E. lia. Qed.
Lemma tied_fs : tied fs_deserialize fs_deserialize_x.
Proof.
  unfold fs_deserialize, fs_deserialize_x. repeat tied_step.
  match goal with |- context [if 0 <? ?n then _ else _] => destruct (0 <? n) eqn:E end; repeat tied_step. apply tied_scoped_sb, twice_pos, E.
Qed.
Lemma tied_cs : tied cs_deserialize cs_deserialize_x.
Proof.
  unfold cs_deserialize, cs_deserialize_x. repeat tied_step.
  match goal with |- context [if 0 <? ?n then _ else _] => destruct (0 <? n) eqn:E end; repeat tied_step. apply tied_scoped_sb, twice_pos, E.
Qed.
Lemma tied_sq {T} (c : cls T) X : tied (c_des c) X -> tied (sq_deserialize c) (sq_deserialize_x X).
Proof.
  intros H. unfold sq_deserialize, sq_deserialize_x. tied_step; [tied_step|]. destruct (sq_busy a); [apply tied_zoom, H|]. repeat first [progress tied_step|apply tied_zoom, H].
Qed.
(** A message cut short. *)
Lemma tied_needs {T A} (x X : D T A) : tied x X -> needs_all X.
Proof.
  intros [H K] m d p t o m' p' t' j E J1 J2 J3.
  destruct (H m (take j d) p t) as [(o2 & m2 & p2 & t2 & F & F' & L)|(o2 & m2 & p2 & t2 & m3 & p3 & t3 & F & F')]; [exfalso|do 3 eexists; exact F'].
  assert (Lj : len (take j d) = j) by (rewrite len_take; lia). destruct (L ltac:(lia)) as [L1 L2]. specialize (L2 (drop j d)). rewrite take_drop in L2.
  destruct (H m d p t) as [(o4 & m4 & p4 & t4 & G & G' & _)|(o4 & m4 & p4 & t4 & m5 & p5 & t5 & G & G')]; rewrite E in G'.
  - rewrite L2 in G. assert (RStr d p2 false = RStr d p4 false) as Q by congruence. assert (RStr d p' false = RStr d p4 false) as Q2 by congruence.
    injection Q as ->. injection Q2 as ->. lia.
  - assert (RStr d p' false = RStr d p5 true) as Q by congruence. discriminate Q.
Qed.
Lemma cut {T A} (x X : D T A) m d p t k (bytes : list byte) : tied x X ->
  (forall d', drop p d' = bytes -> exists o m' t', x m (RStr d' p false) t = (o, m', RStr d' (p + len bytes) false, t')) ->
  p <= len d -> drop p d = take k bytes -> k < len bytes -> raises X m d p t.
Proof.
  intros H W P E K. assert (Lk : len (drop p d) = k) by (rewrite E, len_take; lia).
  assert (D0 : drop p (d ++ drop k bytes) = bytes) by (rewrite drop_app_within by exact P; rewrite E; apply take_drop).
  destruct (W _ D0) as (o & m' & t' & F). pose proof (len_drop p d) as Ld.
  assert (Q : X m (RStr (d ++ drop k bytes) p false) t = (o, m', RStr (d ++ drop k bytes) (p + len bytes) false, t')).
  { destruct H as [H _]. destruct (H m (d ++ drop k bytes) p t) as [(o4 & m4 & p4 & t4 & G & G' & _)|(o4 & m4 & p4 & t4 & m5 & p5 & t5 & G & G')]; rewrite F in G.
    - rewrite G'. symmetry. exact G.
    - assert (RStr (d ++ drop k bytes) (p + len bytes) false = RStr (d ++ drop k bytes) p4 true) as R by congruence. discriminate R. }
  pose proof (len_drop k bytes) as Lb. pose proof (len_app d (drop k bytes)) as La.
  pose proof (tied_needs _ _ H _ _ _ _ _ _ _ _ (len d) Q) as N0. rewrite (take_app_l (len d) d) in N0 by lia. rewrite take_all in N0 by lia. apply N0; lia.
Qed.
Lemma cut_frame m d p x k cmd ses st c0 c1 o payload : frame_fits cmd ses st c0 c1 o payload -> p <= len d ->
  k < len (frame cmd ses st c0 c1 o payload) -> drop p d = take k (frame cmd ses st c0 c1 o payload) -> raises ep_deserialize_x m d p x.
Proof.
  intros W P K E. refine (cut _ _ m d p x k _ tied_ep _ P E K). intros d' D'. rewrite <- (app_nil_r (frame _ _ _ _ _ _ _)) in D'.
  do 3 eexists. exact (ep_stream_at m d' p x _ _ _ _ _ _ _ _ W D').
Qed.
Lemma cut_item m d p x k y : item_ok y -> p <= len d -> k < len (item y) -> drop p d = take k (item y) -> raises it_deserialize_x m d p x.
Proof.
  intros W P K E. refine (cut _ _ m d p x k _ tied_item _ P E K). intros d' D'. rewrite <- (app_nil_r (item _)) in D'. destruct y as [ty y].
  do 3 eexists. exact (it_stream_at m d' p x _ _ _ W D').
Qed.
Lemma cut_items m d p x k xs : cpf_ok xs -> p <= len d -> k < len (cpf xs) -> drop p d = take k (cpf xs) -> raises cpf_deserialize_x m d p x.
Proof.
  intros W P K E. refine (cut _ _ m d p x k _ tied_cpf _ P E K). intros d' D'. rewrite <- (app_nil_r (cpf _)) in D'.
  do 3 eexists. exact (cpf_stream_at m d' p x _ _ W D').
Qed.
Lemma cut_rr m d p x k h to xs : rr_ok h to xs -> p <= len d -> k < len (rr h to xs) -> drop p d = take k (rr h to xs) -> raises rrs_deserialize_x m d p x.
Proof.
  intros (Wh & Wt & W) P K E. refine (cut _ _ m d p x k _ tied_rrs _ P E K). intros d' D'. unfold rr in D'.
  unfold rrs_deserialize, rr_deserialize. rewrite bind_eq, (str_uint 4 _ _ m d' p x h _ D' Wh).
  apply drop_next with (n := N.of_nat 4) in D'; [|apply len_le]. rewrite bind_eq, (str_uint 2 _ _ m d' _ _ to _ D' Wt).
  apply drop_next with (n := N.of_nat 2) in D'; [|apply len_le]. rewrite bind_eq. unfold dlocal. rewrite <- (app_nil_r (cpf _)) in D'.
  rewrite (cpf_stream_at m d' _ [] xs [] W D').
  match goal with |- exists o m' t', dfinally _ _ ?m1 ?r1 ?t1 = _ => destruct (st_checks (fun i => dzoom rr_ext rr_set_ext (it_getDataAs ms_cls i)) (items_at (List.length m) xs) st_response m1 r1 t1) as (o & m' & t' & F & _) end.
  rewrite F. do 3 eexists. f_equal. f_equal. f_equal. unfold rr. rewrite !len_app, !len_le. lia.
Qed.
Lemma pos_raw {T} n (get : T -> list byte) set m d p t (a rest : list byte) : drop p d = a ++ rest -> len a = n ->
  exists v, rd_raw n get set m (RStr d p false) t = (Ret tt, m, RStr d (p + n) false, set v t).
Proof. intros H L. unfold rd_raw. rewrite (str_read_ok d p n a rest H L). eexists. reflexivity. Qed.
Lemma pos_skip {T} n m d p (t : T) (a rest : list byte) : drop p d = a ++ rest -> len a = n -> 0 < n -> rd_skip n m (RStr d p false) t = (Ret tt, m, RStr d (p + n) false, t).
Proof.
  intros H L Z. unfold rd_skip. assert (len (drop p d) = n + len rest) as Q by (rewrite H, len_app; lia). rewrite len_drop in Q.
  replace (p + n <=? len d) with true; [reflexivity|]. symmetry. apply N.leb_le. lia.
Qed.
Lemma le1 v : v < 256 -> [octet v] = le 1 v.
Proof. intros L. cbn [le]. rewrite N.mod_small by exact L. reflexivity. Qed.
Ltac past_uint H F := rewrite bind_eq, (str_uint _ _ _ _ _ _ _ _ _ H F); eapply drop_next in H; [|apply len_le].
Ltac at_raw H F := let v := fresh "v" in let E := fresh "E" in match goal with |- context [rd_raw ?n ?g ?s ?m (RStr ?d ?p false) ?t] =>
  destruct (pos_raw n g s m d p t _ _ H F) as [v E]; rewrite E; clear E; eapply drop_next in H; [|exact F] end.
Ltac past_raw H F := rewrite bind_eq; at_raw H F.
Lemma cut_rg m d p x k v o : fits 2 v -> fits 2 o -> p <= len d -> k < 4 -> drop p d = take k (registration v o) -> raises rg_deserialize_x m d p x.
Proof.
  intros Fv Fo P K E. refine (cut _ _ m d p x k _ tied_rg _ P E K). intros d' D'. unfold registration in D'. rewrite <- (app_nil_r (le 2 o)) in D'. unfold rg_deserialize.
  past_uint D' Fv. rewrite (str_uint _ _ _ _ _ _ _ _ _ D' Fo). do 3 eexists. f_equal. f_equal. f_equal. cbn. lia.
Qed.
Lemma cut_sa m d p x k c s : fits 4 c -> fits 4 s -> p <= len d -> k < 8 -> drop p d = take k (seq_address c s) -> raises sa_deserialize_x m d p x.
Proof.
  intros Fv Fo P K E. refine (cut _ _ m d p x k _ tied_sa _ P E K). intros d' D'. unfold seq_address in D'. rewrite <- (app_nil_r (le 4 s)) in D'. unfold sa_deserialize.
  past_uint D' Fv. rewrite (str_uint _ _ _ _ _ _ _ _ _ D' Fo). do 3 eexists. f_equal. f_equal. f_equal. cbn. lia.
Qed.
Lemma cut_id m d p x k i : identity_fits i -> p <= len d -> k < len (identity_of i) -> drop p d = take k (identity_of i) -> raises id_deserialize_x m d p x.
Proof.
  intros (F1 & F2 & F3 & F4 & F5 & F6 & F7 & F8 & F9 & F10) P K E. refine (cut _ _ m d p x k _ tied_id _ P E K). intros d' D'.
  assert (Ll : len (identity_of i) = 34 + len (id_name i)).
  { unfold identity_of, identity_bytes. rewrite !len_app, !len_le, F2, F6. change (len [octet (len (id_name i))]) with 1. change (len [octet (id_state i)]) with 1. lia. }
  rewrite Ll. unfold identity_of, identity_bytes in D'. rewrite (le1 (len (id_name i)) F9), (le1 (id_state i) F10) in D'. rewrite <- (app_nil_r (le 1 (id_state i))) in D'.
  unfold id_deserialize. past_uint D' F1. past_raw D' F2. past_uint D' F3. past_uint D' F4. past_uint D' F5. past_raw D' F6. past_uint D' F7. past_uint D' F8.
  rewrite bind_eq, (str_local 1 _ _ _ _ _ _ D' F9). eapply drop_next in D'; [|apply len_le]. rewrite bind_eq, dmod_eq, bind_eq. unfold rd_name. rewrite bind_eq, dget_eq.
  match goal with |- context [if len (id_name ?t) <? ?n then _ else _] => replace (len (id_name t) <? n) with false by (symmetry; apply N.ltb_ge; cbn [id_set_name id_name]; rewrite len_resize; lia) end.
  at_raw D' (eq_refl (len (id_name i))).
  rewrite (str_uint 1 _ _ _ _ _ _ _ _ D' F10). do 3 eexists. f_equal. f_equal. f_equal. lia.
Qed.
Lemma half_app (app : list byte) : len app mod 2 = 0 -> len app / 2 * 2 = len app.
Proof. intros H. pose proof (N.div_mod (len app) 2). lia. Qed.
Lemma fs_shape o2t t2o sn v g oa ta rs app : len app mod 2 = 0 -> len app < 512 ->
  forward_open_reply o2t t2o sn v g oa ta rs app = le 4 o2t ++ le 4 t2o ++ le 2 sn ++ le 2 v ++ le 4 g ++ le 4 oa ++ le 4 ta ++ le 1 (len app / 2) ++ [rs] ++ app.
Proof.
  intros _ L. unfold forward_open_reply. rewrite <- (le1 (len app / 2)); [reflexivity|]. apply N.div_lt_upper_bound; lia.
Qed.
Lemma cs_shape sn v g rs app : len app mod 2 = 0 -> len app < 512 ->
  forward_close_reply sn v g rs app = le 2 sn ++ le 2 v ++ le 4 g ++ le 1 (len app / 2) ++ [rs] ++ app.
Proof.
  intros _ L. unfold forward_close_reply. rewrite <- (le1 (len app / 2)); [reflexivity|]. apply N.div_lt_upper_bound; lia.
Qed.
Lemma half_fits (app : list byte) : len app < 512 -> fits 1 (len app / 2).
Proof. intros L. change (len app / 2 < 256). apply N.div_lt_upper_bound; lia. Qed.
Lemma cut_fs m d p x k o2t t2o sn v g oa ta rs app : fits 4 o2t -> fits 4 t2o -> fits 2 sn -> fits 2 v -> fits 4 g -> fits 4 oa -> fits 4 ta ->
  len app mod 2 = 0 -> len app < 512 -> p <= len d -> k < len (forward_open_reply o2t t2o sn v g oa ta rs app) ->
  drop p d = take k (forward_open_reply o2t t2o sn v g oa ta rs app) -> raises fs_deserialize_x m d p x.
Proof.
  intros F1 F2 F3 F4 F5 F6 F7 Ev L P K E. refine (cut _ _ m d p x k _ tied_fs _ P E K). intros d' D'.
  assert (Ll : len (forward_open_reply o2t t2o sn v g oa ta rs app) = 26 + len app).
  { rewrite fs_shape by assumption. rewrite !len_app, !len_le. change (len [rs]) with 1. lia. }
  rewrite Ll. rewrite fs_shape in D' by assumption. unfold fs_deserialize.
  past_uint D' F1. past_uint D' F2. past_uint D' F3. past_uint D' F4. past_uint D' F5. past_uint D' F6. past_uint D' F7.
  rewrite bind_eq, (str_local 1 _ _ _ _ _ _ D' (half_fits _ L)). eapply drop_next in D'; [|apply len_le].
  rewrite bind_eq, (pos_skip 1 _ _ _ _ _ _ D' eq_refl ltac:(lia)). eapply drop_next in D'; [|reflexivity]. pose proof (half_app app Ev) as Hh.
  destruct (0 <? len app / 2) eqn:Z.
  - apply N.ltb_lt in Z. rewrite <- (app_nil_r app) in D'. rewrite bind_eq, (str_sb (len app / 2 * 2) _ _ _ _ app [] D') by lia. rewrite dmod_eq. do 3 eexists. f_equal. f_equal. f_equal. change (len [rs]) with 1. lia.
  - apply N.ltb_ge in Z. do 3 eexists. rewrite dmod_eq. f_equal. f_equal. f_equal. change (len [rs]) with 1. lia.
Qed.
Lemma cut_cs m d p x k sn v g rs app : fits 2 sn -> fits 2 v -> fits 4 g -> len app mod 2 = 0 -> len app < 512 -> p <= len d ->
  k < len (forward_close_reply sn v g rs app) -> drop p d = take k (forward_close_reply sn v g rs app) -> raises cs_deserialize_x m d p x.
Proof.
  intros F3 F4 F5 Ev L P K E. refine (cut _ _ m d p x k _ tied_cs _ P E K). intros d' D'.
  assert (Ll : len (forward_close_reply sn v g rs app) = 10 + len app).
  { rewrite cs_shape by assumption. rewrite !len_app, !len_le. change (len [rs]) with 1. lia. }
  rewrite Ll. rewrite cs_shape in D' by assumption. unfold cs_deserialize.
  past_uint D' F3. past_uint D' F4. past_uint D' F5.
  rewrite bind_eq, (str_local 1 _ _ _ _ _ _ D' (half_fits _ L)). eapply drop_next in D'; [|apply len_le].
  rewrite bind_eq, (pos_skip 1 _ _ _ _ _ _ D' eq_refl ltac:(lia)). eapply drop_next in D'; [|reflexivity]. pose proof (half_app app Ev) as Hh.
  destruct (0 <? len app / 2) eqn:Z.
  - apply N.ltb_lt in Z. rewrite <- (app_nil_r app) in D'. rewrite bind_eq, (str_sb (len app / 2 * 2) _ _ _ _ app [] D') by lia. rewrite dmod_eq. do 3 eexists. f_equal. f_equal. f_equal. change (len [rs]) with 1. lia.
  - apply N.ltb_ge in Z. do 3 eexists. rewrite dmod_eq. f_equal. f_equal. f_equal. change (len [rs]) with 1. lia.
Qed.
Lemma cut_prim w m d p x k v : fits w v -> p <= len d -> k < N.of_nat w -> drop p d = take k (le w v) -> raises (prim_des_x w) m d p x.
Proof.
  intros F P K E. refine (cut _ _ m d p x k _ (tied_prim w) _ P E _); [|rewrite len_le; exact K]. intros d' D'. rewrite <- (app_nil_r (le w v)) in D'. unfold prim_des.
  rewrite (str_uint _ _ _ _ _ _ _ _ _ D' F), len_le. do 3 eexists. reflexivity.
Qed.

(** What is left by the rest of the classes. *)
Definition kept {T A G} (g : T -> G) (X : D T A) : Prop := forall m d p x m2 r2 x2, X m (RStr d p false) x = (ios_failure, m2, r2, x2) ->
  exists z, m2 = m ++ z /\ spare z /\ g x2 = g x.
Ltac same E := apply pair_equal_spec in E; destruct E as [E ?]; apply pair_equal_spec in E; destruct E as [E ?]; apply pair_equal_spec in E; destruct E as [E ?]; subst.
Lemma kept_bind {T A B G} (g : T -> G) (X : D T A) (k : A -> D T B) : calm g X -> (forall a, kept g (k a)) -> kept g (dbind X k).
Proof.
  intros H K m d p x m2 r2 x2 E. rewrite bind_eq in E. destruct (H m d p x) as [(a & p' & t' & F & Q)|(p' & t' & F & Q)]; rewrite F in E.
  - destruct (K a _ _ _ _ _ _ _ E) as (z & -> & Z & R). exists z. split; [reflexivity|]. split; [exact Z|congruence].
  - cbv beta iota delta [ios_failure] in E. same E. exists []. split; [symmetry; apply app_nil_r|]. split; [left; reflexivity|exact Q].
Qed.
Lemma kept_scoped {T B G} (g : T -> G) n (f : sbuf -> D T B) : 0 < n -> (forall sb m r t m2 r2 t2, f sb m r t = (ios_failure, m2, r2, t2) -> False) -> kept g (dbind (sb_scoped_x n) f).
Proof.
  intros P K m d p x m2 r2 x2 E. rewrite bind_eq, (scoped_x n m d p x P) in E. cbv zeta in E. destruct (len (take n (drop p d)) <? n).
  - cbv beta iota delta [ios_failure] in E. same E. exists [None]. split; [reflexivity|]. split; [right; reflexivity|reflexivity].
  - exfalso. exact (K _ _ _ _ _ _ _ E).
Qed.
Lemma kept_mod {T G} (g : T -> G) f : kept g (dmod f).
Proof. intros m d p x m2 r2 x2 E. discriminate. Qed.
Lemma kept_fs : kept fs_data fs_deserialize_x.
Proof.
  unfold fs_deserialize_x. do 9 (apply kept_bind; [calm_step|intros ?]).
  match goal with |- context [if 0 <? ?n then _ else _] => destruct (0 <? n) eqn:E end; [|apply kept_mod]. apply kept_scoped; [apply twice_pos, E|discriminate].
Qed.
Lemma kept_cs : kept cs_data cs_deserialize_x.
Proof.
  unfold cs_deserialize_x. do 5 (apply kept_bind; [calm_step|intros ?]).
  match goal with |- context [if 0 <? ?n then _ else _] => destruct (0 <? n) eqn:E end; [|apply kept_mod]. apply kept_scoped; [apply twice_pos, E|discriminate].
Qed.
Lemma name_read n m d p i :
  (exists p' i', (dmod (fun i => id_set_name (resize n (id_name i)) i) ;;; rd_name_x n) m (RStr d p false) i = (Ret tt, m, RStr d p' false, i')) \/
  (exists p' i', (dmod (fun i => id_set_name (resize n (id_name i)) i) ;;; rd_name_x n) m (RStr d p false) i = (ios_failure, m, RStr d p' true, i')).
Proof.
  rewrite bind_eq, dmod_eq. unfold rd_name_x, raising, rd_name. rewrite bind_eq, dget_eq.
  match goal with |- context [if len (id_name ?t) <? ?n then _ else _] => replace (len (id_name t) <? n) with false by (symmetry; apply N.ltb_ge; cbn [id_set_name id_name]; rewrite len_resize; lia) end.
  unfold rd_raw, str_read. destruct (len (take n (drop p d)) <? n); [right|left]; do 2 eexists; reflexivity.
Qed.
Lemma calm_id : calm (fun _ => tt) id_deserialize_x.
Proof.
  unfold id_deserialize_x. do 9 (apply calm_bind; [calm_step|intros ?]). intros m d p t.
  assert (A : forall (x y z : D identity unit) m r t, (x ;;; y ;;; z) m r t = ((x ;;; y) ;;; z) m r t).
  { intros x y z m1 r1 t1. rewrite !bind_eq. destruct (x m1 r1 t1) as [[[o m3] r3] t3]. destruct o; reflexivity. }
  rewrite A, bind_eq. destruct (name_read a7 m d p t) as [(p' & i' & F)|(p' & i' & F)]; rewrite F.
  - apply (calm_uint (fun _ : identity => tt)). reflexivity.
  - right. do 2 eexists. split; reflexivity.
Qed.
(** A reply of the router. *)
Lemma read_x n m d p (t : mr_response) :
  (exists p' bs o, ms_readData_x n m (RStr d p false) t = (Ret o, m ++ map Some bs, RStr d p' false, t) /\ own_blocks false (List.length m) bs [mkItem 0 o]) \/
  (exists p', ms_readData_x n m (RStr d p false) t = (ios_failure, m ++ [None], RStr d p' true, t)).
Proof.
  unfold ms_readData_x, positive_int. cbv zeta. destruct (_ && _) eqn:E.
  - apply andb_prop in E. destruct E as [E _]. apply N.ltb_lt in E. rewrite bind_eq, (scoped_x _ m d p t E). cbv zeta. destruct (len (take _ (drop p d)) <? _).
    + right. eexists. reflexivity.
    + left. eexists. exists [padded (n mod 4294967296) (take (n mod 4294967296) (drop p d))]. eexists. split; [reflexivity|]. apply own_new, len_got.
  - left. exists p, [], None. cbn [map]. rewrite app_nil_r. split; [reflexivity|]. apply own_none. reflexivity.
Qed.
Lemma bind_calm {T A B G} (g : T -> G) (X : D T A) (k : A -> D T B) (P : T -> heap -> T -> Prop) m m2 r2 x2 : calm g X -> (forall x, P x m x) ->
  (forall x y m2 t2, g y = g x -> P y m2 t2 -> P x m2 t2) ->
  (forall a d p t, k a m (RStr d p false) t = (ios_failure, m2, r2, x2) -> P t m2 x2) ->
  forall d p t, dbind X k m (RStr d p false) t = (ios_failure, m2, r2, x2) -> P t m2 x2.
Proof.
  intros H P0 Pg K d p t E. rewrite bind_eq in E. destruct (H m d p t) as [(a & p' & t' & F & Q)|(p' & t' & F & Q)]; rewrite F in E.
  - exact (Pg _ _ _ _ Q (K _ _ _ _ E)).
  - cbv beta iota delta [ios_failure] in E. same E. exact (Pg _ _ _ _ Q (P0 x2)).
Qed.
Definition ms_end (m : heap) (x : mr_response) (m2 : heap) (x2 : mr_response) : Prop := ms_data x2 = ms_data x /\
  exists bs z, m2 = m ++ map Some bs ++ z /\ spare z /\ ((bs = [] /\ ms_additional x2 = ms_additional x) \/ own_blocks false (List.length m) bs [mkItem 0 (ms_additional x2)]).
Lemma ms_left n m d p x m2 r2 x2 : ms_deserialize_len_x n m (RStr d p false) x = (ios_failure, m2, r2, x2) -> ms_end m x m2 x2.
Proof.
  assert (P0 : forall x, ms_end m x m x).
  { intros y. split; [reflexivity|]. exists [], []. rewrite !app_nil_r. split; [reflexivity|]. split; [left; reflexivity|left; split; reflexivity]. }
  assert (Pg : forall x y m2 t2, (ms_data y, ms_additional y) = (ms_data x, ms_additional x) -> ms_end m y m2 t2 -> ms_end m x m2 t2).
  { intros a b m3 t2 Q (Q1 & bs & z & Q2 & Q3 & Q4). apply pair_equal_spec in Q. destruct Q as [Qd Qa]. split; [congruence|]. exists bs, z. split; [exact Q2|]. split; [exact Q3|].
    destruct Q4 as [[-> Q4]|Q4]; [left; split; [reflexivity|congruence]|right; exact Q4]. }
  revert d p x. unfold ms_deserialize_len_x. do 4 (apply (bind_calm (fun y => (ms_data y, ms_additional y)) _ _ (ms_end m)); [calm_step|exact P0|exact Pg|intros ?]).
  intros d p x E. rewrite bind_eq in E. destruct (read_x (2 * a2) m d p x) as [(p' & bs & o & F & O)|(p' & F)]; rewrite F in E.
  - rewrite bind_eq, dmod_eq, bind_eq in E. cbn [rd_count] in E. rewrite bind_eq in E.
    match type of E with context [ms_readData_x ?q ?m1 (RStr ?d1 ?p1 false) ?t1] => destruct (read_x q m1 d1 p1 t1) as [(p3 & cs & o3 & F3 & O3)|(p3 & F3)] end; rewrite F3 in E; [discriminate|].
    cbv beta iota delta [ios_failure] in E. same E. split; [reflexivity|]. exists bs, [None]. rewrite <- app_assoc. split; [reflexivity|]. split; [right; reflexivity|]. right. exact O.
  - cbv beta iota delta [ios_failure] in E. same E. split; [reflexivity|]. exists [], [None]. split; [reflexivity|]. split; [right; reflexivity|]. left. split; reflexivity.
Qed.
Lemma rrs_left m d p x m2 p2 x2 : rrs_deserialize_x m (RStr d p false) x = (ios_failure, m2, RStr d p2 true, x2) ->
  exists bs z, m2 = m ++ given_back bs ++ z /\ spare z /\ rr_ext x2 = rr_ext x.
Proof.
  set (P := fun x m2 x2 => exists bs z, m2 = m ++ given_back bs ++ z /\ spare z /\ rr_ext x2 = @rr_ext mr_response x).
  assert (P0 : forall x, P x m x). { intros y. exists [], []. rewrite !app_nil_r. split; [reflexivity|]. split; [left; reflexivity|reflexivity]. }
  assert (Pg : forall x y m2 t2, rr_ext y = rr_ext x -> P y m2 t2 -> P x m2 t2).
  { intros a b m3 t2 Q (bs & z & Q1 & Q2 & Q3). exists bs, z. split; [exact Q1|]. split; [exact Q2|congruence]. }
  unfold rrs_deserialize_x, rr_deserialize_x. intros E. rewrite bind_eq in E.
  destruct (calm_uint (@rr_ext mr_response) 4 rr_iface rr_set_iface (fun v t => eq_refl) m d p x) as [(a & p' & t' & F & Q)|(p' & t' & F & Q)]; rewrite F in E;
    [|cbv beta iota delta [ios_failure] in E; same E; exact (Pg _ _ _ _ Q (P0 _))].
  apply (Pg _ _ _ _ Q). rewrite bind_eq in E.
  destruct (calm_uint (@rr_ext mr_response) 2 rr_timeout rr_set_timeout (fun v t => eq_refl) m d p' t') as [(a2 & p3 & t3 & F3 & Q3)|(p3 & t3 & F3 & Q3)]; rewrite F3 in E;
    [|cbv beta iota delta [ios_failure] in E; same E; exact (Pg _ _ _ _ Q3 (P0 _))].
  apply (Pg _ _ _ _ Q3). rewrite bind_eq in E. unfold dscoped in E. destruct (items_x m d p3 []) as [(bs & p4 & l & F4 & O)|(bs & z & p4 & l & F4 & O & Z)]; rewrite F4 in E.
  - exfalso. destruct (st_checks (fun i => dzoom rr_ext rr_set_ext (it_getDataAs ms_cls i)) l st_response (m ++ map Some bs) (RStr d p4 false) t3) as (o & m5 & t5 & _ & G).
    rewrite G in E. assert (R : RStr d p4 false = RStr d p2 true) by congruence. discriminate R.
  - cbv beta iota delta [ios_failure] in E. rewrite bind_eq, (own_dropped _ _ _ _ O m z _ t3 eq_refl) in E. cbv beta iota delta [dthrow] in E. same E.
    exists bs, z. split; [reflexivity|]. split; [exact Z|reflexivity].
Qed.
(** A sequenced item. *)
Lemma sq_stuck {T} (X : D T unit) m d p q : sq_busy q = false -> 2 <= len (drop p d) -> (forall t, raises X m d (p + 2) t) ->
  exists m2 r2 q2, sq_deserialize_x X m (RStr d p false) q = (ios_failure, m2, r2, q2) /\ sq_busy q2 = true.
Proof.
  intros B L R. unfold sq_deserialize_x. rewrite bind_eq, dget_eq, B, bind_eq. unfold rd_uint_x, raising, rd_uint, rd_raw, str_read.
  assert (E : len (take (N.of_nat 2) (drop p d)) = 2) by (rewrite len_take; lia). rewrite E. change (2 <? N.of_nat 2) with false. cbv beta iota zeta.
  rewrite bind_eq, dmod_eq, bind_eq. unfold on_base, dzoom.
  match goal with |- context [X m (RStr d (p + 2) false) ?t] => destruct (R t) as (m2 & p2 & t2 & F) end. rewrite F. do 3 eexists. split; reflexivity.
Qed.

Lemma strict_same : same_or_raises hdr_deserialize hdr_deserialize_x /\ same_or_raises ep_deserialize ep_deserialize_x /\
  (forall n, same_or_raises (ep_deserialize_len n) (ep_deserialize_len_x n)) /\ same_or_raises it_deserialize it_deserialize_x /\
  (forall n, same_or_raises (it_deserialize_len n) (it_deserialize_len_x n)) /\ same_or_raises cpf_deserialize cpf_deserialize_x /\
  (forall n, same_or_raises (ms_deserialize_len n) (ms_deserialize_len_x n)) /\ same_or_raises rrs_deserialize rrs_deserialize_x /\
  same_or_raises rg_deserialize rg_deserialize_x /\ same_or_raises sa_deserialize sa_deserialize_x /\ (forall k, same_or_raises (prim_des k) (prim_des_x k)) /\
  same_or_raises id_deserialize id_deserialize_x /\ same_or_raises fs_deserialize fs_deserialize_x /\ same_or_raises cs_deserialize cs_deserialize_x.
Proof.
  repeat split; intros; apply tied_same; auto using tied_hdr, tied_ep, tied_ep_len, tied_item, tied_item_len, tied_cpf, tied_ms, tied_rrs, tied_rg, tied_sa, tied_prim, tied_id, tied_fs, tied_cs.
Qed.
Lemma strict_needs : needs_all hdr_deserialize_x /\ needs_all ep_deserialize_x /\
  (forall n, needs_all (ep_deserialize_len_x n)) /\ needs_all it_deserialize_x /\
  (forall n, needs_all (it_deserialize_len_x n)) /\ needs_all cpf_deserialize_x /\
  (forall n, needs_all (ms_deserialize_len_x n)) /\ needs_all rrs_deserialize_x /\
  needs_all rg_deserialize_x /\ needs_all sa_deserialize_x /\ (forall k, needs_all (prim_des_x k)) /\
  needs_all id_deserialize_x /\ needs_all fs_deserialize_x /\ needs_all cs_deserialize_x.
Proof.
  exact (conj (tied_needs _ _ tied_hdr) (conj (tied_needs _ _ tied_ep) (conj (fun n => tied_needs _ _ (tied_ep_len n)) (conj (tied_needs _ _ tied_item) (conj (fun n => tied_needs _ _ (tied_item_len n)) (conj (tied_needs _ _ tied_cpf) (conj (fun n => tied_needs _ _ (tied_ms n)) (conj (tied_needs _ _ tied_rrs) (conj (tied_needs _ _ tied_rg) (conj (tied_needs _ _ tied_sa) (conj (fun n => tied_needs _ _ (tied_prim n)) (conj (tied_needs _ _ tied_id) (conj (tied_needs _ _ tied_fs) (tied_needs _ _ tied_cs)))))))))))))).
Qed.
(** The sequenced item keeps both properties of its base class. *)
Lemma tied_sq_len n : tied (sq_deserialize_len it_cls n) (sq_deserialize_x (it_deserialize_len_x (sq_sublen n))).
Proof.
  unfold sq_deserialize_len, sq_deserialize_x, sq_base_deslen. cbn [c_deslen it_cls]. tied_step; [tied_step|].
  destruct (sq_busy a); [apply tied_zoom, tied_item_len|]. repeat first [progress tied_step|apply tied_zoom, tied_item_len].
Qed.
Lemma strict_seq :
  (forall k, same_or_raises (sq_deserialize (prim_cls k)) (sq_deserialize_x (prim_des_x k)) /\ needs_all (sq_deserialize_x (prim_des_x k))) /\
  (same_or_raises (sq_deserialize it_cls) (sq_deserialize_x it_deserialize_x) /\ needs_all (sq_deserialize_x it_deserialize_x)) /\
  (forall n, same_or_raises (sq_deserialize_len it_cls n) (sq_deserialize_x (it_deserialize_len_x (sq_sublen n))) /\ needs_all (sq_deserialize_x (it_deserialize_len_x (sq_sublen n)))) /\
  (same_or_raises (sq_deserialize rg_cls) (sq_deserialize_x rg_deserialize_x) /\ needs_all (sq_deserialize_x rg_deserialize_x)) /\
  (same_or_raises (sq_deserialize rrs_cls) (sq_deserialize_x rrs_deserialize_x) /\ needs_all (sq_deserialize_x rrs_deserialize_x)).
Proof.
  assert (B : forall T A (x X : D T A), tied x X -> same_or_raises x X /\ needs_all X) by (intros T A x X H; exact (conj (tied_same _ _ H) (tied_needs _ _ H))).
  split; [|split; [|split; [|split]]]; intros; apply B.
  - apply (tied_sq (prim_cls k)), tied_prim.
  - apply (tied_sq it_cls), tied_item.
  - apply tied_sq_len.
  - apply (tied_sq rg_cls), tied_rg.
  - apply (tied_sq rrs_cls), tied_rrs.
Qed.
Lemma calm_left {T} (X : D T unit) : calm (fun _ => tt) X -> forall m d p x m2 r2 x2, X m (RStr d p false) x = (ios_failure, m2, r2, x2) -> m2 = m.
Proof. intros H m d p x m2 r2 x2 E. destruct (H m d p x) as [(a & p' & t' & F & _)|(p' & t' & F & _)]; rewrite F in E; same E; [discriminate|reflexivity]. Qed.
Lemma plain_left m d p m2 r2 :
  (forall x x2, hdr_deserialize_x m (RStr d p false) x = (ios_failure, m2, r2, x2) -> m2 = m) /\
  (forall x x2, rg_deserialize_x m (RStr d p false) x = (ios_failure, m2, r2, x2) -> m2 = m) /\
  (forall x x2, sa_deserialize_x m (RStr d p false) x = (ios_failure, m2, r2, x2) -> m2 = m) /\
  (forall k x x2, prim_des_x k m (RStr d p false) x = (ios_failure, m2, r2, x2) -> m2 = m) /\
  (forall x x2, id_deserialize_x m (RStr d p false) x = (ios_failure, m2, r2, x2) -> m2 = m).
Proof.
  split; [|split; [|split; [|split]]]; intros.
  - exact (calm_left _ calm_hdr _ _ _ _ _ _ _ H).
  - exact (calm_left _ calm_rg _ _ _ _ _ _ _ H).
  - exact (calm_left _ calm_sa _ _ _ _ _ _ _ H).
  - exact (calm_left _ (calm_prim k) _ _ _ _ _ _ _ H).
  - exact (calm_left _ calm_id _ _ _ _ _ _ _ H).
Qed.
Lemma success_left m d p m2 r2 :
  (forall x x2, fs_deserialize_x m (RStr d p false) x = (ios_failure, m2, r2, x2) -> exists z, m2 = m ++ z /\ spare z /\ fs_data x2 = fs_data x) /\
  (forall x x2, cs_deserialize_x m (RStr d p false) x = (ios_failure, m2, r2, x2) -> exists z, m2 = m ++ z /\ spare z /\ cs_data x2 = cs_data x).
Proof. split; intros x x2 E; [exact (kept_fs _ _ _ _ _ _ _ E)|exact (kept_cs _ _ _ _ _ _ _ E)]. Qed.
Lemma buffer_left n m d p : 0 < n -> let got := take n (drop p d) in
  sb_deserialize_len_x n m (RStr d p false) sb_empty =
    (if len got <? n then ios_failure else Ret tt, m ++ [Some (padded n got)], RStr d (p + len got) (len got <? n), mkSB (mkV (List.length m) 0 n) (Some (List.length m))).
Proof. exact (sb_strict n m d p). Qed.
(** Into memory that is there already. *)
Lemma store_mid m b (pre old post got : list byte) : nth_error m b = Some (Some (pre ++ old ++ post)) -> len got <= len old -> 0 < len got ->
  store m b (len pre) got = Ret (list_set m b (Some (pre ++ got ++ drop (len got) old ++ post))).
Proof.
  intros H L P. unfold store. destruct (N.eqb_spec (len got) 0) as [E|E]; [lia|]. rewrite H, !len_app. destruct (N.leb_spec (len pre + len got) (len pre + (len old + len post))) as [Q|Q]; [|lia].
  do 4 f_equal. rewrite take_app by reflexivity. reflexivity.
  f_equal. f_equal. rewrite <- drop_drop, drop_app by reflexivity. apply drop_app_within. exact L.
Qed.
Lemma into_left m d p s b (pre old post : list byte) : nth_error m b = Some (Some (pre ++ old ++ post)) -> sb_data s = mkV b (len pre) (len old) ->
  let got := take (len old) (drop p d) in 0 < len got ->
  let m' := list_set m b (Some (pre ++ got ++ drop (len got) old ++ post)) in
  sb_deserialize_x m (RStr d p false) s = (if len got <? len old then ios_failure else Ret tt, m', RStr d (p + len got) (len got <? len old), s) /\
  sb_deserialize_len_x (len old) m (RStr d p false) s = (if len got <? len old then ios_failure else Ret tt, m', RStr d (p + len got) (len got <? len old), s).
Proof.
  cbv zeta. intros H V P.
  assert (E : sb_deserialize_x m (RStr d p false) s = (if len (take (len old) (drop p d)) <? len old then ios_failure else Ret tt,
     list_set m b (Some (pre ++ take (len old) (drop p d) ++ drop (len (take (len old) (drop p d))) old ++ post)),
     RStr d (p + len (take (len old) (drop p d))) (len (take (len old) (drop p d)) <? len old), s)).
  { unfold sb_deserialize_x. rewrite bind_eq, dget_eq. unfold rd_into_x, raising, rd_into, str_read. rewrite V. cbn [v_len v_blk v_off].
    rewrite (store_mid m b pre old post _ H) by (try apply len_got; exact P). destruct (len (take (len old) (drop p d)) <? len old); reflexivity. }
  split; [exact E|]. rewrite <- E. unfold sb_deserialize_len_x. rewrite bind_eq. cbv beta iota delta [rd_is_buffer]. rewrite bind_eq, dget_eq, bind_eq, V. cbn [v_len]. rewrite N.eqb_refl. reflexivity.
Qed.
