(** Memory balance of every operation (C69). *)
From Verif Require Export Vocab6 PKeeps PWitness5.

Lemma sb_refl m : same_blocks m m. Proof. intros b n. reflexivity. Qed.
Lemma sb_trans a b c : same_blocks a b -> same_blocks b c -> same_blocks a c.
Proof. intros A B x n. rewrite (A x n). apply B. Qed.
Lemma sb_sym a b : same_blocks a b -> same_blocks b a.
Proof. intros A x n. symmetry. apply A. Qed.

Lemma nth_set {A} (l : list A) : forall i x j, nth_error (list_set l i x) j =
  if Nat.eqb j i then match nth_error l j with Some _ => Some x | None => None end else nth_error l j.
Proof.
  induction l as [|y l IH]; intros [|i] x [|j]; cbn; try reflexivity.
  - destruct (Nat.eqb j i); reflexivity.
  - apply IH.
Qed.
Lemma sb_store m b off bs m' : store m b off bs = Ret m' -> same_blocks m m'.
Proof.
  unfold store. destruct (len bs =? 0); [intros H; injection H as <-; apply sb_refl|].
  destruct (nth_error m b) as [[bl|]|] eqn:E; try discriminate.
  destruct (off + len bs <=? len bl) eqn:L; [|discriminate]. intros H; injection H as <-. apply N.leb_le in L.
  intros x n. unfold live. setoid_rewrite nth_set. destruct (Nat.eqb x b) eqn:Q; [|reflexivity].
  apply PeanoNat.Nat.eqb_eq in Q. subst x. rewrite E.
  assert (K : len (take off bl ++ bs ++ drop (off + len bs) bl) = len bl).
  { rewrite !len_app, len_take, len_drop. lia. }
  split.
  - intros (y & H & <-). injection H as <-. eexists. split; [reflexivity|exact K].
  - intros (y & H & <-). injection H as <-. eexists. split; [reflexivity|symmetry; exact K].
Qed.

(** ** Serializers *)
Definition balanced_w (x : W) : Prop := forall m w o m' w', x m w = (o, m', w') -> same_blocks m m'.
Lemma bw_ret : balanced_w wret.
Proof. intros m w o m' w' H. injection H as <- <- <-. apply sb_refl. Qed.
Lemma bw_throw c s : balanced_w (wthrow c s).
Proof. intros m w o m' w' H. injection H as <- <- <-. apply sb_refl. Qed.
Lemma bw_seq x y : balanced_w x -> balanced_w y -> balanced_w (x ;; y).
Proof.
  intros X Y m w o m' w'. unfold wseq. destruct (x m w) as [[o1 m1] w1] eqn:E. apply X in E.
  destruct o1; intros H; try (injection H as <- <- <-; exact E). eapply sb_trans; [exact E|eapply Y; exact H].
Qed.
Lemma bw_bytes bs : balanced_w (w_bytes bs).
Proof.
  intros m w o m' w'. unfold w_bytes. destruct w as [v c|out|out room [|]]; [|intros H; injection H as <- <- <-; apply sb_refl..].
  destruct (v_len v <? len bs); [intros H; injection H as <- <- <-; apply sb_refl|].
  destruct (store m (v_blk v) (v_off v) bs) eqn:S; intros H; injection H as <- <- <-; try apply sb_refl. eapply sb_store; exact S.
Qed.
Lemma bw_view v : balanced_w (w_view v).
Proof.
  intros m w o m' w'. unfold w_view. destruct w as [d c|out|out room fail].
  - destruct (v_len d <? v_len v); [intros H; injection H as <- <- <-; apply sb_refl|].
    destruct (overlap _ _); [intros H; injection H as <- <- <-; apply sb_refl|].
    destruct (load_view m v); intros H; first [eapply bw_bytes; exact H | injection H as <- <- <-; apply sb_refl].
  - destruct (load_view m v); intros H; first [eapply bw_bytes; exact H | injection H as <- <- <-; apply sb_refl].
  - destruct (load_view m v); intros H; first [eapply bw_bytes; exact H | injection H as <- <- <-; apply sb_refl].
Qed.
Lemma bw_with {A} (x : outcome A) f : (forall a, balanced_w (f a)) -> balanced_w (w_with x f).
Proof.
  intros F m w o m' w'. unfold w_with. destruct x; intros H; try (injection H as <- <- <-; apply sb_refl). eapply F; exact H.
Qed.
Lemma bw_opt p : balanced_opt p -> balanced_w (w_opt p).
Proof. destruct p as [s|]; [intros H; exact H|intros _; apply bw_ret]. Qed.
Lemma bw_if (b : bool) x y : balanced_w x -> balanced_w y -> balanced_w (if b then x else y).
Proof. destruct b; auto. Qed.
Create HintDb bal.
#[export] Hint Resolve bw_ret bw_throw bw_seq bw_bytes bw_view bw_with bw_opt bw_if : bal.
Lemma bw_uint k v : balanced_w (w_uint k v). Proof. apply bw_bytes. Qed.
#[export] Hint Resolve bw_uint : bal.
Ltac bal := repeat (first [apply bw_seq | apply bw_uint | apply bw_bytes | apply bw_ret | apply bw_throw | apply bw_view | apply bw_if
                          | (apply bw_with; intros) | (apply bw_opt; assumption)]).
Lemma bal_hdr h : balanced_w (hdr_serialize h). Proof. unfold hdr_serialize. bal. Qed.
Lemma bal_path_pad p b : balanced_w (path_serialize_pad p b). Proof. unfold path_serialize_pad. bal. Qed.
Lemma bal_path p : balanced_w (path_serialize p). Proof. apply bal_path_pad. Qed.
Lemma bal_ep p : balanced_opt (ep_payload p) -> balanced_ser (ep_ser p).
Proof. intros H. change (balanced_w (ep_serialize p)). unfold ep_serialize. apply bw_seq; [apply bal_hdr|bal]. Qed.
Lemma bal_it i : balanced_opt (it_data i) -> balanced_w (it_serialize i).
Proof. intros H. unfold it_serialize. bal. Qed.
Lemma bal_cpf p : Forall (fun i => balanced_opt (it_data i)) p -> balanced_ser (cpf_ser p).
Proof.
  intros H. change (balanced_w (cpf_serialize p)). unfold cpf_serialize. apply bw_seq; [bal|].
  induction H; cbn [cpf_ser_items]; [bal|]. apply bw_seq; [apply bal_it; assumption|assumption].
Qed.
Lemma bal_sbuf s : balanced_ser (ser_of_sbuf s). Proof. apply bw_view. Qed.
Lemma bal_prim k v : balanced_ser (prim_ser k v). Proof. apply bw_bytes. Qed.
Lemma bal_rg g : balanced_ser (rg_ser g). Proof. change (balanced_w (rg_serialize g)). unfold rg_serialize. bal. Qed.
Lemma bal_sa g : balanced_ser (sa_ser g). Proof. change (balanced_w (sa_serialize g)). unfold sa_serialize. bal. Qed.
Lemma bal_id g : balanced_ser (id_ser g). Proof. change (balanced_w (id_serialize g)). unfold id_serialize. bal. Qed.
Lemma bal_fo f : balanced_ser (fo_ser f).
Proof. change (balanced_w (fo_serialize f)). unfold fo_serialize. bal. Qed.
Lemma bal_fc f : balanced_ser (fc_ser f).
Proof. change (balanced_w (fc_serialize f)). unfold fc_serialize. bal. Qed.
Lemma bal_sq n s : balanced_ser s -> balanced_ser (sq_ser n s).
Proof. intros H. change (balanced_w (w_uint 2 n ;; s_serialize s)). apply bw_seq; [bal|exact H]. Qed.
Lemma bal_mq q : balanced_opt (mq_data q) -> balanced_ser (mq_ser q).
Proof. intros H. change (balanced_w (mq_serialize q)). unfold mq_serialize. apply bw_seq; [bal|]. apply bw_seq; [apply bal_path|bal]. Qed.
Lemma bal_rrq r : balanced_opt (mq_data (rr_ext r)) -> balanced_ser (rrq_ser r).
Proof.
  intros H. change (balanced_w (rr_serialize (Ret (Some (mq_ser (rr_ext r)))) r)). unfold rr_serialize.
  apply bw_seq; [bal|]. apply bw_seq; [bal|]. cbn [w_with]. intros m w o m' w' E. revert E. unfold w_with. apply bal_cpf.
  constructor; [exact Logic.I|]. constructor; [|constructor]. apply bal_mq. exact H.
Qed.

(** ** Temporaries *)
Lemma live_app m x b n : live (m ++ [Some x]) b n <-> live m b n \/ (b = List.length m /\ n = len x).
Proof.
  unfold live. split.
  - intros (bs & H & <-). destruct (PeanoNat.Nat.lt_ge_cases b (List.length m)) as [L|L].
    + left. rewrite nth_error_app1 in H by exact L. eauto.
    + rewrite nth_error_app2 in H by exact L. right. destruct (b - List.length m)%nat as [|k] eqn:K; [|destruct k; discriminate].
      injection H as <-. split; [lia|reflexivity].
  - intros [(bs & H & <-)|[-> ->]].
    + exists bs. split; [|reflexivity]. rewrite nth_error_app1; [exact H|]. apply nth_error_Some. congruence.
    + exists x. split; [|reflexivity]. rewrite nth_error_app2, PeanoNat.Nat.sub_diag by reflexivity. reflexivity.
Qed.
Lemma live_free m b m' : free m b = Ret m' -> forall x n, live m' x n <-> live m x n /\ x <> b.
Proof.
  unfold free. destruct (nth_error m b) as [[bl|]|] eqn:E; try discriminate. intros H; injection H as <-. intros x n.
  unfold live. setoid_rewrite nth_set. destruct (Nat.eqb x b) eqn:Q.
  - apply PeanoNat.Nat.eqb_eq in Q. subst x. rewrite E. split; [intros (bs & H & _); discriminate|tauto].
  - apply PeanoNat.Nat.eqb_neq in Q. tauto.
Qed.
Lemma temporary m x m1 m2 : same_blocks (m ++ [Some x]) m1 -> free m1 (List.length m) = Ret m2 -> same_blocks m m2.
Proof.
  intros S F b n. rewrite (live_free _ _ _ F b n), <- (S b n), live_app. split.
  - intros L. split; [left; exact L|]. intros ->. destruct L as (bs & H & _).
    assert (nth_error m (List.length m) <> None) by congruence. apply nth_error_Some in H0. lia.
  - intros [[L|[-> _]] D]; [exact L|congruence].
Qed.
Lemma copy_balanced {U} (c : cls U) s m t o m' t' : balanced_ser s -> c_sb c <> None \/ balanced_cls c ->
  copy_serializable c s m t = (o, m', t') -> came_back o -> same_blocks m m'.
Proof.
  intros S C. unfold copy_serializable. destruct (s_sbuf s) as [sb|].
  - destruct (c_sb c) as [[g p]|]; [intros H _; injection H as <- <- <-; apply sb_refl|].
    destruct C as [C|C]; [congruence|]. destruct (s_length s) as [n| | |]; try (intros H _; injection H as <- <- <-; apply sb_refl).
    unfold run_reader. destruct (deserialize_len c n m _ t) as [[[o1 m1] r1] t1] eqn:E.
    intros H _. injection H as <- <- <-. eapply C; exact E.
  - destruct (c_sb c) as [[g p]|]; [intros H _; injection H as <- <- <-; apply sb_refl|].
    destruct C as [C|C]; [congruence|]. destruct (s_length s) as [n| | |]; try (intros H _; injection H as <- <- <-; apply sb_refl).
    cbn [alloc]. destruct (s_serialize s (m ++ [Some (zeros n)]) _) as [[o1 m1] w1] eqn:E. apply S in E.
    assert (K : forall m2, same_blocks m1 m2 -> forall m3, free m2 (List.length m) = Ret m3 -> same_blocks m m3).
    { intros m2 A m3 F. eapply temporary; [|exact F]. eapply sb_trans; [exact E|exact A]. }
    assert (Z : forall A u, ~ came_back (@Undef A u)) by (intros A u [[a H]|(e & z & H)]; discriminate).
    assert (Y : forall A, ~ came_back (@Stuck A)) by (intros A [[a H]|(e & z & H)]; discriminate).
    assert (F2 : forall m b c0 s0, free m b <> Throw c0 s0) by (intros ? ? ? ?; unfold free; destruct (nth_error _ _) as [[?|]|]; discriminate).
    assert (KT : forall (o' : outcome unit) m2 (tt' : U), same_blocks m1 m2 ->
      match free m2 (List.length m) with Ret m4 => (o', m4, tt') | Throw e s0 => (Throw e s0, m2, tt') | Undef u => (Undef u, m2, tt') | Stuck => (Stuck, m2, tt') end = (o, m', t') ->
      came_back o -> same_blocks m m').
    { intros o' m2 tt' A H B. destruct (free m2 _) eqn:F; injection H as <- <- <-.
      - eapply K; eassumption.
      - exfalso. eapply F2; exact F.
      - exfalso. eapply Z; exact B.
      - exfalso. eapply Y; exact B. }
    destruct o1 as [a|e z|u|].
    + unfold run_reader. destruct (deserialize_len c n m1 _ t) as [[[o2 m2] r2] t2] eqn:E2. apply C in E2. apply KT. exact E2.
    + apply KT. apply sb_refl.
    + apply KT. apply sb_refl.
    + apply KT. apply sb_refl.
Qed.

(** ** Actions *)
(** When the action comes back, memory is balanced and the result satisfies [P]. *)
Definition tidy {A} (P : A -> Prop) (x : M A) : Prop :=
  forall w o w', x w = (o, w') -> came_back o -> same_blocks (w_mem w) (w_mem w') /\ forall a, o = Ret a -> P a.
Definition any {A} (_ : A) : Prop := True.
Lemma cb_ret {A} (a : A) : came_back (Ret a). Proof. left. eauto. Qed.
Lemma cb_throw {A} c s : came_back (@Throw A c s). Proof. right. eauto. Qed.
Lemma cb_undef {A} u : ~ came_back (@Undef A u). Proof. intros [[a H]|(e & z & H)]; discriminate. Qed.
Lemma cb_stuck {A} : ~ came_back (@Stuck A). Proof. intros [[a H]|(e & z & H)]; discriminate. Qed.
#[export] Hint Resolve cb_ret cb_throw : bal.
Lemma t_bind {A B} (P : A -> Prop) (Q : B -> Prop) x f : tidy P x -> (forall a, P a -> tidy Q (f a)) -> tidy Q (mbind x f).
Proof.
  intros X F w o w'. unfold mbind. destruct (x w) as [[a|c s|u|] w1] eqn:E; intros H C.
  - destruct (X _ _ _ E (cb_ret a)) as (S & K). destruct (F a (K a eq_refl) _ _ _ H C) as (S2 & K2). split; [eapply sb_trans; eassumption|exact K2].
  - injection H as <- <-. destruct (X _ _ _ E (cb_throw c s)) as (S & K). split; [exact S|discriminate].
  - injection H as <- <-. destruct (cb_undef _ C).
  - injection H as <- <-. destruct (cb_stuck C).
Qed.
(** Actions that leave memory alone. *)
Lemma t_quiet {A} (P : A -> Prop) (x : M A) : (forall w, w_mem (snd (x w)) = w_mem w) -> (forall w a, fst (x w) = Ret a -> P a) -> tidy P x.
Proof.
  intros X F w o w' H C. specialize (X w). rewrite H in X. cbn in X. rewrite X. split; [apply sb_refl|].
  intros a ->. apply (F w). rewrite H. reflexivity.
Qed.
Lemma t_ret {A} (P : A -> Prop) a : P a -> tidy P (mret a).
Proof. intros H. apply t_quiet; [reflexivity|]. intros w b E. injection E as <-. exact H. Qed.
Lemma t_throw {A} (P : A -> Prop) c s : tidy P (mthrow c s).
Proof. apply t_quiet; [reflexivity|]. intros w b E. discriminate. Qed.
Lemma t_weak {A} (P Q : A -> Prop) x : (forall a, P a -> Q a) -> tidy P x -> tidy Q x.
Proof. intros I X w o w' H C. destruct (X _ _ _ H C) as (S & K). split; [exact S|]. intros a E. apply I, K, E. Qed.
Lemma t_catch {A} (P : A -> Prop) (x h1 h2 : M A) : tidy P x -> tidy P h1 -> tidy P h2 -> tidy P (mcatch x h1 h2).
Proof.
  intros X H1 H2 w o w'. unfold mcatch. destruct (x w) as [o1 w1] eqn:E. pose proof (X _ _ _ E) as K.
  destruct o1 as [a|c s|u|]; intros H C; try (injection H as <- <-; apply K; exact C).
  destruct K as (S & _); [auto with bal|].
  destruct (is_a c LengthError); [destruct (H1 _ _ _ H C) as (S2 & K2); split; [eapply sb_trans; eassumption|exact K2]|].
  destruct (is_a c LogicError); [destruct (H2 _ _ _ H C) as (S2 & K2); split; [eapply sb_trans; eassumption|exact K2]|].
  injection H as <- <-. split; [exact S|discriminate].
Qed.
Lemma send_mem i bs w : w_mem (snd (sock_send i bs w)) = w_mem w.
Proof. unfold sock_send. destruct i; cbn [get_sock]; destruct (match so_send _ with x :: _ => x | [] => TxAll end); reflexivity. Qed.
Lemma open_mem i h p w : w_mem (snd (sock_open i h p w)) = w_mem w.
Proof. unfold sock_open. destruct i; cbn [get_sock]; destruct (match so_open _ with x :: _ => x | [] => _ end); reflexivity. Qed.
Lemma close_mem i w : w_mem (snd (sock_close i w)) = w_mem w.
Proof. unfold sock_close. destruct i; cbn [get_sock]; destruct (match so_close _ with x :: _ => x | [] => _ end); reflexivity. Qed.
Lemma t_recv i v : tidy any (fun w => sock_recv i (v w) w).
Proof.
  intros w o w'. unfold sock_recv. destruct (so_recv (get_sock i w)) as [|[bs|] rs].
  - intros H C. injection H as <- <-. split; [apply sb_refl|easy].
  - set (w1 := set_sock i _ w). assert (M1 : w_mem w1 = w_mem w) by (unfold w1; destruct i; reflexivity). rewrite M1.
    destruct (store (w_mem w) _ _ _) eqn:S; intros H C; injection H as <- <-; try (split; [rewrite M1; apply sb_refl|easy]).
    split; [|easy]. cbn [emit set_mem w_mem]. eapply sb_store. exact S.
  - intros H C. injection H as <- <-. split; [|easy]. destruct i; apply sb_refl.
Qed.
Lemma t_send_ser i s : balanced_ser s -> tidy any (sock_send_ser i s).
Proof.
  intros S w o w'. unfold sock_send_ser, mbind at 1, mout. destruct (s_length s) as [n| | |]; cbn [fst snd];
    try (intros H C; injection H as <- <-; split; [apply sb_refl|easy]).
  unfold mbind at 1. unfold mheap at 1. cbn [alloc w_mem].
  set (w1 := set_mem _ w). unfold mfinally. destruct (mbind _ _ w1) as [o2 w2] eqn:E2.
  assert (B : came_back o2 -> same_blocks (w_mem w ++ [Some (zeros n)]) (w_mem w2)).
  { intros C. revert E2. unfold mbind at 1. unfold mheap at 1. destruct (s_serialize s (w_mem w1) _) as [[o3 m3] w3] eqn:E3. apply S in E3.
    change (w_mem w1) with (w_mem w ++ [Some (zeros n)]) in E3.
    destruct o3 as [u|c z|u|]; try (intros H; injection H as <- <-; exact E3).
    unfold mbind at 1. unfold mheap at 1. cbn [set_mem w_mem]. destruct (load m3 _ 0 n) as [bs| | |]; try (intros H; injection H as <- <-; exact E3).
    intros H. pose proof (send_mem i bs (set_mem m3 (set_mem m3 w1))) as K. unfold set_mem in H, K at 1. cbn in H, K. rewrite H in K. cbn in K. rewrite K. exact E3. }
  assert (FR : forall A (k : M A) w0 x y, (do* m_free (List.length (w_mem w)) in k) w0 = (x, y) -> came_back x ->
    exists m3, free (w_mem w0) (List.length (w_mem w)) = Ret m3 /\ k (set_mem m3 w0) = (x, y)).
  { intros A k w0 x y. unfold mbind, m_free, mheap. destruct (free (w_mem w0) _) eqn:F; intros H C.
    - eauto.
    - unfold free in F. destruct (nth_error _ _) as [[?|]|]; discriminate.
    - injection H as <- <-. destruct (cb_undef _ C).
    - injection H as <- <-. destruct (cb_stuck C). }
  intros H C. split; [|easy]. destruct o2 as [a|c z|u|].
  - apply FR in H as (m3 & F & H); [|exact C]. injection H as <- <-. eapply temporary; [apply B; auto with bal|exact F].
  - apply FR in H as (m3 & F & H); [|exact C]. injection H as <- <-. eapply temporary; [apply B; auto with bal|exact F].
  - injection H as <- <-. destruct (cb_undef _ C).
  - injection H as <- <-. destruct (cb_stuck C).
Qed.
Lemma t_decode {T} (x : D T unit) v t (P : T -> Prop) : keeps x ->
  (forall m m' r t', x m (RBuf v 0) t = (Ret tt, m', r, t') -> P t') -> tidy (fun a => P (fst a)) (m_decode x v t).
Proof.
  intros K F w o w' H C. unfold m_decode in H. destruct (K (w_mem w) v 0 t) as (o1 & v1 & c1 & t1 & E). rewrite E in H.
  destruct o1 as [[]|c s|u|]; injection H as <- <-; (split; [apply sb_refl|]); try discriminate.
  intros a Q. injection Q as <-. cbn. eapply F. exact E.
Qed.

(** ** Decoded payloads are raw buffers *)
Definition raw_opt (p : option ser) : Prop := match p with Some s => exists sb, s = ser_of_sbuf sb | None => True end.
Lemma raw_balanced p : raw_opt p -> balanced_opt p.
Proof. destruct p as [s|]; [|easy]. intros (sb & ->). apply bal_sbuf. Qed.
Lemma bind_ret {T A B} (x : D T A) (f : A -> D T B) m r t b m2 r2 t2 : dbind x f m r t = (Ret b, m2, r2, t2) ->
  exists a m1 r1 t1, x m r t = (Ret a, m1, r1, t1) /\ f a m1 r1 t1 = (Ret b, m2, r2, t2).
Proof. unfold dbind. destruct (x m r t) as [[[[a|c s|u|] m1] r1] t1]; intros H; try discriminate. do 4 eexists. eauto. Qed.
Lemma ep_raw m r t m' r' t' : ep_deserialize m r t = (Ret tt, m', r', t') -> raw_opt (ep_payload t').
Proof.
  unfold ep_deserialize. intros H. apply bind_ret in H as (? & ? & ? & ? & _ & H). apply bind_ret in H as (? & ? & ? & ? & _ & H).
  destruct (0 <? _).
  - apply bind_ret in H as (sb & ? & ? & ? & _ & H). injection H as <- <- <-. exists sb. reflexivity.
  - injection H as <- <- <-. exact Logic.I.
Qed.
Lemma ms_read_raw n m r t a m' r' t' : ms_readData n m r t = (Ret a, m', r', t') -> raw_opt a.
Proof.
  unfold ms_readData. destruct (positive_int n).
  - intros H. apply bind_ret in H as (sb & ? & ? & ? & _ & H). injection H as <- <- <- <-. exists sb. reflexivity.
  - intros H. injection H as <- <- <- <-. exact Logic.I.
Qed.
Lemma ms_raw n m r t m' r' t' : ms_deserialize_len n m r t = (Ret tt, m', r', t') -> raw_opt (ms_data t').
Proof.
  unfold ms_deserialize_len. intros H. do 7 apply bind_ret in H as (? & ? & ? & ? & _ & H).
  apply bind_ret in H as (d & ? & ? & ? & K & H). injection H as <- <- <-. apply ms_read_raw in K. exact K.
Qed.
Lemma rrs_raw m r t m' r' t' : rrs_deserialize m r t = (Ret tt, m', r', t') -> raw_opt (ms_data (rr_ext t')).
Proof.
  unfold rrs_deserialize, rr_deserialize. intros H. do 3 apply bind_ret in H as (? & ? & ? & ? & _ & H).
  apply finally_ret in H as (mf & H). destruct (_ <? 2); [discriminate|]. apply bind_ret in H as (? & ? & ? & ? & _ & H). destruct (negb _); [discriminate|].
  apply bind_ret in H as (? & ? & ? & ? & _ & H). destruct (negb _); [discriminate|].
  apply bind_ret in H as (i & m1 & r1 & t1 & _ & H). destruct (negb _); [discriminate|].
  unfold dzoom, it_getDataAs, d_copy in H. destruct (it_data i) as [s|]; [|discriminate].
  destruct (copy_serializable ms_cls s m1 (rr_ext t1)) as [[o2 m2] t2] eqn:E. injection H as -> <- <- <-. cbn [rr_ext rr_set_ext].
  unfold copy_serializable in E. cbn [c_sb ms_cls] in E. destruct (s_sbuf s) as [sb|].
  - destruct (s_length s) as [n| | |]; try discriminate. unfold run_reader in E. destruct (deserialize_len ms_cls n m1 _ _) as [[[o3 m3] r3] t3] eqn:K. injection E as -> <- <-. eapply ms_raw; exact K.
  - destruct (s_length s) as [n| | |]; try discriminate. cbn [alloc] in E. destruct (s_serialize s _ _) as [[o3 m3] w3].
    destruct o3.
    + unfold run_reader in E. destruct (deserialize_len ms_cls _ m3 _ _) as [[[o4 m4] r4] t4] eqn:K. destruct (free _ _); try discriminate.
      injection E as -> <- <-. eapply ms_raw; exact K.
    + destruct (free _ _); try discriminate.
    + destruct (free _ _); try discriminate.
    + destruct (free _ _); try discriminate.
Qed.

(** ** Operations *)
Lemma balanced_keeps {T} (c : cls T) : keeps_cls c -> balanced_cls c.
Proof. intros (_ & K) n m v k t o m' r t' H. destruct (K n m v k t) as (o1 & v1 & c1 & t1 & E). rewrite E in H. injection H as <- <- <- <-. apply sb_refl. Qed.
Lemma copy_ret_at {U} (P : U -> Prop) (c : cls U) p t w : raw_opt p -> c_sb c <> None \/ balanced_cls c ->
  forall o t' w', m_copy c p t w = (o, t', w') -> came_back o -> same_blocks (w_mem w) (w_mem w').
Proof.
  intros R C o t' w'. unfold m_copy. destruct p as [s|].
  - destruct R as (sb & ->). destruct (copy_serializable c _ (w_mem w) t) as [[o1 m1] t1] eqn:E. intros H B. injection H as <- <- <-.
    eapply copy_balanced; [apply bal_sbuf|exact C|exact E|exact B].
  - intros H B. injection H as <- <- <-. destruct (cb_undef _ B).
Qed.
Lemma t_copy_local {U} (P : U -> Prop) (c : cls U) p t : raw_opt p -> c_sb c = None -> keeps_cls c ->
  (forall n m r t0 m' r' t', deserialize_len c n m r t0 = (Ret tt, m', r', t') -> P t') -> tidy P (m_copy_local c p t).
Proof.
  intros R N K F w o w' H C. unfold m_copy_local in H. destruct (m_copy c p t w) as [[o1 t1] w1] eqn:E.
  assert (B : came_back o1) by (destruct o1; injection H as <- <-; auto with bal; [destruct (cb_undef _ C)|destruct (cb_stuck C)]).
  pose proof (copy_ret_at any c p t w R (or_intror (balanced_keeps c K)) _ _ _ E B) as S.
  destruct o1 as [[]|e s|u|]; injection H as <- <-; (split; [exact S|]); try discriminate. intros a Q. injection Q as <-.
  unfold m_copy in E. destruct p as [s|]; [|discriminate]. destruct R as (sb & ->). unfold copy_serializable in E. cbn [s_length s_sbuf ser_of_sbuf] in E.
  rewrite N in E. unfold run_reader in E. destruct (deserialize_len c _ (w_mem w) _ t) as [[[o3 m3] r3] t3] eqn:Q. injection E as -> <- <-. eapply F; exact Q.
Qed.
Lemma t_check p c : tidy any (check_packet p c).
Proof. apply t_quiet; [|easy]. intros w. unfold check_packet. destruct (negb _); [reflexivity|]. destruct (_ && _); [reflexivity|]. destruct (_ && _); reflexivity. Qed.
Lemma t_command req : balanced_opt (ep_payload req) -> tidy (fun p => raw_opt (ep_payload p)) (sendCommand req).
Proof.
  intros B. unfold sendCommand. eapply t_bind; [apply t_send_ser, bal_ep, B|intros _ _]. eapply t_bind; [apply t_recv|intros n _].
  intros w. unfold sc_parse. apply (t_bind (fun a => raw_opt (ep_payload (fst a)))).
  - apply (t_decode ep_deserialize _ _ (fun p => raw_opt (ep_payload p))); [apply k_ep|]. intros. eapply ep_raw; eassumption.
  - intros a R. eapply t_bind; [apply t_check|intros _ _]. apply t_ret. exact R.
Qed.
Lemma t_close_both : tidy any close_both.
Proof. unfold close_both. eapply (t_bind any); [apply t_quiet; [intros; apply close_mem|easy]|intros _ _]. apply t_quiet; [intros; apply close_mem|easy]. Qed.
Lemma t_upd f : tidy any (mupd_se f).
Proof. apply t_quiet; [reflexivity|easy]. Qed.
Lemma keeps_names : keeps_cls rg_cls /\ keeps_cls rrs_cls /\ keeps_cls fs_cls /\ keeps_cls cs_cls.
Proof. pose proof keeps_all. tauto. Qed.
Lemma t_rr service p d : balanced_opt d -> tidy (fun r => raw_opt (ms_data (rr_ext r))) (sendRRDataCommand service p d).
Proof.
  intros B. unfold sendRRDataCommand. eapply (t_bind any); [apply t_quiet; [reflexivity|easy]|intros w _].
  eapply (t_bind (fun q => balanced_opt (ep_payload q))).
  { apply t_quiet; [reflexivity|]. intros w0 a H. cbn [mout fst] in H. unfold ep_make, ep_updateLength in H.
    cbn [ep_payload opt_length] in H. destruct (s_length (rrq_ser _)); [|discriminate..]. cbn [obind] in H. injection H as <-.
    cbn [ep_set_header ep_payload balanced_opt]. apply bal_rrq. exact B. }
  intros pkt Bp. eapply (t_bind (fun p => raw_opt (ep_payload p))); [apply t_catch; [apply t_command; exact Bp|apply t_throw..]|].
  intros response R. eapply (t_bind (fun r => raw_opt (ms_data (rr_ext r)))).
  { apply t_catch; [|apply t_throw..]. apply t_copy_local; [exact R|reflexivity|apply keeps_names|]. intros n m r t0 m' r' t' H. eapply rrs_raw. exact H. }
  intros resp Q. destruct (negb _); [apply t_throw|apply t_ret; exact Q].
Qed.
Lemma t_open h p q : tidy any (session_open h p q).
Proof.
  unfold session_open. eapply (t_bind any); [apply t_quiet; [intros; apply open_mem|easy]|intros _ _].
  eapply (t_bind any); [apply t_quiet; [intros; apply open_mem|easy]|intros _ _].
  eapply (t_bind (fun q => balanced_opt (ep_payload q))).
  { apply t_quiet; [reflexivity|]. intros w0 a H. injection H as <-. cbn [ep_set_header ep_payload balanced_opt]. apply bal_rg. }
  intros reg B. eapply (t_bind (fun p => raw_opt (ep_payload p))).
  { apply t_catch; [apply t_command; exact B| |]; (eapply (t_bind any); [apply t_close_both|intros _ _; apply t_throw]). }
  intros response R. eapply (t_bind any).
  { apply t_catch; [|apply t_ret; exact Logic.I..]. eapply (t_bind any); [|intros g _; apply t_ret; exact Logic.I].
    apply t_copy_local; [exact R|reflexivity|apply keeps_names|easy]. }
  intros g _. eapply (t_bind any); [|intros _ _; apply t_upd]. destruct g as [g|]; [|apply t_ret; exact Logic.I].
  destruct (negb _); [|apply t_ret; exact Logic.I]. eapply (t_bind any); [apply t_close_both|intros _ _; apply t_throw].
Qed.
Lemma t_close : tidy any session_close.
Proof.
  unfold session_close. eapply (t_bind any); [apply t_quiet; [reflexivity|easy]|intros w _].
  eapply (t_bind any); [apply t_send_ser, bal_ep; exact Logic.I|intros _ _]. eapply (t_bind any); [apply t_close_both|intros _ _; apply t_upd].
Qed.
Lemma t_conn n : tidy any (getConnection n).
Proof. apply t_quiet; [|easy]. intros w. unfold getConnection. destruct (nth_error _ _); reflexivity. Qed.
Lemma t_step o : op_balanced o -> tidy any (step o).
Proof.
  assert (R : forall A (a : A), tidy any (mret a)) by (intros; apply t_ret; exact Logic.I).
  destruct o as [h p q| |T c t x y z|x y z d|a b|n| |p]; cbn [step op_balanced]; intros B.
  - eapply (t_bind any); [apply t_open|intros _ _; apply R].
  - eapply (t_bind any); [apply t_close|intros _ _; apply R].
  - intros w o w' H C. split; [|easy]. unfold getSingleAttributeSerializable in H. destruct (sendRRDataCommand _ _ _ w) as [o1 w1] eqn:E.
    assert (C1 : came_back o1) by (destruct o1; auto with bal; injection H as <- <-; [destruct (cb_undef _ C)|destruct (cb_stuck C)]).
    destruct (t_rr 0x0E (path_cia x y z false) None Logic.I _ _ _ E C1) as (S & K).
    destruct o1 as [r|e s|u|]; [|injection H as <- <-; exact S..].
    destruct (m_copy c (ms_data (rr_ext r)) t w1) as [[o2 t2] w2] eqn:E2.
    assert (C2 : came_back o2) by (destruct o2; auto with bal; injection H as <- <-; [destruct (cb_undef _ C)|destruct (cb_stuck C)]).
    pose proof (copy_ret_at any c _ t w1 (K r eq_refl) B _ _ _ E2 C2) as S2.
    destruct o2; injection H as <- <-; eapply sb_trans; eassumption.
  - eapply (t_bind any); [|intros _ _; apply R]. eapply t_bind; [apply t_rr; exact B|intros _ _; apply R].
  - eapply (t_bind any); [|intros n _; apply R]. unfold createConnection.
    eapply (t_bind any); [apply t_quiet; [reflexivity|easy]|intros w _]. eapply (t_bind any); [apply t_upd|intros _ _].
    eapply t_bind; [apply t_rr; apply bal_fo|intros resp Q].
    eapply (t_bind any); [apply t_copy_local; [exact Q|reflexivity|apply keeps_names|easy]|intros res _].
    destruct (cn_verify_open _ _); [|apply t_throw]. eapply (t_bind any); [apply t_upd|intros _ _].
    eapply (t_bind any); [apply t_quiet; [reflexivity|easy]|intros w' _; apply R].
  - eapply (t_bind any); [|intros _ _; apply R]. unfold closeConnection.
    eapply (t_bind any); [apply t_conn|intros c _]. eapply t_bind; [apply t_rr; apply bal_fc|intros resp Q].
    eapply (t_bind any); [apply t_copy_local; [exact Q|reflexivity|apply keeps_names|easy]|intros res _].
    eapply (t_bind any); [apply t_conn|intros c' _]. destruct (negb _); [apply t_throw|apply t_upd].
  - eapply (t_bind any); [|intros p _; apply R]. intros w. unfold receiveIOPacket.
    eapply (t_bind any); [apply (t_recv Io (fun _ => recv_view w))|intros n _]. eapply (t_bind any); [|intros r _; apply R].
    eapply t_weak; [|apply (t_decode cpf_deserialize _ _ any); [apply k_cpf|easy]]. easy.
  - eapply (t_bind any); [|intros _ _; apply R]. eapply (t_bind any); [apply t_send_ser, bal_cpf, B|intros _ _; apply R].
Qed.
Lemma step_balanced o w r w' : op_balanced o -> step o w = (r, w') -> came_back r -> same_blocks (w_mem w) (w_mem w').
Proof. intros B H C. apply (t_step o B _ _ _ H C). Qed.
Lemma exec_balanced ops : forall w rs w', Forall op_balanced ops -> exec ops w = (rs, w') -> Forall came_back rs -> same_blocks (w_mem w) (w_mem w').
Proof.
  induction ops as [|o ops IH]; intros w rs w' B; cbn [exec]; [intros H _; injection H as <- <-; apply sb_refl|].
  inversion B as [|? ? B1 B2]; subst. destruct (step o w) as [r w1] eqn:E. pose proof (step_balanced o w r w1 B1 E) as S.
  destruct r as [x|c s|u|].
  - destruct (exec ops w1) as [rs1 w2] eqn:E2. intros H F. injection H as <- <-. inversion F; subst. eapply sb_trans; [apply S; assumption|]. eapply IH; eassumption.
  - destruct (exec ops w1) as [rs1 w2] eqn:E2. intros H F. injection H as <- <-. inversion F; subst. eapply sb_trans; [apply S; assumption|]. eapply IH; eassumption.
  - intros H F. injection H as <- <-. inversion F; subst. apply S. assumption.
  - intros H F. injection H as <- <-. inversion F; subst. apply S. assumption.
Qed.
