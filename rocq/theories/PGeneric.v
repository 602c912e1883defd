(** Relations between the worlds before and after any operation, for any user objects. *)
From Verif Require Export PTransport.

Definition rel := world -> world -> Prop.
(** [R] survives everything that is not a socket call, and the socket calls. *)
Definition stable (R : rel) : Prop :=
  (forall w, R w w) /\ (forall a b c, R a b -> R b c -> R a c) /\
  (forall w m, R w (set_mem m w)) /\ (forall w s, R w (set_se s w)) /\
  (forall w i h p, R w (snd (sock_open i h p w))) /\ (forall w i, R w (snd (sock_close i w))) /\
  (forall w i bs, R w (snd (sock_send i bs w))) /\ (forall w i v, R w (snd (sock_recv i v w))).
Definition within (R : rel) {A} (x : M A) : Prop := forall w, R w (snd (x w)).

Lemma within_id (R : rel) {A} (x : M A) : stable R -> (forall w, snd (x w) = w) -> within R x.
Proof. intros (I & _) H w. rewrite H. apply I. Qed.
Lemma within_bind (R : rel) {A B} (x : M A) (f : A -> M B) : stable R -> within R x -> (forall a, within R (f a)) -> within R (mbind x f).
Proof.
  intros (_ & T & _) X F w. unfold mbind. specialize (X w). destruct (x w) as [o w1]. cbn [snd] in X.
  destruct o; cbn [snd]; try exact X. eapply T; [exact X|apply F].
Qed.
Lemma within_finally (R : rel) {A} (x : M A) f : stable R -> within R x -> within R f -> within R (mfinally x f).
Proof.
  intros S X F w. unfold mfinally. pose proof (X w) as Xw. destruct (x w) as [o w1]. cbn [snd] in Xw. destruct S as (I & T & S).
  destruct o; try exact Xw; (eapply T; [exact Xw|]; apply within_bind; [split; auto|exact F|intros; apply within_id; [split; auto|reflexivity]]).
Qed.
Lemma within_catch (R : rel) {A} (x h1 h2 : M A) : stable R -> within R x -> within R h1 -> within R h2 -> within R (mcatch x h1 h2).
Proof.
  intros (_ & T & _) X H1 H2 w. unfold mcatch. specialize (X w). destruct (x w) as [o w1]. cbn [snd] in X.
  destruct o; try exact X. destruct (is_a c LengthError); [eapply T; [exact X|apply H1]|].
  destruct (is_a c LogicError); [eapply T; [exact X|apply H2]|exact X].
Qed.
Lemma within_heap (R : rel) {A} (f : heap -> outcome A * heap) : stable R -> within R (mheap f).
Proof. intros (_ & _ & S & _) w. unfold mheap. destruct (f (w_mem w)). apply S. Qed.
Lemma within_upd (R : rel) f : stable R -> within R (mupd_se f).
Proof. intros (_ & _ & _ & S & _) w. apply S. Qed.
Lemma within_send_ser (R : rel) i s : stable R -> within R (sock_send_ser i s).
Proof.
  intros S. unfold sock_send_ser. apply within_bind; [exact S|apply within_id; [exact S|reflexivity]|intros n].
  apply within_bind; [exact S|apply within_heap; exact S|intros b].
  apply within_finally; [exact S| |apply within_heap; exact S].
  apply within_bind; [exact S|apply within_heap; exact S|intros _]. apply within_bind; [exact S|apply within_heap; exact S|intros bs].
  intros w. apply S.
Qed.
Lemma within_decode (R : rel) {T} (x : D T unit) v t : stable R -> within R (m_decode x v t).
Proof. intros (_ & _ & S & _) w. unfold m_decode. destruct (x (w_mem w) (RBuf v 0) t) as [[[[|c s|u|] m] [? ?|? ? ?]] t']; apply S. Qed.
Lemma within_check (R : rel) p c : stable R -> within R (check_packet p c).
Proof. intros S. apply within_id; [exact S|]. intros w. unfold check_packet. destruct (negb _); [reflexivity|]. destruct (_ && _); [reflexivity|]. destruct (_ && _); reflexivity. Qed.
Lemma within_command (R : rel) req : stable R -> within R (sendCommand req).
Proof.
  intros S. unfold sendCommand. apply within_bind; [exact S|apply within_send_ser; exact S|intros _].
  apply within_bind; [exact S|intros w; apply S|intros n].
  intros w. unfold sc_parse. apply within_bind; [exact S|apply within_decode; exact S|intros r].
  apply within_bind; [exact S|apply within_check; exact S|intros _]. apply within_id; [exact S|reflexivity].
Qed.
Lemma within_copy (R : rel) {U} (c : cls U) p t w : stable R -> R w (snd (m_copy c p t w)).
Proof. intros S. unfold m_copy. destruct p as [s|]; [|apply S]. destruct (copy_serializable c s (w_mem w) t) as [[o m] t']. apply S. Qed.
Lemma within_copy_local (R : rel) {U} (c : cls U) p t : stable R -> within R (m_copy_local c p t).
Proof.
  intros S w. unfold m_copy_local. pose proof (within_copy R c p t w S) as H. destruct (m_copy c p t w) as [[[|e s|u|] t'] w']; exact H.
Qed.
Lemma within_close_both (R : rel) : stable R -> within R close_both.
Proof. intros S. apply within_bind; [exact S|intros w; apply S|intros _ w; apply S]. Qed.
Lemma within_rr (R : rel) service p d : stable R -> within R (sendRRDataCommand service p d).
Proof.
  intros S. unfold sendRRDataCommand. apply within_bind; [exact S|apply within_id; [exact S|reflexivity]|intros w].
  apply within_bind; [exact S|apply within_id; [exact S|reflexivity]|intros pkt].
  apply within_bind; [exact S|apply within_catch; [exact S|apply within_command; exact S|apply within_id; [exact S|reflexivity]..]|intros response].
  apply within_bind; [exact S|apply within_catch; [exact S|apply within_copy_local; exact S|apply within_id; [exact S|reflexivity]..]|intros resp].
  destruct (negb _); (apply within_id; [exact S|reflexivity]).
Qed.
Lemma within_open (R : rel) h p q : stable R -> within R (session_open h p q).
Proof.
  intros S. unfold session_open. apply within_bind; [exact S|intros w; apply S|intros _]. apply within_bind; [exact S|intros w; apply S|intros _].
  apply within_bind; [exact S|apply within_id; [exact S|reflexivity]|intros reg].
  apply within_bind; [exact S| |intros response].
  { apply within_catch; [exact S|apply within_command; exact S|..];
      (apply within_bind; [exact S|apply within_close_both; exact S|intros _; apply within_id; [exact S|reflexivity]]). }
  apply within_bind; [exact S| |intros g].
  { apply within_catch; [exact S| |apply within_id; [exact S|reflexivity]..].
    apply within_bind; [exact S|apply within_copy_local; exact S|intros g; apply within_id; [exact S|reflexivity]]. }
  apply within_bind; [exact S| |intros _; apply within_upd; exact S].
  destruct g as [g|]; [|apply within_id; [exact S|reflexivity]]. destruct (negb _); [|apply within_id; [exact S|reflexivity]].
  apply within_bind; [exact S|apply within_close_both; exact S|intros _; apply within_id; [exact S|reflexivity]].
Qed.
Lemma within_close (R : rel) : stable R -> within R session_close.
Proof.
  intros S. unfold session_close. apply within_bind; [exact S|apply within_id; [exact S|reflexivity]|intros w].
  apply within_bind; [exact S|apply within_send_ser; exact S|intros _].
  apply within_bind; [exact S|apply within_close_both; exact S|intros _; apply within_upd; exact S].
Qed.
Lemma within_conn (R : rel) n : stable R -> within R (getConnection n).
Proof. intros S. apply within_id; [exact S|]. intros w. unfold getConnection. destruct (nth_error _ _); reflexivity. Qed.
Lemma within_step (R : rel) o : stable R -> within R (step o).
Proof.
  intros S. pose proof (fun A (x : M A) => within_id R x S) as I. destruct o as [h p q| |T c t x y z|x y z d|a b|n| |p]; cbn [step].
  - apply within_bind; [exact S|apply within_open; exact S|intros _; apply I; reflexivity].
  - apply within_bind; [exact S|apply within_close; exact S|intros _; apply I; reflexivity].
  - intros w. unfold getSingleAttributeSerializable. pose proof (within_rr R 0x0E (path_cia x y z false) None S w) as H.
    destruct (sendRRDataCommand _ _ _ w) as [[r|e s|u|] w1]; cbn [snd] in *; try exact H.
    pose proof (within_copy R c (ms_data (rr_ext r)) t w1 S) as H2. destruct (m_copy c (ms_data (rr_ext r)) t w1) as [[[|e s|u|] t'] w2]; cbn [snd] in *;
    destruct S as (_ & T1 & _); eapply T1; eassumption.
  - apply within_bind; [exact S| |intros _; apply I; reflexivity]. apply within_bind; [exact S|apply within_rr; exact S|intros _; apply I; reflexivity].
  - apply within_bind; [exact S| |intros n; apply I; reflexivity]. unfold createConnection.
    apply within_bind; [exact S|apply I; reflexivity|intros w]. apply within_bind; [exact S|apply within_upd; exact S|intros _].
    apply within_bind; [exact S|apply within_rr; exact S|intros resp]. apply within_bind; [exact S|apply within_copy_local; exact S|intros res].
    destruct (cn_verify_open _ _); [|apply I; reflexivity]. apply within_bind; [exact S|apply within_upd; exact S|intros _].
    apply within_bind; [exact S|apply I; reflexivity|intros w'; apply I; reflexivity].
  - apply within_bind; [exact S| |intros _; apply I; reflexivity]. unfold closeConnection.
    apply within_bind; [exact S|apply within_conn; exact S|intros c]. apply within_bind; [exact S|apply within_rr; exact S|intros resp].
    apply within_bind; [exact S|apply within_copy_local; exact S|intros res]. apply within_bind; [exact S|apply within_conn; exact S|intros c'].
    destruct (negb _); [apply I; reflexivity|apply within_upd; exact S].
  - apply within_bind; [exact S| |intros p; apply I; reflexivity]. intros w. unfold receiveIOPacket.
    apply within_bind; [exact S|intros w'; apply S|intros n]. apply within_bind; [exact S|apply within_decode; exact S|intros r; apply I; reflexivity].
  - apply within_bind; [exact S| |intros _; apply I; reflexivity]. apply within_bind; [exact S|apply within_send_ser; exact S|intros _; apply I; reflexivity].
Qed.
Lemma within_exec (R : rel) ops : stable R -> forall w, R w (snd (exec ops w)).
Proof.
  intros S. induction ops as [|o ops IH]; intros w; [apply S|]. cbn [exec]. pose proof (within_step R o S w) as H.
  destruct (step o w) as [[r|c s|u|] w1]; cbn [snd] in *; try exact H;
  (specialize (IH w1); destruct (exec ops w1) as [rs w2]; cbn [snd] in *; destruct S as (_ & T & _); eapply T; eassumption).
Qed.

(** ** Short writes *)
Definition whole_rel : rel := fun w w' =>
  no_short_write (w_ctl w) -> no_short_write (w_io w) ->
  no_short_write (w_ctl w') /\ no_short_write (w_io w') /\ exists es, gained w w' es /\ whole_sends es.
Lemma whole_sends_app a b : whole_sends a -> whole_sends b -> whole_sends (a ++ b).
Proof. intros A B i bs n H. apply in_app_or in H. destruct H; [eapply A|eapply B]; eassumption. Qed.
Lemma gained_trans a b c es fs : gained a b es -> gained b c fs -> gained a c (es ++ fs).
Proof. unfold gained. intros -> ->. rewrite app_assoc. reflexivity. Qed.
Lemma gained_refl w w' : w_net w' = w_net w -> gained w w' [].
Proof. unfold gained. intros ->. rewrite app_nil_r. reflexivity. Qed.
Lemma tail_whole k : no_short_write k -> no_short_write (next_send k).
Proof. unfold no_short_write, next_send. cbn [so_send]. intros H. destruct (so_send k); [exact H|]. inversion H; assumption. Qed.
Lemma whole_stable : stable whole_rel.
Proof.
  assert (Q : whole_sends []) by (intros i bs n []).
  split; [|split; [|split; [|split; [|split; [|split; [|split]]]]]].
  - intros w A B. split; [exact A|]. split; [exact B|]. exists []. split; [apply gained_refl; reflexivity|exact Q].
  - intros a b c X Y A B. destruct (X A B) as (A1 & B1 & es & G & W). destruct (Y A1 B1) as (A2 & B2 & fs & G2 & W2).
    split; [exact A2|]. split; [exact B2|]. exists (es ++ fs). split; [eapply gained_trans; eassumption|apply whole_sends_app; assumption].
  - intros w m A B. split; [exact A|]. split; [exact B|]. exists []. split; [apply gained_refl; reflexivity|exact Q].
  - intros w s A B. split; [exact A|]. split; [exact B|]. exists []. split; [apply gained_refl; reflexivity|exact Q].
  - intros w i h p A B. unfold sock_open. destruct i; destruct (match so_open _ with b :: _ => b | [] => false end); cbn [snd emit set_sock get_sock w_ctl w_io];
      (split; [exact A|]; split; [exact B|]; eexists; split; [reflexivity|]; intros i bs n [H|[]]; discriminate).
  - intros w i A B. unfold sock_close. destruct i; destruct (match so_close _ with b :: _ => b | [] => false end); cbn [snd emit set_sock get_sock w_ctl w_io];
      (split; [exact A|]; split; [exact B|]; eexists; split; [reflexivity|]; intros i bs n [H|[]]; discriminate).
  - intros w i bs A B. pose proof (tail_whole _ A) as A1. pose proof (tail_whole _ B) as B1.
    assert (H : no_short_write (get_sock i w)) by (destruct i; assumption). unfold sock_send, no_short_write in *.
    destruct (so_send (get_sock i w)) as [|t ts] eqn:E; [|inversion H as [|? ? H1 H2]; subst; destruct t; try contradiction];
      destruct i; cbn [get_sock] in E; rewrite E in *; cbn [snd emit set_sock get_sock w_ctl w_io so_send tl] in *;
      (split; [assumption|]; split; [assumption|]; eexists; split; [reflexivity|]; intros i bs0 n [X|[]]; first [discriminate|injection X; congruence]).
  - intros w i v A B. unfold sock_recv. destruct (so_recv (get_sock i w)) as [|[bs|] rs].
    + split; [exact A|]. split; [exact B|]. exists []. split; [apply gained_refl; reflexivity|exact Q].
    + destruct (store _ _ _ _); destruct i; cbn [snd emit set_mem set_sock get_sock w_ctl w_io];
      (split; [exact A|]; split; [exact B|]); try (exists []; split; [apply gained_refl; reflexivity|exact Q]);
      (eexists; split; [reflexivity|]; intros i bs0 n [H|[]]; discriminate).
    + destruct i; cbn [snd emit set_mem set_sock get_sock w_ctl w_io];
      (split; [exact A|]; split; [exact B|]); (eexists; split; [reflexivity|]; intros i bs0 n [H|[]]; discriminate).
Qed.
Lemma sends_whole ops w rs w' : no_short_write (w_ctl w) -> no_short_write (w_io w) -> exec ops w = (rs, w') ->
  exists es, gained w w' es /\ whole_sends es.
Proof.
  intros A B E. pose proof (within_exec _ ops whole_stable w A B) as H. rewrite E in H. cbn [snd] in H. tauto.
Qed.
