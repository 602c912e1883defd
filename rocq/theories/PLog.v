(** * PLog: the log calls (C91-C95). *)
From Verif Require Export Vocab12 PNet.
From Coq Require Import Ascii.
Local Open Scope N_scope.

(** ** Without the log calls the functions are those of Session.v *)
Lemma q_bind {A B} (x : L world A) (f : A -> L world B) y g : (forall s, quietly x s = y s) -> (forall a s, quietly (f a) s = g a s) ->
  forall s, quietly (lbind x f) s = mbind y g s.
Proof.
  intros X F s. specialize (X s). unfold quietly, lbind, mbind in *. destruct (x s) as [[o s'] l]. rewrite <- X. destruct o; try reflexivity.
  specialize (F a s'). destruct (f a s') as [[o2 s2] l2]. exact F.
Qed.
Lemma q_says {S B} l (f : unit -> L S B) y : (forall s, quietly (f tt) s = y s) -> forall s, quietly (lbind (says l) f) s = y s.
Proof. intros F s. specialize (F s). unfold quietly, lbind, says in *. destruct (f tt s) as [[o2 s2] l2]. exact F. Qed.
Lemma q_says_end {S} l (s : S) : quietly (says l) s = (Ret tt, s). Proof. reflexivity. Qed.
Lemma q_lift {S A} (x : S -> outcome A * S) s : quietly (lift x) s = x s.
Proof. unfold quietly, lift. destruct (x s). reflexivity. Qed.
Lemma q_ret {S A} (a : A) (s : S) : quietly (lret a) s = (Ret a, s). Proof. reflexivity. Qed.
Lemma q_throw {S A} c t (s : S) : quietly (@lthrow S A c t) s = (Throw c t, s). Proof. reflexivity. Qed.
Lemma q_catch {A} (x : L world A) h1 h2 y g1 g2 : (forall s, quietly x s = y s) -> (forall t s, quietly (h1 t) s = g1 s) -> (forall t s, quietly (h2 t) s = g2 s) ->
  forall s, quietly (lcatch x h1 h2) s = mcatch y g1 g2 s.
Proof.
  intros X H1 H2 s. specialize (X s). unfold quietly, lcatch, mcatch in *. destruct (x s) as [[o s'] l]. rewrite <- X. destruct o as [a|c t|u|]; try reflexivity.
  destruct (is_a c LengthError); [specialize (H1 t s'); destruct (h1 t s') as [[? ?] ?]; exact H1|].
  destruct (is_a c LogicError); [specialize (H2 t s'); destruct (h2 t s') as [[? ?] ?]; exact H2|reflexivity].
Qed.
Ltac q1 := lazymatch goal with
  | |- forall _, _ => intros
  | |- quietly (lbind (says _) _) _ = _ => apply q_says
  | |- quietly (lbind (say _ _ _) _) _ = _ => apply q_says
  | |- quietly (lbind (say_if _ _ _ _) _) _ = _ => apply q_says
  | |- quietly (lift _) _ = _ => rewrite q_lift; try reflexivity
  | |- quietly (lret _) _ = _ => rewrite q_ret; reflexivity
  | |- quietly (lthrow _ _) _ = _ => rewrite q_throw; reflexivity
  | |- quietly (lcatch _ _ _) _ = _ => apply q_catch
  | |- quietly (lbind _ _) _ = mbind _ _ _ => apply q_bind
  | |- quietly (if ?b then _ else _) _ = _ => destruct b
  | |- quietly (match ?b with Some _ => _ | None => _ end) _ = _ => destruct b
  end.
Ltac q := repeat q1.
Lemma q_check p cmd w : quietly (l_check_packet p cmd) w = check_packet p cmd w.
Proof.
  unfold l_check_packet, check_packet, quietly. cbv zeta. destruct (negb _); [reflexivity|]. destruct (_ && _); [reflexivity|]. destruct (_ && _); [reflexivity|].
  cbv [lbind say_if says]. reflexivity.
Qed.
Lemma q_command req w : quietly (l_sendCommand req) w = sendCommand req w.
Proof.
  unfold l_sendCommand, sendCommand. revert w. q. unfold sc_parse, mbind, quietly, lbind, lift. destruct (m_decode ep_deserialize _ _ _) as [[r|c t|u|] w1]; try reflexivity.
  unfold say_if, says. pose proof (q_check (fst r) (h_command (ep_header req)) w1) as C. unfold quietly in C.
  destruct (l_check_packet _ _ w1) as [[o w2] l2]. rewrite <- C. destruct o; reflexivity.
Qed.
Lemma m_end (x : M unit) w : mbind x mret w = x w.
Proof. unfold mbind, mret. destruct (x w) as [[[]|c t|u|] w']; reflexivity. Qed.
Lemma q_open h p i w : quietly (l_open h p i) w = session_open h p i w.
Proof.
  unfold l_open, session_open. revert w. q; try (rewrite q_command; reflexivity).
  all: try (rewrite <- m_end; revert s5; q; reflexivity).
  all: try reflexivity.
Qed.
Lemma q_close w : quietly l_close w = session_close w.
Proof. unfold l_close, session_close. revert w. q. Qed.
Lemma q_rr sv p d w : quietly (l_sendRRDataCommand sv p d) w = sendRRDataCommand sv p d w.
Proof. unfold l_sendRRDataCommand, sendRRDataCommand. revert w. q; rewrite q_command; reflexivity. Qed.
Lemma q_create a b w : quietly (l_createConnection a b) w = createConnection a b w.
Proof.
  unfold l_createConnection, createConnection. revert w. q; try (rewrite q_rr; reflexivity).
Qed.
Lemma q_closec n w : quietly (l_closeConnection n) w = closeConnection n w.
Proof. unfold l_closeConnection, closeConnection. revert w. q; try (rewrite q_rr; reflexivity). Qed.
Lemma q_rio w : quietly l_receiveIOPacket w = receiveIOPacket w.
Proof.
  unfold l_receiveIOPacket. apply q_says. clear w. intros w. unfold receiveIOPacket, mbind, quietly, lbind, lift.
  destruct (sock_recv Io _ w) as [[n|c t|u|] w1] eqn:E; try reflexivity. assert (K : recv_view w1 = recv_view w).
  { unfold sock_recv in E. destruct (so_recv _) as [|[bs|] rs]; try discriminate. destruct (store _ _ _ _); try discriminate. injection E as <- <-. reflexivity. }
  unfold say, says. rewrite K. destruct (m_decode cpf_deserialize _ _ _) as [[r|c t|u|] w2]; reflexivity.
Qed.
Lemma q_sio p w : quietly (l_sendIOPacket p) w = sendIOPacket p w.
Proof. unfold l_sendIOPacket, sendIOPacket. revert w. q. Qed.
Lemma q_step o w : quietly (l_step o) w = step o w.
Proof.
  destruct o as [h p i| |T c t x y z|x y z d|a b|n| |p]; cbn [l_step step].
  - revert w. q. apply q_open.
  - revert w. q. apply q_close.
  - unfold getSingleAttributeSerializable. unfold quietly, lbind. pose proof (q_rr 0x0E (path_cia x y z false) None w) as Q. unfold quietly in Q.
    destruct (l_sendRRDataCommand _ _ _ w) as [[o w1] l1]. rewrite <- Q. destruct o as [r|e s|u|]; try reflexivity.
    unfold lift, m_copy_local. destruct (m_copy c _ t w1) as [[o2 t2] w2]. destruct o2; reflexivity.
  - unfold setSingleAttributeSerializable, mbind, mret, quietly, lbind. pose proof (q_rr 0x10 (path_cia x y z false) d w) as Q. unfold quietly in Q.
    destruct (l_sendRRDataCommand _ _ _ w) as [[o w1] l1]. rewrite <- Q. destruct o; reflexivity.
  - revert w. q. apply q_create.
  - revert w. q. apply q_closec.
  - revert w. q. apply q_rio.
  - revert w. q. apply q_sio.
Qed.
Lemma qd_bind {A B} (x : D unit A) (f : A -> L (heap * reader) B) g : (forall a s, quietly (f a) s = ldec (g a) s) ->
  forall s, quietly (lbind (lift (ldec x)) f) s = ldec (dbind x g) s.
Proof.
  intros F [m r]. unfold quietly, lbind, lift, ldec, dbind in *. cbn [fst snd]. destruct (x m r tt) as [[[o m1] r1] []]. destruct o; try reflexivity.
  specialize (F a (m1, r1)). destruct (f a (m1, r1)) as [[o2 s2] l2]. exact F.
Qed.
Lemma q_scan_body n v s : quietly (l_scan_body n) (fst s, RBuf (view_take v n) 0) = ldec (scan_body n v) s.
Proof.
  transitivity (ldec (fun m r u => scan_body n v m r u) (fst s, RBuf (view_take v n) 0)); [|reflexivity]. destruct s as [m r]. cbn [fst].
  unfold scan_body. match goal with |- _ = ldec (fun m _ u => ?e m (RBuf _ _) u) _ => change (quietly (l_scan_body n) (m, RBuf (view_take v n) 0) = ldec e (m, RBuf (view_take v n) 0)) end.
  generalize (m, RBuf (view_take v n) 0). unfold l_scan_body. apply qd_bind. intros pkt. apply q_says. intros s.
  destruct (negb _); [revert s; apply q_says; intros [? ?]; reflexivity|]. revert s. do 4 apply q_says. apply qd_bind. intros pl s. destruct (_ <? 1); [revert s; apply q_says; intros [? ?]; reflexivity|].
  revert s. apply q_says. apply qd_bind. intros i0 s. destruct (negb _); [revert s; apply q_says; intros [? ?]; reflexivity|]. revert s. apply qd_bind. intros i. apply q_says. intros [? ?]. reflexivity.
Qed.
Lemma q_scan ec n b m : (let '(o, m', _) := l_scan_handle ec n b m in (o, m')) = scan_handle ec n b m.
Proof.
  unfold l_scan_handle, scan_handle. destruct ec; [reflexivity|]. pose proof (q_scan_body n (mkV b 0 4096) (m, RBuf null_view 0)) as Q. unfold quietly, ldec in Q. cbn [fst snd] in Q.
  destruct (l_scan_body n _) as [[o s'] l]. destruct (scan_body _ _ _ _ _) as [[[o2 m2] r2] []]. injection Q as -> ->. destruct o2; cbn [fst]; try reflexivity.
  destruct (is_a c LengthError); reflexivity.
Qed.

(** ** Properties of every call that is logged *)
Definition each {S A} (P : logc -> Prop) (x : L S A) : Prop := forall s o s' l, x s = (o, s', l) -> Forall P l.
Section E.
  Context {S : Type} {P : logc -> Prop}.
  Lemma e_lift {A} (x : S -> outcome A * S) : each P (lift x).
  Proof. intros s o s' l. unfold lift. destruct (x s). intros H. injection H as <- <- <-. constructor. Qed.
  Lemma e_ret {A} (a : A) : each P (@lret S A a). Proof. intros s o s' l H. injection H as <- <- <-. constructor. Qed.
  Lemma e_throw {A} c t : each P (@lthrow S A c t). Proof. intros s o s' l H. injection H as <- <- <-. constructor. Qed.
  Lemma e_says l : (forall s, Forall P (l s)) -> each P (@says S l). Proof. intros X s o s' l' H. injection H as <- <- <-. apply X. Qed.
  Lemma e_say v f a : P (mkLog v f a) -> each P (@say S v f a). Proof. intros X. apply e_says. repeat constructor. exact X. Qed.
  Lemma e_say_if b v f a : P (mkLog v f a) -> each P (@say_if S b v f a). Proof. intros X. apply e_says. intros s. destruct b; repeat constructor. exact X. Qed.
  Lemma e_bind {A B} (x : L S A) (f : A -> L S B) : each P x -> (forall a, each P (f a)) -> each P (lbind x f).
  Proof.
    intros X F s o s' l. unfold lbind. destruct (x s) as [[[a|c t|u|] s1] l1] eqn:E; intros H; try (injection H as <- <- <-; eapply X; exact E).
    destruct (f a s1) as [[o2 s2] l2] eqn:E2. injection H as <- <- <-. apply Forall_app. split; [eapply X; exact E|eapply F; exact E2].
  Qed.
  Lemma e_catch {A} (x : L S A) h1 h2 : each P x -> (forall t, each P (h1 t)) -> (forall t, each P (h2 t)) -> each P (lcatch x h1 h2).
  Proof.
    intros X H1 H2 s o s' l. unfold lcatch. destruct (x s) as [[[a|c t|u|] s1] l1] eqn:E; try (intros H; injection H as <- <- <-; eapply X; exact E).
    destruct (is_a c LengthError); [destruct (h1 t s1) as [[o2 s2] l2] eqn:E2; intros H; injection H as <- <- <-; apply Forall_app; split; [eapply X; exact E|eapply H1; exact E2]|].
    destruct (is_a c LogicError); [destruct (h2 t s1) as [[o2 s2] l2] eqn:E2; intros H; injection H as <- <- <-; apply Forall_app; split; [eapply X; exact E|eapply H2; exact E2]|].
    intros H; injection H as <- <- <-; eapply X; exact E.
  Qed.
End E.
Ltac e1 := lazymatch goal with
  | |- forall _, _ => intros; cbv beta
  | |- each _ (lift _) => apply e_lift
  | |- each _ (lret _) => apply e_ret
  | |- each _ (lthrow _ _) => apply e_throw
  | |- each _ (say _ _ _) => apply e_say
  | |- each _ (say_if _ _ _ _) => apply e_say_if
  | |- each _ (says _) => apply e_says
  | |- each _ (lbind _ _) => apply e_bind
  | |- each _ (lcatch _ _ _) => apply e_catch
  | |- each _ (if ?b then _ else _) => destruct b
  | |- each _ (match ?b with Some _ => _ | None => _ end) => destruct b
  end.
Ltac e := repeat e1.
Definition typed_ok (bad : list string) (x : logc) : Prop := well_typed x <-> ~ In (lg_fmt x) bad.
Ltac good := unfold typed_ok; split; [intros _; cbn [lg_fmt In mistyped mistyped_scan]; intros K; repeat match goal with H : _ \/ _ |- _ => destruct H as [H|H] end; try discriminate; contradiction
  |intros _; unfold well_typed; cbn -[u8]; repeat constructor].
Ltac bad := unfold typed_ok; split; [intros ZH; exfalso; unfold well_typed in ZH; cbn -[u8] in ZH; inversion ZH as [|za zb zl1 zl2 ZK]; exact ZK|intros N; exfalso; apply N; cbn [lg_fmt In mistyped mistyped_scan]; tauto].
Ltac ty := first [solve [good] | solve [bad]].
Section T.
  Let P := typed_ok mistyped.
  Lemma ty_check p cmd : each P (l_check_packet p cmd).
  Proof.
    intros s o s' l H. unfold l_check_packet in H. cbv zeta in H.
    destruct (negb _); [|destruct (_ && _); [|destruct (_ && _)]]; (eapply e_bind; [| |exact H]); e; unfold P; ty.
  Qed.
  Lemma ty_command req : each P (l_sendCommand req).
  Proof. unfold l_sendCommand. e; first [apply ty_check|unfold P; ty]. Qed.
  Lemma ty_rr sv p d : each P (l_sendRRDataCommand sv p d).
  Proof.
    unfold l_sendRRDataCommand. e; try apply ty_command; try (unfold P; ty).
    unfold rr_log. destruct (m_copy _ _ _ _) as [[[u|c t|u|] pk] w1]; try constructor. destruct (_ <? _); [|constructor]. apply Forall_cons; [unfold P; ty|constructor].
  Qed.
  Lemma ty_step o : each P (l_step o).
  Proof.
    destruct o as [h p i| |T c t x y z|x y z d|a b|n| |p]; cbn [l_step]; unfold l_open, l_close, l_createConnection, l_closeConnection, l_receiveIOPacket, l_sendIOPacket; e;
      try apply ty_command; try apply ty_rr; try (unfold P; ty).
    unfold verify_log. destruct (_ || _); [constructor|]. apply Forall_app. split; (destruct (negb _); [|constructor]; apply Forall_cons; [unfold P; ty|constructor]).
  Qed.
End T.
Lemma ty_scan_body n : each (typed_ok mistyped_scan) (l_scan_body n).
Proof.
  unfold l_scan_body. e; try ty.
  - destruct (snd s); [|constructor]. destruct (negb _); [|constructor]. apply Forall_cons; [ty|constructor].
  - unfold identity_log. repeat (apply Forall_cons; [ty|]). constructor.
Qed.
Lemma ty_scan ec n b m o m' l : l_scan_handle ec n b m = (o, m', l) -> Forall (typed_ok mistyped_scan) l.
Proof.
  unfold l_scan_handle. destruct ec; [intros H; injection H as <- <- <-; apply Forall_cons; [ty|constructor]|].
  destruct (l_scan_body n _) as [[[a|c t|u|] s1] l1] eqn:E; apply (ty_scan_body n) in E; try (intros H; injection H as <- <- <-; exact E).
  destruct (is_a c LengthError); intros H; injection H as <- <- <-; [|exact E]. apply Forall_app. split; [exact E|]. apply Forall_cons; [ty|constructor].
Qed.
(** Every identity that is decoded is logged. *)
Lemma scan_identity_logs ec n b m i m' l : l_scan_handle ec n b m = (Ret (ScanIdentity i), m', l) -> exists l1, l = l1 ++ identity_log i.
Proof.
  unfold l_scan_handle. destruct ec; [intros H; discriminate|]. destruct (l_scan_body n _) as [[o s1] l1] eqn:E.
  assert (K : o = Ret (ScanIdentity i) -> exists l0, l1 = l0 ++ identity_log i).
  { intros ->. revert E. generalize (m, RBuf (view_take (mkV b 0 4096) n) 0). intros s E.
    assert (B : forall {A B} (x : L (heap * reader) A) (f : A -> L (heap * reader) B) s v s' l, lbind x f s = (Ret v, s', l) ->
      exists a s1 l1 l2, x s = (Ret a, s1, l1) /\ f a s1 = (Ret v, s', l2) /\ l = l1 ++ l2).
    { intros A B x f s0 v s' l0. unfold lbind. destruct (x s0) as [[[a|c t|u|] s2] l2]; try discriminate.
      destruct (f a s2) as [[o3 s3] l3] eqn:F. intros X. injection X as -> -> <-. do 4 eexists. split; [reflexivity|]. split; [exact F|reflexivity]. }
    unfold l_scan_body in E. repeat (apply B in E; destruct E as (? & ? & ? & ? & _ & E & ->)).
    destruct (negb _); [apply B in E; destruct E as (? & ? & ? & ? & _ & E & ->); discriminate|].
    repeat (apply B in E; destruct E as (? & ? & ? & ? & _ & E & ->)).
    destruct (_ <? 1); [apply B in E; destruct E as (? & ? & ? & ? & _ & E & ->); discriminate|].
    repeat (apply B in E; destruct E as (? & ? & ? & ? & _ & E & ->)).
    destruct (negb _); [apply B in E; destruct E as (? & ? & ? & ? & _ & E & ->); discriminate|].
    apply B in E; destruct E as (i' & ? & ? & ? & _ & E & ->). apply B in E; destruct E as (? & ? & ? & ? & Ei & E & ->).
    injection Ei as <- <- <-. injection E as <- <- <-. rewrite app_nil_r, !app_assoc. eexists. reflexivity. }
  destruct o as [a|c t|u|]; intros H; try discriminate.
  - injection H as -> <- <-. apply K. reflexivity.
  - destruct (is_a c LengthError); discriminate.
Qed.

(** ** Errors are logged only by calls that raise *)
Definition calm {S A} (x : L S A) : Prop := forall s o s' l, x s = (o, s', l) -> logged Error l -> exists c t, o = Throw c t.
Definition always {S A} (x : L S A) : Prop := forall s o s' l, x s = (o, s', l) -> exists c t, o = Throw c t.
Lemma logged_app v l1 l2 : logged v (l1 ++ l2) <-> logged v l1 \/ logged v l2.
Proof.
  unfold logged. split.
  - intros (x & I & E). apply in_app_or in I. destruct I; [left|right]; eauto.
  - intros [(x & I & E)|(x & I & E)]; exists x; (split; [apply in_or_app; auto|exact E]).
Qed.
Lemma logged_nil v : ~ logged v []. Proof. intros (x & [] & _). Qed.
Lemma logged_one v v' f a : logged v [mkLog v' f a] <-> v' = v.
Proof. split; [intros (x & [<-|[]] & E); exact E|intros ->; eexists; split; [left; reflexivity|reflexivity]]. Qed.
Lemma logged_if v (b : bool) v' f a : logged v (if b then [mkLog v' f a] else []) <-> b = true /\ v' = v.
Proof. destruct b; [rewrite logged_one; intuition|]. split; [intros K; destruct (logged_nil _ K)|intros [? _]; discriminate]. Qed.
Lemma none_logged {S A} v (x : L S A) : each (fun c => lg_level c <> v) x -> forall s o s' l, x s = (o, s', l) -> ~ logged v l.
Proof. intros X s o s' l H (c & I & E). apply X in H. rewrite Forall_forall in H. exact (H c I E). Qed.
Lemma c_always {S A} (x : L S A) : always x -> calm x. Proof. intros X s o s' l H _. exact (X _ _ _ _ H). Qed.
Lemma c_each {S A} (x : L S A) : each (fun c => lg_level c <> Error) x -> calm x.
Proof. intros X s o s' l H K. destruct (none_logged _ _ X _ _ _ _ H K). Qed.
Lemma c_bind {S A B} (x : L S A) (f : A -> L S B) : calm x -> (forall a, calm (f a)) -> calm (lbind x f).
Proof.
  intros X F s o s' l. unfold lbind. destruct (x s) as [[[a|c t|u|] s1] l1] eqn:E; intros H K.
  - destruct (f a s1) as [[o2 s2] l2] eqn:E2. injection H as <- <- <-. apply logged_app in K. destruct K as [K|K]; [|exact (F _ _ _ _ _ E2 K)].
    destruct (X _ _ _ _ E K) as (c & t & ?). discriminate.
  - injection H as <- <- <-. eauto.
  - injection H as <- <- <-. destruct (X _ _ _ _ E K) as (c & t & ?). discriminate.
  - injection H as <- <- <-. destruct (X _ _ _ _ E K) as (c & t & ?). discriminate.
Qed.
Lemma c_catch {S A} (x : L S A) h1 h2 : calm x -> (forall t, always (h1 t)) -> (forall t, always (h2 t)) -> calm (lcatch x h1 h2).
Proof.
  intros X H1 H2 s o s' l. unfold lcatch. destruct (x s) as [[[a|c t|u|] s1] l1] eqn:E; try (intros H; injection H as <- <- <-; exact (X _ _ _ _ E)).
  destruct (is_a c LengthError); [destruct (h1 t s1) as [[o2 s2] l2] eqn:E2; intros H _; injection H as <- <- <-; exact (H1 _ _ _ _ _ E2)|].
  destruct (is_a c LogicError); [destruct (h2 t s1) as [[o2 s2] l2] eqn:E2; intros H _; injection H as <- <- <-; exact (H2 _ _ _ _ _ E2)|].
  intros H _. injection H as <- <- <-. eauto.
Qed.
Lemma a_bind {S A B} (x : L S A) (f : A -> L S B) : (forall s, (exists a s' l, x s = (Ret a, s', l)) \/ exists c t s' l, x s = (Throw c t, s', l)) -> (forall a, always (f a)) -> always (lbind x f).
Proof.
  intros X F s o s' l. unfold lbind. destruct (X s) as [(a & s1 & l1 & ->)|(c & t & s1 & l1 & ->)]; intros H.
  - destruct (f a s1) as [[o2 s2] l2] eqn:E2. injection H as <- <- <-. exact (F _ _ _ _ _ E2).
  - injection H as <- <- <-. eauto.
Qed.
Lemma a_say {S B} v f a (k : unit -> L S B) : always (k tt) -> always (lbind (say v f a) k).
Proof. intros K. apply a_bind; [intros s; left; do 3 eexists; reflexivity|]. intros []. exact K. Qed.
Lemma a_throw {S A} c t : always (@lthrow S A c t). Proof. intros s o s' l H. injection H as <- <- <-. eauto. Qed.
Lemma a_close {B} (k : unit -> L world B) : always (k tt) -> always (lbind (lift close_both) k).
Proof.
  intros K. apply a_bind; [|intros []; exact K]. intros w. destruct (close_both_spec w) as (w' & E & _). unfold lift. rewrite E.
  destruct (closed _ _); [left; do 3 eexists; reflexivity|right; do 4 eexists; reflexivity].
Qed.
Ltac al := repeat first [apply a_throw|apply a_say|apply a_close].
Ltac ca := repeat lazymatch goal with
  | |- forall _, always _ => intros; cbv beta; al
  | |- always _ => al
  | |- forall _, calm _ => intros; cbv beta
  | |- calm (lbind (say Error _ _) _) => apply c_always; al
  | |- calm (lbind _ _) => apply c_bind
  | |- calm (lcatch (lift _) _ _) => first [apply c_catch | fail]
  | |- calm (lcatch (l_sendCommand _) _ _) => apply c_catch
  | |- calm (if ?b then _ else _) => destruct b
  | |- calm (match ?b with Some _ => _ | None => _ end) => destruct b
  | |- calm (lift _) => apply c_each; e
  | |- calm (lret _) => apply c_each; e
  | |- calm (say _ _ _) => apply c_each; e; discriminate
  | |- calm (say_if _ _ _ _) => apply c_each; e; discriminate
  end.
Lemma c_check p cmd : calm (l_check_packet p cmd).
Proof.
  intros s o s' l H. unfold l_check_packet in H. cbv zeta in H.
  destruct (negb _); [eapply c_always; [|exact H]; al|]. destruct (_ && _); [eapply c_always; [|exact H]; al|]. destruct (_ && _); [eapply c_always; [|exact H]; al|].
  eapply c_each; [|exact H]. e; discriminate.
Qed.
Lemma c_command req : calm (l_sendCommand req).
Proof. unfold l_sendCommand. ca. apply c_check. Qed.
Lemma c_rr sv p d : calm (l_sendRRDataCommand sv p d).
Proof.
  unfold l_sendRRDataCommand. ca; try apply c_command. apply c_each. e.
  unfold rr_log. destruct (m_copy _ _ _ _) as [[[u|c t|u|] pk] w1]; try constructor. destruct (_ <? _); repeat constructor; discriminate.
Qed.
Lemma c_step o : calm (l_step o).
Proof.
  destruct o as [h p i| |T c t x y z|x y z d|a b|n| |p]; cbn [l_step]; unfold l_open, l_close, l_createConnection, l_closeConnection, l_receiveIOPacket, l_sendIOPacket; ca;
    try apply c_command; try apply c_rr; try (apply c_each; e; discriminate).
  apply c_each. e. unfold verify_log. destruct (_ || _); [constructor|]. apply Forall_app. split; destruct (negb _); repeat constructor; discriminate.
Qed.
Lemma error_raises o w r w' l : l_step o w = (r, w', l) -> logged Error l -> exists c t, r = Throw c t.
Proof. apply c_step. Qed.
