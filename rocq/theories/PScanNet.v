(** * PScanNet: proofs for C137. *)
From Verif Require Export Vocab40.
From Verif Require Import PMem PIo.
From Coq Require Import List Lia Arith.
Import ListNotations.
Local Open Scope N_scope.

Lemma answer_run x : scan_run [] [x] = [sc_answer x].
Proof.
  unfold sc_answer. destruct x as [u|bs]; [reflexivity|].
  destruct (scan_exactly [] bs []) as (o & E & _). rewrite E. reflexivity.
Qed.
Lemma answer_cases x : (exists r, sc_answer x = Ret r) \/ (sc_answer x = Undef NullDeref /\ exists bs, x = inr bs /\ scan_crashes (take 4096 bs)).
Proof.
  destruct x as [u|bs]; [left; eexists; reflexivity|].
  destruct (scan_exactly [] bs []) as (o & E & _ & C & _ & D).
  unfold sc_answer. rewrite E. destruct D as [D|D]; [right|left; exact D].
  split; [exact D|]. exists bs. split; [reflexivity|]. apply C. exact D.
Qed.

Lemma reports_app k a b : reports_of k (a ++ b) = reports_of k a ++ reports_of k b.
Proof. unfold reports_of. rewrite filter_app, map_app. reflexivity. Qed.
Lemma reports_same k o : reports_of k [(k, o)] = [o].
Proof. unfold reports_of. cbn. rewrite Nat.eqb_refl. reflexivity. Qed.
Lemma reports_other k j o : j <> k -> reports_of k [(j, o)] = [].
Proof. intros H. unfold reports_of. cbn. apply Nat.eqb_neq in H. rewrite H. reflexivity. Qed.

Lemma armed_waits s : existsb sc_armed (sv_all s) = true <-> exists k, listens s k.
Proof.
  rewrite existsb_exists. split.
  - intros (c & I & A). apply In_nth_error in I. destruct I as [k K]. exists k, c. auto.
  - intros (k & c & K & A). exists c. split; [eapply nth_error_In; eauto|exact A].
Qed.
Lemma none_waits s : existsb sc_armed (sv_all s) = false -> forall k, ~ listens s k.
Proof. intros H k W. assert (X : existsb sc_armed (sv_all s) = true) by (apply armed_waits; eauto). congruence. Qed.

Lemma nth_len {A} (l : list A) k c : nth_error l k = Some c -> (k < List.length l)%nat.
Proof. intros H. apply nth_error_Some. congruence. Qed.

(** One report. *)
Lemma report_waits k c o s j : nth_error (sv_all s) k = Some c -> listens (sc_report k c o s) j <-> j <> k /\ listens s j.
Proof.
  intros K. unfold listens, sc_report; cbn [sv_all]. destruct (Nat.eq_dec j k) as [->|N].
  - rewrite nth_error_set_same by (eapply nth_len; eauto). split; [intros (c' & E & A); inversion E; subst; discriminate A|intros [X _]; congruence].
  - rewrite nth_error_set_other by congruence. tauto.
Qed.
Lemma report_asked k c o s j : nth_error (sv_all s) k = Some c -> has_asked (sc_report k c o s) j <-> has_asked s j.
Proof.
  intros K. unfold has_asked, sc_report; cbn [sv_all]. destruct (Nat.eq_dec j k) as [->|N].
  - rewrite nth_error_set_same by (eapply nth_len; eauto). rewrite K. split; intros (c' & E & A); inversion E; subst; eexists; (split; [reflexivity|exact A]).
  - rewrite nth_error_set_other by congruence. tauto.
Qed.
Lemma report_of k c o s j : reports_of j (sv_reports (sc_report k c o s)) = reports_of j (sv_reports s) ++ (if Nat.eqb k j then [o] else []).
Proof.
  unfold sc_report; cbn [sv_reports]. rewrite reports_app. f_equal. destruct (Nat.eqb_spec k j) as [->|N]; [apply reports_same|apply reports_other; exact N].
Qed.

(** What run does with one arrival. *)
Definition heard (s : service) (k : nat) : Prop := listens s k /\ has_asked s k.
Lemma wait_done arr s : (forall k, ~ listens s k) -> sv_wait arr s = (Ret tt, sv_stop true s).
Proof.
  intros H. assert (E : existsb sc_armed (sv_all s) = false).
  { destruct (existsb sc_armed (sv_all s)) eqn:E; [|reflexivity]. apply armed_waits in E. destruct E as [k W]. destruct (H k W). }
  destruct arr; cbn [sv_wait]; rewrite E; reflexivity.
Qed.
Lemma wait_step k x arr s : (exists j, listens s j) ->
  (~ heard s k /\ sv_wait ((k, x) :: arr) s = sv_wait arr s) \/
  (exists c, nth_error (sv_all s) k = Some c /\ heard s k /\
    ((exists r, sc_answer x = Ret r /\ sv_wait ((k, x) :: arr) s = sv_wait arr (sc_report k c (Ret r) s)) \/
     (sc_answer x = Undef NullDeref /\ (exists bs, x = inr bs /\ scan_crashes (take 4096 bs)) /\
      sv_wait ((k, x) :: arr) s = (Undef NullDeref, sc_report k c (Undef NullDeref) s)))).
Proof.
  intros W. apply armed_waits in W. cbn [sv_wait]. rewrite W.
  destruct (nth_error (sv_all s) k) as [c|] eqn:K.
  - destruct (sc_armed c && sc_port c) eqn:A.
    + right. exists c. split; [reflexivity|]. apply andb_prop in A. destruct A as [A P].
      split; [split; exists c; auto|].
      destruct (answer_cases x) as [[r R]|[R X]]; rewrite R; [left; exists r; auto|right; auto].
    + left. split; [|reflexivity]. intros [(c1 & E1 & A1) (c2 & E2 & A2)].
      assert (c1 = c) by congruence. assert (c2 = c) by congruence. subst. rewrite A1, A2 in A. discriminate A.
  - left. split; [|reflexivity]. intros [(c1 & E1 & A1) _]. congruence.
Qed.
Lemma waits_dec s : (exists k, listens s k) \/ (forall k, ~ listens s k).
Proof.
  destruct (existsb sc_armed (sv_all s)) eqn:E; [left; apply armed_waits; exact E|right; apply none_waits; exact E].
Qed.
Lemma wait_stuck s : (exists j, listens s j) -> sv_wait [] s = (Stuck, s).
Proof. intros W. apply armed_waits in W. cbn [sv_wait]. rewrite W. reflexivity. Qed.

Lemma wait_frame arr : forall s, sv_due (snd (sv_wait arr s)) = sv_due s /\ sv_sent (snd (sv_wait arr s)) = sv_sent s.
Proof.
  induction arr as [|[k x] arr IH]; intros s; destruct (waits_dec s) as [W|W].
  - rewrite wait_stuck by exact W. auto.
  - rewrite wait_done by exact W. auto.
  - destruct (wait_step k x arr s W) as [[_ E]|(c & _ & _ & [(r & _ & E)|(_ & _ & E)])]; rewrite E; [apply IH|exact (IH (sc_report k c (Ret r) s))|auto].
  - rewrite wait_done by exact W. auto.
Qed.

(** run returns exactly when all that wait were heard. *)
Lemma wait_ret arr : forall s, fst (sv_wait arr s) = Ret tt -> forall j, listens s j -> has_asked s j /\ exists x, In (j, x) arr.
Proof.
  induction arr as [|[k x] arr IH]; intros s R j Wj; assert (W : exists j, listens s j) by eauto.
  - rewrite wait_stuck in R by exact W. discriminate R.
  - destruct (wait_step k x arr s W) as [[_ E]|(c & K & Hd & [(r & _ & E)|(_ & _ & E)])]; rewrite E in R.
    + destruct (IH _ R j Wj) as [A [y Y]]. split; [exact A|]. exists y. right. exact Y.
    + destruct (Nat.eq_dec j k) as [->|N].
      * split; [apply Hd|]. exists x. left. reflexivity.
      * destruct (IH _ R j) as [A [y Y]]; [apply report_waits; auto|]. apply report_asked in A; [|exact K]. split; [exact A|]. exists y. right. exact Y.
    + discriminate R.
Qed.
Lemma no_crash_tail y arr : no_crash (y :: arr) -> no_crash arr.
Proof. intros H k bs I. apply (H k bs). right. exact I. Qed.
Lemma wait_all arr : forall s, no_crash arr -> (forall j, listens s j -> has_asked s j /\ exists x, In (j, x) arr) ->
  fst (sv_wait arr s) = Ret tt /\ sv_stopped (snd (sv_wait arr s)) = true /\ (forall j, ~ listens (snd (sv_wait arr s)) j).
Proof.
  induction arr as [|[k x] arr IH]; intros s NC H; destruct (waits_dec s) as [W|W].
  - destruct W as [j Wj]. destruct (H j Wj) as [_ [y []]].
  - rewrite wait_done by exact W. cbn. auto.
  - destruct (wait_step k x arr s W) as [[Nh E]|(c & K & Hd & [(r & _ & E)|(_ & (bs & -> & C) & E)])]; rewrite E.
    + apply IH; [eapply no_crash_tail; eauto|]. intros j Wj. destruct (H j Wj) as [A [y [Y|Y]]].
      * inversion Y; subst. destruct Nh. split; auto.
      * split; eauto.
    + apply IH; [eapply no_crash_tail; eauto|]. intros j Wj. apply report_waits in Wj; [|exact K]. destruct Wj as [N Wj].
      destruct (H j Wj) as [A [y [Y|Y]]]; [congruence|]. split; [apply report_asked; auto|eauto].
    + destruct (NC k bs); [left; reflexivity|exact C].
  - rewrite wait_done by exact W. cbn. auto.
Qed.
Lemma wait_else arr : forall s j, no_crash arr -> listens s j -> ~ (has_asked s j /\ exists x, In (j, x) arr) -> fst (sv_wait arr s) = Stuck.
Proof.
  induction arr as [|[k x] arr IH]; intros s j NC Wj Nj; assert (W : exists j, listens s j) by eauto.
  - rewrite wait_stuck by exact W. reflexivity.
  - destruct (wait_step k x arr s W) as [[_ E]|(c & K & Hd & [(r & _ & E)|(_ & (bs & -> & C) & E)])]; rewrite E.
    + apply (IH s j); [eapply no_crash_tail; eauto|exact Wj|]. intros [A [y Y]]. apply Nj. split; [exact A|]. exists y. right. exact Y.
    + assert (N : j <> k). { intros ->. apply Nj. split; [apply Hd|]. exists x. left. reflexivity. }
      apply (IH _ j); [eapply no_crash_tail; eauto|apply report_waits; auto|]. intros [A [y Y]]. apply report_asked in A; [|exact K].
      apply Nj. split; [exact A|]. exists y. right. exact Y.
    + destruct (NC k bs); [left; reflexivity|exact C].
Qed.

(** Who is told what. *)
Lemma wait_deaf arr : forall s j, ~ heard s j -> reports_of j (sv_reports (snd (sv_wait arr s))) = reports_of j (sv_reports s).
Proof.
  induction arr as [|[k x] arr IH]; intros s j Nh; destruct (waits_dec s) as [W|W].
  - rewrite wait_stuck by exact W. reflexivity.
  - rewrite wait_done by exact W. reflexivity.
  - destruct (wait_step k x arr s W) as [[_ E]|(c & K & Hd & [(r & _ & E)|(_ & _ & E)])]; rewrite E.
    + apply IH; exact Nh.
    + assert (N : k <> j) by (intros ->; contradiction). rewrite IH.
      * rewrite report_of. apply Nat.eqb_neq in N. rewrite N, app_nil_r. reflexivity.
      * intros [A B]. apply Nh. split; [apply report_waits in A; tauto|apply report_asked in B; tauto].
    + assert (N : k <> j) by (intros ->; contradiction). cbn [snd]. rewrite report_of. apply Nat.eqb_neq in N. rewrite N, app_nil_r. reflexivity.
  - rewrite wait_done by exact W. reflexivity.
Qed.
Lemma first_cons j k y arr x : first_for j ((k, y) :: arr) x -> (j = k /\ x = y) \/ (j <> k /\ first_for j arr x).
Proof.
  intros (a & b & E & H). destruct a as [|z a]; inversion E; subst; [left; auto|right].
  split; [intros ->; apply (H (k, y)); [left; reflexivity|reflexivity]|]. exists a, b. split; [reflexivity|]. intros z Z. apply H. right. exact Z.
Qed.
Lemma wait_told arr : forall s j x, no_crash arr -> heard s j -> first_for j arr x ->
  reports_of j (sv_reports (snd (sv_wait arr s))) = reports_of j (sv_reports s) ++ [sc_answer x].
Proof.
  induction arr as [|[k y] arr IH]; intros s j x NC Hj F.
  - destruct F as (a & b & E & _). destruct a; discriminate E.
  - assert (W : exists j, listens s j) by (exists j; apply Hj).
    assert (NC' : no_crash arr) by (eapply no_crash_tail; eauto).
    destruct (wait_step k y arr s W) as [[Nh E]|(c & K & Hd & [(r & R & E)|(_ & (bs & -> & C) & E)])]; rewrite E.
    + apply first_cons in F. destruct F as [[-> _]|[_ F]]; [contradiction|]. apply IH; assumption.
    + apply first_cons in F. destruct F as [[-> ->]|[N F]].
      * rewrite wait_deaf, report_of, Nat.eqb_refl, R; [reflexivity|]. intros [A _]. apply report_waits in A; [tauto|exact K].
      * rewrite (IH _ j x NC'); [|split; [apply report_waits; [exact K|split; [exact N|apply Hj]]|apply report_asked; [exact K|apply Hj]]|exact F].
        rewrite report_of. destruct (Nat.eqb_spec k j); [congruence|]. rewrite app_nil_r. reflexivity.
    + destruct (NC k bs); [left; reflexivity|exact C].
Qed.
Lemma wait_undef arr : forall s u, fst (sv_wait arr s) = Undef u -> u = NullDeref /\ exists j bs, In (j, inr bs) arr /\ scan_crashes (take 4096 bs).
Proof.
  induction arr as [|[k x] arr IH]; intros s u R; destruct (waits_dec s) as [W|W].
  - rewrite wait_stuck in R by exact W. discriminate R.
  - rewrite wait_done in R by exact W. discriminate R.
  - destruct (wait_step k x arr s W) as [[_ E]|(c & K & Hd & [(r & _ & E)|(_ & (bs & -> & C) & E)])]; rewrite E in R.
    + destruct (IH _ _ R) as (U & j & bs & I & C). split; [exact U|]. exists j, bs. split; [right; exact I|exact C].
    + destruct (IH _ _ R) as (U & j & bs & I & C). split; [exact U|]. exists j, bs. split; [right; exact I|exact C].
    + inversion R. split; [reflexivity|]. exists k, bs. split; [left; reflexivity|exact C].
  - rewrite wait_done in R by exact W. discriminate R.
Qed.

(** Requests. *)
Definition asking (k : nat) (c : scanner) (r : endpoint) (s : service) : service :=
  mkSvc (list_set (sv_all s) k (mkScan (sc_host c) true (sc_armed c) true)) (sv_due s) (sv_stopped s) (sv_sent s ++ [(k, r, request 0x63 0 [])]) (sv_reports s).
(** What a refused request leaves: a port. *)
Definition mostly (s1 s : service) : Prop := sv_due s1 = sv_due s /\ sv_stopped s1 = sv_stopped s /\ sv_sent s1 = sv_sent s /\ sv_reports s1 = sv_reports s /\
  (forall j, listens s1 j <-> listens s j) /\ (forall j, nth_error (sv_all s1) j = None <-> nth_error (sv_all s) j = None).
Lemma mostly_refl s : mostly s s.
Proof. unfold mostly. do 4 (split; [reflexivity|]). split; intros j; tauto. Qed.
Lemma refused_mostly s k name armed port : nth_error (sv_all s) k = Some (mkScan name true armed port) ->
  mostly (mkSvc (list_set (sv_all s) k (mkScan name true armed true)) (sv_due s) (sv_stopped s) (sv_sent s) (sv_reports s)) s.
Proof.
  intros K. unfold mostly. do 4 (split; [reflexivity|]). split; intros j; unfold listens; cbn [sv_all]; (destruct (Nat.eq_dec j k) as [->|N];
    [rewrite nth_error_set_same by (eapply nth_len; eauto); rewrite K|rewrite nth_error_set_other by congruence; tauto]).
  - split; intros (c & E & A); inversion E; subst; eexists; (split; [reflexivity|exact A]).
  - split; discriminate.
Qed.
Lemma request_cases k e s :
  (~ exists_scanner s k /\ sc_request k e s = (Undef UseAfterFree, s)) \/
  (exists t s1, sc_request k e s = (Throw SystemError t, s1) /\ mostly s1 s /\ ((forall r, sn_bcast e r = false) -> s1 = s)) \/
  (exists c r, nth_error (sv_all s) k = Some c /\ sc_alive c = true /\ targets s k e r /\ sn_bcast e r = false /\ sc_request k e s = (Ret tt, asking k c r s)).
Proof.
  unfold sc_request. destruct (nth_error (sv_all s) k) as [[name [|] armed port]|] eqn:K.
  - right. destruct (sn_resolve e name "44818") as [|r rs] eqn:R; [left; do 2 eexists; split; [reflexivity|split; [apply mostly_refl|auto]]|].
    rewrite scan_request_bytes. destruct (sn_bcast e r) eqn:B.
    { left. do 2 eexists. split; [reflexivity|]. split; [exact (refused_mostly _ _ _ _ _ K)|]. intros H. rewrite H in B. discriminate B. }
    right. exists (mkScan name true armed port), r. split; [reflexivity|]. split; [reflexivity|].
    split; [exists (mkScan name true armed port), rs; auto|]. split; [exact B|]. reflexivity.
  - left. split; [|reflexivity]. intros (c & E & A). rewrite K in E. inversion E; subst. discriminate A.
  - left. split; [|reflexivity]. intros (c & E & A). congruence.
Qed.
Lemma request_ok k e s r : targets s k e r -> sn_bcast e r = false -> exists c, nth_error (sv_all s) k = Some c /\ sc_request k e s = (Ret tt, asking k c r s).
Proof.
  intros (c & rs & K & A & R) B. exists c. split; [exact K|]. destruct c as [name al ar po]. cbn in A, R. subst al.
  unfold sc_request. rewrite K, R, scan_request_bytes, B. reflexivity.
Qed.
Lemma asking_waits k c r s j : nth_error (sv_all s) k = Some c -> listens (asking k c r s) j <-> listens s j.
Proof.
  intros K. unfold listens, asking; cbn [sv_all]. destruct (Nat.eq_dec j k) as [->|N].
  - rewrite nth_error_set_same by (eapply nth_len; eauto). rewrite K. split; intros (c' & E & A); inversion E; subst; eexists; (split; [reflexivity|exact A]).
  - rewrite nth_error_set_other by congruence. tauto.
Qed.
Lemma asking_asked k c r s j : nth_error (sv_all s) k = Some c -> has_asked (asking k c r s) j <-> j = k \/ has_asked s j.
Proof.
  intros K. unfold has_asked, asking; cbn [sv_all]. destruct (Nat.eq_dec j k) as [->|N].
  - rewrite nth_error_set_same by (eapply nth_len; eauto). split; [auto|]. intros _. eexists. split; [reflexivity|reflexivity].
  - rewrite nth_error_set_other by congruence. split; [auto|]. intros [X|X]; [congruence|exact X].
Qed.
Lemma run_wait k e arr s r : targets s k e r -> sn_bcast e r = false -> usable s ->
  exists c, nth_error (sv_all s) k = Some c /\ sc_run k e arr s = sv_wait arr (asking k c r s).
Proof.
  intros T B [St Du]. destruct (request_ok _ _ _ _ T B) as (c & K & E). exists c. split; [exact K|].
  unfold sc_run. rewrite E. unfold sv_run. change (sv_stopped (asking k c r s)) with (sv_stopped s). change (sv_due (asking k c r s)) with (sv_due s). rewrite St, Du. reflexivity.
Qed.

Lemma scan_returns k e arr s r : targets s k e r -> sn_bcast e r = false -> usable s -> no_crash arr ->
  let (o, s') := sc_run k e arr s in
  sv_sent s' = sv_sent s ++ [(k, r, request 0x63 0 [])] /\
  ((o = Ret tt /\ sv_stopped s' = true /\ sv_due s' = [] /\ (forall j, ~ listens s' j)) \/ o = Stuck) /\
  (o = Ret tt <-> forall j, listens s j -> (j = k \/ has_asked s j) /\ exists x, In (j, x) arr).
Proof.
  intros T B U NC. destruct (run_wait k e arr s r T B U) as (c & K & E). rewrite E.
  destruct (sv_wait arr (asking k c r s)) as [o s'] eqn:Ew.
  destruct (wait_frame arr (asking k c r s)) as [Fd Fs]. rewrite Ew in Fd, Fs. cbn [snd] in Fd, Fs.
  split; [rewrite Fs; reflexivity|].
  assert (Fw : o = Ret tt -> forall j, listens s j -> (j = k \/ has_asked s j) /\ exists x, In (j, x) arr).
  { intros R j Wj. destruct (wait_ret arr (asking k c r s)) with (j := j) as [A X]; [rewrite Ew; exact R|apply asking_waits; auto|].
    split; [apply asking_asked in A; auto|exact X]. }
  assert (Bw : (forall j, listens s j -> (j = k \/ has_asked s j) /\ exists x, In (j, x) arr) -> o = Ret tt /\ sv_stopped s' = true /\ sv_due s' = [] /\ (forall j, ~ listens s' j)).
  { intros H. destruct (wait_all arr (asking k c r s) NC) as (R & St & Nw).
    - intros j Wj. apply asking_waits in Wj; [|exact K]. destruct (H j Wj) as [A X]. split; [apply asking_asked; auto|exact X].
    - rewrite Ew in R, St, Nw. cbn [fst snd] in *. split; [exact R|]. split; [exact St|]. split; [rewrite Fd; apply U|exact Nw]. }
  split; [|split; [exact Fw|intros H; apply Bw; exact H]].
  destruct o as [[]|cl t|u|].
  - left. apply Bw. apply Fw. reflexivity.
  - exfalso. clear - Ew. revert Ew. generalize (asking k c r s). induction arr as [|[k' x] arr IH]; intros s0 Ew; destruct (waits_dec s0) as [W|W].
    + rewrite wait_stuck in Ew by exact W. discriminate Ew.
    + rewrite wait_done in Ew by exact W. discriminate Ew.
    + destruct (wait_step k' x arr s0 W) as [[_ E]|(c' & _ & _ & [(r' & _ & E)|(_ & _ & E)])]; rewrite E in Ew; [exact (IH _ Ew)|exact (IH _ Ew)|discriminate Ew].
    + rewrite wait_done in Ew by exact W. discriminate Ew.
  - exfalso. destruct (wait_undef arr (asking k c r s) u) as (_ & j & bs & I & C); [rewrite Ew; reflexivity|]. exact (NC j bs I C).
  - right. reflexivity.
Qed.

Lemma scan_told k e arr s r : targets s k e r -> sn_bcast e r = false -> usable s -> no_crash arr ->
  forall j, (forall x, listens s j -> j = k \/ has_asked s j -> first_for j arr x ->
      exists o, scan_run [] [x] = [o] /\ reports_of j (sv_reports (snd (sc_run k e arr s))) = reports_of j (sv_reports s) ++ [o]) /\
    (~ (listens s j /\ (j = k \/ has_asked s j)) -> reports_of j (sv_reports (snd (sc_run k e arr s))) = reports_of j (sv_reports s)).
Proof.
  intros T B U NC j. destruct (run_wait k e arr s r T B U) as (c & K & E). rewrite E. split.
  - intros x Wj Aj F. exists (sc_answer x). split; [apply answer_run|].
    rewrite (wait_told arr _ j x NC); [reflexivity| |exact F]. split; [apply asking_waits; auto|apply asking_asked; auto].
  - intros N. rewrite wait_deaf; [reflexivity|]. intros [A A']. apply N. split; [apply asking_waits in A; auto|apply asking_asked in A'; auto].
Qed.

Lemma never_asked k e arr s j : listens s j -> ~ has_asked s j -> j <> k -> sv_stopped s = false -> fst (sc_run k e arr s) <> Ret tt.
Proof.
  intros Wj Nj N St R. unfold sc_run in R.
  destruct (request_cases k e s) as [[_ E]|[(t & s' & E & M & MB)|(c & r & K & A & T & B & E)]]; rewrite E in R; try discriminate R.
  unfold sv_run in R. change (sv_stopped (asking k c r s)) with (sv_stopped s) in R. change (sv_due (asking k c r s)) with (sv_due s) in R. rewrite St in R. destruct (sv_due s); [|discriminate R].
  destruct (wait_ret arr (asking k c r s) R j) as [X _]; [apply asking_waits; auto|]. apply asking_asked in X; [|exact K]. tauto.
Qed.

(** A scanner alone. *)
Lemma new_targets s name e r rs : sn_resolve e name "44818" = r :: rs -> targets (snd (sc_new name true s)) (List.length (sv_all s)) e r.
Proof.
  intros R. exists (mkScan name true true false), rs. cbn. rewrite nth_error_app2, PeanoNat.Nat.sub_diag by lia. auto.
Qed.
Lemma new_waits s name j : listens (snd (sc_new name true s)) j <-> j = List.length (sv_all s) \/ listens s j.
Proof.
  unfold listens; cbn. destruct (Nat.lt_trichotomy j (List.length (sv_all s))) as [L|[->|L]].
  - rewrite nth_error_app1 by exact L. split; [auto|]. intros [X|X]; [lia|exact X].
  - rewrite nth_error_app2, PeanoNat.Nat.sub_diag by lia. split; [auto|]. intros _. eexists. split; reflexivity.
  - assert (N1 : nth_error (sv_all s ++ [mkScan name true true false]) j = None) by (apply nth_error_None; rewrite app_length; cbn; lia).
    assert (N2 : nth_error (sv_all s) j = None) by (apply nth_error_None; lia).
    rewrite N1, N2. split; [intros (c & X & _); discriminate X|]. intros [X|(c & X & _)]; [lia|discriminate X].
Qed.
Lemma first_in k arr x : first_for k arr x -> In (k, x) arr.
Proof. intros (a & b & -> & _). apply in_or_app. right. left. reflexivity. Qed.

Lemma reports_grow arr : forall s, exists l, sv_reports (snd (sv_wait arr s)) = sv_reports s ++ l /\ forall y, In y l -> heard s (fst y).
Proof.
  induction arr as [|[k x] arr IH]; intros s; destruct (waits_dec s) as [W|W].
  - rewrite wait_stuck by exact W. exists []. rewrite app_nil_r. split; [reflexivity|intros y []].
  - rewrite wait_done by exact W. exists []. rewrite app_nil_r. split; [reflexivity|intros y []].
  - destruct (wait_step k x arr s W) as [[_ E]|(c & K & Hd & [(r & _ & E)|(_ & _ & E)])]; rewrite E.
    + apply IH.
    + destruct (IH (sc_report k c (Ret r) s)) as (l & El & Hl). exists ((k, Ret r) :: l). rewrite El. unfold sc_report at 1; cbn [sv_reports].
      split; [rewrite <- app_assoc; reflexivity|]. intros y [<-|Y]; [exact Hd|]. destruct (Hl y Y) as [A B].
      split; [apply report_waits in A; tauto|apply report_asked in B; tauto].
    + exists [(k, Undef NullDeref)]. split; [reflexivity|]. intros y [<-|[]]. exact Hd.
  - rewrite wait_done by exact W. exists []. rewrite app_nil_r. split; [reflexivity|intros y []].
Qed.
Lemma all_of k l : (forall y, In y l -> fst y = k) -> map snd l = reports_of k l /\ l = map (fun o => (k, o)) (map snd l).
Proof.
  induction l as [|[j o] l IH]; intros H; [split; reflexivity|]. destruct IH as [A B]; [intros y Y; apply H; right; exact Y|].
  assert (J : j = k) by (apply (H (j, o)); left; reflexivity). subst j. unfold reports_of; cbn. rewrite Nat.eqb_refl. cbn. split; [f_equal; exact A|f_equal; exact B].
Qed.

Lemma scan_alone s name e r rs arr x k : usable s -> (forall j, ~ listens s j) -> k = List.length (sv_all s) ->
  sn_resolve e name "44818" = r :: rs -> sn_bcast e r = false -> no_crash arr -> first_for k arr x ->
  exists o s', scan_run [] [x] = [o] /\ sdo_all [SNew name true; SRun k e arr] s = ([Ret tt; Ret tt], s') /\
    sv_sent s' = sv_sent s ++ [(k, r, request 0x63 0 [])] /\ sv_reports s' = sv_reports s ++ [(k, o)].
Proof.
  intros U Nw -> R B NC F. set (s1 := snd (sc_new name true s)).
  assert (U1 : usable s1) by exact U.
  pose proof (new_targets s name e r rs R) as T. fold s1 in T.
  pose proof (scan_returns _ e arr s1 r T B U1 NC) as H.
  destruct (scan_told _ e arr s1 r T B U1 NC (List.length (sv_all s))) as [Hj _].
  assert (Wk : listens s1 (List.length (sv_all s))) by (apply new_waits; auto).
  destruct (Hj x Wk (or_introl eq_refl) F) as (o & Eo & Ro).
  destruct (run_wait _ e arr s1 r T B U1) as (c & K & E).
  destruct (reports_grow arr (asking (List.length (sv_all s)) c r s1)) as (l & El & Hl). rewrite <- E in El.
  destruct (sc_run (List.length (sv_all s)) e arr s1) as [o1 s'] eqn:Er. destruct H as (Hs & _ & Hr). cbn [snd] in *.
  assert (o1 = Ret tt) as ->.
  { apply Hr. intros j Wj. apply new_waits in Wj. destruct Wj as [->|Wj]; [|destruct (Nw j Wj)]. split; [auto|]. exists x. apply first_in. exact F. }
  exists o, s'. split; [exact Eo|]. split.
  { cbn [sdo_all sdo]. change (sc_new name true s) with (Ret tt, s1). cbv beta iota. rewrite Er. reflexivity. }
  split; [exact Hs|].
  assert (Lk : forall y, In y l -> fst y = List.length (sv_all s)).
  { intros y Y. destruct (Hl y Y) as [A _]. apply asking_waits in A; [|exact K]. apply new_waits in A. destruct A as [A|A]; [exact A|destruct (Nw _ A)]. }
  destruct (all_of _ l Lk) as [L1 L2].
  rewrite El. change (sv_reports (asking (List.length (sv_all s)) c r s1)) with (sv_reports s). f_equal.
  rewrite L2. rewrite El, reports_app in Ro. change (sv_reports (asking (List.length (sv_all s)) c r s1)) with (sv_reports s1) in Ro.
  apply app_inv_head in Ro. rewrite L1, Ro. reflexivity.
Qed.
Lemma scan_again s name e r rs arr x k : sv_due s = [] -> (forall j, ~ listens s j) -> k = List.length (sv_all s) ->
  sn_resolve e name "44818" = r :: rs -> sn_bcast e r = false -> no_crash arr -> first_for k arr x ->
  exists o s', scan_run [] [x] = [o] /\ sdo_all [SReset; SNew name true; SRun k e arr] s = ([Ret tt; Ret tt; Ret tt], s') /\
    sv_sent s' = sv_sent s ++ [(k, r, request 0x63 0 [])] /\ sv_reports s' = sv_reports s ++ [(k, o)].
Proof.
  intros D Nw Hk R B NC F.
  destruct (scan_alone (sv_stop false s) name e r rs arr x k) as (o & s' & Eo & Ed & Es & Ers); try assumption; [split; [reflexivity|exact D]|].
  exists o, s'. split; [exact Eo|]. split; [|split; assumption].
  change (sdo_all [SReset; SNew name true; SRun k e arr] s) with (let (os, s2) := sdo_all [SNew name true; SRun k e arr] (sv_stop false s) in (Ret tt :: os, s2)).
  rewrite Ed. reflexivity.
Qed.

Lemma scan_network s k e r arr : targets s k e r -> sn_bcast e r = true ->
  exists t s', sc_run k e arr s = (Throw SystemError t, s') /\ sv_sent s' = sv_sent s /\ sv_reports s' = sv_reports s.
Proof.
  intros (c & rs & K & A & R) B. destruct c as [name al ar po]. cbn in A, R. subst al.
  unfold sc_run, sc_request. rewrite K, R, scan_request_bytes, B. do 2 eexists. split; [reflexivity|]. split; reflexivity.
Qed.

Lemma sdo_cons c cs s : sdo_all (c :: cs) s = let (o, s1) := sdo c s in
  match o with Undef _ | Stuck => ([o], s1) | _ => let (os, s2) := sdo_all cs s1 in (o :: os, s2) end.
Proof. reflexivity. Qed.
Lemma step_stopped c s : sv_stopped s = true -> c <> SReset -> sv_stopped (snd (sdo c s)) = true /\ sv_reports (snd (sdo c s)) = sv_reports s.
Proof.
  intros St N. destruct c as [name room|k e|k e arr|k|]; cbn [sdo].
  - destruct room; cbn; auto.
  - destruct (request_cases k e s) as [[_ E]|[(t & s' & E & M & MB)|(c & r & K & A & T & B & E)]]; rewrite E; cbn; auto.
    destruct M as (_ & M1 & _ & M2 & _). rewrite M1. auto.
  - unfold sc_run. destruct (request_cases k e s) as [[_ E]|[(t & s' & E & M & MB)|(c & r & K & A & T & B & E)]]; rewrite E; cbn; auto.
    { destruct M as (_ & M1 & _ & M2 & _). rewrite M1. auto. }
    unfold sv_run, asking; cbn [sv_stopped]. rewrite St. cbn. auto.
  - unfold sc_destroy. destruct (nth_error (sv_all s) k) as [[name [|] armed port]|]; cbn; auto.
  - congruence.
Qed.
Lemma stopped_silent cs : forall s, sv_stopped s = true -> ~ In SReset cs ->
  sv_reports (snd (sdo_all cs s)) = sv_reports s /\ ~ In Stuck (fst (sdo_all cs s)).
Proof.
  induction cs as [|c cs IH]; intros s St N; [split; [reflexivity|intros []]|].
  assert (Nc : c <> SReset) by (intros ->; apply N; left; reflexivity).
  destruct (step_stopped c s St Nc) as [St1 R1].
  assert (NS : fst (sdo c s) <> Stuck).
  { clear IH R1 St1. destruct c as [name room|k e|k e arr|k|]; cbn [sdo].
    - destruct room; discriminate.
    - destruct (request_cases k e s) as [[_ E]|[(t & s' & E & M & MB)|(c & r & _ & _ & _ & _ & E)]]; rewrite E; discriminate.
    - unfold sc_run. destruct (request_cases k e s) as [[_ E]|[(t & s' & E & M & MB)|(c & r & _ & _ & _ & _ & E)]]; rewrite E; try discriminate.
      unfold sv_run, asking; cbn [sv_stopped]. rewrite St. discriminate.
    - unfold sc_destroy. destruct (nth_error (sv_all s) k) as [[name [|] armed port]|]; discriminate.
    - discriminate. }
  rewrite sdo_cons. destruct (sdo c s) as [o s1]. cbn [fst snd] in *.
  destruct (IH s1 St1) as [R2 N2]; [intros I; apply N; right; exact I|].
  destruct o as [[]|cl t|u|]; [| |split; [exact R1|intros [X|[]]; discriminate X]|congruence];
    destruct (sdo_all cs s1) as [os s2]; cbn [fst snd] in *; (split; [congruence|intros [X|X]; [discriminate X|exact (N2 X)]]).
Qed.

(** Never twice. *)
Definition fair (s : service) : Prop := forall k, (List.length (reports_of k (sv_reports s)) <= 1)%nat /\
  (listens s k \/ nth_error (sv_all s) k = None -> reports_of k (sv_reports s) = []).
Lemma fair_report s k c o : fair s -> nth_error (sv_all s) k = Some c -> listens s k -> fair (sc_report k c o s).
Proof.
  intros H K W j. rewrite report_of. destruct (Nat.eqb_spec k j) as [->|N].
  - destruct (H j) as [_ E]. rewrite (E (or_introl W)). split; [cbn; lia|]. intros [X|X].
    + apply report_waits in X; [tauto|exact K].
    + exfalso. unfold sc_report in X; cbn [sv_all] in X. rewrite nth_error_set_same in X by (eapply nth_len; eauto). discriminate X.
  - rewrite app_nil_r. destruct (H j) as [L E]. split; [exact L|]. intros [X|X]; apply E.
    + left. apply report_waits in X; [tauto|exact K].
    + right. unfold sc_report in X; cbn [sv_all] in X. rewrite nth_error_set_other in X by congruence. exact X.
Qed.
Lemma fair_wait arr : forall s, fair s -> fair (snd (sv_wait arr s)).
Proof.
  induction arr as [|[k x] arr IH]; intros s H; destruct (waits_dec s) as [W|W].
  - rewrite wait_stuck by exact W. exact H.
  - rewrite wait_done by exact W. exact H.
  - destruct (wait_step k x arr s W) as [[_ E]|(c & K & Hd & [(r & _ & E)|(_ & _ & E)])]; rewrite E.
    + apply IH. exact H.
    + apply IH. apply fair_report; [exact H|exact K|apply Hd].
    + apply fair_report; [exact H|exact K|apply Hd].
  - rewrite wait_done by exact W. exact H.
Qed.
Lemma fair_asking s k c r : fair s -> nth_error (sv_all s) k = Some c -> fair (asking k c r s).
Proof.
  intros H K j. destruct (H j) as [L E]. split; [exact L|]. intros [X|X]; apply E.
  - left. apply asking_waits in X; [exact X|exact K].
  - right. unfold asking in X; cbn [sv_all] in X. destruct (Nat.eq_dec j k) as [->|N].
    + rewrite nth_error_set_same in X by (eapply nth_len; eauto). discriminate X.
    + rewrite nth_error_set_other in X by congruence. exact X.
Qed.
Lemma fair_mostly s1 s : mostly s1 s -> fair s -> fair s1.
Proof.
  intros (_ & _ & _ & R & L & N) H j. rewrite R. destruct (H j) as [A B]. split; [exact A|]. intros [X|X]; apply B; [left; apply L; exact X|right; apply N; exact X].
Qed.
Lemma fair_step c s : fair s -> fair (snd (sdo c s)).
Proof.
  intros H. destruct c as [name room|k e|k e arr|k|]; cbn [sdo].
  - destruct room; [|exact H]. intros j. destruct (H j) as [L E]. split; [exact L|]. intros X. apply E.
    assert (Z : nth_error (sv_all s ++ [mkScan name true true false]) j = None -> nth_error (sv_all s) j = None).
    { intros Y. apply nth_error_None in Y. apply nth_error_None. rewrite app_length in Y. cbn in Y. lia. }
    destruct X as [X|X]; [|right; apply Z; exact X]. apply (new_waits s name j) in X. destruct X as [->|X]; [|left; exact X].
    right. apply nth_error_None. lia.
  - destruct (request_cases k e s) as [[_ E]|[(t & s' & E & M & MB)|(c & r & K & A & T & B & E)]]; rewrite E; [exact H|exact (fair_mostly _ _ M H)|]. apply fair_asking; assumption.
  - unfold sc_run. destruct (request_cases k e s) as [[_ E]|[(t & s' & E & M & MB)|(c & r & K & A & T & B & E)]]; rewrite E; [exact H|exact (fair_mostly _ _ M H)|].
    pose proof (fair_asking s k c r H K) as H1. unfold sv_run. destruct (sv_stopped (asking k c r s)); [exact H1|].
    destruct (sv_due (asking k c r s)); [apply fair_wait; exact H1|exact H1].
  - unfold sc_destroy. destruct (nth_error (sv_all s) k) as [[name [|] armed port]|] eqn:K; try exact H.
    intros j. destruct (H j) as [L E]. split; [exact L|]. unfold listens; cbn [snd sv_all]. intros X. apply E. destruct (Nat.eq_dec j k) as [->|N].
    + rewrite nth_error_set_same in X by (eapply nth_len; eauto). destruct X as [(c & Ec & A)|X]; [inversion Ec; subst; discriminate A|discriminate X].
    + rewrite nth_error_set_other in X by congruence. exact X.
  - exact H.
Qed.
Lemma fair_all cs : forall s, fair s -> fair (snd (sdo_all cs s)).
Proof.
  induction cs as [|c cs IH]; intros s H; [exact H|].
  pose proof (fair_step c s H) as H1. rewrite sdo_cons. destruct (sdo c s) as [o s1]. cbn [snd] in H1. pose proof (IH s1 H1) as H2.
  destruct o; try exact H1; destruct (sdo_all cs s1); exact H2.
Qed.
Lemma once cs k : (List.length (reports_of k (sv_reports (snd (sdo_all cs sv_new)))) <= 1)%nat.
Proof.
  apply fair_all. intros j. split; [cbn; lia|]. intros _. reflexivity.
Qed.

(** Undefined behaviour. *)
Lemma gone s j k e r arr : listens s j -> exists_scanner s j -> j <> k -> targets s k e r -> sn_bcast e r = false -> sv_stopped s = false ->
  fst (sdo_all [SDestroy j; SRun k e arr] s) = [Ret tt; Undef UseAfterFree].
Proof.
  intros (c & K & A) (c' & K' & Al) N (d & rs & D & Dal & R) B St. assert (c' = c) by congruence. subst c'. destruct c as [name al ar po]. cbn in A, Al. subst al ar.
  cbn [sdo_all sdo]. unfold sc_destroy at 1. rewrite K. cbv beta iota.
  set (s1 := mkSvc _ _ _ _ _).
  assert (T : targets s1 k e r). { exists d, rs. unfold s1; cbn [sv_all]. rewrite nth_error_set_other by congruence. auto. }
  destruct (request_ok k e s1 r T B) as (c1 & K1 & E1). unfold sc_run. rewrite E1. unfold sv_run, asking; cbn [sv_stopped sv_due]. unfold s1; cbn [sv_stopped sv_due].
  rewrite St. destruct (sv_due s); reflexivity.
Qed.
Lemma step_due c s : sv_due (snd (sdo c s)) = sv_due s \/ exists k, c = SDestroy k /\ listens s k.
Proof.
  destruct c as [name room|k e|k e arr|k|]; cbn [sdo].
  - left. destruct room; reflexivity.
  - left. destruct (request_cases k e s) as [[_ E]|[(t & s' & E & M & MB)|(c & r & K & A & T & B & E)]]; rewrite E; try reflexivity. apply M.
  - left. unfold sc_run. destruct (request_cases k e s) as [[_ E]|[(t & s' & E & M & MB)|(c & r & K & A & T & B & E)]]; rewrite E; try reflexivity; [apply M|].
    unfold sv_run. destruct (sv_stopped (asking k c r s)); [reflexivity|]. destruct (sv_due (asking k c r s)) eqn:D.
    + rewrite (proj1 (wait_frame arr _)). reflexivity.
    + reflexivity.
  - unfold sc_destroy. destruct (nth_error (sv_all s) k) as [[name [|] armed port]|] eqn:K; try (left; reflexivity).
    destruct armed; [right|left; reflexivity]. exists k. split; [reflexivity|]. exists (mkScan name true true port). auto.
  - left. reflexivity.
Qed.
Lemma step_safe s c u : names_existing s c -> sv_due s = [] -> fst (sdo c s) = Undef u ->
  u = NullDeref /\ exists k e arr j bs, c = SRun k e arr /\ In (j, inr bs) arr /\ scan_crashes (take 4096 bs).
Proof.
  intros Ne D R. destruct c as [name room|k e|k e arr|k|]; cbn [sdo names_existing] in *.
  - destruct room; discriminate R.
  - destruct (request_cases k e s) as [[X _]|[(t & s' & E & M & MB)|(c & r & K & A & T & B & E)]]; [contradiction| |]; rewrite E in R; discriminate R.
  - unfold sc_run in R. destruct (request_cases k e s) as [[X _]|[(t & s' & E & M & MB)|(c & r & K & A & T & B & E)]]; [contradiction| |]; rewrite E in R; [discriminate R|].
    unfold sv_run in R. destruct (sv_stopped (asking k c r s)); [discriminate R|].
    change (sv_due (asking k c r s)) with (sv_due s) in R. rewrite D in R.
    destruct (wait_undef _ _ _ R) as (U & j & bs & I & C). split; [exact U|]. exists k, e, arr, j, bs. auto.
  - destruct Ne as (c & K & A). destruct c as [name al ar po]. cbn in A. subst al. unfold sc_destroy in R. rewrite K in R. discriminate R.
  - discriminate R.
Qed.

Lemma careful_safe cs : forall s u, sv_due s = [] -> careful cs s -> ~ In (Undef u) (fst (sdo_all cs s)).
Proof.
  induction cs as [|c cs IH]; intros s u D H; [intros []|]. destruct H as (Ne & Nd & Nc & H). rewrite sdo_cons.
  assert (Nu : forall v, fst (sdo c s) <> Undef v).
  { intros v R. destruct (step_safe s c v Ne D R) as (_ & k & e & arr & j & bs & E & I & C). exact (Nc k e arr E j bs I C). }
  assert (D1 : sv_due (snd (sdo c s)) = []).
  { destruct (step_due c s) as [E|(k & E & W)]; [congruence|]. destruct (Nd k E W). }
  pose proof (IH (snd (sdo c s)) u D1 H) as X. destruct (sdo c s) as [o s1]. cbn [fst snd] in *.
  destruct o as [[]|cl m|v|]; [| |destruct (Nu v eq_refl)|intros [Y|[]]; discriminate Y];
    destruct (sdo_all cs s1) as [os s2]; cbn [fst] in *; (intros [Y|Y]; [discriminate Y|exact (X Y)]).
Qed.

Lemma same_again s k e r arr : targets s k e r -> sn_bcast e r = false -> usable s -> (forall j, ~ listens s j) ->
  exists s', sc_run k e arr s = (Ret tt, s') /\ sv_reports s' = sv_reports s /\ sv_sent s' = sv_sent s ++ [(k, r, request 0x63 0 [])].
Proof.
  intros T B U Nl. destruct (run_wait k e arr s r T B U) as (c & K & E). rewrite E, wait_done.
  - eexists. split; [reflexivity|]. split; reflexivity.
  - intros j L. apply asking_waits in L; [|exact K]. exact (Nl j L).
Qed.
Lemma step_listens c s k : listens (snd (sdo c s)) k -> (k < List.length (sv_all s))%nat -> listens s k.
Proof.
  intros L Lt. destruct c as [name room|j e|j e arr|j|]; cbn [sdo] in L.
  - destruct room; [|exact L]. apply (new_waits s name k) in L. destruct L as [->|L]; [lia|exact L].
  - destruct (request_cases j e s) as [[_ E]|[(t & s' & E & M & MB)|(c & r & K & A & T & B & E)]]; rewrite E in L; [exact L|apply M; exact L|]. apply asking_waits in L; [exact L|exact K].
  - unfold sc_run in L. destruct (request_cases j e s) as [[_ E]|[(t & s' & E & M & MB)|(c & r & K & A & T & B & E)]]; rewrite E in L; [exact L|apply M; exact L|].
    apply (asking_waits j c r s k K). unfold sv_run in L. destruct (sv_stopped (asking j c r s)); [exact L|].
    destruct (sv_due (asking j c r s)); [|exact L]. clear E K T B A Lt. revert L. generalize (asking j c r s). clear.
    induction arr as [|[i x] arr IH]; intros s L; destruct (waits_dec s) as [W|W].
    + rewrite wait_stuck in L by exact W. exact L.
    + rewrite wait_done in L by exact W. exact L.
    + destruct (wait_step i x arr s W) as [[_ E]|(c & K & Hd & [(r & _ & E)|(_ & _ & E)])]; rewrite E in L.
      * exact (IH _ L).
      * apply IH in L. apply report_waits in L; [tauto|exact K].
      * cbn [snd] in L. apply report_waits in L; [tauto|exact K].
    + rewrite wait_done in L by exact W. exact L.
  - unfold sc_destroy in L. destruct (nth_error (sv_all s) j) as [[name [|] armed port]|] eqn:K; try exact L.
    destruct L as (c & E & A). cbn [snd sv_all] in E. destruct (Nat.eq_dec k j) as [->|N].
    + rewrite nth_error_set_same in E by exact Lt. inversion E; subst. discriminate A.
    + rewrite nth_error_set_other in E by congruence. exists c. auto.
  - exact L.
Qed.

Lemma ret_no_crash bs v : scan_run [] [inr bs] = [Ret v] -> ~ scan_crashes (take 4096 bs).
Proof.
  intros H C. destruct (scan_exactly [] bs []) as (o & E & _ & X & _). apply X in C. subst o. rewrite E in H. discriminate H.
Qed.
(** A network with two devices and a broadcast address, for examples. *)
Definition test_lan : snet := mkSnet (fun name _ => if String.eqb name "plc1" then [mkEnd 1 44818] else if String.eqb name "plc2" then [mkEnd 2 44818]
  else if String.eqb name "lan" then [mkEnd 255 44818] else []) (fun r => e_addr r =? 255).
