(** Proofs for C98-C100: limited streams, references to connections, payload lengths. *)
From Verif Require Export Vocab13 PEnc PPack PCodec PHistory PWitness3.
From Coq Require PeanoNat.
Local Open Scope N_scope.

(** ** C98 *)
Lemma lim_whole m x bs out room : writes m x bs -> len bs <= room ->
  x m (WLim out room false) = (Ret tt, m, WLim (out ++ bs) (room - len bs) false) /\ w_count (WLim (out ++ bs) (room - len bs) false) = len out + len bs.
Proof.
  intros H L. split; [|cbn [w_count]; rewrite len_app; reflexivity].
  rewrite (writes_lim _ _ _ H m out room (hext_refl m)). destruct (N.leb_spec (len bs) room); [reflexivity|lia].
Qed.
Lemma lim_silent m x bs y more out room : writes m x bs -> writes m y more -> room < len bs ->
  exists w, x m (WLim out room false) = (Ret tt, m, w) /\ w = WLim (out ++ take room bs) 0 true /\ out ++ take room bs <> out ++ bs /\
    y m w = (Ret tt, m, w) /\ w_count w = 2 ^ 64 - 1.
Proof.
  intros H G L. exists (WLim (out ++ take room bs) 0 true). split; [|split; [reflexivity|split; [|split; [|reflexivity]]]].
  - rewrite (writes_lim _ _ _ H m out room (hext_refl m)). destruct (N.leb_spec (len bs) room); [lia|reflexivity].
  - intros E. apply (f_equal len) in E. rewrite !len_app, len_take in E. lia.
  - apply (writes_failed _ _ _ G _ _ _ (hext_refl m)).
Qed.

(** ** C99 *)
Lemma v_exec_cons g o ops s : v_exec g (o :: ops) s =
  match v_step g o s with
  | (Ret r, s') => let (rs, s'') := v_exec g ops s' in (Ret r :: rs, s'')
  | (Throw c t, s') => let (rs, s'') := v_exec g ops s' in (Throw c t :: rs, s'')
  | (x, s') => ([x], s')
  end.
Proof. cbn [v_exec]. destruct (v_step g o s) as [[]]; reflexivity. Qed.
Lemma remove_len {A} k : forall l : list A, len (list_remove k l) <= len l.
Proof.
  induction k; intros [|a l]; cbn [list_remove]; try (unfold len; cbn [List.length]; lia).
  specialize (IHk l). unfold len in *. cbn [List.length]. lia.
Qed.
Lemma size_step o w r w' : step o w = (r, w') ->
  len (se_conns (w_se w')) <= len (se_conns (w_se w)) + match o with OpCreate _ _ => 1 | _ => 0 end.
Proof.
  intros E. apply step_moved in E. destruct E as (_ & _ & E). destruct o; try (rewrite E; lia).
  - destruct E as [(_ & id & ->)|(_ & ->)]; cbn; lia.
  - destruct E as [(_ & ->)|(_ & ->)]; cbn; lia.
  - destruct E as (_ & _ & _ & [(c' & _ & -> & _)|(_ & ->)]); [rewrite len_app; unfold len; cbn [List.length]|]; lia.
  - destruct E as [(_ & _ & ->)|(_ & ->)]; [|lia]. cbn [se_conns set_conns]. pose proof (remove_len (N.to_nat n) (se_conns (w_se w))). lia.
Qed.
Lemma creates_cons o ops : creates (o :: ops) = match o with OpCreate _ _ => 1 | _ => 0 end + creates ops.
Proof. unfold creates. cbn [filter]. destruct o; unfold len; cbn [List.length]; lia. Qed.
Lemma deref_ret r s c : deref r s = Ret c <-> rf_block r = vc_block (snd s) /\ nth_error (se_conns (w_se (fst s))) (rf_index r) = Some c.
Proof.
  unfold deref. destruct (PeanoNat.Nat.eqb_spec (rf_block r) (vc_block (snd s))) as [E|E].
  - destruct (nth_error _ _); split; [intros H; injection H as ->; auto|intros [_ H]; injection H as ->; reflexivity|discriminate|intros [_ H]; discriminate].
  - split; [discriminate|intros [H _]; contradiction].
Qed.
Lemma ref_kept g ops : forall s rs s' r c, deref r s = Ret c -> v_exec g ops s = (rs, s') ->
  v_size s + creates ops <= vc_cap (snd s) -> closes_above (rf_index r) ops -> deref r s' = Ret c.
Proof.
  induction ops as [|o ops IH]; intros s rs s' r c D E S C.
  - injection E as <- <-. exact D.
  - rewrite v_exec_cons in E. rewrite creates_cons in S. inversion C as [|? ? C1 C2]; subst.
    unfold v_step in E. destruct (step o (fst s)) as [x w1] eqn:E1. pose proof (size_step _ _ _ _ E1) as Z.
    assert (V : vec_after g (len (se_conns (w_se w1))) (snd s) = snd s).
    { unfold vec_after. destruct (N.ltb_spec (vc_cap (snd s)) (len (se_conns (w_se w1)))); [|reflexivity]. unfold v_size in S. lia. }
    rewrite V in E.
    assert (D1 : deref r (w1, snd s) = Ret c).
    { apply deref_ret in D. destruct D as [B D]. apply deref_ret. split; [exact B|]. cbn [fst].
      eapply number_kept_step; [exact D| |exact E1]. unfold keeps_number. destruct o; auto. }
    assert (S1 : v_size (w1, snd s) + creates ops <= vc_cap (snd (w1, snd s))) by (unfold v_size in *; cbn [fst snd] in *; lia).
    destruct x; [| |injection E as <- <-; exact D1|injection E as <- <-; exact D1];
      destruct (v_exec g ops (w1, snd s)) as [rs2 s2] eqn:E2; injection E as <- <-; eapply IH; eassumption.
Qed.
Lemma ref_grow g a b s n s' r c : v_step g (OpCreate a b) s = (Ret n, s') -> v_size s = vc_cap (snd s) ->
  deref r s = Ret c -> deref r s' = Undef UseAfterFree /\ open_in c s'.
Proof.
  unfold v_step. destruct (step _ (fst s)) as [x w1] eqn:E1. intros E S D. injection E as -> <-.
  apply deref_ret in D. destruct D as [B D]. apply step_moved in E1. destruct E1 as (_ & _ & E1).
  destruct E1 as (_ & _ & _ & [(c' & _ & K & _)|(H & _)]); [|exfalso; apply H; eexists; reflexivity].
  split.
  - unfold deref, vec_after. cbn [fst snd]. unfold v_size in S. rewrite K, len_app. change (len [c']) with 1.
    destruct (N.ltb_spec (vc_cap (snd s)) (len (se_conns (w_se (fst s))) + 1)); [|lia]. cbn [vc_block].
    destruct (PeanoNat.Nat.eqb_spec (rf_block r) (Datatypes.S (vc_block (snd s)))); [lia|reflexivity].
  - unfold open_in. cbn [fst]. rewrite K. apply in_or_app. left. eapply nth_error_In. exact D.
Qed.
Lemma nth_remove_above {A} k : forall n (l : list A), (k <= n)%nat -> (k < List.length l)%nat -> nth_error (list_remove k l) n = nth_error l (S n).
Proof.
  induction k; intros n [|a l] L K; cbn [List.length] in K; try lia; cbn [list_remove nth_error]; [reflexivity|].
  destruct n; [lia|]. cbn [nth_error]. rewrite IHk by lia. reflexivity.
Qed.
Lemma in_remove {A} k : forall n (l : list A) c, (k < n)%nat -> nth_error l n = Some c -> In c (list_remove k l).
Proof.
  intros n l c L H. destruct n as [|n]; [lia|]. eapply (nth_error_In _ n). rewrite nth_remove_above; [exact H|lia|].
  apply nth_error_lt in H. lia.
Qed.
Lemma ref_shift g k s n s' r c : v_step g (OpCloseConnection k) s = (Ret n, s') -> v_size s <= vc_cap (snd s) ->
  deref r s = Ret c -> (N.to_nat k <= rf_index r)%nat ->
  deref r s' = match nth_error (se_conns (w_se (fst s))) (S (rf_index r)) with Some d => Ret d | None => Undef UseAfterFree end /\
  ((N.to_nat k < rf_index r)%nat -> open_in c s').
Proof.
  unfold v_step. destruct (step _ (fst s)) as [x w1] eqn:E1. intros E S D K. injection E as -> <-.
  apply deref_ret in D. destruct D as [B D]. apply step_moved in E1. destruct E1 as (_ & _ & E1).
  destruct E1 as [(_ & _ & W)|(H & _)]; [|exfalso; apply H; eexists; reflexivity].
 pose proof (remove_len (N.to_nat k) (se_conns (w_se (fst s)))) as RL.
  split.
  - unfold deref, vec_after. cbn [fst snd]. rewrite W. cbn [se_conns set_conns].
    unfold v_size in S. destruct (N.ltb_spec (vc_cap (snd s)) (len (list_remove (N.to_nat k) (se_conns (w_se (fst s)))))); [lia|].
    rewrite B, PeanoNat.Nat.eqb_refl. rewrite nth_remove_above; [reflexivity|exact K|]. apply nth_error_lt in D. lia.
  - intros L. unfold open_in. cbn [fst]. rewrite W. cbn [se_conns set_conns]. eapply in_remove; eassumption.
Qed.

(** ** C100 *)
Lemma payload_len m p bs : carries_opt m p bs -> match p with Some d => s_length d | None => Ret 0 end = Ret (len bs).
Proof. destruct p as [s|]; [intros [H _]; exact H|intros ->; reflexivity]. Qed.
Lemma p_edits_app a : forall b p, p_edits (a ++ b) p = obind (p_edits a p) (p_edits b).
Proof.
  induction a as [|e a IH]; intros b p; [reflexivity|]. cbn [List.app p_edits]. destruct (p_edit e p); cbn [obind]; auto.
Qed.
Definition of_header (cmd handle L : N) (p : encap_packet) : Prop := ep_header p = mkHdr (u16 cmd) L (u32 handle) 0 0 0 0.
Lemma edit_header cmd handle e p q L : of_header cmd handle L p -> p_edit e p = Ret q -> exists L', of_header cmd handle L' q.
Proof.
  unfold of_header. intros H E. destruct e as [d|d|]; cbn [p_edit] in E.
  - unfold ep_setPayload, ep_updateLength in E. cbn [ep_payload ep_set_payload_field] in E. destruct (opt_length d); cbn [obind] in E; try discriminate.
    injection E as <-. eexists. cbn [ep_set_header ep_set_payload_field ep_header]. rewrite H. reflexivity.
  - injection E as <-. exists L. destruct (ep_payload p); exact H.
  - unfold ep_updateLength in E. destruct (opt_length (ep_payload p)); cbn [obind] in E; try discriminate.
    injection E as <-. eexists. cbn [ep_set_header ep_header]. rewrite H. reflexivity.
Qed.
Lemma edits_header cmd handle es : forall p q L, of_header cmd handle L p -> p_edits es p = Ret q -> exists L', of_header cmd handle L' q.
Proof.
  induction es as [|e es IH]; intros p q L H E; cbn [p_edits] in E.
  - injection E as <-. exists L. exact H.
  - destruct (p_edit e p) as [p1| | |] eqn:E1; cbn [obind] in E; try discriminate.
    destruct (edit_header _ _ _ _ _ _ H E1) as [L1 H1]. eapply IH; eassumption.
Qed.
Lemma computed m cmd handle es e q bs : p_edits (es ++ [e]) (ep_make0 cmd handle) = Ret q -> computes_length e -> carries_opt m (ep_payload q) bs ->
  of_header cmd handle (u16 (len bs)) q.
Proof.
  intros E C K. rewrite p_edits_app in E. destruct (p_edits es (ep_make0 cmd handle)) as [p| | |] eqn:E1; cbn [obind] in E; try discriminate.
  destruct (edits_header cmd handle es (ep_make0 cmd handle) p 0 eq_refl E1) as [L H].
  destruct e as [d|d|]; [|contradiction|]; cbn [p_edits p_edit] in E.
  - unfold ep_setPayload, ep_updateLength in E. cbn [ep_payload ep_set_payload_field] in E.
    destruct (opt_length d) eqn:O; cbn [obind] in E; try discriminate. injection E as <-. cbn [ep_set_header ep_set_payload_field ep_payload] in K.
    rewrite (carries_opt_len _ _ _ K) in O. injection O as <-. unfold of_header in *. cbn [ep_set_header ep_set_payload_field ep_header]. rewrite H. reflexivity.
  - unfold ep_updateLength in E.
    destruct (opt_length (ep_payload p)) eqn:O; cbn [obind] in E; try discriminate. injection E as <-. cbn [ep_set_header ep_payload] in K.
    rewrite (carries_opt_len _ _ _ K) in O. injection O as <-. unfold of_header in *. cbn [ep_set_header ep_header]. rewrite H. reflexivity.
Qed.
Lemma changes_header cs : forall p q, Forall is_change cs -> p_edits cs p = Ret q -> ep_header q = ep_header p.
Proof.
  induction cs as [|e cs IH]; intros p q F E; cbn [p_edits] in E; [injection E as <-; reflexivity|].
  inversion F as [|? ? C F']; subst. destruct e; try contradiction. cbn [p_edit obind] in E. rewrite (IH _ _ F' E). destruct (ep_payload p); reflexivity.
Qed.
Lemma wire_of m cmd handle es e q bs cs p bs' : p_edits (es ++ [e]) (ep_make0 cmd handle) = Ret q -> computes_length e -> carries_opt m (ep_payload q) bs ->
  Forall is_change cs -> p_edits cs q = Ret p -> carries_opt m (ep_payload p) bs' ->
  carries m (ep_ser p) (header cmd (len bs) handle 0 0 0 0 ++ bs').
Proof.
  intros E C K F G K'. pose proof (computed _ _ _ _ _ _ _ E C K) as H. pose proof (changes_header _ _ _ F G) as H'. unfold of_header in H. rewrite H in H'.
  destruct p as [h d]. cbn [ep_header ep_payload] in *. subst h.
  eapply carries_eq; [|apply ep_carries; exact K']. cbn [h_command h_length h_session h_status h_ctx0 h_ctx1 h_options]. rewrite header_u. reflexivity.
Qed.
Lemma framed m cmd handle es e q bs cs p bs' : p_edits (es ++ [e]) (ep_make0 cmd handle) = Ret q -> computes_length e -> carries_opt m (ep_payload q) bs ->
  Forall is_change cs -> p_edits cs q = Ret p -> carries_opt m (ep_payload p) bs' -> len bs' = len bs ->
  carries m (ep_ser p) (frame cmd handle 0 0 0 0 bs').
Proof.
  intros E C K F G K' L. eapply carries_eq; [|eapply wire_of; eassumption]. unfold frame. rewrite L. reflexivity.
Qed.
Lemma fits0 : fits 4 0. Proof. unfold fits. reflexivity. Qed.
Lemma stale m cmd handle es e q bs cs p bs' : fits 2 cmd -> fits 4 handle ->
  p_edits (es ++ [e]) (ep_make0 cmd handle) = Ret q -> computes_length e -> carries_opt m (ep_payload q) bs -> len bs < 65536 ->
  Forall is_change cs -> p_edits cs q = Ret p -> carries_opt m (ep_payload p) bs' -> len bs' <> len bs ->
  exists wire, carries m (ep_ser p) wire /\ ~ frames_payload wire bs' /\
  forall mm v c p0, reads mm v wire ->
    (len bs < len bs' -> exists r pk, ep_deserialize mm (RBuf v c) p0 = (Ret tt, mm, r, pk) /\ holds mm (ep_payload pk) (take (len bs) bs')) /\
    (len bs' < len bs -> exists s r pk, ep_deserialize mm (RBuf v c) p0 = (Throw LengthError s, mm, r, pk)).
Proof.
  intros F1 F2 E C K B F G K' L. exists (header cmd (len bs) handle 0 0 0 0 ++ bs').
  split; [eapply wire_of; eassumption|]. pose proof fits0 as F0. apply fits2 in B.
  assert (U : forall a1 a2 a3 a4 a5 a6 pl rest, frame_fits a1 a2 a3 a4 a5 a6 pl ->
    header cmd (len bs) handle 0 0 0 0 ++ bs' = frame a1 a2 a3 a4 a5 a6 pl ++ rest -> len pl = len bs /\ bs' = pl ++ rest).
  { intros a1 a2 a3 a4 a5 a6 pl rest (H1 & H2 & H3 & H4 & H5 & H6 & H7) X. unfold frame in X. rewrite <- app_assoc in X.
    apply header_inj in X; try assumption; try (apply fits2; assumption). destruct X as [X Y]. injection X as _ X _ _ _ _ _. split; [symmetry; exact X|exact Y]. }
  split.
  - intros (a1 & a2 & a3 & a4 & a5 & a6 & H & X). rewrite <- (app_nil_r (frame _ _ _ _ _ _ _)) in X. destruct (U _ _ _ _ _ _ _ _ H X) as [Y _]. apply L. exact Y.
  - intros mm v c p0 R. destruct (packet_decode mm v c p0 _ R) as [(a1 & a2 & a3 & a4 & a5 & a6 & pl & rest & pk & H & X & D & _ & _ & HP)|(N1 & s & r & pk & D)].
    + destruct (U _ _ _ _ _ _ _ _ H X) as [Y Z]. split.
      * intros _. eexists. exists pk. split; [exact D|]. rewrite Z, <- Y, take_app_len. exact HP.
      * intros S. exfalso. apply (f_equal len) in Z. rewrite len_app in Z. lia.
    + split; [|intros _; do 3 eexists; exact D]. intros S. exfalso.
      apply (N1 cmd handle 0 0 0 0 (take (len bs) bs') (drop (len bs) bs')).
      * assert (T : len (take (len bs) bs') = len bs) by (rewrite len_take; lia).
        unfold frame_fits. rewrite T. repeat split; try assumption.
      * unfold frame. rewrite <- app_assoc, take_drop. do 2 f_equal. rewrite len_take. lia.
Qed.

(** ** As stated, and examples *)
Lemma take_kept g s n c : nth_error (se_conns (w_se (fst s))) (N.to_nat n) = Some c ->
  exists r, take_ref n s = Ret r /\ deref r s = Ret c /\
  forall ops rs s', v_exec g ops s = (rs, s') -> v_size s + creates ops <= vc_cap (snd s) -> closes_above (N.to_nat n) ops -> deref r s' = Ret c.
Proof.
  intros H. exists (mkRef (vc_block (snd s)) (N.to_nat n)). pose proof (nth_error_lt _ _ _ H) as L.
  assert (D : deref (mkRef (vc_block (snd s)) (N.to_nat n)) s = Ret c) by (apply deref_ret; split; [reflexivity|exact H]).
  split; [|split; [exact D|]].
  - unfold take_ref, v_size, len. destruct (N.ltb_spec n (N.of_nat (List.length (se_conns (w_se (fst s)))))); [reflexivity|lia].
  - intros ops rs s' E S C. eapply ref_kept; eassumption.
Qed.
Definition refs_start (cap : N) : vstate := (shift_world, mkVec 0 cap).
Definition after1 (cap : N) : vstate := snd (v_exec (fun n => 2 * n) [OpCreate ci0 ci0] (refs_start cap)).
Definition after2 (cap : N) : vstate := snd (v_exec (fun n => 2 * n) [OpCreate ci0 ci0; OpCreate ci0 ci0] (refs_start cap)).
Lemma kept_example : exists c rs s', nth_error (se_conns (w_se (fst (after1 2)))) 0 = Some c /\
  v_exec (fun n => 2 * n) [OpCreate ci0 ci0] (after1 2) = (rs, s') /\ rs = [Ret (RNumber 1)] /\
  v_size (after1 2) + creates [OpCreate ci0 ci0] <= vc_cap (snd (after1 2)) /\ v_size s' = 2 /\ cn_sn c = 7.
Proof. do 3 eexists. vm_compute. repeat split; discriminate || reflexivity. Qed.
Lemma grow_example : exists r c n s', take_ref 0 (after1 1) = Ret r /\ deref r (after1 1) = Ret c /\ v_size (after1 1) = vc_cap (snd (after1 1)) /\
  v_step (fun n => 2 * n) (OpCreate ci0 ci0) (after1 1) = (Ret n, s').
Proof. do 4 eexists. vm_compute. repeat split; reflexivity. Qed.
Lemma shift_example : exists r c n s', take_ref 1 (after2 2) = Ret r /\ deref r (after2 2) = Ret c /\ v_size (after2 2) <= vc_cap (snd (after2 2)) /\
  v_step (fun n => 2 * n) (OpCloseConnection 0) (after2 2) = (Ret n, s') /\ (N.to_nat 0 < rf_index r)%nat /\ deref r s' = Undef UseAfterFree.
Proof. do 4 eexists. vm_compute. repeat split; discriminate || reflexivity || lia. Qed.
Lemma lim_example : writes [] (s_serialize (prim_ser 4 0x01020304)) (le 4 0x01020304) /\
  s_serialize (prim_ser 4 0x01020304) [] (WLim [] 3 false) = (Ret tt, [], WLim [x04; x03; x02] 0 true).
Proof. split; [apply (proj2 (carries_prim [] 4 _))|vm_compute; reflexivity]. Qed.
Lemma framed_example : exists q p, p_edits ([PSet None; PChange (prim_ser 2 5)] ++ [PSet (Some (prim_ser 2 513))]) (ep_make0 0x6F 9) = Ret q /\
  carries_opt [] (ep_payload q) (le 2 513) /\ p_edits [PChange (prim_ser 2 7)] q = Ret p /\ carries_opt [] (ep_payload p) (le 2 7) /\
  runs_to (ep_ser p) (request 0x6F 9 (le 2 7)).
Proof.
  do 2 eexists. split; [reflexivity|]. split; [apply (carries_prim [] 2)|]. split; [reflexivity|]. split; [apply (carries_prim [] 2)|]. vm_compute. reflexivity.
Qed.
Lemma stale_example : exists q p, p_edits ([] ++ [PSet (Some (prim_ser 2 513))]) (ep_make0 0x6F 9) = Ret q /\
  carries_opt [] (ep_payload q) (le 2 513) /\ p_edits [PChange (prim_ser 4 7)] q = Ret p /\ carries_opt [] (ep_payload p) (le 4 7) /\
  runs_to (ep_ser p) (header 0x6F 2 9 0 0 0 0 ++ le 4 7).
Proof.
  do 2 eexists. split; [reflexivity|]. split; [apply (carries_prim [] 2)|]. split; [reflexivity|]. split; [apply (carries_prim [] 4)|]. vm_compute. reflexivity.
Qed.
