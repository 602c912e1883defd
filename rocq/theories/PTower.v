(** Items sequenced more than once. *)
From Verif Require Export Vocab29 PMemory.

Lemma tw_level_mid {T} pre l post (b : T) : tw_level (List.length pre) (mkTow (pre ++ l :: post) b) = l.
Proof. unfold tw_level. cbn [tw_levels]. apply nth_middle. Qed.
Lemma tw_put_mid {T} pre l l' post (b : T) : tw_put_level (List.length pre) l' (mkTow (pre ++ l :: post) b) = mkTow (pre ++ l' :: post) b.
Proof.
  unfold tw_put_level. cbn [tw_levels tw_data]. f_equal. induction pre as [|x pre IH]; [reflexivity|].
  cbn [List.length List.app list_set]. rewrite IH. reflexivity.
Qed.

(** Reading numbers one after the other takes a reader from [r] to [r']. *)
Fixpoint takes (m : heap) (r : reader) (ns : list N) (r' : reader) : Prop :=
  match ns with
  | [] => r' = r
  | n :: ns' => exists r1, (forall U get set (t : U), rd_uint 2 get set m r t = (Ret tt, m, r1, set n t)) /\ takes m r1 ns' r'
  end.
Lemma numbers_len ns : len (numbers ns) = 2 * len ns.
Proof. induction ns as [|n ns IH]; [reflexivity|]. unfold numbers in *. cbn [flat_map]. rewrite len_app, len_le, IH, len_cons. lia. Qed.
Lemma takes_buffer m ns : forall v cnt rest, Forall (fits 2) ns -> reads m v (numbers ns ++ rest) ->
  takes m (RBuf v cnt) ns (RBuf (view_drop v (2 * len ns)) (cnt + 2 * len ns)).
Proof.
  induction ns as [|n ns IH]; intros v cnt rest F R.
  - cbn [takes]. change (2 * len (@nil N)) with 0. rewrite view_drop_0, N.add_0_r. reflexivity.
  - inversion F; subst. cbn [takes]. unfold numbers in R. cbn [flat_map] in R. rewrite <- app_assoc in R.
    exists (RBuf (view_drop v 2) (cnt + 2)). split.
    { intros. destruct (integers 2 n H1) as (_ & _ & G & _). exact (G _ _ _ _ _ _ _ _ R). }
    apply reads_drop with (n := 2) in R. rewrite drop_app in R by (rewrite len_le; reflexivity).
    specialize (IH _ (cnt + 2) _ H2 R). rewrite view_drop_drop in IH. rewrite len_cons.
    replace (2 * (1 + len ns)) with (2 + 2 * len ns) by lia. replace (cnt + (2 + 2 * len ns)) with (cnt + 2 + 2 * len ns) by lia. exact IH.
Qed.
Lemma takes_stream m ns d : forall p rest, Forall (fits 2) ns -> drop p d = numbers ns ++ rest ->
  takes m (RStr d p false) ns (RStr d (p + 2 * len ns) false).
Proof.
  induction ns as [|n ns IH]; intros p rest F R.
  - cbn [takes]. change (2 * len (@nil N)) with 0. rewrite N.add_0_r. reflexivity.
  - inversion F; subst. cbn [takes]. unfold numbers in R. cbn [flat_map] in R. rewrite <- app_assoc in R.
    exists (RStr d (p + 2) false). split.
    { intros. destruct (integers 2 n H1) as (_ & _ & _ & G). exact (G _ _ _ _ _ _ _ _ R). }
    assert (R2 : drop (p + 2) d = numbers ns ++ rest).
    { rewrite <- drop_drop, R. apply drop_app. rewrite len_le. reflexivity. }
    specialize (IH _ _ H2 R2). rewrite len_cons. replace (p + 2 * (1 + len ns)) with (p + 2 + 2 * len ns) by lia. exact IH.
Qed.

(** ** deserialize(reader) *)
Lemma tw_des_busy {T} (c : cls T) : forall suf pre b0 m r, Forall (fun l => lv_busy l = true) suf ->
  tw_deserialize_at c (List.length pre) (List.length suf) m r (mkTow (pre ++ suf) b0) = dzoom tw_data tw_put_data (c_des c) m r (mkTow (pre ++ suf) b0).
Proof.
  induction suf as [|l suf IH]; intros pre b0 m r F; [reflexivity|]. inversion F; subst.
  cbn [List.length tw_deserialize_at]. unfold dbind at 1, dget. rewrite tw_level_mid, H1.
  specialize (IH (pre ++ [l]) b0 m r H2). rewrite app_length, PeanoNat.Nat.add_1_r in IH. rewrite <- app_assoc in IH. exact IH.
Qed.
Lemma tw_des {T} (c : cls T) m : forall ns olds pre b0 r r' o m' r'' b, List.length olds = List.length ns -> takes m r ns r' ->
  c_des c m r' b0 = (o, m', r'', b) ->
  tw_deserialize_at c (List.length pre) (List.length ns) m r (mkTow (pre ++ idle olds) b0) = (o, m', r'', mkTow (pre ++ left_as o ns) b).
Proof.
  induction ns as [|n ns IH]; intros olds pre b0 r r' o m' r'' b L R E.
  - destruct olds; [|discriminate]. cbn [takes] in R. subst r'. cbn [List.length tw_deserialize_at]. unfold dzoom. cbn [tw_data]. rewrite E.
    unfold tw_put_data. cbn [tw_levels]. destruct o; reflexivity.
  - destruct olds as [|n0 olds]; [discriminate|]. cbn [takes] in R. destruct R as (r1 & R1 & R).
    cbn [List.length tw_deserialize_at idle map]. unfold dbind, dget. rewrite tw_level_mid. cbn [lv_busy]. rewrite R1.
    unfold dmod. unfold tw_put_num, tw_put_busy. rewrite !tw_level_mid, tw_put_mid. cbn [lv_busy lv_num]. rewrite tw_level_mid, tw_put_mid. cbn [lv_num].
    injection L as L. specialize (IH olds (pre ++ [mkLv n true]) b0 r1 r' o m' r'' b L R E).
    rewrite app_length, PeanoNat.Nat.add_1_r in IH. rewrite <- !app_assoc in IH. cbn [List.app] in IH. unfold idle in IH. rewrite IH.
    destruct o as [[]|e s|u|]; try reflexivity. rewrite tw_level_mid, tw_put_mid. reflexivity.
Qed.
Lemma sublen n : 2 <= n -> n < 18446744073709551616 -> sq_sublen n = n - 2.
Proof.
  intros. unfold sq_sublen, u64. replace (n + 18446744073709551616 - 2) with (n - 2 + 1 * 18446744073709551616) by lia.
  rewrite N.mod_add by lia. apply N.mod_small. lia.
Qed.
(** ** deserialize(reader, length) *)
(** What T does when told [n] as part of an object that is [k] bytes longer. *)
Definition told_len {T} (c : cls T) (k n : N) : D T unit :=
  match c_deslen c with
  | DLDirect f => f n
  | DLVirtual check => match check k n with Some (e, s) => dthrow e s | None => c_des c end
  end.
Lemma told_own {T} (c : cls T) k n : own_length c -> told_len c k n = deserialize_len c n.
Proof. unfold own_length, told_len, deserialize_len. destruct (c_deslen c) as [g|check]; [reflexivity|]. intros OL. rewrite (OL k n). reflexivity. Qed.
Lemma tw_told {T} (c : cls T) m : forall ns olds pre b0 r r' n o m' r'' b, List.length olds = List.length ns -> takes m r ns r' ->
  Forall (fun l => lv_busy l = true) pre -> 2 * len ns <= n -> n < 18446744073709551616 ->
  told_len c (2 * N.of_nat (List.length pre + List.length ns)) (n - 2 * len ns) m r' b0 = (o, m', r'', b) ->
  tw_deserialize_len_at c (List.length pre + List.length ns) (List.length pre) (List.length ns) n m r (mkTow (pre ++ idle olds) b0) = (o, m', r'', mkTow (pre ++ left_as o ns) b).
Proof.
  induction ns as [|k ns IH]; intros olds pre b0 r r' n o m' r'' b L R P N1 N2 E.
  - destruct olds; [|discriminate]. cbn [takes] in R. subst r'. change (2 * len (@nil N)) with 0 in E. rewrite N.sub_0_r in E.
    cbn [List.length tw_deserialize_len_at idle map] in *. rewrite PeanoNat.Nat.add_0_r in *. unfold told_len in E.
    destruct (c_deslen c) as [g|check].
    + unfold dzoom. cbn [tw_data]. rewrite E. unfold tw_put_data. cbn [tw_levels]. destruct o; reflexivity.
    + destruct (check (2 * N.of_nat (List.length pre)) n) as [[e s]|].
      * unfold dthrow in *. injection E as <- <- <- <-. reflexivity.
      * unfold tw_deserialize. rewrite app_nil_r. pose proof (tw_des_busy c pre [] b0 m r P) as X. cbn [List.length List.app] in X. rewrite X.
        unfold dzoom. cbn [tw_data]. rewrite E. unfold tw_put_data. cbn [tw_levels]. destruct o; cbn [left_as idle stale map]; rewrite app_nil_r; reflexivity.
  - destruct olds as [|n0 olds]; [discriminate|]. cbn [takes] in R. destruct R as (r1 & R1 & R). rewrite len_cons in N1, E.
    cbn [List.length] in E. rewrite PeanoNat.Nat.add_succ_r in E.
    cbn [List.length tw_deserialize_len_at idle map]. unfold dbind, dget. rewrite tw_level_mid. cbn [lv_busy]. rewrite R1.
    unfold dmod. unfold tw_put_num, tw_put_busy. rewrite !tw_level_mid, tw_put_mid. cbn [lv_busy lv_num]. rewrite tw_level_mid, tw_put_mid. cbn [lv_num].
    injection L as L. rewrite sublen by lia.
    assert (P' : Forall (fun l => lv_busy l = true) (pre ++ [mkLv k true])) by (apply Forall_app; split; [exact P|constructor; [reflexivity|constructor]]).
    specialize (IH olds (pre ++ [mkLv k true]) b0 r1 r' (n - 2) o m' r'' b L R P' ltac:(lia) ltac:(lia)).
    rewrite app_length, PeanoNat.Nat.add_1_r in IH. rewrite <- !app_assoc in IH. cbn [List.app] in IH. unfold idle in IH.
    rewrite PeanoNat.Nat.add_succ_r. rewrite PeanoNat.Nat.add_succ_l in IH. rewrite IH.
    + destruct o as [[]|e s|u|]; try reflexivity. rewrite tw_level_mid, tw_put_mid. reflexivity.
    + rewrite <- E. f_equal. lia.
Qed.
Lemma tw_deslen {T} (c : cls T) m : own_length c -> forall ns olds b0 r r' n o m' r'' b, List.length olds = List.length ns -> takes m r ns r' ->
  2 * len ns <= n -> n < 18446744073709551616 -> deserialize_len c (n - 2 * len ns) m r' b0 = (o, m', r'', b) ->
  tw_deserialize_len_at c (List.length ns) 0 (List.length ns) n m r (mkTow (idle olds) b0) = (o, m', r'', mkTow (left_as o ns) b).
Proof.
  intros OL ns olds b0 r r' n o m' r'' b L K H1 H2 E. rewrite <- (told_own c (2 * N.of_nat (List.length ns)) _ OL) in E.
  exact (tw_told c m ns olds [] b0 r r' n o m' r'' b L K (Forall_nil _) H1 H2 E).
Qed.

Lemma tower_buffer {T} (c : cls T) m v cnt b0 olds ns rest : List.length olds = List.length ns -> Forall (fits 2) ns -> reads m v (numbers ns ++ rest) ->
  let r0 := RBuf (view_drop v (2 * len ns)) (cnt + 2 * len ns) in
  (forall o m' r b, c_des c m r0 b0 = (o, m', r, b) ->
     c_des (tw_cls c (List.length ns)) m (RBuf v cnt) (mkTow (idle olds) b0) = (o, m', r, mkTow (left_as o ns) b)) /\
  (forall n o m' r b, own_length c -> 2 * len ns <= n -> n < 2 ^ 64 -> deserialize_len c (n - 2 * len ns) m r0 b0 = (o, m', r, b) ->
     deserialize_len (tw_cls c (List.length ns)) n m (RBuf v cnt) (mkTow (idle olds) b0) = (o, m', r, mkTow (left_as o ns) b)).
Proof.
  intros L F R r0. pose proof (takes_buffer m ns v cnt rest F R) as K. split.
  - intros o m' r b E. exact (tw_des c m ns olds [] b0 _ _ o m' r b L K E).
  - intros n o m' r b OL H1 H2 E. exact (tw_deslen c m OL ns olds b0 _ _ n o m' r b L K H1 H2 E).
Qed.
Lemma tower_stream {T} (c : cls T) m d p b0 olds ns rest : List.length olds = List.length ns -> Forall (fits 2) ns -> drop p d = numbers ns ++ rest ->
  let r0 := RStr d (p + 2 * len ns) false in
  (forall o m' r b, c_des c m r0 b0 = (o, m', r, b) ->
     c_des (tw_cls c (List.length ns)) m (RStr d p false) (mkTow (idle olds) b0) = (o, m', r, mkTow (left_as o ns) b)) /\
  (forall n o m' r b, own_length c -> 2 * len ns <= n -> n < 2 ^ 64 -> deserialize_len c (n - 2 * len ns) m r0 b0 = (o, m', r, b) ->
     deserialize_len (tw_cls c (List.length ns)) n m (RStr d p false) (mkTow (idle olds) b0) = (o, m', r, mkTow (left_as o ns) b)).
Proof.
  intros L F R r0. pose proof (takes_stream m ns d p rest F R) as K. split.
  - intros o m' r b E. exact (tw_des c m ns olds [] b0 _ _ o m' r b L K E).
  - intros n o m' r b OL H1 H2 E. exact (tw_deslen c m OL ns olds b0 _ _ n o m' r b L K H1 H2 E).
Qed.
Lemma tower_encode m ls s bs : carries m s bs -> carries m (tw_ser ls s) (numbers (map lv_num ls) ++ bs).
Proof.
  intros C. induction ls as [|l ls IH]; [exact C|]. cbn [tw_ser fold_right map]. unfold numbers. cbn [flat_map]. rewrite <- app_assoc.
  apply sq_carries. exact IH.
Qed.

(** ** After a failure *)
Lemma tower_stale {T} (c : cls T) ns m r b0 o m' r' b : c_des c m r b0 = (o, m', r', b) ->
  c_des (tw_cls c (List.length ns)) m r (mkTow (stale ns) b0) = (o, m', r', mkTow (stale ns) b).
Proof.
  intros E. cbn [c_des tw_cls]. unfold tw_deserialize. replace (List.length ns) with (List.length (stale ns)) by apply map_length.
  pose proof (tw_des_busy c (stale ns) [] b0 m r) as X. cbn [List.length List.app] in X. rewrite X.
  - unfold dzoom. cbn [tw_data]. rewrite E. reflexivity.
  - apply Forall_forall. intros l I. apply in_map_iff in I. destruct I as (n & <- & _). reflexivity.
Qed.
(** Too short for all numbers. *)
Lemma tower_short {T} (c : cls T) m v cnt b0 olds0 olds1 ns short : List.length olds0 = List.length ns -> olds1 <> [] -> Forall (fits 2) ns ->
  reads m v (numbers ns ++ short) -> len short < 2 ->
  exists s r, c_des (tw_cls c (List.length (olds0 ++ olds1))) m (RBuf v cnt) (mkTow (idle (olds0 ++ olds1)) b0) = (Throw LengthError s, m, r, mkTow (stale ns ++ idle olds1) b0).
Proof.
  intros L O F R S. pose proof (takes_buffer m ns v cnt short F R) as K. pose proof (reads_len _ _ _ R) as RL. rewrite len_app, numbers_len in RL.
  set (v1 := view_drop v (2 * len ns)) in *.
  assert (S1 : forall U get set (t : U), rd_uint 2 get set m (RBuf v1 (cnt + 2 * len ns)) t = (Throw LengthError "Buffer too small to deserialize value", m, RBuf v1 (cnt + 2 * len ns), t)).
  { intros. unfold rd_uint, rd_raw. change (N.of_nat 2) with 2. subst v1. cbn [v_len view_drop]. destruct (N.ltb_spec (v_len v - N.min (v_len v) (2 * len ns)) 2); [reflexivity|lia]. }
  destruct olds1 as [|x olds1]; [contradiction|]. do 2 eexists. cbn [c_des tw_cls]. unfold tw_deserialize.
  assert (H : forall ns olds0 pre r rr, takes m r ns rr -> List.length olds0 = List.length ns ->
    (forall U get set (t : U), rd_uint 2 get set m rr t = (Throw LengthError "Buffer too small to deserialize value", m, rr, t)) ->
    tw_deserialize_at c (List.length pre) (List.length (olds0 ++ x :: olds1)) m r (mkTow (pre ++ idle (olds0 ++ x :: olds1)) b0)
    = (Throw LengthError "Buffer too small to deserialize value", m, rr, mkTow (pre ++ stale ns ++ idle (x :: olds1)) b0)).
  { clear. induction ns as [|n ns IH]; intros olds0 pre r rr K L S1.
  - destruct olds0; [|discriminate]. cbn [takes] in K. subst rr. cbn [List.app List.length tw_deserialize_at idle map stale]. unfold dbind, dget. rewrite tw_level_mid.
    cbn [lv_busy]. rewrite S1. reflexivity.
  - destruct olds0 as [|y olds0]; [discriminate|]. cbn [takes] in K. destruct K as (r1 & R1 & K). injection L as L.
    cbn [List.app List.length tw_deserialize_at idle map stale]. unfold dbind, dget. rewrite tw_level_mid. cbn [lv_busy]. rewrite R1.
    unfold dmod. unfold tw_put_num, tw_put_busy. rewrite !tw_level_mid, tw_put_mid. cbn [lv_busy lv_num]. rewrite tw_level_mid, tw_put_mid. cbn [lv_num].
    specialize (IH olds0 (pre ++ [mkLv n true]) r1 rr K L S1).
    rewrite app_length, PeanoNat.Nat.add_1_r in IH. rewrite <- !app_assoc in IH. cbn [List.app] in IH. unfold idle, stale in IH. rewrite IH. reflexivity. }
  exact (H ns olds0 [] _ _ K L S1).
Qed.
(** One level is the item of Serial.v. *)
Definition as_tower {T} (q : seqitem T) : tower T := mkTow [mkLv (sq_num q) (sq_busy q)] (sq_base q).
Definition matched {T} (x : outcome unit * heap * reader * seqitem T) (y : outcome unit * heap * reader * tower T) : Prop :=
  match x with (o, m, r, q) => y = (o, m, r, as_tower q) end.
Lemma matched_bind {T} (x x' : D (seqitem T) unit) (y y' : D (tower T) unit) m r q :
  matched (x m r q) (y m r (as_tower q)) -> (forall m r q, matched (x' m r q) (y' m r (as_tower q))) ->
  matched (dbind x (fun _ => x') m r q) (dbind y (fun _ => y') m r (as_tower q)).
Proof.
  intros A B. unfold dbind. unfold matched in A. destruct (x m r q) as [[[o m1] r1] q1]. rewrite A.
  destruct o as [[]|e s|u|]; [apply B|reflexivity|reflexivity|reflexivity].
Qed.
Lemma matched_num {T} m r (q : seqitem T) : matched (rd_uint 2 sq_num sq_put_num m r q) (rd_uint 2 (tw_num 0) (tw_put_num 0) m r (as_tower q)).
Proof.
  unfold rd_uint, rd_raw, matched. destruct r as [v c|d p f].
  - destruct (v_len v <? N.of_nat 2); [reflexivity|]. destruct (load m (v_blk v) (v_off v) (N.of_nat 2)); reflexivity.
  - destruct (str_read d p f (N.of_nat 2)). reflexivity.
Qed.
Lemma matched_base {T} (x : D T unit) m r (q : seqitem T) : matched (on_base x m r q) (dzoom tw_data tw_put_data x m r (as_tower q)).
Proof. unfold on_base, dzoom, matched. cbn [tw_data as_tower]. destruct (x m r (sq_base q)) as [[[o m'] r'] b]. reflexivity. Qed.
Lemma matched_busy {T} f m r (q : seqitem T) : matched (dmod (sq_put_busy f) m r q) (dmod (tw_put_busy 0 f) m r (as_tower q)).
Proof. reflexivity. Qed.
Lemma matched_des {T} (c : cls T) m r q : matched (sq_deserialize c m r q) (tw_deserialize c 1 m r (as_tower q)).
Proof.
  unfold sq_deserialize, tw_deserialize. cbn [tw_deserialize_at]. unfold dbind at 1, dget at 1. unfold dbind at 4, dget at 1.
  change (lv_busy (tw_level 0 (as_tower q))) with (sq_busy q). destruct (sq_busy q); [apply matched_base|].
  apply matched_bind; [apply matched_num|]. intros. apply matched_bind; [apply matched_busy|]. intros.
  apply matched_bind; [apply matched_base|]. intros. apply matched_busy.
Qed.
Lemma matched_deslen {T} (c : cls T) n m r q : matched (sq_deserialize_len c n m r q) (tw_deserialize_len_at c 1 0 1 n m r (as_tower q)).
Proof.
  unfold sq_deserialize_len. cbn [tw_deserialize_len_at]. unfold dbind at 1, dget at 1. unfold dbind at 4, dget at 1.
  assert (B : forall k m r q, matched (sq_base_deslen c k m r q) (match c_deslen c with
         | DLDirect f => dzoom tw_data tw_put_data (f k)
         | DLVirtual check => match check (2 * N.of_nat 1) k with Some (e, s) => dthrow e s | None => tw_deserialize c 1 end
         end m r (as_tower q))).
  { clear. intros. unfold sq_base_deslen. destruct (c_deslen c) as [f|check]; [apply matched_base|].
    change (2 * N.of_nat 1) with 2. destruct (check 2 k) as [[e s]|]; [reflexivity|apply matched_des]. }
  change (lv_busy (tw_level 0 (as_tower q))) with (sq_busy q). destruct (sq_busy q); [apply B|].
  apply matched_bind; [apply matched_num|]. intros. apply matched_bind; [apply matched_busy|]. intros.
  apply matched_bind; [apply B|]. intros. apply matched_busy.
Qed.
Lemma tower_one {T} (c : cls T) q m r :
  (forall o m' r' q', c_des (sq_cls c) m r q = (o, m', r', q') ->
     c_des (tw_cls c 1) m r (mkTow [mkLv (sq_num q) (sq_busy q)] (sq_base q)) = (o, m', r', mkTow [mkLv (sq_num q') (sq_busy q')] (sq_base q'))) /\
  (forall n o m' r' q', deserialize_len (sq_cls c) n m r q = (o, m', r', q') ->
     deserialize_len (tw_cls c 1) n m r (mkTow [mkLv (sq_num q) (sq_busy q)] (sq_base q)) = (o, m', r', mkTow [mkLv (sq_num q') (sq_busy q')] (sq_base q'))).
Proof.
  split.
  - intros o m' r' q' E. pose proof (matched_des c m r q) as X. cbn [c_des sq_cls] in E. rewrite E in X. exact X.
  - intros n o m' r' q' E. pose proof (matched_deslen c n m r q) as X. unfold deserialize_len in E. cbn [c_deslen sq_cls] in E. rewrite E in X. exact X.
Qed.

(** A header accepts the length that counts every number twice and no other. *)
Lemma tower_header m v cnt b0 olds ns cmd n ses st c0 c1 o told : List.length olds = List.length ns -> Forall (fits 2) ns ->
  2 * len ns <= told -> told < 2 ^ 64 ->
  reads m v (numbers ns ++ header cmd n ses st c0 c1 o) -> fits 2 cmd -> fits 2 n -> fits 4 ses -> fits 4 st -> fits 4 c0 -> fits 4 c1 -> fits 4 o ->
  let res := deserialize_len (tw_cls hdr_cls (List.length ns)) told m (RBuf v cnt) (mkTow (idle olds) b0) in
  (told = 24 + 4 * len ns -> exists r, res = (Ret tt, m, r, mkTow (idle ns) (mkHdr cmd n ses st c0 c1 o))) /\
  (told <> 24 + 4 * len ns -> exists s r, res = (Throw LengthError s, m, r, mkTow (stale ns) b0)).
Proof.
  intros L F T1 T2 R F1 F2 F3 F4 F5 F6 F7 res. pose proof (takes_buffer m ns v cnt _ F R) as K.
  assert (R0 : reads m (view_drop v (2 * len ns)) (header cmd n ses st c0 c1 o ++ [])).
  { rewrite app_nil_r. apply reads_drop with (n := 2 * len ns) in R. rewrite drop_app in R by (apply numbers_len). exact R. }
  assert (G : forall o m' r b, told_len hdr_cls (2 * N.of_nat (List.length ns)) (told - 2 * len ns) m (RBuf (view_drop v (2 * len ns)) (cnt + 2 * len ns)) b0 = (o, m', r, b) ->
    res = (o, m', r, mkTow (left_as o ns) b)).
  { intros o' m' r b E. exact (tw_told hdr_cls m ns olds [] b0 _ _ told o' m' r b L K (Forall_nil _) T1 T2 E). }
  unfold told_len in G. cbn [c_deslen c_des hdr_cls] in G. unfold hdr_check in G. change hdr_getLength with 24 in G. fold (len ns) in G. split.
  - intros E. destruct (N.eqb_spec (24 + 2 * len ns) (told - 2 * len ns)) as [_|X]; [|lia].
    eexists. apply G. eapply hdr_roundtrip; eassumption.
  - intros E. destruct (N.eqb_spec (24 + 2 * len ns) (told - 2 * len ns)) as [X|_]; [lia|]. do 2 eexists. apply G. reflexivity.
Qed.

Lemma tower_history : exists m v1 v2 s m1 r1 t t1 t2,
  c_des (tw_cls (prim_cls 2) 2) m (RBuf v1 0) (tw_make 2 0 0) = (Throw LengthError s, m1, r1, t) /\
  (exists m2 r2, c_des (tw_cls (prim_cls 2) 2) m (RBuf v2 0) (tw_make 2 0 0) = (Ret tt, m2, r2, t1) /\ map lv_num (tw_levels t1) = [1; 2] /\ tw_data t1 = 7) /\
  (exists m2 r2, c_des (tw_cls (prim_cls 2) 2) m1 (RBuf v2 0) t = (Ret tt, m2, r2, t2) /\ map lv_num (tw_levels t2) = [5; 1] /\ tw_data t2 = 2).
Proof.
  exists [Some (le 2 5); Some (le 2 1 ++ le 2 2 ++ le 2 7)], (mkV 0 0 2), (mkV 1 0 6). do 6 eexists. split; [vm_compute; reflexivity|].
  split; do 2 eexists; split; [vm_compute; reflexivity|split; reflexivity|vm_compute; reflexivity|split; reflexivity].
Qed.
