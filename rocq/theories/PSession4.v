(** Corollaries of the session lemmas, in the form the properties need. *)
From Verif Require Export PHistory2 PWitness2.

(** ** Opening *)
Lemma open_spec w h p q o w' : rbuf_ok w -> session_open h p q w = (o, w') -> open_spec_at w h p q o w'.
Proof. intros R E. destruct (session_open_spec w h p q R) as (o1 & w1 & E1 & S). rewrite E1 in E. injection E as <- <-. exact S. Qed.
Lemma events_reply k bs got : reply_of k bs = Reply got -> exists n, events k bs = [ESend Ctl bs (Some n); ERecv Ctl (Some got)].
Proof.
  unfold reply_of, events, talk. destruct (sent k bs) as [n|]; [|discriminate]. destruct (so_recv k) as [|[d|] r]; try discriminate.
  cbn. intros E. injection E as <-. exists n. reflexivity.
Qed.
Lemma open_returns w h p q w' : rbuf_ok w -> session_open h p q w = (Ret tt, w') ->
  exists n got ses payload,
    w_net w' = w_net w ++ [EOpen Ctl h p true; EOpen Io h q true;
                           ESend Ctl (request 0x65 0 (registration 1 0)) (Some n); ERecv Ctl (Some got)] /\
    reply_frame got 0x65 ses payload /\
    (se_id (w_se w) = 0 -> ses <> 0) /\ (se_id (w_se w) <> 0 -> ses = se_id (w_se w)) /\
    (4 <= len payload -> exists options rest, payload = registration 1 options ++ rest) /\
    w_se w' = mkSess ses (se_vendor (w_se w)) (se_serial (w_se w)) (se_next_sn (w_se w)) (se_next_id (w_se w)) (se_conns (w_se w)).
Proof.
  intros R E. destruct (open_spec _ _ _ _ _ _ R E) as (_ & _ & _ & S).
  destruct (open_fails (w_ctl w)); [destruct S as (_ & [? S] & _); discriminate|].
  destruct (open_fails (w_io w)); [destruct S as (_ & [? S] & _); discriminate|].
  destruct S as (tail & O & N1). unfold open_outcome in O.
  destruct (reply_of (w_ctl w) register_request) as [| | |got] eqn:Er;
    [destruct O as ([? O] & _); discriminate|destruct O as (O & _); discriminate|destruct O as ([? O] & _); discriminate|].
  destruct O as [(ses & G & _ & -> & Se)|[(_ & O & _)|(_ & _ & _ & _ & O)]]; [|discriminate|destruct (closed _ _); destruct O as [? O]; discriminate].
  destruct (events_reply _ _ _ Er) as [n Ev]. destruct G as (payload & F & Mt & Np & V).
  exists n, got, ses, payload. rewrite N1, Ev. split; [reflexivity|]. split; [assumption|].
  split; [intros Z; destruct Mt as [[_ ?]|[? _]]; congruence|]. split; [intros Z; destruct Mt as [[? _]|[_ ?]]; congruence|].
  split; [intros L; destruct V as [V|V]; [lia|exact V]|]. exact Se.
Qed.
Lemma open_rejected w h p q got o w' : rbuf_ok w -> open_fails (w_ctl w) = false -> open_fails (w_io w) = false ->
  close_fails (w_ctl w) = false -> close_fails (w_io w) = false ->
  reply_of (w_ctl w) register_request = Reply got -> session_open h p q w = (o, w') ->
  o = Ret tt \/ (registers_empty (se_id (w_se w)) got /\ o = Undef NullDeref) \/
  ((exists s, o = Throw RuntimeError s) /\ w_se w' = w_se w /\
   exists n, w_net w' = w_net w ++ [EOpen Ctl h p true; EOpen Io h q true; ESend Ctl register_request (Some n); ERecv Ctl (Some got);
                                    EClose Ctl true; EClose Io true]).
Proof.
  intros R O1 O2 C1 C2 Er E. destruct (open_spec _ _ _ _ _ _ R E) as (_ & _ & _ & S). rewrite O1, O2 in S.
  destruct S as (tail & O & N1). unfold open_outcome in O. rewrite Er in O.
  destruct O as [(ses & G & -> & _)|[(G & -> & _)|(_ & _ & Se & -> & O)]]; [left; reflexivity|right; left; auto|].
  right; right. unfold closed in O. unfold closing in N1. rewrite C1, C2 in *. cbn [negb andb] in *.
  destruct (events_reply _ _ _ Er) as [n Ev]. split; [exact O|]. split; [assumption|]. exists n. rewrite N1, Ev. reflexivity.
Qed.
Lemma registers_short id got : forall ses payload, reply_frame got 0x65 ses payload -> matches id ses -> 0 < len payload < 4 -> registers id got ses.
Proof. intros ses payload F M L. exists payload. split; [assumption|]. split; [assumption|]. split; [intros ->; change (len (@nil byte)) with 0 in L; lia|]. left. lia. Qed.

(** ** Requests that do not fit *)
Lemma request_oversize cmd id payload : fits 2 cmd -> fits 4 id -> 65536 <= len payload ->
  exists short rest, frame_fits cmd id 0 0 0 0 short /\ request cmd id payload = frame cmd id 0 0 0 0 short ++ rest /\ rest <> [] /\ short <> payload.
Proof.
  intros C I L. exists (take (len payload mod 65536) payload), (drop (len payload mod 65536) payload).
  assert (M : len payload mod 65536 < 65536) by (apply N.mod_lt; lia).
  split.
  { unfold frame_fits. repeat split; try assumption; try reflexivity. rewrite len_take. lia. }
  split.
  { unfold request, frame. rewrite <- app_assoc, take_drop. f_equal. unfold header. rewrite len_take, N.min_l by lia.
    do 1 f_equal. f_equal. change 65536 with (256 ^ N.of_nat 2). rewrite le_mod. reflexivity. }
  split.
  - intros Z. apply (f_equal len) in Z. rewrite len_drop, len_nil in Z. lia.
  - intros Z. apply (f_equal len) in Z. rewrite len_take in Z. lia.
Qed.

(** ** Another service's reply *)
Lemma wrong_service_get w k junk c i a got sv ad v rest : rbuf_ok w -> c < 256 -> i < 256 -> a < 256 -> fits k v -> k <> O ->
  reply_of (w_ctl w) (get_request (se_id (w_se w)) c i a) = Reply got ->
  answers (se_id (w_se w)) got sv 0 ad (le k v ++ rest) ->
  exists w', getSingleAttribute k junk c i a w = (Ret v, w').
Proof.
  intros R Hc Hi Ha F K Er A. destruct (get_attribute w k junk c i a R Hc Hi Ha) as (o & w' & E & _ & O). rewrite Er in O.
  assert (N1 : le k v ++ rest <> []) by (destruct k; [contradiction|discriminate]).
  assert (U : forall sv' ad' d', answers (se_id (w_se w)) got sv' 0 ad' d' -> d' = le k v ++ rest).
  { intros sv' ad' d' (ses & pl & F1 & _ & A1). destruct A as (ses0 & pl0 & F0 & _ & A0).
    destruct (reply_frame_inj _ _ _ _ _ _ _ F1 F0) as (_ & _ & ->). destruct (rr_reply_inj _ _ _ _ _ _ _ _ _ A1 A0) as (_ & _ & _ & ->). reflexivity. }
  destruct O as [(sv' & ad' & v' & rest' & A' & F' & _ & ->)|[(sv' & ad' & d' & s & A' & L & _)|[([C|(sv' & ad' & A')] & _)|(O & _)]]].
  - apply U in A'. exists w'. rewrite E. f_equal. f_equal.
    apply (f_equal (take (N.of_nat k))) in A'. rewrite !take_app in A' by apply len_le.
    rewrite <- (num_le k v F), <- (num_le k v' F'), A'. reflexivity.
  - apply U in A'. subst d'. exfalso. rewrite len_app, len_le in L. lia.
  - exfalso. exact (answers_not_crash _ _ _ _ _ _ A C).
  - apply U in A'. congruence.
  - exfalso. exact (O _ _ _ A).
Qed.
