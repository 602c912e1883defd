(** * PSent: proofs for C131. *)
From Verif Require Import Vocab34 PCopies PEnc.
Local Open Scope N_scope.

Lemma goes_kept m0 k t : forall l0 l s s', reaches m0 l0 s -> goes_on m0 k l s s' -> var_of s k = Some t ->
  reaches m0 (l0 ++ l) s' /\ var_of s' k = Some t /\ shows s' t = shows s t.
Proof.
  intros l0 l. revert l0. induction l as [|a l IH]; intros l0 s s' R (F & T & E) H; cbn [run_deals] in E.
  - injection E as <-. rewrite app_nil_r. auto.
  - inversion F as [|? ? Fa F']; subst. inversion T as [|? ? Ta T']; subst. destruct (perform a s) as [o s1] eqn:P.
    assert (D : done o) by (destruct o; [exact I|exact I|discriminate|discriminate]). assert (E1 : run_deals l s1 = Some s') by (destruct o; [exact E|exact E|contradiction|contradiction]).
    destruct (copies_kept _ _ _ _ _ _ _ _ R Fa P D Ta H) as [V Sh]. pose proof (reaches_more m0 l0 s a o s1 R Fa P D) as R1.
    destruct (IH (l0 ++ [a]) s1 s' R1 (conj F' (conj T' E1)) V) as (A & B & C). rewrite <- app_assoc in A. split; [exact A|]. split; [exact B|congruence].
Qed.
Lemma shows_in s s' t p : shows s' t = shows s t -> In p (pointers t) -> data_of s' p = data_of s p.
Proof. unfold shows. intros E H. induction (pointers t) as [|x l IH]; [contradiction|]. cbn [map] in E. injection E as E1 E2. destruct H as [->|H]; auto. Qed.
Lemma wire_kept s s' t : shows s' t = shows s t -> wire s' t = wire s t.
Proof.
  intros E. assert (B : forall p, In p (pointers t) -> bytes_of s' p = bytes_of s p) by (intros p H; unfold bytes_of; rewrite (shows_in _ _ _ _ E H); reflexivity).
  destruct t as [[h p]|l|p|[q|]]; cbn [wire pointers fst snd] in *; [| |reflexivity| |reflexivity].
  - rewrite (B p) by (left; reflexivity). reflexivity.
  - f_equal. f_equal. apply map_ext_in. intros i Hi. rewrite (B (snd i)) by exact (in_map snd _ _ Hi). reflexivity.
  - rewrite (B (Some q)) by (left; reflexivity). reflexivity.
Qed.
Lemma pointer_carries m0 l s k t p : reaches m0 l s -> var_of s k = Some t -> In p (pointers t) -> carries_opt (dk_mem s) (option_map ser_of_sbuf (object s p)) (bytes_of s p).
Proof.
  intros R H Hp. destruct (copies_readable _ _ _ _ _ _ R H Hp) as [->|(bs & E)]; [reflexivity|]. unfold bytes_of. rewrite E. unfold data_of in E.
  destruct (object s p) as [sb|]; [|discriminate]. injection E as E. apply carries_sbuf. exact E.
Qed.
Lemma wire_written m0 l s k t bs : reaches m0 l s -> var_of s k = Some t -> wire s t = Some bs ->
  exists x, to_send s t = Some x /\ writes (dk_mem s) (s_serialize x) bs.
Proof.
  intros R H E. pose proof (fun p => pointer_carries m0 l s k t p R H) as C. destruct t as [[h p]|x|p|[q|]]; cbn [wire to_send pointers fst snd] in *; try discriminate.
  - injection E as <-. eexists. split; [reflexivity|]. exact (proj2 (ep_carries _ h _ _ (C p (or_introl eq_refl)))).
  - injection E as <-. eexists. split; [reflexivity|]. cbn [s_serialize cpf_ser]. apply cpf_writes. unfold items_of. clear H R.
    induction x as [|i x IH]; [constructor|]. cbn [map]. constructor; [split; [reflexivity|exact (C (snd i) (or_introl eq_refl))]|]. apply IH. intros p Hp. apply C. right. exact Hp.
  - injection E as <-. specialize (C (Some q) (or_introl eq_refl)). destruct (object s (Some q)) as [sb|] eqn:Eo; cbn [option_map carries_opt] in *.
    + eexists. split; [reflexivity|exact (proj2 C)].
    + exfalso. destruct (pointer_cell _ _ _ _ _ _ R H (or_introl eq_refl)) as (n & sb & En & _). unfold object in Eo. rewrite En in Eo. discriminate.
Qed.
Lemma sent_kept m0 l0 l s s' k t bs : reaches m0 l0 s -> var_of s k = Some t -> goes_on m0 k l s s' -> wire s t = Some bs ->
  exists x, var_of s' k = Some t /\ to_send s' t = Some x /\ writes (dk_mem s') (s_serialize x) bs.
Proof.
  intros R H G E. destruct (goes_kept _ _ _ _ _ _ _ R G H) as (R' & H' & Sh). rewrite <- (wire_kept _ _ _ Sh) in E. destruct (wire_written _ _ _ _ _ _ R' H' E) as (x & A & B). eauto.
Qed.
Lemma copy_sent m0 l0 l s s1 s' i t bs : reaches m0 l0 s -> var_of s i = Some t -> perform (KCopy i) s = (Ret tt, s1) -> goes_on m0 (List.length (dk_vars s)) l s1 s' -> wire s t = Some bs ->
  exists x, var_of s' (List.length (dk_vars s)) = Some t /\ to_send s' t = Some x /\ writes (dk_mem s') (s_serialize x) bs.
Proof.
  intros R H P G E. destruct (copies_copied _ _ _ _ _ R H) as (s2 & P2 & _ & V & Sh). rewrite P in P2. injection P2 as <-.
  pose proof (reaches_more m0 l0 s (KCopy i) _ s1 R I P I) as R1. rewrite <- (wire_kept _ _ _ Sh) in E. exact (sent_kept _ _ _ _ _ _ _ _ R1 V G E).
Qed.
Lemma assigned_sent m0 l0 l s s1 s' i j t u bs : reaches m0 l0 s -> var_of s i = Some t -> var_of s j = Some u -> same_class t u = true -> perform (KAssign i j) s = (Ret tt, s1) -> goes_on m0 i l s1 s' -> wire s u = Some bs ->
  exists x, var_of s' i = Some u /\ to_send s' u = Some x /\ writes (dk_mem s') (s_serialize x) bs.
Proof.
  intros R H Hj C P G E. destruct (copies_assigned _ _ _ _ _ _ _ R H Hj C) as (s2 & P2 & V & Sh). rewrite P in P2. injection P2 as <-.
  pose proof (reaches_more m0 l0 s (KAssign i j) _ s1 R I P I) as R1. rewrite <- (wire_kept _ _ _ Sh) in E. exact (sent_kept _ _ _ _ _ _ _ _ R1 V G E).
Qed.
