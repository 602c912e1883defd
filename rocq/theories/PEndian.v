(** * PEndian: lemmas about hosts of either byte order. *)
From Verif Require Import Vocab21 PBase.
From Coq Require Import Lia.
Local Open Scope N_scope.

Lemma len_rev' {A} (l : list A) : len (rev l) = len l.
Proof. unfold len. rewrite rev_length. reflexivity. Qed.
Lemma field_len h f : len (field_bytes h f) = match f with FInt k _ => N.of_nat k | FBytes b => len b end.
Proof. destruct f as [k v|b]; [|reflexivity]. destruct h; cbn [field_bytes host_bytes_on]; rewrite ?len_rev'; apply len_host_bytes. Qed.
Lemma host_round h k v : fits k v -> host_value_on h (host_bytes_on h k v) = v.
Proof. intros F. destruct h; cbn [host_value_on host_bytes_on]; rewrite ?rev_involutive, host_value_num, host_bytes_le; apply num_le, F. Qed.

Lemma unwire_wire h fs rest : Forall field_fits fs -> unwire h fs (wire h fs ++ rest) = fs.
Proof.
  induction 1 as [|f fs F _ IH]; [reflexivity|]. cbn [wire flat_map]. rewrite <- app_assoc. change (flat_map (field_bytes h) fs) with (wire h fs).
  pose proof (field_len h f) as L. destruct f as [k v|b]; cbn [unwire field_bytes] in *.
  - rewrite <- L, take_app_len, drop_app_len, IH, host_round by exact F. reflexivity.
  - rewrite take_app_len, drop_app_len, IH. reflexivity.
Qed.
Lemma app_eq_len {A} (a b c d : list A) : List.length a = List.length b -> a ++ c = b ++ d -> a = b /\ c = d.
Proof.
  revert b. induction a as [|x a IH]; intros [|y b] L E; try discriminate; [auto|]. cbn in *. injection L as L. injection E as -> E.
  destruct (IH b L E) as [-> ->]. auto.
Qed.
Lemma wires_equal fs : wire Big fs = wire Little fs <-> Forall symmetric fs.
Proof.
  induction fs as [|f fs IH]; [split; constructor|]. cbn [wire flat_map]. split.
  - intros E. apply app_eq_len in E as [E1 E2].
    + constructor; [|apply IH, E2]. destruct f as [k v|b]; [|exact I]. cbn [field_bytes host_bytes_on symmetric] in *. rewrite host_bytes_le in E1. exact E1.
    + pose proof (field_len Big f) as L1. pose proof (field_len Little f) as L2. unfold len in *. lia.
  - intros F. inversion F as [|? ? F1 F2]; subst. apply IH in F2. unfold wire in F2. rewrite F2. f_equal.
    destruct f as [k v|b]; [|reflexivity]. cbn [field_bytes host_bytes_on symmetric] in *. rewrite host_bytes_le. exact F1.
Qed.
Lemma wire_app h a b : wire h (a ++ b) = wire h a ++ wire h b.
Proof. apply flat_map_app. Qed.
Lemma little_header cmd n ses st c0 c1 o payload : wire Little (header_fields cmd n ses st c0 c1 o ++ [FBytes payload]) = header cmd n ses st c0 c1 o ++ payload.
Proof. unfold wire, header_fields, header. cbn [flat_map field_bytes host_bytes_on app]. rewrite !host_bytes_le, !app_nil_r, <- !app_assoc. reflexivity. Qed.
Lemma little_register : wire Little register_fields = request 0x65 0 (registration 1 0).
Proof. vm_compute. reflexivity. Qed.
Lemma le1 v : v < 256 -> le 1 v = [octet v].
Proof. intros L. cbn [le]. rewrite N.mod_small by exact L. reflexivity. Qed.
Lemma little_open tick ticks o2t t2o sn vendor orig mult orpi opar trpi tpar type path : tick < 256 -> ticks < 256 -> mult < 256 -> type < 256 ->
  wire Little (open_fields tick ticks o2t t2o sn vendor orig mult orpi opar trpi tpar type path) = forward_open tick ticks o2t t2o sn vendor orig mult orpi opar trpi tpar type path.
Proof.
  intros A B C D. unfold wire, open_fields, forward_open. cbn [flat_map field_bytes host_bytes_on]. rewrite !host_bytes_le, (le1 tick), (le1 ticks), (le1 mult), (le1 type) by assumption.
  cbn [app]. rewrite app_nil_r. reflexivity.
Qed.
(** What a target takes for the command and the length of a header. *)
Lemma swapped_command cmd n ses st c0 c1 o rest : fits 2 cmd -> num (take 2 (wire Big (header_fields cmd n ses st c0 c1 o) ++ rest)) = cmd mod 256 * 256 + cmd / 256.
Proof.
  intros F. unfold wire, header_fields. cbn [flat_map field_bytes host_bytes_on]. rewrite host_bytes_le. cbn [le rev app]. unfold take. change (N.to_nat 2) with 2%nat. cbn [firstn num].
  unfold fits in F. change (256 ^ N.of_nat 2) with 65536 in F.
  assert (O : forall x, x < 256 -> Byte.to_N (octet x) = x) by (intros x X; apply to_N_octet, X).
  rewrite !O; try (apply N.mod_lt; discriminate). rewrite (N.mod_small (cmd / 256)) by (apply N.div_lt_upper_bound; lia). lia.
Qed.
Lemma other_command cmd n ses st c0 c1 o rest : fits 2 cmd -> cmd mod 256 <> cmd / 256 -> num (take 2 (wire Big (header_fields cmd n ses st c0 c1 o) ++ rest)) <> cmd.
Proof. intros F D. rewrite swapped_command by exact F. pose proof (N.div_mod cmd 256 ltac:(discriminate)). lia. Qed.
Lemma register_misread rest : num (take 2 (wire Big register_fields ++ rest)) = 0x6500.
Proof. reflexivity. Qed.
