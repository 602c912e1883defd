(** * Property C111, and more of C15, C29 and C30: packets of any number of items, and
    constructors given any numbers.

    Statements only; every proof is in PMany.v.  The words used are defined in Spec.v
    (byte formats) and Vocab.v. *)
From Verif Require Import PMany.

(** ** C111 A packet of any number of items comes back whole: violated from 65536 items on *)
(** The count on the wire is taken modulo 65536: a decode gives back that many of the items and
    leaves the others unread. *)
Theorem C111_items_partial : forall m its xs, Forall2 (item_carries m) its xs -> Forall item_ok xs ->
  let n := len xs mod 65536 in
  carries m (cpf_ser its) (cpf xs) /\
  forall m' v c p0 rest, reads m' v (cpf xs ++ rest) ->
    let got := len (cpf (take n xs)) in
    exists p, cpf_deserialize m' (RBuf v c) p0 = (Ret tt, m', RBuf (view_drop v got) (c + got), p) /\
      Forall2 (item_is m') p (take n xs) /\ reads m' (view_drop v got) (items (drop n xs) ++ rest).
Proof. exact many_items. Qed.
Print Assumptions C111_items_partial.
(** From 65536 items on, some are lost without any error. *)
Theorem C111_lost_refuted : forall m its xs, Forall2 (item_carries m) its xs -> Forall item_ok xs -> 65536 <= len xs ->
  carries m (cpf_ser its) (cpf xs) /\
  forall m' v c p0 rest, reads m' v (cpf xs ++ rest) ->
    exists r p, cpf_deserialize m' (RBuf v c) p0 = (Ret tt, m', r, p) /\ len p = len xs mod 65536 /\ len p < len xs.
Proof. exact items_lost. Qed.
Print Assumptions C111_lost_refuted.
Example C111_example : let it := it_make 0xB1 (Some (prim_ser 2 7)) in
  let its := repeat it (N.to_nat 65537) in let xs := repeat (0xB1, le 2 7) (N.to_nat 65537) in
  Forall2 (item_carries []) its xs /\ Forall item_ok xs /\ 65536 <= len xs.
Proof. exact many_example. Qed.

(** ** C15, C29, C30 Whatever the constructors are given *)
Theorem C15_made : forall m ty d bs, carries_opt m d bs -> len bs < 65536 ->
  exists wire, carries m (it_ser (it_make ty d)) wire /\
  forall m' v c i0 rest, reads m' v (wire ++ rest) -> exists r i, it_deserialize m' (RBuf v c) i0 = (Ret tt, m', r, i) /\
    it_type i = ty mod 2 ^ 16 /\ holds m' (it_data i) bs.
Proof. exact made_item. Qed.
Print Assumptions C15_made.
Example C15_made_example : carries_opt [] (Some (prim_ser 2 7)) (le 2 7) /\ len (le 2 7) < 65536 /\ it_type (it_make 65714 None) = 0xB2.
Proof. split; [exact (carries_prim _ 2 7)|]. split; reflexivity. Qed.
Theorem C29_made : forall m conn seq, carries m (sa_ser (sa_make conn seq)) (seq_address conn seq) /\
  forall m' v c g0 rest, reads m' v (seq_address conn seq ++ rest) ->
    exists r, sa_deserialize m' (RBuf v c) g0 = (Ret tt, m', r, mkSA (conn mod 2 ^ 32) (seq mod 2 ^ 32)).
Proof. exact made_address. Qed.
Print Assumptions C29_made.
Example C29_made_example : sa_make (2 ^ 32 + 5) 6 = mkSA 5 6.
Proof. reflexivity. Qed.
Theorem C30_made_partial : forall T (c : cls T) m (b : T) num s data, carries m s data -> carries m (sq_ser (sq_num (sq_make b num)) s) (le 2 num ++ data) /\
  forall m' v cnt b0 n0 rest m2 r b2, reads m' v ((le 2 num ++ data) ++ rest) -> c_des c m' (RBuf (view_drop v 2) (cnt + 2)) b0 = (Ret tt, m2, r, b2) ->
    c_des (sq_cls c) m' (RBuf v cnt) (mkSeq b0 n0 false) = (Ret tt, m2, r, mkSeq b2 (num mod 2 ^ 16) false).
Proof. exact made_sequenced. Qed.
Print Assumptions C30_made_partial.
Example C30_made_example : carries [] (prim_ser 2 7) (le 2 7) /\ sq_num (sq_make 0 65540) = 4 /\
  c_des (prim_cls 2) [Some (le 2 4 ++ le 2 7)] (RBuf (mkV 0 2 2) 2) 0 = (Ret tt, [Some (le 2 4 ++ le 2 7)], RBuf (mkV 0 4 0) 4, 7).
Proof. split; [exact (carries_prim _ 2 7)|]. split; vm_compute; reflexivity. Qed.
