(** * Vocab29: items sequenced more than once, C124. Only definitions. *)
From Verif Require Export Vocab3 Tower.

(** 16 bit numbers one after the other. *)
Definition numbers (ns : list N) : list byte := flat_map (le 2) ns.
(** Levels that hold these numbers and are not (are) in the middle of a decode. *)
Definition idle (ns : list N) : list level := map (fun n => mkLv n false) ns.
Definition stale (ns : list N) : list level := map (fun n => mkLv n true) ns.
(** What a decode leaves the levels as. *)
Definition left_as (o : outcome unit) (ns : list N) : list level := match o with Ret _ => idle ns | _ => stale ns end.
