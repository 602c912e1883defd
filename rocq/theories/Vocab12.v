(** * Vocab12: words for the properties of the log calls. *)
From Verif Require Export Vocab11 Log.
From Coq Require Import Ascii DecimalString.
Local Open Scope N_scope.

(** The conversions of a printf format (C11 7.21.6.1): %d, %u, %X, %s, %zu; widths and
    flags are digits. *)
Inductive conv := VInt | VUnsigned | VSize | VString | VOther.
Inductive pstate := Plain | Percent | Sized.
Definition is_digit (c : ascii) : bool := (48 <=? N_of_ascii c) && (N_of_ascii c <=? 57).
Fixpoint convs (st : pstate) (f : string) : list conv :=
  match f with
  | EmptyString => []
  | String c f' =>
      match st with
      | Plain => if Ascii.eqb c "%" then convs Percent f' else convs Plain f'
      | Percent =>
          if is_digit c then convs Percent f'
          else if Ascii.eqb c "z" then convs Sized f'
          else if Ascii.eqb c "d" then VInt :: convs Plain f'
          else if Ascii.eqb c "u" then VUnsigned :: convs Plain f'
          else if Ascii.eqb c "X" then VUnsigned :: convs Plain f'
          else if Ascii.eqb c "s" then VString :: convs Plain f'
          else VOther :: convs Plain f'
      | Sized => if Ascii.eqb c "u" then VSize :: convs Plain f' else VOther :: convs Plain f'
      end
  end.
(** The argument has the type the conversion requires, or the other signedness with a
    value both types have. *)
Definition takes (v : conv) (a : larg) : Prop :=
  match v, a with
  | VInt, (ASmall _ | AInt _) => True
  | VInt, AU32 n => n < 2 ^ 31
  | VUnsigned, (ASmall _ | AU32 _) => True
  | VUnsigned, AInt n => n < 2 ^ 31
  | VSize, ASize _ => True
  | VString, (AStr _ | AText _) => True
  | _, _ => False
  end.
(** The call is defined. *)
Definition well_typed (x : logc) : Prop := Forall2 takes (convs Plain (lg_fmt x)) (lg_args x).

(** The formats that are given an argument of another type. *)
Definition mistyped : list string :=
  ["Generated starting connection ID %zu and SN %zu";
   "Zero session handle received on registration: %zu";
   "Reply received with wrong session ID. Expected %zu, received %zu";
   "Non-zero status received: %zu";
   "Non-zero sender context received: %zu/%zu";
   "Non-zero options received: %zu";
   "Successfully opened session ID %zu";
   "Replacing our o_to_t connection ID (%zu) with connection ID provided by target (%zu)";
   "Replacing our t_to_o connection ID (%zu) with connection ID provided by target (%zu)"]%string.
Definition mistyped_scan : list string :=
  ["Non-zero session handle received: %zu";
   "Non-zero status received: %zu";
   "Non-zero sender context received: %zu, %zu";
   "Non-zero options received: %zu";
   "Error: Payload response received with the wrong item type. Expected: %zu, received %zu";
   "Address: %d : %d"]%string.

(** Something was logged at this level. *)
Definition logged (v : level) (l : list logc) : Prop := exists x, In x l /\ lg_level x = v.

(** The user's class does not itself raise runtime_error or logic_error while it decodes. *)
Definition op_quiet (o : op) : Prop :=
  match o with
  | OpGet T c t x y z => ~ decode_raises c RuntimeError /\ ~ decode_raises c LogicError
  | _ => True
  end.

(** The explicit service an operation asks for. *)
Definition asks (o : op) (service : N) : Prop :=
  match o with
  | OpGet _ _ _ _ _ _ => service = 0x0E
  | OpSet _ _ _ _ => service = 0x10
  | OpCreate _ _ => service = 0x5B
  | OpCloseConnection _ => service = 0x4E
  | _ => False
  end.
(** The reply [got] to an explicit command, taken apart: status, context and options of
    the frame, the bytes after it, the items, the service code. *)
Definition reply_parts (got : list byte) (st c0 c1 o : N) (after : list byte) (xs : list (N * list byte)) (sv : N) : Prop :=
  exists ses payload i to rest rs gs a q,
    frame_fits 0x6F ses st c0 c1 o payload /\ got = frame 0x6F ses st c0 c1 o payload ++ after /\
    rr_ok i to xs /\ payload = rr i to xs ++ rest /\
    unconnected xs (router_reply sv rs gs a q) /\ reply_ok sv rs gs a.

(** Something about the reply is not as it should be, though it is accepted. *)
Definition odd_frame (st c0 c1 o : N) (after : list byte) : Prop := after <> [] \/ st <> 0 \/ c0 <> 0 \/ c1 <> 0 \/ o <> 0.
Definition odd_reply (service st c0 c1 o : N) (after : list byte) (xs : list (N * list byte)) (sv : N) : Prop :=
  odd_frame st c0 c1 o after \/ 2 < len xs \/ sv <> service + 0x80.
Definition wrong_service : string := "Wrong service code returned for RR Data command. Expected: %d but received %d".

(** Without the log. *)
Definition quietly {S A} (x : L S A) : S -> outcome A * S := fun s => match x s with (o, s', _) => (o, s') end.

(** ** What is shown *)
Definition dec (n : N) : string := NilZero.string_of_uint (N.to_uint n).
(** The 32-bit pattern read as an int. *)
Definition signed (n : N) : string := if n <? 2 ^ 31 then dec n else String "-" (dec (2 ^ 32 - n)).
(** %s shows the characters before the first NUL. *)
Fixpoint before_nul (bs : list byte) : list byte :=
  match bs with [] => [] | b :: r => if Byte.to_N b =? 0 then [] else b :: before_nul r end.
Definition shown (v : conv) (a : larg) : string :=
  match v, a with
  | VInt, AInt n => signed n
  | (VInt | VUnsigned), (ASmall n | AU32 n) => dec n
  | VUnsigned, AInt n => dec n
  | VSize, ASize n => dec n
  | VString, AStr s => s
  | VString, AText bs => string_of_list_byte (before_nul bs)
  | _, _ => EmptyString
  end.
(** The line printf makes of a format without widths. *)
Fixpoint fill (st : pstate) (f : string) (l : list larg) : string :=
  match f with
  | EmptyString => EmptyString
  | String c f' =>
      match st with
      | Plain => if Ascii.eqb c "%" then fill Percent f' l else String c (fill Plain f' l)
      | Percent =>
          if Ascii.eqb c "z" then fill Sized f' l
          else match l with
               | [] => EmptyString
               | a :: l' => (shown (if Ascii.eqb c "d" then VInt else if Ascii.eqb c "u" then VUnsigned else if Ascii.eqb c "s" then VString else VOther) a ++ fill Plain f' l')%string
               end
      | Sized => match l with [] => EmptyString | a :: l' => (shown VSize a ++ fill Plain f' l')%string end
      end
  end.
Definition line (x : logc) : string := fill Plain (lg_fmt x) (lg_args x).
(** The fields of an identity, as a reader of the log expects them. *)
Definition octet_at (l : list byte) (k : nat) : N := Byte.to_N (nth k l x00).
Definition field_lines (i : identity) : list string :=
  ["Encapsulation Protocol Version: " ++ dec (id_version i); "Vendor ID: " ++ dec (id_vendor i); "Device Type: " ++ dec (id_device i);
   "Product Code: " ++ dec (id_product i); "Revision: " ++ dec (octet_at (id_revision i) 0) ++ "." ++ dec (octet_at (id_revision i) 1); "Status: " ++ dec (id_status i); "State: " ++ dec (id_state i)]%string.
Definition serial_line (i : identity) : string := ("Serial Number: " ++ dec (id_serial i))%string.
Definition name_line (i : identity) : string := ("Product Name: " ++ string_of_list_byte (id_name i))%string.
