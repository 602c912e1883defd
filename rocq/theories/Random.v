(** * Random: where a session takes its first numbers from.

    Session::Session, src/session.cpp:55-60, seeds a boost::random::mt19937 with
    std::time(0), takes next_connection_id_ from the engine and next_connection_sn_ from
    a boost::random::uniform_int_distribution<int> on 0..0xFFFF.  Boost is not in /repo:
    this is the published MT19937 (Matsumoto and Nishimura, 1998; boost's
    mersenne_twister_engine with its default parameters) and what boost's
    generate_uniform_int does when the range of the engine is a multiple of the range
    asked for, which is to divide by the quotient.  It is checked below against the
    published first outputs for the seed 5489. *)
From Verif Require Export Objects.

(** The state after seed(value): word i from word i - 1.  Conversion of time_t to the
    32 bit seed drops the high bits. *)
Fixpoint mt_words (n : nat) (i prev : N) : list N :=
  match n with
  | O => []
  | S n' => let x := u32 (1812433253 * N.lxor prev (N.shiftr prev 30) + i) in x :: mt_words n' (i + 1) x
  end.
Definition mt_seed (value : N) : list N := u32 value :: mt_words 623 1 (u32 value).

(** One step of the recurrence: the top bit of [u], the rest of [v], the word 397 on. *)
Definition mt_twist (u v m : N) : N :=
  let y := N.lor (N.land u 0x80000000) (N.land v 0x7FFFFFFF) in
  N.lxor m (N.lxor (N.shiftr y 1) (if N.testbit y 0 then 0x9908B0DF else 0)).
(** Tempering. *)
Definition mt_temper (y : N) : N :=
  let y := N.lxor y (N.shiftr y 11) in
  let y := N.lxor y (N.land (N.shiftl y 7) 0x9D2C5680) in
  let y := N.lxor y (N.land (N.shiftl y 15) 0xEFC60000) in
  N.lxor y (N.shiftr y 18).
(** Output [k] of the engine, of the first 227 (those that need no word already replaced). *)
Definition mt_out (st : list N) (k : nat) : N := mt_temper (mt_twist (nth k st 0) (nth (k + 1) st 0) (nth (k + 397) st 0)).

(** gen.seed(time); gen(); dist(gen): the generator of [new_session]. *)
Definition boost_start (time : N) : N * N :=
  let st := mt_seed time in (mt_out st 0, mt_out st 1 / 65536).

Example mt_published : map (mt_out (mt_seed 5489)) [0; 1; 2; 3; 4]%nat = [3499211612; 581869302; 3890346734; 3586334585; 545404204].
Proof. vm_compute. reflexivity. Qed.
