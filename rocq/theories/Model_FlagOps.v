(** Flags: PSFlagBase, src/psrpcore/types/_enum.py:108-175, on a Python from 3.11 on, where the methods of enum.IntFlag that it
    calls are those of enum.Flag and the boundary is STRICT.  Declared values are not negative, and neither are operands; a flag
    is its value. *)
From Verif Require Import Base Model_Scalars Model_Enum.

(** EnumMeta: _flag_mask_, _singles_mask_ and _all_bits_. *)
Definition mask_of (vs : list N) : N := fold_right N.lor 0%N vs.
Definition flag_mask (ms : members) : N := mask_of (map snd ms).
Definition single_bit (v : N) : bool := (negb (v =? 0) && (N.land v (v - 1) =? 0))%N%bool.
Definition singles_mask (ms : members) : N := mask_of (filter single_bit (map snd ms)).
Definition all_bits (ms : members) : N := N.ones (N.size (flag_mask ms)).
(** cls(value): a member that is there, or Flag._missing_, which ends in PSIntegerBase.__new__ and the range that lines 68-69 have
    given to the class. *)
Definition flag_of (t : int_type) (ms : members) (v : N) : result N :=
  if existsb (N.eqb v) (map snd ms) then Ok v
  else if ((all_bits ms <? v) || negb (N.land v (N.lxor (all_bits ms) (flag_mask ms)) =? 0))%N%bool then Err ValueError
  else let! z := new_int t (AInt (Z.of_N v)) in Ok v.
(** The other operand: a flag of the class, another integer of this library, or an int of Python. *)
Inductive operand := WithFlag (v : N) | WithPS (v : N) | WithInt (v : N).
Inductive outcome := AFlag (v : N) | APlain (v : N).
Inductive flag_op := FOr | FAnd | FXor.
Definition on_values (o : flag_op) (a b : N) : N := match o with FOr => N.lor a b | FAnd => N.land a b | FXor => N.lxor a b end.
(** __or__, __and__, __xor__ and their reflections, lines 150-166: for an int Flag._get_value is NotImplemented, and int itself
    answers. *)
Definition operate (t : int_type) (ms : members) (o : flag_op) (a : N) (b : operand) : result outcome :=
  match b with
  | WithFlag v | WithPS v => let! r := flag_of t ms (on_values o a v) in Ok (AFlag r)
  | WithInt v => Ok (APlain (on_values o a v))
  end.
(** __invert__, lines 168-169 *)
Definition inverted (t : int_type) (ms : members) (a : N) : result N := flag_of t ms (N.ldiff (singles_mask ms) a).
