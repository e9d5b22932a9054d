(** Flags (C89), bit by bit. *)
From Verif Require Import Base Model_Scalars Model_FlagOps Spec_Scalars.

(** Bit [i] is in a declared value; it is one. *)
Definition has_bit (ms : list (list N * N)) (i : N) : Prop := exists n w, In (n, w) ms /\ N.testbit w i = true.
Definition is_bit (ms : list (list N * N)) (i : N) : Prop := exists n, In (n, 2 ^ i)%N ms.
(** [v] has bits of the class only. *)
Definition made_of (ms : list (list N * N)) (v : N) : Prop := forall i, N.testbit v i = true -> has_bit ms i.
Definition all_fit (t : int_type) (ms : list (list N * N)) : Prop := forall n w, In (n, w) ms -> fits t (Z.of_N w).
Definition by_bits (o : flag_op) (x y : bool) : bool := match o with FOr => x || y | FAnd => x && y | FXor => negb (Bool.eqb x y) end.
