(** Powers with a modulus (C90). *)
From Verif Require Import Base.
Local Open Scope Z_scope.

(** [r] is between nothing and the modulus. *)
Definition towards (m r : Z) : Prop := 0 <= r < m \/ m < r <= 0.
Definition power_of (z n m r : Z) : Prop :=
  m <> 0 /\ towards m r /\ (0 <= n -> (m | z ^ n - r)) /\ (n < 0 -> (m | r * z ^ (- n) - 1)).
