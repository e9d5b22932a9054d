(** What expressions over integers are worth (C83). *)
From Verif Require Import Base Model_Scalars Model_Numbers Spec_Scalars.
Local Open Scope Z_scope.

Definition un_means (o : unary) (x r : Z) : Prop :=
  match o with UAbs => 0 <= r /\ (r = x \/ r = - x) | UNeg => r = - x | UPos => r = x | UInvert => r = - x - 1 end.
Definition bin_means (o : binary) (x y r : Z) : Prop :=
  match o with
  | BAnd => bits_are x y r andb | BOr => bits_are x y r orb | BXor => bits_are x y r xorb
  | BAdd => r = x + y | BSub => r = x - y | BMul => r = x * y
  | BFloorDiv => exists m, x = y * r + m /\ (0 <= m < y \/ y < m <= 0)
  | BMod => exists q, x = y * q + r /\ (0 <= r < y \/ y < r <= 0)
  | BLshift => 0 <= y /\ r = x * 2 ^ y
  | BRshift => 0 <= y /\ r * 2 ^ y <= x < (r + 1) * 2 ^ y
  | BPow => 0 <= y /\ r = product (Z.to_nat y) x
  end.
(** The type of an expression is that of its first number. *)
Fixpoint leftmost (e : expr) : option int_type :=
  match e with ENum (Typed t _) => Some t | ENum _ => None | EUn _ e => leftmost e | EBin _ l _ => leftmost l end.
Inductive worth : expr -> Z -> Prop :=
| WPlain z : worth (ENum (Plain z)) z
| WTyped t z : worth (ENum (Typed t z)) z
| WUn o e x r : worth e x -> un_means o x r -> worth (EUn o e) r
| WBin o l m x y r : worth l x -> worth m y -> bin_means o x y r -> worth (EBin o l m) r
(** A negative exponent of a number with a type: the fraction is cut off. *)
| WCut l m t x n r : leftmost l = Some t -> worth l x -> worth m (- n) -> 0 < n <= 2 ^ 53 -> x <> 0 ->
    r * x ^ n = 1 \/ (r = 0 /\ 1 < Z.abs x) -> worth (EBin BPow l m) r.
Inductive standing_in (s : expr) : expr -> Prop :=
| InHere : standing_in s s
| InUn o e : standing_in s e -> standing_in s (EUn o e)
| InLeft o l r : standing_in s l -> standing_in s (EBin o l r)
| InRight o l r : standing_in s r -> standing_in s (EBin o l r).
(** Everything with a type on the way, the numbers written down aside, is in the range of its type. *)
Definition all_fit (e : expr) : Prop :=
  forall s t z, standing_in s e -> (forall n, s <> ENum n) -> leftmost s = Some t -> worth s z -> fits t z.
Definition with_type (t : option int_type) (z : Z) : num := match t with Some t => Typed t z | None => Plain z end.
Fixpoint total (l : list Z) : Z := match l with [] => 0 | z :: t => z + total t end.
