(** What indexing has to satisfy. *)
From Coq Require Import Sorting.Sorted.
From Verif Require Import Base Model_Object Model_Index.
Local Open Scope Z_scope.

(** Position [i] of [n] that index [z] means: counted from the front, or from the end if negative. *)
Definition means (n : nat) (z : Z) (i : nat) : Prop :=
  (i < n)%nat /\ (z = Z.of_nat i \/ z = Z.of_nat i - Z.of_nat n).
(** The positions of [n] a slice selects, by the Python documentation: bounds below zero are counted from the end; those
    from the first bound (or the nearest position that exists) in steps, up to but without the second. *)
Definition bound (n : Z) (x : Z) : Z := if x <? 0 then x + n else x.
Definition selects (n : nat) (a b : option Z) (step : Z) (i : nat) : Prop :=
  (i < n)%nat
  /\ (0 < step -> let lo := match a with Some x => Z.max 0 (bound (Z.of_nat n) x) | None => 0 end in
                  exists k, 0 <= k /\ Z.of_nat i = lo + k * step
                  /\ match b with Some y => Z.of_nat i < bound (Z.of_nat n) y | None => True end)
  /\ (step < 0 -> let hi := match a with Some x => Z.min (Z.of_nat n - 1) (bound (Z.of_nat n) x) | None => Z.of_nat n - 1 end in
                  exists k, 0 <= k /\ Z.of_nat i = hi + k * step
                  /\ match b with Some y => bound (Z.of_nat n) y < Z.of_nat i | None => True end).
(** The selected elements in order: upwards, or downwards for a negative step. *)
Definition in_order (step : Z) (l : list nat) : Prop := StronglySorted (fun i j => if 0 <? step then (i < j)%nat else (j < i)%nat) l.
Definition sliced {A} (l : list A) (a b : option Z) (step : Z) (r : list A) : Prop :=
  exists idx, (forall i, In i idx <-> selects (length l) a b step i) /\ in_order step idx
  /\ map Some r = map (nth_error l) idx.
(** Keys of a dictionary: hashable, each once. *)
Definition can_be_key (i : index) : Prop := match i with ISlice _ _ _ | IUnhashable _ => False | _ => True end.
