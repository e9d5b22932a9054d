(** C83: arithmetic over integers of fixed width. *)
From Verif Require Import Base Model_Scalars Model_Numbers Spec_Scalars Spec_Numbers Proofs_Scalars Proofs_Numbers.
Local Open Scope Z_scope.

(** Expressions of any shape: a number comes out exactly when everything with a type on the way fits its type, and then
    it is what the expression is worth, with the type of the first number in the expression. *)
Theorem C83_exact e z : eval e = Ok (with_type (leftmost e) z) <-> worth e z /\ all_fit e.
Proof. apply exactly. Qed.
Print Assumptions C83_exact.
Theorem C83_type e n : eval e = Ok n -> match n with Typed t _ => leftmost e = Some t | _ => leftmost e = None end.
Proof. apply typed_of. Qed.
Print Assumptions C83_type.
(** An expression is worth one number. *)
Theorem C83_unique e z z' : worth e z -> worth e z' -> z = z'.
Proof. intros H. now apply worth_same. Qed.
Print Assumptions C83_unique.
(** sum() of any numbers is their plain sum, whatever their types. *)
Theorem C83_sum l zs : Forall2 (fun n z => num_val n = Some z) l zs -> sum_of l = Ok (Plain (total zs)).
Proof. apply sum_plain. Qed.
Print Assumptions C83_sum.
(** divmod: a quotient with the type, a plain remainder; the same two numbers for plain ints. *)
Theorem C83_divmod t x y : y <> 0 -> exists q r, x = y * q + r /\ (0 <= r < y \/ y < r <= 0)
  /\ (fits t q -> divide (Typed t x) y = Ok (Typed t q, Plain r)) /\ (~ fits t q -> divide (Typed t x) y = Err ValueError)
  /\ divide (Plain x) y = Ok (Plain q, Plain r).
Proof. apply divided. Qed.
Print Assumptions C83_divmod.

(** *** Examples *)
(** (PSInt(7) - 10) // PSByte(2) ** PSByte(-1 + 2), and abs of a PSSByte. *)
Definition sum_expr : expr :=
  EBin BFloorDiv (EBin BSub (ENum (Typed TInt32 7)) (ENum (Plain 10))) (EBin BPow (ENum (Typed TByte 2)) (EBin BAdd (ENum (Plain (-1))) (ENum (Typed TInt64 2)))).
Example C83_ex : eval sum_expr = Ok (Typed TInt32 (-2)) /\ leftmost sum_expr = Some TInt32 /\ worth sum_expr (-2) /\ all_fit sum_expr
  /\ eval (EUn UAbs (ENum (Typed TSByte (-128)))) = Err ValueError
  /\ sum_of [Typed TByte 200; Typed TByte 100; Plain 1] = Ok (Plain 301) /\ divide (Typed TSByte 7) (-2) = Ok (Typed TSByte (-4), Plain (-1))
  /\ divide (Typed TSByte (-128)) (-1) = Err ValueError.
Proof.
  assert (eval sum_expr = Ok (with_type (leftmost sum_expr) (-2))) as H by (vm_compute; reflexivity).
  split; [vm_compute; reflexivity|]. split; [reflexivity|]. destruct (proj1 (exactly _ _) H) as [H1 H2]. split; [exact H1|]. split; [exact H2|].
  split; [vm_compute; reflexivity|]. split; [vm_compute; reflexivity|]. split; vm_compute; reflexivity.
Qed.

(** *** False of the code *)
(** The order of the operands decides: PSByte(255) + 1 is refused, 1 + PSByte(255) is a plain 256, no PSByte. *)
Theorem C83_order_refuted : exists a b, eval (EBin BAdd a b) = Err ValueError /\ eval (EBin BAdd b a) = Ok (Plain 256)
  /\ leftmost a = Some TByte /\ leftmost b = None /\ ~ fits TByte 256.
Proof.
  exists (ENum (Typed TByte 255)), (ENum (Plain 1)). split; [vm_compute; reflexivity|]. split; [vm_compute; reflexivity|]. split; [reflexivity|]. split; [reflexivity|].
  unfold fits. cbn. lia.
Qed.
Print Assumptions C83_order_refuted.
(** PSInt(2) ** -1 is 0, where Python's 2 ** -1 is a float. *)
Theorem C83_power_refuted : exists e, eval e = Ok (Typed TInt32 0) /\ e = EBin BPow (ENum (Typed TInt32 2)) (ENum (Plain (-1)))
  /\ eval (EBin BPow (ENum (Plain 2)) (ENum (Plain (-1)))) = Ok Fl.
Proof. eexists. split; [|split; [reflexivity|]]; vm_compute; reflexivity. Qed.
Print Assumptions C83_power_refuted.
(** PSInt(2) + 0.5 is refused, 0.5 + PSInt(2) is not. *)
Theorem C83_float_refuted : exists a b, eval (EBin BAdd a b) = Err TypeError /\ eval (EBin BAdd b a) = Ok Fl.
Proof. exists (ENum (Typed TInt32 2)), (ENum Fl). split; reflexivity. Qed.
Print Assumptions C83_float_refuted.
