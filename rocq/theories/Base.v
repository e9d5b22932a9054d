(** Shared vocabulary: Python exceptions as values, byte strings, struct packing. *)
From Coq Require Export List NArith ZArith Bool Lia Arith.
From Coq Require Export ZifyBool ZifyNat ZifyN.
Export ListNotations.
Ltac Zify.zify_post_hook ::= Z.div_mod_to_equations.
#[global] Arguments N.add : simpl never.
#[global] Arguments N.mul : simpl never.
#[global] Arguments N.div : simpl never.
#[global] Arguments N.modulo : simpl never.
#[global] Arguments N.pow : simpl never.
#[global] Arguments N.sub : simpl never.
#[global] Arguments N.eqb : simpl never.
#[global] Arguments N.leb : simpl never.
#[global] Arguments N.ltb : simpl never.
#[global] Arguments Z.add : simpl never.
#[global] Arguments Z.mul : simpl never.
#[global] Arguments Z.div : simpl never.
#[global] Arguments Z.modulo : simpl never.
#[global] Arguments Z.pow : simpl never.
#[global] Arguments Z.sub : simpl never.

(** The Python exception classes that the modelled code can raise. *)
Inductive err : Type :=
| ValueError | StructError | PSRPCoreError | InvalidPoolState | InvalidPipelineState
| InvalidProtocolVersion | KeyError | IndexError | TypeError | OverflowError
| MissingCipher | UnicodeError | RuntimeError | AttributeError | ParseError | OutOfFuel.

Inductive result (A : Type) : Type := Ok (a : A) | Err (e : err).
Arguments Ok {A} a.
Arguments Err {A} e.

Definition bind {A B} (x : result A) (f : A -> result B) : result B :=
  match x with Ok a => f a | Err e => Err e end.
Notation "'let!' x ':=' a 'in' b" := (bind a (fun x => b))
  (at level 200, x binder, a at level 100, b at level 200).

Definition is_ok {A} (x : result A) : bool := match x with Ok _ => true | Err _ => false end.

(** A byte string is a list of numbers; this says each one is a byte. *)
Definition bytes_ok (l : list N) : Prop := Forall (fun b => (b < 256)%N) l.
Definition bytes_okb (l : list N) : bool := forallb (fun b => (b <? 256)%N) l.

(** Python slicing [l[a:b]] for 0 <= a. *)
Definition slice {A} (a b : nat) (l : list A) : list A := firstn (b - a) (skipn a l).

(** Little-endian fixed-width integers: the bytes of [struct.pack("<..")]. *)
Fixpoint le_bytes (n : nat) (v : N) : list N :=
  match n with
  | O => []
  | S k => (v mod 256)%N :: le_bytes k (v / 256)
  end.
Fixpoint le_val (l : list N) : N :=
  match l with
  | [] => 0
  | b :: t => (b + 256 * le_val t)%N
  end.
Definition be_bytes (n : nat) (v : N) : list N := rev (le_bytes n v).
Definition be_val (l : list N) : N := le_val (rev l).

(** struct.pack of an unsigned field of [n] bytes: out of range raises struct.error. *)
Definition pack_le (n : nat) (v : N) : result (list N) :=
  if (v <? 256 ^ N.of_nat n)%N then Ok (le_bytes n v) else Err StructError.
Definition pack_be (n : nat) (v : N) : result (list N) :=
  if (v <? 256 ^ N.of_nat n)%N then Ok (be_bytes n v) else Err StructError.
(** struct.unpack needs exactly [n] bytes. *)
Definition unpack_le (n : nat) (l : list N) : result N :=
  if Nat.eqb (length l) n then Ok (le_val l) else Err StructError.
Definition unpack_be (n : nat) (l : list N) : result N :=
  if Nat.eqb (length l) n then Ok (be_val l) else Err StructError.

Fixpoint list_eqb {A} (eqb : A -> A -> bool) (a b : list A) : bool :=
  match a, b with
  | [], [] => true
  | x :: a', y :: b' => eqb x y && list_eqb eqb a' b'
  | _, _ => false
  end.
Definition opt_eqb {A} (eqb : A -> A -> bool) (a b : option A) : bool :=
  match a, b with
  | None, None => true
  | Some x, Some y => eqb x y
  | _, _ => false
  end.

(** Python dict with insertion order, integer keys: association list. *)
Section Assoc.
  Context {V : Type}.
  Fixpoint aget (k : N) (m : list (N * V)) : option V :=
    match m with
    | [] => None
    | (k', v) :: t => if (k =? k')%N then Some v else aget k t
    end.
  (** [d[k] = v]: overwriting keeps the position, a new key goes to the end. *)
  Fixpoint aset (k : N) (v : V) (m : list (N * V)) : list (N * V) :=
    match m with
    | [] => [(k, v)]
    | (k', v') :: t => if (k =? k')%N then (k', v) :: t else (k', v') :: aset k v t
    end.
  (** [del d[k]] / [d.pop(k, None)]. *)
  Fixpoint adel (k : N) (m : list (N * V)) : list (N * V) :=
    match m with
    | [] => []
    | (k', v') :: t => if (k =? k')%N then t else (k', v') :: adel k t
    end.
  Definition amem (k : N) (m : list (N * V)) : bool :=
    match aget k m with Some _ => true | None => false end.
  Definition akeys (m : list (N * V)) : list N := map fst m.
End Assoc.
