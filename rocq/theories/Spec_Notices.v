(** User events and information records (C80).  Nothing here places objects, writes or reads. *)
From Coq Require Import String.
From Verif Require Import Base Model_Scalars Model_Object Model_Clixml Model_Metadata Model_Notices.
From Verif Require Import Spec_Scalars Spec_Clixml Spec_Xml Spec_Pipeline Spec_Metadata.

(** What was given, or otherwise what there is. *)
Inductive or_else {A} (d : A) : option A -> A -> Prop :=
| Given a : or_else d (Some a) a
| Missing : or_else d None d.
(** A list argument; no list stands for an empty one. *)
Inductive lists (h : heap) : given -> list value -> Prop :=
| ListsNone : lists h GNone []
| ListsSome g l : asks h g (Some l) -> lists h g l.
(** The time, the texts and the numbers of a notice, which the other end must find. *)
Definition can_date (d : datetime) : Prop := valid_datetime d.
Definition is_uint (z : Z) : Prop := (0 <= z < 2 ^ 32)%Z.
Definition is_int (z : Z) : Prop := (- 2 ^ 31 <= z < 2 ^ 31)%Z.
