(** Requests for command metadata that reach the server (C77).  Nothing here places objects, writes or reads. *)
From Verif Require Import Base Model_Scalars Model_Object Model_Clixml Model_Metadata Spec_Clixml Spec_Pipeline.

(** The list an argument is; none for None. *)
Inductive asks (h : heap) : given -> option (list value) -> Prop :=
| AsksNone : asks h GNone None
| AsksItems l : asks h (GItems l) (Some l)
| AsksKept a o l : aget a h = Some o -> g_body o = BList LList l -> asks h (GKept a) (Some l).
(** One name may be given instead of a list of names. *)
Inductive asks_names (h : heap) : given -> list value -> Prop :=
| AsksOne s : asks_names h (GText s) [a_text s]
| AsksMany g l : asks h g (Some l) -> asks_names h g l.
Definition opt_listed (h : heap) (R : N -> N -> Prop) (x : option (list value)) (v : value) : Prop :=
  match x with None => v = VNull | Some l => listed h (same_value R) l v end.
Definition elements (x : option (list value)) : list value := match x with Some l => l | None => [] end.
