(** Objects that are written out again at each occurrence, and what cannot be finished because of it (C79). *)
From Verif Require Import Base Model_Clixml Spec_Clixml.

(** A reference out of an object CLIXML cannot refer back to. *)
Definition leads (h : heap) (a b : N) : Prop := exists o, aget a h = Some o /\ ~ by_identity o /\ mentions o (VRef b).
Inductive trail (h : heap) : N -> N -> Prop :=
| TrailOne a b : leads h a b -> trail h a b
| TrailMore a b c : leads h a b -> trail h b c -> trail h a c.
(** [a] is, or leads to, an object that leads back to itself. *)
Definition endless (h : heap) (a : N) : Prop := exists b, (a = b \/ trail h a b) /\ trail h b b.
(** An object whose class says what to write in its place. *)
Definition hooked (h : heap) (a : N) : Prop := exists o, aget a h = Some o /\ g_body o = BMade.
(** What a reader has for it: a plain object with the type names, the text and the properties that were to be written. *)
Definition stands_for (reg : registry) (R : N -> N -> Prop) (o o' : gobj) : Prop :=
  g_body o' = BPlain /\ same_string (g_string o) (g_string o') /\ g_names o' = names_back reg (g_names o)
  /\ same_props R (g_adapted o) (g_adapted o') /\ same_props R (g_extended o) (g_extended o').
