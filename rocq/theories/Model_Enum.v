(** Text of enumeration values: _serialize_enum_to_string, src/psrpcore/types/_serializer.py:571-585. *)
From Verif Require Import Base Model_Scalars.

(** A flag class: the entries of __members__ in definition order, aliases included. *)
Definition members := list (list N * N).
(** getattr(cls, name).name: an alias yields the member first defined with the value. *)
Fixpoint member_name (ms : members) (v : N) : list N :=
  match ms with [] => [] | (n, w) :: t => if (w =? v)%N then n else member_name t v end.
(** Flag.__contains__ *)
Definition contained (w v : N) : bool := (N.land w v =? w)%N.
Definition name_none : list N := [110; 111; 110; 101]%N.
Definition name_None : list N := [78; 111; 110; 101]%N.
(** The names listed for a flag value; [ps] says that the class derives from PSFlagBase (line 581). *)
Definition flag_names (ps : bool) (ms : members) (v : N) : list (list N) :=
  let flags := filter (fun m => contained (snd m) v) ms in
  map (fun m => let n := member_name ms (snd m) in if (list_eqb N.eqb n name_none && ps)%bool then name_None else n)
      (filter (fun m => negb (snd m =? 0)%N || Nat.eqb (length flags) 1) flags).
Definition flag_text (ps : bool) (ms : members) (v : N) : list N := join [44; 32]%N (flag_names ps ms v).
