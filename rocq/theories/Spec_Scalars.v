(** Vocabulary for the scalar properties, independent of the model. *)
From Verif Require Import Base Model_Scalars.

(** Width in bits and signedness of the .NET integer types. *)
Definition int_bits (t : int_type) : Z :=
  match t with
  | TByte | TSByte => 8 | TUInt16 | TInt16 => 16 | TUInt32 | TInt32 => 32 | TUInt64 | TInt64 => 64
  end%Z.
Definition int_signed (t : int_type) : bool :=
  match t with TSByte | TInt16 | TInt32 | TInt64 => true | _ => false end.
Definition fits (t : int_type) (z : Z) : Prop :=
  if int_signed t then (- 2 ^ (int_bits t - 1) <= z < 2 ^ (int_bits t - 1))%Z
  else (0 <= z < 2 ^ int_bits t)%Z.

(** A version that can exist: a revision only with a build. *)
Definition version_wf (v : version) : Prop := v_revision v <> None -> v_build v <> None.
(** Component [i] of a version, counted from 0. *)
Definition component (v : version) (i : nat) : option N :=
  match i with 0 => Some (v_major v) | 1 => Some (v_minor v) | 2 => v_build v | 3 => v_revision v | _ => None end.
(** Missing sorts before present. *)
Definition comp_lt (a b : option N) : Prop :=
  match a, b with None, Some _ => True | Some x, Some y => (x < y)%N | _, None => False end.
(** The first differing component decides. *)
Definition version_before (a b : version) : Prop :=
  exists i, (forall j, j < i -> component a j = component b j) /\ comp_lt (component a i) (component b i).

(** Dates for C18. *)
Definition valid_datetime (d : datetime) : Prop :=
  (1000 <= dt_year d <= 9999 /\ 1 <= dt_month d <= 12
  /\ 1 <= dt_day d <= (match dt_month d with
                       | 2 => if (dt_year d mod 4 =? 0) && (negb (dt_year d mod 100 =? 0) || (dt_year d mod 400 =? 0))
                              then 29 else 28
                       | 4 | 6 | 9 | 11 => 30
                       | _ => 31
                       end)
  /\ dt_hour d < 24 /\ dt_minute d < 60 /\ dt_second d < 60 /\ dt_micro d < 1000000
  /\ (exists k, k < 10 /\ dt_nano d = k * 100)
  /\ match dt_tz d with None => True | Some m => (-1440 < m < 1440)%Z end)%N.

(** What the integer operators mean, on all integers.  Nothing is said to result from dividing by zero or shifting by a
    negative amount. *)
Fixpoint product (n : nat) (z : Z) : Z := match n with O => 1 | S k => z * product k z end%Z.
Definition bits_are (z n r : Z) (f : bool -> bool -> bool) : Prop :=
  forall i, (0 <= i)%Z -> Z.testbit r i = f (Z.testbit z i) (Z.testbit n i).
Definition op_means (z : Z) (o : int_op) (r : Z) : Prop :=
  match o with
  | OAbs => 0 <= r /\ (r = z \/ r + z = 0)
  | ONeg => r + z = 0
  | OPos => r = z
  | OInvert => r + z = -1
  | OAnd n => bits_are z n r andb
  | OOr n => bits_are z n r orb
  | OXor n => bits_are z n r xorb
  | OAdd n => r - n = z
  | OSub n => r + n = z
  | OMul n => r = z * n
  | OPow n => r = product (N.to_nat n) z
  | OFloorDiv n | ODivMod n => exists m, z = n * r + m /\ (0 <= m < n \/ n < m <= 0)
  | OMod n => exists q, z = n * q + r /\ (0 <= r < n \/ n < r <= 0)
  | OLshift n => 0 <= n /\ r = z * 2 ^ n
  | ORshift n => 0 <= n /\ r * 2 ^ n <= z < (r + 1) * 2 ^ n
  end%Z.
