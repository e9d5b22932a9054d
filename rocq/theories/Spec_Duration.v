(** Texts of durations (C73).  Nothing here parses or rounds. *)
From Verif Require Import Base.
From Verif Require Import Spec_Numeral.
Local Open Scope N_scope.

(** One or more digits of any script. *)
Inductive number : list N -> N -> Prop :=
| number_one c d : digit c d -> number [c] d
| number_next s n c d : number s n -> digit c d -> number (s ++ [c]) (10 * n + d).
(** A field that may be left out: its number and its letter. *)
Definition field (letter : N) (s : list N) (n : N) : Prop :=
  s = [] /\ n = 0 \/ exists m, s = m ++ [letter] /\ number m n.
(** The seconds: whole ones and the ticks (ten million to the second) of the fraction, if there is one.  Digits before the point or
    the S may be missing. *)
Definition seconds (s : list N) (whole : N) (fractional : bool) (ticks : N) : Prop :=
  s = [] /\ whole = 0 /\ fractional = false /\ ticks = 0
  \/ exists m, (m = [] /\ whole = 0 \/ number m whole)
     /\ (s = m ++ [0x53] /\ fractional = false /\ ticks = 0
         \/ exists f n, number f n /\ (length f <= 7)%nat /\ s = m ++ [0x2E] ++ f ++ [0x53] /\ fractional = true
            /\ ticks = n * 10 ^ (7 - N.of_nat (length f))).
Record parts := mkParts { pt_neg : bool; pt_days : N; pt_hours : N; pt_minutes : N; pt_whole : N; pt_fractional : bool; pt_ticks : N }.
(** [-]P[..D][T[..H][..M][..S]]: something after P, something after T; one line feed may follow. *)
Definition duration_text (s : list N) (p : parts) : Prop :=
  exists sign days time tail,
    s = sign ++ [0x50] ++ days ++ time ++ tail
    /\ (sign = [] /\ pt_neg p = false \/ sign = [0x2D] /\ pt_neg p = true)
    /\ field 0x44 days (pt_days p)
    /\ (time = [] /\ pt_hours p = 0 /\ pt_minutes p = 0 /\ pt_whole p = 0 /\ pt_fractional p = false /\ pt_ticks p = 0
        \/ exists h m sec, time = [0x54] ++ h ++ m ++ sec /\ h ++ m ++ sec <> [] /\ field 0x48 h (pt_hours p) /\ field 0x4D m (pt_minutes p)
           /\ seconds sec (pt_whole p) (pt_fractional p) (pt_ticks p))
    /\ days ++ time <> []
    /\ (tail = [] \/ tail = [0x0A]).
(** Its length in nanoseconds when the whole seconds are [w]. *)
Definition length_with (p : parts) (w : N) : Z :=
  let t := (Z.of_N (pt_days p * 86400 + pt_hours p * 3600 + pt_minutes p * 60 + w) * 1000000000 + Z.of_N (pt_ticks p) * 100)%Z in
  if pt_neg p then (- t)%Z else t.
Definition length_of (p : parts) : Z := length_with p (pt_whole p).
(** What a duration of Python can hold: from minus 999999999 days up to, not including, 1000000000 days. *)
Definition day : Z := (86400 * 1000000000)%Z.
Definition holds (z : Z) : Prop := (-999999999 * day <= z < 1000000000 * day)%Z.
Definition held (r : result Z) (z : Z) : Prop := holds z /\ r = Ok z \/ ~ holds z /\ r = Err OverflowError.

(** What XML Schema takes (xs:dayTimeDuration): ASCII digits, digits before the S and before the point. *)
Definition xs_field (letter : N) (s : list N) (n : N) : Prop :=
  s = [] /\ n = 0 \/ exists m, s = m ++ [letter] /\ plain_numeral m n.
Definition xs_seconds (s : list N) (whole digits fraction : N) : Prop :=
  s = [] /\ whole = 0 /\ digits = 0 /\ fraction = 0
  \/ exists m, plain_numeral m whole
     /\ (s = m ++ [0x53] /\ digits = 0 /\ fraction = 0
         \/ exists f, plain_numeral f fraction /\ digits = N.of_nat (length f) /\ s = m ++ [0x2E] ++ f ++ [0x53]).
(** The fraction is [fraction] / 10 ^ [digits] of a second. *)
Definition xs_duration (s : list N) (neg : bool) (d h m whole digits fraction : N) : Prop :=
  exists days time,
    s = (if neg then [0x2D] else []) ++ [0x50] ++ days ++ time
    /\ xs_field 0x44 days d
    /\ (time = [] /\ h = 0 /\ m = 0 /\ whole = 0 /\ digits = 0 /\ fraction = 0
        \/ exists hs ms sec, time = [0x54] ++ hs ++ ms ++ sec /\ hs ++ ms ++ sec <> [] /\ xs_field 0x48 hs h /\ xs_field 0x4D ms m
           /\ xs_seconds sec whole digits fraction)
    /\ days ++ time <> [].
