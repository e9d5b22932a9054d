(** Vocabulary for C68 and C69: which date-times exist, which of them travel, and what a text of one says. *)
From Verif Require Import Base Model_Scalars.

(** One minute and one day, in microseconds. *)
Definition minute : Z := (60 * 1000 * 1000)%Z.
Definition whole_day : Z := (24 * 60 * minute)%Z.
(** The calendar. *)
Definition leap (y : N) : Prop := (y mod 4 = 0 /\ (y mod 100 <> 0 \/ y mod 400 = 0))%N.
Definition month_long (y m n : N) : Prop :=
  ((m = 2 /\ ((leap y /\ n = 29) \/ (~ leap y /\ n = 28)))
   \/ ((m = 4 \/ m = 6 \/ m = 9 \/ m = 11) /\ n = 30)
   \/ ((m = 1 \/ m = 3 \/ m = 5 \/ m = 7 \/ m = 8 \/ m = 10 \/ m = 12) /\ n = 31))%N.
(** Every PSDateTime that can be created, on a clock that is [off] microseconds ahead of UTC. *)
Definition creatable (d : datetime) (off : option Z) : Prop :=
  ((1 <= dt_year d <= 9999)
   /\ (exists n, month_long (dt_year d) (dt_month d) n /\ 1 <= dt_day d <= n)
   /\ dt_hour d < 24 /\ dt_minute d < 60 /\ dt_second d < 60 /\ dt_micro d < 1000000)%N
  /\ (match off with None => True | Some o => - whole_day < o < whole_day end)%Z.
(** The ones that .NET has as well: to the minute, with fractions of a second up to nanoseconds; and whose year the
    platform writes with four digits. *)
Definition minutes_only (off : option Z) : Prop := match off with None => True | Some o => (minute | o)%Z end.
Definition travels (padded : bool) (d : datetime) (off : option Z) : Prop :=
  (padded = true \/ (1000 <= dt_year d)%N) /\ (dt_nano d < 1000)%N /\ minutes_only off.
(** What arrives: all fields, the nanoseconds rounded down to hundreds. *)
Definition arriving (d : datetime) (off : option Z) (r : datetime) : Prop :=
  dt_year r = dt_year d /\ dt_month r = dt_month d /\ dt_day r = dt_day d
  /\ dt_hour r = dt_hour d /\ dt_minute r = dt_minute d /\ dt_second r = dt_second d /\ dt_micro r = dt_micro d
  /\ (exists k, dt_nano r = 100 * k /\ 100 * k <= dt_nano d < 100 * (k + 1))%N
  /\ match off, dt_tz r with
     | None, None => True
     | Some o, Some m => o = (m * minute)%Z
     | _, _ => False
     end.

(** ** Texts *)
(** Digits in base ten. *)
Inductive digits_of : list N -> N -> Prop :=
| no_digits : digits_of [] 0
| one_more t n d : digits_of t n -> (d < 10)%N -> digits_of (t ++ [48 + d]%N) (n * 10 + d).
(** A number as it is usually written, and one written with exactly or at least [w] digits. *)
Definition numeral (t : list N) (n : N) : Prop := digits_of t n /\ t <> [] /\ (n = 0%N \/ hd_error t <> Some 48%N).
Definition wide (w : nat) (t : list N) (n : N) : Prop := digits_of t n /\ length t = w.
(** A fraction of a second: nothing, six digits of microseconds, or those and three digits of nanoseconds. *)
Definition fraction_shown (t : list N) (us ns : N) : Prop :=
  (us = 0%N /\ ns = 0%N /\ t = [])
  \/ (us <> 0%N /\ ns = 0%N /\ exists a, wide 6 a us /\ t = 46%N :: a)
  \/ (ns <> 0%N /\ exists a b, wide 6 a us /\ wide 3 b ns /\ t = 46%N :: a ++ b).
(** "D days, H:MM:SS.ffffff": a duration of [us] microseconds and [ns] nanoseconds. *)
Definition duration_shown (t : list N) (us ns : Z) : Prop :=
  exists (d : Z) (h m s u n : N) day a b c f,
    (us = (((d * 24 + Z.of_N h) * 60 + Z.of_N m) * 60 + Z.of_N s) * 1000000 + Z.of_N u)%Z
    /\ ns = Z.of_N n /\ (h < 24 /\ m < 60 /\ s < 60 /\ u < 1000000)%N
    /\ ((d = 0%Z /\ day = [])
        \/ (exists x w, numeral x (Z.abs_N d) /\ ((Z.abs d = 1%Z /\ w = []) \/ ((Z.abs d > 1)%Z /\ w = [115]%N))
              /\ ((d > 0)%Z /\ day = x ++ [32; 100; 97; 121]%N ++ w ++ [44; 32]%N
                  \/ (d < 0)%Z /\ day = 45%N :: x ++ [32; 100; 97; 121]%N ++ w ++ [44; 32]%N)))
    /\ numeral a h /\ wide 2 b m /\ wide 2 c s /\ fraction_shown f u n
    /\ t = day ++ a ++ [58]%N ++ b ++ [58]%N ++ c ++ f.
(** "YYYY-MM-DD HH:MM:SS.ffffff+HH:MM". *)
Definition offset_shown (t : list N) (off : option Z) : Prop :=
  match off with
  | None => t = []
  | Some o => exists (h m rest : N) a b,
      Z.abs_N o = ((h * 60 + m) * 60000000 + rest)%N /\ (m < 60 /\ rest < 60000000)%N
      /\ wide 2 a h /\ wide 2 b m
      /\ (((o >= 0)%Z /\ t = 43%N :: a ++ [58]%N ++ b) \/ ((o < 0)%Z /\ t = 45%N :: a ++ [58]%N ++ b))
  end.
Definition date_shown (t : list N) (d : datetime) (off : option Z) : Prop :=
  exists y mo da h mi s f z,
    wide 4 y (dt_year d) /\ wide 2 mo (dt_month d) /\ wide 2 da (dt_day d)
    /\ wide 2 h (dt_hour d) /\ wide 2 mi (dt_minute d) /\ wide 2 s (dt_second d)
    /\ fraction_shown f (dt_micro d) (dt_nano d) /\ offset_shown z off
    /\ t = y ++ [45]%N ++ mo ++ [45]%N ++ da ++ [32]%N ++ h ++ [58]%N ++ mi ++ [58]%N ++ s ++ f ++ z.
(** Two dates that agree in everything shown. *)
Definition same_fields (d e : datetime) : Prop :=
  dt_year d = dt_year e /\ dt_month d = dt_month e /\ dt_day d = dt_day e /\ dt_hour d = dt_hour e
  /\ dt_minute d = dt_minute e /\ dt_second d = dt_second e /\ dt_micro d = dt_micro e /\ dt_nano d = dt_nano e.
Definition same_minute (a b : option Z) : Prop :=
  match a, b with
  | None, None => True
  | Some x, Some y => (x < 0 <-> y < 0)%Z /\ (Z.abs x / minute = Z.abs y / minute)%Z
  | _, _ => False
  end.
