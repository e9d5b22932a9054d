(** Texts of date-times (C74).  Nothing here parses. *)
From Verif Require Import Base Model_Scalars.
From Verif Require Import Spec_Numeral Spec_Duration Spec_Dates.
Local Open Scope N_scope.

(** ** What the reader takes *)
(** One ASCII digit for 1 to 9, or two ASCII digits. *)
Definition month_says (s : list N) (n : N) : Prop :=
  1 <= n <= 12 /\ (n < 10 /\ s = [0x30 + n] \/ s = [0x30 + n / 10; 0x30 + n mod 10]).
(** The same; a blank may stand for the first digit, and the second digit of 10 to 29 may be of any script. *)
Definition day_says (s : list N) (n : N) : Prop :=
  1 <= n <= 31
  /\ (n < 10 /\ (s = [0x30 + n] \/ s = [0x20; 0x30 + n]) \/ s = [0x30 + n / 10; 0x30 + n mod 10]
      \/ 10 <= n < 30 /\ exists b, digit b (n mod 10) /\ s = [0x30 + n / 10; b]).
(** One digit of any script; or an ASCII digit and a second one, of any script below 20. *)
Definition hour_says (s : list N) (n : N) : Prop :=
  n < 24
  /\ ((exists b, digit b n /\ s = [b]) \/ s = [0x30 + n / 10; 0x30 + n mod 10]
      \/ n < 20 /\ exists b, digit b (n mod 10) /\ s = [0x30 + n / 10; b]).
(** One digit of any script; or an ASCII digit and one of any script. *)
Definition sixty_says (s : list N) (n : N) : Prop :=
  n < 60 /\ ((exists b, digit b n /\ s = [b]) \/ exists b, digit b (n mod 10) /\ s = [0x30 + n / 10; b]).
(** The date and the time of day. *)
Definition head_says (s : list N) (d : datetime) : Prop :=
  exists y mo da t h mi se,
    s = y ++ [0x2D] ++ mo ++ [0x2D] ++ da ++ [t] ++ h ++ [0x3A] ++ mi ++ [0x3A] ++ se
    /\ number y (dt_year d) /\ length y = 4%nat /\ month_says mo (dt_month d) /\ day_says da (dt_day d)
    /\ (t = 0x54 \/ t = 0x74)
    /\ hour_says h (dt_hour d) /\ sixty_says mi (dt_minute d) /\ sixty_says se (dt_second d).
(** The fraction of a second, as microseconds and nanoseconds: none; one to six ASCII digits; or, behind a head of [19]
    characters, six ASCII digits and a seventh of any script. *)
Definition fraction_says (at19 : Prop) (s : list N) (us ns : N) : Prop :=
  s = [] /\ us = 0 /\ ns = 0
  \/ (exists g n, plain_numeral g n /\ (length g <= 6)%nat /\ s = 0x2E :: g /\ us = n * 10 ^ (6 - N.of_nat (length g)) /\ ns = 0)
  \/ (at19 /\ exists g x k, plain_numeral g us /\ length g = 6%nat /\ digit x k /\ s = 0x2E :: g ++ [x] /\ ns = 100 * k).
(** The offset in minutes: none, Z, or one or two digits of any script on both sides of a colon. *)
Definition zone_says (s : list N) (tz : option Z) : Prop :=
  s = [] /\ tz = None \/ s = [0x5A] /\ tz = Some 0%Z
  \/ exists c hs ms h m, s = c :: hs ++ [0x3A] ++ ms /\ number hs h /\ (length hs <= 2)%nat /\ number ms m /\ (length ms <= 2)%nat
     /\ h < 24 /\ m < 60
     /\ (c = 0x2B /\ tz = Some (Z.of_N (60 * h + m)) \/ c = 0x2D /\ tz = Some (- Z.of_N (60 * h + m))%Z).
(** Nothing may follow, except that behind a fraction at the usual place a line feed hides the rest. *)
Definition date_text (s : list N) (d : datetime) : Prop :=
  exists head f z tail,
    s = head ++ f ++ z ++ tail
    /\ head_says head d /\ fraction_says (length head = 19%nat) f (dt_micro d) (dt_nano d) /\ zone_says z (dt_tz d)
    /\ (tail = [] \/ f <> [] /\ length head = 19%nat /\ exists r, tail = 0x0A :: r)
    /\ 1 <= dt_year d /\ exists n, month_long (dt_year d) (dt_month d) n /\ dt_day d <= n.

(** ** What XML Schema takes for a date-time of .NET *)
(** Exactly [w] ASCII digits. *)
Definition xs_digits (w : nat) (s : list N) (n : N) : Prop := plain_numeral s n /\ length s = w.
Definition xs_zone (s : list N) (tz : option Z) : Prop :=
  s = [] /\ tz = None \/ s = [0x5A] /\ tz = Some 0%Z
  \/ exists c hs ms h m, s = c :: hs ++ [0x3A] ++ ms /\ xs_digits 2 hs h /\ xs_digits 2 ms m /\ h <= 14 /\ m < 60 /\ (h = 14 -> m = 0)
     /\ (c = 0x2B /\ tz = Some (Z.of_N (60 * h + m)) \/ c = 0x2D /\ tz = Some (- Z.of_N (60 * h + m))%Z).
(** xs:dateTime with a year of four digits and at most [places] digits of fraction, which are the microseconds and nanoseconds of [d]. *)
Definition xs_date_time (places : nat) (s : list N) (d : datetime) : Prop :=
  exists y mo da h mi se f z,
    s = y ++ [0x2D] ++ mo ++ [0x2D] ++ da ++ [0x54] ++ h ++ [0x3A] ++ mi ++ [0x3A] ++ se ++ f ++ z
    /\ xs_digits 4 y (dt_year d) /\ xs_digits 2 mo (dt_month d) /\ xs_digits 2 da (dt_day d)
    /\ xs_digits 2 h (dt_hour d) /\ xs_digits 2 mi (dt_minute d) /\ xs_digits 2 se (dt_second d)
    /\ 1 <= dt_year d /\ (exists n, month_long (dt_year d) (dt_month d) n /\ 1 <= dt_day d <= n)
    /\ dt_hour d < 24 /\ dt_minute d < 60 /\ dt_second d < 60
    /\ (f = [] /\ dt_micro d = 0 /\ dt_nano d = 0
        \/ exists g n, f = 0x2E :: g /\ plain_numeral g n /\ (length g <= places)%nat /\ dt_nano d < 1000
           /\ (dt_micro d * 1000 + dt_nano d) * 10 ^ N.of_nat (length g) = n * 1000000000)
    /\ xs_zone z (dt_tz d).
