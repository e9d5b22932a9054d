(** What dates and durations stand for: exact numbers of nanoseconds. *)
From Verif Require Import Base Model_Time.
Local Open Scope Z_scope.

(** The length of a duration and the moment of a date, in nanoseconds. *)
Definition length_of (v : value) : option Z :=
  match v with Delta us => Some (us * 1000) | Duration us ns => Some (us * 1000 + ns) | _ => None end.
(** On the date's own clock: *)
Definition clock (v : value) : option Z :=
  match v with Date us _ => Some (us * 1000) | DateTime us _ ns => Some (us * 1000 + ns) | _ => None end.
Definition zone_of (v : value) : option Z := match v with Date _ z | DateTime _ z _ => z | _ => None end.
(** ... and in absolute terms, as far as it says how its clock runs. *)
Definition moment (v : value) : option (bool * Z) :=
  match clock v, zone_of v with
  | Some t, Some off => Some (true, t - off * 1000)
  | Some t, None => Some (false, t)
  | None, _ => None
  end.
Definition is_duration (v : value) : Prop := exists us ns, v = Duration us ns.
Definition is_datetime (v : value) : Prop := exists us z ns, v = DateTime us z ns.

(** Lengths and clocks that can be written down at all: 999999999 days, years 1 to 9999. *)
Definition day : Z := 24 * 60 * 60 * 1000 * 1000 * 1000.
Definition fits (n : Z) : Prop := -999999999 * day <= n < 1000000000 * day.
Definition dated (n : Z) : Prop := 0 <= n < 3652059 * day.
Definition offset_ok (z : option Z) : Prop := match z with Some off => - day < off * 1000 < day | None => True end.
(** A value as the constructors make it: less than a microsecond is left to the nanoseconds. *)
Definition proper (v : value) : Prop :=
  match v with
  | Delta us => fits (us * 1000)
  | Duration us ns => fits (us * 1000 + ns) /\ 0 <= ns < 1000
  | Date us z => dated (us * 1000) /\ offset_ok z
  | DateTime us z ns => dated (us * 1000 + ns) /\ 0 <= ns < 1000 /\ offset_ok z
  | Number _ => True
  end.

(** The outcome of an operator that is to give the duration of [n] nanoseconds ... *)
Definition lasting (n : Z) (r : result value) : Prop :=
  (fits n /\ exists v, r = Ok v /\ is_duration v /\ proper v /\ length_of v = Some n) \/ (~ fits n /\ r = Err OverflowError).
(** ... or the date showing [n] on a clock running at [z]. *)
Definition showing (n : Z) (z : option Z) (r : result value) : Prop :=
  (dated n /\ exists v, r = Ok v /\ is_datetime v /\ proper v /\ clock v = Some n /\ zone_of v = z) \/ (~ dated n /\ r = Err OverflowError).

(** Comparisons of numbers, as propositions. *)
Definition says (o : comparison_op) (a b : Z) : Prop :=
  match o with Oeq => a = b | One => a <> b | Olt => a < b | Ole => a <= b | Ogt => a > b | Oge => a >= b end.
Definition answers (P : Prop) (r : result bool) : Prop := exists b, r = Ok b /\ (b = true <-> P).
