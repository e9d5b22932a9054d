(** Arithmetic on dates and durations: the operators of PSDateTime and PSDuration, src/psrpcore/types/_primitive.py, beside
    the ones they inherit from datetime.datetime and datetime.timedelta.

    Python keeps a timedelta normalised, so it is its number of microseconds; a datetime is the number of microseconds
    since the first moment of year 1 on its own clock, with the offset of that clock from UTC (in microseconds) if it has
    one.  Only fixed offsets (datetime.timezone) are covered. *)
From Verif Require Import Base.
Local Open Scope Z_scope.

Inductive value :=
| Delta (us : Z)                                   (* datetime.timedelta *)
| Duration (us ns : Z)                             (* PSDuration: the timedelta and its [nanoseconds] attribute *)
| Date (us : Z) (zone : option Z)                  (* datetime.datetime *)
| DateTime (us : Z) (zone : option Z) (ns : Z)     (* PSDateTime: the datetime and its [nanosecond] attribute *)
| Number (n : Z).                                  (* anything else an operator may meet *)

(** ** Python's own types *)
Definition us_per_second := 1000000.
Definition us_per_day := 86400 * us_per_second.
(** datetime.timedelta: -999999999 days up to 999999999 days, 23:59:59.999999. *)
Definition delta_ok (us : Z) : bool := (-999999999 * us_per_day <=? us) && (us <? 1000000000 * us_per_day).
Definition new_delta (us : Z) : result Z := if delta_ok us then Ok us else Err OverflowError.
(** The attributes days, seconds and microseconds of a timedelta. *)
Definition days (us : Z) : Z := us / us_per_day.
Definition seconds (us : Z) : Z := us mod us_per_day / us_per_second.
Definition microseconds (us : Z) : Z := us mod us_per_second.
(** datetime.datetime: 0001-01-01 up to the last microsecond of 9999-12-31, 3652059 days in all. *)
Definition date_ok (us : Z) : bool := (0 <=? us) && (us <? 3652059 * us_per_day).
Definition move_date (us delta : Z) : result Z := if date_ok (us + delta) then Ok (us + delta) else Err OverflowError.
(** datetime - datetime, and the comparisons: both naive, or both aware and then in UTC; otherwise a TypeError. *)
Definition utc (us : Z) (zone : option Z) : Z := match zone with Some off => us - off | None => us end.
Definition same_awareness (z w : option Z) : bool :=
  match z, w with Some _, Some _ | None, None => true | _, _ => false end.
Definition date_difference (us : Z) (z : option Z) (us' : Z) (z' : option Z) : result Z :=
  if same_awareness z z' then new_delta (utc us z - utc us' z') else Err TypeError.

(** ** Constructors *)
(** _timedelta_total_nanoseconds, _primitive.py:66-91; getattr gives 0 for a plain timedelta. *)
Definition total_nanoseconds (us ns : Z) : Z :=
  ns + microseconds us * 1000 + seconds us * 1000000000 + days us * 86400000000000.
(** PSDuration.__new__, _primitive.py:453-472: [td] is the timedelta given or made from the other arguments. *)
Definition new_duration (nanoseconds us ns : Z) : result value :=
  let nanoseconds := nanoseconds + total_nanoseconds us ns in
  let us := nanoseconds / 1000 in
  let ns := nanoseconds mod 1000 in
  let! us := new_delta us in
  Ok (Duration us ns).
(** PSDuration(nanoseconds=n). *)
Definition duration_of (n : Z) : result value := new_duration n 0 0.
(** PSDuration(value), with nanoseconds=n if given. *)
Definition duration_from (v : value) (n : Z) : result value :=
  match v with
  | Delta us => new_duration n us 0
  | Duration us ns => new_duration n us ns
  | _ => Err TypeError
  end.
(** PSDateTime.__new__ and __init__ on a datetime, _primitive.py:336-363: the nanosecond is the keyword argument, or 0. *)
Definition datetime_from (v : value) (nanosecond : Z) : result value :=
  match v with
  | Date us z | DateTime us z _ => Ok (DateTime us z nanosecond)
  | _ => Err TypeError
  end.

(** ** The methods of PSDuration, _primitive.py:504-573 *)
(** What a decorated method finds in [other]: its microseconds and nanoseconds, if it is a timedelta. *)
Definition as_delta (v : value) : option (Z * Z) :=
  match v with Delta us => Some (us, 0) | Duration us ns => Some (us, ns) | _ => None end.
Definition d_add (us ns us' ns' : Z) : result value := duration_of (total_nanoseconds us ns + total_nanoseconds us' ns').
Definition d_sub (us ns us' ns' : Z) : result value := duration_of (total_nanoseconds us ns - total_nanoseconds us' ns').
Definition d_neg (us ns : Z) : result value := duration_of (- total_nanoseconds us ns).
(** __rsub__, _primitive.py:521-525: -self + other. *)
Definition d_rsub (us ns us' ns' : Z) : result value :=
  let! m := d_neg us ns in
  match m with Duration u n => d_add u n us' ns' | _ => Err TypeError end.

(** ** The methods of PSDateTime, _primitive.py:387-418 *)
(** __add__: datetime.__add__ sees the timedelta without its nanoseconds. *)
Definition t_add (us : Z) (z : option Z) (ns us' ns' : Z) : result value :=
  let nanosecond_diff := ns + ns' in
  let! new_date := move_date us us' in
  if nanosecond_diff >? 999
  then let! new_date := move_date new_date (nanosecond_diff / 1000) in Ok (DateTime new_date z (nanosecond_diff mod 1000))
  else Ok (DateTime new_date z nanosecond_diff).
(** Unary minus: timedelta.__neg__ or PSDuration.__neg__. *)
Definition neg (v : value) : result value :=
  match v with
  | Delta us => let! u := new_delta (- us) in Ok (Delta u)
  | Duration us ns => d_neg us ns
  | Number n => Ok (Number (- n))
  | _ => Err TypeError
  end.
(** __sub__ of a timedelta: self + -other. *)
Definition t_sub_delta (us : Z) (z : option Z) (ns : Z) (other : value) : result value :=
  let! m := neg other in
  match as_delta m with Some (us', ns') => t_add us z ns us' ns' | None => Err TypeError end.
(** __sub__ of a datetime; a plain one has no nanosecond. *)
Definition t_sub_date (us : Z) (z : option Z) (ns us' : Z) (z' : option Z) (ns' : Z) : result value :=
  let! d := date_difference us z us' z' in
  let! duration := new_duration 0 d 0 in
  let! rest := duration_of (ns - ns') in
  match duration, rest with Duration u n, Duration u' n' => d_add u n u' n' | _, _ => Err TypeError end.

(** ** Operators: what Python calls for each pair of operands *)
(** A class's own method first; the reflected method of the right operand if its class is a subclass or the left one gives
    NotImplemented.  PSDuration defines __rsub__ but no __radd__ and PSDateTime defines neither, so the reflected forms are
    those of timedelta and datetime: they know nothing of nanoseconds. *)
Definition add (v w : value) : result value :=
  match v, w with
  | Duration us ns, (Delta _ | Duration _ _) =>
      match as_delta w with Some (us', ns') => d_add us ns us' ns' | None => Err TypeError end
  | Delta us, (Delta us' | Duration us' _) => let! u := new_delta (us + us') in Ok (Delta u)
  | DateTime us z ns, (Delta _ | Duration _ _) =>
      match as_delta w with Some (us', ns') => t_add us z ns us' ns' | None => Err TypeError end
  | Date us z, (Delta us' | Duration us' _) => let! u := move_date us us' in Ok (Date u z)
  | (Delta us' | Duration us' _), Date us z => let! u := move_date us us' in Ok (Date u z)
  | (Delta us' | Duration us' _), DateTime us z _ => let! u := move_date us us' in Ok (DateTime u z 0)
  | Number n, Number m => Ok (Number (n + m))
  | _, _ => Err TypeError
  end.
Definition sub (v w : value) : result value :=
  match v, w with
  | Duration us ns, (Delta _ | Duration _ _) =>
      match as_delta w with Some (us', ns') => d_sub us ns us' ns' | None => Err TypeError end
  | Delta us, Duration us' ns' => d_rsub us' ns' us 0
  | Delta us, Delta us' => let! u := new_delta (us - us') in Ok (Delta u)
  | DateTime us z ns, (Delta _ | Duration _ _) => t_sub_delta us z ns w
  | DateTime us z ns, Date us' z' => t_sub_date us z ns us' z' 0
  | DateTime us z ns, DateTime us' z' ns' => t_sub_date us z ns us' z' ns'
  | Date us z, (Delta us' | Duration us' _) => let! u := move_date us (- us') in Ok (Date u z)
  | Date us z, (Date us' z' | DateTime us' z' _) => let! u := date_difference us z us' z' in Ok (Delta u)
  | Number n, Number m => Ok (Number (n - m))
  | _, _ => Err TypeError
  end.
(** Unary plus: PSDuration.__pos__ gives the object back, _primitive.py:530-531. *)
Definition pos (v : value) : result value :=
  match v with Delta _ | Duration _ _ | Number _ => Ok v | _ => Err TypeError end.
(** Inherited from timedelta: abs, multiplication and floor division by an int. *)
Definition absolute (v : value) : result value :=
  match v with
  | Delta us | Duration us _ => let! u := new_delta (Z.abs us) in Ok (Delta u)
  | Number n => Ok (Number (Z.abs n))
  | _ => Err TypeError
  end.
Definition scale (v : value) (n : Z) : result value :=
  match v with
  | Delta us | Duration us _ => let! u := new_delta (us * n) in Ok (Delta u)
  | Number m => Ok (Number (m * n))
  | _ => Err TypeError
  end.
(** bool(v): a timedelta is false when its three fields are 0; a datetime is always true. *)
Definition truth (v : value) : bool :=
  match v with Delta us | Duration us _ => negb (us =? 0) | Number n => negb (n =? 0) | _ => true end.
(** hash(v): a class with __eq__ and no __hash__ cannot be hashed (PSDuration); the others by what they compare. *)
Definition hash (v : value) : result Z :=
  match v with Duration _ _ => Err TypeError | Delta us => Ok us | Date us z | DateTime us z _ => Ok (utc us z) | Number n => Ok n end.

(** The six comparisons.  PSDuration's own ones (_primitive.py:533-573) are used when either side is a PSDuration and both
    are timedeltas, since its reflected methods come first; datetime's know nothing of nanoseconds. *)
Inductive comparison_op := Oeq | One | Olt | Ole | Ogt | Oge.
Definition compare_z (o : comparison_op) (a b : Z) : bool :=
  match o with
  | Oeq => a =? b | One => negb (a =? b) | Olt => a <? b | Ole => a <=? b | Ogt => a >? b | Oge => a >=? b
  end.
(** A comparison both sides refuse: == and != by identity, the others raise. *)
Definition refused (o : comparison_op) : result bool :=
  match o with Oeq => Ok false | One => Ok true | _ => Err TypeError end.
(** The method Python calls on the right operand instead. *)
Definition swapped (o : comparison_op) : comparison_op :=
  match o with Olt => Ogt | Ole => Oge | Ogt => Olt | Oge => Ole | Oeq => Oeq | One => One end.
Definition d_compare (o : comparison_op) (us ns us' ns' : Z) : bool :=
  compare_z o (total_nanoseconds us ns) (total_nanoseconds us' ns').
Definition compare (o : comparison_op) (v w : value) : result bool :=
  match v, w with
  | Duration us ns, (Delta _ | Duration _ _) =>
      match as_delta w with Some (us', ns') => Ok (d_compare o us ns us' ns') | None => refused o end
  | Delta us, Duration us' ns' => Ok (d_compare (swapped o) us' ns' us 0)
  | Delta us, Delta us' => Ok (compare_z o us us')
  | (Date us z | DateTime us z _), (Date us' z' | DateTime us' z' _) =>
      if same_awareness z z' then Ok (compare_z o (utc us z) (utc us' z')) else refused o
  | Number n, Number m => Ok (compare_z o n m)
  | _, _ => refused o
  end.

(** ** The decorator, _ensure_types_and_self, _primitive.py:47-63 *)
Inductive class := CTimedelta | CDuration | CDatetime | CDateTime | CInt.
Definition class_of (v : value) : class :=
  match v with Delta _ => CTimedelta | Duration _ _ => CDuration | Date _ _ => CDatetime | DateTime _ _ _ => CDateTime | Number _ => CInt end.
Definition isinstance (v : value) (c : class) : bool :=
  match c, v with
  | CTimedelta, (Delta _ | Duration _ _) | CDuration, Duration _ _ => true
  | CDatetime, (Date _ _ | DateTime _ _ _) | CDateTime, DateTime _ _ _ => true
  | CInt, Number _ => true
  | _, _ => false
  end.
(** One call of a decorated method: the list of classes belongs to the method, not to the call, and the class of [self] is
    appended to it each time. *)
Definition wrapped {A} (func : value -> value -> A) (types_to_check : list class) (self other : value) : list class * option A :=
  let types_to_check := types_to_check ++ [class_of self] in
  (types_to_check, if existsb (isinstance other) types_to_check then Some (func self other) else None).
(** The list the decorator starts from: _ensure_types_and_self(datetime.timedelta). *)
Definition initial_types : list class := [CTimedelta].
(** A program's calls of one decorated method, one after the other. *)
Fixpoint calls {A} (func : value -> value -> A) (types_to_check : list class) (args : list (value * value)) : list class * list (option A) :=
  match args with
  | [] => (types_to_check, [])
  | (self, other) :: rest =>
      let (t, a) := wrapped func types_to_check self other in
      let (t, l) := calls func t rest in (t, a :: l)
  end.
