(** Text forms of the scalar types: src/psrpcore/types/_primitive.py and the scalar branches of
    src/psrpcore/types/_serializer.py.  Text is a list of code points. *)
From Verif Require Import Base.

(** ** Decimal numbers *)
(** Digits of [n], least significant first; [fuel] bits are enough for n < 2^fuel. *)
Fixpoint digits (fuel : nat) (n : N) : list N :=
  match fuel with
  | O => []
  | S k => if (n <? 10)%N then [n] else (n mod 10)%N :: digits k (n / 10)
  end.
(** str(n) for a non-negative int. *)
Definition dec (n : N) : list N := map (N.add 48) (rev (digits (S (N.size_nat n)) n)).
(** str(z) for an int. *)
Definition str_int (z : Z) : list N :=
  match z with
  | Z0 => dec 0
  | Zpos p => dec (Npos p)
  | Zneg p => 45%N :: dec (Npos p)
  end.
(** f"{n:0{w}d}" for a non-negative int. *)
Definition padl (w : nat) (s : list N) : list N := repeat 48%N (w - length s) ++ s.
Definition dec_pad (w : nat) (n : N) : list N := padl w (dec n).

Definition is_digit (c : N) : bool := ((48 <=? c) && (c <=? 57))%N.
Definition digits_val (s : list N) : N := fold_left (fun a c => a * 10 + (c - 48))%N s 0%N.
(** int(text) as CPython does it: PyLong_FromUnicodeObject, that is _PyUnicode_TransformDecimalAndSpaceToASCII and then
    PyLong_FromString in base 10.  White space around the number, one sign, and single underscores between digits are
    allowed, and any decimal digits of Unicode.  Left out: recent Pythons refuse more than 4300 digits (ValueError). *)
(** The zeros of the decimal digits (Unicode 14, general category Nd); each is followed by the other nine. *)
Definition zeros : list N :=
  [48; 1632; 1776; 1984; 2406; 2534; 2662; 2790; 2918; 3046; 3174; 3302; 3430; 3558; 3664; 3792; 3872; 4160; 4240; 6112;
   6160; 6470; 6608; 6784; 6800; 6992; 7088; 7232; 7248; 42528; 43216; 43264; 43472; 43504; 43600; 44016; 65296; 66720;
   68912; 69734; 69872; 69942; 70096; 70384; 70736; 70864; 71248; 71360; 71472; 71904; 72016; 72784; 73040; 73120; 92768;
   92864; 93008; 120782; 120792; 120802; 120812; 120822; 123200; 123632; 125264; 130032]%N.
(** Py_UNICODE_TODECIMAL. *)
Definition decimal (c : N) : option N :=
  match find (fun z => (z <=? c) && (c <=? z + 9))%N zeros with Some z => Some (c - z)%N | None => None end.
(** The ASCII digit of the same value; other characters stay.  [any_digit] is what \d matches in a pattern of str. *)
Definition to_digit (c : N) : N := match decimal c with Some d => (48 + d)%N | None => c end.
Definition any_digit (c : N) : bool := is_digit (to_digit c).
(** Py_ISSPACE, and Py_UNICODE_ISSPACE from 127 on. *)
Definition ascii_space (c : N) : bool := ((9 <=? c) && (c <=? 13) || (c =? 32))%N.
Definition wide_space (c : N) : bool :=
  ((c =? 133) || (c =? 160) || (c =? 5760) || (8192 <=? c) && (c <=? 8202) || (c =? 8232) || (c =? 8233) || (c =? 8239)
   || (c =? 8287) || (c =? 12288))%N.
(** A text of ASCII characters is taken as it is; 63 is the question mark, which is in no number. *)
Definition to_ascii (c : N) : N :=
  if (c <? 127)%N then c else if wide_space c then 32%N else match decimal c with Some d => (48 + d)%N | None => 63%N end.
Fixpoint skip_spaces (s : list N) : list N := match s with c :: t => if ascii_space c then skip_spaces t else s | [] => [] end.
(** The digits after the first one. *)
Fixpoint grouped (n : N) (s : list N) : result N :=
  match s with
  | [] => Ok n
  | c :: t =>
    if is_digit c then grouped (n * 10 + (c - 48)) t
    else if (c =? 95)%N then
      match t with d :: t' => if is_digit d then grouped (n * 10 + (d - 48)) t' else Err ValueError | [] => Err ValueError end
    else Err ValueError
  end.
Definition parse_nat (s : list N) : result N :=
  match s with c :: t => if is_digit c then grouped (c - 48) t else Err ValueError | [] => Err ValueError end.
Definition parse_int (s : list N) : result Z :=
  match rev (skip_spaces (rev (skip_spaces (map to_ascii s)))) with
  | c :: t =>
    if (c =? 45)%N then (let! n := parse_nat t in Ok (- Z.of_N n)%Z)
    else if (c =? 43)%N then (let! n := parse_nat t in Ok (Z.of_N n))
    else (let! n := parse_nat (c :: t) in Ok (Z.of_N n))
  | [] => Err ValueError
  end.

(** ** The integer types, _primitive.py:585-765 *)
Inductive int_type := TByte | TSByte | TUInt16 | TInt16 | TUInt32 | TInt32 | TUInt64 | TInt64.
Definition min_value (t : int_type) : Z :=
  match t with
  | TByte => 0 | TSByte => -128 | TUInt16 => 0 | TInt16 => -32768 | TUInt32 => 0 | TInt32 => -2147483648
  | TUInt64 => 0 | TInt64 => -9223372036854775808
  end%Z.
Definition max_value (t : int_type) : Z :=
  match t with
  | TByte => 255 | TSByte => 127 | TUInt16 => 65535 | TInt16 => 32767 | TUInt32 => 4294967295
  | TInt32 => 2147483647 | TUInt64 => 18446744073709551615 | TInt64 => 9223372036854775807
  end%Z.

(** What an integer constructor may be given: nothing useful (None), a member of a Python enum with that value, an
    int, or text. *)
Inductive int_arg := ANone | AEnum (z : Z) | AInt (z : Z) | AText (s : list N).

(** PSIntegerBase.__new__, _primitive.py:106-137.  None and enum members take the early return of line 127, which
    skips the range check of line 131. *)
Definition new_int (t : int_type) (a : int_arg) : result Z :=
  match a with
  | ANone => Ok 0%Z
  | AEnum z => Ok z
  | AInt z => if ((z <? min_value t) || (z >? max_value t))%Z then Err ValueError else Ok z
  | AText s => let! z := parse_int s in
               if ((z <? min_value t) || (z >? max_value t))%Z then Err ValueError else Ok z
  end.

(** The operator methods, _primitive.py:155-203, on int operands.  Division by zero and negative shifts raise inside
    int itself; pow with a negative exponent goes through float and is left out. *)
Inductive int_op :=
| OAbs | ONeg | OPos | OInvert
| OAnd (n : Z) | OAdd (n : Z) | OFloorDiv (n : Z) | OLshift (n : Z) | OMod (n : Z) | OMul (n : Z) | OOr (n : Z)
| OPow (n : N) | ORshift (n : Z) | OSub (n : Z) | OXor (n : Z) | ODivMod (n : Z).
Definition raw_op (z : Z) (o : int_op) : result Z :=
  match o with
  | OAbs => Ok (Z.abs z) | ONeg => Ok (- z)%Z | OPos => Ok z | OInvert => Ok (- z - 1)%Z
  | OAnd n => Ok (Z.land z n) | OAdd n => Ok (z + n)%Z
  | OFloorDiv n | ODivMod n => if (n =? 0)%Z then Err RuntimeError else Ok (z / n)%Z
  | OMod n => if (n =? 0)%Z then Err RuntimeError else Ok (z mod n)%Z
  | OLshift n => if (n <? 0)%Z then Err ValueError else Ok (Z.shiftl z n)
  | ORshift n => if (n <? 0)%Z then Err ValueError else Ok (Z.shiftr z n)
  | OMul n => Ok (z * n)%Z | OOr n => Ok (Z.lor z n) | OPow n => Ok (z ^ Z.of_N n)%Z
  | OSub n => Ok (z - n)%Z | OXor n => Ok (Z.lxor z n)
  end.
Definition int_method (t : int_type) (z : Z) (o : int_op) : result Z :=
  let! r := raw_op z o in new_int t (AInt r).

(** Text of an integer element: str(int(value)).upper(), _serializer.py:750-753, and its reader
    ps_type(element.text), _serializer.py:1025. *)
Definition write_int (z : Z) : list N := str_int z.
Definition read_int (t : int_type) (s : list N) : result Z := new_int t (AText s).

(** The element type of a plain Python int, _serializer.py:740-741. *)
Definition plain_int_type (z : Z) : int_type := if (z >? 2147483647)%Z then TInt64 else TInt32.

(** ** PSChar, _primitive.py:267-285, read by PSChar(int(text)), _serializer.py:1001 *)
Definition new_char (z : Z) : result N := if ((z <? 0) || (z >? 65535))%Z then Err ValueError else Ok (Z.to_N z).
Definition write_char (c : N) : list N := str_int (Z.of_N c).
Definition read_char (s : list N) : result N := let! z := parse_int s in new_char z.

(** ** Booleans, _serializer.py:697-699 and 985-987 *)
Definition write_bool (b : bool) : list N := if b then [116; 114; 117; 101]%N else [102; 97; 108; 115; 101]%N.
(** str.lower() on ASCII letters. *)
Definition lower (s : list N) : list N := map (fun c => if ((65 <=? c) && (c <=? 90))%N then (c + 32)%N else c) s.
Definition read_bool (s : list N) : bool := list_eqb N.eqb (lower s) [116; 114; 117; 101]%N.

(** ** PSVersion, _primitive.py:968-1115 *)
Record version := mkV { v_major : N; v_minor : N; v_build : option N; v_revision : option N }.
(** The component part of __init__, _primitive.py:1029-1040. *)
Definition new_version (major minor : option N) (build revision : option N) : result version :=
  match major, minor with
  | Some a, Some b =>
    match revision, build with
    | Some _, None => Err ValueError
    | _, _ => Ok (mkV a b build revision)
    end
  | _, _ => Err ValueError
  end.
Definition version_tuple (v : version) : list N :=
  [v_major v; v_minor v] ++ match v_build v with Some b => [b] | None => [] end
  ++ match v_revision v with Some r => [r] | None => [] end.
(** "sep".join(parts) *)
Fixpoint join (sep : list N) (parts : list (list N)) : list N :=
  match parts with
  | [] => []
  | p :: r => match r with [] => p | _ => p ++ sep ++ join sep r end
  end.
(** __str__, _primitive.py:1055-1057. *)
Definition write_version (v : version) : list N := join [46]%N (map dec (version_tuple v)).
(** str.split(sep) for a one-character separator. *)
Fixpoint split_on (sep : N) (s : list N) : list (list N) :=
  match s with
  | [] => [[]]
  | c :: t => if (c =? sep)%N then [] :: split_on sep t
              else match split_on sep t with p :: r => (c :: p) :: r | [] => [[c]] end
  end.
(** One component of _VERSION_PATTERN, [0|[1-9]\d*], _primitive.py:32-40: \d is a digit of any script, and int() reads it. *)
Definition version_part (s : list N) : result N :=
  match s with
  | [] => Err ValueError
  | c :: t => if ((c =? 48)%N && match t with [] => true | _ => false end || (49 <=? c)%N && (c <=? 57)%N && forallb any_digit t)%bool
              then Ok (digits_val (map to_digit s)) else Err ValueError
  end.
(** The string part of __init__, _primitive.py:1015-1027.  The [$] of the pattern also matches before one trailing
    newline. *)
Definition drop_newline (s : list N) : list N :=
  match rev s with 10%N :: r => rev r | _ => s end.
Definition read_version (s : list N) : result version :=
  match split_on 46 (drop_newline s) with
  | [a; b] => let! x := version_part a in let! y := version_part b in Ok (mkV x y None None)
  | [a; b; c] => let! x := version_part a in let! y := version_part b in let! z := version_part c in
                 Ok (mkV x y (Some z) None)
  | [a; b; c; d] => let! x := version_part a in let! y := version_part b in let! z := version_part c in
                    let! w := version_part d in Ok (mkV x y (Some z) (Some w))
  | _ => Err ValueError
  end.
(** Python tuple comparison. *)
Fixpoint tuple_lt (a b : list N) : bool :=
  match a, b with
  | _, [] => false
  | [], _ => true
  | x :: a', y :: b' => if (x =? y)%N then tuple_lt a' b' else (x <? y)%N
  end.
Definition tuple_eq (a b : list N) : bool := list_eqb N.eqb a b.
(** _cmp with operator.eq / lt / le / gt / ge, _primitive.py:1059-1115. *)
Definition version_eq a b := tuple_eq (version_tuple a) (version_tuple b).
Definition version_lt a b := tuple_lt (version_tuple a) (version_tuple b).
Definition version_le a b := negb (tuple_lt (version_tuple b) (version_tuple a)).
Definition version_gt a b := tuple_lt (version_tuple b) (version_tuple a).
Definition version_ge a b := negb (tuple_lt (version_tuple a) (version_tuple b)).

(** ** PSDuration: a whole number of nanoseconds *)
(** datetime.timedelta limits: |days| <= 999999999. *)
Definition duration_ok (ns : Z) : bool :=
  ((-86399999913600000000000 <=? ns) && (ns <=? 86399999999999999999999))%Z.
(** PSDuration(nanoseconds=..), _primitive.py:453-472. *)
Definition new_duration (ns : Z) : result Z := if duration_ok ns then Ok ns else Err OverflowError.

(** str.rstrip(chars) *)
Fixpoint lstrip (p : N -> bool) (s : list N) : list N :=
  match s with [] => [] | c :: t => if p c then lstrip p t else s end.
Definition rstrip (p : N -> bool) (s : list N) : list N := rev (lstrip p (rev s)).

(** _serialize_duration, _serializer.py:526-568.  f"{seconds:.7f}" of the float ticks/1e7 is written with exact
    integer arithmetic: ticks < 6*10^8 there, so the float is within 1e-14 of the quotient and the seven decimals are
    the digits of ticks. *)
Definition write_duration (ns : Z) : list N :=
  let ticks := (ns / 100)%Z in
  let neg := (ticks <? 0)%Z in
  let t := Z.abs_N ticks in
  let days := (t / 864000000000)%N in
  let t1 := (t mod 864000000000)%N in
  let days_str := if (days =? 0)%N then [] else dec days ++ [68]%N in
  let time_str :=
    if ((t1 =? 0)%N && negb (days =? 0)%N)%bool then [] else
    let hours := (t1 / 36000000000)%N in
    let t2 := (t1 mod 36000000000)%N in
    let minutes := (t2 / 600000000)%N in
    let t3 := (t2 mod 600000000)%N in
    let hours_str := if (hours =? 0)%N then [] else dec hours ++ [72]%N in
    let minutes_str := if (minutes =? 0)%N then [] else dec minutes ++ [77]%N in
    let seconds_str :=
      if (negb (t3 =? 0) || ((hours =? 0) && (minutes =? 0)))%N then
        let text := dec (t3 / 10000000) ++ [46]%N ++ dec_pad 7 (t3 mod 10000000) in
        padl 1 (rstrip (fun c => (c =? 46) || (c =? 48))%N text) ++ [83]%N
      else [] in
    [84]%N ++ hours_str ++ minutes_str ++ seconds_str in
  (if neg then [45]%N else []) ++ [80]%N ++ days_str ++ time_str.

(** The longest run of digits at the start. *)
Fixpoint span_digits (s : list N) : list N * list N :=
  match s with
  | c :: t => if is_digit c then let '(a, b) := span_digits t in (c :: a, b) else ([], s)
  | [] => ([], [])
  end.
(** ((\d+)X)? : digits followed by the letter, or nothing. *)
Definition opt_unit (letter : N) (s : list N) : N * list N :=
  let '(d, r) := span_digits s in
  match d, r with
  | _ :: _, c :: r' => if (c =? letter)%N then (digits_val d, r') else (0%N, s)
  | _, _ => (0%N, s)
  end.
(** int(float(text)) of a text of digits with [k] of them behind the point, [n] being the digits as one number: the nearest
    double (53 bits, ties to the even one) without its fraction.  From 2^1024 on float() gives inf and int() raises
    OverflowError, as PSDuration does for anything near that. *)
Definition half_even (a b : N) : N :=
  let q := (a / b)%N in let r := (a mod b)%N in
  if (2 * r <? b)%N then q else if (b <? 2 * r)%N then (q + 1)%N else (q + q mod 2)%N.
Definition float_whole (n : N) (k : nat) : N :=
  let d := (10 ^ N.of_nat k)%N in
  let e := N.log2 (n / d) in
  if (n / d =? 0)%N then 0%N                              (* at most seven digits: 0.9999999 is not rounded to 1 *)
  else if (e <=? 52)%N then (half_even (n * 2 ^ (52 - e)) d / 2 ^ (52 - e))%N
  else (half_even n (d * 2 ^ (e - 52)) * 2 ^ (e - 52))%N.
(** ((\d* (\.\d{1,7})?)S)? : the seconds and the fraction digits. *)
Definition opt_seconds (s : list N) : N * list N * list N :=
  let '(d, r) := span_digits s in
  match r with
  | c :: r' =>
    if (c =? 83)%N then (float_whole (digits_val d) 0, [], r')
    else if (c =? 46)%N then
      let '(f, r2) := span_digits r' in
      match r2 with
      | c2 :: r3 => if ((c2 =? 83)%N && negb (Nat.eqb (length f) 0) && Nat.leb (length f) 7)%bool
                    then (float_whole (digits_val (d ++ f)) (length f), f, r3) else (0%N, [], s)
      | [] => (0%N, [], s)
      end
    else (0%N, [], s)
  | [] => (0%N, [], s)
  end.
Definition ljust7 (f : list N) : list N := f ++ repeat 48%N (7 - length f).
(** _deserialize_duration, _serializer.py:370-403, with _DURATION_PATTERN of lines 91-104: \d takes the digits of every
    script, and so do int() and float(); the digits are made ASCII before the text is looked at. *)
Definition parse_duration (s : list N) : result Z :=
  let '(neg, s1) := match s with c :: t => if (c =? 45)%N then (true, t) else (false, s) | [] => (false, s) end in
  match s1 with
  | c :: s2 =>
    if negb (c =? 80)%N then Err ValueError else
    match s2 with [] => Err ValueError | c2 :: _ =>
    if (c2 =? 10)%N then Err ValueError else
    let '(days, s3) := opt_unit 68 s2 in
    let fin (hours minutes seconds : N) (frac rest : list N) :=
      match drop_newline rest with
      | [] =>
        let secs := (seconds + minutes * 60 + hours * 3600 + days * 86400)%N in
        let total := (Z.of_N secs * 1000000000 + Z.of_N (digits_val (ljust7 frac)) * 100)%Z in
        new_duration (if neg then (- total)%Z else total)
      | _ => Err ValueError
      end in
    match s3 with
    | 84%N :: s4 =>
      match s4 with
      | [] => Err ValueError
      | c4 :: _ =>
        if (c4 =? 10)%N then Err ValueError else
        let '(hours, s5) := opt_unit 72 s4 in
        let '(minutes, s6) := opt_unit 77 s5 in
        let '(seconds, frac, s7) := opt_seconds s6 in
        fin hours minutes seconds frac s7
      end
    | _ => fin 0%N 0%N 0%N [] s3
    end
    end
  | [] => Err ValueError
  end.
Definition read_duration (s : list N) : result Z := parse_duration (map to_digit s).

(** ** PSDateTime, _primitive.py:316-426 *)
Record datetime := mkDT {
  dt_year : N; dt_month : N; dt_day : N; dt_hour : N; dt_minute : N; dt_second : N; dt_micro : N;
  dt_nano : N;                    (* the extra nanosecond attribute *)
  dt_tz : option Z                (* None: naive; Some m: fixed offset of m minutes (UTC is 0) *) }.
Definition is_leap (y : N) : bool := ((y mod 4 =? 0) && (negb (y mod 100 =? 0) || (y mod 400 =? 0)))%N.
Definition days_in_month (y m : N) : N :=
  if (m =? 2)%N then (if is_leap y then 29 else 28)%N
  else if ((m =? 4) || (m =? 6) || (m =? 9) || (m =? 11))%N then 30%N else 31%N.
(** datetime.datetime(..) field checks. *)
Definition datetime_ok (d : datetime) : bool :=
  ((1 <=? dt_year d) && (dt_year d <=? 9999) && (1 <=? dt_month d) && (dt_month d <=? 12)
   && (1 <=? dt_day d) && (dt_day d <=? days_in_month (dt_year d) (dt_month d))
   && (dt_hour d <=? 23) && (dt_minute d <=? 59) && (dt_second d <=? 59) && (dt_micro d <=? 999999))%N
  && match dt_tz d with Some m => ((-1440 <? m) && (m <? 1440))%Z | None => true end.

(** strftime("%z") for a whole-minute offset: sign, HH, MM. *)
Definition strf_z (m : Z) : list N :=
  (if (m <? 0)%Z then [45]%N else [43]%N) ++ dec_pad 2 (Z.abs_N m / 60) ++ dec_pad 2 (Z.abs_N m mod 60).
(** _serialize_datetime, _serializer.py:489-523.  strftime("%Y") is modelled as four digits: what glibc writes for
    years from 1000 on. *)
Definition write_datetime (d : datetime) : list N :=
  let fraction :=
    if (negb (dt_micro d =? 0) || negb (dt_nano d =? 0))%N then
      [46]%N ++ dec_pad 6 (dt_micro d) ++ (if (dt_nano d =? 0)%N then [] else dec (dt_nano d / 100))
    else [] in
  let tz := match dt_tz d with
            | None => []
            | Some m => if (m =? 0)%Z then [90]%N
                        else firstn 3 (strf_z m) ++ [58]%N ++ skipn 3 (strf_z m)
            end in
  dec_pad 4 (dt_year d) ++ [45]%N ++ dec_pad 2 (dt_month d) ++ [45]%N ++ dec_pad 2 (dt_day d) ++ [84]%N
  ++ dec_pad 2 (dt_hour d) ++ [58]%N ++ dec_pad 2 (dt_minute d) ++ [58]%N ++ dec_pad 2 (dt_second d)
  ++ fraction ++ tz.

(** Exactly [n] digits. *)
Definition take_digits (n : nat) (s : list N) : result (N * list N) :=
  let d := firstn n s in
  if (Nat.eqb (length d) n && forallb is_digit d)%bool then Ok (digits_val d, skipn n s) else Err ValueError.
Definition expect (c : N) (s : list N) : result (list N) :=
  match s with x :: t => if (x =? c)%N then Ok t else Err ValueError | [] => Err ValueError end.

(** \d and its value in int(): a decimal digit of any script. *)
Fixpoint span_any (s : list N) : list N * list N :=
  match s with
  | c :: t => if any_digit c then let '(a, b) := span_any t in (c :: a, b) else ([], s)
  | [] => ([], [])
  end.
(** _DATETIME_TZ_OFFSET_PATTERN.search, _serializer.py:86,343: the leftmost sign, one or two digits, colon, one or two
    digits at the end of the string or before a line feed there.  Returns what [datetime_str[:-len(group)]] is, which in the
    second case still has the sign, and the parts. *)
Definition tz_at (s : list N) : option (list N * (bool * N * N)) :=
  match s with
  | c :: t =>
    if ((c =? 43) || (c =? 45))%N then
      let '(h, r) := span_any t in
      match r with
      | col :: r2 =>
        let '(m, r3) := span_any r2 in
        if ((col =? 58)%N && negb (Nat.eqb (length h) 0) && Nat.leb (length h) 2
            && negb (Nat.eqb (length m) 0) && Nat.leb (length m) 2)%bool
        then
          let parts := ((c =? 45)%N, digits_val (map to_digit h), digits_val (map to_digit m)) in
          match r3 with
          | [] => Some ([], parts)
          | x :: r4 => if ((x =? 10)%N && Nat.eqb (length r4) 0)%bool then Some ([c], parts) else None
          end
        else None
      | [] => None
      end
    else None
  | [] => None
  end.
Fixpoint find_tz (s : list N) : option (list N * (bool * N * N)) :=
  match tz_at s with
  | Some x => Some x
  | None => match s with
            | [] => None
            | c :: t => match find_tz t with Some (p, x) => Some (c :: p, x) | None => None end
            end
  end.

(** The patterns of %m %d %H %M %S in the _strptime module of Python's library: pairs of character classes, or one character of
    one class.  The first that fits is taken; with another one a digit would be left over where a separator has to follow. *)
Definition field (pairs : list ((N -> bool) * (N -> bool))) (one : N -> bool) (s : list N) : result (N * list N) :=
  let num c := (to_digit c - 48)%N in                      (* 0 for the blank of " 1" *)
  match s with
  | a :: b :: t =>
    if existsb (fun p => fst p a && snd p b)%bool pairs then Ok (10 * num a + num b, t)%N
    else if one a then Ok (num a, b :: t) else Err ValueError
  | [a] => if one a then Ok (num a, []) else Err ValueError
  | [] => Err ValueError
  end.
Definition within (a b c : N) : bool := ((a <=? c) && (c <=? b))%N.
Definition month_field := field [(N.eqb 49, within 48 50); (N.eqb 48, within 49 57)]%N (within 49 57).
Definition day_field :=
  field [(N.eqb 51, within 48 49); (within 49 50, any_digit); (N.eqb 48, within 49 57); (N.eqb 32, within 49 57)]%N (within 49 57).
Definition hour_field := field [(N.eqb 50, within 48 51); (within 48 49, any_digit)]%N any_digit.
Definition minute_field := field [(within 48 53, any_digit)]%N any_digit.
Definition second_field := field [(N.eqb 54, within 48 49); (within 48 53, any_digit)]%N any_digit.
Definition year_field (s : list N) : result (N * list N) :=
  let d := firstn 4 s in
  if (Nat.eqb (length d) 4 && forallb any_digit d)%bool then Ok (digits_val (map to_digit d), skipn 4 s) else Err ValueError.
(** Letters match in either case. *)
Definition expect_T (s : list N) : result (list N) :=
  match s with x :: t => if ((x =? 84) || (x =? 116))%N then Ok t else Err ValueError | [] => Err ValueError end.
(** datetime.strptime with "%Y-%m-%dT%H:%M:%S", ".%f" and "%z".  %f is one to six ASCII digits.  %z is only used on a text that
    ends in a sign and four ASCII digits, so its longer forms and its Z always leave something over. *)
Definition strptime (s : list N) (with_fraction with_zone : bool) : result datetime :=
  let! '(y, s1) := year_field s in let! s2 := expect 45 s1 in
  let! '(mo, s3) := month_field s2 in let! s4 := expect 45 s3 in
  let! '(d, s5) := day_field s4 in let! s6 := expect_T s5 in
  let! '(h, s7) := hour_field s6 in let! s8 := expect 58 s7 in
  let! '(mi, s9) := minute_field s8 in let! s10 := expect 58 s9 in
  let! '(se, s11) := second_field s10 in
  let! '(us, s12) :=
    (if with_fraction then
       let! t := expect 46 s11 in
       let '(f, r) := span_digits t in
       if ((Nat.eqb (length f) 0) || negb (Nat.leb (length f) 6))%bool then Err ValueError
       else Ok (digits_val (f ++ repeat 48%N (6 - length f)), r)
     else Ok (0%N, s11)) in
  let! '(tz, s13) :=
    (if with_zone then
       match s12 with
       | c :: t =>
         if negb ((c =? 43) || (c =? 45))%N then Err ValueError else
         let! '(zh, t1) := take_digits 2 t in let! '(zm, t2) := take_digits 2 t1 in
         if (zm <? 60)%N then
           let m := (Z.of_N zh * 60 + Z.of_N zm)%Z in
           Ok (Some (if (c =? 45)%N then (- m)%Z else m), t2)
         else Err ValueError
       | [] => Err ValueError
       end
     else Ok (None, s12)) in
  match s13 with
  | [] => let r := mkDT y mo d h mi se us 0 tz in if datetime_ok r then Ok r else Err ValueError
  | _ => Err ValueError
  end.

(** The fraction part, lines 322-341, with _DATETIME_FRACTION_PATTERN of line 82: the rewritten text, which ends at the first
    line feed, and the extra nanoseconds.  From ten digits on Python's are a float, but strptime then refuses the rest. *)
Fixpoint first_line (s : list N) : list N := match s with c :: t => if (c =? 10)%N then [] else c :: first_line t | [] => [] end.
Definition split_fraction (value : list N) : list N * N :=
  match skipn 19 value with
  | c :: t =>
    let '(f, r) := span_any t in
    if ((c =? 46)%N && negb (Nat.eqb (length f) 0))%bool then
      if Nat.ltb 6 (length f) then
        (firstn 19 value ++ [46]%N ++ removelast f ++ first_line r,
         (to_digit (last f 48) - 48) * 10 ^ N.of_nat (9 - length f))%N
      else (firstn 19 value ++ [46]%N ++ f ++ first_line r, 0%N)
    else (value, 0%N)
  | [] => (value, 0%N)
  end.
(** The zone part, lines 343-358: the rewritten text and whether %z is used. *)
Definition rewrite_zone (s : list N) : list N * bool :=
  match find_tz s with
  | Some (p, (neg, h, m)) => (p ++ (if neg then [45]%N else [43]%N) ++ dec_pad 2 h ++ dec_pad 2 m, true)
  | None => match rev s with
            | c :: r => if (c =? 90)%N then (rev r ++ [43; 48; 48; 48; 48]%N, true) else (s, false)
            | [] => (s, false)
            end
  end.
(** _deserialize_datetime, _serializer.py:305-367. *)
Definition read_datetime (value : list N) : result datetime :=
  let '(str1, nano) := split_fraction value in
  let '(str2, zoned) := rewrite_zone str1 in
  let! d := (match strptime str2 true zoned with
             | Ok d => Ok d
             | Err ValueError => strptime str2 false zoned
             | Err e => Err e
             end) in
  Ok (mkDT (dt_year d) (dt_month d) (dt_day d) (dt_hour d) (dt_minute d) (dt_second d) (dt_micro d) nano (dt_tz d)).
