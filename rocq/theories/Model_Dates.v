(** Date-times in full, and the texts that dates, durations and characters show.

    Model_Scalars writes the date-times with a four-digit year and an offset of whole minutes.  Here are all of them: the
    offset of a clock from UTC is any number of microseconds, as Python's tzinfo allows, and the year is written as the
    platform's strftime writes it. *)
From Verif Require Import Base Model_Scalars Model_Strings Model_Utf8.
From Verif Require Model_Time.

(** strftime("%Y"): padded to four digits or, with glibc (before CPython took the padding over), not padded at all. *)
Definition strf_year (padded : bool) (y : N) : list N := if padded then dec_pad 4 y else dec y.
(** strftime("%z") of an offset in microseconds: sign, hours and minutes; the seconds only if there are some; their
    fraction only if there is one.  The sign is that of the timedelta's days. *)
Definition strf_offset (off : Z) : list N :=
  let a := Z.abs_N off in
  let s := (a / 1000000)%N in
  let us := (a mod 1000000)%N in
  (if (off <? 0)%Z then [45]%N else [43]%N) ++ dec_pad 2 (s / 3600) ++ dec_pad 2 (s / 60 mod 60)
  ++ (if ((s mod 60 =? 0) && (us =? 0))%N then [] else dec_pad 2 (s mod 60))
  ++ (if (us =? 0)%N then [] else [46]%N ++ dec_pad 6 us).
(** _serialize_datetime, _serializer.py:489-523.  [off] is the offset of the clock; [dt_tz] of [d] is not used.
    Simplified: the nanosecond attribute is not negative, and every tzinfo whose offset is 0 counts as
    datetime.timezone.utc (another one is written +00:00, which reads as the same offset). *)
Definition write_date (padded : bool) (d : datetime) (off : option Z) : list N :=
  let fraction :=
    if (negb (dt_micro d =? 0) || negb (dt_nano d =? 0))%N then
      [46]%N ++ dec_pad 6 (dt_micro d) ++ (if (dt_nano d =? 0)%N then [] else dec (dt_nano d / 100))
    else [] in
  let tz := match off with
            | None => []
            | Some o => if (o =? 0)%Z then [90]%N
                        else firstn 3 (strf_offset o) ++ [58]%N ++ skipn 3 (strf_offset o)
            end in
  strf_year padded (dt_year d) ++ [45]%N ++ dec_pad 2 (dt_month d) ++ [45]%N ++ dec_pad 2 (dt_day d) ++ [84]%N
  ++ dec_pad 2 (dt_hour d) ++ [58]%N ++ dec_pad 2 (dt_minute d) ++ [58]%N ++ dec_pad 2 (dt_second d)
  ++ fraction ++ tz.

(** PSDateTime.__str__, _primitive.py:369-390.  The seconds of the offset are dropped. *)
Definition date_str (d : datetime) (off : option Z) : list N :=
  let date := dec_pad 4 (dt_year d) ++ [45]%N ++ dec_pad 2 (dt_month d) ++ [45]%N ++ dec_pad 2 (dt_day d) in
  let time := dec_pad 2 (dt_hour d) ++ [58]%N ++ dec_pad 2 (dt_minute d) ++ [58]%N ++ dec_pad 2 (dt_second d)
              ++ (if (negb (dt_micro d =? 0) || negb (dt_nano d =? 0))%N then
                    [46]%N ++ dec_pad 6 (dt_micro d) ++ (if (dt_nano d =? 0)%N then [] else dec_pad 3 (dt_nano d))
                  else []) in
  let offset := match off with
                | None => []
                | Some o =>
                  let a := Z.abs_N o in
                  (if (o <? 0)%Z then [45]%N else [43]%N)
                  ++ dec_pad 2 (a / 3600000000) ++ [58]%N ++ dec_pad 2 (a mod 3600000000 / 60000000)
                end in
  date ++ [32]%N ++ time ++ offset.

(** PSDuration.__str__, _primitive.py:486-502. *)
Definition duration_str (us ns : Z) : list N :=
  let d := Model_Time.days us in
  let day := if (d =? 0)%Z then []
             else str_int d ++ [32; 100; 97; 121]%N ++ (if (Z.abs d =? 1)%Z then [] else [115]%N) ++ [44; 32]%N in
  let s := Z.to_N (Model_Time.seconds us) in
  let micro := Z.to_N (Model_Time.microseconds us) in
  let nano := Z.to_N ns in
  day ++ dec (s / 60 / 60) ++ [58]%N ++ dec_pad 2 (s / 60 mod 60) ++ [58]%N ++ dec_pad 2 (s mod 60)
  ++ (if (negb (micro =? 0) || negb (nano =? 0))%N then
        [46]%N ++ dec_pad 6 micro ++ (if (nano =? 0)%N then [] else dec_pad 3 nano)
      else []).
(** PSDuration.__repr__, _primitive.py:474-484: the keyword arguments it names, with their values. *)
Definition duration_repr (us ns : Z) : list (nat * Z) :=
  filter (fun kv => negb (snd kv =? 0)%Z)
    [(0, Model_Time.days us); (1, Model_Time.seconds us); (2, Model_Time.microseconds us); (3, ns)].
(** PSDuration(days=.., seconds=.., microseconds=.., nanoseconds=..), _primitive.py:447-472: an argument not given is 0. *)
Definition given (k : nat) (args : list (nat * Z)) : Z :=
  match find (fun kv => Nat.eqb (fst kv) k) args with Some (_, v) => v | None => 0%Z end.
Definition duration_call (args : list (nat * Z)) : result Model_Time.value :=
  let! td := Model_Time.new_delta (given 0 args * Model_Time.us_per_day + given 1 args * Model_Time.us_per_second
                                   + given 2 args)%Z in
  Model_Time.new_duration (given 3 args) td 0.

(** PSChar.__new__ on a string, _primitive.py:267-285; encode("utf-16-le") refuses surrogates, struct.unpack needs two
    bytes. *)
Definition char_of_text (s : list N) : result N :=
  if existsb is_surrogate s then Err UnicodeError else
  match flat_map utf16 s with
  | [] => Err StructError
  | [u] => new_char (Z.of_N u)
  | _ => Err ValueError
  end.
(** PSChar.__new__ on a byte string, _primitive.py:270-271. *)
Definition char_of_bytes (b : list N) : result N := let! s := utf8_decode b in char_of_text s.
(** PSChar.__str__, _primitive.py:290-292. *)
Definition char_str (c : N) : list N := [c].
