(* operator<<(std::ostream&, const UTCTime&), utctime.cpp:266-278. *)
From Coq Require Import String.
From Verif Require Import Base UtcModel ExShow.
Local Open Scope string_scope.
Local Open Scope Z_scope.

(* gmtime: library function (ISO C, POSIX): the date and time of day of the given number of seconds since 1970-01-01 00:00:00, Gregorian calendar, no
   leap seconds.  Written here as an algorithm over 400-year cycles that start on 1 March; UtcShowThm.v shows that it counts the days of the calendar one by one,
   so that any library meeting the contract computes the same. *)
Definition civil (n : Z) : Z * Z * Z :=
  let z := n + 719468 in
  let era := z / 146097 in
  let doe := z mod 146097 in
  let yoe := (doe - doe / 1460 + doe / 36524 - doe / 146096) / 365 in
  let doy := doe - (365 * yoe + yoe / 4 - yoe / 100) in
  let mp := (5 * doy + 2) / 153 in
  let d := doy - (153 * mp + 2) / 5 + 1 in
  let m := if mp <? 10 then mp + 3 else mp - 9 in
  (yoe + era * 400 + (if m <=? 2 then 1 else 0), m, d).
(* tm_year is an int: when the year does not fit, gmtime returns a null pointer, which is read through (counted as a load outside any object) *)
Definition gmtime_date (s : Z) : outcome (Z * Z * Z) :=
  let '(y, m, d) := civil (s / 86400) in
  if (- 2 ^ 31 <=? y - 1900) && (y - 1900 <? 2 ^ 31) then Ok (y, m, d) else UB UB_oob_read.

(* utctime.cpp:268-277.  The double `sec` is computed and not used (the sum cannot fail); the int `week` is converted from a double and not used.
   1900 + tm_year is an int sum *)
Definition show_utc (t : utc) : outcome string :=
  let* _ := d2i32 (rnd53 (Z.quot (sec t) SEC_IN_WEEK)) in
  let* r := gmtime_date (sec t) in
  let '(y, m, d) := r in
  let* y' := ck32 y in
  let s := sec t mod 86400 in
  Ok (dec y' ++ "/" ++ dec m ++ "/" ++ dec d ++ " " ++ dec (s / 3600) ++ ":" ++ dec (s mod 3600 / 60) ++ ":" ++ dec (s mod 60)).
