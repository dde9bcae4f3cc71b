(* Model of include/UBLOX/utctime.h and src/utctime.cpp (integer part; double-valued overloads are in UtcDouble). *)
From Verif Require Import Base.

Record utc := mkUtc { sec : Z; nsec : Z }.      (* two int64_t, utctime.h:33-34 *)

(* signed arithmetic: overflow is undefined behaviour *)
Definition ck32 (x : Z) : outcome Z := if (- 2 ^ 31 <=? x) && (x <? 2 ^ 31) then Ok x else UB UB_overflow.
Definition ck64 (x : Z) : outcome Z := if (- 2 ^ 63 <=? x) && (x <? 2 ^ 63) then Ok x else UB UB_overflow.

Definition E9 : Z := 1000000000.
Definition SEC_IN_WEEK : Z := 604800.
Definition SEC_IN_DAY : Z := 86400.
Definition GPS_UTC_OFFSET : Z := 315964800 + 18.    (* utctime.h:56 *)
Definition GLO_UTC_OFFSET : Z := -3 * 3600.         (* utctime.h:59 *)

(* wrapNsec utctime.cpp:252-264; nsec += E9 / nsec -= E9 is done in uint64_t and converted back (i64) *)
Definition wrapNsec (t : utc) : outcome utc :=
  if nsec t <? 0 then let* s := ck64 (sec t - 1) in Ok (mkUtc s (i64 (nsec t + E9)))
  else if E9 <? nsec t then let* s := ck64 (sec t + 1) in Ok (mkUtc s (i64 (nsec t - E9)))
  else Ok t.

(* UTCTime(int,int) utctime.cpp:41-44 *)
Definition utc_make (s n : Z) : outcome utc := wrapNsec (mkUtc s n).

(* operators > < == utctime.cpp:53-67 *)
Definition utc_gt (a b : utc) : bool :=
  if sec b <? sec a then true else if sec a <? sec b then false else if nsec b <? nsec a then true else false.
Definition utc_lt (a b : utc) : bool :=
  if sec a <? sec b then true else if sec b <? sec a then false else if nsec a <? nsec b then true else false.
Definition utc_eq (a b : utc) : bool := (sec a =? sec b) && (nsec a =? nsec b).

(* operator- / -= and + / += on UTCTime utctime.cpp:69-101 (both forms compute the same value) *)
Definition utc_sub (a b : utc) : outcome utc :=
  let* s := ck64 (sec a - sec b) in let* n := ck64 (nsec a - nsec b) in wrapNsec (mkUtc s n).
Definition utc_add (a b : utc) : outcome utc :=
  let* s := ck64 (sec a + sec b) in let* n := ck64 (nsec a + nsec b) in wrapNsec (mkUtc s n).

(* Integer-valued double arithmetic: rnd53 z is the double nearest to the integer z (ties to even). *)
Definition rnd53 (z : Z) : Z :=
  let a := Z.abs z in
  let e := Z.log2 a - 52 in
  if e <=? 0 then z else
    let q := a / 2 ^ e in
    let r := a mod 2 ^ e in
    let q' := if 2 * r <? 2 ^ e then q else if 2 ^ e <? 2 * r then q + 1 else if Z.even q then q else q + 1 in
    Z.sgn z * (q' * 2 ^ e).
(* double -> int64_t / int of an integral double *)
Definition d2i64 (z : Z) : outcome Z := if (- 2 ^ 63 <=? z) && (z <? 2 ^ 63) then Ok z else UB UB_convert.
Definition d2i32 (z : Z) : outcome Z := if (- 2 ^ 31 <=? z) && (z <? 2 ^ 31) then Ok z else UB UB_convert.

(* operator+(int) utctime.cpp:123-128 and += :129-134: std::floor(int) is a double, so the sum is a double *)
Definition utc_plus_int (t : utc) (n : Z) : outcome utc :=
  let* s := d2i64 (rnd53 (rnd53 (sec t) + n)) in Ok (mkUtc s 0).
Definition utc_pluseq_int (t : utc) (n : Z) : outcome utc :=
  let* s := d2i64 (rnd53 (rnd53 (sec t) + n)) in Ok (mkUtc s (nsec t)).
(* operator-(int) utctime.cpp:151-156 and -= :157-162: integer subtraction *)
Definition utc_minus_int (t : utc) (n : Z) : outcome utc :=
  let* s := ck64 (sec t - n) in Ok (mkUtc s 0).
Definition utc_minuseq_int (t : utc) (n : Z) : outcome utc :=
  let* s := ck64 (sec t - n) in Ok (mkUtc s (nsec t)).

(* week, GpsWeek, GlonassWeek utctime.cpp:164-185: C division truncates; std::floor makes it a double, then int *)
Definition utc_week (t : utc) : outcome Z := d2i32 (rnd53 (Z.quot (sec t) SEC_IN_WEEK)).
Definition GpsWeek (t : utc) : outcome Z :=
  let* g := ck64 (sec t - GPS_UTC_OFFSET) in d2i32 (rnd53 (Z.quot g SEC_IN_WEEK)).
Definition GlonassWeek (t : utc) : outcome Z :=
  let* g := ck64 (sec t - GLO_UTC_OFFSET) in d2i32 (rnd53 (Z.quot g SEC_IN_WEEK)).
(* GlonassDayOfWeek utctime.cpp:187-193 *)
Definition GlonassDayOfWeek (t : utc) : outcome Z :=
  let* g := ck64 (sec t - GLO_UTC_OFFSET) in
  let sow := Z.rem g SEC_IN_WEEK in Ok (Z.quot sow SEC_IN_DAY).

(* fromGPS utctime.cpp:205-212 (int arithmetic for week * SEC_IN_WEEK + tow_ms / 1000) *)
Definition fromGPS (week tow_ms : Z) : outcome utc :=
  let* a := ck32 (week * SEC_IN_WEEK) in
  let* b := ck32 (a + Z.quot tow_ms 1000) in
  wrapNsec (mkUtc (b + GPS_UTC_OFFSET) (i64 (Z.rem tow_ms 1000 * E9))).
(* fromGlonass utctime.cpp:243-250: only the product is an int *)
Definition fromGlonass (week tow_ms : Z) : outcome utc :=
  let* a := ck32 (week * SEC_IN_WEEK) in
  wrapNsec (mkUtc (a + Z.quot tow_ms 1000 + GLO_UTC_OFFSET) (i64 (Z.rem tow_ms 1000 * E9))).
(* fromGalileo utctime.cpp:225-229 *)
Definition fromGalileo := fromGPS.

(* fromGlonassTimeOfDay utctime.cpp:214-223; the product and sum are unsigned 32-bit, then converted to int *)
Definition fromGlonassTimeOfDay (ref : utc) (tod_ms : Z) : outcome utc :=
  let* w := GlonassWeek ref in
  let* d := GlonassDayOfWeek ref in
  let tow := i32 (u32 (u32 (u32 (u32 d * SEC_IN_DAY) * 1000) + tod_ms)) in
  fromGlonass (i32 (u32 w)) tow.
