(* C30-C34: UTCTime.  nanos: position on the time line; normal / almost_normal: nsec in [0,10^9) / [0,10^9]. *)
From Verif Require Import Base UtcModel UtcSpec UtcProofs.

(* ---- C30 *)
Theorem C30_less_is_time_order a b : normal a -> normal b -> (utc_lt a b = true <-> nanos a < nanos b).
Proof. exact (lt_spec a b). Qed.
Print Assumptions C30_less_is_time_order.
Theorem C30_greater_is_time_order a b : normal a -> normal b -> (utc_gt a b = true <-> nanos b < nanos a).
Proof. exact (gt_spec a b). Qed.
Print Assumptions C30_greater_is_time_order.
Theorem C30_equal_is_time_equality a b : normal a -> normal b -> (utc_eq a b = true <-> nanos a = nanos b).
Proof. exact (eq_spec a b). Qed.
Print Assumptions C30_equal_is_time_equality.
(* also for times that are not normalised: exactly one of the three holds *)
Theorem C30_exactly_one a b :
  (utc_lt a b = true /\ utc_eq a b = false /\ utc_gt a b = false) \/
  (utc_lt a b = false /\ utc_eq a b = true /\ utc_gt a b = false) \/
  (utc_lt a b = false /\ utc_eq a b = false /\ utc_gt a b = true).
Proof. exact (trichotomy a b). Qed.
Print Assumptions C30_exactly_one.
Theorem C30_transitive a b c : utc_lt a b = true -> utc_lt b c = true -> utc_lt a c = true.
Proof. exact (lt_trans a b c). Qed.
Print Assumptions C30_transitive.
(* the order is not the time order once nsec = 10^9 occurs, which + produces (C31) *)
Theorem C30_same_instant_compares_unequal s :
  nanos (mkUtc s 1000000000) = nanos (mkUtc (s + 1) 0) /\
  utc_lt (mkUtc s 1000000000) (mkUtc (s + 1) 0) = true /\ utc_eq (mkUtc s 1000000000) (mkUtc (s + 1) 0) = false.
Proof. exact (unnormal_unequal s). Qed.
Print Assumptions C30_same_instant_compares_unequal.
(* src/test/test_time.cpp CompareNsec *)
Example C30_case : normal (mkUtc 1564005746 1234) /\ normal (mkUtc 1564005746 1235) /\
  utc_lt (mkUtc 1564005746 1234) (mkUtc 1564005746 1235) = true.
Proof. unfold normal. cbn. lia. Qed.

(* ---- C31 *)
Theorem C31_addition_exact a b : almost_normal a -> almost_normal b -> fits (sec a + sec b) ->
  exists t, utc_add a b = Ok t /\ nanos t = nanos a + nanos b /\ almost_normal t /\
    (nsec t = 1000000000 <-> nsec a + nsec b = 1000000000 \/ nsec a + nsec b = 2000000000).
Proof. exact (add_spec a b). Qed.
Print Assumptions C31_addition_exact.
Theorem C31_subtraction_exact a b : almost_normal a -> almost_normal b -> fits (sec a - sec b) ->
  exists t, utc_sub a b = Ok t /\ nanos t = nanos a - nanos b /\ almost_normal t /\
    (normal a -> normal b -> normal t).
Proof. exact (sub_spec a b). Qed.
Print Assumptions C31_subtraction_exact.
Theorem C31_constructor s n : - 2 ^ 31 <= s < 2 ^ 31 -> - 2 ^ 31 <= n < 2 ^ 31 ->
  exists t, utc_make s n = Ok t /\ nanos t = s * 1000000000 + n /\
    (almost_normal t <-> -1000000000 <= n <= 2000000000).
Proof. exact (ctor_spec s n). Qed.
Print Assumptions C31_constructor.
(* src/test/test_time.cpp AddWrap; and the value 10^9 that is not carried *)
Example C31_case : utc_add (mkUtc 1564005746 500000000) (mkUtc 3 600000000) = Ok (mkUtc 1564005750 100000000) /\
  utc_add (mkUtc 1564005746 500000000) (mkUtc 3 500000000) = Ok (mkUtc 1564005749 1000000000) /\
  almost_normal (mkUtc 1564005746 500000000) /\ fits (1564005746 + 3).
Proof. vm_compute. repeat split; congruence. Qed.

(* ---- C32 *)
Theorem C32_int_drops_or_keeps_nanoseconds t n : Z.abs (sec t) < 2 ^ 52 -> - 2 ^ 31 <= n < 2 ^ 31 ->
  utc_plus_int t n = Ok (mkUtc (sec t + n) 0) /\ utc_minus_int t n = Ok (mkUtc (sec t - n) 0) /\
  utc_pluseq_int t n = Ok (mkUtc (sec t + n) (nsec t)) /\ utc_minuseq_int t n = Ok (mkUtc (sec t - n) (nsec t)).
Proof. exact (int_ops t n). Qed.
Print Assumptions C32_int_drops_or_keeps_nanoseconds.
Example C32_case : Z.abs (sec (mkUtc 1564005746 999)) < 2 ^ 52 /\
  utc_plus_int (mkUtc 1564005746 999) 1 = Ok (mkUtc 1564005747 0) /\
  utc_pluseq_int (mkUtc 1564005746 999) 1 = Ok (mkUtc 1564005747 999).
Proof. vm_compute. repeat split; congruence. Qed.
(* the bound is needed: the sum goes through a double, which cannot represent every large integer *)
Example C32_bound_needed : utc_plus_int (mkUtc (2 ^ 53) 0) 1 = Ok (mkUtc (2 ^ 53) 0).
Proof. vm_compute. reflexivity. Qed.

(* ---- C33 *)
Theorem C33_fromGPS week tow : 0 <= week -> 0 <= tow < 2 ^ 31 ->
  (week * 604800 + tow / 1000 < 2 ^ 31 ->
    exists t, fromGPS week tow = Ok t /\
      nanos t = (315964818 + week * 604800 + tow / 1000 + tow mod 1000) * 1000000000 /\
      sec t = 315964818 + week * 604800 + tow / 1000 + (if 2 <=? tow mod 1000 then 1 else 0)) /\
  (2 ^ 31 <= week * 604800 + tow / 1000 -> fromGPS week tow = UB UB_overflow).
Proof. exact (fromGPS_spec week tow). Qed.
Print Assumptions C33_fromGPS.
(* GpsWeek inverts fromGPS except in the last second of the week; the instant is right exactly for whole seconds *)
Theorem C33_week_round_trip week tow : 0 <= week <= 3549 -> 0 <= tow < 604800000 ->
  exists t, fromGPS week tow = Ok t /\
    GpsWeek t = Ok (if (604799000 <=? tow) && (2 <=? tow mod 1000) then week + 1 else week) /\
    (nanos t = (315964818 + week * 604800) * 1000000000 + tow * 1000000 <-> tow mod 1000 = 0).
Proof. exact (gps_week_roundtrip week tow). Qed.
Print Assumptions C33_week_round_trip.
Example C33_case : fromGPS 2063 382000000 = Ok (mkUtc 1564049218 0) /\ GpsWeek (mkUtc 1564049218 0) = Ok 2063 /\
  fromGPS 2063 604799500 = Ok (mkUtc 1564272018 499000000000) /\ GpsWeek (mkUtc 1564272018 499000000000) = Ok 2064.
Proof. vm_compute. auto. Qed.

(* ---- C34 *)
Theorem C34_same_moscow_day ref tod t : 0 <= sec ref + 10800 < 2147644800 -> 0 <= tod < 86400000 -> tod mod 1000 = 0 ->
  fromGlonassTimeOfDay ref tod = Ok t ->
  (sec t + 10800) / 86400 = (sec ref + 10800) / 86400 /\ (sec t + 10800) mod 86400 = tod / 1000 /\ nsec t = 0 /\
  - 86400 < sec t - sec ref < 86400.
Proof. exact (tod_same_day ref tod t). Qed.
Print Assumptions C34_same_moscow_day.
Theorem C34_value ref tod : 0 <= sec ref + 10800 < 2147644800 -> 0 <= tod < 2 ^ 30 ->
  exists t, fromGlonassTimeOfDay ref tod = Ok t /\
    nanos t = ((sec ref + 10800) / 86400 * 86400 - 10800 + tod / 1000 + tod mod 1000) * 1000000000 /\
    (tod mod 1000 = 0 -> sec t = (sec ref + 10800) / 86400 * 86400 - 10800 + tod / 1000 /\ nsec t = 0).
Proof. exact (tod_spec ref tod). Qed.
Print Assumptions C34_value.
Theorem C34_overflow_from_2038 ref tod : 2147644800 <= sec ref + 10800 < 2 ^ 31 * 604800 ->
  fromGlonassTimeOfDay ref tod = UB UB_overflow.
Proof. exact (tod_overflow ref tod). Qed.
Print Assumptions C34_overflow_from_2038.
(* "returns closest time to ref" (utctime.h): refuted *)
Theorem C34_closest_refuted : exists ref tod t,
  0 <= sec ref + 10800 /\ 0 <= tod < 86400000 /\ fromGlonassTimeOfDay ref tod = Ok t /\
  sec t - sec ref = 86399 /\ Z.abs (sec t - 86400 - sec ref) = 1.
Proof. exact tod_not_closest. Qed.
Print Assumptions C34_closest_refuted.
Example C34_case : fromGlonassTimeOfDay (mkUtc 1564005746 5) 3600000 = Ok (mkUtc 1564005600 0).
Proof. vm_compute. reflexivity. Qed.
