(* C61: the double-valued members of UTCTime.  dQ x is the rational number a double denotes; is_dbl x says that it has a
   53-bit significand, i.e. that it is a finite binary64. *)
From Coq Require Import QArith Qabs Qround.
From Verif Require Import Base UtcModel UtcSpec Dbl UtcDouble.
Local Open Scope Z_scope.

(* UTCTime(x) for 0 <= x < 2^32: the whole second is the floor, the instant is x to within 1 ns plus half a unit in
   the last place of x * 10^9, and no second is lost between the two members *)
Theorem C61_constructor x : is_dbl x -> (0 <= dQ x)%Q -> (dQ x < inject_Z (2 ^ 32))%Q ->
  exists t, utc_of_double x = Ok t /\ normal t /\ sec t = Qfloor (dQ x) /\
    (Qabs (inject_Z (nanos t) - dQ x * inject_Z 1000000000) <= 1 + dQ x * (1000000000 # 9007199254740992))%Q.
Proof. exact (of_double_Q x). Qed.
Print Assumptions C61_constructor.
(* t + x and t - x move t by the same number n of nanoseconds, which is x to the same accuracy; + and - cancel exactly.
   The compound assignments += and -= run the same statements on *this and are modelled by the same functions. *)
Theorem C61_add_subtract t x : is_dbl x -> (0 <= dQ x)%Q -> (dQ x < inject_Z (2 ^ 32))%Q -> almost_normal t -> Z.abs (sec t) < 2 ^ 51 ->
  exists n r r', (Qabs (inject_Z n - dQ x * inject_Z 1000000000) <= 1 + dQ x * (1000000000 # 9007199254740992))%Q /\
    utc_plus_d t x = Ok r /\ almost_normal r /\ nanos r = nanos t + n /\
    utc_minus_d t x = Ok r' /\ almost_normal r' /\ nanos r' = nanos t - n /\
    (exists b, utc_minus_d r x = Ok b /\ nanos b = nanos t) /\ (exists b, utc_plus_d r' x = Ok b /\ nanos b = nanos t).
Proof. exact (plus_minus_Q t x). Qed.
Print Assumptions C61_add_subtract.
(* negative arguments never work: undefined behaviour, or exactly one second off *)
Theorem C61_negative_arguments_refuted x : is_dbl x -> (dQ x < 0)%Q ->
  (utc_of_double x = UB UB_convert \/ utc_of_double x = Ok (mkUtc (-1) 0)) /\
  forall t, almost_normal t -> Z.abs (sec t) < 2 ^ 52 ->
    (utc_plus_d t x = UB UB_convert \/ utc_plus_d t x = Ok (mkUtc (sec t - 1) (nsec t))) /\
    (utc_minus_d t x = UB UB_convert \/ utc_minus_d t x = Ok (mkUtc (sec t + 1) (nsec t))).
Proof. exact (neg_ops x). Qed.
Print Assumptions C61_negative_arguments_refuted.
Theorem C61_negative_nanosecond_undefined x : is_dbl x -> (dQ x <= - (1 # 1000000000))%Q ->
  utc_of_double x = UB UB_convert /\ forall t, utc_plus_d t x = UB UB_convert /\ utc_minus_d t x = UB UB_convert.
Proof. exact (neg_undefined x). Qed.
Print Assumptions C61_negative_nanosecond_undefined.
(* toSec: within (|sec| + 4) 2^-53 s of the instant, monotone, and back within a microsecond *)
Theorem C61_toSec_accuracy t : normal t -> Z.abs (sec t) <= 2 ^ 53 ->
  (Qabs (dQ (toSec t) - inject_Z (nanos t) / inject_Z 1000000000) <= inject_Z (Z.abs (sec t) + 4) / inject_Z (2 ^ 53))%Q.
Proof. exact (toSec_err t). Qed.
Print Assumptions C61_toSec_accuracy.
Theorem C61_toSec_monotone a b : normal a -> normal b -> Z.abs (sec a) <= 2 ^ 53 -> Z.abs (sec b) <= 2 ^ 53 -> nanos a <= nanos b ->
  (dQ (toSec a) <= dQ (toSec b))%Q.
Proof. exact (toSec_monotone a b). Qed.
Print Assumptions C61_toSec_monotone.
Theorem C61_toSec_round_trip t : normal t -> 0 <= sec t < 2 ^ 32 ->
  exists r, utc_of_double (toSec t) = Ok r /\ normal r /\ Z.abs (nanos r - nanos t) <= 955.
Proof. exact (toSec_round_trip t). Qed.
Print Assumptions C61_toSec_round_trip.

(* the doubles 0.1 and 3.6, and the tests Plus, PlusWrap, Minus, MinusWrap of src/test/test_time.cpp *)
Definition d01 : dbl := mkD 3602879701896397 (-55).
Definition d36 : dbl := mkD 8106479329266893 (-51).
Example C61_case : is_dbl d01 /\ is_dbl d36 /\ (0 <= dQ d36)%Q /\ (dQ d36 < inject_Z (2 ^ 32))%Q /\
  utc_plus_d (mkUtc 1564005746 1234) d01 = Ok (mkUtc 1564005746 100001234) /\
  utc_plus_d (mkUtc 1564005746 500000000) d36 = Ok (mkUtc 1564005750 100000000) /\
  utc_minus_d (mkUtc 1564005746 500000000) d01 = Ok (mkUtc 1564005746 400000000) /\
  utc_minus_d (mkUtc 1564005746 500000000) d36 = Ok (mkUtc 1564005742 900000000).
Proof.
  split; [exists 3602879701896397, 0; vm_compute; repeat split; congruence|].
  split; [exists 8106479329266893, 0; vm_compute; repeat split; congruence|]. vm_compute. repeat split; congruence.
Qed.
(* the bound on x is needed: at x = 4611686021 s the product rounds below the second and the result is 1 s late *)
Example C61_bound_needed : utc_of_double (mkD 4611686021 0) = Ok (mkUtc 4611686021 999999488).
Proof. vm_compute. reflexivity. Qed.
(* -0.5 ns, as an addend, subtracts a second; -0.1 s is undefined *)
Example C61_negative_case : utc_plus_d (mkUtc 1564005746 1234) (mkD (-4835703278458517) (-83)) = Ok (mkUtc 1564005745 1234) /\
  utc_plus_d (mkUtc 1564005746 1234) (mkD (-3602879701896397) (-55)) = UB UB_convert.
Proof. vm_compute. auto. Qed.
(* src/test/test_eph.cpp:200 UTCTime(1563660018); a sum that is 10^9 ns and is not carried (cf. C31) *)
Example C61_case_more : utc_of_double (mkD 1563660018 0) = Ok (mkUtc 1563660018 0) /\
  utc_plus_d (mkUtc 5 500000000) (mkD 1 (-1)) = Ok (mkUtc 5 1000000000) /\
  utc_of_double (toSec (mkUtc 1564005746 1234)) = Ok (mkUtc 1564005746 1280).
Proof. vm_compute. auto. Qed.
