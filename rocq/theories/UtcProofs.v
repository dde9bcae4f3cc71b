(* Proofs about UTCTime (C30-C34). *)
From Verif Require Import Base UtcModel UtcSpec.

Ltac consts := unfold E9, SEC_IN_WEEK, SEC_IN_DAY, GPS_UTC_OFFSET, GLO_UTC_OFFSET in *.
Ltac p2 := change (2 ^ 31) with 2147483648 in *; change (2 ^ 32) with 4294967296 in *;
  change (2 ^ 63) with 9223372036854775808 in *; change (2 ^ 64) with 18446744073709551616 in *.

Lemma ck64_ok x : - 2 ^ 63 <= x < 2 ^ 63 -> ck64 x = Ok x.
Proof. intros H. unfold ck64. replace ((- 2 ^ 63 <=? x) && (x <? 2 ^ 63)) with true by lia. reflexivity. Qed.
Lemma ck32_ok x : - 2 ^ 31 <= x < 2 ^ 31 -> ck32 x = Ok x.
Proof. intros H. unfold ck32. replace ((- 2 ^ 31 <=? x) && (x <? 2 ^ 31)) with true by lia. reflexivity. Qed.
Lemma ck32_ub x : ~ (- 2 ^ 31 <= x < 2 ^ 31) -> ck32 x = UB UB_overflow.
Proof. intros H. unfold ck32. replace ((- 2 ^ 31 <=? x) && (x <? 2 ^ 31)) with false by lia. reflexivity. Qed.

Lemma i64_id x : - 2 ^ 63 <= x < 2 ^ 63 -> i64 x = x.
Proof.
  intros H. unfold i64, sgn. change (2 ^ (64 - 1)) with (2 ^ 63). p2.
  destruct (x mod 18446744073709551616 <? 9223372036854775808) eqn:E; lia.
Qed.
Lemma i32_id x : - 2 ^ 31 <= x < 2 ^ 31 -> i32 x = x.
Proof.
  intros H. unfold i32, sgn. change (2 ^ (32 - 1)) with (2 ^ 31). p2.
  destruct (x mod 4294967296 <? 2147483648) eqn:E; lia.
Qed.
Lemma i32_u32 x : - 2 ^ 31 <= x < 2 ^ 31 -> i32 (u32 x) = x.
Proof.
  intros H. unfold i32, u32, sgn. change (2 ^ (32 - 1)) with (2 ^ 31). p2.
  destruct ((x mod 4294967296) mod 4294967296 <? 2147483648) eqn:E; lia.
Qed.

Lemma rnd53_small z : Z.abs z < 2 ^ 53 -> rnd53 z = z.
Proof.
  intros H. unfold rnd53. cbv zeta. destruct (Z.eq_dec z 0) as [->|Hne]; [reflexivity|].
  assert (Z.log2 (Z.abs z) < 53) by (apply Z.log2_lt_pow2; lia).
  replace (Z.log2 (Z.abs z) - 52 <=? 0) with true by lia. reflexivity.
Qed.
Lemma d2i64_ok x : - 2 ^ 63 <= x < 2 ^ 63 -> d2i64 x = Ok x.
Proof. intros H. unfold d2i64. replace ((- 2 ^ 63 <=? x) && (x <? 2 ^ 63)) with true by lia. reflexivity. Qed.
Lemma d2i32_ok x : - 2 ^ 31 <= x < 2 ^ 31 -> d2i32 x = Ok x.
Proof. intros H. unfold d2i32. replace ((- 2 ^ 31 <=? x) && (x <? 2 ^ 31)) with true by lia. reflexivity. Qed.

(* ------------------------------------------------ C30 *)
Lemma lt_spec a b : normal a -> normal b -> (utc_lt a b = true <-> nanos a < nanos b).
Proof.
  unfold normal, nanos, utc_lt. intros Ha Hb.
  destruct (Z.ltb_spec (sec a) (sec b)); [split; [lia|reflexivity]|].
  destruct (Z.ltb_spec (sec b) (sec a)); [split; [discriminate|lia]|].
  destruct (Z.ltb_spec (nsec a) (nsec b)); split; try discriminate; try reflexivity; lia.
Qed.
Lemma gt_spec a b : normal a -> normal b -> (utc_gt a b = true <-> nanos b < nanos a).
Proof.
  unfold normal, nanos, utc_gt. intros Ha Hb.
  destruct (Z.ltb_spec (sec b) (sec a)); [split; [lia|reflexivity]|].
  destruct (Z.ltb_spec (sec a) (sec b)); [split; [discriminate|lia]|].
  destruct (Z.ltb_spec (nsec b) (nsec a)); split; try discriminate; try reflexivity; lia.
Qed.
Lemma eq_spec a b : normal a -> normal b -> (utc_eq a b = true <-> nanos a = nanos b).
Proof. unfold normal, nanos, utc_eq. intros Ha Hb. lia. Qed.

(* without normalisation the lexicographic order still is a strict total order, but no longer the time order *)
Lemma trichotomy a b : (utc_lt a b = true /\ utc_eq a b = false /\ utc_gt a b = false) \/
  (utc_lt a b = false /\ utc_eq a b = true /\ utc_gt a b = false) \/
  (utc_lt a b = false /\ utc_eq a b = false /\ utc_gt a b = true).
Proof.
  unfold utc_lt, utc_eq, utc_gt.
  destruct (Z.ltb_spec (sec a) (sec b)), (Z.ltb_spec (sec b) (sec a)), (Z.ltb_spec (nsec a) (nsec b)),
    (Z.ltb_spec (nsec b) (nsec a)), (Z.eqb_spec (sec a) (sec b)), (Z.eqb_spec (nsec a) (nsec b)); cbn; try lia; tauto.
Qed.

(* ------------------------------------------------ C31 *)
Lemma wrap_spec s n : fits s -> - 1000000000 <= n <= 2000000000 ->
  exists t, wrapNsec (mkUtc s n) = Ok t /\ nanos t = s * 1000000000 + n /\ almost_normal t /\
    (nsec t = 1000000000 <-> n = 1000000000 \/ n = 2000000000).
Proof.
  unfold fits, wrapNsec, almost_normal, nanos. intros Hs Hn. cbn [sec nsec]. consts.
  destruct (Z.ltb_spec n 0).
  - rewrite ck64_ok by lia. cbn [bind]. rewrite i64_id by (p2; lia).
    eexists. split; [reflexivity|]. cbn [sec nsec]. lia.
  - destruct (Z.ltb_spec 1000000000 n).
    + rewrite ck64_ok by lia. cbn [bind]. rewrite i64_id by (p2; lia).
      eexists. split; [reflexivity|]. cbn [sec nsec]. lia.
    + eexists. split; [reflexivity|]. cbn [sec nsec]. lia.
Qed.

Lemma add_spec a b : almost_normal a -> almost_normal b -> fits (sec a + sec b) ->
  exists t, utc_add a b = Ok t /\ nanos t = nanos a + nanos b /\ almost_normal t /\
    (nsec t = 1000000000 <-> nsec a + nsec b = 1000000000 \/ nsec a + nsec b = 2000000000).
Proof.
  unfold almost_normal. intros Ha Hb Hf. unfold utc_add. pose proof Hf as Hf'. unfold fits in Hf'.
  rewrite ck64_ok by lia. cbn [bind]. rewrite ck64_ok by (p2; lia). cbn [bind].
  destruct (wrap_spec (sec a + sec b) (nsec a + nsec b) Hf) as (t & E & H1 & H2 & H3); [lia|].
  exists t. split; [exact E|]. split; [unfold nanos in *; lia|]. split; [exact H2|exact H3].
Qed.
Lemma sub_spec a b : almost_normal a -> almost_normal b -> fits (sec a - sec b) ->
  exists t, utc_sub a b = Ok t /\ nanos t = nanos a - nanos b /\ almost_normal t /\
    (normal a -> normal b -> normal t).
Proof.
  unfold almost_normal. intros Ha Hb Hf. unfold utc_sub. pose proof Hf as Hf'. unfold fits in Hf'.
  rewrite ck64_ok by lia. cbn [bind]. rewrite ck64_ok by (p2; lia). cbn [bind].
  destruct (wrap_spec (sec a - sec b) (nsec a - nsec b) Hf) as (t & E & H1 & H2 & H3); [lia|].
  exists t. split; [exact E|]. split; [unfold nanos in *; lia|]. split; [exact H2|].
  unfold normal, almost_normal in *. lia.
Qed.

Lemma ctor_spec s n : - 2 ^ 31 <= s < 2 ^ 31 -> - 2 ^ 31 <= n < 2 ^ 31 ->
  exists t, utc_make s n = Ok t /\ nanos t = s * 1000000000 + n /\
    (almost_normal t <-> -1000000000 <= n <= 2000000000).
Proof.
  intros Hs Hn. p2. unfold utc_make, wrapNsec, nanos, almost_normal. cbn [sec nsec]. consts.
  destruct (Z.ltb_spec n 0).
  - rewrite ck64_ok by (p2; lia). cbn [bind]. rewrite i64_id by (p2; lia).
    eexists. split; [reflexivity|]. cbn [sec nsec]. lia.
  - destruct (Z.ltb_spec 1000000000 n).
    + rewrite ck64_ok by (p2; lia). cbn [bind]. rewrite i64_id by (p2; lia).
      eexists. split; [reflexivity|]. cbn [sec nsec]. lia.
    + eexists. split; [reflexivity|]. cbn [sec nsec]. lia.
Qed.

(* ------------------------------------------------ C32 *)
Lemma int_ops t n : Z.abs (sec t) < 2 ^ 52 -> - 2 ^ 31 <= n < 2 ^ 31 ->
  utc_plus_int t n = Ok (mkUtc (sec t + n) 0) /\ utc_minus_int t n = Ok (mkUtc (sec t - n) 0) /\
  utc_pluseq_int t n = Ok (mkUtc (sec t + n) (nsec t)) /\ utc_minuseq_int t n = Ok (mkUtc (sec t - n) (nsec t)).
Proof.
  intros Ht Hn. unfold utc_plus_int, utc_minus_int, utc_pluseq_int, utc_minuseq_int.
  change (2 ^ 52) with 4503599627370496 in *. p2.
  rewrite (rnd53_small (sec t)) by (change (2 ^ 53) with 9007199254740992; lia).
  rewrite rnd53_small by (change (2 ^ 53) with 9007199254740992; lia).
  rewrite d2i64_ok, ck64_ok by (p2; lia). cbn [bind]. auto.
Qed.

(* ------------------------------------------------ C33 *)
(* whole seconds and left-over milliseconds of a non-negative tow *)
Lemma fromGPS_spec week tow : 0 <= week -> 0 <= tow < 2 ^ 31 ->
  (week * 604800 + tow / 1000 < 2 ^ 31 ->
    exists t, fromGPS week tow = Ok t /\
      nanos t = (315964818 + week * 604800 + tow / 1000 + tow mod 1000) * 1000000000 /\
      sec t = 315964818 + week * 604800 + tow / 1000 + (if 2 <=? tow mod 1000 then 1 else 0)) /\
  (2 ^ 31 <= week * 604800 + tow / 1000 -> fromGPS week tow = UB UB_overflow).
Proof.
  intros Hw Ht. p2. unfold fromGPS. consts. rewrite Z.quot_div_nonneg by lia. rewrite Z.rem_mod_nonneg by lia. split.
  - intros H. rewrite ck32_ok by (p2; lia). cbn [bind]. rewrite ck32_ok by (p2; lia). cbn [bind].
    unfold wrapNsec, nanos. cbn [sec nsec]. consts. rewrite (i64_id (tow mod 1000 * 1000000000)) by (p2; lia).
    replace (tow mod 1000 * 1000000000 <? 0) with false by lia.
    destruct (Z.ltb_spec 1000000000 (tow mod 1000 * 1000000000)).
    + rewrite ck64_ok by (p2; lia). cbn [bind]. rewrite i64_id by (p2; lia). eexists. split; [reflexivity|].
      cbn [sec nsec]. replace (2 <=? tow mod 1000) with true by lia. lia.
    + eexists. split; [reflexivity|]. cbn [sec nsec]. replace (2 <=? tow mod 1000) with false by lia. lia.
  - intros H. destruct (Z.lt_ge_cases (week * 604800) 2147483648) as [H1|H1].
    + rewrite ck32_ok by (p2; lia). cbn [bind]. rewrite ck32_ub by (p2; lia). reflexivity.
    + rewrite ck32_ub by (p2; lia). reflexivity.
Qed.

Lemma GpsWeek_spec t : 315964818 <= sec t < 2 ^ 31 * 604800 ->
  GpsWeek t = Ok ((sec t - 315964818) / 604800).
Proof.
  intros H. p2. unfold GpsWeek. consts. change (315964800 + 18) with 315964818.
  rewrite ck64_ok by (p2; lia). cbn [bind]. rewrite Z.quot_div_nonneg by lia.
  rewrite rnd53_small by (change (2 ^ 53) with 9007199254740992; lia). apply d2i32_ok. p2. lia.
Qed.

Lemma gps_week_roundtrip week tow : 0 <= week <= 3549 -> 0 <= tow < 604800000 ->
  exists t, fromGPS week tow = Ok t /\
    GpsWeek t = Ok (if (604799000 <=? tow) && (2 <=? tow mod 1000) then week + 1 else week) /\
    (nanos t = (315964818 + week * 604800) * 1000000000 + tow * 1000000 <-> tow mod 1000 = 0).
Proof.
  intros Hw Ht. destruct (fromGPS_spec week tow) as [H _]; [lia|p2; lia|].
  destruct H as (t & E & HN & HS); [p2; lia|]. exists t. split; [exact E|]. split.
  - rewrite GpsWeek_spec by (p2; destruct (2 <=? tow mod 1000); lia). f_equal. rewrite HS.
    destruct (Z.leb_spec 2 (tow mod 1000)); destruct (Z.leb_spec 604799000 tow); cbn [andb]; lia.
  - rewrite HN. lia.
Qed.

(* ------------------------------------------------ C34 *)
Lemma glonass_parts ref : 0 <= sec ref + 10800 < 2 ^ 31 * 604800 ->
  GlonassWeek ref = Ok ((sec ref + 10800) / 604800) /\ GlonassDayOfWeek ref = Ok ((sec ref + 10800) mod 604800 / 86400).
Proof.
  intros H. p2. unfold GlonassWeek, GlonassDayOfWeek. consts. change (-3 * 3600) with (-10800).
  replace (sec ref - -10800) with (sec ref + 10800) by lia. rewrite ck64_ok by (p2; lia). cbn [bind].
  rewrite Z.quot_div_nonneg by lia. rewrite rnd53_small by (change (2 ^ 53) with 9007199254740992; lia).
  rewrite d2i32_ok by (p2; lia). rewrite Z.rem_mod_nonneg by lia. rewrite Z.quot_div_nonneg by lia. auto.
Qed.

Lemma tod_spec ref tod : 0 <= sec ref + 10800 < 2147040000 + 604800 -> 0 <= tod < 2 ^ 30 ->
  exists t, fromGlonassTimeOfDay ref tod = Ok t /\
    nanos t = ((sec ref + 10800) / 86400 * 86400 - 10800 + tod / 1000 + tod mod 1000) * 1000000000 /\
    (tod mod 1000 = 0 -> sec t = (sec ref + 10800) / 86400 * 86400 - 10800 + tod / 1000 /\ nsec t = 0).
Proof.
  intros Hr Ht. change (2 ^ 30) with 1073741824 in Ht. destruct (glonass_parts ref) as [E1 E2]; [p2; lia|].
  unfold fromGlonassTimeOfDay. rewrite E1, E2. cbn [bind]. remember (sec ref + 10800) as M.
  assert (Hd : 0 <= M mod 604800 / 86400 <= 6) by lia. assert (Hw : 0 <= M / 604800 <= 3550) by lia.
  rewrite (i32_u32 (M / 604800)) by (p2; lia). consts.
  remember (M mod 604800 / 86400) as d.
  assert (Hu : forall x, 0 <= x < 4294967296 -> u32 x = x) by (intros x Hx; unfold u32; p2; apply Z.mod_small; lia).
  rewrite (Hu d) by lia. rewrite (Hu (d * 86400)) by lia. rewrite (Hu (d * 86400 * 1000)) by lia.
  rewrite (i32_u32 (d * 86400 * 1000 + tod)) by (p2; lia).
  unfold fromGlonass. consts. rewrite ck32_ok by (p2; lia). cbn [bind].
  rewrite Z.quot_div_nonneg, Z.rem_mod_nonneg by lia.
  assert (Hq : (d * 86400 * 1000 + tod) / 1000 = d * 86400 + tod / 1000) by lia.
  assert (Hm : (d * 86400 * 1000 + tod) mod 1000 = tod mod 1000) by lia. rewrite Hq, Hm.
  assert (HD : M / 604800 * 604800 + d * 86400 = M / 86400 * 86400) by lia.
  unfold wrapNsec, nanos. cbn [sec nsec]. consts. rewrite (i64_id (tod mod 1000 * 1000000000)) by (p2; lia).
  replace (tod mod 1000 * 1000000000 <? 0) with false by lia.
  destruct (Z.ltb_spec 1000000000 (tod mod 1000 * 1000000000)).
  - rewrite ck64_ok by (p2; lia). cbn [bind]. rewrite i64_id by (p2; lia). eexists. split; [reflexivity|].
    cbn [sec nsec]. lia.
  - eexists. split; [reflexivity|]. cbn [sec nsec]. lia.
Qed.

Lemma tod_overflow ref tod : 2147040000 + 604800 <= sec ref + 10800 < 2 ^ 31 * 604800 -> fromGlonassTimeOfDay ref tod = UB UB_overflow.
Proof.
  intros Hr. p2. destruct (glonass_parts ref) as [E1 E2]; [p2; lia|].
  unfold fromGlonassTimeOfDay. rewrite E1, E2. cbn [bind].
  rewrite (i32_u32 ((sec ref + 10800) / 604800)) by (p2; lia).
  unfold fromGlonass. consts. rewrite ck32_ub by (p2; lia). reflexivity.
Qed.

Lemma tod_same_day ref tod t : 0 <= sec ref + 10800 < 2147040000 + 604800 -> 0 <= tod < 86400000 -> tod mod 1000 = 0 ->
  fromGlonassTimeOfDay ref tod = Ok t ->
  (sec t + 10800) / 86400 = (sec ref + 10800) / 86400 /\ (sec t + 10800) mod 86400 = tod / 1000 /\ nsec t = 0 /\
  - 86400 < sec t - sec ref < 86400.
Proof.
  intros Hr Ht Hm E. destruct (tod_spec ref tod Hr) as (t' & E' & _ & HS); [change (2 ^ 30) with 1073741824; lia|].
  rewrite E in E'. injection E' as <-. destruct (HS Hm) as [H1 H2]. rewrite H1. lia.
Qed.

(* The header comment promises the closest time; the result can be up to a day away from the reference. *)
Lemma tod_not_closest : exists ref tod t,
  0 <= sec ref + 10800 /\ 0 <= tod < 86400000 /\ fromGlonassTimeOfDay ref tod = Ok t /\
  sec t - sec ref = 86399 /\ Z.abs (sec t - 86400 - sec ref) = 1.
Proof.
  exists (mkUtc (1564012800 - 10800) 0), 86399000, (mkUtc (1564012800 - 10800 + 86399) 0).
  repeat split; try (cbn; lia); vm_compute; congruence.
Qed.

Lemma lt_trans a b c : utc_lt a b = true -> utc_lt b c = true -> utc_lt a c = true.
Proof.
  unfold utc_lt.
  destruct (Z.ltb_spec (sec a) (sec b)), (Z.ltb_spec (sec b) (sec c)), (Z.ltb_spec (sec b) (sec a)), (Z.ltb_spec (sec c) (sec b)),
   (Z.ltb_spec (nsec a) (nsec b)), (Z.ltb_spec (nsec b) (nsec c)), (Z.ltb_spec (sec a) (sec c)), (Z.ltb_spec (sec c) (sec a)),
   (Z.ltb_spec (nsec a) (nsec c)); try reflexivity; try discriminate; lia.
Qed.
Lemma unnormal_unequal s :
  nanos (mkUtc s 1000000000) = nanos (mkUtc (s + 1) 0) /\
  utc_lt (mkUtc s 1000000000) (mkUtc (s + 1) 0) = true /\ utc_eq (mkUtc s 1000000000) (mkUtc (s + 1) 0) = false.
Proof. unfold nanos, utc_lt, utc_eq. cbn [sec nsec]. replace (s <? s + 1) with true by lia. replace (s =? s + 1) with false by lia. split; [lia|auto]. Qed.
