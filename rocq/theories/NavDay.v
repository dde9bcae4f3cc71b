(* Comparisons of time differences through double seconds (utctime.cpp:103-106) are exact. *)
From Verif Require Import Base UtcModel UtcSpec UtcProofs Dbl NavModel NavGloSpec.

Lemma toSec_parts d : normal d -> Z.abs (sec d) <= 2 ^ 52 ->
  exists W, toSec d = mkD W (-82) /\
    (nsec d = 0 -> W = sec d * 2 ^ 82) /\
    (forall K, Z.abs K <= 2 ^ 20 -> (K * 2 ^ 82 < W <-> K * 1000000000 < nanos d) /\ (W < K * 2 ^ 82 <-> nanos d < K * 1000000000)).
Proof.
  intros HN HS. unfold normal in HN. unfold toSec, dadd, dmul, d_of_int, D_1EM9, nanos. cbn [dm de].
  rewrite (rnd53_id (sec d)) by (change (2 ^ 53) with (2 * 2 ^ 52); lia). rewrite (rnd53_id (nsec d)) by (change (2 ^ 53) with 9007199254740992; lia).
  change (Z.min 0 (0 + -82)) with (-82). change (0 - -82) with 82. change (0 + -82 - -82) with 0. change (2 ^ 0) with 1. rewrite Z.mul_1_r.
  set (s := sec d) in *. set (n := nsec d) in *. clearbody s n.
  eexists. split; [reflexivity|].
  pose proof (rnd53_err (n * 4835703278458517)) as E1. set (R := rnd53 (n * 4835703278458517)) in *.
  assert (R0 : n = 0 -> R = 0) by (intros ->; reflexivity).
  pose proof (rnd53_err (s * 2 ^ 82 + R)) as E2.
  assert (X : R = 0 -> rnd53 (s * 2 ^ 82 + R) = s * 2 ^ 82).
  { intros ->. rewrite Z.add_0_r. apply rnd53_exact; [lia|]. change (2 ^ 53) with (2 * 2 ^ 52). lia. }
  set (W := rnd53 (s * 2 ^ 82 + R)) in *. clearbody R W. split; [auto|]. intros K HK.
  change (2 ^ 82) with 4835703278458516698824704 in *. change (2 ^ 53) with 9007199254740992 in *. change (2 ^ 52) with 4503599627370496 in *.
  change (2 ^ 20) with 1048576 in *.
  destruct (Z.eq_dec n 0) as [->|Hn].
  - rewrite X by auto. lia.
  - clear X R0. destruct (Z.lt_ge_cases s K) as [C|C]; lia.
Qed.
Lemma toSec_gt d K : normal d -> Z.abs (sec d) <= 2 ^ 52 -> Z.abs K <= 2 ^ 20 -> dlt (d_of_int K) (toSec d) = (K * 1000000000 <? nanos d).
Proof.
  intros HN HS HK. destruct (toSec_parts d HN HS) as (W & E & _ & H). destruct (H K HK) as [H1 _]. rewrite E. unfold dlt, d_of_int. cbn [dm de].
  rewrite rnd53_id by (change (2 ^ 53) with 9007199254740992; change (2 ^ 20) with 1048576 in HK; lia).
  change (Z.min 0 (-82)) with (-82). change (0 - -82) with 82. change (-82 - -82) with 0. change (2 ^ 0) with 1. rewrite Z.mul_1_r.
  apply eq_true_iff_eq. rewrite !Z.ltb_lt. exact H1.
Qed.
Lemma toSec_lt d K : normal d -> Z.abs (sec d) <= 2 ^ 52 -> Z.abs K <= 2 ^ 20 -> dlt (toSec d) (d_of_int K) = (nanos d <? K * 1000000000).
Proof.
  intros HN HS HK. destruct (toSec_parts d HN HS) as (W & E & _ & H). destruct (H K HK) as [_ H1]. rewrite E. unfold dlt, d_of_int. cbn [dm de].
  rewrite rnd53_id by (change (2 ^ 53) with 9007199254740992; change (2 ^ 20) with 1048576 in HK; lia).
  change (Z.min (-82) 0) with (-82). change (0 - -82) with 82. change (-82 - -82) with 0. change (2 ^ 0) with 1. rewrite Z.mul_1_r.
  apply eq_true_iff_eq. rewrite !Z.ltb_lt. exact H1.
Qed.

Lemma day_fix_ok now t : normal now -> 0 <= sec now < 2 ^ 40 -> Z.abs t < 2 ^ 50 ->
  day_fix now (mkUtc t 0) = Ok (mkUtc (near_day now t) 0).
Proof.
  intros HN HS HT. unfold day_fix.
  destruct (sub_spec now (mkUtc t 0)) as (d & E & HD & _ & HNd).
  { unfold almost_normal, normal in *. lia. } { unfold almost_normal. cbn. lia. } { unfold fits. cbn [sec]. change (2 ^ 63) with (8192 * 2 ^ 50). change (2 ^ 40) with 1099511627776 in HS. lia. }
  rewrite E. cbn [bind]. assert (Nd : normal d) by (apply HNd; [exact HN|unfold normal; cbn; lia]).
  assert (Sd : Z.abs (sec d) <= 2 ^ 52).
  { unfold nanos, normal in *. cbn [sec nsec] in HD. change (2 ^ 52) with (4 * 2 ^ 50). change (2 ^ 40) with 1099511627776 in HS. change (2 ^ 50) with 1125899906842624 in *. lia. }
  rewrite toSec_gt by (assumption || vm_compute; congruence). rewrite toSec_lt by (assumption || vm_compute; congruence).
  rewrite HD. unfold near_day. replace (nanos (mkUtc t 0)) with (t * 1000000000) by (unfold nanos; cbn [sec nsec]; lia).
  destruct (int_ops (mkUtc t 0) 86400) as (_ & _ & P & M); [cbn [sec]; change (2 ^ 52) with (4 * 2 ^ 50); lia|change (2 ^ 31) with 2147483648; lia|].
  cbn [sec nsec] in P, M.
  destruct (43200 * 1000000000 <? nanos now - t * 1000000000); [exact P|].
  destruct (nanos now - t * 1000000000 <? -43200 * 1000000000); [exact M|reflexivity].
Qed.
Lemma near_day_12h now t : Z.abs (nanos now - t * 1000000000) <= 129600 * 1000000000 ->
  Z.abs (nanos now - near_day now t * 1000000000) <= 43200 * 1000000000 /\ (near_day now t - t) mod 86400 = 0.
Proof.
  intros H. unfold near_day. destruct (Z.ltb_spec (43200 * 1000000000) (nanos now - t * 1000000000)).
  - split; [lia|]. replace (t + 86400 - t) with 86400 by lia. reflexivity.
  - destruct (Z.ltb_spec (nanos now - t * 1000000000) (-43200 * 1000000000)).
    + split; [lia|]. replace (t - 86400 - t) with (-86400) by lia. reflexivity.
    + split; [lia|]. rewrite Z.sub_diag. reflexivity.
Qed.
