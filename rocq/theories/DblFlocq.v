(* The model's rounding (rnd53, and dmul / dadd / d_of_int built on it) is IEEE binary64 rounding to nearest, ties to
   even, as defined by Flocq on the real numbers.  This file is about the model, not about the code: it removes rnd53
   from what has to be believed.  Uses the axioms of Coq's Reals. *)
From Coq Require Import Reals Lra.
From Flocq Require Import Core.
From Verif Require Import Base UtcModel Dbl UtcDouble.
Local Open Scope Z_scope.

Definition b64 : Z -> Z := FLT_exp (-1074) 53.                       (* binary64's exponent function *)
Definition dR (d : dbl) : R := F2R (Float radix2 (dm d) (de d)).    (* the real number denoted *)

Lemma bpow_Z e : 0 <= e -> bpow radix2 e = IZR (2 ^ e).
Proof. intros H. symmetry. apply (IZR_Zpower radix2 e H). Qed.

Lemma mag_log2 z : 0 < z -> mag_val radix2 (IZR z) (mag radix2 (IZR z)) = Z.log2 z + 1.
Proof.
  intros Hz. apply mag_unique_pos. replace (Z.log2 z + 1 - 1) with (Z.log2 z) by lia.
  pose proof (Z.log2_spec z Hz) as [HL HU]. pose proof (Z.log2_nonneg z).
  rewrite !bpow_Z by lia. split; [apply IZR_le; exact HL|apply IZR_lt; exact HU].
Qed.

Lemma rnd53_flx_pos z : 0 < z -> round radix2 (FLX_exp 53) ZnearestE (IZR z) = IZR (rnd53 z).
Proof.
  intros Hz. unfold round, scaled_mantissa, cexp, F2R. cbn [Fnum Fexp]. rewrite (mag_log2 z Hz).
  unfold FLX_exp. replace (Z.log2 z + 1 - 53) with (Z.log2 z - 52) by lia.
  unfold rnd53. cbv zeta. rewrite (Z.abs_eq z), (Z.sgn_pos z) by lia. set (e := Z.log2 z - 52).
  destruct (Z.leb_spec e 0) as [He|He].
  - assert (E : (IZR z * bpow radix2 (- e))%R = IZR (z * 2 ^ (- e))) by (rewrite bpow_Z by lia; rewrite mult_IZR; reflexivity).
    rewrite E. rewrite (@Zrnd_IZR ZnearestE (valid_rnd_N _)). rewrite mult_IZR, <- (bpow_Z (- e)) by lia. rewrite Rmult_assoc, <- bpow_plus.
    replace (- e + e) with 0 by lia. cbn. ring.
  - assert (Hp : 0 < 2 ^ e) by (apply Z.pow_pos_nonneg; lia). rewrite Z.mul_1_l, mult_IZR, <- (bpow_Z e) by lia. f_equal. f_equal.
    rewrite bpow_opp. rewrite (bpow_Z e) by lia. set (p := 2 ^ e) in *.
    assert (HpR : (0 < IZR p)%R) by (apply IZR_lt; exact Hp).
    pose proof (Z.div_mod z p ltac:(lia)) as HD. pose proof (Z.mod_pos_bound z p Hp) as HB.
    assert (EF : Zfloor (IZR z * / IZR p) = z / p) by (apply (Zfloor_div z p); lia).
    unfold Znearest. rewrite EF. set (q := z / p) in *. set (r := z mod p) in *.
    assert (EX : (IZR z * / IZR p - IZR q)%R = (IZR r / IZR p)%R).
    { rewrite HD, plus_IZR, mult_IZR. field. lra. }
    rewrite EX.
    assert (EC : Rcompare (IZR r / IZR p) (/ 2) = (2 * r ?= p)).
    { replace (IZR r / IZR p)%R with (IZR (2 * r) * (/ (2 * IZR p)))%R by (rewrite mult_IZR; field; lra).
      replace (/ 2)%R with (IZR p * (/ (2 * IZR p)))%R by (field; lra).
      rewrite Rcompare_mult_r; [apply Rcompare_IZR|]. apply Rinv_0_lt_compat. lra. }
    rewrite EC.
    assert (EU : r <> 0 -> Zceil (IZR z * / IZR p) = q + 1).
    { intros Hr. rewrite Zceil_floor_neq; rewrite EF; fold q; [reflexivity|]. intros E.
      assert (IZR r / IZR p = 0)%R by lra. assert (IZR r = 0)%R. { apply Rmult_eq_reg_r with (/ IZR p)%R; [|apply Rinv_neq_0_compat; lra]. rewrite Rmult_0_l. exact H. }
      apply eq_IZR in H0. lia. }
    destruct (Z.compare_spec (2 * r) p) as [E|E|E].
    + replace (2 * r <? p) with false by lia. replace (p <? 2 * r) with false by lia.
      rewrite EU by lia. destruct (Z.even q); reflexivity.
    + replace (2 * r <? p) with true by lia. reflexivity.
    + replace (2 * r <? p) with false by lia. replace (p <? 2 * r) with true by lia. apply EU. lia.
Qed.
Theorem rnd53_flx z : round radix2 (FLX_exp 53) ZnearestE (IZR z) = IZR (rnd53 z).
Proof.
  destruct (Z.lt_trichotomy z 0) as [H|[->|H]]; [|rewrite round_0 by typeclasses eauto; reflexivity|apply rnd53_flx_pos, H].
  pose proof (rnd53_flx_pos (- z) ltac:(lia)) as HP. rewrite rnd53_opp, !opp_IZR in HP. rewrite round_NE_opp in HP. lra.
Qed.

(* scaling by a power of two commutes with rounding when the exponent range is unbounded *)
Lemma flx_scale x e : round radix2 (FLX_exp 53) ZnearestE (x * bpow radix2 e) = (round radix2 (FLX_exp 53) ZnearestE x * bpow radix2 e)%R.
Proof.
  destruct (Req_dec x 0) as [->|Hx]; [rewrite Rmult_0_l, !round_0 by typeclasses eauto; ring|].
  unfold round, scaled_mantissa, cexp, F2R. cbn [Fnum Fexp]. rewrite mag_mult_bpow by exact Hx. unfold FLX_exp.
  set (M := mag_val radix2 x (mag radix2 x)).
  replace (x * bpow radix2 e * bpow radix2 (- (M + e - 53)))%R with (x * bpow radix2 (- (M - 53)))%R.
  2: { rewrite Rmult_assoc, <- bpow_plus. do 2 f_equal. lia. }
  rewrite Rmult_assoc, <- bpow_plus. do 2 f_equal. lia.
Qed.
(* an operation result m * 2^e, rounded: what the model computes is what the hardware computes, in the normal range *)
Theorem rnd53_is_binary64 m e : m = 0 \/ (bpow radix2 (-1022) <= Rabs (F2R (Float radix2 m e)))%R ->
  round radix2 b64 ZnearestE (F2R (Float radix2 m e)) = F2R (Float radix2 (rnd53 m) e).
Proof.
  intros [->|H].
  - rewrite F2R_0. unfold b64. rewrite round_0 by typeclasses eauto. change (rnd53 0) with 0. rewrite F2R_0. reflexivity.
  - unfold b64. rewrite round_FLT_FLX by exact H. unfold F2R. cbn [Fnum Fexp]. rewrite flx_scale, rnd53_flx. reflexivity.
Qed.

Definition in_range (x : R) : Prop := x = 0%R \/ (bpow radix2 (-1022) <= Rabs x)%R.
Lemma F2R_zero m e : F2R (Float radix2 m e) = 0%R -> m = 0.
Proof. apply eq_0_F2R. Qed.
Theorem dmul_is_binary64 a b : in_range (dR a * dR b) -> dR (dmul a b) = round radix2 b64 ZnearestE (dR a * dR b).
Proof.
  unfold dR, dmul. cbn [dm de]. set (x := F2R (Float radix2 (dm a) (de a))). set (y := F2R (Float radix2 (dm b) (de b))).
  assert (E : (x * y)%R = F2R (Float radix2 (dm a * dm b) (de a + de b))).
  { unfold x, y, F2R. cbn [Fnum Fexp]. rewrite mult_IZR, bpow_plus. ring. }
  intros H. rewrite E in *. symmetry. apply rnd53_is_binary64. destruct H as [H|H]; [left; apply F2R_zero in H; exact H|right; exact H].
Qed.
Theorem dadd_is_binary64 a b : in_range (dR a + dR b) -> dR (dadd a b) = round radix2 b64 ZnearestE (dR a + dR b).
Proof.
  unfold dR, dadd. cbn [dm de]. set (e := Z.min (de a) (de b)). set (x := F2R (Float radix2 (dm a) (de a))). set (y := F2R (Float radix2 (dm b) (de b))).
  assert (E : (x + y)%R = F2R (Float radix2 (dm a * 2 ^ (de a - e) + dm b * 2 ^ (de b - e)) e)).
  { unfold x, y. rewrite (F2R_change_exp radix2 e (dm a) (de a)) by lia. rewrite (F2R_change_exp radix2 e (dm b) (de b)) by lia.
    unfold F2R. cbn [Fnum Fexp radix_val radix2]. rewrite plus_IZR. ring. }
  intros H. rewrite E in *. symmetry. apply rnd53_is_binary64. destruct H as [H|H]; [left; apply F2R_zero in H; exact H|right; exact H].
Qed.
(* (double) of a 64-bit integer *)
Theorem d_of_int_is_binary64 z : dR (d_of_int z) = round radix2 b64 ZnearestE (IZR z).
Proof.
  unfold dR, d_of_int. cbn [dm de]. pose proof (rnd53_is_binary64 z 0) as H.
  assert (E : F2R (Float radix2 z 0) = IZR z) by (unfold F2R; cbn; ring). rewrite E in H. symmetry. apply H.
  destruct (Z.eq_dec z 0) as [->|Hz]; [left; reflexivity|right].
  apply Rle_trans with 1%R; [change 1%R with (bpow radix2 0); apply bpow_le; lia|].
  rewrite <- abs_IZR. apply IZR_le. lia.
Qed.
(* comparison *)
Theorem dlt_is_less a b : dlt a b = true <-> (dR a < dR b)%R.
Proof.
  unfold dlt, dR. set (e := Z.min (de a) (de b)).
  rewrite (F2R_change_exp radix2 e (dm a) (de a)) by lia. rewrite (F2R_change_exp radix2 e (dm b) (de b)) by lia.
  cbn [radix_val radix2]. rewrite Z.ltb_lt. split; intros H; [apply F2R_lt; exact H|apply lt_F2R in H; exact H].
Qed.
(* a representable number is one whose significand has 53 bits *)
Theorem is_dbl_format x : is_dbl x -> generic_format radix2 (FLX_exp 53) (dR x).
Proof.
  intros (m & j & Hj & Hm & E). apply generic_format_FLX. exists (Float radix2 m (de x + j)).
  - unfold dR, F2R. cbn [Fnum Fexp]. rewrite E, mult_IZR, bpow_plus, (bpow_Z j) by lia. ring.
  - exact Hm.
Qed.
Print Assumptions rnd53_is_binary64.
Print Assumptions dmul_is_binary64.
Print Assumptions dadd_is_binary64.
Print Assumptions d_of_int_is_binary64.
Print Assumptions dlt_is_less.
