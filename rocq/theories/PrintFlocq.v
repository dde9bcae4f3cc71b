(* The number format of ExLog.v against Flocq's IEEE 754 formats: for the bits of a binary64 or binary32 number, show64 and show32 print the nearest
   thousandth of Flocq's real value of those bits, with Flocq's sign.  Not a property: it validates the reading of the bits.  Uses the axioms of Coq's Reals. *)
From Coq Require Import String Reals Lra.
From Flocq Require Import Core IEEE754.Binary IEEE754.Bits.
From Verif Require Import Base UtcModel Dbl DblFlocq ExShow ExLog.
Local Open Scope string_scope.
Local Open Scope Z_scope.

Definition dash (s : bool) : string := if s then "-" else "".
Lemma round_div_nearest n d : 0 < d -> ZnearestE (IZR n / IZR d) = round_div n d.
Proof.
  intros Hd. unfold round_div. assert (HdR : (0 < IZR d)%R) by (apply IZR_lt; exact Hd).
  pose proof (Z.div_mod n d ltac:(lia)) as HD. pose proof (Z.mod_pos_bound n d Hd) as HB.
  assert (EF : Zfloor (IZR n / IZR d) = n / d) by (apply (Zfloor_div n d); lia).
  unfold Znearest. rewrite EF. set (q := n / d) in *. set (r := n mod d) in *.
  assert (EX : (IZR n / IZR d - IZR q)%R = (IZR r / IZR d)%R) by (rewrite HD, plus_IZR, mult_IZR; field; lra).
  rewrite EX.
  assert (EC : Rcompare (IZR r / IZR d) (/ 2) = (2 * r ?= d)).
  { replace (IZR r / IZR d)%R with (IZR (2 * r) * (/ (2 * IZR d)))%R by (rewrite mult_IZR; field; lra).
    replace (/ 2)%R with (IZR d * (/ (2 * IZR d)))%R by (field; lra).
    rewrite Rcompare_mult_r; [apply Rcompare_IZR|]. apply Rinv_0_lt_compat. lra. }
  rewrite EC.
  assert (EU : r <> 0 -> Zceil (IZR n / IZR d) = q + 1).
  { intros Hr. rewrite Zceil_floor_neq; rewrite EF; fold q; [reflexivity|]. intros E.
    assert (H : (IZR r / IZR d = 0)%R) by lra. assert (H0 : (IZR r = 0)%R). { apply Rmult_eq_reg_r with (/ IZR d)%R; [|apply Rinv_neq_0_compat; lra]. rewrite Rmult_0_l. exact H. }
    apply eq_IZR in H0. lia. }
  destruct (Z.compare_spec (2 * r) d) as [E|E|E].
  - replace (2 * r <? d) with false by lia. replace (d <? 2 * r) with false by lia. rewrite EU by lia. destruct (Z.even q); reflexivity.
  - replace (2 * r <? d) with true by lia. reflexivity.
  - replace (2 * r <? d) with false by lia. replace (d <? 2 * r) with true by lia. apply EU. lia.
Qed.
Lemma rnd3_nearest m e : 0 <= m -> ZnearestE (1000 * F2R (Float radix2 m e)) = rnd3 m e.
Proof.
  intros Hm. unfold rnd3, F2R. cbn [Fnum Fexp]. destruct (Z.leb_spec 0 e) as [He|He].
  - rewrite (bpow_Z e He). replace (1000 * (IZR m * IZR (2 ^ e)))%R with (IZR (m * 1000 * 2 ^ e)) by (rewrite !mult_IZR; ring).
    apply (@Zrnd_IZR ZnearestE (valid_rnd_N _)).
  - replace (bpow radix2 e) with (/ IZR (2 ^ (- e)))%R by (rewrite <- (bpow_Z (- e)) by lia; rewrite bpow_opp, Rinv_inv; reflexivity).
    replace (1000 * (IZR m * / IZR (2 ^ (- e))))%R with (IZR (m * 1000) / IZR (2 ^ (- e)))%R by (rewrite mult_IZR; unfold Rdiv; ring).
    apply round_div_nearest. apply Z.pow_pos_nonneg; lia.
Qed.
Lemma show_bits mw ew (Hmw : 0 < mw) (Hew : 0 < ew) Hp b :
  let prec := mw + 1 in let emax := 2 ^ (ew - 1) in
  0 <= b < 2 ^ (mw + ew + 1) ->
  let f := binary_float_of_bits mw ew Hmw Hew Hp b in
  let neg := Z.testbit b (mw + ew) in let ex := b / 2 ^ mw mod 2 ^ ew in let fr := b mod 2 ^ mw in
  (if is_finite prec emax f then thousandths (Bsign prec emax f) (ZnearestE (1000 * Rabs (B2R prec emax f)))
   else dash (Bsign prec emax f) ++ (if is_nan prec emax f then "nan" else "inf")) =
  (if ex =? 2 ^ ew - 1 then dash neg ++ (if fr =? 0 then "inf" else "nan")
   else thousandths neg (if ex =? 0 then rnd3 fr (3 - emax - prec) else rnd3 (2 ^ mw + fr) (ex + (3 - emax - prec) - 1))).
Proof.
  intros prec emax Hb f neg ex fr. unfold f, binary_float_of_bits. cbv zeta. fold prec emax.
  rewrite is_finite_FF2B, Bsign_FF2B, B2R_FF2B, is_nan_FF2B. unfold binary_float_of_bits_aux. cbv zeta. fold prec emax.
  unfold split_bits. fold ex fr.
  assert (P1 : 0 < 2 ^ mw) by (apply Z.pow_pos_nonneg; lia). assert (P2 : 0 < 2 ^ ew) by (apply Z.pow_pos_nonneg; lia).
  assert (EN : (2 ^ mw * 2 ^ ew <=? b) = neg).
  { unfold neg. rewrite <- Z.pow_add_r by lia. assert (PP : 0 < 2 ^ (mw + ew)) by (apply Z.pow_pos_nonneg; lia). rewrite Z.pow_add_r in Hb by lia. change (2 ^ 1) with 2 in Hb.
    rewrite Z.testbit_odd, Z.shiftr_div_pow2 by lia. set (p := 2 ^ (mw + ew)) in *. destruct (Z.leb_spec p b) as [H|H].
    - replace (b / p) with 1; [reflexivity|]. apply Z.div_unique with (r := b - p); lia.
    - rewrite Z.div_small by lia. reflexivity. }
  rewrite EN. clearbody neg. pose proof (Z.mod_pos_bound b (2 ^ mw) P1) as B1. fold fr in B1. pose proof (Z.mod_pos_bound (b / 2 ^ mw) (2 ^ ew) P2) as B2. fold ex in B2.
  assert (H2 : 2 <= 2 ^ ew) by (change 2 with (2 ^ 1) at 1; apply Z.pow_le_mono_r; lia).
  assert (EM : SpecFloat.emin prec emax = 3 - emax - prec) by reflexivity. rewrite EM. clear EM. generalize (3 - emax - prec). intros emn. clearbody ex fr. clear Hb f EN.
  assert (A : forall p e, Rabs (F2R (Float radix2 (SpecFloat.cond_Zopp neg (Z.pos p)) e)) = F2R (Float radix2 (Z.pos p) e)).
  { intros p e. rewrite <- F2R_Zabs. f_equal. f_equal. destruct neg; reflexivity. }
  assert (EQ : forall p q, Zbool.Zeq_bool p q = (p =? q)) by (intros p q; unfold Zbool.Zeq_bool, Z.eqb; destruct (Z.eqb_spec p q) as [->|N]; [rewrite Z.compare_refl; destruct q; cbn; rewrite ?Pos.eqb_refl; reflexivity|]; destruct (p ?= q) eqn:C; [apply Z.compare_eq in C; contradiction|..]; symmetry; apply Z.eqb_neq; exact N).
  rewrite !EQ. destruct (Z.eqb_spec ex 0) as [E0|E0].
  - destruct (Z.eqb_spec ex (2 ^ ew - 1)) as [E1|E1]; [lia|]. destruct fr as [|p|p] eqn:EF; [|cbn [is_finite_FF sign_FF FF2R]; rewrite A, rnd3_nearest by lia; reflexivity|lia].
    cbn [is_finite_FF sign_FF FF2R]. rewrite Rabs_R0, Rmult_0_r. f_equal. rewrite <- (rnd3_nearest 0 emn) by lia. rewrite F2R_0, Rmult_0_r. reflexivity.
  - destruct (Z.eqb_spec ex (2 ^ ew - 1)) as [E1|E1].
    + destruct fr as [|p|p] eqn:EF; [reflexivity|reflexivity|lia].
    + destruct (fr + 2 ^ mw) as [|p|p] eqn:EF; [lia| |lia]. cbn [is_finite_FF sign_FF FF2R]. rewrite A, rnd3_nearest by lia. replace (2 ^ mw + fr) with (Z.pos p) by lia. reflexivity.
Qed.
Theorem show64_is_binary64 b : 0 <= b < 2 ^ 64 -> let f := b64_of_bits b in
  show64 b = (if is_finite 53 1024 f then thousandths (Bsign 53 1024 f) (ZnearestE (1000 * Rabs (B2R 53 1024 f)))
              else dash (Bsign 53 1024 f) ++ (if is_nan 53 1024 f then "nan" else "inf")).
Proof.
  intros H f. unfold f, b64_of_bits. symmetry.
  etransitivity; [exact (show_bits 52 11 eq_refl eq_refl eq_refl b H)|]. cbv zeta. change (2 ^ 11) with 2048. change (2048 - 1) with 2047. change (3 - 2 ^ (11 - 1) - (52 + 1)) with (-1074).
  unfold show64. cbv zeta. change (52 + 11) with 63. destruct (b / 2 ^ 52 mod 2048 =? 2047); [reflexivity|].
  replace (b / 2 ^ 52 mod 2048 + -1074 - 1) with (b / 2 ^ 52 mod 2048 - 1075) by lia. reflexivity.
Qed.
Theorem show32_is_binary32 b : 0 <= b < 2 ^ 32 -> let f := b32_of_bits b in
  show32 b = (if is_finite 24 128 f then thousandths (Bsign 24 128 f) (ZnearestE (1000 * Rabs (B2R 24 128 f)))
              else dash (Bsign 24 128 f) ++ (if is_nan 24 128 f then "nan" else "inf")).
Proof.
  intros H f. unfold f, b32_of_bits. symmetry.
  etransitivity; [exact (show_bits 23 8 eq_refl eq_refl eq_refl b H)|]. cbv zeta. change (2 ^ 8) with 256. change (256 - 1) with 255. change (3 - 2 ^ (8 - 1) - (23 + 1)) with (-149).
  unfold show32. cbv zeta. change (23 + 8) with 31. destruct (b / 2 ^ 23 mod 256 =? 255); [reflexivity|].
  replace (b / 2 ^ 23 mod 256 + -149 - 1) with (b / 2 ^ 23 mod 256 - 150) by lia. reflexivity.
Qed.
Print Assumptions show64_is_binary64.
Print Assumptions show32_is_binary32.
