(* IEEE binary64 values used by the code, as dyadic numbers m * 2^e.  Only finite values occur and no operation of the
   modelled code leaves the normal range (every magnitude is 0 or between 2^-120 and 2^70), so an operation is: compute
   exactly, then round the significand to 53 bits, nearest, ties to even (rnd53, UtcModel).  The sign of zero is not
   represented.  Evaluation in binary64 (FLT_EVAL_METHOD 0, no contraction) is assumed, as on x86-64. *)
From Coq Require Import QArith Qabs Qpower.
From Verif Require Import Base UtcModel.
Local Open Scope Z_scope.

Record dbl := mkD { dm : Z; de : Z }.
Definition d_of_int (z : Z) : dbl := mkD (rnd53 z) 0.
Definition dmul (a b : dbl) : dbl := mkD (rnd53 (dm a * dm b)) (de a + de b).
Definition dadd (a b : dbl) : dbl :=
  let e := Z.min (de a) (de b) in mkD (rnd53 (dm a * 2 ^ (de a - e) + dm b * 2 ^ (de b - e))) e.
Definition dlt (a b : dbl) : bool :=
  let e := Z.min (de a) (de b) in dm a * 2 ^ (de a - e) <? dm b * 2 ^ (de b - e).
Definition d0 : dbl := mkD 0 0.
(* the number denoted *)
Definition dQ (d : dbl) : Q := (inject_Z (dm d) * Qpower (2 # 1) (de d))%Q.

(* ------------------------------------------------------------- literals *)
(* d is the binary64 nearest to the decimal literal n * 10^-k (a 53-bit significand within half a unit of its last
   place); the C++ compiler's reading of the literal *)
Definition literal (d : dbl) (n k : Z) : Prop :=
  2 ^ 52 <= dm d < 2 ^ 53 /\ de d < 0 /\ 2 * Z.abs (n * 2 ^ (- de d) - dm d * 10 ^ k) < 10 ^ k.

(* nav.h:152-166 *)
Definition P2_5  : dbl := mkD 4503599627370496 (-57).
Definition P2_11 : dbl := mkD 4503599627370496 (-63).
Definition P2_19 : dbl := mkD 4503599627370496 (-71).
Definition P2_20 : dbl := mkD 4503599627370496 (-72).
Definition P2_29 : dbl := mkD 4503599627370496 (-81).
Definition P2_30 : dbl := mkD 4503599627370496 (-82).
Definition P2_31 : dbl := mkD 4503599627370496 (-83).
Definition P2_32 : dbl := mkD 9007199254740991 (-85).
Definition P2_33 : dbl := mkD 9007199254740991 (-86).
Definition P2_34 : dbl := mkD 9007199254740991 (-87).
Definition P2_40 : dbl := mkD 9007199254740990 (-93).
Definition P2_43 : dbl := mkD 9007199254740990 (-96).
Definition P2_46 : dbl := mkD 9007199254740990 (-99).
Definition P2_55 : dbl := mkD 9007199254740991 (-108).
Definition P2_59 : dbl := mkD 4503599627370504 (-111).
Definition D_PI  : dbl := mkD 7074237752028440 (-51).   (* nav.h:151 PI and <cmath> M_PI, used in decode_gal_inav *)
Definition D_1E3 : dbl := mkD 1000 0.
Definition D_1EM9 : dbl := mkD 4835703278458517 (-82).  (* 1e-9, utctime.cpp:105 *)

(* the same texts as in the source *)
Lemma literals :
  literal P2_5 3125 5 /\ literal P2_11 4882812500000000 19 /\ literal P2_19 1907348632812500 21 /\
  literal P2_20 9536743164062500 22 /\ literal P2_29 1862645149230957 24 /\ literal P2_30 9313225746154785 25 /\
  literal P2_31 4656612873077393 25 /\ literal P2_32 2328306436538696 25 /\ literal P2_33 1164153218269348 25 /\
  literal P2_34 5820766091346740 26 /\ literal P2_40 9094947017729280 28 /\ literal P2_43 1136868377216160 28 /\
  literal P2_46 1421085471520200 29 /\ literal P2_55 2775557561562891 32 /\ literal P2_59 1734723475976810 33 /\
  literal D_PI 31415926535897932 16 /\ literal D_PI 314159265358979323846 20 /\ literal D_1EM9 1 9.
Proof. unfold literal. repeat split; vm_compute; congruence. Qed.

(* toSec utctime.cpp:103-106: (double)sec + (double)nsec * 1e-9 *)
Definition toSec (t : utc) : dbl := dadd (d_of_int (sec t)) (dmul (d_of_int (nsec t)) D_1EM9).

(* ------------------------------------------------------------- rounding *)
Lemma rnd53_err z : 2 ^ 53 * Z.abs (rnd53 z - z) <= Z.abs z.
Proof.
  unfold rnd53. cbv zeta. set (a := Z.abs z). set (e := Z.log2 a - 52).
  destruct (Z.leb_spec e 0) as [He|He].
  { rewrite Z.sub_diag. change (Z.abs 0) with 0. rewrite Z.mul_0_r. unfold a. lia. }
  assert (Ha : 0 < a). { destruct (Z.eq_dec a 0) as [E|E]; [|unfold a in *; lia]. exfalso. unfold e in He. rewrite E in He. cbn in He. lia. }
  pose proof (Z.log2_spec a Ha) as [HL _]. replace (Z.log2 a) with (e + 52) in HL by (unfold e; lia).
  rewrite Z.pow_add_r in HL by lia.
  assert (P52 : 2 ^ 52 = 4503599627370496) by reflexivity. assert (P53 : 2 ^ 53 = 9007199254740992) by reflexivity. rewrite P52 in HL. rewrite P53.
  assert (Hp : 0 < 2 ^ e) by (apply Z.pow_pos_nonneg; lia).
  pose proof (Z.div_mod a (2 ^ e) ltac:(lia)) as HD. pose proof (Z.mod_pos_bound a (2 ^ e) Hp) as HM.
  set (q := a / 2 ^ e) in *. set (r := a mod 2 ^ e) in *. set (p := 2 ^ e) in *. clearbody q r p.
  assert (HS : z = Z.sgn z * a) by (unfold a; destruct z; cbn; lia).
  set (q' := if 2 * r <? p then q else if p <? 2 * r then q + 1 else if Z.even q then q else q + 1).
  assert (HQ : 2 * Z.abs (q' * p - a) <= p).
  { unfold q'. destruct (Z.ltb_spec (2 * r) p); [lia|]. destruct (Z.ltb_spec p (2 * r)); [nia|]. destruct (Z.even q); nia. }
  assert (HA : Z.abs (Z.sgn z * (q' * p) - z) = Z.abs (q' * p - a)).
  { rewrite HS at 2. rewrite <- Z.mul_sub_distr_l, Z.abs_mul. replace (Z.abs (Z.sgn z)) with 1; [lia|]. unfold a in Ha. destruct z; cbn in *; lia. }
  rewrite HA. lia.
Qed.
Lemma rnd53_exact m k : 0 <= k -> Z.abs m <= 2 ^ 53 -> rnd53 (m * 2 ^ k) = m * 2 ^ k.
Proof.
  intros Hk Hm. unfold rnd53. cbv zeta. set (z := m * 2 ^ k). set (a := Z.abs z). set (e := Z.log2 a - 52).
  destruct (Z.leb_spec e 0) as [He|He]; [reflexivity|].
  assert (Ha : 0 < a). { destruct (Z.eq_dec a 0) as [E|E]; [|unfold a in *; lia]. exfalso. unfold e in He. rewrite E in He. cbn in He. lia. }
  assert (Hp : 0 < 2 ^ e) by (apply Z.pow_pos_nonneg; lia).
  assert (Hpk : 0 < 2 ^ k) by (apply Z.pow_pos_nonneg; lia).
  assert (HR : a mod 2 ^ e = 0).
  { destruct (Z.eq_dec (Z.abs m) (2 ^ 53)) as [E|E].
    - assert (Ea : a = 2 ^ (53 + k)). { unfold a, z. rewrite Z.abs_mul, E, (Z.abs_eq (2 ^ k)), Z.pow_add_r by lia. reflexivity. }
      unfold e. rewrite Ea, Z.log2_pow2 by lia. replace (53 + k) with ((k + 1) + 52) at 1 by lia. rewrite (Z.pow_add_r 2 (k + 1) 52) by lia.
      replace (53 + k - 52) with (k + 1) by lia. rewrite Z.mul_comm. apply Z.mod_mul. apply Z.pow_nonzero; lia.
    - assert (He2 : e <= k).
      { unfold e. assert (Ea : a = Z.abs m * 2 ^ k) by (unfold a, z; rewrite Z.abs_mul, (Z.abs_eq (2 ^ k)) by lia; reflexivity).
        assert (Hm0 : 0 < Z.abs m) by (destruct (Z.eq_dec (Z.abs m) 0) as [E0|]; [rewrite E0 in Ea; lia|lia]).
        rewrite Ea, Z.log2_mul_pow2 by lia. assert (Z.log2 (Z.abs m) < 53); [apply Z.log2_lt_pow2; lia|lia]. }
      unfold a, z. rewrite Z.abs_mul, (Z.abs_eq (2 ^ k)) by lia. replace k with ((k - e) + e) at 1 by lia. rewrite Z.pow_add_r by lia. rewrite Z.mul_assoc. apply Z.mod_mul. lia. }
  rewrite HR. replace (2 * 0 <? 2 ^ e) with true by (symmetry; apply Z.ltb_lt; lia).
  pose proof (Z.div_mod a (2 ^ e) ltac:(lia)) as HD. rewrite HR, Z.add_0_r in HD.
  assert (HS : z = Z.sgn z * a) by (unfold a; destruct z; cbn; lia). rewrite HS at 2. f_equal. lia.
Qed.
Lemma rnd53_id z : Z.abs z <= 2 ^ 53 -> rnd53 z = z.
Proof. intros H. pose proof (rnd53_exact z 0 ltac:(lia) H) as E. rewrite Z.mul_1_r in E. exact E. Qed.
